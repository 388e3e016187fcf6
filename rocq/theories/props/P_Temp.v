(** C127: temporary directories. *)
From stdpp Require Import strings list relations.
From Coq Require Import Ascii ZArith Lia.
From Verif.model Require Import GoStr Fs Temp.
From Verif.spec Require Import LibSpec TempSpec.
From Verif.proofs Require Import FsProofs ExtractProofs InstallProofs DownloadProofs.

Local Open Scope string_scope.

Lemma strip_prefix (t q : list string) : strip t (t ++ q)%list = Some q.
Proof. induction t as [|x t IH]; [done|]. cbn [app strip]. by rewrite String.eqb_refl. Qed.

Lemma different_names (t : list string) x y s r : x <> y -> ((t ++ [x]) ++ s)%list <> ((t ++ [y]) ++ r)%list.
Proof. intros H E. rewrite <- !app_assoc in E. apply app_inv_head in E. by injection E as E _. Qed.

Lemma below_new draw now (t : list string) x z s : ~ in_dir ((t ++ [x]) ++ z :: s)%list (temp_dir draw t now).
Proof. intros [r E]. apply (f_equal length) in E. unfold temp_dir in E. rewrite !app_length in E. cbn in E. lia. Qed.

Lemma builds_are draw tmp f0 st : rtc (temp_step draw tmp) (temp_start f0) st ->
  forall d, d ∈ tp_builds st -> exists now, d = temp_dir draw tmp now.
Proof.
  revert st. refine (rtc_ind_r (fun st => forall d, d ∈ tp_builds st -> exists now, d = temp_dir draw tmp now) (temp_start f0) _ _).
  - intros d H. by apply elem_of_nil in H.
  - intros st st' _ Hs IH d. destruct Hs; cbn [tp_builds] in *; try apply IH.
    rewrite elem_of_cons. intros [-> |H']; [by eexists|by apply IH].
Qed.

(** Nothing is put into a directory that is not used for a build. *)
Lemma untouched draw tmp f0 st x : rtc (temp_step draw tmp) (temp_start f0) st ->
  nothing_in f0 (tmp ++ [x])%list -> (tmp ++ [x])%list ∉ tp_builds st ->
  nothing_in (tp_fs st) (tmp ++ [x])%list.
Proof.
  intros H H0. revert st H.
  refine (rtc_ind_r (fun st => (tmp ++ [x])%list ∉ tp_builds st -> nothing_in (tp_fs st) (tmp ++ [x])%list) (temp_start f0) _ _).
  { by intros _. }
  intros st st' Hst Hs IH Hb y s. pose proof (builds_are _ _ _ _ Hst) as Hn.
  destruct Hs as [now f f' bs us Hm|now f f' bs us Hm|f f' bs us Hr]; cbn [tp_fs tp_builds] in *.
  - apply not_elem_of_cons in Hb as [_ Hb]. destruct (mkdir_spec _ _ _ Hm) as (_ & H2 & _). rewrite H2; [by apply IH|].
    apply below_new.
  - destruct (mkdir_spec _ _ _ Hm) as (_ & H2 & _). rewrite H2; [by apply IH|]. apply below_new.
  - destruct (decide (f' ((tmp ++ [x]) ++ y :: s)%list = f ((tmp ++ [x]) ++ y :: s)%list)) as [E|E]; [rewrite E; by apply IH|].
    exfalso. destruct (Hr _ E) as [(d & r & Hd & Eq)|Hno].
    + destruct (Hn d Hd) as [now ->]. unfold temp_dir in *. destruct (decide (random_string draw now 12 = x)) as [<- |Hx]; [done|].
      by apply (different_names tmp x (random_string draw now 12) (y :: s) r) in Eq.
    + rewrite <- app_assoc, strip_prefix in Hno. discriminate Hno.
Qed.

(** Directories that R_LIBS_USER names stay. *)
Lemma users_stay draw tmp f0 st : rtc (temp_step draw tmp) (temp_start f0) st ->
  forall d, d ∈ tp_users st -> d ∉ tp_builds st -> (exists now, d = temp_dir draw tmp now) /\ tp_fs st d = Some Dir.
Proof.
  revert st. refine (rtc_ind_r (fun st => forall d, d ∈ tp_users st -> d ∉ tp_builds st ->
    (exists now, d = temp_dir draw tmp now) /\ tp_fs st d = Some Dir) (temp_start f0) _ _).
  - intros d H. by apply elem_of_nil in H.
  - intros st st' Hst Hs IH d. pose proof (builds_are _ _ _ _ Hst) as Hn.
    destruct Hs as [now f f' bs us Hm|now f f' bs us Hm|f f' bs us Hr]; cbn [tp_fs tp_builds tp_users] in *.
    + intros Hu Hb. apply not_elem_of_cons in Hb as [_ Hb]. destruct (IH d Hu Hb) as [H1 H2]. split; [done|].
      by eapply mkdir_keeps.
    + rewrite elem_of_cons. intros [-> |Hu] Hb; [split; [by eexists|by eapply mkdir_self]|].
      destruct (IH d Hu Hb) as [H1 H2]. split; [done|]. by eapply mkdir_keeps.
    + intros Hu Hb. destruct (IH d Hu Hb) as [[now ->] H2]. split; [by eexists|].
      destruct (decide (f' (temp_dir draw tmp now) = f (temp_dir draw tmp now))) as [E|E]; [by rewrite E|].
      exfalso. destruct (Hr _ E) as [(d & r & Hd & Eq)|Hno].
      * destruct (Hn d Hd) as [t ->]. unfold temp_dir in *.
        destruct (decide (random_string draw t 12 = random_string draw now 12)) as [Hx|Hx]; [by rewrite Hx in Hd|].
        apply (different_names tmp (random_string draw now 12) (random_string draw t 12) [] r); [by intros Hy; symmetry in Hy|]. by rewrite app_nil_r.
      * unfold temp_dir in Hno. rewrite strip_prefix in Hno. discriminate Hno.
Qed.

Lemma letters_spec draw now : (forall t i, draw t i < 25) -> forall len i,
  String.length (letters draw now i len) = len /\ all_chars a_to_y (letters draw now i len).
Proof.
  intros H. induction len as [|n IH]; intros i; [done|]. destruct (IH (S i)) as [H1 H2]. cbn [letters String.length all_chars].
  split; [by rewrite H1|]. split; [|done]. unfold a_to_y. specialize (H now i). rewrite nat_ascii_embedding; lia.
Qed.

(** C127.  In full: the directories used to build packages, and those given to R as
    R_LIBS_USER, are directories of their own directly below the temporary directory,
    and R_LIBS_USER is and stays empty.  Missing: names that were drawn before, be it
    in this run or in an earlier one. *)

Theorem C127_names : forall draw tmp now, (forall t i, draw t i < 25) ->
  exists x, temp_dir draw tmp now = (tmp ++ [x])%list /\ String.length x = 12 /\ all_chars a_to_y x.
Proof.
  intros draw tmp now H. exists (random_string draw now 12). split; [done|]. exact (letters_spec draw now H 12 0).
Qed.
Print Assumptions C127_names.

Theorem C127_user_partial : forall draw tmp f0 st d,
  rtc (temp_step draw tmp) (temp_start f0) st -> d ∈ tp_users st -> d ∉ tp_builds st -> nothing_in f0 d ->
  tp_fs st d = Some Dir /\ nothing_in (tp_fs st) d.
Proof.
  intros draw tmp f0 st d H Hu Hb H0. destruct (users_stay _ _ _ _ H d Hu Hb) as [[now ->] H1]. split; [done|].
  by eapply untouched.
Qed.
Print Assumptions C127_user_partial.

(** A build starts with an empty directory. *)
Theorem C127_build_partial : forall draw tmp f0 st st' d,
  rtc (temp_step draw tmp) (temp_start f0) st -> temp_step draw tmp st st' -> tp_builds st' = d :: tp_builds st ->
  d ∉ tp_builds st -> nothing_in f0 d -> tp_fs st' d = Some Dir /\ nothing_in (tp_fs st') d.
Proof.
  intros draw tmp f0 st st' d H Hs Hb Hd H0.
  assert (forall l : list (list string), l <> d :: l) as Hl.
  { intros l E. apply (f_equal length) in E. cbn in E. lia. }
  destruct Hs as [now f f' bs us Hm|now f f' bs us Hm|f f' bs us Hr]; cbn [tp_fs tp_builds] in *; [|by apply Hl in Hb..].
  injection Hb as <-. split; [by eapply mkdir_self|]. intros x s. destruct (mkdir_spec _ _ _ Hm) as (_ & H2 & _).
  rewrite H2; [|apply below_new]. by apply (untouched _ _ _ _ _ H).
Qed.
Print Assumptions C127_build_partial.

(** The generator is started with the clock at every call.  With two readings that are
    the same, the library of R is the directory in which another package is built,
    whatever the generator. *)
Theorem C127_clock_refuted : forall draw now f0 tmp, mkdir_all (temp_dir draw tmp now) f0 <> None ->
  nothing_in f0 (temp_dir draw tmp now) -> exists st d x,
  rtc (temp_step draw tmp) (temp_start f0) st /\ d ∈ tp_users st /\ d ∈ tp_builds st /\ tp_fs st (d ++ [x])%list = Some Dir.
Proof.
  intros draw now f0 tmp Hm0 H0. destruct (mkdir_all (temp_dir draw tmp now) f0) as [f1|] eqn:Hm; [|done]. clear Hm0.
  set (d := temp_dir draw tmp now) in *.
  set (f2 := fun q => if decide (q = (d ++ ["MASS"])%list) then Some Dir else f1 q).
  assert (f2 (d ++ ["MASS"])%list = Some Dir) as E2 by (unfold f2; by rewrite decide_True).
  destruct (mkdir_all d f2) as [f3|] eqn:Hm3.
  2: { exfalso. unfold mkdir_all in Hm3. destruct (existsb _ _) eqn:E in Hm3; [|done]. apply existsb_exists in E as (a & Ha & E).
       unfold mkdir_all in Hm. destruct (existsb _ _) eqn:Eh in Hm; [done|]. injection Hm as Hm.
       assert (f2 a = f1 a) as Ea.
       { unfold f2. destruct (decide (a = (d ++ ["MASS"])%list)) as [->|]; [|done]. by rewrite E2 in E. }
       rewrite Ea, <- Hm in E. destruct (below a d); [done|].
       assert (existsb (fun a => match f0 a with Some (File _) => true | _ => false end) (prefixes d) = true) as Ex.
       { apply existsb_exists. by exists a. }
       congruence. }
  eexists {| tp_fs := f3; tp_builds := [d]; tp_users := [d] |}, d, "MASS". split; [|split; [by left|split; [by left|by eapply mkdir_keeps]]].
  eapply rtc_l; [by apply tp_build|]. eapply rtc_l; [|eapply rtc_l; [by apply tp_user|apply rtc_refl]].
  apply tp_r. intros q Hq. left. exists d, ["MASS"]. split; [by left|]. unfold f2 in Hq. by destruct (decide (q = (d ++ ["MASS"])%list)).
Qed.
Print Assumptions C127_clock_refuted.

(** A directory left by an earlier run is used again as it is. *)
Theorem C127_leftover_refuted : forall draw now tmp f0 f x n,
  mkdir_all (temp_dir draw tmp now) f0 = Some f -> f0 (temp_dir draw tmp now ++ [x])%list = Some n ->
  exists st, rtc (temp_step draw tmp) (temp_start f0) st /\ tp_users st = [temp_dir draw tmp now] /\ tp_builds st = [] /\
    ~ nothing_in (tp_fs st) (temp_dir draw tmp now).
Proof.
  intros draw now tmp f0 f x n Hm Hx. eexists. split; [eapply rtc_l; [by apply tp_user|apply rtc_refl]|].
  split; [done|]. split; [done|]. intros H. specialize (H x []). cbn [tp_fs] in H.
  destruct (mkdir_spec _ _ _ Hm) as (_ & H2 & _). rewrite H2 in H; [congruence|]. apply below_new.
Qed.
Print Assumptions C127_leftover_refuted.

(** A generator that gives the clock, modulo 25, again and again. *)
Definition same_draw (now : Z) (i : nat) : nat := Z.to_nat (now mod 25).

Example C127_example :
  random_string same_draw 27 12 = "CCCCCCCCCCCC" /\ random_string same_draw 0 12 = "AAAAAAAAAAAA" /\
  exists st, rtc (temp_step same_draw ["tmp"]) (temp_start (fun _ => None)) st /\
    tp_users st = [["tmp"; "AAAAAAAAAAAA"]] /\ tp_builds st = [["tmp"; "CCCCCCCCCCCC"]] /\
    tp_fs st ["tmp"; "CCCCCCCCCCCC"] = Some Dir.
Proof.
  split; [vm_compute; reflexivity|]. split; [vm_compute; reflexivity|]. eexists. split.
  - eapply rtc_l; [apply (tp_build _ _ 27); reflexivity|]. eapply rtc_l; [apply (tp_user _ _ 0); reflexivity|]. apply rtc_refl.
  - split; [vm_compute; reflexivity|]. split; [vm_compute; reflexivity|]. vm_compute. reflexivity.
Qed.
