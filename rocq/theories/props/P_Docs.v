(** C137: the documentation of the commands.  C138: the directory of the package cache. *)
From stdpp Require Import strings list.
From Coq Require Import Ascii Lia.
From Verif.model Require Import GoStr Fs Install Valtools Docs.
From Verif.spec Require Import StrSpec ConfigSpec LibSpec ValSpec DocsSpec.
From Verif.proofs Require Import GoStrLemmas UrlProofs FsProofs ExtractProofs ValProofs DocsProofs.

Local Open Scope string_scope.

(** * C137: after docgen the directory has the documentation of the commands and nothing else

    In full: for every tree of commands there is one file for each command the user sees,
    named such that checkmat finds the entry point for it; older files are gone, and nothing
    outside of the directory changes.  Missing: commands with underscores in their names. *)

Theorem C137_files_partial : forall root dir f f', named root -> gen root dir f = Some f' ->
  (forall words text, visible root words text -> exists x words' text',
     documents x (call words) /\ call words' = call words /\ visible root words' text' /\ f' (dir ++ [x])%list = Some (File text')) /\
  (forall x n, f' (dir ++ [x])%list = Some n -> exists words text, n = File text /\ visible root words text /\ documents x (call words)) /\
  (forall x y r, f' (dir ++ x :: y :: r)%list = None).
Proof.
  intros root dir f f' Hn Hg. destruct (gen_inv _ _ _ _ Hg) as (f1 & -> & H1 & H2 & H3). split; [|split].
  - intros words text Hv. exists (doc_name (call words)).
    pose proof (doc_name_documents _ (call_plain _ _ _ Hn Hv)) as Hd.
    destruct (written dir (documented "" root) f1 (dir ++ [doc_name (call words)])%list) as [(cmd & t & Hin & E & W)|(N & _)].
    + apply app_inv_head in E. injection E as E. apply (root_documented root cmd t Hn) in Hin as (words' & Hv' & ->).
      exists words', t. split; [done|]. split; [|done]. pose proof (doc_name_documents _ (call_plain _ _ _ Hn Hv')) as Hd'.
      rewrite <- E in Hd'. by eapply documents_unique.
    + exfalso. eapply N; [|done]. apply (root_documented root _ text Hn). by exists words.
  - intros x n Hx. destruct (written dir (documented "" root) f1 (dir ++ [x])%list) as [(cmd & t & Hin & E & W)|(_ & W)]; rewrite W in Hx.
    + injection Hx as <-. apply app_inv_head in E. injection E as ->. apply (root_documented root cmd t Hn) in Hin as (words' & Hv' & ->).
      exists words', t. split; [done|]. split; [done|]. apply doc_name_documents. by eapply call_plain.
    + rewrite H2 in Hx; [done|apply longer_not_prefix|by exists [x]].
  - intros x y r. destruct (written dir (documented "" root) f1 (dir ++ x :: y :: r)%list) as [(cmd & t & Hin & E & W)|(_ & ->)].
    + by apply app_inv_head in E.
    + apply H2; [apply longer_not_prefix|by exists (x :: y :: r)].
Qed.

(** Nothing outside changes, except that the directories that lead there are made. *)
Theorem C137_outside : forall root dir f f', gen root dir f = Some f' ->
  forall q, ~ in_dir dir q -> f' q = f q \/ (in_dir q dir /\ f' q = Some Dir).
Proof.
  intros root dir f f' Hg q Hq. destruct (gen_inv _ _ _ _ Hg) as (f1 & -> & H1 & H2 & H3).
  destruct (written dir (documented "" root) f1 q) as [(cmd & t & Hin & -> & W)|(_ & ->)].
  - exfalso. apply Hq. by exists [doc_name cmd].
  - destruct (below q dir) eqn:E.
    + apply below_spec in E. right. split; [done|]. by apply H1.
    + left. apply H3; [|done]. intros Hi. apply below_spec in Hi. congruence.
Qed.

(** A matrix with an entry for each command passes check [05] of checkmat. *)
Theorem C137_matrix : forall root dir f f' es docs, named root -> gen root dir f = Some f' ->
  (forall x, x ∈ docs -> plain_name x /\ f' (dir ++ [x])%list <> None) ->
  (forall words text, visible root words text -> exists e, e ∈ es /\ en_point e = call words) -> check_entries es docs = [].
Proof.
  intros root dir f f' es docs Hn Hg Hd He. destruct (C137_files_partial root dir f f' Hn Hg) as (_ & H & _).
  destruct (check_entries es docs) as [|i l] eqn:E; [done|exfalso].
  assert (i ∈ check_entries es docs) as Hi by (rewrite E; left). clear E. unfold check_entries in Hi.
  apply elem_of_list_fmap in Hi as (x & -> & Hx). apply elem_of_list_In, filter_In in Hx as [Hx Hx']. apply elem_of_list_In in Hx.
  destruct (Hd x Hx) as [Hp Hf]. destruct (f' (dir ++ [x])%list) as [n|] eqn:Ef; [|done].
  destruct (H x n Ef) as (words & text & _ & Hv & Hdoc). destruct (He words text Hv) as (e & Hin & Ep).
  apply negb_true_iff, bool_decide_eq_false in Hx'. apply Hx'. apply elem_of_list_fmap. exists e. split; [|done].
  apply (doc_point_plain x _ Hp). by rewrite Ep.
Qed.

Definition ex_commands : command :=
  Command "pkgr" true "Root" [Command "clean" true "Clean" [Command "cache" true "Cache" []]; Command "debug" false "Debug" []].

Example C137_example :
  named ex_commands /\
  match gen ex_commands ["docs"] (fun q => if decide (q = ["docs"; "pkgr_old.md"]) then Some (File "old") else if decide (q = []) then Some Dir else None) with
  | Some f' => f' ["docs"; "pkgr.md"] = Some (File "Root") /\ f' ["docs"; "pkgr_clean_cache.md"] = Some (File "Cache") /\
      f' ["docs"; "pkgr_debug.md"] = None /\ f' ["docs"; "pkgr_old.md"] = None
  | None => False
  end.
Proof.
  split; [|vm_compute; done].
  assert (forall c s, (forall u v, s <> u +:+ String c v) <-> existsb (fun a => Ascii.eqb a c) (list_ascii_of_string s) = false) as R.
  { intros c s. induction s as [|a s IH]; cbn [list_ascii_of_string existsb].
    - split; [done|]. intros _ u v E. by destruct u.
    - rewrite orb_false_iff, <- IH, Ascii.eqb_neq. split.
      + intros H. split; [intros ->; by apply (H "" s)|]. intros u v ->. by apply (H (String a u) v).
      + intros [H1 H2] u v E. destruct u as [|b u]; cbn in E; injection E as -> E; [done|by apply (H2 u v)]. }
  unfold ex_commands. repeat (constructor; [done|by apply R|by apply R|]; intros d Hd;
    repeat (apply elem_of_cons in Hd as [->|Hd]; [|]); try by apply elem_of_nil in Hd).
Qed.

(** Two commands whose names differ in an underscore and a blank share a file. *)
Theorem C137_underscore_refuted : exists root dir f f', gen root dir f = Some f' /\
  visible root ["pkgr"; "clean"; "cache"] "A" /\ visible root ["pkgr"; "clean_cache"] "B" /\
  (forall x, f' (dir ++ [x])%list <> Some (File "A")).
Proof.
  exists (Command "pkgr" true "Root" [Command "clean" true "Clean" [Command "cache" true "A" []]; Command "clean_cache" true "B" []]), ["docs"],
    (fun q => if decide (q = []) then Some Dir else None).
  eexists. split; [reflexivity|]. split; [|split].
  - eapply vis_below; [by left|by do 3 eexists|]. eapply vis_below; [by left|by do 3 eexists|]. constructor.
  - eapply vis_below; [by right; left|by do 3 eexists|]. constructor.
  - intros x. cbn [app documented flat_map write_docs].
    repeat match goal with |- context [decide (?a = ?b)] => destruct (decide (a = b)) as [E|?]; [by try (vm_compute in E; congruence)|] end.
    vm_compute. done.
Qed.

(** * C138: the directory of the package cache

    In full: NewPackageCache gives an absolute directory that exists, or panics if it must
    work.  Missing: files in the way, and, unless it must work, directories that cannot be
    made. *)

Theorem C138_made_partial : forall cwd dir must allowed f p f',
  new_package_cache cwd dir must allowed f = Some (p, f') ->
  p = resolve cwd dir /\ (forall q, f q <> None -> f' q = f q) /\ (forall q, f' q = f q \/ (in_dir q p /\ f' q = Some Dir)) /\
  ((forall q c, in_dir q p -> f q <> Some (File c)) -> must = true \/ allowed = true -> f' p = Some Dir).
Proof.
  intros cwd dir must allowed f p f' H. unfold new_package_cache in H. set (q0 := resolve cwd dir) in *.
  destruct (stat f q0) eqn:Es.
  - injection H as <- <-. split; [done|]. split; [done|]. split; [by left|]. intros Hn _. unfold stat in Es.
    destruct (under_file f [] q0); [done|]. destruct (f q0) as [[c|]|] eqn:Ef; [|done|done]. exfalso. eapply Hn; [|exact Ef]. exists []. by rewrite app_nil_r.
  - assert (f q0 = None) as Ef by (unfold stat in Es; destruct (under_file f [] q0); [done|by destruct (f q0)]).
    destruct allowed.
    + destruct (mkdir_all q0 f) as [g|] eqn:Em.
      * injection H as <- <-. destruct (mkdir_spec _ _ _ Em) as (H1 & H2 & H3). split; [done|].
        assert (forall q, g q = f q \/ (in_dir q q0 /\ g q = Some Dir)) as A.
        { intros q. destruct (below q q0) eqn:E; [right; apply below_spec in E; auto|left; apply H2; rewrite <- below_spec; congruence]. }
        split; [|split; [done|]].
        -- intros q Hq. destruct (A q) as [|[Hi Hg]]; [done|]. destruct (f q) as [[c|]|] eqn:Ef'; [|by rewrite Hg|done]. by apply (H3 q c) in Ef'.
        -- intros _ _. apply H1. exists []. by rewrite app_nil_r.
      * exfalso. unfold mkdir_all in Em. destruct (existsb _ _) eqn:Ex; [|done]. apply existsb_exists in Ex as (a & Ha & Hf).
        destruct (f a) as [[c|]|] eqn:Efa; try done. unfold stat in Es. destruct (under_file f [] q0) eqn:Eu; [done|].
        assert (in_dir a q0) as [r Hr].
        { clear -Ha. revert a Ha. induction q0 as [|x q0 IH]; intros a Ha; cbn [prefixes] in Ha.
          - destruct Ha as [<-|[]]. by exists [].
          - destruct Ha as [<-|Ha]; [by exists (x :: q0)|]. apply in_map_iff in Ha as (b & <- & Hb). destruct (IH b Hb) as [r ->]. by exists r. }
        destruct r as [|y r]; [rewrite app_nil_r in Hr; subst a; congruence|].
        assert (under_file f [] q0 = true) as Hu; [|congruence]. apply under_file_blocked. exists a, y, r, c. by split.
    + destruct must; [done|]. injection H as <- <-. split; [done|]. split; [done|]. split; [by left|]. by intros _ [?|?].
  - injection H as <- <-. split; [done|]. split; [done|]. split; [by left|]. intros Hn _. unfold stat in Es.
    destruct (under_file f [] q0) eqn:Eu; [|by destruct (f q0)]. apply under_file_blocked in Eu as (a & y & r & c & E & Hf).
    exfalso. eapply (Hn a c); [|exact Hf]. exists (y :: r). exact E.
Qed.

Example C138_example :
  match new_package_cache ["work"] "cache" true true (fun q => if decide (q = [] \/ q = ["work"]) then Some Dir else None) with
  | Some (p, f') => p = ["work"; "cache"] /\ f' ["work"; "cache"] = Some Dir | None => False end.
Proof. vm_compute. done. Qed.

(** A file in the place of the cache is not noticed, although it must work. *)
Theorem C138_file_refuted : exists cwd dir allowed f p f', new_package_cache cwd dir true allowed f = Some (p, f') /\ f' p = Some (File "x").
Proof.
  exists ["work"], "cache", true, (fun q => if decide (q = ["work"; "cache"]) then Some (File "x") else if decide (q = [] \/ q = ["work"]) then Some Dir else None).
  do 2 eexists. split; vm_compute; reflexivity.
Qed.

(** As pkgr calls it (cmd/install.go 96), a cache that cannot be made is not noticed. *)
Theorem C138_install_refuted : exists cwd dir f p, new_package_cache cwd dir false false f = Some (p, f) /\ f p = None.
Proof.
  exists ["work"], "cache", (fun q => if decide (q = [] \/ q = ["work"]) then Some Dir else None). eexists. split; vm_compute; reflexivity.
Qed.

Print Assumptions C137_files_partial.
Print Assumptions C137_outside.
Print Assumptions C137_matrix.
Print Assumptions C137_underscore_refuted.
Print Assumptions C138_made_partial.
Print Assumptions C138_file_refuted.
Print Assumptions C138_install_refuted.
