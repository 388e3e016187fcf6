(** Proofs about the command line. *)
From stdpp Require Import strings list.
From Coq Require Import Ascii ZArith.
From Verif.model Require Import GoStr Customs Flags Cli.
From Verif.spec Require Import CliSpec.
From Verif.proofs Require Import GoStrLemmas.

Local Open Scope string_scope.

Lemma char_eqb_true (a b : ascii) : char_eqb a b = true <-> a = b.
Proof. unfold char_eqb. apply Ascii.eqb_eq. Qed.
Lemma char_eqb_false (a b : ascii) : char_eqb a b = false <-> a <> b.
Proof. unfold char_eqb. apply Ascii.eqb_neq. Qed.

(** ** Names *)

(** A name that cannot be taken for anything else. *)
Fixpoint no_equals (s : string) : bool :=
  match s with "" => true | String c r => negb (char_eqb c "=") && no_equals r end.
Definition name_ok (n : string) : bool := word n && no_equals n.

Lemma split_name n : no_equals n = true -> split_equals n = (n, None).
Proof.
  induction n as [|c r IH]; [done|]. cbn [no_equals split_equals]. intros [H1 H2]%andb_true_iff.
  apply negb_true_iff in H1. rewrite H1, IH by done. done.
Qed.
Lemma split_value n v : no_equals n = true -> split_equals (n +:+ "=" +:+ v) = (n, Some v).
Proof.
  induction n as [|c r IH]; [done|]. cbn [no_equals]. intros [H1 H2]%andb_true_iff.
  apply negb_true_iff in H1. change (String c r +:+ "=" +:+ v) with (String c (r +:+ "=" +:+ v)).
  cbn [split_equals]. rewrite H1, IH by done. done.
Qed.

Lemma shape_long n : n <> "" -> shape_of ("--" +:+ n) = SLong n.
Proof. intros H. cbn. destruct (String.eqb n "") eqn:E; [by apply String.eqb_eq in E|done]. Qed.
Lemma name_not_empty n : name_ok n = true -> n <> "".
Proof. unfold name_ok. by destruct n. Qed.
Lemma name_first n : name_ok n = true -> exists c r, n = String c r /\ char_eqb c "-" = false /\ char_eqb c "=" = false /\ no_equals n = true.
Proof.
  unfold name_ok. destruct n as [|c r]; [done|]. cbn [word no_equals]. intros [H1 H2]%andb_true_iff.
  exists c, r. apply negb_true_iff in H1. split; [done|]. split; [done|].
  apply andb_true_iff in H2 as [H2 H3]. apply negb_true_iff in H2. split; [done|]. by rewrite H2, H3.
Qed.

Lemma flag_named_in fl n f : flag_named fl n = Some f -> f ∈ fl /\ cf_name f = n.
Proof.
  unfold flag_named. intros H. apply find_some in H as [H1 H2]. apply String.eqb_eq in H2. split; [by apply elem_of_list_In|done].
Qed.

(** All names of flags are in order. *)
Definition names_ok (fl : list cli_flag) : Prop := Forall (fun f => name_ok (cf_name f) = true) fl.
Lemma named_ok fl n f : names_ok fl -> flag_named fl n = Some f -> name_ok n = true.
Proof. intros H [Hin <-]%flag_named_in. unfold names_ok in H. rewrite Forall_forall in H. by apply H. Qed.

Lemma word_shape w c r : w = String c r -> c <> "-"%char -> shape_of w = SWord /\ word w = true.
Proof. intros -> H. cbn. apply char_eqb_false in H. by rewrite H. Qed.

Lemma readable_ok int f v : readable int f v -> value_ok int (cf_kind f) v = true.
Proof. unfold readable, value_ok. destruct (cf_kind f); [|done|]; intros [x ->]; done. Qed.

(** ** Reading the flags *)
Lemma line_app ts1 ts2 : line_of (ts1 ++ ts2) = (line_of ts1 ++ line_of ts2)%list.
Proof. unfold line_of. by rewrite map_app, concat_app. Qed.
Lemma words_app ts1 ts2 : words_of (ts1 ++ ts2) = (words_of ts1 ++ words_of ts2)%list.
Proof. unfold words_of. by rewrite map_app, concat_app. Qed.
Lemma given_app ts1 ts2 : given_in (ts1 ++ ts2) = (given_in ts1 ++ given_in ts2)%list.
Proof. unfold given_in. by rewrite map_app, concat_app. Qed.
Lemma line_cons t ts : line_of (t :: ts) = (written_as t ++ line_of ts)%list.
Proof. done. Qed.

Lemma words_cons t ts : words_of (t :: ts) = (words_of [t] ++ words_of ts)%list.
Proof. apply (words_app [t] ts). Qed.
Lemma given_cons t ts : given_in (t :: ts) = (given_in [t] ++ given_in ts)%list.
Proof. apply (given_app [t] ts). Qed.

Lemma parse_line int fl ts : names_ok fl -> Forall (proper int fl) ts -> parse_args int fl (line_of ts) = Some (given_in ts, words_of ts).
Proof.
  intros Hn H. induction H as [|t ts Ht _ IH]; [done|].
  rewrite line_cons. rewrite (given_cons t ts).
  rewrite (words_cons t ts).
  destruct t as [w|n v|n|n v]; cbn [proper] in Ht; cbn [written_as app].
  - destruct Ht as (c & r & E & Hc). destruct (word_shape w c r E Hc) as [E1 E2].
    cbn [parse_args]. rewrite E1, IH. done.
  - destruct Ht as (f & Hf & Hv). pose proof (named_ok fl n f Hn Hf) as Hok.
    destruct (name_first n Hok) as (c & r & E & N1 & N2 & N3). destruct (flag_named_in _ _ _ Hf) as [_ Hname].
    assert (exists y, n +:+ "=" +:+ v = String c y) as [y Ey] by (rewrite E; eexists; reflexivity).
    cbn [parse_args]. rewrite shape_long by (rewrite Ey; done).
    rewrite Ey, N1, N2. cbn [orb]. rewrite <- Ey, split_value by done.
    rewrite Hf, IH. unfold put. rewrite readable_ok by done. rewrite Hname. done.
  - destruct Ht as (f & Hf & Hk). pose proof (named_ok fl n f Hn Hf) as Hok.
    destruct (name_first n Hok) as (c & r & E & N1 & N2 & N3). destruct (flag_named_in _ _ _ Hf) as [_ Hname].
    cbn [parse_args]. rewrite shape_long by (rewrite E; done). rewrite E. rewrite N1, N2. cbn [orb]. rewrite <- E, split_name by done.
    rewrite Hf. unfold is_switch. rewrite Hk, IH. unfold put, value_ok. rewrite Hk, Hname. done.
  - destruct Ht as (f & Hf & Hk & Hv). pose proof (named_ok fl n f Hn Hf) as Hok.
    destruct (name_first n Hok) as (c & r & E & N1 & N2 & N3). destruct (flag_named_in _ _ _ Hf) as [_ Hname].
    cbn [parse_args]. rewrite shape_long by (rewrite E; done). rewrite E. rewrite N1, N2. cbn [orb]. rewrite <- E, split_name by done.
    rewrite Hf. assert (is_switch f = false) as -> by (unfold is_switch; by destruct (cf_kind f)).
    rewrite IH. unfold put. rewrite readable_ok by done. rewrite Hname. done.
Qed.

(** ** Finding the command *)

(** What [takes_next] says about what is written; all names are in order. *)
Definition named (t : token) : Prop :=
  match t with
  | TWord w => exists c r, w = String c r /\ c <> "-"%char
  | TSet n _ | TSwitch n | TNext n _ => name_ok n = true
  end.

Lemma proper_named int fl t : names_ok fl -> proper int fl t -> named t.
Proof.
  intros Hn. destruct t as [w|n v|n|n v]; cbn; [done|..].
  - intros (f & Hf & _). by eapply named_ok.
  - intros (f & Hf & _). by eapply named_ok.
  - intros (f & Hf & _). by eapply named_ok.
Qed.

Lemma next_set fl n v : name_ok n = true -> takes_next fl ("--" +:+ n +:+ "=" +:+ v) = false /\
  shape_of ("--" +:+ n +:+ "=" +:+ v) = SLong (n +:+ "=" +:+ v) /\ word ("--" +:+ n +:+ "=" +:+ v) = false.
Proof.
  intros Hok. destruct (name_first n Hok) as (c & r & E & N1 & N2 & N3).
  assert (shape_of ("--" +:+ n +:+ "=" +:+ v) = SLong (n +:+ "=" +:+ v)) as Es by (apply shape_long; rewrite E; done).
  split; [|by split]. unfold takes_next. rewrite Es, split_value by done. done.
Qed.
Lemma next_name fl n f : name_ok n = true -> flag_named fl n = Some f ->
  takes_next fl ("--" +:+ n) = negb (is_switch f) /\ shape_of ("--" +:+ n) = SLong n /\ word ("--" +:+ n) = false.
Proof.
  intros Hok Hf. pose proof (name_not_empty n Hok) as Hne. destruct (name_first n Hok) as (c & r & E & N1 & N2 & N3).
  split; [|split; [by apply shape_long|done]]. unfold takes_next. rewrite shape_long, split_name by done. by rewrite Hf.
Qed.
Lemma next_word fl w c r : w = String c r -> c <> "-"%char -> takes_next fl w = false.
Proof. intros E H. unfold takes_next. by destruct (word_shape w c r E H) as [-> _]. Qed.

Lemma strip_line fl ts more : Forall named ts -> Forall (known fl) ts ->
  strip_flags fl (line_of ts ++ more) = (words_of ts ++ strip_flags fl more)%list.
Proof.
  intros H K. induction ts as [|t ts IH]; [done|]. apply Forall_cons in H as [Ht H]. apply Forall_cons in K as [Kt K].
  specialize (IH H K). rewrite line_cons. rewrite (words_cons t ts).
  rewrite <- app_assoc.
  destruct t as [w|n v|n|n v]; cbn [named known] in Ht, Kt; cbn [written_as app].
  - destruct Ht as (c & r & E & Hc). destruct (word_shape w c r E Hc) as [E1 E2].
    cbn [strip_flags]. rewrite E1, (next_word fl w c r E Hc), E2, IH. done.
  - destruct (next_set fl n v Ht) as (E1 & E2 & E3). cbn [strip_flags]. rewrite E2, E1, E3, IH. done.
  - destruct Kt as (f & Hf & Hk). destruct (next_name fl n f Ht Hf) as (E1 & E2 & E3).
    cbn [strip_flags]. rewrite E2, E1, E3. unfold is_switch. rewrite Hk. cbn [negb]. rewrite IH. done.
  - destruct Kt as (f & Hf & Hk). destruct (next_name fl n f Ht Hf) as (E1 & E2 & E3).
    cbn [strip_flags]. rewrite E2, E1. assert (is_switch f = false) as -> by (unfold is_switch; by destruct (cf_kind f)).
    cbn [negb]. rewrite IH. done.
Qed.

Lemma minus_line fl ts x more : Forall named ts -> Forall (known fl) ts -> words_of ts = [] ->
  (exists c r, x = String c r /\ c <> "-"%char) ->
  minus_first fl (line_of ts ++ x :: more) x = (line_of ts ++ more)%list.
Proof.
  intros H K Hw Hx. induction ts as [|t ts IH].
  - cbn [line_of map concat app minus_first]. destruct Hx as (c & r & E & Hc). destruct (word_shape x c r E Hc) as [E1 E2].
    rewrite E1, (next_word fl x c r E Hc), E2, String.eqb_refl. done.
  - apply Forall_cons in H as [Ht H]. apply Forall_cons in K as [Kt K].
    rewrite words_cons in Hw. apply app_nil in Hw as [Hw1 Hw2].
    specialize (IH H K Hw2). rewrite line_cons, <- !app_assoc.
    destruct t as [w|n v|n|n v]; cbn [named known] in Ht, Kt; cbn [written_as app].
    + done.
    + destruct (next_set fl n v Ht) as (E1 & E2 & E3). cbn [minus_first]. rewrite E2, E1, E3, IH. done.
    + destruct Kt as (f & Hf & Hk). destruct (next_name fl n f Ht Hf) as (E1 & E2 & E3).
      cbn [minus_first]. rewrite E2, E1, E3. unfold is_switch. rewrite Hk. cbn [negb andb]. rewrite IH. done.
    + destruct Kt as (f & Hf & Hk). destruct (next_name fl n f Ht Hf) as (E1 & E2 & E3).
      cbn [minus_first]. rewrite E2, E1. assert (is_switch f = false) as -> by (unfold is_switch; by destruct (cf_kind f)).
      cbn [negb]. rewrite IH. done.
Qed.

(** The first words of a line. *)
Lemma first_word ts w ws : words_of ts = w :: ws ->
  exists a b, ts = (a ++ TWord w :: b)%list /\ words_of a = [] /\ words_of b = ws.
Proof.
  induction ts as [|t ts IH]; [done|]. destruct t as [x|n v|n|n v]; cbn [words_of map concat app].
  - intros H. injection H as -> <-. by exists [], ts.
  - intros H. destruct (IH H) as (a & b & -> & Ha & Hb). by exists (TSet n v :: a), b.
  - intros H. destruct (IH H) as (a & b & -> & Ha & Hb). by exists (TSwitch n :: a), b.
  - intros H. destruct (IH H) as (a & b & -> & Ha & Hb). by exists (TNext n v :: a), b.
Qed.

(** Flags that are handed down are known everywhere below: by the command itself there are
    no others of the same name. *)
Fixpoint down_ok (fuel : nat) (g inh : list cli_flag) (c : cli_command) : bool :=
  match fuel with
  | 0 => false
  | S fuel' =>
      forallb (fun f => match flag_named (flags_at inh c) (cf_name f) with
                        | Some f' => match cf_kind f, cf_kind f' with KBool, KBool => true | KString, KString => true | KInt, KInt => true | _, _ => false end
                        | None => false end) g &&
      forallb (down_ok fuel' g (cc_down c ++ inh)%list) (cc_below c)
  end.

Lemma down_known fuel g inh c t : down_ok fuel g inh c = true -> known g t -> known (flags_at inh c) t.
Proof.
  destruct fuel as [|fuel]; [done|]. cbn [down_ok]. intros [H _]%andb_true_iff. rewrite forallb_forall in H.
  destruct t as [w|n v|n|n v]; cbn [known]; [done|done|..].
  - intros (f & Hf & Hk). destruct (flag_named_in _ _ _ Hf) as [Hin <-]. apply elem_of_list_In in Hin.
    specialize (H f Hin). destruct (flag_named (flags_at inh c) (cf_name f)) as [f'|]; [|done]. exists f'. split; [done|].
    rewrite Hk in H. by destruct (cf_kind f').
  - intros (f & Hf & Hk). destruct (flag_named_in _ _ _ Hf) as [Hin <-]. apply elem_of_list_In in Hin.
    specialize (H f Hin). destruct (flag_named (flags_at inh c) (cf_name f)) as [f'|]; [|done]. exists f'. split; [done|].
    destruct (cf_kind f); [done|..]; by destruct (cf_kind f').
Qed.

Lemma next_below n c c' : find_next n (cc_below c) = Some c' -> In c' (cc_below c).
Proof. unfold find_next. intros H. by apply find_some in H as [H _]. Qed.

Lemma down_below fuel g inh c n c' : down_ok fuel g inh c = true -> find_next n (cc_below c) = Some c' ->
  exists fuel', down_ok fuel' g (cc_down c ++ inh)%list c' = true.
Proof.
  destruct fuel as [|fuel]; [done|]. cbn [down_ok]. intros [_ H]%andb_true_iff Hn. exists fuel.
  rewrite forallb_forall in H. apply H. by eapply next_below.
Qed.

(** The command of a line is found. *)
Lemma find_line g fuel : forall p inh c inh' c' pre last post k,
  down_ok k g inh c = true ->
  command_at inh c p = Some (inh', c') -> p = (words_of pre ++ [last])%list ->
  Forall named pre -> Forall (known g) pre -> named (TWord last) -> Forall named post ->
  (cc_below c' = [] \/ (Forall (known (flags_at inh' c')) post /\ forall x, head (words_of post) = Some x -> find_next x (cc_below c') = None)) ->
  length p < fuel ->
  exists rest, find_command fuel inh c (line_of pre ++ last :: line_of post) = (p, inh', c', line_of rest) /\
    words_of rest = words_of post /\ given_in rest = (given_in pre ++ given_in post)%list /\ Forall (fun t => t ∈ (pre ++ post)%list) rest.
Proof.
  induction fuel as [|fuel IH]; intros p inh c inh' c' pre last post k Hd Hc Hp Np Kp Nl Npost Hend Hlen; [lia|].
  pose proof (fun t => down_known k g inh c t Hd) as Kd.
  assert (Forall (known (flags_at inh c)) pre) as Kpre by (eapply Forall_impl; [exact Kp|exact Kd]).
  destruct p as [|w p]; [by destruct (words_of pre)|].
  cbn [command_at] in Hc. destruct (find_next w (cc_below c)) as [c1|] eqn:En; [|done].
  destruct (down_below k g inh c w c1 Hd En) as [k' Hd'].
  cbn [find_command]. rewrite strip_line by done.
  destruct (words_of pre) as [|w' ws] eqn:Ew.
  - (* the last word of the command *)
    injection Hp as -> ->. cbn [command_at] in Hc. injection Hc as <- <-.
    destruct Nl as (a & r & El & Ha). destruct (word_shape last a r El Ha) as [S1 S2].
    cbn [app strip_flags]. rewrite S1, (next_word _ last a r El Ha), S2, En.
    rewrite minus_line by (done || (by exists a, r)).
    assert (find_command fuel (cc_down c ++ inh)%list c1 (line_of pre ++ line_of post) =
            ([], (cc_down c ++ inh)%list, c1, (line_of pre ++ line_of post)%list)) as ->.
    { destruct fuel as [|fuel']; [done|]. cbn [find_command].
      destruct Hend as [Hend|[Kpost Hend]].
      - destruct (strip_flags _ _); [done|]. by rewrite Hend.
      - assert (Forall (known (flags_at (cc_down c ++ inh) c1)) pre) as Kpre1.
        { eapply Forall_impl; [exact Kp|]. intros t. apply (down_known k' g _ _ t Hd'). }
        rewrite strip_line by done. rewrite Ew. cbn [app].
        replace (line_of post) with (line_of post ++ [])%list at 1 by apply app_nil_r. rewrite strip_line by done.
        cbn [strip_flags]. rewrite app_nil_r.
        destruct (words_of post) as [|u l]; [done|]. by rewrite (Hend u). }
    exists (pre ++ post)%list. rewrite line_app, words_app, Ew, given_app. split; [done|]. split; [done|]. split; [done|].
    apply Forall_forall. done.
  - (* a word in front *)
    cbn [app] in Hp. injection Hp as -> ->.
    cbn [app]. rewrite En.
    destruct (first_word pre w' ws Ew) as (a & b & -> & Ha & Hb).
    apply Forall_app in Np as [Na Nb]. apply Forall_cons in Nb as [Nw Nb].
    apply Forall_app in Kp as [Ka Kb]. apply Forall_cons in Kb as [_ Kb].
    apply Forall_app in Kpre as [Kpa _].
    rewrite line_app, line_cons. cbn [written_as]. rewrite <- !app_assoc. cbn [app].
    rewrite minus_line by done. rewrite app_assoc, <- line_app.
    edestruct (IH (ws ++ [last])%list _ c1 inh' c' (a ++ b)%list last post k' Hd' Hc) as (rest & R1 & R2 & R3 & R4).
    + by rewrite words_app, Ha, Hb.
    + by apply Forall_app.
    + by apply Forall_app.
    + done.
    + done.
    + done.
    + cbn [length] in Hlen. lia.
    + rewrite R1. exists rest. split; [done|]. split; [done|]. split.
      * rewrite R3, !given_app. done.
      * eapply Forall_impl; [exact R4|]. intros t Ht. cbn beta in Ht |- *. rewrite !elem_of_app in Ht.
        rewrite ?elem_of_app, ?elem_of_cons, ?elem_of_app. tauto.
Qed.

(** ** Facts about pkgr *)
Lemma pkgr_down : down_ok 3 (cc_down pkgr) [] pkgr = true.
Proof. by vm_compute. Qed.

Fixpoint all_named (fuel : nat) (inh : list cli_flag) (c : cli_command) : bool :=
  match fuel with
  | 0 => false
  | S fuel' => forallb (fun f => name_ok (cf_name f)) (help_flag :: flags_at inh c) &&
      forallb (all_named fuel' (cc_down c ++ inh)%list) (cc_below c)
  end.
Lemma pkgr_named : all_named 3 [] pkgr = true.
Proof. by vm_compute. Qed.

Lemma all_named_at fuel : forall inh c p inh' c', all_named fuel inh c = true -> command_at inh c p = Some (inh', c') ->
  names_ok (help_flag :: flags_at inh' c').
Proof.
  induction fuel as [|fuel IH]; intros inh c p inh' c' H Hc; [done|].
  cbn [all_named] in H. apply andb_true_iff in H as [H1 H2].
  destruct p as [|w p]; cbn [command_at] in Hc.
  - injection Hc as <- <-. unfold names_ok. apply Forall_forall. intros f Hf. rewrite forallb_forall in H1. apply H1. by apply elem_of_list_In.
  - destruct (find_next w (cc_below c)) as [c1|] eqn:En; [|done]. rewrite forallb_forall in H2.
    eapply IH; [|exact Hc]. apply H2. by eapply next_below.
Qed.

(** What was found is a command. *)
Lemma find_is_command fuel : forall inh c args p inh' c' rest,
  find_command fuel inh c args = (p, inh', c', rest) -> command_at inh c p = Some (inh', c').
Proof.
  induction fuel as [|fuel IH]; intros inh c args p inh' c' rest; cbn [find_command].
  - intros H. by injection H as <- <- <- <-.
  - destruct (strip_flags (flags_at inh c) args) as [|w l]; [intros H; by injection H as <- <- <- <-|].
    destruct (find_next w (cc_below c)) as [c1|] eqn:En; [|intros H; by injection H as <- <- <- <-].
    destruct (find_command fuel (cc_down c ++ inh) c1 _) as [[[p1 i1] c2] a] eqn:E. intros H. injection H as <- <- <- <-.
    cbn [command_at]. rewrite En. by eapply IH.
Qed.

(** ** What was read *)
Lemma letters_sound int fl s l : parse_letters int fl s = Some l -> (forall f, f ∈ fl -> is_Some (cf_short f) -> cf_kind f = KBool) ->
  forall n v, (n, v) ∈ l -> exists f, f ∈ fl /\ cf_name f = n /\ readable int f v.
Proof.
  intros H Hb. revert l H. induction s as [|c r IH]; intros l H n v Hin.
  - injection H as <-. by apply elem_of_nil in Hin.
  - cbn [parse_letters] in H. destruct (flag_lettered fl c) as [f|] eqn:Ef; [|done].
    assert (f ∈ fl /\ is_Some (cf_short f)) as [Hf Hs].
    { unfold flag_lettered in Ef. apply find_some in Ef as [E1 E2]. split; [by apply elem_of_list_In|]. by destruct (cf_short f). }
    pose proof (Hb f Hf Hs) as Hk.
    assert (forall l', parse_letters int fl r = Some l' -> (n, v) ∈ (cf_name f, "true") :: l' -> exists f0, f0 ∈ fl /\ cf_name f0 = n /\ readable int f0 v) as G.
    { intros l' Hl' Hin'. apply elem_of_cons in Hin' as [E|Hin'].
      - injection E as -> ->. exists f. split; [done|]. split; [done|]. unfold readable. rewrite Hk. by exists true.
      - by eapply IH. }
    destruct r as [|d [|e w]].
    + destruct (parse_letters int fl "") as [l'|] eqn:El; [|done]. injection H as <-. by apply (G l').
    + destruct (parse_letters int fl (String d "")) as [l'|] eqn:El; [|done]. injection H as <-. by apply (G l').
    + destruct (char_eqb d "=").
      * destruct (value_ok int (cf_kind f) (String e w)) eqn:Ev; [|done]. injection H as <-.
        apply elem_of_list_singleton in Hin. injection Hin as -> ->. exists f. split; [done|]. split; [done|].
        unfold readable. rewrite Hk in Ev |- *. unfold value_ok in Ev. destruct (parse_bool (String e w)); [by eexists|done].
      * destruct (parse_letters int fl (String d (String e w))) as [l'|] eqn:El; [|done]. injection H as <-. by apply (G l').
Qed.

Lemma value_readable int f v : value_ok int (cf_kind f) v = true -> readable int f v.
Proof. unfold readable, value_ok. destruct (cf_kind f); [|done|]; [destruct (parse_bool v)|destruct (int v)]; done. Qed.

Lemma parse_sound int fl : (forall f, f ∈ fl -> is_Some (cf_short f) -> cf_kind f = KBool) ->
  forall k args, length args <= k -> forall given words, parse_args int fl args = Some (given, words) ->
  forall n v, (n, v) ∈ given -> exists f, f ∈ fl /\ cf_name f = n /\ readable int f v.
Proof.
  intros Hb. induction k as [|k IH]; intros args Hlen given words H n v Hin.
  - destruct args; [|cbn in Hlen; lia]. injection H as <- <-. by apply elem_of_nil in Hin.
  - destruct args as [|s rest]; [injection H as <- <-; by apply elem_of_nil in Hin|].
    cbn [length] in Hlen.
    assert (forall f w given' words' rest', flag_named fl (cf_name f) = Some f \/ f ∈ fl -> length rest' <= k ->
      put int f w (parse_args int fl rest') = Some (given', words') -> (n, v) ∈ given' -> exists f, f ∈ fl /\ cf_name f = n /\ readable int f v) as G.
    { intros f w given' words' rest' Hf Hr Hput Hin'.
      assert (f ∈ fl) as Hf' by (destruct Hf as [Hf|Hf]; [by apply flag_named_in in Hf as [? _]|done]).
      unfold put in Hput. destruct (value_ok int (cf_kind f) w) eqn:Ev; [|done].
      destruct (parse_args int fl rest') as [[g2 w2]|] eqn:E2; [|done]. injection Hput as <- <-.
      apply elem_of_cons in Hin' as [E|Hin'].
      - injection E as -> ->. exists f. split; [done|]. split; [done|]. by apply value_readable.
      - by eapply (IH rest'). }
    cbn [parse_args] in H. destruct (shape_of s) as [| |r|r].
    + destruct (parse_args int fl rest) as [[g2 w2]|] eqn:E2; [|done]. injection H as <- <-. eapply (IH rest); [lia|exact E2|done].
    + injection H as <- <-. by apply elem_of_nil in Hin.
    + destruct r as [|c r']; [done|]. destruct (char_eqb c "-" || char_eqb c "="); [done|].
      destruct (split_equals (String c r')) as [m o]. destruct (flag_named fl m) as [f|] eqn:Ef; [|done].
      apply flag_named_in in Ef as [Hf _]. destruct o as [w|].
      * eapply (G f w given words rest); [by right|lia|done|done].
      * destruct (is_switch f).
        -- eapply (G f "true" given words rest); [by right|lia|done|done].
        -- destruct rest as [|w rest']; [done|]. cbn [length] in Hlen. eapply (G f w given words rest'); [by right|lia|done|done].
    + destruct (parse_letters int fl r) as [l|] eqn:El; [|done]. destruct (parse_args int fl rest) as [[g2 w2]|] eqn:E2; [|done].
      injection H as <- <-. apply elem_of_app in Hin as [Hin|Hin].
      * by eapply letters_sound.
      * eapply (IH rest); [lia|exact E2|done].
Qed.

Fixpoint letters_are_switches (fuel : nat) (inh : list cli_flag) (c : cli_command) : bool :=
  match fuel with
  | 0 => false
  | S fuel' => forallb (fun f => match cf_short f with Some _ => is_switch f | None => true end) (help_flag :: flags_at inh c) &&
      forallb (letters_are_switches fuel' (cc_down c ++ inh)%list) (cc_below c)
  end.
Lemma pkgr_letters : letters_are_switches 3 [] pkgr = true.
Proof. by vm_compute. Qed.
Lemma letters_at fuel : forall inh c p inh' c', letters_are_switches fuel inh c = true -> command_at inh c p = Some (inh', c') ->
  forall f, f ∈ help_flag :: flags_at inh' c' -> is_Some (cf_short f) -> cf_kind f = KBool.
Proof.
  induction fuel as [|fuel IH]; intros inh c p inh' c' H Hc; [done|].
  cbn [letters_are_switches] in H. apply andb_true_iff in H as [H1 H2].
  destruct p as [|w p]; cbn [command_at] in Hc.
  - injection Hc as <- <-. intros f Hf [x Hx]. rewrite forallb_forall in H1. apply elem_of_list_In in Hf. specialize (H1 f Hf).
    rewrite Hx in H1. unfold is_switch in H1. by destruct (cf_kind f).
  - destruct (find_next w (cc_below c)) as [c1|] eqn:En; [|done]. rewrite forallb_forall in H2.
    eapply IH; [|exact Hc]. apply H2. by eapply next_below.
Qed.

(** A line is longer than its words. *)
Lemma words_fit ts : length (words_of ts) <= length (line_of ts).
Proof.
  induction ts as [|t ts IH]; [done|]. rewrite line_cons, app_length.
  rewrite (words_cons t ts). rewrite app_length.
  destruct t; cbn; lia.
Qed.
