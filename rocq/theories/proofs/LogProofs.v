(** Lemmas about logging. *)
From stdpp Require Import strings list gmap.
From Coq Require Import Ascii Lia.
From Verif.model Require Import GoStr Logging.
From Verif.spec Require Import StrSpec UrlSpec LogSpec.
From Verif.proofs Require Import GoStrLemmas UrlProofs.

Local Open Scope string_scope.

Lemma enabled_spec l r : enabled l r = true <-> at_least r l.
Proof.
  split.
  - destruct l, r; cbn; try discriminate; intros _; constructor; try discriminate; tauto.
  - intros [l0|l0|l0 H|l0 H|l0 H|l0 H|]; [by destruct l0|by destruct l0|by destruct l0| | | |done].
    + by destruct H as [-> |[-> |[-> | ->]]].
    + by destruct H as [-> |[-> | ->]].
    + by destruct H as [-> | ->].
Qed.

Lemma kept_filter l rs : kept l rs (List.filter (fun r => enabled l r.1) rs).
Proof.
  induction rs as [|r rs IH]; [constructor|]. cbn [List.filter]. destruct (enabled l r.1) eqn:E.
  - apply kept_write; [by apply enabled_spec|done].
  - apply kept_skip; [|done]. rewrite <- enabled_spec. by rewrite E.
Qed.

Lemma kept_unique l rs ws : kept l rs ws -> ws = List.filter (fun r => enabled l r.1) rs.
Proof.
  induction 1 as [|r rs ws H _ ->|r rs ws H _ ->]; cbn [List.filter]; [done| |].
  - apply enabled_spec in H. by rewrite H.
  - rewrite <- enabled_spec in H. by destruct (enabled l r.1).
Qed.

Lemma emit_level g r : lg_level (emit g r) = lg_level g.
Proof. unfold emit. by destruct (enabled (lg_level g) r.1). Qed.

Lemma emit_hooks g r : lg_hooks (emit g r) = lg_hooks g.
Proof. unfold emit. by destruct (enabled (lg_level g) r.1). Qed.

Lemma emit_all_level rs g : lg_level (emit_all rs g) = lg_level g.
Proof. revert g. induction rs as [|r rs IH]; intros g; [done|]. cbn. unfold emit_all in IH. by rewrite IH, emit_level. Qed.

Lemma emit_all_hooks rs g : lg_hooks (emit_all rs g) = lg_hooks g.
Proof. revert g. induction rs as [|r rs IH]; intros g; [done|]. cbn. unfold emit_all in IH. by rewrite IH, emit_hooks. Qed.

(** Without hooks nothing is written. *)
Lemma emit_all_quiet rs g : lg_hooks g = [] -> lg_files (emit_all rs g) = lg_files g.
Proof.
  revert g. induction rs as [|r rs IH]; intros g Hg; [done|]. cbn. unfold emit_all in IH. rewrite IH by (by rewrite emit_hooks).
  unfold emit. destruct (enabled (lg_level g) r.1); [|done]. cbn. by rewrite Hg.
Qed.

Lemma emit_one g r f old : lg_hooks g = [f] -> lg_files g !! f = Some old -> enabled (lg_level g) r.1 = true ->
  lg_files (emit g r) = <[f := (old ++ [r])%list]> (lg_files g).
Proof.
  intros H1 H2 H3. unfold emit. rewrite H3. cbn [lg_files]. rewrite H1. cbn [fold_left]. unfold append_record.
  by rewrite H2.
Qed.

(** With a single hook its file gets the records that are enabled. *)
Lemma emit_all_one rs g f old : lg_hooks g = [f] -> lg_files g !! f = Some old ->
  lg_files (emit_all rs g) = <[f := (old ++ List.filter (fun r => enabled (lg_level g) r.1) rs)%list]> (lg_files g).
Proof.
  revert g old. induction rs as [|r rs IH]; intros g old Hg Ho.
  - cbn. rewrite app_nil_r. by rewrite insert_id.
  - cbn [emit_all fold_left List.filter]. change (fold_left emit rs (emit g r)) with (emit_all rs (emit g r)).
    destruct (enabled (lg_level g) r.1) eqn:E.
    + rewrite (IH (emit g r) (old ++ [r])%list).
      * rewrite emit_level, (emit_one g r f old) by done. rewrite insert_insert. f_equal. rewrite <- app_assoc. done.
      * by rewrite emit_hooks.
      * rewrite (emit_one g r f old) by done. by rewrite lookup_insert.
    + assert (E' : emit g r = g) by (unfold emit; by rewrite E). rewrite E'. by apply IH.
Qed.

Lemma add_log_file_open can_open f o g : f <> "" -> can_open f = true ->
  add_log_file can_open f o g =
  {| lg_level := lg_level g; lg_hooks := (lg_hooks g ++ [f])%list;
     lg_files := <[f := if o then [] else default [] (lg_files g !! f)]> (lg_files g) |}.
Proof. intros H1 H2. unfold add_log_file. apply String.eqb_neq in H1. by rewrite H1, H2. Qed.

(** A command that opens its log file once. *)
Lemma run_once can_open c cmd before body again rest files f :
  logs_once cmd -> log_file c cmd f -> f <> "" -> can_open f = true ->
  exists l ws, kept l body ws /\ (l = first_level c \/ cmd = Inspect true /\ l = LFatal) /\
  (forall json, cmd = Inspect json -> json = false -> l = first_level c) /\
  lg_files (run_logging can_open c cmd before body again rest files) =
    <[f := ((if lc_overwrite c then [] else default [] (files !! f)) ++ ws)%list]> files.
Proof.
  intros H1 H2 H3 H4.
  assert (K : forall l, let g0 := emit_all before {| lg_level := first_level c; lg_hooks := []; lg_files := files |} in
    lg_files (emit_all body (with_level l (add_log_file can_open f (lc_overwrite c) g0))) =
    <[f := ((if lc_overwrite c then [] else default [] (files !! f)) ++ List.filter (fun r => enabled l r.1) body)%list]> files).
  { intros l. cbv zeta. rewrite add_log_file_open by done. rewrite emit_all_hooks, !(emit_all_quiet before) by done. cbn [lg_hooks lg_files app].
    rewrite (emit_all_one body _ f (if lc_overwrite c then [] else default [] (files !! f))); [|done|cbn; by rewrite lookup_insert].
    cbn [with_level lg_level lg_files]. by rewrite insert_insert. }
  assert (W : forall g, with_level (lg_level g) g = g) by (by intros []).
  assert (F : forall g, lg_level (add_log_file can_open f (lc_overwrite c) g) = lg_level g).
  { intros g. by rewrite add_log_file_open. }
  assert (N : exists ws, kept (first_level c) body ws /\
    lg_files (emit_all body (add_log_file can_open f (lc_overwrite c)
      (emit_all before {| lg_level := first_level c; lg_hooks := []; lg_files := files |}))) =
    <[f := ((if lc_overwrite c then [] else default [] (files !! f)) ++ ws)%list]> files).
  { exists (List.filter (fun r => enabled (first_level c) r.1) body). split; [apply kept_filter|].
    rewrite <- (K (first_level c)). cbv zeta. do 2 f_equal. symmetry.
    pose proof (W (add_log_file can_open f (lc_overwrite c)
      (emit_all before {| lg_level := first_level c; lg_hooks := []; lg_files := files |}))) as E.
    rewrite F, emit_all_level in E. exact E. }
  destruct N as (ws & N1 & N2). unfold run_logging, set_up, all_log, install_log.
  destruct H1 as [-> |[-> |[-> |[[json ->]| ->]]]]; cbn [log_file] in H2.
  1-3: subst f; exists (first_level c), ws; split; [done|]; split; [by left|]; split; [done|]; exact N2.
  - subst f. destruct json.
    + exists LFatal, (List.filter (fun r => enabled LFatal r.1) body). split; [apply kept_filter|].
      split; [by right|]. split; [by intros ? [= <-]|]. apply K.
    + exists (first_level c), ws. split; [done|]. split; [by left|]. split; [done|]. exact N2.
  - exists (first_level c), ws. split; [done|]. split; [by left|]. split; [done|].
    destruct H2 as [[Hi ->]|[Hi ->]].
    + apply String.eqb_neq in Hi. rewrite Hi. exact N2.
    + rewrite Hi. exact N2.
Qed.

Lemma lower_name s l : to_lower s = level_name l <-> same_word s (level_name l).
Proof. rewrite <- equal_fold_same. unfold equal_fold. rewrite String.eqb_eq. by destruct l. Qed.

Lemma set_level_name s l : to_lower s = level_name l -> set_level s = l.
Proof. intros E. unfold set_level. rewrite E. by destruct l. Qed.

Lemma set_level_other s : (forall l, to_lower s <> level_name l) -> set_level s = LInfo.
Proof.
  intros H. unfold set_level.
  rewrite (proj2 (String.eqb_neq _ _) (H LTrace : to_lower s <> "trace")).
  rewrite (proj2 (String.eqb_neq _ _) (H LDebug : to_lower s <> "debug")).
  rewrite (proj2 (String.eqb_neq _ _) (H LInfo : to_lower s <> "info")).
  rewrite (proj2 (String.eqb_neq _ _) (H LWarn : to_lower s <> "warn")).
  rewrite (proj2 (String.eqb_neq _ _) (H LError : to_lower s <> "error")).
  rewrite (proj2 (String.eqb_neq _ _) (H LFatal : to_lower s <> "fatal")).
  rewrite (proj2 (String.eqb_neq _ _) (H LPanic : to_lower s <> "panic")). done.
Qed.
