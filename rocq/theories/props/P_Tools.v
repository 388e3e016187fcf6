(** C161: the tools as programs. *)
From stdpp Require Import strings list.
From Coq Require Import Ascii ZArith QArith Lia.
From Verif.model Require Import GoStr Customs Fs Urls Install Valtools Docs Cli Tools.
From Verif.spec Require Import StrSpec LibSpec ValSpec DocsSpec ToolsSpec.
From Verif.proofs Require Import GoStrLemmas UrlProofs FsProofs CliProofs ToolsProofs.
From Verif.props Require Import P_Val P_Docs.

Local Open Scope string_scope.

(** Flags in front of the words are read as they are meant, with one dash and with two. *)
Theorem C161_read : forall fl ts args ws, flag_names fl -> Forall (flag_fits fl) ts -> words_behind args ws ->
  go_parse fl (flag_line ts ++ args)%list = PRead (map flag_given ts) ws.
Proof. intros. by apply parse_line_read. Qed.
Print Assumptions C161_read.

(** All else is refused: what is read has been written like this. *)
Theorem C161_only : forall fl args given ws, go_parse fl args = PRead given ws ->
  exists ts rest, args = (flag_line ts ++ rest)%list /\ Forall (flag_fits fl) ts /\ map flag_given ts = given /\ words_behind rest ws.
Proof. intros. by apply parse_sound_tools. Qed.
Print Assumptions C161_only.

(** The usage is written with status 2, except when the user asks for it. *)
Theorem C161_usage : forall fl args st, go_parse fl args = PUsage st -> st = 2%Z \/
  (st = 0%Z /\ exists s, s ∈ args /\ exists b n, (s = dashes b +:+ n \/ exists v, s = dashes b +:+ n +:+ "=" +:+ v) /\ (n = "help" \/ n = "h")).
Proof.
  intros fl args st. remember (length args) as k eqn:Hk. assert (length args <= k)%nat as Hle by lia. clear Hk. revert args Hle.
  induction k as [|k IH]; intros args Hle H; [by destruct args; [|cbn in Hle; lia]|].
  destruct args as [|s rest]; [done|]. cbn [length] in Hle. cbn [go_parse] in H. destruct (String.eqb s "--"); [done|].
  destruct (flag_text s) as [[|c r]|] eqn:E; [injection H as <-; by left| |done].
  destruct (char_eqb c "-" || char_eqb c "="); [injection H as <-; by left|].
  destruct (split_equals (String c r)) as [n v] eqn:Sp. apply split_equals_join in Sp. apply flag_text_some in E as (b & -> & _).
  assert (forall m w rest', rest' = rest \/ (exists x, rest = x :: rest') -> add_given m w (go_parse fl rest') = PUsage st ->
    st = 2%Z \/ (st = 0%Z /\ exists s, s ∈ (dashes b +:+ String c r) :: rest /\
      exists b n, (s = dashes b +:+ n \/ exists v, s = dashes b +:+ n +:+ "=" +:+ v) /\ (n = "help" \/ n = "h"))) as G.
  { intros m w rest' Hr Hp. destruct (go_parse fl rest') as [st'|] eqn:Ep; [|done]. injection Hp as ->.
    destruct (IH rest') as [-> | (-> & x & Hx & Hb)]; [destruct Hr as [-> | [y ->]]; cbn in *; lia|done|by left|].
    right. split; [done|]. exists x. split; [|done]. right. destruct Hr as [-> | [y ->]]; [done|by right]. }
  destruct (assoc n fl) as [[|]|].
  - destruct (parse_bool (default "true" v)); [|injection H as <-; by left]. eapply (G _ _ rest); [by left|exact H].
  - destruct v as [v|]; [eapply (G _ _ rest); [by left|exact H]|].
    destruct rest as [|v rest]; [injection H as <-; by left|]. eapply (G _ _ rest); [right; by exists v|exact H].
  - destruct (String.eqb n "help" || String.eqb n "h") eqn:Eh; injection H as <-; [|by left].
    right. split; [done|]. eexists. split; [by left|]. exists b, n. rewrite Sp. split.
    + destruct v as [v|]; [right; by exists v|by left].
    + apply orb_true_iff in Eh as [Eh|Eh]; apply String.eqb_eq in Eh; [by left|by right].
Qed.
Print Assumptions C161_usage.

(** ** The programs *)

Theorem C161_checkmat : forall matrix docs wd f args yaml dir, words_behind args [yaml; dir] ->
  checkmat matrix docs wd f args = Called (check_matrix (matrix yaml) (docs dir) wd f).
Proof. intros. unfold checkmat. by rewrite (parse_words [] args [yaml; dir]). Qed.
Print Assumptions C161_checkmat.

(** Without two words nothing is checked, and the status is not the one of a good matrix,
    unless the user asks for help. *)
Theorem C161_checkmat_only : forall matrix docs wd f args r, checkmat matrix docs wd f args = Called r ->
  exists yaml dir, words_behind args [yaml; dir] /\ r = check_matrix (matrix yaml) (docs dir) wd f.
Proof.
  intros matrix docs wd f args r. unfold checkmat. destruct (go_parse [] args) as [st|g ws] eqn:E; [done|].
  apply parse_sound_tools in E as (ts & rest & -> & Ht & _ & Hw). destruct ts as [|t ts].
  2:{ apply Forall_cons in Ht as [Ht _]. exfalso. destruct t as [? ? ?|? ?|? ? ?]; cbn in Ht; [destruct Ht as [[Ht _]|Ht]| |]; by apply elem_of_nil in Ht. }
  destruct ws as [|yaml [|dir [|]]]; try done. intros [= <-]. by exists yaml, dir.
Qed.
Print Assumptions C161_checkmat_only.

Lemma fmttests_named : flag_names fmttests_flags.
Proof.
  split; [by apply (bool_decide_unpack _); vm_compute|]. intros n b H.
  apply elem_of_cons in H as [[= -> ->]|H]; [|apply elem_of_list_singleton in H as [= -> ->]].
  - split; [by repeat split|]. by eexists _, _.
  - split; [by repeat split|]. by eexists _, _.
Qed.

(** fmttests fails if and only if a test has failed, or was skipped and skips are not
    allowed: the last -allow-skips counts. *)
Theorem C161_fmttests : forall es ts, Forall (flag_fits fmttests_flags) ts ->
  let on n := default false (bool_given n (map flag_given ts)) in
  fmttests es true (flag_line ts) =
    Called (fmttests_exit (on "allow-skips") (run_events (on "subtests") es true), run_events (on "subtests") es true).
Proof.
  intros es ts Ht on. unfold fmttests. rewrite <- (app_nil_r (flag_line ts)).
  rewrite (parse_line_read fmttests_flags ts [] [] fmttests_named Ht); [done|]. by right.
Qed.
Print Assumptions C161_fmttests.

Lemma filecov_named : flag_names filecov_flags.
Proof.
  split; [by apply (bool_decide_unpack _); vm_compute|]. intros n b H. apply elem_of_list_singleton in H as [= -> ->].
  split; [by repeat split|]. by eexists _, _.
Qed.

Lemma filecov_call w ts input args : Forall (flag_fits filecov_flags) ts -> words_behind args [input] ->
  filecov w (flag_line ts ++ args)%list =
    let r := cov_run w input (default "" (last_given "mod" (map flag_given ts))) in
    Called (match r with Some _ => 0%Z | None => 2%Z end, r).
Proof. intros Ht Hw. unfold filecov. by rewrite (parse_line_read filecov_flags ts args [input] filecov_named Ht Hw). Qed.

(** filecov without -mod: the percentages of all files under their names. *)
Theorem C161_filecov : forall w input args ps, words_behind args [input] -> cw_profiles w input = Some ps ->
  exists c, filecov w args = Called (0%Z, Some c) /\
    is_percentage (cv_overall c) (sum (map executed ps)) (sum (map statements ps)) /\
    Forall2 (fun p fc => fc.1 = pr_file p /\ is_percentage fc.2 (executed p) (statements p)) ps (cv_files c).
Proof.
  intros w input args ps Hw Hp. exists (percent_covered ps). split; [|apply C110_percentages].
  pose proof (filecov_call w [] input args (Forall_nil_2 _) Hw) as E. cbn [flag_line map concat app] in E. rewrite E.
  assert (cov_run w input "" = Some (percent_covered ps)) as R.
  { unfold cov_run. rewrite Hp. cbn [String.eqb]. unfold cov_written, shorten_names. cbn [String.eqb].
    destruct (percent_covered ps) as [o l]. cbn [cv_overall cv_files]. by rewrite zip_fst_snd. }
  cbn [default last_given]. by rewrite R.
Qed.
Print Assumptions C161_filecov.

(** With -mod: the same percentages, under shorter names. *)
Theorem C161_filecov_mod : forall w two gomod input args c, words_behind args [input] -> gomod <> "" ->
  (filecov w ((dashes two +:+ "mod=" +:+ gomod) :: args) = Called (0%Z, Some c) <->
   exists ps g text, cw_profiles w input = Some ps /\ cw_abs w gomod = Some g /\ cw_read w g = Some text /\ cw_module w text <> "" /\
     cv_overall c = cv_overall (percent_covered ps) /\ map snd (cv_files c) = map snd (cv_files (percent_covered ps)) /\
     shorten_names (cw_links w) (cw_module w text) (Env.dir_name g) (map pr_file ps) = Some (map fst (cv_files c))).
Proof.
  intros w two gomod input args c Hw Hg.
  pose proof (filecov_call w [FSet two "mod" gomod] input args) as E. cbn [flag_line map concat app flag_args flag_given] in E.
  change ("mod" +:+ "=" +:+ gomod) with ("mod=" +:+ gomod) in E.
  rewrite E; [|constructor; [right; by left|constructor]|done].
  replace (default "" (last_given "mod" [("mod", gomod)])) with gomod by done. cbv zeta.
  assert (forall ps, map fst (cv_files (percent_covered ps)) = map pr_file ps) as Hf.
  { intros ps. unfold percent_covered. cbn [cv_files]. by rewrite map_map. }
  assert (forall ps, length (map snd (cv_files (percent_covered ps))) = length ps) as Hlen.
  { intros ps. unfold percent_covered. cbn [cv_files]. by rewrite !map_length. }
  assert (Hsl : forall links m l fs ns, shorten_names links m l fs = Some ns -> length ns = length fs).
  { intros links m l fs ns H. unfold shorten_names in H. destruct (String.eqb m ""); [by injection H as <-|].
    destruct (if String.eqb l "" then _ else _); [|done]. apply mapM_length in H. done. }
  unfold cov_run. apply String.eqb_neq in Hg. rewrite Hg. split.
  - destruct (cw_profiles w input) as [ps|]; [|done]. destruct (cw_abs w gomod) as [g|]; [|done].
    destruct (cw_read w g) as [text|] eqn:Er; [|done]. destruct (String.eqb_spec (cw_module w text) "") as [|Hm]; [done|].
    unfold cov_written. rewrite Hf. destruct (shorten_names _ _ _ _) as [ns|] eqn:Es; [|done]. intros [= <-].
    pose proof (Hsl _ _ _ _ _ Es) as L. exists ps, g, text. cbn [cv_overall cv_files].
    assert (length ns = length (map snd (cv_files (percent_covered ps)))) as L2 by (rewrite Hlen, L; apply map_length).
    do 4 (split; [done|]). split; [done|]. split.
    + apply snd_zip. apply Nat.eq_le_incl. exact (eq_sym L2).
    + rewrite Es. f_equal. symmetry. apply fst_zip. apply Nat.eq_le_incl. exact L2.
  - intros (ps & g & text & -> & -> & Er & Hm & E1 & E2 & E3). rewrite Er. apply String.eqb_neq in Hm. rewrite Hm.
    unfold cov_written. rewrite Hf, E3, <- E1, <- E2. destruct c as [o l]. cbn [cv_overall cv_files]. by rewrite zip_fst_snd.
Qed.
Print Assumptions C161_filecov_mod.

(** Nothing is written if there is an error, and then the status is 2. *)
Theorem C161_filecov_error : forall w args st r, filecov w args = Called (st, r) -> (st = 0%Z /\ is_Some r) \/ (st = 2%Z /\ r = None).
Proof.
  intros w args st r. unfold filecov. destruct (go_parse _ _) as [|g [|input [|]]]; try done. intros [= <- <-].
  destruct (cov_run w input _); [left|right]; done.
Qed.
Print Assumptions C161_filecov_error.

(** docgen has one argument, the directory, which then has the documentation of the commands
    and nothing else; nothing outside of it is changed but the directories on the way. *)
Theorem C161_docgen : forall root cwd f args f', DocsSpec.named root -> docgen root cwd f args = Called (0%Z, f') ->
  exists s, args = [s] /\ let dir := resolve cwd s in
    (forall words text, visible root words text -> exists x words' text',
       documents x (call words) /\ call words' = call words /\ visible root words' text' /\ f' (dir ++ [x])%list = Some (File text')) /\
    (forall x n, f' (dir ++ [x])%list = Some n -> exists words text, n = File text /\ visible root words text /\ documents x (call words)) /\
    (forall q, ~ in_dir dir q -> f' q = f q \/ (in_dir q dir /\ f' q = Some Dir)).
Proof.
  intros root cwd f [|s [|]] f' Hn H; [done| |done]. cbn [docgen] in H. destruct (gen root (resolve cwd s) f) as [g|] eqn:E; [|done].
  injection H as <-. exists s. split; [done|]. destruct (C137_files_partial root _ f g Hn E) as (A & B & _). split; [exact A|]. split; [exact B|].
  exact (C137_outside root _ f g E).
Qed.
Print Assumptions C161_docgen.

(** ** Examples *)

Definition ex_cov : cov_world := {|
  cw_profiles := fun s => if String.eqb s "c.out" then Some [{| pr_file := "x.org/pkgr/cmd/plan.go"; pr_blocks := [(3, 1); (1, 0)]%N |}] else None;
  cw_abs := fun s => Some ("/src/" +:+ s); cw_read := fun s => if String.eqb s "/src/go.mod" then Some "module x.org/pkgr" else None;
  cw_module := fun _ => "x.org/pkgr"; cw_links := Some |}.

Example C161_example :
  (exists q, filecov ex_cov ["-mod=go.mod"; "c.out"] = Called (0%Z, Some {| cv_overall := q; cv_files := [("cmd/plan.go", q)] |}) /\ (q == 75)%Q) /\
  filecov ex_cov ["--mod"; "go.mod"; "c.out"] = filecov ex_cov ["-mod=go.mod"; "c.out"] /\
  filecov ex_cov ["-mod"; "other"; "c.out"] = Called (2%Z, None) /\
  filecov ex_cov ["--help"] = Usage 0 true /\ filecov ex_cov ["-x"; "c.out"] = Usage 2 false /\ filecov ex_cov [] = Usage 2 false /\
  go_parse fmttests_flags ["-subtests"; "--allow-skips=f"; "-allow-skips"] = PRead [("subtests", "true"); ("allow-skips", "f"); ("allow-skips", "true")] [] /\
  go_parse fmttests_flags ["-subtests=maybe"] = PUsage 2 /\ go_parse [] ["--"; "-odd.yaml"; "docs"] = PRead [] ["-odd.yaml"; "docs"].
Proof. split; [eexists; split; vm_compute; reflexivity|]. do 7 (split; [vm_compute; reflexivity|]). vm_compute. reflexivity. Qed.

(** ** What is not so *)

(** Flags behind a word are not read. *)
Theorem C161_behind_refuted : exists w, is_Some (cw_profiles w "c.out") /\ filecov w ["c.out"; "-mod=go.mod"] = Usage 2 false.
Proof. exists ex_cov. split; [by eexists|]. vm_compute. reflexivity. Qed.
Print Assumptions C161_behind_refuted.

(** -help and help behind other flags show the usage too, but as if it were an error. *)
Theorem C161_help_refuted : forall w, filecov w ["-help"] = Usage 0 false /\ filecov w ["-mod=go.mod"; "-h"] = Usage 0 false /\
  filecov w ["-h"] = Usage 0 true.
Proof. intros w. by vm_compute. Qed.
Print Assumptions C161_help_refuted.

(** docgen does not know -h: it deletes what is in the directory of this name. *)
Theorem C161_docgen_refuted : forall root, exists f f', f ["-h"; "notes.txt"] = Some (File "mine") /\
  docgen root [] f ["-h"] = Called (0%Z, f') /\ f' ["-h"; "notes.txt"] = None.
Proof.
  intros root. set (f := (fun q => if bool_decide (q = [] \/ q = ["-h"]) then Some Dir
    else if bool_decide (q = ["-h"; "notes.txt"]) then Some (File "mine") else None) : fsys).
  unfold docgen. assert (resolve [] "-h" = ["-h"]) as -> by by vm_compute.
  destruct (gen root ["-h"] f) as [f'|] eqn:E.
  2:{ by vm_compute in E. }
  exists f, f'. split; [by vm_compute|]. split; [by rewrite E|].
  unfold gen in E. destruct (mkdir_all ["-h"] (remove_all ["-h"] f)) as [f1|] eqn:M; [|by vm_compute in M].
  assert (f1 ["-h"; "notes.txt"] = None) as H1 by (vm_compute in M; injection M as <-; by vm_compute).
  injection E as <-. revert H1. generalize (documented "" root). intros l. revert f1 M. 
  assert (forall l (g : fsys), g ["-h"; "notes.txt"] = None -> write_docs ["-h"] l g ["-h"; "notes.txt"] = None) as W.
  { clear. induction l as [|[cmd text] l IH]; intros g Hg; cbn [write_docs]; [done|]. apply IH. 
    destruct (decide _) as [Q|_]; [|done]. exfalso. cbn in Q. injection Q as Q. unfold doc_name in Q.
    apply (f_equal (fun s => String.substring (String.length s - 3) 3 s)) in Q. revert Q. generalize (replace_byte " " "_" cmd). intros s Q.
    assert (String.substring (String.length (s +:+ ".md") - 3) 3 (s +:+ ".md") = ".md") as R.
    { clear. rewrite append_length. cbn [String.length]. replace (String.length s + 3 - 3)%nat with (String.length s) by lia.
      induction s as [|c s IH]; [done|]. exact IH. }
    rewrite R in Q. done. }
  intros f1 _ H1. by apply W.
Qed.
Print Assumptions C161_docgen_refuted.
