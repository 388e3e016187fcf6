(** Starting a command. *)
From stdpp Require Import strings list gmap.
From Coq Require Import Ascii ZArith NArith Lia.
From Verif.model Require Import GoStr Fs Env RepoDb Install Download Urls Yml Config Start.
From Verif.spec Require Import StrSpec LibSpec ExtractSpec ConfigSpec UrlSpec StartSpec.
From Verif.proofs Require Import GoStrLemmas FsProofs ExtractProofs CleanProofs ConfigProofs UrlProofs OsReleaseProofs.

Local Open Scope string_scope.
Local Arguments Ascii.eqb : simpl never.
Local Arguments char_eqb : simpl never.

(** ** Paths *)

Definition no_slash (s : string) : bool := all_bytes (fun d => negb (char_eqb "/" d)) s.

Lemma no_slash_char s : (forall a b, s <> a +:+ "/" +:+ b) -> no_slash s = true.
Proof.
  unfold no_slash. induction s as [|c s IH]; intros H; [done|]. cbn [all_bytes].
  destruct (char_eqb "/" c) eqn:E.
  - apply char_eqb_eq in E as <-. by destruct (H "" s).
  - cbn [negb andb]. apply IH. intros a b ->. by apply (H (String c a) b).
Qed.

Lemma split_slash_pieces s l : pieces s l -> split_slash s = l.
Proof.
  intros (-> & Hn & H). rewrite split_slash_on. apply (split_join "/" l Hn).
  intros y Hy. by apply no_slash_char, H.
Qed.

Lemma pieces_split s : pieces s (split_slash s).
Proof. split; [by rewrite split_slash_join|]. split; [apply split_slash_nonnil|]. apply split_slash_clean. Qed.

Lemma names_add0 p l q : names_path p l q -> add_components p l = q.
Proof. apply (names_add []). Qed.

Lemma resolve_stands dir s p : stands_for dir s p -> resolve dir s = p.
Proof.
  intros (x & l & Hp & H). pose proof (split_slash_pieces _ _ Hp) as E. unfold resolve, join_path.
  destruct H as [(-> & Hl & H)|[Hx H]].
  - destruct Hp as (Hs & _). assert (has_prefix "/" s = true) as ->.
    { destruct l as [|y l]; [done|]. rewrite join_cons in Hs. apply has_prefix_true. by exists (join "/" (y :: l)). }
    rewrite E. cbn [add_components]. by apply names_add0.
  - assert (has_prefix "/" s = false) as ->.
    { destruct (has_prefix "/" s) eqn:E1; [|done]. apply has_prefix_true in E1 as [r ->].
      cbn [append split_slash] in E. rewrite Ascii.eqb_refl in E. by injection E as <- _. }
    rewrite E. by apply names_add0.
Qed.

(** *** filepath.Clean does not change the place *)

Lemma add_app p l k : add_components p (l ++ k)%list = add_components (add_components p l) k.
Proof.
  revert p. induction l as [|c l IH]; intros p; [done|]. cbn [add_components app].
  destruct (String.eqb c "" || String.eqb c "."); [apply IH|]. destruct (String.eqb c ".."); apply IH.
Qed.

Definition kept (x : string) : Prop := x <> "" /\ x <> ".".

Lemma clean_loop_add rooted p l : forall out, (rooted = true -> p = []) -> Forall kept out ->
  add_components p (clean_loop rooted out l) = add_components p (rev out ++ l)%list.
Proof.
  induction l as [|c l IH]; intros out Hr Ho; [by rewrite app_nil_r|]. cbn [clean_loop].
  destruct (String.eqb c "" || String.eqb c ".") eqn:E1.
  - rewrite IH by done. rewrite !add_app. cbn [add_components]. by rewrite E1.
  - assert (kept c) as Hc.
    { apply orb_false_iff in E1 as [H1 H2]. split; [by apply String.eqb_neq|by apply String.eqb_neq]. }
    destruct (String.eqb c "..") eqn:E2.
    + destruct out as [|x out].
      * destruct rooted.
        -- rewrite IH by done. rewrite !add_app. cbn [add_components rev]. rewrite E1, E2. by rewrite (Hr eq_refl).
        -- rewrite IH by (try done; by constructor). done.
      * destruct (String.eqb x "..") eqn:E3.
        -- rewrite IH by (try done; by constructor). cbn [rev]. by rewrite <- !app_assoc.
        -- inversion Ho as [|? ? Hx Ho' Ex]; subst. rewrite IH by done. cbn [rev]. rewrite !add_app. cbn [add_components].
           rewrite E1, E2, E3. destruct Hx as [Hx1 Hx2].
           destruct (String.eqb_spec x ""); [done|]. destruct (String.eqb_spec x "."); [done|]. cbn [orb].
           by rewrite removelast_last.
    + rewrite IH by (try done; by constructor). cbn [rev]. by rewrite <- !app_assoc.
Qed.

Lemma clean_loop_in rooted l : forall out x, x ∈ clean_loop rooted out l -> x ∈ out \/ (x ∈ l /\ kept x).
Proof.
  induction l as [|c l IH]; intros out x; cbn [clean_loop].
  - rewrite elem_of_list_In, <- in_rev, <- elem_of_list_In. by left.
  - destruct (String.eqb c "" || String.eqb c ".") eqn:E1.
    + intros H. apply IH in H as [H|[H H2]]; [by left|]. right. split; [by right|done].
    + assert (kept c) as Hc.
      { apply orb_false_iff in E1 as [H1 H2]. split; [by apply String.eqb_neq|by apply String.eqb_neq]. }
      assert (x ∈ clean_loop rooted (c :: out) l -> x ∈ out \/ (x ∈ c :: l /\ kept x)) as H.
      { intros H. apply IH in H as [H|[H H2]].
        - apply elem_of_cons in H as [->|H]; [|by left]. right. split; [by left|done].
        - right. split; [by right|done]. }
      destruct (String.eqb c ".."); [|done]. destruct out as [|y out].
      * destruct rooted; [|done]. intros Hi. apply IH in Hi as [Hi|[Hi H2]]; [by left|]. right. split; [by right|done].
      * destruct (String.eqb y ".."); [done|]. intros Hi. apply IH in Hi as [Hi|[Hi H2]]; [left; by right|].
        right. split; [by right|done].
Qed.

Lemma prefix_slash_split x l : x <> "" -> no_slash x = true -> has_prefix "/" (join "/" (x :: l)) = false.
Proof.
  intros Hx Hs. destruct x as [|c x]; [done|]. unfold no_slash in Hs. cbn [all_bytes] in Hs. apply andb_true_iff in Hs as [Hc _].
  apply negb_true_iff in Hc.
  assert (exists r, join "/" (String c x :: l) = String c r) as [r ->].
  { destruct l as [|y l]; [by exists x|]. rewrite join_cons. by eexists. }
  unfold has_prefix. cbn. by rewrite Hc.
Qed.

Lemma resolve_clean cwd s : resolve cwd (clean s) = resolve cwd s.
Proof.
  unfold clean. cbv zeta. set (rooted := has_prefix "/" s). set (l := clean_loop rooted [] (split_slash s)).
  assert (forall x, x ∈ l -> kept x /\ no_slash x = true) as Hl.
  { intros x Hx. apply clean_loop_in in Hx as [Hx|[Hx H]]; [by apply elem_of_nil in Hx|]. split; [done|].
    apply no_slash_char. by eapply split_slash_clean. }
  assert (l <> [] -> split_slash (join "/" l) = l) as Hsp.
  { intros Hn. rewrite split_slash_on. apply (split_join "/" l Hn). intros y Hy. by apply Hl. }
  assert (forall p, (rooted = true -> p = []) -> add_components p l = add_components p (split_slash s)) as Ha.
  { intros p Hp. unfold l. rewrite clean_loop_add; done. }
  unfold resolve at 2. fold rooted. destruct rooted eqn:Er.
  - unfold resolve. rewrite has_prefix_app. unfold join_path. cbn [append split_slash]. rewrite Ascii.eqb_refl.
    cbn [add_components]. change (String.eqb "" "" || String.eqb "" ".") with true. cbv iota.
    rewrite <- Ha by done. destruct (decide (l = [])) as [->|Hn]; [done|]. by rewrite Hsp.
  - destruct (decide (l = [])) as [El|Hn].
    + rewrite El. cbn [join]. change (String.eqb "" "") with true. cbv iota. unfold resolve. cbn. unfold join_path.
      rewrite <- Ha by done. by rewrite El.
    + destruct (String.eqb_spec (join "/" l) "") as [E|E].
      { exfalso. destruct l as [|x k]; [done|]. destruct (Hl x) as [[H1 _] _]; [by left|].
        destruct k; cbn [join] in E; by destruct x. }
      unfold resolve. destruct l as [|x k] eqn:El; [done|].
      destruct (Hl x) as [[H1 _] H2]; [by left|]. rewrite prefix_slash_split by done.
      unfold join_path. rewrite Hsp by done. by apply Ha.
Qed.

(** *** The name of the configuration file *)

Lemma split_slash_part s x : x ∈ split_slash s -> exists a b, s = a +:+ x +:+ b.
Proof.
  revert x. induction s as [|c s IH]; intros x; cbn [split_slash].
  - rewrite elem_of_list_singleton. intros ->. by exists "", "".
  - destruct (Ascii.eqb c "/").
    + rewrite elem_of_cons. intros [-> |H]; [by exists "", (String c s)|].
      apply IH in H as (a & b & ->). by exists (String c a), b.
    + destruct (split_slash s) as [|h t] eqn:E; [by apply split_slash_nonnil in E|].
      rewrite elem_of_cons. intros [-> |H].
      * destruct (IH h) as (a & b & Hs); [by left|].
        pose proof (split_slash_join s) as Hj. rewrite E in Hj. destruct t as [|y t].
        -- cbn [join] in Hj. subst h. exists "", "". by rewrite app_nil_str.
        -- rewrite join_cons in Hj. rewrite <- Hj. by exists "", ("/" +:+ join "/" (y :: t)).
      * destruct (IH x) as (a & b & ->); [by right|]. by exists (String c a), b.
Qed.

Lemma clean_first_byte s c r : clean s = String c r ->
  c = "/"%char \/ c = "."%char \/ exists a b, s = a +:+ String c b.
Proof.
  unfold clean. cbv zeta. set (rooted := has_prefix "/" s). set (l := clean_loop rooted [] (split_slash s)).
  destruct rooted; [intros [= <- _]; by left|]. destruct (String.eqb_spec (join "/" l) "") as [E|E].
  - intros [= <- _]. right. by left.
  - intros H. destruct l as [|x k] eqn:El; [done|]. assert (x ∈ l) as Hx by (rewrite El; by left).
    apply clean_loop_in in Hx as [Hx|[Hx [H1 _]]]; [by apply elem_of_nil in Hx|].
    apply split_slash_part in Hx as (a & b & Hs). right. right. destruct x as [|d x]; [done|].
    assert (d = c) as ->. { destruct k as [|y k]; [|rewrite join_cons in H]; by injection H. }
    exists a, (x +:+ b). done.
Qed.

Lemma config_name_plain home flag : flag <> "" -> no_tilde flag -> config_name home flag = Some (clean flag).
Proof.
  intros Hn Ht. unfold config_name. destruct (String.eqb_spec flag "") as [|_]; [done|].
  destruct (clean flag) as [|c r] eqn:E; [done|].
  assert (c <> "~"%char) as Hc.
  { intros ->. apply clean_first_byte in E as [E|[E|(a & b & E)]]; [done|done|]. by apply (Ht a b). }
  unfold expand_tilde. destruct c as [[] [] [] [] [] [] [] []]; try done; by destruct r.
Qed.

Lemma config_name_default home : config_name home "" = Some "pkgr.yml".
Proof. done. Qed.

Lemma command_dir_file cwd flag dir f : stands_for cwd flag (dir ++ [f])%list ->
  loaded_file cwd (clean flag) = (dir ++ [f])%list /\ command_dir cwd (clean flag) = dir.
Proof.
  intros H. unfold loaded_file, command_dir. rewrite resolve_clean. rewrite (resolve_stands _ _ _ H).
  split; [done|]. apply removelast_last.
Qed.

Lemma plain_join_stands dir l : l <> [] -> (forall x, x ∈ l -> plain_name x) -> stands_for dir (join "/" l) (dir ++ l)%list.
Proof.
  intros Hn Hp. destruct l as [|x l]; [done|]. exists x, l. split.
  - split; [done|]. split; [done|]. intros y Hy a b ->. apply Hp in Hy as (_ & _ & _ & Hy).
    rewrite !all_bytes_app in Hy. cbn [all_bytes] in Hy. rewrite Ascii.eqb_refl in Hy. cbn [negb andb] in Hy.
    by rewrite andb_false_r in Hy.
  - right. split; [apply (Hp x); by left|]. revert dir Hp. clear Hn.
    induction (x :: l) as [|y k IH]; intros dir Hp; [rewrite app_nil_r; constructor|].
    destruct (Hp y) as (H1 & H2 & H3 & _); [by left|]. apply np_down; [done..|].
    replace (dir ++ y :: k)%list with ((dir ++ [y]) ++ k)%list by (by rewrite <- app_assoc).
    apply IH. intros z Hz. apply Hp. by right.
Qed.

Lemma plain_stands dir f : plain_name f -> stands_for dir f (dir ++ [f])%list.
Proof.
  intros H. apply (plain_join_stands dir [f]); [done|]. intros x. rewrite elem_of_list_singleton. by intros ->.
Qed.

Lemma plain_resolve dir l : l <> [] -> (forall x, x ∈ l -> plain_name x) -> resolve dir (join "/" l) = (dir ++ l)%list.
Proof. intros. by apply resolve_stands, plain_join_stands. Qed.

Lemma clean_abs s : has_prefix "/" (clean s) = has_prefix "/" s.
Proof.
  unfold clean. cbv zeta. destruct (has_prefix "/" s) eqn:E; [apply has_prefix_app|].
  set (l := clean_loop false [] (split_slash s)).
  destruct (String.eqb_spec (join "/" l) "") as [E1|E1]; [done|].
  destruct l as [|x k] eqn:El; [done|]. assert (x ∈ l) as Hx by (rewrite El; by left).
  apply clean_loop_in in Hx as [Hx|[Hx [H1 _]]]; [by apply elem_of_nil in Hx|].
  apply prefix_slash_split; [done|]. apply no_slash_char. by eapply split_slash_clean.
Qed.

(** ** Environment variables *)

Lemma byte_num c n : n < 256 -> c = ascii_of_nat n <-> nat_of_ascii c = n.
Proof.
  intros H. split; [intros ->; by apply nat_ascii_embedding|]. intros <-. symmetry. apply ascii_nat_embedding.
Qed.

Lemma alnum_word c : alnum c = true <-> word_char c.
Proof.
  unfold alnum, word_char, word_start. rewrite !orb_true_iff, !andb_true_iff, Nat.eqb_eq, !Nat.leb_le. split.
  - intros [[[H|H]|H]|H].
    + left. left. rewrite <- (ascii_nat_embedding c), H. done.
    + right. exists (nat_of_ascii c - 48). split; [lia|]. apply byte_num; lia.
    + left. right. exists (nat_of_ascii c - 97). split; [lia|]. right. apply byte_num; lia.
    + left. right. exists (nat_of_ascii c - 65). split; [lia|]. left. apply byte_num; lia.
  - intros [[-> |(n & Hn & [H|H])]|(n & Hn & H)]; [by left; left; left| | |]; apply byte_num in H; lia.
Qed.

Lemma word_start_byte c : word_start c -> alnum c = true /\ char_eqb c "{" = false /\ special_var c = false.
Proof.
  intros H. split; [by apply alnum_word; left|].
  assert (nat_of_ascii c = 95 \/ (65 <= nat_of_ascii c <= 90) \/ (97 <= nat_of_ascii c <= 122)) as Hr.
  { destruct H as [-> |(n & Hn & [H|H])]; [by left| |]; apply byte_num in H; lia. }
  split.
  - apply char_eqb_neq. intros ->. assert (nat_of_ascii "{"%char = 123) by done. lia.
  - unfold special_var. apply orb_false_iff. split.
    + cbn [existsb]. repeat (apply orb_false_iff; split; [apply Nat.eqb_neq; lia|]). done.
    + apply andb_false_iff. right. apply Nat.leb_gt. lia.
Qed.

Lemma word_of_app n rest : all_chars word_char n -> (forall c r, rest = String c r -> ~ word_char c) ->
  word_of (n +:+ rest) = n.
Proof.
  intros Hn Hr. induction n as [|c n IH].
  - cbn [append]. destruct rest as [|c r]; [done|]. cbn [word_of]. destruct (alnum c) eqn:E; [|done].
    apply alnum_word in E. by destruct (Hr c r eq_refl).
  - destruct Hn as [Hc Hn]. cbn [append word_of]. apply alnum_word in Hc as ->. by rewrite IH.
Qed.

Lemma drop_bytes_app n rest : drop_bytes (String.length n) (n +:+ rest) = rest.
Proof. induction n as [|c n IH]; [by destruct rest|]. done. Qed.

Lemma to_brace_app n rest : all_chars word_char n -> to_brace (n +:+ "}" +:+ rest) = Some n.
Proof.
  induction n as [|c n IH]; intros Hn; [done|]. destruct Hn as [Hc Hn]. cbn [append to_brace].
  destruct (char_eqb c "}") eqn:E; [|cbn [append] in IH; by rewrite IH].
  apply char_eqb_eq in E as ->. apply alnum_word in Hc. done.
Qed.

Lemma word_chars n : is_word n -> all_chars word_char n /\ n <> "".
Proof. intros (c & r & -> & Hc & Hr). split; [|done]. split; [by left|done]. Qed.

Lemma shell_name_word n rest : is_word n -> (forall c r, rest = String c r -> ~ word_char c) ->
  shell_name (n +:+ rest) = (n, String.length n).
Proof.
  intros Hw Hr. pose proof (word_chars n Hw) as [Ha _]. pose proof (word_of_app n rest Ha Hr) as E.
  destruct Hw as (c & r & -> & Hc & _). destruct (word_start_byte c Hc) as (H1 & H2 & H3).
  unfold shell_name. cbn [append] in *. rewrite H2, H3. cbv zeta. by rewrite E.
Qed.

Lemma shell_name_braced n rest : is_word n -> shell_name ("{" +:+ n +:+ "}" +:+ rest) = (n, String.length n + 2).
Proof.
  intros Hw. pose proof (word_chars n Hw) as [Ha Hn]. unfold shell_name. cbn [append].
  pose proof (to_brace_app n rest Ha) as E. cbn [append] in E. rewrite E. change (char_eqb "{" "{") with true. cbv iota.
  by destruct n.
Qed.

Lemma expand_text env s : forall rest fuel, all_chars (fun c => c <> "$"%char) s ->
  String.length s <= fuel ->
  expand_loop fuel env (s +:+ rest) = s +:+ expand_loop (fuel - String.length s) env rest.
Proof.
  induction s as [|c s IH]; intros rest fuel H Hf; [cbn [append String.length]; by rewrite Nat.sub_0_r|].
  cbn [String.length] in *. destruct fuel as [|fuel]; [lia|]. destruct H as [Hc H]. cbn [append expand_loop Nat.sub].
  replace (char_eqb c "$") with false by (symmetry; by apply char_eqb_neq). cbn [andb]. f_equal. apply IH; [done|lia].
Qed.

Lemma expand_written env l : forall fuel, readable l -> String.length (all_written l) <= fuel ->
  expand_loop fuel env (all_written l) = all_meant env l.
Proof.
  induction l as [|x l IH]; intros fuel Hr Hf; [by destruct fuel|]. destruct Hr as [Hk Hx].
  cbn [all_written all_meant] in *. rewrite append_length in Hf. destruct x as [s|n|n]; cbn [written meant] in *.
  - rewrite expand_text by (done || lia). f_equal. apply IH; [done|lia].
  - destruct Hx as [Hw Hx]. cbn [String.length append] in Hf. destruct fuel as [|fuel]; [lia|].
    cbn [append expand_loop]. change (char_eqb "$" "$") with true. cbn [andb].
    pose proof (shell_name_word n (all_written l) Hw Hx) as E.
    pose proof (word_chars n Hw) as [_ Hn].
    destruct (String.eqb_spec (n +:+ all_written l) "") as [E0|E0]; [by destruct n|]. cbn [negb].
    rewrite E. destruct (String.eqb_spec n "") as [|_]; [done|]. rewrite drop_bytes_app. f_equal. apply IH; [done|lia].
  - rewrite !append_length in Hf. cbn [String.length] in Hf. destruct fuel as [|fuel]; [lia|].
    pose proof (shell_name_braced n (all_written l) Hx) as E.
    pose proof (word_chars n Hx) as [_ Hn].
    change (("${" +:+ n +:+ "}") +:+ all_written l) with (String "$" (String "{" (n +:+ "}") +:+ all_written l)).
    assert (String "{" (n +:+ "}") +:+ all_written l = "{" +:+ n +:+ "}" +:+ all_written l) as ->.
    { cbn [append]. f_equal. by rewrite app_assoc_str. }
    cbn [expand_loop]. change (char_eqb "$" "$") with true. cbn [andb].
    destruct (String.eqb_spec ("{" +:+ n +:+ "}" +:+ all_written l) "") as [E0|_]; [done|]. cbn [negb].
    rewrite E. destruct (String.eqb_spec n "") as [|_]; [done|]. f_equal.
    replace (String.length n + 2) with (S (String.length n + 1)) by lia. cbn [append drop_bytes].
    assert (drop_bytes (String.length n + 1) (n +:+ String "}" (all_written l)) = all_written l) as ->.
    { clear. induction n as [|c n IH]; [done|]. done. }
    apply IH; [done|lia].
Qed.

Lemma expand_readable env l : readable l -> os_expand env (all_written l) = all_meant env l.
Proof. intros H. by apply expand_written. Qed.

(** ** Variables of a package *)

Lemma foldl_env_notin p (l : list (string * option (list (string * string)))) : forall m, (forall e, (p, e) ∉ l) ->
  foldl (fun (m : gmap string (list (string * string))) kv => match kv.2 with Some e => <[kv.1 := e]> m | None => m end) m l !! p
  = m !! p.
Proof.
  induction l as [|[k e] l IH]; intros m H; [done|]. cbn [foldl fst snd]. rewrite IH by (intros e' He; apply (H e'); by right).
  destruct e as [e|]; [|done]. rewrite lookup_insert_ne; [done|]. intros ->. apply (H (Some e)). by left.
Qed.

Lemma install_env_once p cs e : once p (concat cs) e -> install_env p cs = default [] e.
Proof.
  intros (a & b & E & Ha & Hb). unfold install_env, install_envs. rewrite E, foldl_app. cbn [foldl fst snd].
  rewrite foldl_env_notin by done. destruct e as [e|]; [by rewrite lookup_insert|].
  by rewrite foldl_env_notin by done.
Qed.

Lemma assoc_in {A} p (m : list (string * A)) e : assoc p m = Some e -> (p, e) ∈ m.
Proof.
  induction m as [|[k v] m IH]; [done|]. cbn [assoc]. destruct (String.eqb_spec k p) as [-> |Hk].
  - intros [= ->]. by left.
  - intros H. right. by apply IH.
Qed.

Lemma assoc_some {A} p (m : list (string * A)) e : (p, e) ∈ m -> exists e', assoc p m = Some e'.
Proof.
  induction m as [|[k v] m IH]; [by intros ?%elem_of_nil|]. cbn [assoc]. destruct (String.eqb_spec k p) as [-> |Hk]; [by exists v|].
  rewrite elem_of_cons. intros [[= -> ->]|H]; [done|]. by apply IH.
Qed.

Lemma run_env_in p cs : (exists e, (p, e) ∈ concat cs /\ run_env p cs = default [] e) \/
  ((forall e, (p, e) ∉ concat cs) /\ run_env p cs = []).
Proof.
  induction cs as [|m cs IH]; [right; split; [intros e ?%elem_of_nil|]; done|]. cbn [run_env concat].
  destruct (assoc p m) as [e|] eqn:E.
  - left. exists e. split; [|done]. apply elem_of_app. left. by apply assoc_in.
  - destruct IH as [(e & H1 & H2)|[H1 H2]].
    + left. exists e. split; [|done]. apply elem_of_app. by right.
    + right. split; [|done]. intros e [H|H]%elem_of_app; [|by apply (H1 e)].
      apply assoc_some in H as [e' H]. congruence.
Qed.

Lemma run_env_once p cs e : once p (concat cs) e -> run_env p cs = default [] e.
Proof.
  intros (a & b & E & Ha & Hb). destruct (run_env_in p cs) as [(e' & H1 & H2)|[H1 _]]; rewrite E in *.
  - apply elem_of_app in H1 as [H1|H1]; [by destruct (Ha e')|].
    apply elem_of_cons in H1 as [[= ->]|H1]; [done|]. by destruct (Hb e').
  - destruct (H1 e). apply elem_of_app. right. by left.
Qed.

Lemma env_none p cs : (forall e, (p, e) ∉ concat cs) -> run_env p cs = [] /\ install_env p cs = [].
Proof.
  intros H. split.
  - destruct (run_env_in p cs) as [(e & H1 & _)|[_ H1]]; [by destruct (H e)|done].
  - unfold install_env, install_envs. by rewrite foldl_env_notin.
Qed.

(** ** R *)

Lemma flag_in b n x : x ∈ flag b n <-> b = true /\ x = "--" +:+ n.
Proof.
  unfold flag. destruct b; [rewrite elem_of_list_singleton|rewrite elem_of_nil]; intuition congruence.
Qed.

Lemma clean_plain_abs l : l <> [] -> (forall x, x ∈ l -> plain_name x) -> clean ("/" +:+ join "/" l) = "/" +:+ join "/" l.
Proof.
  intros Hn Hp. unfold clean. rewrite has_prefix_app. cbv zeta iota.
  assert (split_slash ("/" +:+ join "/" l) = "" :: l) as ->.
  { cbn [append split_slash]. rewrite Ascii.eqb_refl. f_equal. rewrite split_slash_on.
    apply (split_join "/" l Hn). intros y Hy. by apply Hp in Hy as (_ & _ & _ & Hy). }
  cbn [clean_loop]. change (String.eqb "" "" || String.eqb "" ".") with true. cbv iota.
  rewrite clean_loop_plain by done. done.
Qed.

Lemma clean_plain l : l <> [] -> (forall x, x ∈ l -> plain_name x) -> clean (join "/" l) = join "/" l.
Proof.
  intros Hn Hp.
  assert (has_prefix "/" (join "/" l) = false) as E.
  { destruct l as [|x l]; [done|]. destruct (Hp x) as (H1 & _ & _ & H2); [by left|]. by apply prefix_slash_split. }
  unfold clean. rewrite E. cbv zeta iota.
  assert (split_slash (join "/" l) = l) as ->.
  { rewrite split_slash_on. apply (split_join "/" l Hn). intros y Hy. by apply Hp in Hy as (_ & _ & _ & Hy). }
  rewrite clean_loop_plain by done. cbn [rev app].
  destruct (String.eqb_spec (join "/" l) "") as [E1|_]; [|done].
  exfalso. destruct l as [|x k]; [done|]. destruct (Hp x) as (H1 & _); [by left|].
  destruct k; cbn [join] in E1; by destruct x.
Qed.

Lemma split_slash_snoc t : split_slash (t +:+ "/") = (split_slash t ++ [""])%list.
Proof.
  induction t as [|c t IH]; [done|]. cbn [append split_slash]. rewrite IH. destruct (Ascii.eqb c "/"); [done|].
  destruct (split_slash t) as [|h k] eqn:E; [by apply split_slash_nonnil in E|]. done.
Qed.

Lemma trim_suffix_cases p s : trim_suffix p s = s \/ s = trim_suffix p s +:+ p.
Proof.
  unfold trim_suffix. destruct (cut_prefix (string_rev p "") (string_rev s "")) as [r|] eqn:E; [|by left]. right.
  apply cut_prefix_Some in E. rewrite <- (string_rev_twice s), E. rewrite string_rev_app_rev.
  by rewrite string_rev_twice.
Qed.


Lemma trim_slash_plain s : s <> "" -> (forall k, split_slash s <> (k ++ [""])%list) -> trim_suffix "/" s = s.
Proof.
  intros Hs H. destruct (trim_suffix_cases "/" s) as [E|E]; [done|]. exfalso.
  apply (H (split_slash (trim_suffix "/" s))). rewrite <- split_slash_snoc. by rewrite <- E.
Qed.

Lemma last_plain (l k : list string) : l <> [] -> (forall x, x ∈ l -> plain_name x) -> l <> (k ++ [""])%list.
Proof. intros _ H ->. destruct (H "") as [H1 _]; [apply elem_of_app; right; by left|done]. Qed.

Lemma trim_plain_abs l : l <> [] -> (forall x, x ∈ l -> plain_name x) ->
  trim_suffix "/" ("/" +:+ join "/" l) = "/" +:+ join "/" l.
Proof.
  intros Hn Hp. apply trim_slash_plain; [done|]. intros k.
  assert (split_slash ("/" +:+ join "/" l) = "" :: l) as ->.
  { cbn [append split_slash]. rewrite Ascii.eqb_refl. f_equal. rewrite split_slash_on.
    apply (split_join "/" l Hn). intros y Hy. by apply Hp in Hy as (_ & _ & _ & Hy). }
  destruct k as [|y k]; [by destruct l|]. intros E. injection E as _ E. by apply (last_plain l k).
Qed.

Lemma trim_plain l : l <> [] -> (forall x, x ∈ l -> plain_name x) -> trim_suffix "/" (join "/" l) = join "/" l.
Proof.
  intros Hn Hp. apply trim_slash_plain.
  - destruct l as [|x k]; [done|]. destruct (Hp x) as (H1 & _); [by left|]. destruct k; cbn [join]; by destruct x.
  - intros k. assert (split_slash (join "/" l) = l) as ->.
    { rewrite split_slash_on. apply (split_join "/" l Hn). intros y Hy. by apply Hp in Hy as (_ & _ & _ & Hy). }
    by apply last_plain.
Qed.

Lemma r_path_plain_abs os l : os <> Windows -> l <> [] -> (forall x, x ∈ l -> plain_name x) ->
  r_path os ("/" +:+ join "/" l) = "/" +:+ join "/" l /\ r_path os (("/" +:+ join "/" l) +:+ "/") = "/" +:+ join "/" l.
Proof.
  intros Ho Hn Hp. unfold r_path. rewrite bool_decide_eq_false_2 by done. cbv zeta. cbn [andb].
  destruct (trim_suffix_self ("/" +:+ join "/" l) "/") as [-> _]. rewrite trim_plain_abs by done.
  destruct (String.eqb_spec ("/" +:+ join "/" l) "") as [|_]; [done|].
  destruct (String.eqb_spec (("/" +:+ join "/" l) +:+ "/") "") as [|_]; [done|].
  by rewrite clean_plain_abs.
Qed.

Lemma r_path_plain os l : os <> Windows -> l <> [] -> (forall x, x ∈ l -> plain_name x) ->
  r_path os (join "/" l) = join "/" l /\ r_path os (join "/" l +:+ "/") = join "/" l.
Proof.
  intros Ho Hn Hp. unfold r_path. rewrite bool_decide_eq_false_2 by done. cbv zeta. cbn [andb].
  destruct (trim_suffix_self (join "/" l) "/") as [-> _]. rewrite trim_plain by done.
  assert (join "/" l <> "") as Hj.
  { destruct l as [|x k]; [done|]. destruct (Hp x) as (H1 & _); [by left|]. destruct k; cbn [join]; by destruct x. }
  destruct (String.eqb_spec (join "/" l) "") as [|_]; [done|].
  destruct (String.eqb_spec (join "/" l +:+ "/") "") as [E|_]; [by destruct (join "/" l)|].
  by rewrite clean_plain.
Qed.

Lemma contains_slash_abs s : contains "/" ("/" +:+ s) = true.
Proof. apply contains_true. by exists "", s. Qed.

Lemma contains_slash_join x y l : contains "/" (join "/" (x :: y :: l)) = true.
Proof. rewrite join_cons. apply contains_true. by exists x, (join "/" (y :: l)). Qed.

Lemma contains_slash_plain x : plain_name x -> contains "/" x = false.
Proof.
  intros (_ & _ & _ & H). apply contains_false. intros a b ->. rewrite !all_bytes_app in H. cbn [all_bytes] in H.
  rewrite Ascii.eqb_refl in H. cbn [negb andb] in H. by rewrite andb_false_r in H.
Qed.

Lemma plain_abs_stands dir l : l <> [] -> (forall x, x ∈ l -> plain_name x) -> stands_for dir ("/" +:+ join "/" l) l.
Proof.
  intros Hn Hp. exists "", l. split.
  - split; [by destruct l|]. split; [done|]. intros y [-> |Hy]%elem_of_cons a b; [by destruct a|]. intros ->.
    apply Hp in Hy. apply contains_slash_plain in Hy. by apply (proj1 (contains_false _ _)) with (a := a) (b := b) in Hy.
  - left. split; [done|]. split; [done|]. destruct (plain_join_stands [] l Hn Hp) as (x & k & Hx & H).
    assert (l = x :: k) as ->.
    { rewrite <- (split_slash_pieces _ _ Hx). rewrite split_slash_on. symmetry.
      apply (split_join "/" l Hn). intros y Hy. by apply Hp in Hy as (_ & _ & _ & Hy). }
    destruct H as [(-> & _)|[_ H]]; [|done]. destruct (Hp "") as [? _]; [by left|done].
Qed.

Lemma clean_dot_plain f : plain_name f -> clean ("./" +:+ f) = f.
Proof.
  intros Hf. unfold clean. change (has_prefix "/" ("./" +:+ f)) with false. cbv zeta iota.
  assert (split_slash ("./" +:+ f) = ["."; f]) as ->.
  { change ("./" +:+ f) with (join "/" ["."; f]). rewrite split_slash_on. apply (split_join "/"); [done|].
    intros y. rewrite !elem_of_cons, elem_of_nil. intros [-> |[-> |[]]]; [done|apply Hf]. }
  cbn [clean_loop]. change (String.eqb "." "" || String.eqb "." ".") with true. cbv iota.
  destruct Hf as (H1 & H2 & H3 & _). destruct (String.eqb_spec f ""); [done|]. destruct (String.eqb_spec f "."); [done|].
  destruct (String.eqb_spec f ".."); [done|]. cbn. by destruct (String.eqb_spec f "").
Qed.

(** ** Tildes *)

Lemma clean_loop_skip rooted l k : forall out, clean_loop rooted out (l ++ "" :: k)%list = clean_loop rooted out (l ++ k)%list.
Proof.
  induction l as [|x l IH]; intros out; [done|]. cbn [app clean_loop].
  destruct (_ || _); [by apply IH|]. destruct (String.eqb x ".."); [|by apply IH]. destruct out as [|y out].
  - destruct rooted; by apply IH.
  - destruct (String.eqb y ".."); by apply IH.
Qed.

Lemma split_slash_app a b : split_slash (a +:+ "/" +:+ b) = (split_slash a ++ split_slash b)%list.
Proof.
  induction a as [|c a IH]; cbn [append split_slash app]; [by rewrite Ascii.eqb_refl|].
  change (a +:+ String "/" b) with (a +:+ "/" +:+ b) in *. rewrite IH. destruct (Ascii.eqb c "/"); [done|].
  destruct (split_slash a) as [|x l] eqn:E; [|done]. by apply split_slash_nonnil in E.
Qed.

Lemma split_join_plain k : k <> [] -> (forall x, x ∈ k -> plain_name x) -> split_slash (join "/" k) = k.
Proof.
  intros Hk Hx. rewrite split_slash_on. apply (split_join "/" k Hk). intros y Hy. by apply Hx in Hy as (_ & _ & _ & Hy).
Qed.

Lemma expand_home home s r : home_path home s r -> expand_tilde home s = r.
Proof.
  intros H. destruct H as [s Hs|l Hl Hp ->|l k Hl Hp -> Hk|c r H1 H2].
  - destruct s as [|c t]; [done|]. destruct (decide (c = "~"%char)) as [->|Hc]; [by destruct (Hs t)|].
    unfold expand_tilde. destruct c as [[] [] [] [] [] [] [] []]; try reflexivity. by destruct Hc.
  - unfold expand_tilde, join_elems. cbn [List.filter]. change (String.eqb "" "") with true.
    change (String.eqb ("/" +:+ join "/" l) "") with false. cbn [negb join]. f_equal. by apply clean_plain_abs.
  - cbn [expand_tilde append]. change (char_eqb "/" "/") with true. cbn [orb]. unfold join_elems. cbn [List.filter].
    change (String.eqb (String "/" (join "/" l)) "") with false. change (String.eqb (String "/" (join "/" k)) "") with false.
    cbn [negb]. f_equal. cbn [join].
    change (String "/" (join "/" l) +:+ "/" +:+ String "/" (join "/" k)) with (("/" +:+ join "/" l) +:+ "/" +:+ ("/" +:+ join "/" k)).
    assert (forall x, x ∈ l -> plain_name x) as Pl by (intros x Hx; apply Hp, elem_of_app; by left).
    assert (forall x, x ∈ k -> plain_name x) as Pk by (intros x Hx; apply Hp, elem_of_app; by right).
    unfold clean. rewrite app_assoc_str, has_prefix_app. cbv zeta iota. cbn [append]. f_equal. f_equal.
    change (String "/" (join "/" l +:+ String "/" (String "/" (join "/" k)))) with ("" +:+ "/" +:+ (join "/" l +:+ "/" +:+ ("" +:+ "/" +:+ join "/" k))).
    rewrite !split_slash_app, !split_join_plain by done. change (split_slash "") with [""]. cbn [app].
    cbn [clean_loop]. change (String.eqb "" "" || String.eqb "" ".") with true. cbv iota.
    rewrite clean_loop_skip. rewrite clean_loop_plain by done. done.
  - cbn [expand_tilde append]. destruct (char_eqb c "/") eqn:E1; [by apply char_eqb_eq in E1|].
    destruct (char_eqb c "\") eqn:E2; [by apply char_eqb_eq in E2|]. done.
Qed.
