(** Proofs about the JSON that inspect and load write. *)
From stdpp Require Import strings list gmap sorting.
From Coq Require Import Ascii NArith Lia.
From Verif.model Require Import GoStr Graph Json Desc Pacman Origins LoadCmd.
From Verif.spec Require Import GraphSpec PlanSpec JsonSpec.
From Verif.proofs Require Import GoStrLemmas DerivedProofs.

Local Open Scope string_scope.

(** ** Characters *)

Lemma ascii_N n : (n < 256)%N -> N_of_ascii (ascii_of_N n) = n.
Proof. apply N_ascii_embedding. Qed.

Lemma ascii_of b n : N_of_ascii b = n -> b = ascii_of_N n.
Proof. intros <-. by rewrite ascii_N_embedding. Qed.

Lemma ascii_bound b : (N_of_ascii b < 256)%N.
Proof. apply N_ascii_bounded. Qed.

Lemma byte_in_spec lo hi b : byte_in lo hi b = true <-> (lo <= N_of_ascii b /\ N_of_ascii b <= hi)%N.
Proof. unfold byte_in. rewrite andb_true_iff, !N.leb_le. done. Qed.

Lemma byte_in_false lo hi b : byte_in lo hi b = false <-> (N_of_ascii b < lo \/ hi < N_of_ascii b)%N.
Proof. unfold byte_in. rewrite andb_false_iff, !N.leb_gt. done. Qed.

Ltac bytes := unfold rune2, rune3, rune4, line_sep, byte_in in *;
  rewrite ?andb_true_iff, ?orb_true_iff, ?andb_false_iff, ?orb_false_iff, ?andb_true_iff, ?orb_true_iff,
    ?andb_false_iff, ?orb_false_iff, ?N.leb_le, ?N.leb_gt in *.

Lemma divmod n d : d <> 0%N -> (n = d * (n / d) + n mod d /\ n mod d < d)%N.
Proof. intros Hd. split; [by apply N.div_mod|by apply N.mod_lt]. Qed.

Lemma rune2_char b1 b2 : rune2 b1 b2 = true -> exists c, scalar c /\ utf8 c = String b1 (String b2 "").
Proof.
  intros H. bytes. exists ((N_of_ascii b1 - 192) * 64 + (N_of_ascii b2 - 128))%N.
  set (x := N_of_ascii b1) in *. set (y := N_of_ascii b2) in *.
  split; [unfold scalar; lia|]. unfold utf8, byte.
  destruct (_ <? 128)%N eqn:E1; [apply N.ltb_lt in E1; lia|].
  destruct (_ <? 2048)%N eqn:E2; [|apply N.ltb_ge in E2; lia].
  assert (((x - 192) * 64 + (y - 128)) / 64 = x - 192)%N as ->.
  { symmetry. apply N.div_unique with (r := (y - 128)%N); lia. }
  assert (((x - 192) * 64 + (y - 128)) mod 64 = y - 128)%N as ->.
  { symmetry. apply N.mod_unique with (q := (x - 192)%N); lia. }
  f_equal; [|f_equal]; symmetry; apply ascii_of; fold x; fold y; lia.
Qed.

Lemma rune3_char b1 b2 b3 : rune3 b1 b2 b3 = true ->
  exists c, scalar c /\ (2048 <= c)%N /\ utf8 c = String b1 (String b2 (String b3 "")).
Proof.
  intros H. bytes.
  exists ((N_of_ascii b1 - 224) * 4096 + (N_of_ascii b2 - 128) * 64 + (N_of_ascii b3 - 128))%N.
  set (x := N_of_ascii b1) in *. set (y := N_of_ascii b2) in *. set (z := N_of_ascii b3) in *.
  set (c := ((x - 224) * 4096 + (y - 128) * 64 + (z - 128))%N).
  assert (2048 <= c /\ c < 65536)%N as [C1 C2] by (unfold c; lia).
  split; [unfold scalar, c; lia|]. split; [done|]. unfold utf8, byte.
  destruct (_ <? 128)%N eqn:E1; [apply N.ltb_lt in E1; lia|].
  destruct (_ <? 2048)%N eqn:E2; [apply N.ltb_lt in E2; lia|].
  destruct (_ <? 65536)%N eqn:E3; [|apply N.ltb_ge in E3; lia].
  assert (c / 4096 = x - 224)%N as ->.
  { symmetry. apply N.div_unique with (r := ((y - 128) * 64 + (z - 128))%N); unfold c; lia. }
  assert (c / 64 = (x - 224) * 64 + (y - 128))%N as ->.
  { symmetry. apply N.div_unique with (r := (z - 128)%N); unfold c; lia. }
  assert (((x - 224) * 64 + (y - 128)) mod 64 = y - 128)%N as ->.
  { symmetry. apply N.mod_unique with (q := (x - 224)%N); lia. }
  assert (c mod 64 = z - 128)%N as ->.
  { symmetry. apply N.mod_unique with (q := ((x - 224) * 64 + (y - 128))%N); unfold c; lia. }
  f_equal; [|f_equal; [|f_equal]]; symmetry; apply ascii_of; fold x; fold y; fold z; lia.
Qed.

Lemma rune4_char b1 b2 b3 b4 : rune4 b1 b2 b3 b4 = true ->
  exists c, scalar c /\ utf8 c = String b1 (String b2 (String b3 (String b4 ""))).
Proof.
  intros H. bytes.
  exists ((N_of_ascii b1 - 240) * 262144 + (N_of_ascii b2 - 128) * 4096 + (N_of_ascii b3 - 128) * 64 + (N_of_ascii b4 - 128))%N.
  set (x := N_of_ascii b1) in *. set (y := N_of_ascii b2) in *. set (z := N_of_ascii b3) in *. set (w := N_of_ascii b4) in *.
  set (c := ((x - 240) * 262144 + (y - 128) * 4096 + (z - 128) * 64 + (w - 128))%N).
  assert (65536 <= c /\ c < 1114112)%N as [C1 C2] by (unfold c; lia).
  split; [unfold scalar; lia|]. unfold utf8, byte.
  destruct (_ <? 128)%N eqn:E1; [apply N.ltb_lt in E1; lia|].
  destruct (_ <? 2048)%N eqn:E2; [apply N.ltb_lt in E2; lia|].
  destruct (_ <? 65536)%N eqn:E3; [apply N.ltb_lt in E3; lia|].
  assert (c / 262144 = x - 240)%N as ->.
  { symmetry. apply N.div_unique with (r := ((y - 128) * 4096 + (z - 128) * 64 + (w - 128))%N); unfold c; lia. }
  assert (c / 4096 = (x - 240) * 64 + (y - 128))%N as ->.
  { symmetry. apply N.div_unique with (r := ((z - 128) * 64 + (w - 128))%N); unfold c; lia. }
  assert (((x - 240) * 64 + (y - 128)) mod 64 = y - 128)%N as ->.
  { symmetry. apply N.mod_unique with (q := (x - 240)%N); lia. }
  assert (c / 64 = (x - 240) * 4096 + (y - 128) * 64 + (z - 128))%N as ->.
  { symmetry. apply N.div_unique with (r := (w - 128)%N); unfold c; lia. }
  assert (((x - 240) * 4096 + (y - 128) * 64 + (z - 128)) mod 64 = z - 128)%N as ->.
  { symmetry. apply N.mod_unique with (q := ((x - 240) * 64 + (y - 128))%N); lia. }
  assert (c mod 64 = w - 128)%N as ->.
  { symmetry. apply N.mod_unique with (q := ((x - 240) * 4096 + (y - 128) * 64 + (z - 128))%N); unfold c; lia. }
  f_equal; [|f_equal; [|f_equal; [|f_equal]]]; symmetry; apply ascii_of; fold x; fold y; fold z; fold w; lia.
Qed.

Lemma low_char b : (N_of_ascii b < 128)%N -> scalar (N_of_ascii b) /\ utf8 (N_of_ascii b) = String b "".
Proof.
  intros H. split; [unfold scalar; lia|]. unfold utf8, byte.
  destruct (_ <? 128)%N eqn:E; [by rewrite ascii_N_embedding|apply N.ltb_ge in E; lia].
Qed.

(** The bytes of a character are what the model takes for one. *)
Inductive shape : N -> Prop :=
| shape1 c b : utf8 c = String b "" -> (N_of_ascii b < 128)%N -> shape c
| shape2 c b1 b2 : utf8 c = String b1 (String b2 "") -> (128 <= N_of_ascii b1)%N -> rune2 b1 b2 = true -> shape c
| shape3 c b1 b2 b3 : utf8 c = String b1 (String b2 (String b3 "")) -> (128 <= N_of_ascii b1)%N ->
    rune2 b1 b2 = false -> rune3 b1 b2 b3 = true -> shape c
| shape4 c b1 b2 b3 b4 : utf8 c = String b1 (String b2 (String b3 (String b4 ""))) -> (128 <= N_of_ascii b1)%N ->
    rune2 b1 b2 = false -> rune3 b1 b2 b3 = false -> rune4 b1 b2 b3 b4 = true -> shape c.

Lemma divmod_ex n d : d <> 0%N -> exists q r, (n / d = q /\ n mod d = r /\ n = d * q + r /\ r < d)%N.
Proof. intros Hd. exists (n / d)%N, (n mod d)%N. pose proof (divmod n d Hd) as [? ?]. done. Qed.

Lemma char_shape c : scalar c -> shape c.
Proof.
  intros S. destruct (N.lt_ge_cases c 128) as [H|H].
  { eapply (shape1 c (ascii_of_N c)); [|by rewrite ascii_N by lia].
    unfold utf8. destruct (_ <? 128)%N eqn:E; [done|apply N.ltb_ge in E; lia]. }
  assert ((c <? 128) = false)%N as E1 by by apply N.ltb_ge.
  destruct (divmod_ex c 64 ltac:(lia)) as (q & r & Q & R & D1 & D2).
  destruct (N.lt_ge_cases c 2048) as [H2|H2].
  { assert ((c <? 2048) = true)%N as E2 by by apply N.ltb_lt.
    eapply (shape2 c (ascii_of_N (192 + q)) (ascii_of_N (128 + r))).
    - unfold utf8. by rewrite E1, E2, Q, R.
    - rewrite ascii_N; lia.
    - unfold rune2. rewrite !andb_true_iff, !byte_in_spec, !ascii_N by lia. lia. }
  assert ((c <? 2048) = false)%N as E2 by by apply N.ltb_ge.
  destruct (divmod_ex q 64 ltac:(lia)) as (q2 & r2 & Q2 & R2 & D3 & D4).
  assert (c / 4096 = q2)%N as Q2'.
  { change 4096%N with (64 * 64)%N. rewrite <- N.div_div by lia. by rewrite Q. }
  destruct (N.lt_ge_cases c 65536) as [H3|H3].
  { assert ((c <? 65536) = true)%N as E3 by by apply N.ltb_lt.
    unfold scalar in S.
    eapply (shape3 c (ascii_of_N (224 + q2)) (ascii_of_N (128 + r2)) (ascii_of_N (128 + r))).
    - unfold utf8. by rewrite E1, E2, E3, Q2', Q, R, R2.
    - rewrite ascii_N; lia.
    - unfold rune2. rewrite andb_false_iff. left. rewrite byte_in_false, ascii_N; lia.
    - unfold rune3. rewrite !andb_true_iff, !orb_true_iff, !andb_true_iff, !byte_in_spec, !ascii_N by lia. lia. }
  assert ((c <? 65536) = false)%N as E3 by by apply N.ltb_ge.
  destruct (divmod_ex q2 64 ltac:(lia)) as (q3 & r3 & Q3 & R3 & D5 & D6).
  assert (c / 262144 = q3)%N as Q3'.
  { change 262144%N with (4096 * 64)%N. rewrite <- N.div_div by lia. by rewrite Q2'. }
  unfold scalar in S.
  eapply (shape4 c (ascii_of_N (240 + q3)) (ascii_of_N (128 + r3)) (ascii_of_N (128 + r2)) (ascii_of_N (128 + r))).
  - unfold utf8. by rewrite E1, E2, E3, Q3', Q2', Q, R, R2, R3.
  - rewrite ascii_N; lia.
  - unfold rune2. rewrite andb_false_iff. left. rewrite byte_in_false, ascii_N; lia.
  - unfold rune3. rewrite andb_false_iff. left. rewrite !orb_false_iff, !andb_false_iff, !byte_in_false, !ascii_N by lia. lia.
  - unfold rune4. rewrite !andb_true_iff, !orb_true_iff, !andb_true_iff, !byte_in_spec, !ascii_N by lia. lia.
Qed.

(** ** Mending *)

Fixpoint mend (s : string) : string :=
  match s with
  | "" => ""
  | String b1 s1 =>
      if (N_of_ascii b1 <? 128)%N then String b1 (mend s1)
      else
        match s1 with
        | "" => utf8 65533 +:+ mend s1
        | String b2 s2 =>
            if rune2 b1 b2 then String b1 (String b2 (mend s2))
            else
              match s2 with
              | "" => utf8 65533 +:+ mend s1
              | String b3 s3 =>
                  if rune3 b1 b2 b3 then String b1 (String b2 (String b3 (mend s3)))
                  else
                    match s3 with
                    | "" => utf8 65533 +:+ mend s1
                    | String b4 s4 =>
                        if rune4 b1 b2 b3 b4 then String b1 (String b2 (String b3 (String b4 (mend s4))))
                        else utf8 65533 +:+ mend s1
                    end
              end
        end
  end.

(** How a text begins. *)
Inductive begins : string -> Prop :=
| begins_nil : begins ""
| begins1 b s : (N_of_ascii b < 128)%N -> begins (String b s)
| begins2 b1 b2 s : (128 <= N_of_ascii b1)%N -> rune2 b1 b2 = true -> begins (String b1 (String b2 s))
| begins3 b1 b2 b3 s : (128 <= N_of_ascii b1)%N -> rune2 b1 b2 = false -> rune3 b1 b2 b3 = true ->
    begins (String b1 (String b2 (String b3 s)))
| begins4 b1 b2 b3 b4 s : (128 <= N_of_ascii b1)%N -> rune2 b1 b2 = false -> rune3 b1 b2 b3 = false ->
    rune4 b1 b2 b3 b4 = true -> begins (String b1 (String b2 (String b3 (String b4 s))))
| begins_bad b s : (128 <= N_of_ascii b)%N ->
    match s with
    | "" => True
    | String b2 s2 => rune2 b b2 = false /\
        match s2 with
        | "" => True
        | String b3 s3 => rune3 b b2 b3 = false /\
            match s3 with "" => True | String b4 _ => rune4 b b2 b3 b4 = false end
        end
    end -> begins (String b s).

Lemma begin_of s : begins s.
Proof.
  destruct s as [|b s]; [constructor|].
  destruct (N.lt_ge_cases (N_of_ascii b) 128) as [H|H]; [by constructor|].
  destruct s as [|b2 s2]; [by apply begins_bad|].
  destruct (rune2 b b2) eqn:R2; [by apply begins2|].
  destruct s2 as [|b3 s3]; [by apply begins_bad|].
  destruct (rune3 b b2 b3) eqn:R3; [by apply begins3|].
  destruct s3 as [|b4 s4]; [by apply begins_bad|].
  destruct (rune4 b b2 b3 b4) eqn:R4; [by apply begins4|].
  by apply begins_bad.
Qed.

Lemma bad_spec b s : (128 <= N_of_ascii b)%N ->
  match s with
  | "" => True
  | String b2 s2 => rune2 b b2 = false /\
      match s2 with
      | "" => True
      | String b3 s3 => rune3 b b2 b3 = false /\
          match s3 with "" => True | String b4 _ => rune4 b b2 b3 b4 = false end
      end
  end -> forall c r, scalar c -> String b s <> utf8 c +:+ r.
Proof.
  intros H B c r Sc E. destruct (char_shape c Sc) as [c x E1 L|c x1 x2 E1 L R2|c x1 x2 x3 E1 L R2 R3|c x1 x2 x3 x4 E1 L R2 R3 R4];
    rewrite E1 in E; cbn in E.
  - injection E as -> ->. lia.
  - injection E as -> ->. destruct B as [B _]. congruence.
  - injection E as -> ->. destruct B as [_ [B _]]. congruence.
  - injection E as -> ->. destruct B as [_ [_ B]]. congruence.
Qed.

Lemma low_ltb b : (N_of_ascii b < 128)%N -> (N_of_ascii b <? 128)%N = true.
Proof. intros. by apply N.ltb_lt. Qed.

Lemma high_ltb b : (128 <= N_of_ascii b)%N -> (N_of_ascii b <? 128)%N = false.
Proof. intros. by apply N.ltb_ge. Qed.

Lemma mend_bad b s : begins (String b s) -> (128 <= N_of_ascii b)%N ->
  match s with
  | "" => True
  | String b2 s2 => rune2 b b2 = false /\
      match s2 with
      | "" => True
      | String b3 s3 => rune3 b b2 b3 = false /\
          match s3 with "" => True | String b4 _ => rune4 b b2 b3 b4 = false end
      end
  end -> mend (String b s) = utf8 65533 +:+ mend s.
Proof.
  intros _ H B. cbn [mend]. rewrite high_ltb by done.
  destruct s as [|b2 s2]; [done|]. destruct B as [-> B].
  destruct s2 as [|b3 s3]; [done|]. destruct B as [-> B].
  destruct s3 as [|b4 s4]; [done|]. by rewrite B.
Qed.

Lemma escape_bad html b s : (128 <= N_of_ascii b)%N ->
  match s with
  | "" => True
  | String b2 s2 => rune2 b b2 = false /\
      match s2 with
      | "" => True
      | String b3 s3 => rune3 b b2 b3 = false /\
          match s3 with "" => True | String b4 _ => rune4 b b2 b3 b4 = false end
      end
  end -> escape html (String b s) = bad_rune +:+ escape html s.
Proof.
  intros H B. cbn [escape]. rewrite high_ltb by done.
  destruct s as [|b2 s2]; [done|]. destruct B as [-> B].
  destruct s2 as [|b3 s3]; [done|]. destruct B as [-> B].
  destruct s3 as [|b4 s4]; [done|]. by rewrite B.
Qed.

Lemma string_len_ind (P : string -> Prop) :
  (forall s, (forall t, String.length t < String.length s -> P t) -> P s) -> forall s, P s.
Proof.
  intros H s. remember (String.length s) as n eqn:E. revert s E.
  induction (lt_wf n) as [n _ IH]. intros s ->. apply H. intros t Ht. by apply (IH (String.length t)).
Qed.

Lemma mended_mend s : Mended s (mend s).
Proof.
  induction s as [s IH] using string_len_ind.
  destruct (begin_of s) as [|b s H|b1 b2 s H R2|b1 b2 b3 s H R2 R3|b1 b2 b3 b4 s H R2 R3 R4|b s H B].
  - constructor.
  - destruct (low_char b H) as [S E]. cbn [mend]. rewrite low_ltb by done.
    change (Mended (String b "" +:+ s) (String b "" +:+ mend s)). rewrite <- E.
    constructor; [done|]. apply IH. cbn. lia.
  - destruct (rune2_char _ _ R2) as (c & S & E). cbn [mend]. rewrite high_ltb, R2 by done.
    change (Mended (String b1 (String b2 "") +:+ s) (String b1 (String b2 "") +:+ mend s)). rewrite <- E.
    constructor; [done|]. apply IH. cbn. lia.
  - destruct (rune3_char _ _ _ R3) as (c & S & _ & E). cbn [mend]. rewrite high_ltb, R2, R3 by done.
    change (Mended (String b1 (String b2 (String b3 "")) +:+ s) (String b1 (String b2 (String b3 "")) +:+ mend s)). rewrite <- E.
    constructor; [done|]. apply IH. cbn. lia.
  - destruct (rune4_char _ _ _ _ R4) as (c & S & E). cbn [mend]. rewrite high_ltb, R2, R3, R4 by done.
    change (Mended (String b1 (String b2 (String b3 (String b4 ""))) +:+ s) (String b1 (String b2 (String b3 (String b4 ""))) +:+ mend s)).
    rewrite <- E. constructor; [done|]. apply IH. cbn. lia.
  - rewrite mend_bad; [|apply begin_of|done|done]. constructor; [by apply bad_spec|]. apply IH. cbn. lia.
Qed.

Lemma mend_char c s : scalar c -> mend (utf8 c +:+ s) = utf8 c +:+ mend s.
Proof.
  intros Sc. destruct (char_shape c Sc) as [c x E1 L|c x1 x2 E1 L R2|c x1 x2 x3 E1 L R2 R3|c x1 x2 x3 x4 E1 L R2 R3 R4];
    rewrite E1; cbn [mend String.append].
  - by rewrite low_ltb.
  - by rewrite high_ltb, R2.
  - by rewrite high_ltb, R2, R3.
  - by rewrite high_ltb, R2, R3, R4.
Qed.

Lemma mend_utf8 s : Utf8 s -> mend s = s.
Proof. induction 1 as [|c s Sc _ IH]; [done|]. by rewrite mend_char, IH. Qed.

Lemma mended_unique s a b : Mended s a -> Mended s b -> a = b.
Proof.
  assert (forall s a, Mended s a -> a = mend s) as H; [|by intros ->%H ->%H].
  clear. induction 1 as [|c s s' Sc _ IH|b s s' Hb _ IH]; [done| |].
  - by rewrite mend_char, IH.
  - rewrite IH. clear IH. remember (String b s) as t eqn:Et.
    destruct (begin_of t) as [|b0 s0 H|b1 b2 s0 H R2|b1 b2 b3 s0 H R2 R3|b1 b2 b3 b4 s0 H R2 R3 R4|b0 s0 H B].
    + done.
    + destruct (low_char b0 H) as [Sc E]. destruct (Hb _ s0 Sc). by rewrite E.
    + destruct (rune2_char _ _ R2) as (c & Sc & E). destruct (Hb _ s0 Sc). by rewrite E.
    + destruct (rune3_char _ _ _ R3) as (c & Sc & _ & E). destruct (Hb _ s0 Sc). by rewrite E.
    + destruct (rune4_char _ _ _ _ R4) as (c & Sc & E). destruct (Hb _ s0 Sc). by rewrite E.
    + injection Et as -> ->. rewrite mend_bad; [done|apply begin_of|done|done].
Qed.

(** ** Reading a text *)

Lemma read_low html b t : (N_of_ascii b < 128)%N ->
  read_chars (escape_low html b +:+ t) = before (String b "") (read_chars t).
Proof.
  destruct b as [[] [] [] [] [] [] [] []]; intros H; try (exfalso; vm_compute in H; discriminate);
    destruct html; reflexivity.
Qed.

Lemma read_high b t : (128 <= N_of_ascii b)%N -> read_chars (String b t) = before (String b "") (read_chars t).
Proof.
  intros H. cbn [read_chars]. unfold is.
  destruct (N.eqb_spec (N_of_ascii b) 34); [lia|]. destruct (N.eqb_spec (N_of_ascii b) 92); [lia|].
  destruct (N.ltb_spec (N_of_ascii b) 32); [lia|]. done.
Qed.

Lemma before_before a b o : before a (before b o) = before (a +:+ b) o.
Proof. destruct o as [[s r]|]; [|done]. cbn. by rewrite app_assoc_str. Qed.

Lemma high_of lo hi b : byte_in lo hi b = true -> (128 <= lo)%N -> (128 <= N_of_ascii b)%N.
Proof. rewrite byte_in_spec. lia. Qed.

Lemma rune2_high b1 b2 : rune2 b1 b2 = true -> (128 <= N_of_ascii b2)%N.
Proof. intros H. bytes. lia. Qed.

Lemma rune3_high b1 b2 b3 : rune3 b1 b2 b3 = true -> (128 <= N_of_ascii b2 /\ 128 <= N_of_ascii b3)%N.
Proof. intros H. bytes. lia. Qed.

Lemma rune4_high b1 b2 b3 b4 : rune4 b1 b2 b3 b4 = true ->
  (128 <= N_of_ascii b2 /\ 128 <= N_of_ascii b3 /\ 128 <= N_of_ascii b4)%N.
Proof. intros H. bytes. lia. Qed.

Lemma line_sep_bytes b1 b2 b3 : line_sep b1 b2 b3 = true ->
  b1 = ascii_of_N 226 /\ b2 = ascii_of_N 128 /\ (b3 = ascii_of_N 168 \/ b3 = ascii_of_N 169).
Proof.
  intros H. bytes. split; [apply ascii_of; lia|]. split; [apply ascii_of; lia|].
  destruct (N.eq_dec (N_of_ascii b3) 168); [left|right]; apply ascii_of; lia.
Qed.

Lemma read_escape html s t : read_chars (escape html s +:+ String """" t) = Some (mend s, t).
Proof.
  induction s as [s IH] using string_len_ind.
  destruct (begin_of s) as [|b s H|b1 b2 s H R2|b1 b2 b3 s H R2 R3|b1 b2 b3 b4 s H R2 R3 R4|b s H B].
  - done.
  - cbn [mend escape]. rewrite low_ltb by done. rewrite app_assoc_str, read_low by done.
    rewrite IH by (cbn; lia). done.
  - cbn [mend escape]. rewrite high_ltb, R2 by done. pose proof (rune2_high _ _ R2).
    cbn [String.append]. rewrite !read_high by done. rewrite IH by (cbn; lia). done.
  - cbn [mend escape]. rewrite high_ltb, R2, R3 by done. pose proof (rune3_high _ _ _ R3) as [? ?].
    destruct (line_sep b1 b2 b3) eqn:L.
    + destruct (line_sep_bytes _ _ _ L) as (-> & -> & [-> | ->]).
      * change (before (utf8 8232) (read_chars (escape html s +:+ String """" t)) =
          Some (utf8 8232 +:+ mend s, t)). rewrite IH by (cbn; lia). done.
      * change (before (utf8 8233) (read_chars (escape html s +:+ String """" t)) =
          Some (utf8 8233 +:+ mend s, t)). rewrite IH by (cbn; lia). done.
    + cbn [String.append]. rewrite !read_high by done. rewrite IH by (cbn; lia). done.
  - cbn [mend escape]. rewrite high_ltb, R2, R3, R4 by done. pose proof (rune4_high _ _ _ _ R4) as (? & ? & ?).
    cbn [String.append]. rewrite !read_high by done. rewrite IH by (cbn; lia). done.
  - rewrite mend_bad; [|apply begin_of|done|done]. rewrite escape_bad by done. rewrite app_assoc_str.
    change (before (utf8 65533) (read_chars (escape html s +:+ String """" t)) = Some (utf8 65533 +:+ mend s, t)).
    rewrite IH by (cbn; lia). done.
Qed.

(** ** Numbers *)

Definition no_digit (s : string) : Prop := match s with "" => True | String c _ => decimal c = None end.

Lemma decimal_digit n : (n < 10)%N -> decimal (digit_char n) = Some n.
Proof.
  intros H. unfold decimal, digit_char. rewrite ascii_N by lia.
  destruct (N.leb_spec 48 (48 + n)); [|lia]. destruct (N.leb_spec (48 + n) 57); [|lia]. cbn. f_equal. lia.
Qed.

Lemma read_digits_aux fuel n t : (n < 2 ^ N.of_nat fuel)%N -> forall acc,
  exists p, read_digits acc (itoa_aux fuel n t) = read_digits (p * acc + n) t.
Proof.
  revert n t. induction fuel as [|fuel IH]; intros n t Hn acc.
  { assert (n = 0)%N as -> by (cbn in Hn; lia). exists 1%N. cbn [itoa_aux]. f_equal. lia. }
  cbn [itoa_aux]. destruct (divmod_ex n 10 ltac:(lia)) as (q & r & Q & R & D1 & D2). rewrite Q, R.
  destruct (N.ltb_spec n 10) as [L|L].
  - exists 10%N. assert (q = 0)%N as -> by lia. cbn [read_digits]. rewrite decimal_digit by lia. f_equal. lia.
  - rewrite Nat2N.inj_succ, N.pow_succ_r' in Hn.
    destruct (IH q (String (digit_char r) t) ltac:(lia) acc) as (p & ->).
    exists (10 * p)%N. cbn [read_digits]. rewrite decimal_digit by lia. f_equal. lia.
Qed.

Lemma itoa_aux_head fuel n t : (n < 2 ^ N.of_nat fuel)%N -> (0 < n)%N ->
  exists d r, itoa_aux fuel n t = String (digit_char d) r /\ (0 < d < 10)%N.
Proof.
  revert n t. induction fuel as [|fuel IH]; intros n t Hn H0; [cbn in Hn; lia|].
  cbn [itoa_aux]. destruct (divmod_ex n 10 ltac:(lia)) as (q & r & Q & R & D1 & D2). rewrite Q, R.
  destruct (N.ltb_spec n 10) as [L|L].
  - exists r, t. split; [done|]. lia.
  - rewrite Nat2N.inj_succ, N.pow_succ_r' in Hn. apply IH; lia.
Qed.

Lemma itoa_bound n : (n < 2 ^ N.of_nat (S (N.to_nat (N.log2 n))))%N.
Proof.
  rewrite Nat2N.inj_succ, N2Nat.id. destruct (N.eq_dec n 0) as [->|]; [done|]. apply N.log2_spec; lia.
Qed.

Lemma itoa_aux_app fuel n t u : itoa_aux fuel n t +:+ u = itoa_aux fuel n (t +:+ u).
Proof.
  revert n t. induction fuel as [|fuel IH]; intros n t; [done|]. cbn [itoa_aux].
  destruct (n <? 10)%N; [done|]. by rewrite IH.
Qed.

Lemma no_digit_stop acc t : no_digit t -> read_digits acc t = (acc, t).
Proof. destruct t as [|c t]; [done|]. cbn. by intros ->. Qed.

(** How a number is written. *)
Lemma number_text n t : no_digit t -> exists d r, itoa n +:+ t = String (digit_char d) r /\ (d < 10)%N /\
  read_number d r = (n, t).
Proof.
  intros Ht. unfold itoa. rewrite itoa_aux_app. cbn [String.append].
  destruct (N.eq_dec n 0) as [->|N0]; [by exists 0%N, t|].
  destruct (itoa_aux_head _ n t (itoa_bound n) ltac:(lia)) as (d & r & E & D). exists d, r. split; [done|].
  split; [lia|]. unfold read_number. destruct (N.eqb_spec d 0); [lia|].
  destruct (read_digits_aux _ n t (itoa_bound n) 0) as (p & P). rewrite E in P. cbn [read_digits] in P.
  rewrite decimal_digit in P by lia. replace (10 * 0 + d)%N with d in P by lia. replace (p * 0 + n)%N with n in P by lia.
  rewrite P. by apply no_digit_stop.
Qed.

(** ** Values *)

Definition blank (s : string) : Prop := forall t, skip (s +:+ t) = skip t.

Lemma blank_app a b : blank a -> blank b -> blank (a +:+ b).
Proof. intros A B t. by rewrite app_assoc_str, A, B. Qed.

Lemma blank_line ind d : blank ind -> blank (line ind d).
Proof.
  intros H. unfold line. apply blank_app; [done|]. induction d as [|d IH]; [done|]. cbn [levels]. by apply blank_app.
Qed.

Definition json_ind' (P : json -> Prop) (Hnull : P JNull) (Hbool : forall b, P (JBool b)) (Hnum : forall n, P (JNum n))
    (Hneg : forall p, P (JNeg p))
    (Hstr : forall s, P (JStr s)) (Harr : forall l, Forall P l -> P (JArr l))
    (Hobj : forall l, Forall (fun kx => P kx.2) l -> P (JObj l)) : forall v, P v :=
  fix go v := match v return P v with
  | JNull => Hnull
  | JBool b => Hbool b
  | JNum n => Hnum n
  | JNeg p => Hneg p
  | JStr s => Hstr s
  | JArr l => Harr l ((fix goes l : Forall P l := match l with
      | [] => Forall_nil_2 _ | x :: l' => Forall_cons_2 _ _ _ (go x) (goes l') end) l)
  | JObj l => Hobj l ((fix goes l : Forall (fun kx => P kx.2) l := match l with
      | [] => Forall_nil_2 _ | x :: l' => Forall_cons_2 _ _ _ (go x.2) (goes l') end) l)
  end.

Fixpoint more_items (html : bool) (ind : string) (d : nat) (l : list json) : string :=
  match l with
  | [] => line ind d +:+ "]"
  | y :: l' => "," +:+ line ind (S d) +:+ encode html ind (S d) y +:+ more_items html ind d l'
  end.

Fixpoint more_members (html : bool) (ind : string) (d : nat) (l : list (string * json)) : string :=
  match l with
  | [] => line ind d +:+ "}"
  | (k', y) :: l' => "," +:+ line ind (S d) +:+ quoted html k' +:+ ": " +:+ encode html ind (S d) y +:+ more_members html ind d l'
  end.

Lemma encode_arr html ind d x l : encode html ind d (JArr (x :: l)) =
  "[" +:+ line ind (S d) +:+ encode html ind (S d) x +:+ more_items html ind d l.
Proof. cbn [encode]. f_equal. f_equal. f_equal. induction l as [|y l IH]; [done|]. cbn [more_items]. by rewrite <- IH. Qed.

Lemma encode_obj html ind d k x l : encode html ind d (JObj ((k, x) :: l)) =
  "{" +:+ line ind (S d) +:+ quoted html k +:+ ": " +:+ encode html ind (S d) x +:+ more_members html ind d l.
Proof.
  cbn [encode]. f_equal. f_equal. f_equal. f_equal. f_equal. induction l as [|[k' y] l IH]; [done|].
  cbn [more_members]. by rewrite <- IH.
Qed.

Lemma read_blank f a t : blank a -> read_value f (a +:+ t) = read_value f t.
Proof. intros H. destruct f as [|f]; [done|]. cbn [read_value]. by rewrite H. Qed.

Lemma members_blank f a t : blank a -> read_members f (a +:+ t) = read_members f t.
Proof. intros H. destruct f as [|f]; [done|]. cbn [read_members]. by rewrite H. Qed.

(** A value that has been written is read, with what follows left over. *)
Definition comes_back (html : bool) (ind : string) (v : json) : Prop :=
  exists f0, forall f d t, f0 <= f -> no_digit t ->
    read_value f (encode html ind d v +:+ t) = Some (jmap mend v, t).

Lemma line_no_digit ind d t : no_digit (line ind d +:+ t).
Proof. done. Qed.

Lemma skip_line ind d t : blank ind -> skip (line ind d +:+ t) = skip t.
Proof. intros H. apply (blank_line ind d H). Qed.

Lemma items_come_back html ind l : blank ind -> Forall (comes_back html ind) l -> forall x, comes_back html ind x ->
  exists f0, forall f d t, f0 <= f ->
    read_items f (encode html ind (S d) x +:+ more_items html ind d l +:+ t) = Some (map (jmap mend) (x :: l), t).
Proof.
  intros Hi. induction 1 as [|y l Hy _ IH]; intros x (f1 & Hx).
  - exists (S f1). intros f d t Hf. destruct f as [|f]; [lia|]. cbn [read_items more_items map].
    rewrite Hx; [|lia|done]. rewrite app_assoc_str, skip_line by done. done.
  - destruct (IH y Hy) as (f2 & H2). exists (S (f1 + f2)). intros f d t Hf. destruct f as [|f]; [lia|].
    cbn [read_items]. rewrite Hx; [|lia|done]. cbn [more_items].
    change (skip (("," +:+ line ind (S d) +:+ encode html ind (S d) y +:+ more_items html ind d l) +:+ t)) with
      (String "," ((line ind (S d) +:+ encode html ind (S d) y +:+ more_items html ind d l) +:+ t)).
    cbn [is N_of_ascii]. change (is "," 44) with true. cbv iota.
    rewrite app_assoc_str. rewrite (app_assoc_str (encode html ind (S d) y)).
    assert (read_items f (line ind (S d) +:+ encode html ind (S d) y +:+ more_items html ind d l +:+ t) =
      read_items f (encode html ind (S d) y +:+ more_items html ind d l +:+ t)) as ->.
    { destruct f as [|f]; [done|]. cbn [read_items]. by rewrite read_blank by by apply blank_line. }
    rewrite H2 by lia. done.
Qed.

Lemma quoted_key html k t : quoted html k +:+ t = String """" (escape html k +:+ String """" t).
Proof. unfold quoted. cbn [String.append]. by rewrite app_assoc_str. Qed.

Lemma skip_head c r : (is c 32 || is c 9 || is c 10 || is c 13) = false -> skip (String c r) = String c r.
Proof. cbn [skip]. by intros ->. Qed.

Lemma members_step f html k u : read_members (S f) (quoted html k +:+ ": " +:+ u) =
  match read_value f u with
  | None => None
  | Some (x, r) =>
      match skip r with
      | "" => None
      | String c r' =>
          if is c 44 then
            match read_members f r' with Some (l, r'') => Some ((mend k, x) :: l, r'') | None => None end
          else if is c 125 then Some ([(mend k, x)], r') else None
      end
  end.
Proof.
  rewrite quoted_key. cbn [read_members]. rewrite (skip_head """" _ eq_refl). change (is """" 34) with true. cbv iota.
  rewrite read_escape. cbv iota beta. change (skip (": " +:+ u)) with (String ":" (" " +:+ u)). cbv iota beta.
  change (is ":" 58) with true. cbv iota. by rewrite read_blank.
Qed.

Lemma members_come_back html ind l : blank ind -> Forall (fun kx => comes_back html ind kx.2) l -> forall k x, comes_back html ind x ->
  exists f0, forall f d t, f0 <= f ->
    read_members f (quoted html k +:+ ": " +:+ encode html ind (S d) x +:+ more_members html ind d l +:+ t) =
      Some (map (fun kx => (mend kx.1, jmap mend kx.2)) ((k, x) :: l), t).
Proof.
  intros Hi. induction 1 as [|[k' y] l Hy _ IH]; intros k x (f1 & Hx).
  - exists (S f1). intros f d t Hf. destruct f as [|f]; [lia|]. rewrite members_step.
    rewrite Hx; [|lia|done]. cbn [more_members]. rewrite app_assoc_str, skip_line by done. done.
  - destruct (IH k' y Hy) as (f2 & H2). exists (S (f1 + f2)). intros f d t Hf. destruct f as [|f]; [lia|].
    rewrite members_step. rewrite Hx; [|lia|done]. cbn [more_members].
    change (skip (("," +:+ line ind (S d) +:+ quoted html k' +:+ ": " +:+ encode html ind (S d) y +:+ more_members html ind d l) +:+ t)) with
      (String "," ((line ind (S d) +:+ quoted html k' +:+ ": " +:+ encode html ind (S d) y +:+ more_members html ind d l) +:+ t)).
    change (is "," 44) with true. cbv iota.
    rewrite app_assoc_str, members_blank by by apply blank_line. rewrite !app_assoc_str, H2 by lia. done.
Qed.

Lemma encode_head html ind d v : exists c r, encode html ind d v = String c r /\
  (is c 32 || is c 9 || is c 10 || is c 13) = false /\ is c 93 = false.
Proof.
  destruct v as [|[]|n|p|s|[|x l]|[|[k x] l]]; try (by do 2 eexists).
  destruct (number_text n "" I) as (d' & r & E & D & _). rewrite app_nil_str in E. exists (digit_char d'), r.
  split; [done|]. unfold is, digit_char. rewrite !ascii_N by lia. rewrite !orb_false_iff, !N.eqb_neq. lia.
Qed.

Lemma all_come_back html ind v : blank ind -> comes_back html ind v.
Proof.
  intros Hi. induction v as [|b|n|p|s|l IH|l IH] using json_ind'.
  - exists 1. intros f d t Hf _. destruct f as [|f]; [lia|]. done.
  - exists 1. intros f d t Hf _. destruct f as [|f]; [lia|]. by destruct b.
  - exists 1. intros f d t Hf Ht. destruct f as [|f]; [lia|]. cbn [encode].
    destruct (number_text n t Ht) as (d' & r & -> & D & R).
    assert (forall m, m < 48 \/ 57 < m -> is (digit_char d') m = false)%N as Hd.
    { intros m Hm. unfold is, digit_char. rewrite ascii_N by lia. apply N.eqb_neq. lia. }
    cbn [read_value]. rewrite skip_head by (rewrite !Hd by lia; done). rewrite !Hd by lia.
    rewrite decimal_digit by done. by rewrite R.
  - exists 1. intros f d t Hf Ht. destruct f as [|f]; [lia|]. cbn [encode].
    destruct (number_text (Npos p) t Ht) as (d' & r & E & D & R). change (("-" +:+ itoa (N.pos p)) +:+ t) with (String "-" (itoa (N.pos p) +:+ t)).
    rewrite E. cbn [read_value]. rewrite (skip_head "-" _ eq_refl). change (is "-" 34) with false. change (is "-" 91) with false.
    change (is "-" 123) with false. change (decimal "-") with (@None N). change (is "-" 45) with true. cbv iota.
    rewrite decimal_digit by done. by rewrite R.
  - exists 1. intros f d t Hf _. destruct f as [|f]; [lia|]. cbn [encode]. rewrite quoted_key.
    cbn [read_value]. rewrite (skip_head """" _ eq_refl). change (is """" 34) with true. cbv iota. by rewrite read_escape.
  - destruct l as [|x l].
    { exists 1. intros f d t Hf _. destruct f as [|f]; [lia|]. done. }
    apply Forall_cons in IH as [Hx Hl].
    destruct (items_come_back html ind l Hi Hl x Hx) as (f0 & H0). exists (S (S f0)). intros f d t Hf _.
    destruct f as [|f]; [lia|]. rewrite encode_arr. rewrite !app_assoc_str.
    assert (exists c r, skip (line ind (S d) +:+ encode html ind (S d) x +:+ more_items html ind d l +:+ t) = String c r /\
      is c 93 = false) as (c & r & E & E2).
    { rewrite skip_line by done. destruct (encode_head html ind (S d) x) as (c & r & E & E1 & E2). rewrite E. cbn [String.append].
      rewrite skip_head by done. by exists c, (r +:+ more_items html ind d l +:+ t). }
    assert (read_items f (line ind (S d) +:+ encode html ind (S d) x +:+ more_items html ind d l +:+ t) =
      read_items f (encode html ind (S d) x +:+ more_items html ind d l +:+ t)) as HH.
    { destruct f as [|f]; [done|]. cbn [read_items]. by rewrite read_blank by by apply blank_line. }
    rewrite H0 in HH by lia. revert E HH. generalize (line ind (S d) +:+ encode html ind (S d) x +:+ more_items html ind d l +:+ t).
    intros u E HH. cbn [read_value]. change ("[" +:+ u) with (String "[" u). rewrite (skip_head "[" _ eq_refl).
    change (is "[" 34) with false. change (is "[" 91) with true. cbv iota. by rewrite E, E2, HH.
  - destruct l as [|[k x] l].
    { exists 1. intros f d t Hf _. destruct f as [|f]; [lia|]. done. }
    apply Forall_cons in IH as [Hx Hl].
    destruct (members_come_back html ind l Hi Hl k x Hx) as (f0 & H0). exists (S (S f0)). intros f d t Hf _.
    destruct f as [|f]; [lia|]. rewrite encode_obj. rewrite !app_assoc_str.
    assert (exists c r, skip (line ind (S d) +:+ quoted html k +:+ ": " +:+ encode html ind (S d) x +:+ more_members html ind d l +:+ t) = String c r /\
      is c 125 = false) as (c & r & E & E2).
    { rewrite skip_line by done. rewrite quoted_key. rewrite (skip_head """" _ eq_refl). by do 2 eexists. }
    pose proof (members_blank f (line ind (S d)) (quoted html k +:+ ": " +:+ encode html ind (S d) x +:+ more_members html ind d l +:+ t)
      (blank_line _ _ Hi)) as HH.
    rewrite H0 in HH by lia. revert E HH.
    generalize (line ind (S d) +:+ quoted html k +:+ ": " +:+ encode html ind (S d) x +:+ more_members html ind d l +:+ t).
    intros u E HH. cbn [read_value]. change ("{" +:+ u) with (String "{" u). rewrite (skip_head "{" _ eq_refl).
    change (is "{" 34) with false. change (is "{" 91) with false. change (is "{" 123) with true. cbv iota. by rewrite E, E2, HH.
Qed.

Lemma pretty_reads v : Reads (pretty_print v) (jmap mend v).
Proof. destruct (all_come_back true "  " v ltac:(done)) as (f & H). exists f, newline. split; [by apply H|done]. Qed.

Lemma marshal_reads v t : skip t = "" -> Reads (json_marshal v +:+ t) (jmap mend v).
Proof.
  intros Ht. destruct (all_come_back false "    " v ltac:(done)) as (f & H). exists f, (newline +:+ t).
  split; [|done]. unfold json_marshal. rewrite app_assoc_str. by apply H.
Qed.

(** ** Only one value can be read *)

Lemma read_more f :
  (forall s x, read_value f s = Some x -> read_value (S f) s = Some x) /\
  (forall s x, read_items f s = Some x -> read_items (S f) s = Some x) /\
  (forall s x, read_members f s = Some x -> read_members (S f) s = Some x).
Proof.
  induction f as [|f (IH1 & IH2 & IH3)]; [done|]. split; [|split].
  - intros s x H. cbn [read_value] in H. remember (S f) as g eqn:Eg. cbn [read_value].
    destruct (skip s) as [|c r]; [done|]. destruct (is c 34); [done|]. destruct (is c 91).
    { destruct (skip r) as [|c' r']; [done|]. destruct (is c' 93); [done|].
      destruct (read_items f r) as [[l r'']|] eqn:E; [|done]. by rewrite (IH2 _ _ E). }
    destruct (is c 123); [|done].
    destruct (skip r) as [|c' r']; [done|]. destruct (is c' 125); [done|].
    destruct (read_members f r) as [[l r'']|] eqn:E; [|done]. by rewrite (IH3 _ _ E).
  - intros s x H. cbn [read_items] in H. remember (S f) as g eqn:Eg. cbn [read_items].
    destruct (read_value f s) as [[y r]|] eqn:E; [|done]. rewrite (IH1 _ _ E).
    destruct (skip r) as [|c r']; [done|]. destruct (is c 44); [|done].
    destruct (read_items f r') as [[l r'']|] eqn:E2; [|done]. by rewrite (IH2 _ _ E2).
  - intros s x H. cbn [read_members] in H. remember (S f) as g eqn:Eg. cbn [read_members].
    destruct (skip s) as [|q r0]; [done|]. destruct (is q 34); [|done].
    destruct (read_chars r0) as [[k r1]|]; [|done]. destruct (skip r1) as [|c r2]; [done|]. destruct (is c 58); [|done].
    destruct (read_value f r2) as [[y r]|] eqn:E; [|done]. rewrite (IH1 _ _ E).
    destruct (skip r) as [|c' r']; [done|]. destruct (is c' 44); [|done].
    destruct (read_members f r') as [[l r'']|] eqn:E2; [|done]. by rewrite (IH3 _ _ E2).
Qed.

Lemma read_mono f g s x : f <= g -> read_value f s = Some x -> read_value g s = Some x.
Proof. induction 1 as [|g _ IH]; [done|]. intros H. apply read_more. by apply IH. Qed.

Lemma reads_one t v w : Reads t v -> Reads t w -> v = w.
Proof.
  intros (f & r & H & _) (g & r' & G & _).
  pose proof (read_mono f (f + g) _ _ ltac:(lia) H) as H'. pose proof (read_mono g (f + g) _ _ ltac:(lia) G) as G'.
  congruence.
Qed.

(** ** The output is UTF-8 *)

Lemma utf8_app a b : Utf8 a -> Utf8 b -> Utf8 (a +:+ b).
Proof. induction 1 as [|c s Sc _ IH]; [done|]. intros H. rewrite app_assoc_str. constructor; [done|]. by apply IH. Qed.

Fixpoint low_text (s : string) : bool :=
  match s with "" => true | String c r => (N_of_ascii c <? 128)%N && low_text r end.

Lemma low_utf8 s : low_text s = true -> Utf8 s.
Proof.
  induction s as [|c s IH]; [constructor|]. cbn [low_text]. rewrite andb_true_iff. intros [H Hs]. apply N.ltb_lt in H.
  destruct (low_char c H) as [Sc E]. change (String c s) with (String c "" +:+ s). rewrite <- E. constructor; [done|]. by apply IH.
Qed.

Lemma escape_low_utf8 html b : (N_of_ascii b < 128)%N -> Utf8 (escape_low html b).
Proof.
  intros H. apply low_utf8. destruct b as [[] [] [] [] [] [] [] []]; try (exfalso; vm_compute in H; discriminate);
    destruct html; reflexivity.
Qed.

Lemma escape_utf8 html s : Utf8 (escape html s).
Proof.
  induction s as [s IH] using string_len_ind.
  destruct (begin_of s) as [|b s H|b1 b2 s H R2|b1 b2 b3 s H R2 R3|b1 b2 b3 b4 s H R2 R3 R4|b s H B].
  - constructor.
  - cbn [escape]. rewrite low_ltb by done. apply utf8_app; [by apply escape_low_utf8|]. apply IH. cbn. lia.
  - cbn [escape]. rewrite high_ltb, R2 by done. destruct (rune2_char _ _ R2) as (c & S & E).
    change (Utf8 (String b1 (String b2 "") +:+ escape html s)). rewrite <- E. constructor; [done|]. apply IH. cbn. lia.
  - cbn [escape]. rewrite high_ltb, R2, R3 by done. destruct (rune3_char _ _ _ R3) as (c & S & _ & E).
    destruct (line_sep b1 b2 b3) eqn:L.
    + destruct (line_sep_bytes _ _ _ L) as (_ & _ & [-> | ->]).
      * change (Utf8 ("\u2028" +:+ escape html s)). apply utf8_app; [by apply low_utf8|]. apply IH. cbn. lia.
      * change (Utf8 ("\u2029" +:+ escape html s)). apply utf8_app; [by apply low_utf8|]. apply IH. cbn. lia.
    + change (Utf8 (String b1 (String b2 (String b3 "")) +:+ escape html s)). rewrite <- E. constructor; [done|]. apply IH. cbn. lia.
  - cbn [escape]. rewrite high_ltb, R2, R3, R4 by done. destruct (rune4_char _ _ _ _ R4) as (c & S & E).
    change (Utf8 (String b1 (String b2 (String b3 (String b4 ""))) +:+ escape html s)). rewrite <- E.
    constructor; [done|]. apply IH. cbn. lia.
  - rewrite escape_bad by done. apply utf8_app; [by apply low_utf8|]. apply IH. cbn. lia.
Qed.

Lemma quoted_utf8 html s : Utf8 (quoted html s).
Proof. unfold quoted. apply utf8_app; [by apply low_utf8|]. apply utf8_app; [apply escape_utf8|by apply low_utf8]. Qed.

Lemma line_utf8 ind d : Utf8 ind -> Utf8 (line ind d).
Proof.
  intros H. unfold line. apply utf8_app; [by apply low_utf8|]. induction d as [|d IH]; [constructor|].
  cbn [levels]. by apply utf8_app.
Qed.

Lemma itoa_aux_low fuel n t : low_text t = true -> low_text (itoa_aux fuel n t) = true.
Proof.
  revert n t. induction fuel as [|fuel IH]; intros n t H; [done|]. cbn [itoa_aux].
  destruct (divmod_ex n 10 ltac:(lia)) as (q & r & Q & R & D1 & D2). rewrite Q, R.
  assert (low_text (String (digit_char r) t) = true) as H'.
  { cbn [low_text]. rewrite H. unfold digit_char. rewrite ascii_N by lia. destruct (N.ltb_spec (48 + r) 128); [done|lia]. }
  destruct (n <? 10)%N; [done|]. by apply IH.
Qed.

Lemma encode_utf8 html ind v : Utf8 ind -> forall d, Utf8 (encode html ind d v).
Proof.
  intros Hi. induction v as [|b|n|p|s|l IH|l IH] using json_ind'; intros d.
  - by apply low_utf8.
  - destruct b; by apply low_utf8.
  - apply low_utf8. by apply itoa_aux_low.
  - apply low_utf8. cbn [encode]. apply (itoa_aux_low _ _ ""). done.
  - apply quoted_utf8.
  - destruct l as [|x l]; [by apply low_utf8|]. apply Forall_cons in IH as [Hx Hl]. rewrite encode_arr.
    apply utf8_app; [by apply low_utf8|]. apply utf8_app; [by apply line_utf8|]. apply utf8_app; [done|].
    induction Hl as [|y l Hy _ IH]; cbn [more_items].
    + apply utf8_app; [by apply line_utf8|by apply low_utf8].
    + apply utf8_app; [by apply low_utf8|]. apply utf8_app; [by apply line_utf8|]. by apply utf8_app.
  - destruct l as [|[k x] l]; [by apply low_utf8|]. apply Forall_cons in IH as [Hx Hl]. rewrite encode_obj.
    apply utf8_app; [by apply low_utf8|]. apply utf8_app; [by apply line_utf8|]. apply utf8_app; [apply quoted_utf8|].
    apply utf8_app; [by apply low_utf8|]. apply utf8_app; [done|].
    induction Hl as [|[k' y] l Hy _ IH]; cbn [more_members].
    + apply utf8_app; [by apply line_utf8|by apply low_utf8].
    + apply utf8_app; [by apply low_utf8|]. apply utf8_app; [by apply line_utf8|]. apply utf8_app; [apply quoted_utf8|].
      apply utf8_app; [by apply low_utf8|]. by apply utf8_app.
Qed.

(** ** What is said *)

Lemma slice_mend l : Forall Utf8 l -> jmap mend (slice l) = slice l.
Proof.
  intros H. destruct l as [|x l]; [done|]. unfold slice. cbn [jmap]. f_equal.
  induction H as [|y l' Hy _ IH]; [done|]. cbn [map jmap]. by rewrite mend_utf8, IH.
Qed.

Lemma slice_says l : says_list l (slice l).
Proof. destruct l as [|x l]; [right|left]; done. Qed.

Lemma in_order_list {A} (f : A -> json) (m : gmap string A) ks : (forall k, k ∈ ks -> is_Some (m !! k)) ->
  (omap (fun k => (fun x => (k, f x)) <$> m !! k) ks).*1 = ks.
Proof.
  induction ks as [|k ks IH]; [done|]. intros H. destruct (H k ltac:(by left)) as [a E]. cbn. rewrite E. cbn.
  f_equal. apply IH. intros k' Hk. apply H. by right.
Qed.

Lemma in_order_says {A} (says : A -> json -> Prop) (f : A -> json) (m : gmap string A) :
  (forall k a, m !! k = Some a -> Utf8 k /\ says a (jmap mend (f a))) ->
  says_map says m (jmap mend (in_order f m)).
Proof.
  intros H. unfold in_order. set (ks := sort_strings (elements (dom (D := gset string) m))).
  assert (forall k, k ∈ ks <-> is_Some (m !! k)) as Hks.
  { intros k. unfold ks. rewrite sort_strings_perm, elem_of_elements, elem_of_dom. done. }
  set (l := omap (fun k => (fun x => (k, f x)) <$> m !! k) ks).
  assert (l.*1 = ks) as Hl by (apply in_order_list; intros k; apply Hks).
  assert (forall k x, (k, x) ∈ l -> exists a, m !! k = Some a /\ x = f a) as Hin.
  { intros k x Hx. apply elem_of_list_omap in Hx as (k' & _ & E). destruct (m !! k') as [a|] eqn:Em; [|done].
    cbn in E. injection E as -> <-. by exists a. }
  cbn [jmap]. exists (map (fun kx => (mend kx.1, jmap mend kx.2)) l). split; [done|].
  assert ((map (fun kx => (mend kx.1, jmap mend kx.2)) l).*1 = ks) as Hm.
  { transitivity l.*1; [|done]. clearbody l. clear Hl Hks ks. induction l as [|[k x] l IH]; [done|].
    cbn. destruct (Hin k x ltac:(by left)) as (a & E & _). rewrite mend_utf8 by by apply (H k a). f_equal. apply IH.
    intros k' x' Hx. apply Hin. by right. }
  rewrite Hm. split; [|split; [|split]].
  - unfold ks. rewrite sort_strings_perm. apply NoDup_elements.
  - apply sort_strings_sorted.
  - intros k x Hx. apply elem_of_list_In, in_map_iff in Hx as ([k0 x0] & E & Hx). cbn in E. injection E as <- <-.
    apply elem_of_list_In in Hx. destruct (Hin _ _ Hx) as (a & Ea & ->). exists a.
    rewrite mend_utf8 by by apply (H k0 a). split; [done|]. by apply (H k0 a).
  - intros k Hk. by apply Hks.
Qed.
