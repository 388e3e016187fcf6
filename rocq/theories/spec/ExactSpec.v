(** What happens in the cases that the statements of the claims leave out: the
    vocabulary of props/P_Exact.v. *)
From stdpp Require Import strings list gmap.
From Coq Require Import Ascii ZArith.
From Verif.model Require Import GoStr Version.
From Verif.spec Require Import StrSpec EnvSpec StampSpec VersionSpec.

Local Open Scope string_scope.

(** * Versions *)

(** The numbers of a version that are looked at: with five or more, the fourth and the
    following are lost. *)
Definition looked_at (l : list Z) : list Z := if (length l <=? 4)%nat then l else take 3 l.

(** The digits a text begins with, and what is left. *)
Definition decimal (c : ascii) : bool := (48 <=? nat_of_ascii c)%nat && (nat_of_ascii c <=? 57)%nat.

Fixpoint leading_digits (s : string) : list nat * string :=
  match s with
  | String c r => if decimal c then ((nat_of_ascii c - 48)%nat :: (leading_digits r).1, (leading_digits r).2) else ([], s)
  | "" => ([], "")
  end.

(** The number that is read from a text without a sign: 0 if there is none, or if
    something follows that is not a digit, and at most [limit]. *)
Definition magnitude (limit : Z) (s : string) : Z :=
  let '(ds, rest) := leading_digits s in
  if (2 ^ 64 <=? numeral_value ds)%Z then limit
  else match ds, rest with
       | _ :: _, "" => Z.min limit (numeral_value ds)
       | _, _ => 0%Z
       end.

Definition number_in (s : string) : Z :=
  match s with
  | String "+" r => magnitude (2 ^ 63 - 1) r
  | String "-" r => (- magnitude (2 ^ 63) r)%Z
  | _ => magnitude (2 ^ 63 - 1) s
  end.

(** A text without dots and dashes. *)
Definition piece (s : string) : Prop := forall a c b, s = (a +:+ String c b)%string -> c <> "."%char /\ c <> "-"%char.

(** * DESCRIPTION files *)

(** [n] is [x] without the blanks around it. *)
Definition blanks_cut (x n : string) : Prop :=
  unpadded n /\ exists a b, x = a +:+ n +:+ b /\ all_bytes (Ascii.eqb " ") a = true /\ all_bytes (Ascii.eqb " ") b = true.

(** What becomes of a line. *)
Inductive stamped_as (repo : string) : string -> list string -> Prop :=
| st_dropped l : mentions_own l -> stamped_as repo l []
| st_moved l x rest n : ~ mentions_own l -> ~ same_line l ("Repository: " +:+ repo) ->
    l = "Repository:" +:+ x +:+ rest -> without ":" x -> (rest = "" \/ exists r, rest = ":" +:+ r) -> blanks_cut x n ->
    stamped_as repo l ["OriginalRepository: " +:+ n; "Repository: " +:+ repo]
| st_kept l : ~ mentions_own l -> repository_field l = false \/ same_line l ("Repository: " +:+ repo) ->
    stamped_as repo l [l].
