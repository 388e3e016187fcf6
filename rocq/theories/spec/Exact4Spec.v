(** Vocabulary of props/P_Exact5.v. *)
From stdpp Require Import strings list.
From Coq Require Import Ascii.
From Verif.model Require Import GoStr Fs Clean.
From Verif.spec Require Import StrSpec LibSpec EnvSpec CleanSpec.

Local Open Scope string_scope.

(** [t] is [s] without the blanks around it. *)
Definition stripped (s t : string) : Prop :=
  exists a b, s = a +:+ t +:+ b /\ all_bytes (Ascii.eqb " ") a = true /\ all_bytes (Ascii.eqb " ") b = true /\ unpadded t.

(** A variable of the caller whose name is [k] with blanks around it; [w] is its value
    without blanks around it. *)
Definition padded_entry (k ev w : string) : Prop :=
  exists name raw, ev = name +:+ "=" +:+ raw /\ without "=" name /\ name <> k /\ stripped name k /\
    raw <> "" /\ stripped raw w.

(** The last of these. *)
Definition last_padded (sys : list string) (k w : string) : Prop :=
  exists l1 ev l2, sys = (l1 ++ ev :: l2)%list /\ padded_entry k ev w /\
    forall ev' w', ev' ∈ l2 -> ~ padded_entry k ev' w'.

(** A folder of a repository to clean in which there is nothing but what is to be removed. *)
Definition left_empty (c : clean_config) (d : list string) (f : fsys) (q : list string) : Prop :=
  exists x, chosen_folder c x /\ q = (d ++ [x])%list /\ f q = Some Dir /\
    forall y, f (d ++ [x; y])%list <> None -> chosen_sub c y.

(** What cleaning the cache removes. *)
Definition swept (c : clean_config) (d : list string) (f : fsys) (q : list string) : Prop :=
  chosen c d q \/ left_empty c d f q \/ exists h, h ∈ cc_hashes c /\ in_dir (tarball_dir c h) q.
