(** Environments of processes and maps as lists of pairs. *)
From stdpp Require Import strings list.
From Coq Require Import Ascii.
From Verif.spec Require Import StrSpec.

Local Open Scope string_scope.

(** [name] has value [v] in an environment: the last definition counts
    (os/exec, documentation of Cmd.Env). *)
Definition env_value (env : list string) (name v : string) : Prop :=
  exists a b, env = (a ++ (name +:+ "=" +:+ v) :: b)%list /\ forall w, ~ (name +:+ "=" +:+ w) ∈ b.

(** No byte [c] in [s]. *)
Definition without (c : ascii) (s : string) : Prop := all_bytes (fun d => negb (Ascii.eqb c d)) s = true.

(** Neither starts nor ends with a blank. *)
Definition unpadded (n : string) : Prop := forall r, n <> " " +:+ r /\ n <> r +:+ " ".

(** A variable name as shells allow it: not padded, no equals sign. *)
Definition var_name (n : string) : Prop := unpadded n /\ without "=" n.

(** The caller's variable [name] has the value [v]: the first definition counts
    (os.Environ passes them on in order, duplicates do not occur in practice). *)
Definition caller_has (sys : list string) (name v : string) : Prop :=
  exists a b, sys = (a ++ (name +:+ "=" +:+ v) :: b)%list /\ forall w, ~ (name +:+ "=" +:+ w) ∈ a.

(** Every entry of the caller's environment has an unpadded name. *)
Definition plain_environment (sys : list string) : Prop :=
  forall k v, without "=" k -> (k +:+ "=" +:+ v) ∈ sys -> unpadded k.

(** The variables that pkgr calls sensitive, in any letter case. *)
Definition upcase (c : ascii) : ascii :=
  let n := nat_of_ascii c in
  if bool_decide (nat_of_ascii "a" <= n <= nat_of_ascii "z") then ascii_of_nat (n - 32) else c.

Fixpoint upper (s : string) : string :=
  match s with "" => "" | String c r => String (upcase c) (upper r) end.

Definition sensitive (name : string) : Prop :=
  upper name = "GITHUB_TOKEN" \/ upper name = "GITHUB_PAT" \/ upper name = "GHE_TOKEN" \/
  upper name = "GHE_PAT" \/ upper name = "AWS_ACCESS_KEY_ID" \/ upper name = "AWS_SECRET_KEY".
