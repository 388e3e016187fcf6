(** More of C57: GetNvp gives the pair of which Get gives the value. *)
From stdpp Require Import strings list gmap.
From Coq Require Import Ascii ZArith.
From Verif.model Require Import GoStr Version Desc Nexus Pacman Graph Fs Env Rest.

Local Open Scope string_scope.

Theorem C57_pair : forall l name, nvp_get l name = option_map n_value (get_nvp l name) /\
  (forall p, get_nvp l name = Some p -> n_name p = name /\ exists before after, l = (before ++ p :: after)%list /\ name ∉ map n_name before).
Proof.
  intros l name. induction l as [|p l [IH1 IH2]]; cbn [nvp_get get_nvp]; [done|].
  destruct (String.eqb_spec name (n_name p)) as [->|N].
  - split; [done|]. intros q [= <-]. split; [done|]. exists [], l. split; [done|]. apply not_elem_of_nil.
  - split; [done|]. intros q Hq. destruct (IH2 q Hq) as (E & b & a & -> & Hb). split; [done|]. exists (p :: b), a. split; [done|].
    cbn [map]. by apply not_elem_of_cons.
Qed.

Example C57_pair_example : get_nvp [{| n_name := "A"; n_value := "1" |}; {| n_name := "B"; n_value := "2" |}; {| n_name := "B"; n_value := "3" |}] "B"
  = Some {| n_name := "B"; n_value := "2" |}.
Proof. done. Qed.

Print Assumptions C57_pair.
