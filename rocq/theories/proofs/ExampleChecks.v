(** Boolean checks used to show that examples meet the hypotheses of theorems. *)
From stdpp Require Import strings list gmap.
From Coq Require Import Ascii ZArith Lia.
From Verif.model Require Import GoStr Version Desc Nexus Graph.
From Verif.spec Require Import RepoSpec GraphSpec PlanSpec.
From Verif.proofs Require Import RepoProofs.

Local Open Scope string_scope.

Definition names_ok (m : gmap string desc) : bool :=
  forallb (fun kv => String.eqb (d_package kv.2) kv.1) (map_to_list m).

Definition nexus_okb (nx : nexus) : bool :=
  forallb (fun db => forallb (fun tm => names_ok tm.2) (db_types db)) (nx_db nx).

Lemma descs_of_in l st : descs_of l st = ∅ \/ exists t, (t, descs_of l st) ∈ l.
Proof.
  induction l as [|[t m] l IH]; cbn [descs_of]; [by left|].
  destruct (decide (t = st)); [right; exists t; by left|].
  destruct IH as [|[t' H]]; [by left|]. right. exists t'. by right.
Qed.

Lemma nexus_okb_sound nx : nexus_okb nx = true -> nexus_ok nx.
Proof.
  unfold nexus_okb. rewrite forallb_forall. intros H db st p d Hdb Hl. apply descs_record in Hl.
  apply elem_of_list_In, H in Hdb. rewrite forallb_forall in Hdb.
  destruct (descs_of_in (db_types db) st) as [E|[t Ht]].
  - rewrite E, lookup_empty in Hl. done.
  - apply elem_of_list_In, Hdb in Ht. unfold names_ok in Ht. cbn [snd] in Ht. rewrite forallb_forall in Ht.
    apply elem_of_map_to_list, elem_of_list_In, Ht in Hl. by apply String.eqb_eq in Hl.
Qed.

Definition no_recordb (nx : nexus) (p : string) : bool :=
  forallb (fun db => forallb (fun tm => bool_decide (tm.2 !! p = None)) (db_types db)) (nx_db nx).

Lemma no_recordb_sound nx p : no_recordb nx p = true -> no_record nx p.
Proof.
  unfold no_recordb. rewrite forallb_forall. intros H db st d Hdb. apply descs_no_record.
  apply elem_of_list_In, H in Hdb. rewrite forallb_forall in Hdb.
  destruct (descs_of_in (db_types db) st) as [E|[t Ht]].
  - by rewrite E, lookup_empty.
  - apply elem_of_list_In, Hdb in Ht. by apply bool_decide_eq_true in Ht.
Qed.

Definition availableb (nx : nexus) (p : string) : bool :=
  match get_package nx p with Some _ => true | None => false end.

Lemma availableb_sound nx p : availableb nx p = true -> available nx p.
Proof. unfold availableb. destruct (get_package nx p) as [[d c]|] eqn:E; [|done]. by exists d, c. Qed.

Lemma availableb_all nx l : forallb (availableb nx) l = true -> forall p, p ∈ l -> available nx p.
Proof. rewrite forallb_forall. intros H p Hp. apply availableb_sound, H. by apply elem_of_list_In. Qed.

Lemma id_oracle_ok : oracle_ok (fun _ l => l).
Proof. by intros p l. Qed.

Lemma rev_oracle_ok : oracle_ok (fun _ l => rev l).
Proof. intros p l. symmetry. apply Permutation_rev. Qed.

Definition depsb (m : gmap string dep) : bool :=
  forallb (fun kv => String.eqb (dep_name kv.2) kv.1) (map_to_list m).

Lemma depsb_sound m : depsb m = true -> deps_ok m.
Proof.
  unfold depsb. rewrite forallb_forall. intros H k v Hl.
  apply elem_of_map_to_list, elem_of_list_In, H in Hl. by apply String.eqb_eq in Hl.
Qed.
