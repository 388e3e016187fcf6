(** What becomes of the directory of the package cache in all cases (C138). *)
From stdpp Require Import strings list.
From Coq Require Import Ascii Lia.
From Verif.model Require Import GoStr Fs Install Valtools Docs.
From Verif.spec Require Import StrSpec LibSpec DocsSpec.
From Verif.proofs Require Import GoStrLemmas FsProofs ExtractProofs ValProofs DocsProofs.
From Verif.props Require Import P_Docs.

Local Open Scope string_scope.

(** No file stands where a directory on the way to [p], or [p], should be. *)
Definition way_free (f : fsys) (p : path) : Prop := forall q c, in_dir q p -> f q <> Some (File c).

(** It panics just when the directory is missing, cannot be made, and must work; otherwise
    there is a directory afterwards just when there was one or it could be made. *)
Theorem C138_exact cwd dir must allowed f :
  let p := resolve cwd dir in
  (new_package_cache cwd dir must allowed f = None <-> must = true /\ allowed = false /\ f p = None /\ way_free f p) /\
  (forall f', new_package_cache cwd dir must allowed f = Some (p, f') ->
     (f' p = Some Dir <-> f p = Some Dir \/ (allowed = true /\ f p = None /\ way_free f p)) /\
     (allowed = false \/ f p <> None \/ ~ way_free f p -> f' = f)).
Proof.
  intros p.
  assert (stat f p = StatMissing <-> f p = None /\ way_free f p) as Sm.
  { unfold stat, way_free. destruct (under_file f [] p) eqn:Eu.
    - split; [done|]. intros [_ Hw]. apply under_file_blocked in Eu as (a & y & r & c & E & Hf).
      exfalso. eapply (Hw a c); [|exact Hf]. by exists (y :: r).
    - destruct (f p) as [n|] eqn:Ef; [by split; [|intros [? _]]|]. split; [|done]. intros _. split; [done|].
      intros q c [[|y r] E] Hq; [rewrite app_nil_r in E; congruence|].
      assert (under_file f [] p = true) as Hu; [|congruence]. apply under_file_blocked. by exists q, y, r, c. }
  assert (f p = None -> way_free f p -> is_Some (mkdir_all p f)) as Mk.
  { intros _ Hw. unfold mkdir_all. destruct (existsb _ _) eqn:Ex; [|by eexists]. exfalso.
    apply existsb_exists in Ex as (a & Hin & Hf). destruct (f a) as [[c|]|] eqn:Efa; try done.
    apply (Hw a c); [|done]. clear -Hin. generalize dependent a. induction p as [|x q0 IH]; intros a Hin; cbn [prefixes] in Hin.
    - destruct Hin as [<-|[]]. by exists [].
    - destruct Hin as [<-|Hin]; [by exists (x :: q0)|]. apply in_map_iff in Hin as (b & <- & Hb). destruct (IH b Hb) as [r ->]. by exists r. }
  unfold new_package_cache. fold p. destruct (stat f p) eqn:Es.
  - assert (f p <> None) as Nf.
    { unfold stat in Es. destruct (under_file f [] p); [done|]. by destruct (f p). }
    split; [split; [done|by intros (_ & _ & ? & _)]|]. intros f' [= <-]. split; [|done].
    split; [by left|]. intros [?|(_ & ? & _)]; done.
  - destruct (proj1 Sm eq_refl) as [Nf Wf]. destruct (Mk Nf Wf) as [g Hg]. rewrite Hg. destruct allowed.
    + split; [split; [done|by intros (_ & ? & _)]|]. intros f' [= <-]. split.
      * split; [by right|]. intros _. destruct (mkdir_spec _ _ _ Hg) as (H1 & _). apply H1. exists []. by rewrite app_nil_r.
      * intros [?|[?|?]]; done.
    + destruct must.
      * split; [by split|]. done.
      * split; [split; [done|by intros (? & _)]|]. intros f' [= <-]. split; [|done].
        split; [by left|]. intros [?|(? & _)]; done.
  - assert (~ (f p = None /\ way_free f p)) as N by (intros H; apply Sm in H; congruence).
    split; [split; [done|intros (_ & _ & ?); by destruct N]|]. intros f' [= <-]. split; [|done].
    split; [by left|]. intros [?|(_ & ?)]; [done|by destruct N].
Qed.

Example C138_exact_example :
  let f := fun q : path => if decide (q = [] \/ q = ["work"]) then Some Dir else None in
  new_package_cache ["work"] "cache" true false f = None /\
  (exists f', new_package_cache ["work"] "cache" true true f = Some (["work"; "cache"], f') /\ f' ["work"; "cache"] = Some Dir).
Proof. split; [done|]. eexists. split; vm_compute; reflexivity. Qed.

Print Assumptions C138_exact.
