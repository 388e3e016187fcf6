(** C58 to C60: stamping the DESCRIPTION of an installed package. *)
From stdpp Require Import strings list.
From Coq Require Import Ascii.
From Verif.model Require Import GoStr Stamp.
From Verif.spec Require Import StrSpec StampSpec.
From Verif.proofs Require Import GoStrLemmas StampProofs.

Local Open Scope string_scope.

(** C58.  In full: for all lines, the fields are written exactly once at the end,
    Repository names the repository used, and all other lines are kept in order.
    Missing in the partial theorem: files in which another line mentions one of
    the three field names, see the refutation. *)
Theorem C58_fields_partial : forall lines version ty url repo,
  (forall l, l ∈ lines -> mentions_own l -> own_field l = true) ->
  exists body,
    stamp lines version ty url repo =
      (body ++ ["PkgrVersion: " +:+ version; "PkgrInstallType: " +:+ ty; "PkgrRepositoryURL: " +:+ url])%list /\
    (forall x, x ∈ body -> own_field x = false) /\
    List.filter foreign body = List.filter foreign lines /\
    (forall x, x ∈ body -> repository_field x = true -> same_line x ("Repository: " +:+ repo)) /\
    length (List.filter repository_field body) = length (List.filter repository_field lines) /\
    sublist (List.filter original_field lines) (List.filter original_field body).
Proof.
  intros lines version ty url repo H. exists (stamp_loop repo lines). split; [done|].
  split; [apply loop_no_own|]. split; [by apply loop_foreign|]. split; [apply loop_repository|].
  split; [by apply loop_count|by apply loop_original].
Qed.
Print Assumptions C58_fields_partial.

Example C58_example :
  stamp ["Package: MASS"; "PkgrVersion: 1.0"; "Repository: CRAN"; "Title: x"] "3.0" "source" "https://a.org" "local" =
  ["Package: MASS"; "OriginalRepository: CRAN"; "Repository: local"; "Title: x";
   "PkgrVersion: 3.0"; "PkgrInstallType: source"; "PkgrRepositoryURL: https://a.org"].
Proof. reflexivity. Qed.

(** A line of the description text that mentions a field name is dropped. *)
Theorem C58_mentioned_field_refuted : exists lines version ty url repo l,
  l ∈ lines /\ foreign l = true /\ ~ l ∈ stamp lines version ty url repo.
Proof.
  exists ["Package: a"; "Description: Reads the PkgrRepositoryURL field"], "1", "source", "u", "CRAN",
    "Description: Reads the PkgrRepositoryURL field".
  split; [by right; left|]. split; [reflexivity|].
  intros H. repeat (apply elem_of_cons in H as [H|H]; [discriminate H|]). by apply elem_of_nil in H.
Qed.
Print Assumptions C58_mentioned_field_refuted.

(** C59.  In full: for all arguments.  Missing: repositories whose name mentions
    one of the field names. *)
Theorem C59_twice_partial : forall lines version ty url repo, ~ mentions_own repo ->
  stamp (stamp lines version ty url repo) version ty url repo = stamp lines version ty url repo.
Proof. exact stamp_twice. Qed.
Print Assumptions C59_twice_partial.

Example C59_example : ~ mentions_own "CRAN" /\
  stamp ["Package: a"; "Repository: RSPM"] "1" "source" "u" "CRAN" <> ["Package: a"; "Repository: RSPM"].
Proof. split; [|discriminate]. rewrite <- stamp_line_spec. discriminate. Qed.

Theorem C59_name_refuted : exists lines version ty url repo,
  stamp (stamp lines version ty url repo) version ty url repo <> stamp lines version ty url repo.
Proof.
  exists ["Repository: CRAN"], "1", "source", "u", "PkgrVersion:".
  intros H. vm_compute in H. discriminate H.
Qed.
Print Assumptions C59_name_refuted.

(** C60.  In full: whatever the previous value is, it follows "OriginalRepository: ".
    Missing: values containing a colon, see the refutation. *)
Theorem C60_original_partial : forall pre post a n b version ty url repo,
  n <> "" -> tidy n -> all_bytes (fun c => negb (Ascii.eqb ":" c)) n = true ->
  all_bytes (Ascii.eqb " ") a = true -> all_bytes (Ascii.eqb " ") b = true ->
  ~ mentions_own ("Repository:" +:+ a +:+ n +:+ b) ->
  ~ same_line ("Repository:" +:+ a +:+ n +:+ b) ("Repository: " +:+ repo) ->
  exists pre' post',
    stamp (pre ++ ("Repository:" +:+ a +:+ n +:+ b) :: post)%list version ty url repo =
    (pre' ++ ("OriginalRepository: " +:+ n) :: ("Repository: " +:+ repo) :: post')%list.
Proof.
  intros pre post a n b version ty url repo H0 H1 H2 H3 H4 H5 H6.
  exists (stamp_loop repo pre). eexists. unfold stamp. rewrite loop_replaced; [|exact H5|unfold repository_field; rewrite prefix_has; reflexivity|exact H6].
  rewrite original_kept by done. rewrite <- app_assoc. simpl. done.
Qed.
Print Assumptions C60_original_partial.

Example C60_example :
  stamp ["Repository:  CRAN "; "Title: x"] "3.0" "source" "https://a.org" "local" =
  ["OriginalRepository: CRAN"; "Repository: local"; "Title: x";
   "PkgrVersion: 3.0"; "PkgrInstallType: source"; "PkgrRepositoryURL: https://a.org"].
Proof. reflexivity. Qed.

(** A URL is cut at its first colon. *)
Theorem C60_url_refuted : exists lines version ty url repo v,
  "Repository: " +:+ v ∈ lines /\ v <> repo /\
  (forall x, x ∈ stamp lines version ty url repo -> ~ mentions v x).
Proof.
  exists ["Repository: https://cran.r-project.org"], "1", "source", "u", "CRAN", "https://cran.r-project.org".
  split; [by left|]. split; [discriminate|].
  intros x H. rewrite <- contains_mentions.
  repeat (apply elem_of_cons in H as [->|H]; [discriminate|]). by apply elem_of_nil in H.
Qed.
Print Assumptions C60_url_refuted.
