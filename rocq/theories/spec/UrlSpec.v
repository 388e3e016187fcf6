(** Vocabulary for repository settings and addresses. *)
From stdpp Require Import strings list gmap.
From Coq Require Import Ascii ZArith.
From Verif.model Require Import GoStr Desc Nexus RepoDb Fs Install Download Urls.
From Verif.spec Require Import StrSpec.

Local Open Scope string_scope.

(** The two addresses are in the same directory: [index] is [dir]/PACKAGES and
    [package] is [dir]/[file]. *)
Definition beside (index package file : string) : Prop :=
  exists dir, index = dir +:+ "/PACKAGES" /\ package = dir +:+ "/" +:+ file.

(** [a] and [b] are the same letter, or the two cases of one letter. *)
Definition same_letter (a b : ascii) : Prop :=
  a = b \/ exists n, n < 26 /\
    (a = ascii_of_nat (65 + n) /\ b = ascii_of_nat (97 + n) \/ a = ascii_of_nat (97 + n) /\ b = ascii_of_nat (65 + n)).

(** Equal up to the case of letters. *)
Inductive same_word : string -> string -> Prop :=
| same_nil : same_word "" ""
| same_cons a b s t : same_letter a b -> same_word s t -> same_word (String a s) (String b t).

(** The entries for [nm] under Customizations: Repos, in order. *)
Definition entries_for (nm : string) (cs : repo_customs) (vs : list repo_custom) : Prop :=
  vs = map snd (List.filter (fun nv => String.eqb nm nv.1) (concat cs)).

(** The type of package a repository is asked for: docs/config.md 120-141, and
    binaries for a repository of type MPN. *)
Inductive repo_asks : goos -> repo_custom -> source_type -> Prop :=
| asks_source os v : same_word (rq_type v) "source" -> repo_asks os v STSource
| asks_binary os v : same_word (rq_type v) "binary" -> repo_asks os v STBinary
| asks_mpn os v : ~ same_word (rq_type v) "source" -> ~ same_word (rq_type v) "binary" ->
    same_word (rq_repo_type v) "MPN" -> repo_asks os v STBinary
| asks_linux v : ~ same_word (rq_type v) "source" -> ~ same_word (rq_type v) "binary" ->
    ~ same_word (rq_repo_type v) "MPN" -> repo_asks Linux v STSource
| asks_macos v : ~ same_word (rq_type v) "source" -> ~ same_word (rq_type v) "binary" ->
    ~ same_word (rq_repo_type v) "MPN" -> repo_asks Darwin v STBinary
| asks_windows v : ~ same_word (rq_type v) "source" -> ~ same_word (rq_type v) "binary" ->
    ~ same_word (rq_repo_type v) "MPN" -> repo_asks Windows v STBinary.

(** An index of type [st] is read for [db]. *)
Definition reads_index (db : repo_db) (st : source_type) : Prop := exists m, (st, m) ∈ db_types db.

(** cran/utils.go 123-139, the comments: ubuntu/<codename>, centos/<major version>
    for CentOS and Red Hat, <id>/<version> for others. *)
Inductive linux_dir : os_release -> string -> Prop :=
| dir_ubuntu r : or_id r = "ubuntu" -> linux_dir r ("ubuntu/" +:+ or_codename r)
| dir_centos r major rest : or_id r = "centos" \/ or_id r = "rhel" ->
    or_version_id r = major +:+ rest -> major <> "" ->
    all_bytes (fun c => ((48 <=? nat_of_ascii c) && (nat_of_ascii c <=? 57))%nat) major = true ->
    (rest = "" \/ exists minor, rest = "." +:+ minor) -> linux_dir r ("centos/" +:+ major)
| dir_other r : or_id r <> "ubuntu" -> or_id r <> "centos" -> or_id r <> "rhel" -> or_id r <> "" ->
    linux_dir r (or_id r +:+ "/" +:+ or_version_id r).

(** An address of the web: http or https, in letters of either case, and "://". *)
Definition web_address (a : string) : Prop :=
  exists scheme rest, a = scheme +:+ "://" +:+ rest /\ (same_word scheme "http" \/ same_word scheme "https").
