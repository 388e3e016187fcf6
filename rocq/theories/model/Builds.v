(** Builds of several runs of pkgr with one cache of binaries at the same time: the cache is
    looked at, R builds and installs, and the binary is copied into the cache
    (rcmd/install.go 224-392 and 471-495), step by step. *)
From stdpp Require Import strings list gmap.
From Coq Require Import Ascii ZArith.
From Verif.model Require Import GoStr Desc Nexus RepoDb Fs Install Download Fetching DbCache Fetchers Sharing.

Local Open Scope string_scope.

(** One package of one run: the place of its binary in the cache (rcmd/install.go 234-241, and
    472-481 for the copy) and the binary that R builds, if it can (297-390).  Simplified: the two
    places are the same, which C50 is about, and what R builds does not depend on the cache. *)
Record builder := Builder { bu_store : path; bu_ball : option string }.

(** Where an installation is: before the cache is looked at (rcmd/install.go 242), after it was
    found there and before R reads it (283-294), before R builds (297-390), before Create of the
    copy (482), in io.Copy after some bytes, or at the end: R could not build, R could not
    read what is in the cache, R has installed what it found in the cache, or R has
    installed what it had built and the copy has been made or not. *)
Inductive building :=
| BLook
| BUse
| BBuild
| BMake (c : string)
| BCopy (n : nat) (c : string)
| BFail
| BUnread
| BCached (s : string)
| BOwn (c : string) (stored : bool).

(** One step of an installation (rcmd/install.go 224-392 and 471-495).  As in
    [get_step], Create empties a file that is there by now and what is written goes to the
    offset of the copy.  Simplified: R reads the file in the cache at one moment; nobody
    removes files meanwhile; the disk has room; the directory that os.Mkdir makes (476) is
    there or could not be made before. *)
Inductive build_step (e : builder) : building * fsys -> building * fsys -> Prop :=
| b_found f : fs_exists f (bu_store e) = true -> build_step e (BLook, f) (BUse, f)
| b_missing f : fs_exists f (bu_store e) = false -> build_step e (BLook, f) (BBuild, f)
| b_read f s : f (bu_store e) = Some (File s) -> build_step e (BUse, f) (BCached s, f)
| b_directory f : f (bu_store e) = Some Dir -> build_step e (BUse, f) (BUnread, f)
| b_fails f : bu_ball e = None -> build_step e (BBuild, f) (BFail, f)
| b_builds f c : bu_ball e = Some c -> build_step e (BBuild, f) (BMake c, f)
| b_make f c : fs_dir_exists f (removelast (bu_store e)) = true -> fs_dir_exists f (bu_store e) = false ->
    build_step e (BMake c, f) (BCopy 0 c, write_file (bu_store e) "" f)
| b_no_make f c : fs_dir_exists f (removelast (bu_store e)) = false \/ fs_dir_exists f (bu_store e) = true ->
    build_step e (BMake c, f) (BOwn c false, f)
| b_copy f n m c s : n < m <= String.length c -> f (bu_store e) = Some (File s) ->
    build_step e (BCopy n c, f) (BCopy m c, write_file (bu_store e) (overlay n (substring n (m - n) c) s) f)
| b_copied f c : build_step e (BCopy (String.length c) c, f) (BOwn c true, f).

(** All installations of all runs, with the files (rcmd/install.go 395-551). *)
Record builders := Builders { bs_fs : fsys; bs_each : list building }.

(** rcmd/install.go 395-551: one of them makes a step.  Simplified: each may start at once,
    so that what is said holds in particular for those who wait for dependencies. *)
Inductive builders_step (es : list builder) : builders -> builders -> Prop :=
| bst_one x i e a b f' : es !! i = Some e -> bs_each x !! i = Some a -> build_step e (a, bs_fs x) (b, f') ->
    builders_step es x (Builders f' (<[i := b]> (bs_each x))).

(** rcmd/install.go 395-410: nobody has looked yet. *)
Definition build_started (es : list builder) (f : fsys) : builders := Builders f (map (fun _ => BLook) es).
