(** Downloads of several runs of pkgr into one cache at the same time: DownloadPackage,
    cran/download-package.go 153-255, step by step. *)
From stdpp Require Import strings list gmap.
From Coq Require Import Ascii ZArith.
From Verif.model Require Import GoStr Desc Nexus RepoDb Fs Install Download Fetching DbCache Fetchers.

Local Open Scope string_scope.

(** One download: the package, the file for it and the answer of the server
    (cran/download-package.go 153-233). *)
Record getter := Getter { ge_wanted : wanted; ge_dest : path; ge_reply : reply }.

(** Where a download is: before the file is looked for (cran/download-package.go 159), before
    the server is asked (202), before Create (235), in io.Copy (244) after some bytes, or at
    the end with its result and whether there is an error. *)
Inductive getting :=
| GLook
| GAsk
| GMake (c : string) (ok : bool)
| GCopy (n : nat) (c : string) (ok : bool)
| GEnd (d : download) (err : bool).

(** cran/download-package.go 244-254: the end of io.Copy. *)
Definition copied (w : wanted) (dest : path) (ok : bool) : getting :=
  if ok then GEnd {| d_path := Some dest; d_new := true; d_wanted := w |} false
  else GEnd {| d_path := None; d_new := false; d_wanted := w |} true.

(** One step of a download (cran/download-package.go 153-255).  Create empties a file that
    is there by now; what is written goes to the offset of the download in the file.
    Simplified: nobody removes files meanwhile, and the disk has room. *)
Inductive get_step (e : getter) : getting * fsys -> getting * fsys -> Prop :=
| g_there f : fs_exists f (ge_dest e) = true ->
    get_step e (GLook, f) (GEnd {| d_path := Some (ge_dest e); d_new := false; d_wanted := ge_wanted e |} false, f)
| g_absent f : fs_exists f (ge_dest e) = false -> get_step e (GLook, f) (GAsk, f)
| g_refused f : ge_reply e = NoConnection ->
    get_step e (GAsk, f) (GEnd {| d_path := None; d_new := false; d_wanted := ge_wanted e |} true, f)
| g_status f k : ge_reply e = BadStatus k ->
    get_step e (GAsk, f) (GEnd {| d_path := None; d_new := false; d_wanted := ge_wanted e |} false, f)
| g_body f c ok : ge_reply e = Body c ok -> get_step e (GAsk, f) (GMake c ok, f)
| g_make f c ok : fs_dir_exists f (removelast (ge_dest e)) = true -> fs_dir_exists f (ge_dest e) = false ->
    get_step e (GMake c ok, f) (GCopy 0 c ok, write_file (ge_dest e) "" f)
| g_no_make f c ok : fs_dir_exists f (removelast (ge_dest e)) = false \/ fs_dir_exists f (ge_dest e) = true ->
    get_step e (GMake c ok, f) (GEnd {| d_path := None; d_new := false; d_wanted := empty_wanted |} true, f)
| g_copy f n m c ok s : n < m <= String.length c -> f (ge_dest e) = Some (File s) ->
    get_step e (GCopy n c ok, f) (GCopy m c ok, write_file (ge_dest e) (overlay n (substring n (m - n) c) s) f)
| g_copied f c ok : get_step e (GCopy (String.length c) c ok, f) (copied (ge_wanted e) (ge_dest e) ok, f).

(** All downloads with the files: cran/download-package.go 92-145, in all runs. *)
Record getters := Getters { gs_fs : fsys; gs_each : list getting }.

(** cran/download-package.go 92-145: one of them makes a step.  Simplified: without the
    semaphore of each run (107), which only makes some of them wait. *)
Inductive getters_step (es : list getter) : getters -> getters -> Prop :=
| gst_one x i e a b f' : es !! i = Some e -> gs_each x !! i = Some a -> get_step e (a, gs_fs x) (b, f') ->
    getters_step es x (Getters f' (<[i := b]> (gs_each x))).

(** cran/download-package.go 92-94: all have been started. *)
Definition get_started (es : list getter) (f : fsys) : getters := Getters f (map (fun _ => GLook) es).
