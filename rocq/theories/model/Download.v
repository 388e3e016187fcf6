(** Downloading packages: cran/download-package.go. *)
From stdpp Require Import strings list gmap.
From Coq Require Import Ascii ZArith NArith.
From Verif.model Require Import GoStr Nexus RepoDb Fs Install.

Local Open Scope string_scope.

(** cran/utils.go 33-51: binaryName.  [rhel]: the Id in /etc/os-release is rhel. *)
Definition cran_binary_name (os : goos) (rhel : bool) (pkg version : string) : string :=
  match os with
  | Darwin => pkg +:+ "_" +:+ version +:+ ".tgz"
  | Linux =>
      if rhel then pkg +:+ "_" +:+ version +:+ "_R_x86_64-redhat-linux-gnu.tar.gz"
      else pkg +:+ "_" +:+ version +:+ "_R_x86_64-pc-linux-gnu.tar.gz"
  | Windows => pkg +:+ "_" +:+ version +:+ ".zip"
  | OtherOs => ""
  end.

(** cran/utils.go 53-66: DefaultType. *)
Definition default_type (os : goos) : source_type :=
  match os with Darwin | Windows => STBinary | _ => STSource end.

(** cran/download-package.go 96-98: the type in which a package is downloaded. *)
Definition effective_type (os : goos) (t : source_type) : source_type :=
  match t with STDefault => default_type os | _ => t end.

(** cran/structs.go 66-70, PkgDl, as far as DownloadPackages uses it: What is to be
    downloaded: package, version, type and repository. *)
Record wanted := { w_pkg : string; w_version : string; w_type : source_type; w_repo : repo_url }.

(** cran/download-package.go 95-122: the file a package is downloaded to. *)
Definition download_path (md5 : string -> string) (os : goos) (rhel : bool) (cache : path) (rv : r_version)
    (w : wanted) : path :=
  let dir := join_path cache (repo_dir md5 (w_repo w)) in
  match effective_type os (w_type w) with
  | STBinary =>
      join_path (join_path (join_path dir "binary") (rv_short rv)) (cran_binary_name os rhel (w_pkg w) (w_version w))
  | _ => join_path (join_path dir "src") (w_pkg w +:+ "_" +:+ w_version w +:+ ".tar.gz")
  end.

(** cran/download-package.go 202-233, 244: What the server (or, for a local repository,
    the file system) answers: no connection, a status other than 200, or a body of which
    the first [n] bytes arrive ([n] may be all of it). [complete]: the copy ends without
    error. *)
Inductive reply := NoConnection | BadStatus (code : Z) | Body (received : string) (complete : bool).

(** cran/structs.go 54-60, cran.Download: [d_path] is empty or the absolute path. *)
Record download := { d_path : option path; d_new : bool; d_wanted : wanted }.

(** cran/structs.go 66-70: the zero value of PkgDl, in the results of
    cran/download-package.go 161 and 241. *)
Definition empty_wanted : wanted := {| w_pkg := ""; w_version := ""; w_type := STDefault; w_repo := empty_repo_url |}.

(** cran/download-package.go 153-255: DownloadPackage.  [ask] is only used when
    the file does not exist.  Result: the download, whether an error is returned,
    and the file system. *)
Definition download_package (dest : path) (w : wanted) (ask : reply) (f : fsys) : download * bool * fsys :=
  if fs_exists f dest then ({| d_path := Some dest; d_new := false; d_wanted := w |}, false, f)
  else
    match ask with
    | NoConnection => ({| d_path := None; d_new := false; d_wanted := w |}, true, f)
    | BadStatus _ => ({| d_path := None; d_new := false; d_wanted := w |}, false, f)
    | Body c ok =>
        if fs_dir_exists f (removelast dest) then
          let f' := fun q => if bool_decide (q = dest) then Some (File c) else f q in
          if ok then ({| d_path := Some dest; d_new := true; d_wanted := w |}, false, f')
          else ({| d_path := None; d_new := false; d_wanted := w |}, true, f')
        else ({| d_path := None; d_new := false; d_wanted := empty_wanted |}, true, f)
    end.

(** cran/download-package.go 62-68: getRepos, in any order of the map. *)
Definition get_repos (ds : list wanted) : gmap string repo_url :=
  foldl (fun m d => <[ru_name (w_repo d) := w_repo d]> m) ∅ ds.

(** cran/download-package.go 79-90: the directories made beforehand; [None] is
    fatal. *)
Fixpoint make_dirs (md5 : string -> string) (cache : path) (rv : r_version) (repos : list repo_url) (f : fsys) :
    option fsys :=
  match repos with
  | [] => Some f
  | r :: l =>
      let dir := join_path cache (repo_dir md5 r) in
      match mkdir_all (join_path dir "src") f with
      | None => None
      | Some f1 =>
          match mkdir_all (join_path (join_path dir "binary") (rv_short rv)) f1 with
          | None => None
          | Some f2 => make_dirs md5 cache rv l f2
          end
      end
  end.

(** The goroutines of DownloadPackages (92-142). [GWait]: before the semaphore is
    acquired; [GRun]: downloading; [GPut]: before result.Put; [GLeave]: before the
    deferred release; [GDone]: after wg.Done(). cran/download-package.go 92-142. *)
Inductive gstate := GWait | GRun | GPut (d : download) | GLeave | GDone.

(** cran/download-package.go 76-78, 92-145: the goroutines, the number of tokens in the
    semaphore, the map of results, and whether DownloadPackages has returned. *)
Record dstate := {
  g_list : list (wanted * gstate);
  g_sem : nat;                        (** tokens in the semaphore *)
  g_map : gmap string download;
  g_returned : bool
}.

(** cran/download-package.go 77. *)
Definition sem_cap : nat := 10.

(** cran/download-package.go 107-142: what can be seen of a step. *)
Inductive dlabel := DAcquire (p : string) | DEnd (p : string) (o : option download) | DPut (p : string)
                  | DRelease (p : string) | DReturn.

(** cran/download-package.go 92-145: One step of one goroutine, or the return after
    wg.Wait(). How a download ends is left open: [None] stands for an error. *)
Inductive dstep : dstate -> dlabel -> dstate -> Prop :=
| d_acquire w l1 l2 n m : n < sem_cap ->
    dstep {| g_list := l1 ++ (w, GWait) :: l2; g_sem := n; g_map := m; g_returned := false |} (DAcquire (w_pkg w))
          {| g_list := l1 ++ (w, GRun) :: l2; g_sem := S n; g_map := m; g_returned := false |}
| d_end w l1 l2 n m o :
    dstep {| g_list := l1 ++ (w, GRun) :: l2; g_sem := n; g_map := m; g_returned := false |} (DEnd (w_pkg w) o)
          {| g_list := l1 ++ (w, match o with Some d => GPut d | None => GLeave end) :: l2;
             g_sem := n; g_map := m; g_returned := false |}
| d_put w d l1 l2 n m :
    dstep {| g_list := l1 ++ (w, GPut d) :: l2; g_sem := n; g_map := m; g_returned := false |} (DPut (w_pkg w))
          {| g_list := l1 ++ (w, GLeave) :: l2; g_sem := n; g_map := <[w_pkg w := d]> m; g_returned := false |}
| d_release w l1 l2 n m :
    dstep {| g_list := l1 ++ (w, GLeave) :: l2; g_sem := S n; g_map := m; g_returned := false |} (DRelease (w_pkg w))
          {| g_list := l1 ++ (w, GDone) :: l2; g_sem := n; g_map := m; g_returned := false |}
| d_return l n m : (forall w g, (w, g) ∈ l -> g = GDone) ->
    dstep {| g_list := l; g_sem := n; g_map := m; g_returned := false |} DReturn
          {| g_list := l; g_sem := n; g_map := m; g_returned := true |}.

(** All goroutines exist from the start: starting one later only removes interleavings.
    cran/download-package.go 92-94. *)
Definition dinitial (ds : list wanted) : dstate :=
  {| g_list := map (fun w => (w, GWait)) ds; g_sem := 0; g_map := ∅; g_returned := false |}.

(** cran/download-package.go 92-145: executions, with what is seen, oldest first. *)
Inductive dexec : dstate -> list dlabel -> dstate -> Prop :=
| dexec_nil s : dexec s [] s
| dexec_snoc s ls s1 l s2 : dexec s ls s1 -> dstep s1 l s2 -> dexec s (ls ++ [l])%list s2.
