(** DownloadPackages (cran/download-package.go 74-145) together with the file system and
    the servers: the goroutines of Download.v go through DownloadPackage (153-255) in small
    steps, interleaved arbitrarily. *)
From stdpp Require Import strings list gmap.
From Coq Require Import Ascii ZArith NArith.
From Verif.model Require Import GoStr Desc Nexus RepoDb Graph Fs Install Download Urls.

Local Open Scope string_scope.

(** What downloading is given: the operating system and its description, the base
    directory of the cache (absolute), the version of R, the working directory, and what
    may be answered at a web address. cran/download-package.go 74, 153-157. *)
Record fetch_env := {
  x_md5 : string -> string; x_os : goos; x_rel : option os_release; x_cache : path; x_rv : r_version;
  x_cwd : path; x_serve : string -> reply -> Prop
}.

(** cran/utils.go 39 *)
Definition is_rhel (rel : option os_release) : bool :=
  match rel with Some r => String.eqb (or_id r) "rhel" | None => false end.

(** cran/download-package.go 95-122: the file for a package. *)
Definition place (x : fetch_env) (w : wanted) : path :=
  download_path (x_md5 x) (x_os x) (is_rhel (x_rel x)) (x_cache x) (x_rv x) w.

(** cran/download-package.go 96-98: the type is replaced in the copy of the goroutine,
    which becomes the metadata. *)
Definition meant (x : fetch_env) (w : wanted) : wanted :=
  {| w_pkg := w_pkg w; w_version := w_version w; w_type := effective_type (x_os x) (w_type w); w_repo := w_repo w |}.

(** cran/download-package.go 172-188; [None] is a panic. *)
Definition address (x : fetch_env) (w : wanted) : option string :=
  package_url (x_os x) (x_rel x) (x_rv x) (w_repo w) (w_type (meant x w)) (base_name (place x w)).

(** cmd/install.go 99: what is downloaded are the downloads of the plan; of a download,
    its configuration and the description, DownloadPackages uses these four. *)
Definition wants (ip : install_plan) : list wanted :=
  map (fun dl => {| w_pkg := d_package (dl_package dl); w_version := d_version (dl_package dl);
                    w_type := pc_type (dl_config dl); w_repo := pc_repo (dl_config dl) |}) (ip_downloads ip).

(** Where a goroutine is in DownloadPackage. cran/download-package.go 153-255. *)
Inductive fetch :=
| KLook                                            (** before 159: does the file exist? *)
| KAsk                                             (** before 203 or 225 *)
| KMake (body : string) (complete : bool)          (** before 235: Create *)
| KCopy (written rest : string) (complete : bool)  (** in 244: io.Copy *)
| KEnd (o : option download).                      (** returning; [None] is an error *)

(** cran/download-package.go 202-233: the answer of a web server, or the file of a local
    repository; a directory can be opened but not read. *)
Inductive answer (x : fetch_env) (url : string) (f : fsys) : reply -> Prop :=
| an_web r : is_http url = true -> x_serve x url r -> answer x url f r
| an_file c : is_http url = false -> f (Install.resolve (x_cwd x) url) = Some (File c) -> answer x url f (Body c true)
| an_dir : is_http url = false -> f (Install.resolve (x_cwd x) url) = Some Dir -> answer x url f (Body "" false).

(** cran/download-package.go 202-223: what follows an answer. *)
Definition after_answer (x : fetch_env) (w : wanted) (r : reply) : fetch :=
  match r with
  | NoConnection => KEnd None
  | BadStatus _ => KEnd (Some {| d_path := None; d_new := false; d_wanted := meant x w |})
  | Body c ok => KMake c ok
  end.

(** cran/download-package.go 235-244: the file with these contents. *)
Definition write_file (p : path) (c : string) (f : fsys) : fsys :=
  fun q => if bool_decide (q = p) then Some (File c) else f q.

(** A step of the download of [w]. Creating the file and writing to it may fail at any
    time; both are reported as errors. cran/download-package.go 153-255. *)
Inductive kstep (x : fetch_env) (w : wanted) : fetch -> fsys -> fetch -> fsys -> Prop :=
| k_there f : fs_exists f (place x w) = true ->
    kstep x w KLook f (KEnd (Some {| d_path := Some (place x w); d_new := false; d_wanted := meant x w |})) f
| k_absent f : fs_exists f (place x w) = false -> kstep x w KLook f KAsk f
| k_ask f url r : address x w = Some url -> answer x url f r -> kstep x w KAsk f (after_answer x w r) f
| k_make f c ok : fs_dir_exists f (removelast (place x w)) = true -> fs_dir_exists f (place x w) = false ->
    kstep x w (KMake c ok) f (KCopy "" c ok) (write_file (place x w) "" f)
| k_no_make f c ok : kstep x w (KMake c ok) f (KEnd None) f
| k_copy f c a b ok : a <> "" ->
    kstep x w (KCopy c (a +:+ b) ok) f (KCopy (c +:+ a) b ok) (write_file (place x w) (c +:+ a) f)
| k_break f c r ok : kstep x w (KCopy c r ok) f (KEnd None) f
| k_done f c : kstep x w (KCopy c "" true) f
    (KEnd (Some {| d_path := Some (place x w); d_new := true; d_wanted := meant x w |})) f.

(** cran/download-package.go 225-231: a missing file of a local repository is fatal;
    cran/utils.go 134: the panic. *)
Inductive kstop (x : fetch_env) (w : wanted) : fetch -> fsys -> Prop :=
| k_stop_missing f url : address x w = Some url -> is_http url = false ->
    f (Install.resolve (x_cwd x) url) = None -> kstop x w KAsk f
| k_stop_panic f : address x w = None -> kstop x w KAsk f.

(** The goroutines as in Download.v, with the place in DownloadPackage.
    cran/download-package.go 94-140. *)
Inductive fgo := FWait | FRun (k : fetch) | FPut (d : download) | FLeave | FDone.

(** cran/download-package.go 74-145: the goroutines, the tokens in the semaphore, the
    results, whether DownloadPackages has returned, the files, and whether the program
    has ended. *)
Record fstate := FState {
  f_list : list (wanted * fgo); f_sem : nat; f_map : gmap string download; f_returned : bool; f_fs : fsys;
  f_stopped : bool
}.

(** cran/download-package.go 92-145: a step of one goroutine, or the return. *)
Inductive fstep (x : fetch_env) : fstate -> list dlabel -> fstate -> Prop :=
| x_acquire w l1 l2 n m f : n < sem_cap ->
    fstep x (FState (l1 ++ (w, FWait) :: l2) n m false f false) [DAcquire (w_pkg w)]
            (FState (l1 ++ (w, FRun KLook) :: l2) (S n) m false f false)
| x_work w k k' l1 l2 n m f f' : kstep x w k f k' f' ->
    fstep x (FState (l1 ++ (w, FRun k) :: l2) n m false f false) []
            (FState (l1 ++ (w, FRun k') :: l2) n m false f' false)
| x_end w o l1 l2 n m f :
    fstep x (FState (l1 ++ (w, FRun (KEnd o)) :: l2) n m false f false) [DEnd (w_pkg w) o]
            (FState (l1 ++ (w, match o with Some d => FPut d | None => FLeave end) :: l2) n m false f false)
| x_put w d l1 l2 n m f :
    fstep x (FState (l1 ++ (w, FPut d) :: l2) n m false f false) [DPut (w_pkg w)]
            (FState (l1 ++ (w, FLeave) :: l2) n (<[w_pkg w := d]> m) false f false)
| x_release w l1 l2 n m f :
    fstep x (FState (l1 ++ (w, FLeave) :: l2) (S n) m false f false) [DRelease (w_pkg w)]
            (FState (l1 ++ (w, FDone) :: l2) n m false f false)
| x_return l n m f : (forall w g, (w, g) ∈ l -> g = FDone) ->
    fstep x (FState l n m false f false) [DReturn] (FState l n m true f false)
| x_stop w k l1 l2 n m f : kstop x w k f ->
    fstep x (FState (l1 ++ (w, FRun k) :: l2) n m false f false) []
            (FState (l1 ++ (w, FRun k) :: l2) n m false f true).

(** cran/download-package.go 76-78, 92-94: before the goroutines run. *)
Definition finitial (ds : list wanted) (f : fsys) : fstate :=
  FState (map (fun w => (w, FWait)) ds) 0 ∅ false f false.

(** cran/download-package.go 92-145: executions, with what is seen, oldest first. *)
Inductive fexec (x : fetch_env) (s : fstate) : list dlabel -> fstate -> Prop :=
| fexec_nil : fexec x s [] s
| fexec_snoc ls s1 l s2 : fexec x s ls s1 -> fstep x s1 l s2 -> fexec x s (ls ++ l)%list s2.

(** cran/download-package.go 79-90, then the goroutines. The map of repositories is
    traversed in any order. *)
Inductive fetching (x : fetch_env) (ds : list wanted) (f : fsys) : list dlabel -> fstate -> Prop :=
| fetching_on repos f0 ls s : repos ≡ₚ (map_to_list (get_repos ds)).*2 ->
    make_dirs (x_md5 x) (x_cache x) (x_rv x) repos f = Some f0 -> fexec x (finitial ds f0) ls s ->
    fetching x ds f ls s.

(** What DownloadPackages returns, and the files after it. cran/download-package.go
    142-144. *)
Definition fetched (x : fetch_env) (ds : list wanted) (f : fsys) (m : gmap string download) (f' : fsys) : Prop :=
  exists ls s, fetching x ds f ls s /\ f_returned s = true /\ f_map s = m /\ f_fs s = f'.
