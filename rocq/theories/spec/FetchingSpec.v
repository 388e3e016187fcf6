(** What is said about downloading packages to the cache. *)
From stdpp Require Import strings list gmap.
From Coq Require Import Ascii ZArith.
From Verif.model Require Import GoStr Nexus RepoDb Fs Install Download Urls Fetching.
From Verif.spec Require Import LibSpec InstallSpec ApartSpec.

Local Open Scope string_scope.

(** A file of a local repository. *)
Definition local_file (x : fetch_env) (w : wanted) (q : path) : Prop :=
  exists url, address x w = Some url /\ is_http url = false /\ Install.resolve (x_cwd x) url = q.

(** What is at the address of [w] is [c], all of it: sent by a web server, or in the file. *)
Definition delivered (x : fetch_env) (f : fsys) (w : wanted) (c : string) : Prop :=
  (exists url, address x w = Some url /\ is_http url = true /\ x_serve x url (Body c true)) \/
  (exists q, local_file x w q /\ f q = Some (File c)).

(** A server says that it does not have the file. *)
Definition refused (x : fetch_env) (w : wanted) : Prop :=
  exists url code, address x w = Some url /\ is_http url = true /\ x_serve x url (BadStatus code).

(** Sensible requests: names and versions that can be parts of file names, one for each
    package; repositories with the same name are the same; no local repository is where
    downloads go. *)
Record fetch_ok (x : fetch_env) (ds : list wanted) : Prop := {
  fk_sums : sum_texts (x_md5 x);
  fk_os : x_os x <> OtherOs;
  fk_sensible : forall w, w ∈ ds -> sensible w;
  fk_names : NoDup (map w_pkg ds);
  fk_repos : forall a b, a ∈ ds -> b ∈ ds -> ru_name (w_repo a) = ru_name (w_repo b) -> w_repo a = w_repo b;
  fk_local : forall w q, w ∈ ds -> local_file x w q -> ~ in_dir (x_cache x) q
}.

(** How the download of [w] ended; [f] is before, [g] after. *)
Definition kept (x : fetch_env) (f g : fsys) (w : wanted) (d : download) : Prop :=
  d_path d = Some (place x w) /\ d_new d = false /\ f (place x w) <> None /\ g (place x w) = f (place x w).
Definition arrived (x : fetch_env) (f g : fsys) (w : wanted) (d : download) : Prop :=
  d_path d = Some (place x w) /\ d_new d = true /\ f (place x w) = None /\
  exists c, delivered x f w c /\ g (place x w) = Some (File c).
Definition not_had (x : fetch_env) (f g : fsys) (w : wanted) (d : download) : Prop :=
  d_path d = None /\ d_new d = false /\ f (place x w) = None /\ g (place x w) = None /\ refused x w.
Definition spoiled (x : fetch_env) (f g : fsys) (w : wanted) : Prop :=
  f (place x w) = None /\ forall n, g (place x w) = Some n -> exists c, n = File c.

(** Nothing is written outside of the cache but the directories it is in. *)
Definition cache_only (x : fetch_env) (f g : fsys) : Prop :=
  forall q, g q <> f q -> in_dir (x_cache x) q \/ (in_dir q (x_cache x) /\ f q = None /\ g q = Some Dir).

(** Some answer comes from every web address. *)
Definition answering (x : fetch_env) : Prop := forall url, is_http url = true -> exists r, x_serve x url r.
