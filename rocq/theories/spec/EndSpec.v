(** Whole runs of `pkgr install` with the downloads. *)
From stdpp Require Import strings list gmap.
From Coq Require Import Ascii ZArith.
From Verif.model Require Import GoStr Nexus RepoDb Graph Fs Rollback Sched Install Download Tarballs Together Urls Fetching.
From Verif.spec Require Import StrSpec SchedSpec LibSpec InstallSpec TarballSpec TogetherSpec ApartSpec FetchingSpec.

Local Open Scope string_scope.

(** Files contain the packages they are named after: p_1.0.tar.gz contains p. *)
Definition named_after (name : path -> string) : Prop :=
  forall d p y, r_name p -> name (d ++ [p +:+ "_" +:+ y])%list = p.

(** [s] does not have the text [t] in it. *)
Definition lacks (t s : string) : Prop := forall a b, s <> a +:+ t +:+ b.

(** There is a download for every package of the plan. *)
Definition covers (ws : list wanted) (j : job) : Prop := forall p, in_plan j p -> p ∈ map w_pkg ws.

(** Downloading and installing go together: the same system, cache and version of R, and
    directories that are apart. *)
Record arranged (e : setting) (x : fetch_env) (j : job) (name : path -> string) (ds : list path) : Prop := {
  ar_os : s_os (e_where e) = x_os x;
  ar_md5 : s_md5 (e_where e) = x_md5 x;
  ar_cache : s_cache (e_where e) = x_cache x;
  ar_rv : e_rversion e = x_rv x;
  ar_names : forall p, in_plan j p -> lacks "tar.gz" p;
  ar_platform : plain (e_platform e);
  ar_named : named_after name;
  ar_components : forall y, y ∈ x_cache x -> file_name y;
  ar_apart : forall d, d ∈ ds -> apart (e_library e) d;
  ar_tmp : forall p, in_plan j p -> in_some ds (e_tmp e p);
  ar_tmps : forall p p', in_plan j p -> in_plan j p' -> p <> p' -> apart (e_tmp e p) (e_tmp e p');
  ar_cache_dir : in_some ds (x_cache x);
  ar_cache_tmp : forall p, in_plan j p -> apart (x_cache x) (e_tmp e p)
}.

(** Every download has led to a file. *)
Definition all_fetched (ws : list wanted) (m : gmap string download) : Prop :=
  forall w, w ∈ ws -> exists d, m !! w_pkg w = Some d /\ d_path d <> None.
