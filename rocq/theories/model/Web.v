(** Web requests: cran/repodb.go 150-193 and cran/download-package.go 194-223, with the
    parts of net/http that they use. *)
From stdpp Require Import strings list gmap.
From Coq Require Import Ascii ZArith NArith.
From Verif.model Require Import GoStr Nexus RepoDb Control Fs Install Download Urls Fetching.

Local Open Scope string_scope.

(** net/http, one request as in cran/repodb.go 169 and cran/download-package.go 203: no
    answer, a redirection, or a status and a body, which may break off. *)
Inductive served := SNothing | SRedirect (to : string) | SAnswer (status : N) (body : string) (complete : bool).

(** What is asked in cran/repodb.go 169 and cran/download-package.go 203: for an address,
    asked through the proxy or directly, what may be answered, and whether the certificate
    of the one who answers can be verified; and whether the environment names a proxy for
    the address (HTTPS_PROXY, NO_PROXY).  Simplified: a redirection gives the address in
    full and its scheme in small letters. *)
Record network := {
  n_served : bool -> string -> served -> Prop; n_trusted : bool -> string -> bool; n_proxy : string -> bool
}.

(** cran/repodb.go 150-156, cran/download-package.go 194-200: an http.Client.  [cl_proxy]:
    the proxy of the environment is used. *)
Record client := { cl_verify : bool; cl_proxy : bool }.

(** cran/repodb.go 150-156, cran/download-package.go 194-200.  The http.Transport that is
    made for noSecure has no Proxy; the default one has ProxyFromEnvironment. *)
Definition make_client (no_secure : bool) : client :=
  if no_secure then {| cl_verify := false; cl_proxy := false |} else {| cl_verify := true; cl_proxy := true |}.

(** net/http, used in cran/repodb.go 169 and cran/download-package.go 203: the address
    means TLS. *)
Definition is_tls (url : string) : bool := has_prefix "https://" url.

(** net/http, used in cran/repodb.go 169 and cran/download-package.go 203: other schemes
    are errors. *)
Definition is_web (url : string) : bool := has_prefix "http://" url || is_tls url.

(** net/http, used in cran/repodb.go 169 and cran/download-package.go 203: whether the
    proxy is used. *)
Definition through (c : client) (n : network) (url : string) : bool := cl_proxy c && n_proxy n url.

(** net/http, used in cran/repodb.go 169 and cran/download-package.go 203: the request is
    not made, or the connection is given up because of the certificate. *)
Definition given_up (c : client) (n : network) (url : string) : bool :=
  negb (is_web url) || (is_tls url && cl_verify c && negb (n_trusted n (through c n url) url)).

(** net/http, used in cran/repodb.go 169 and cran/download-package.go 203: Client.Get
    follows redirections; [k] requests can still be made. *)
Inductive web_get (c : client) (n : network) : nat -> string -> served -> Prop :=
| wg_stop url : web_get c n 0 url SNothing
| wg_given_up k url : given_up c n url = true -> web_get c n (S k) url SNothing
| wg_nothing k url : given_up c n url = false -> n_served n (through c n url) url SNothing -> web_get c n (S k) url SNothing
| wg_answer k url st b ok : given_up c n url = false -> n_served n (through c n url) url (SAnswer st b ok) ->
    web_get c n (S k) url (SAnswer st b ok)
| wg_redirect k url to s : given_up c n url = false -> n_served n (through c n url) url (SRedirect to) ->
    web_get c n k to s -> web_get c n (S k) url s.

(** net/http, defaultCheckRedirect: stopped after ten requests.  As called in
    cran/repodb.go 169 and cran/download-package.go 203. *)
Definition client_get (no_secure : bool) (n : network) (url : string) (s : served) : Prop :=
  web_get (make_client no_secure) n 10 url s.

(** cran/download-package.go 203-219: how DownloadPackage takes the answer. *)
Definition reply_of (s : served) : reply :=
  match s with
  | SAnswer st b ok => if (st =? 200)%N then Download.Body b ok else BadStatus (Z.of_N st)
  | _ => NoConnection
  end.

(** cran/download-package.go 74, 124, 153, 194-203: what downloads are given. *)
Definition web_env (no_secure : bool) (n : network) (x : fetch_env) : fetch_env := {|
  x_md5 := x_md5 x; x_os := x_os x; x_rel := x_rel x; x_cache := x_cache x; x_rv := x_rv x; x_cwd := x_cwd x;
  x_serve := fun url r => exists s, client_get no_secure n url s /\ r = reply_of s
|}.

(** cran/repodb.go 169-193: how FetchPackages takes the answer. *)
Definition index_answer_of (s : served) : index_answer :=
  match s with
  | SAnswer st b ok => Status st (if ok then Some b else None)
  | _ => Unreachable
  end.

(** cran/repodb.go 168-193: the text of an index from the web. *)
Definition web_index (no_secure : bool) (n : network) (url b : string) : Prop :=
  exists s, client_get no_secure n url s /\ get_body (index_answer_of s) = Control.Body b.
