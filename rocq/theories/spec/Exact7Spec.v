(** Files in /etc/os-release that are read, stated on their lines. *)
From stdpp Require Import strings list.
From Coq Require Import Ascii.
From Verif.spec Require Import StrSpec LibSpec EnvSpec OsReleaseSpec.

Local Open Scope string_scope.

(** An equals sign followed by something other than a double quote. *)
Definition value_starts (t : string) : Prop :=
  exists a c b, t = a +:+ "=" +:+ String c b /\ String c "" <> double_quote.

(** [accepted ls kvs]: the file is read, with these names and values.  A quoted value with an
    equals sign before a number sign is cut after the equals sign; a comment that ends
    with an equals sign has to be followed by another comment. *)
Inductive accepted : list os_line -> list (string * string) -> Prop :=
| ac_nil : accepted [] []
| ac_blank ls kvs : accepted ls kvs -> accepted (LBlank :: ls) kvs
| ac_comment t ls kvs : (forall a, t <> a +:+ "=") \/ value_starts t -> accepted ls kvs -> accepted (LComment t :: ls) kvs
| ac_comments t u ls kvs : (exists a, t = a +:+ "=") -> ~ value_starts t -> accepted ls kvs ->
    accepted (LComment t :: LComment u :: ls) kvs
| ac_plain k v ls kvs : v <> "" -> accepted ls kvs -> accepted (LPlain k v :: ls) ((k, v) :: kvs)
| ac_quoted k v ls kvs : without "=" v \/ (exists a, without "=" a /\ v = a +:+ "=") -> accepted ls kvs ->
    accepted (LQuoted k v :: ls) ((k, v) :: kvs)
| ac_cut k a spaces b ls kvs : without "=" a -> all_chars (fun c => c = " "%char) spaces -> accepted ls kvs ->
    accepted (LQuoted k (a +:+ "=" +:+ spaces +:+ "#" +:+ b) :: ls) ((k, a +:+ "=") :: kvs).

(** The value of [k] among these. *)
Definition value_among (kvs : list (string * string)) (k v : string) : Prop :=
  (k, v) ∈ kvs \/ v = "" /\ forall w, (k, w) ∉ kvs.
