(** Name-value lists and the environment given to R. *)
From stdpp Require Import strings list.
From Coq Require Import Ascii.
From Verif.model Require Import GoStr Fs.

Local Open Scope string_scope.

(** rcmd/structs.go 96-105: rcmd/structs.go Nvp; NvpList is a list of these. *)
Record nvp := { n_name : string; n_value : string }.

(** rcmd/structs.go 102-105: NvpList. *)
Notation nvps := (list nvp) (only parsing).

(** rcmd/nvp.go 9-11: Append. *)
Definition nvp_append (l : nvps) (name value : string) : nvps :=
  (l ++ [{| n_name := trim_blank name; n_value := trim_blank value |}])%list.

(** rcmd/nvp.go 14-19: AppendNvp. *)
Definition nvp_append_nvp (l : nvps) (s : string) : nvps :=
  match split_char "="%char s with
  | [a; b] => nvp_append l a b
  | _ => l
  end.

(** rcmd/nvp.go 22-29: Get, [None] for exists = false. *)
Fixpoint nvp_get (l : nvps) (name : string) : option string :=
  match l with
  | [] => None
  | p :: l' => if String.eqb name (n_name p) then Some (n_value p) else nvp_get l' name
  end.

(** rcmd/nvp.go 42-53: Remove, the first entry of that name. *)
Fixpoint nvp_remove (l : nvps) (name : string) : nvps :=
  match l with
  | [] => []
  | p :: l' => if String.eqb name (n_name p) then l' else p :: nvp_remove l' name
  end.

(** rcmd/nvp.go 56-69: Update, the last entry of that name; [None] for
    exists = false. *)
Fixpoint nvp_update (l : nvps) (name value : string) : option nvps :=
  match l with
  | [] => None
  | p :: l' =>
      match nvp_update l' name value with
      | Some r => Some (p :: r)
      | None => if String.eqb name (n_name p) then Some ({| n_name := n_name p; n_value := value |} :: l') else None
      end
  end.

(** rcmd/nvp.go 72-74: GetString. *)
Definition nvp_string (p : nvp) : string := n_name p +:+ "=" +:+ n_value p.

(** path/filepath.Clean on Unix. Library code, used in rcmd/Rsettings.go 42,
    rcmd/configure.go 58 and configlib/config.go 186: the components from left to right,
    [out] in reverse. *)
Fixpoint clean_loop (rooted : bool) (out : list string) (comps : list string) : list string :=
  match comps with
  | [] => rev out
  | c :: l =>
      if String.eqb c "" || String.eqb c "." then clean_loop rooted out l
      else if String.eqb c ".." then
        match out with
        | x :: out' => if String.eqb x ".." then clean_loop rooted (c :: out) l else clean_loop rooted out' l
        | [] => if rooted then clean_loop rooted [] l else clean_loop rooted [c] l
        end
      else clean_loop rooted (c :: out) l
  end.

(** path/filepath.Clean on Unix, as in rcmd/Rsettings.go 42 and configlib/config.go
    186. *)
Definition clean (s : string) : string :=
  let rooted := has_prefix "/" s in
  let r := join "/" (clean_loop rooted [] (split_slash s)) in
  if rooted then "/" +:+ r else if String.eqb r "" then "." else r.

(** path/filepath.Dir on Unix: Clean of everything up to the last slash. Used in
    rcmd/configure.go 58. *)
Definition dir_name (s : string) : string :=
  match rev (split_slash s) with
  | _ :: ((_ :: _) as r) => clean (join "/" (rev r) +:+ "/")
  | _ => "."
  end.

(** rcmd/structs.go 22-30: rcmd/structs.go RSettings: the fields used here. [e_package]
    is rs.PkgEnvVars[pkg] in the order in which the map is iterated. *)
Record env_settings := {
  e_global : nvps;
  e_package : list (string * string);
  e_rpath : string;
  e_libs : list string;
}.

(** rcmd/configure.go 18-23. *)
Fixpoint add_globals (l : nvps) (g : nvps) : nvps :=
  match g with
  | [] => l
  | p :: g' =>
      match nvp_get l (n_name p) with
      | None => add_globals (nvp_append l (n_name p) (n_value p)) g'
      | Some _ => add_globals l g'
      end
  end.

(** rcmd/configure.go 25-36. *)
Definition add_package (l : nvps) (m : list (string * string)) : nvps :=
  fold_left (fun l kv => nvp_append l kv.1 kv.2) m l.

(** rcmd/configure.go 107-122: the constant part of censoredEnvVars(nil). *)
Definition censored : list string :=
  ["GITHUB_TOKEN"; "GITHUB_PAT"; "GHE_TOKEN"; "GHE_PAT"; "AWS_ACCESS_KEY_ID"; "AWS_SECRET_KEY"].

(** strings.ToUpper, ASCII only. Used in rcmd/configure.go 69. *)
Definition upper_char (c : ascii) : ascii :=
  let n := nat_of_ascii c in
  if (97 <=? n)%nat && (n <=? 122)%nat then ascii_of_nat (n - 32) else c.

(** strings.ToUpper, ASCII only, as in rcmd/configure.go 69. *)
Fixpoint to_upper (s : string) : string :=
  match s with "" => "" | String c s' => String (upper_char c) (to_upper s') end.

(** rcmd/configure.go 57-63: the directory of R in front of the PATH. *)
Definition path_value (rpath v : string) : string :=
  let d := dir_name rpath in
  if negb (String.eqb d "") && negb (String.eqb d ".") && negb (has_prefix d v) then d +:+ ":" +:+ v else v.

(** rcmd/configure.go 39-77: one variable of the caller. *)
Definition add_system (rpath : string) (l : nvps) (ev : string) : nvps :=
  match split_on_n (char_eqb "=") 2 ev with
  | [k; v] =>
      if String.eqb v "" then l
      else if String.eqb k "R_LIBS_USER" || String.eqb k "R_LIBS_SITE" then l
      else
        let v := if String.eqb k "PATH" then path_value rpath v else v in
        match nvp_get l k with
        | Some _ => l
        | None => nvp_append l k (if bool_decide (to_upper k ∈ censored) then "**HIDDEN**" else v)
        end
  | _ => l
  end.

(** rcmd/Rsettings.go 101-110: LibPathsEnv. *)
Definition lib_paths_env (libs : list string) : option string :=
  match libs with
  | [] => None
  | [""] => None
  | _ => Some ("R_LIBS_SITE=" +:+ join ":" libs)
  end.

(** rcmd/configure.go 14-103: configureEnv.  [tmpdir] is the name of the new
    temporary directory (lines 78-81). *)
Definition env_list (sys : list string) (rs : env_settings) (tmpdir : string) : nvps :=
  let l := add_package (add_globals [] (e_global rs)) (e_package rs) in
  let l := fold_left (add_system (e_rpath rs)) sys l in
  let l := nvp_append l "R_LIBS_USER" tmpdir in
  match lib_paths_env (e_libs rs) with
  | Some lp => nvp_append_nvp l lp
  | None => l
  end.

(** rcmd/configure.go 97-103: the list as text. *)
Definition configure_env (sys : list string) (rs : env_settings) (tmpdir : string) : list string :=
  map nvp_string (env_list sys rs tmpdir).
