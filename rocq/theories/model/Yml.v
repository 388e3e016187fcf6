(** pkgr add and pkgr remove: editing the lines of the configuration file. *)
From stdpp Require Import strings list.
From Coq Require Import Ascii NArith.
From Verif.model Require Import GoStr.

Local Open Scope string_scope.

(** bufio.ScanLines on one line: a trailing carriage return is dropped. Used in
    configlib/add_package.go 26-28. *)
Definition drop_cr (s : string) : string := trim_suffix carriage_return s.

(** bufio.MaxScanTokenSize: a line of this length or more ends the scan. Used in
    configlib/add_package.go 26. *)
Definition max_token : N := 65536.

(** configlib/add_package.go 25-29: the lines delivered by the scanner; an
    overlong line ends the loop and the error is not looked at.  [raw] are the
    pieces between line feeds; an empty last piece is not a line. *)
Fixpoint scan_pieces (raw : list string) : list string :=
  match raw with
  | [] => []
  | [l] => if String.eqb l "" then [] else if (max_token <=? N.of_nat (String.length l))%N then [] else [drop_cr l]
  | l :: r => if (max_token <=? N.of_nat (String.length l))%N then [] else drop_cr l :: scan_pieces r
  end.

(** The end of a line, as in configlib/config.go 258. *)
Definition line_feed : ascii := ascii_of_nat 10.

(** configlib/add_package.go 25-29. *)
Definition scan_lines (content : string) : list string := scan_pieces (split_char line_feed content).

(** configlib/add_package.go 69-74: the last line that starts the section. *)
Fixpoint last_section (i : nat) (found : option nat) (lines : list string) : option nat :=
  match lines with
  | [] => found
  | l :: r => last_section (S i) (if has_prefix "Packages:" l then Some i else found) r
  end.

(** configlib/add_package.go 84-90: the first list item from there on, 0 if there
    is none. *)
Fixpoint first_item (i : nat) (lines : list string) : nat :=
  match lines with
  | [] => 0
  | l :: r => if has_prefix "-" (trim_space l) then i else first_item (S i) r
  end.

(** configlib/add_package.go 65-102: insertPackages.  [None]: strings.Repeat
    panics on a negative count (line 93), strings.Index having found no dash. *)
Definition insert_packages (lines pkgs : list string) : option (list string) :=
  match last_section 0 None lines with
  | None => Some (lines ++ [""; "Packages:"] ++ map (fun p => "- " +:+ p) pkgs)%list
  | Some start =>
      match index_of "-" (nth (start + first_item 0 (drop start lines)) lines "") with
      | None => None
      | Some n =>
          Some (take (S start) lines ++ map (fun p => repeat_blank n +:+ "- " +:+ p) pkgs ++ drop (S start) lines)%list
      end
  end.

(** goutils.WriteLines: every line followed by a line feed. Used in
    configlib/add_package.go 45 and rcmd/install.go 582. *)
Definition write_lines (lines : list string) : string :=
  fold_right (fun l s => l +:+ newline +:+ s) "" lines.

(** configlib/add_package.go 17-47: AddPackages on the contents of the file.
    [listed] is pc.Packages, what the YAML library reads from it. *)
Definition add_packages (content : string) (listed pkgs : list string) : option string :=
  let new := List.filter (fun p => negb (bool_decide (p ∈ listed))) pkgs in
  match insert_packages (scan_lines content) new with
  | Some l => Some (write_lines l)
  | None => None
  end.

(** configlib/config.go 264-267. *)
Definition removed (name line : string) : bool :=
  has_prefix ("- " +:+ name) (trim_left is_blank line).

(** configlib/config.go 249-278: the loop of remove; the last line gets no line feed. *)
Fixpoint remove_loop (name : string) (lines : list string) : string :=
  match lines with
  | [] => ""
  | l :: r =>
      if removed name l then remove_loop name r
      else match r with [] => l | _ => l +:+ newline +:+ remove_loop name r end
  end.

(** configlib/config.go 249-278: remove, on the contents of the file. *)
Definition remove_package (content name : string) : string :=
  remove_loop name (split_char line_feed content).
