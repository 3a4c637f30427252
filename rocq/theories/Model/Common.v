(** Model of /repo/format/common: prefix.go, annotation.go, formats.go *)
From Coq Require Import String Ascii List NArith Bool.
From Verif.Model Require Import GoString Util.
Import ListNotations.
Local Open Scope string_scope.

(** Results of code that may panic *)
Inductive res (A : Type) := Ok (a : A) | Panic.
Arguments Ok {A} _.
Arguments Panic {A}.

(** a loop that collects one result per element *)
Fixpoint res_map {A B} (f : A -> res B) (l : list A) : res (list B) :=
  match l with
  | [] => Ok []
  | x :: l' => match f x with
               | Panic => Panic
               | Ok y => match res_map f l' with Panic => Panic | Ok ys => Ok (y :: ys) end
               end
  end.

(** assignment [m[k] = v] and lookup of a Go map, as an association list in which
    the newest binding comes first *)
Fixpoint alist_find {V} (m : list (string * V)) (k : string) : option V :=
  match m with
  | [] => None
  | (k', v) :: m' => if String.eqb k k' then Some v else alist_find m' k
  end.

(** prefix.go:5-9 *)
Record prefix_mapper := mkPM {
  pm_prefix : string;
  pm_map : list (string * string);
  pm_use_map : bool
}.

(** prefix.go:16-21: loop over the tokens. kv[1] is out of range when a token has no ':' *)
Fixpoint prefix_tokens (toks : list string) (m : list (string * string))
  : res (list (string * string)) :=
  match toks with
  | [] => Ok m
  | tok :: toks' =>
      match split_once ":" tok with
      | (g, Some v) => prefix_tokens toks' ((g, v) :: m)
      | (_, None) => Panic
      end
  end.

(** prefix.go:11-29 NewPrefixMapper *)
Definition new_prefix_mapper (prefix : string) : res prefix_mapper :=
  match (if contains_char ":" prefix then prefix_tokens (split_char "," prefix) [] else Ok []) with
  | Panic => Panic
  | Ok m => Ok (mkPM prefix m (negb (Nat.eqb (length m) 0)))
  end.

(** prefix.go:31-40 GetPrefix *)
Definition get_prefix (p : prefix_mapper) (group : string) : string :=
  if pm_use_map p then
    match alist_find (pm_map p) group with Some x => x | None => "" end
  else pm_prefix p.

(** annotation.go:5-9 *)
Record anno_mapper := mkAM {
  am_anno : string;
  am_map : list (string * list string);
  am_use_map : bool
}.

(** annotation.go:16-21 *)
Fixpoint anno_tokens (toks : list string) (m : list (string * list string))
  : res (list (string * list string)) :=
  match toks with
  | [] => Ok m
  | tok :: toks' =>
      match split_once ":" tok with
      | (g, Some v) => anno_tokens toks' ((g, split_char ";" v) :: m)
      | (_, None) => Panic
      end
  end.

(** annotation.go:11-29 NewAnnotationMapper *)
Definition new_anno_mapper (anno : string) : res anno_mapper :=
  match (if contains_char ":" anno then anno_tokens (split_char "," anno) [] else Ok []) with
  | Panic => Panic
  | Ok m => Ok (mkAM anno m (negb (Nat.eqb (length m) 0)))
  end.

(** annotation.go:31-40 GetAnnotations *)
Definition get_annotations (p : anno_mapper) (group : string) : list string :=
  if am_use_map p then
    match alist_find (am_map p) group with Some x => x | None => [] end
  else [am_anno p].

(** filepath.Ext (standard library, unix): the suffix from the last '.' that comes
    after the last '/'; scans from the end. *)
Fixpoint ext_scan (rev : string) (acc : string) : string :=
  match rev with
  | EmptyString => ""
  | String c r =>
      if Ascii.eqb c "/" then ""
      else if Ascii.eqb c "." then String "." acc
      else ext_scan r (String c acc)
  end.
Definition filepath_ext (path : string) : string := ext_scan (string_rev path) "".

(** formats.go:32-54 GetFileFormat *)
Definition get_file_format (filename : string) : string :=
  let e := to_lower (filepath_ext filename) in
  if String.eqb e ".graphql" then "graphql"
  else if String.eqb e ".graphqls" then "graphql"
  else if String.eqb e ".json" then "octopus2"
  else if String.eqb e ".mdj" then "staruml2"
  else if String.eqb e ".ojson" then "octopus1"
  else if String.eqb e ".plantuml" then "plantuml"
  else if String.eqb e ".schema" then "schema-converter"
  else if String.eqb e ".xlsx" then "xlsx"
  else "".

(** formats.go:56-62 GetFileFormatIfNotSet *)
Definition get_file_format_if_not_set (fmt filename : string) : string :=
  if String.eqb fmt "" then get_file_format filename else fmt.

(** octopus/io.go:9-12: which file names LoadSchema accepts *)
Definition load_schema_accepts (filename : string) : bool :=
  let f := get_file_format filename in
  String.eqb f "octopus1" || String.eqb f "octopus2".
