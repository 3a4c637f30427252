(** Model of /repo/format/protobuf: generator.go, cli.go. The name functions of the package strcase are
    parameters. Go's int has 64 bits; all arithmetic wraps around. *)
From Coq Require Import String Ascii List NArith ZArith Bool.
From Verif.Model Require Import GoString Util Octopus Common.
Import ListNotations.
Local Open Scope string_scope.

(** the value of an int expression *)
Definition int64 (z : Z) : Z := ((z + 9223372036854775808) mod 18446744073709551616 - 9223372036854775808)%Z.
(** the text of an int *)
Definition itoa_z (z : Z) : string :=
  if Z.ltb z 0 then "-" ++ itoa (Z.to_N (- z)) else itoa (Z.to_N z).

(** generator.go:30-38; Rule, Comment and Default are never read *)
Record pb_field := mkPbField { pf_type : string; pf_name : string; pf_tag : Z; pf_import : string }.
(** generator.go:40-45 *)
Record pb_relation := mkPbRel { pr_type : string; pr_name : string; pr_tag : Z; pr_repeated : bool }.
(** generator.go:23-28 *)
Record pb_message := mkPbMsg {
  pm_name : string; pm_fields : list pb_field; pm_relations : list pb_relation; pm_imports : list string }.
(** generator.go:47-56; FilePath is never read *)
Record pb_option := mkPbOpt {
  po_prefix : prefix_mapper;
  po_filter : option (table -> bool);
  po_remove : list string;
  po_package : string;
  po_go_package : string;
  po_start : Z;
  po_decr : bool }.

(** generator.go:233-274, the type of a field and its import *)
Definition pb_type (typ : string) : string * string :=
  let t := to_lower typ in
  if str_in t ["char"; "varchar"; "text8"; "text16"; "text24"; "text32"] then ("string", "")
  else if String.eqb t "boolean" then ("bool", "")
  else if String.eqb t "int64" then ("int64", "")
  else if str_in t ["int8"; "int16"; "int24"; "int32"] then ("int32", "")
  else if String.eqb t "decimal" then ("double", "")
  else if String.eqb t "float" then ("float", "")
  else if String.eqb t "double" then ("double", "")
  else if String.eqb t "datetime" then ("google.protobuf.Timestamp", "google/protobuf/timestamp.proto")
  else (typ, "").

(** generator.go:204-217, the first tag of the relations *)
Definition pb_rel_start (start : Z) (decr : bool) (max_tag count : Z) : Z :=
  if decr then
    if Z.leb (int64 (int64 (start - count) + 1)) max_tag then int64 (max_tag + count) else start
  else
    if (Z.ltb start 0 || Z.leb start max_tag)%bool then int64 (max_tag + 1) else start.

Section Names.
Variables to_camel to_lower_camel : string -> string.

(** generator.go:157-171 getMessageName. The prefix mapper is never nil in the program. *)
Definition pb_message_name (o : pb_option) (t : table) : string :=
  let n := to_camel (fold_left (fun n p => trim_prefix p n) (po_remove o) (t_name t)) in
  let prefix := get_prefix (po_prefix o) (t_group t) in
  if String.eqb prefix "" then n else prefix ++ n.

(** generator.go:232-287 newPbField *)
Definition pb_new_field (tag : Z) (c : column) : pb_field :=
  let '(ty, imp) := pb_type (c_type c) in mkPbField ty (to_lower_camel (c_name c)) tag imp.

(** generator.go:179-187 *)
Fixpoint pb_fields (tag : Z) (cs : list column) : list pb_field :=
  match cs with
  | [] => []
  | c :: cs' => pb_new_field tag c :: pb_fields (tag + 1) cs'
  end.

(** generator.go:189-201. The memoizer (util/memoization.go) hands the table to getMessageName, which
    reads a field of it: a panic if there is no such table. Memoizing a pure function has no effect. *)
Fixpoint pb_relations (o : pb_option) (s : schema) (cs : list column) : res (list (string * bool)) :=
  match cs with
  | [] => Ok []
  | c :: cs' =>
      match c_ref c with
      | None => pb_relations o s cs'
      | Some r =>
          match table_by_name (s_tables s) (ref_table r) with
          | None => Panic
          | Some u => match pb_relations o s cs' with
                      | Panic => Panic
                      | Ok l => Ok ((pb_message_name o u, String.eqb (ref_rel r) "1:n") :: l)
                      end
          end
      end
  end.

(** generator.go:219-222 *)
Fixpoint pb_tag_relations (start i : Z) (l : list (string * bool)) : list pb_relation :=
  match l with
  | [] => []
  | (ty, rep) :: l' => mkPbRel ty (to_lower_camel ty) (int64 (start + i)) rep :: pb_tag_relations start (i + 1) l'
  end.

(** generator.go:173-230 newPbMessage *)
Definition pb_new_message (o : pb_option) (s : schema) (t : table) : res pb_message :=
  let fields := pb_fields 1 (t_cols t) in
  let imports := fold_left (fun acc x => if String.eqb (pf_import x) "" then acc else ss_add acc (pf_import x)) fields (ss_new []) in
  match pb_relations o s (t_cols t) with
  | Panic => Panic
  | Ok rels =>
      let start := pb_rel_start (po_start o) (po_decr o) (Z.of_nat (length (t_cols t))) (Z.of_nat (length rels)) in
      Ok (mkPbMsg (pb_message_name o t) fields (pb_tag_relations start 0 rels) (ss_slice imports))
  end.

(** generator.go:82-88 *)
Definition pb_messages (o : pb_option) (s : schema) : res (list pb_message) :=
  res_map (pb_new_message o s) (filter (passes (po_filter o)) (s_tables s)).
End Names.

Definition pb_nl : string := String "010" "".
(** generator.go:115-120 *)
Definition pb_field_text (ty name : string) (tag : Z) : string :=
  pb_nl ++ "  " ++ ty ++ " " ++ name ++ " = " ++ itoa_z tag ++ ";".
(** generator.go:113-122; a relation is printed like a field *)
Definition pb_message_text (m : pb_message) : string :=
  pb_nl ++ "message " ++ pm_name m ++ " {"
  ++ String.concat "" (map (fun x => pb_field_text (pf_type x) (pf_name x) (pf_tag x)) (pm_fields m))
  ++ String.concat "" (map (fun x => pb_field_text (pr_type x) (pr_name x) (pr_tag x)) (pm_relations m))
  ++ pb_nl ++ "}" ++ pb_nl.

(** generator.go:93-154 generateProto *)
Definition pb_text (pkg go_pkg : string) (ms : list pb_message) : string :=
  let imports := ss_slice (fold_left (fun acc m => ss_add_all acc (pm_imports m)) ms (ss_new [])) in
  let options := if String.eqb go_pkg "" then [] else ["go_package = """ ++ go_pkg ++ """"] in
  "syntax = ""proto3"";" ++ pb_nl ++ pb_nl
  ++ (if String.eqb pkg "" then "" else "package " ++ pkg ++ ";") ++ pb_nl
  ++ String.concat "" (map (fun x => pb_nl ++ "option " ++ x ++ ";" ++ pb_nl) options)
  ++ String.concat "" (map (fun x => pb_nl ++ "import """ ++ x ++ """;" ++ pb_nl) imports)
  ++ String.concat "" (map pb_message_text ms).

(** generator.go:76-91 Generate *)
Definition pb_generate (to_camel to_lower_camel : string -> string) (o : pb_option) (s : schema) : res string :=
  match pb_messages to_camel to_lower_camel o s with
  | Panic => Panic
  | Ok ms => Ok (pb_text (po_package o) (po_go_package o) ms)
  end.

(** cli.go:24-50 Action, the options handed to the generator. [start] and [decr] are the values of the
    flags relationTagStart and relationTagDecr; they are not used. *)
Definition pb_cli_option (prefix groups remove pkg go_pkg start : string) (decr : bool) : res pb_option :=
  match new_prefix_mapper prefix with
  | Panic => Panic
  | Ok pm => Ok (mkPbOpt pm (get_table_filter groups) (split_char "," remove) pkg go_pkg (-1) false)
  end.
