(** Model of /repo/format/gorm: gorm_model.go, gorm.go, generator.go, init.go. The name functions of the
    package strcase are parameters. *)
From Coq Require Import String Ascii List NArith Bool.
From Verif.Model Require Import GoString Util Octopus Common.
Import ListNotations.
Local Open Scope string_scope.

(** ** gorm_model.go *)

(** the map EmbeddedModels, gorm_model.go:9-11, 41: names, each once, with their column names *)
Notation models := (list (string * list string)).

(** the class of the regular expression of gorm_model.go:23 *)
Definition is_model_char (c : ascii) : bool :=
  is_letter c || is_digit c || Ascii.eqb c "." || Ascii.eqb c "_".

(** gorm_model.go:22-39 parseEmbeddedModelDefinition; [None]: the returned slice is nil. The class of
    the first group has no ':', so the group ends at the first one; '.' does not match a line break. *)
Definition parse_embed (d : string) : option (string * list string) :=
  match split_once ":" d with
  | (_, None) => None
  | (name, Some cols) =>
      if negb (String.eqb name "") && string_forallb is_model_char name
         && negb (contains_char "010" cols)
      then Some (name, if String.eqb cols "" then [] else split_char "," cols)
      else None
  end.

(** gorm_model.go:62-69 registerEmbeddedModel, the assignment to the map *)
Fixpoint register_model (m : models) (name : string) (cols : list string) : models :=
  match m with
  | [] => [(name, cols)]
  | (k, v) :: m' => if String.eqb name k then (k, cols) :: m' else (k, v) :: register_model m' name cols
  end.

(** gorm_model.go:71-74 and init.go:3-5 *)
Definition default_models : models :=
  register_model [] "gorm.Model" ["id"; "created_at"; "updated_at"; "deleted_at"].

(** gorm_model.go:84-90, the loop; [l]: the entries in the order of the iteration *)
Fixpoint extract_loop (l : models) (set : sset) : models :=
  match l with
  | [] => []
  | (name, cols) :: l' =>
      if ss_contains_all set cols then (name, cols) :: extract_loop l' (ss_remove_all set cols)
      else extract_loop l' set
  end.

(** gorm_model.go:77-93 extractEmbeddedModels; [ord]: the order in which the map is iterated *)
Definition extract_models (ord : models -> models) (m : models) (names : list string) : models :=
  extract_loop (ord m) (ss_add_all (ss_new []) names).

(** gorm_model.go:13-20, 43-50 Contains, ContainsColumnName *)
Definition models_contain (m : models) (name : string) : bool :=
  existsb (fun e => str_in name (snd e)) m.

(** gorm_model.go:52-58 Names *)
Definition models_names (ord : models -> models) (m : models) : list string := map fst (ord m).

(** ** gorm.go *)

(** gorm.go:88-94 *)
Record go_field := mkGoField {
  go_col : column;
  go_name : string;
  go_type : string;
  go_override : bool;
  go_imports : list string
}.

(** gorm.go:10-16 *)
Record go_assoc := mkGoAssoc {
  as_name : string;
  as_type : string;
  as_array : bool;
  as_fk : string;
  as_ref : string
}.

(** gorm.go:18-26; PKFields is never read *)
Record go_struct := mkGoStruct {
  gs_table : table;
  gs_name : string;
  gs_models : list string;
  gs_fields : list go_field;
  gs_unique : list go_field;
  gs_assocs : list go_assoc
}.

(** gorm.go:104-202 *)
Definition go_type_of (typ : string) (nullable : bool) : string :=
  let t := to_lower typ in
  if str_in t ["char"; "varchar"; "text8"; "text16"; "text24"; "text32"]
  then if nullable then "null.String" else "string"
  else if String.eqb t "boolean" then if nullable then "null.Bool" else "bool"
  else if String.eqb t "int8" then if nullable then "null.Int" else "int8"
  else if String.eqb t "int16" then if nullable then "null.Int" else "int16"
  else if str_in t ["int24"; "int32"] then if nullable then "null.Int" else "int32"
  else if String.eqb t "int64" then if nullable then "null.Int" else "int64"
  else if String.eqb t "decimal" then if nullable then "decimal.NullDecimal" else "decimal.Decimal"
  else if String.eqb t "float" then if nullable then "null.Float" else "float32"
  else if String.eqb t "double" then if nullable then "null.Float" else "float64"
  else if str_in t ["datetime"; "date"; "time"] then if nullable then "null.Time" else "time.Time"
  else if str_in t ["blob8"; "blob16"; "blob24"; "blob32"] then "[]byte"
  else if String.eqb t "bit" then if nullable then "*byte" else "byte"
  else if String.eqb t "enum" then "string"
  else "interface{}".

(** gorm.go:98-102, 155, 181: the import set of a field, and its Slice (line 223) *)
Definition go_imports_of (typ : string) (nullable : bool) : list string :=
  let t := to_lower typ in
  let s0 := if nullable then ss_add [] "gopkg.in/guregu/null.v4" else [] in
  let s1 := if String.eqb t "decimal" then ss_add s0 "github.com/shopspring/decimal" else s0 in
  ss_slice (if str_in t ["datetime"; "date"; "time"] && negb nullable then ss_add s1 "time" else s1).

(** gorm.go:208-211: a name that ends in "Id" ends in "ID" instead *)
Fixpoint id_suffix (s : string) : string :=
  match s with
  | EmptyString => EmptyString
  | String c s' => if String.eqb s "Id" then "ID" else String c (id_suffix s')
  end.

(** gorm.go:213, the regular expression [^\d+.*$] *)
Definition number_name (s : string) : bool :=
  match s with
  | String c _ => is_digit c && negb (contains_char "010" s)
  | EmptyString => false
  end.

Section Names.
Variables to_camel to_snake : string -> string.

(** util/string.go ToUpperCamel, the second result: whether the name survives the round trip *)
Definition symmetric (s : string) : bool := String.eqb s (to_snake (to_camel s)).

(** gorm.go:204-216 *)
Definition go_field_name (name : string) : string :=
  let n := id_suffix (to_camel name) in
  if number_name n then "_" ++ n else n.

(** gorm.go:96-225 NewGoField *)
Definition new_go_field (c : column) : go_field :=
  let nullable := negb (c_notnull c) in
  mkGoField c (go_field_name (c_name c)) (go_type_of (c_type c) nullable)
    (negb (symmetric (c_name c)) || number_name (id_suffix (to_camel (c_name c))))
    (go_imports_of (c_type c) nullable).

(** generator.go:33-47 StructName *)
Definition struct_name (remove : list string) (pm : prefix_mapper) (t : table) : string :=
  if String.eqb (t_class t) "" then
    get_prefix pm (t_group t) ++ to_camel (fold_left (fun n p => trim_prefix p n) remove (t_name t))
  else t_class t.

(** gorm.go:52-65, the association of a column *)
Definition go_assoc_of (s : schema) remove pm (c : column) : list go_assoc :=
  match c_ref c with
  | None => []
  | Some r =>
      match find_reference s r with
      | None => []
      | Some (rt, rc) =>
          [mkGoAssoc (struct_name remove pm rt) (struct_name remove pm rt)
             (String.eqb (ref_rel r) "1:n")
             (go_field_name (c_name c)) (go_field_name (c_name rc))]
      end
  end.

(** gorm.go:33-86 NewGoStruct; [om], [on]: the orders in which the two maps are iterated *)
Definition new_go_struct (om on : models -> models) (m : models) (s : schema) remove pm (t : table)
  : go_struct :=
  let fields := map new_go_field (t_cols t) in
  let used := extract_models om m (map (fun f => c_name (go_col f)) fields) in
  mkGoStruct t (struct_name remove pm t) (models_names on used)
    (filter (fun f => negb (models_contain used (c_name (go_col f)))) fields)
    (filter (fun f => c_uq (go_col f)) fields)
    (flat_map (go_assoc_of s remove pm) (t_cols t)).

(** ** generator.go *)

(** generator.go:16-24 *)
Record gorm_opt := mkGormOpt {
  go_embed : string;
  go_filter : option (table -> bool);
  go_package : string;
  go_pointer : bool;
  go_prefix : prefix_mapper;
  go_remove : list string;
  go_suffix : string
}.

(** generator.go:62-67, the global map after the option is read *)
Definition embed_models (m : models) (embed : string) : models :=
  if String.eqb embed "" then m
  else match parse_embed embed with
       | Some (name, cols) => register_model m name cols
       | None => m
       end.

(** generator.go:73-81; [om k], [on k]: the iteration orders used for the k-th table *)
Fixpoint go_structs_from (k : nat) (om on : nat -> models -> models) (m : models) (s : schema) remove pm
  (ts : list table) : list go_struct :=
  match ts with
  | [] => []
  | t :: ts' => new_go_struct (om k) (on k) m s remove pm t
                :: go_structs_from (S k) om on m s remove pm ts'
  end.
Definition go_structs om on (m : models) (o : gorm_opt) (s : schema) : list go_struct :=
  go_structs_from 0 om on m s (go_remove o) (go_prefix o) (filter (passes (go_filter o)) (s_tables s)).

(** generator.go:84-97 and importSet.Slice, line 118 *)
Definition struct_imports (g : go_struct) : list string :=
  (flat_map (fun n => if String.eqb n "gorm.Model" then ["github.com/jinzhu/gorm"] else []) (gs_models g)
   ++ flat_map go_imports (gs_fields g))%list.
Definition gorm_imports (gs : list go_struct) : list string :=
  ss_slice (ss_add_all (ss_new []) (flat_map struct_imports gs)).

(** generator.go:175-184, the first position of the column in an index *)
Fixpoint index_position (k : N) (cols : list string) (name : string) : option N :=
  match cols with
  | [] => None
  | c :: cols' => if String.eqb name c then Some (k + 1)%N else index_position (k + 1) cols' name
  end.

(** generator.go:167-187, 240-246: the tag of one index *)
Definition index_tag (name : string) (ix : index) : list string :=
  match index_position 0 (ix_cols ix) name with
  | None => []
  | Some p => [if Nat.eqb (length (ix_cols ix)) 1 then "index:" ++ ix_name ix
               else "index:" ++ ix_name ix ++ ",priority:" ++ itoa p]
  end.

(** generator.go:322-345 getGormTagByType *)
Definition type_tag (c : column) : string :=
  if str_in (c_type c) ["bit"; "char"; "varchar"] then
    if N.ltb 0 (c_size c) then "type:" ++ c_type c ++ "(" ++ itoa (c_size c) ++ ")" else ""
  else if str_in (c_type c) ["double"; "float"; "decimal"] then
    if N.ltb 0 (c_size c) && N.ltb 0 (c_scale c)
    then "type:" ++ c_type c ++ "(" ++ itoa (c_size c) ++ "," ++ itoa (c_scale c) ++ ")" else ""
  else "".

(** generator.go:200-208; the empty string also when the name itself is empty *)
Definition unique_name (suffix : string) (g : go_struct) : string :=
  if Nat.ltb 1 (length (gs_unique g)) then t_name (gs_table g) ++ suffix else "".

(** generator.go:216-255 *)
Definition field_tags (uname : string) (t : table) (f : go_field) : list string :=
  let c := go_col f in
  let column_tag := "column:" ++ c_name c in
  let unique_tag := "unique_index:" ++ uname in
  ((if go_override f then [column_tag] else [])
   ++ (if String.eqb (type_tag c) "" then [] else [type_tag c])
   ++ (if c_pk c then ["primary_key"] else [])
   ++ (if c_uq c then if String.eqb uname "" then ["unique"] else [unique_tag] else [])
   ++ flat_map (index_tag (c_name c)) (t_indices t)
   ++ (if c_autoinc c then ["auto_increment"] else [])
   ++ (if c_notnull c && negb (c_autoinc c) then ["not null"] else []))%list.

(** generator.go:153-159, 315-320 *)
Definition quote_mark : string := String "034" "".
Definition field_line (name type : string) (tags : list string) : string :=
  match tags with
  | [] => name ++ " " ++ type
  | _ => name ++ " " ++ type ++ " `gorm:" ++ quote_mark ++ join ";" tags ++ quote_mark ++ "`"
  end.

(** generator.go:265-283 *)
Definition assoc_line (pointer : bool) (a : go_assoc) : string :=
  let ty := if as_array a then "[]" ++ as_type a else as_type a in
  field_line (as_name a) (if pointer then "*" ++ ty else ty)
    ["foreignKey:" ++ as_fk a; "references:" ++ as_ref a].

Definition nl_tab : string := String "010" (String "009" "").
Definition nl1 : string := String "010" "".

(** generator.go:189-313 GenerateStruct, the text of the template at 294-306 *)
Definition struct_text (o : gorm_opt) (g : go_struct) : string :=
  let uname := unique_name (go_suffix o) g in
  let body := (gs_models g
               ++ map (fun f => field_line (go_name f) (go_type f) (field_tags uname (gs_table g) f)) (gs_fields g)
               ++ map (assoc_line (go_pointer o)) (gs_assocs g))%list in
  "type " ++ gs_name g ++ " struct {" ++ String.concat "" (map (fun l => nl_tab ++ l) body) ++ nl1
  ++ "}" ++ nl1 ++ nl1
  ++ "func (c *" ++ gs_name g ++ ") TableName() string { return " ++ quote_mark ++ t_name (gs_table g)
  ++ quote_mark ++ " }" ++ nl1 ++ nl1.

(** generator.go:99-121, the template at 101-110 *)
Definition header_text (pkg : string) (imports : list string) : string :=
  "package " ++ pkg ++ nl1 ++ nl1 ++ "import ("
  ++ String.concat "" (map (fun i => nl_tab ++ quote_mark ++ i ++ quote_mark) imports) ++ nl1
  ++ ")" ++ nl1 ++ nl1.

(** generator.go:60-132 Generate: the text, and the global map afterwards *)
Definition gorm_generate (om on : nat -> models -> models) (m : models) (o : gorm_opt) (s : schema)
  : string * models :=
  let m' := embed_models m (go_embed o) in
  let gs := go_structs om on m' o s in
  (header_text (if String.eqb (go_package o) "" then "main" else go_package o) (gorm_imports gs)
   ++ String.concat "" (map (struct_text o) gs), m').
End Names.
