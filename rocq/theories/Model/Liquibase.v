(** Model of /repo/format/liquibase: generator.go, diff.go

    The change log is modelled as the list of change sets that is handed to yaml.Marshal;
    the YAML text and the constant property objectQuotingStrategy (generator.go:18-22) are
    not modelled. Pointers to booleans are options. *)
From Coq Require Import String Ascii List NArith ZArith Bool.
From Verif.Model Require Import GoString Util Octopus DiffCore.
Import ListNotations.
Local Open Scope string_scope.

(** ** Data *)

(** a parsed numeric default: generator.go:415-427; for floats, the text that the external
    ParseFloat accepted stands for the number *)
Inductive lq_num := LqInt (z : Z) | LqFloat (s : string).

(** generator.go:401-406 LqDefaultValue *)
Record lq_default := mkLqDefault {
  dv_value : string;
  dv_bool : option bool;
  dv_num : option lq_num;
  dv_date : string
}.

(** generator.go:495-499 LqConstraints *)
Record lq_constraints := mkLqConstraints {
  k_pk : option bool;
  k_nullable : option bool;
  k_unique : option bool
}.

(** generator.go:438-449 LqColumn; the four default fields are one record *)
Record lq_column := mkLqColumn {
  lc_name : string;
  lc_type : string;
  lc_autoinc : option bool;
  lc_constraints : option lq_constraints;
  lc_remarks : string;
  lc_default : lq_default;
  lc_after : string
}.

(** the values appended to a change set: generator.go:138-395 *)
Inductive lq_change :=
| LqCreateTable (table remarks : string) (cols : list lq_column)
| LqDropTable (table : string)
| LqRenameTable (new_name old_name : string)
| LqSetTableRemarks (table remarks : string)
| LqAddColumn (table : string) (cols : list lq_column)
| LqDropColumn (table column : string)
| LqSetColumnRemarks (table column remarks : string)
| LqModifyDataType (table column new_type : string)
| LqRenameColumn (table new_name old_name data_type : string)
| LqAddNotNullConstraint (table column data_type default_null : string)
| LqDropNotNullConstraint (table column data_type : string)
| LqAddAutoIncrement (table column data_type : string)
| LqAddDefaultValue (table column data_type : string) (dv : lq_default)
| LqDropDefaultValue (table column data_type : string)
| LqAddPrimaryKey (table columns : string)
| LqDropPrimaryKey (table : string)
| LqAddUniqueConstraint (table columns name : string)
| LqDropUniqueConstraint (table name : string).

(** generator.go:34-39 LqChangeSet. PreConditions is either empty or the one of lines
    120-126, so a Boolean is enough. *)
Record lq_cset := mkLqCS {
  lq_id : string;
  lq_author : string;
  lq_pre : bool;
  lq_changes : list lq_change
}.

(** ** Types and default values *)

(** generator.go:560-619 getLiquibaseType *)
Definition get_liquibase_type (c : column) : string :=
  let t := to_lower (c_type c) in
  let typ :=
    if String.eqb t "char" then "char"
    else if String.eqb t "varchar" then "varchar"
    else if str_in t ["text8"; "text16"; "text24"; "text32"] then "clob"
    else if String.eqb t "boolean" then "boolean"
    else if String.eqb t "int8" then "tinyint"
    else if String.eqb t "int16" then "smallint"
    else if String.eqb t "int24" then "mediumint"
    else if String.eqb t "int32" then "int"
    else if String.eqb t "int64" then "bigint"
    else if String.eqb t "decimal" then "decimal"
    else if String.eqb t "float" then "float"
    else if String.eqb t "double" then "double"
    else if String.eqb t "datetime" then "datetime"
    else if String.eqb t "date" then "date"
    else if String.eqb t "time" then "time"
    else if str_in t ["blob8"; "blob16"; "blob24"; "blob32"] then "blob"
    else c_type c in
  if N.ltb 0 (c_size c) then
    if N.ltb 0 (c_scale c)
    then typ ++ "(" ++ itoa (c_size c) ++ "," ++ itoa (c_scale c) ++ ")"
    else typ ++ "(" ++ itoa (c_size c) ++ ")"
  else typ.

(** strconv.Atoi (external, standard library): optional sign, digits, int64 range *)
Definition go_atoi (s : string) : option Z :=
  let unsigned (r : string) : option Z :=
    match r with
    | EmptyString => None
    | _ => if string_forallb is_digit r then option_map Z.of_N (digits_to_N r) else None
    end in
  let z := match s with
           | String "-" r => option_map Z.opp (unsigned r)
           | String "+" r => unsigned r
           | _ => unsigned s
           end in
  match z with
  | Some v => if (Z.leb (-9223372036854775808) v && Z.leb v 9223372036854775807)%bool then Some v else None
  | None => None
  end.

Definition no_default : lq_default := mkLqDefault "" None None "".

Section WithFloat.
  (** strconv.ParseFloat(s, 64) succeeds (external) *)
  Variable float_ok : string -> bool.

  (** generator.go:408-436 newLqDefaultValue; [None] is an error *)
  Definition new_lq_default (c : column) : option lq_default :=
    let d := c_default c in
    if is_string_type (c_type c) then Some (mkLqDefault d None None "")
    else if is_boolean_type (c_type c) then Some (mkLqDefault "" (Some (String.eqb d "true")) None "")
    else if is_numeric_type (c_type c) then
      if is_int_type (c_type c) then
        match go_atoi d with
        | Some z => Some (mkLqDefault "" None (Some (LqInt z)) "")
        | None => None
        end
      else if float_ok d then Some (mkLqDefault "" None (Some (LqFloat d)) "") else None
    else if is_date_type (c_type c) then Some (mkLqDefault "" None None d)
    else Some (mkLqDefault d None None "").

  (** generator.go:451-493 newLqColumn *)
  Definition new_lq_column (c : column) (separate_pk separate_uq : bool) : option lq_column :=
    let pk := c_pk c && negb separate_pk in
    let nn := negb pk && c_notnull c in
    let uq := c_uq c && negb separate_uq in
    let ks := if pk || nn || uq
              then Some (mkLqConstraints (if pk then Some true else None)
                                         (if nn then Some false else None)
                                         (if uq then Some true else None))
              else None in
    let mk dv := mkLqColumn (c_name c) (get_liquibase_type c)
                   (if c_autoinc c then Some true else None) ks (c_desc c) dv "" in
    if negb (String.eqb (c_default c) "") then option_map mk (new_lq_default c)
    else Some (mk no_default).

  (** lc.Remarks = "" unless comments are on: generator.go:94-96, 195-197 *)
  Definition lc_comments (use_comments : bool) (lc : lq_column) : lq_column :=
    if use_comments then lc
    else mkLqColumn (lc_name lc) (lc_type lc) (lc_autoinc lc) (lc_constraints lc) "" (lc_default lc) (lc_after lc).

  Definition lc_set_after (after : string) (lc : lq_column) : lq_column :=
    mkLqColumn (lc_name lc) (lc_type lc) (lc_autoinc lc) (lc_constraints lc) (lc_remarks lc) (lc_default lc) after.

  (** the loop of generator.go:90-99 *)
  Fixpoint map_lq_columns (use_comments sep_pk sep_uq : bool) (cs : list column) : option (list lq_column) :=
    match cs with
    | [] => Some []
    | c :: cs' =>
        match new_lq_column c sep_pk sep_uq with
        | None => None
        | Some lc =>
            match map_lq_columns use_comments sep_pk sep_uq cs' with
            | None => None
            | Some r => Some (lc_comments use_comments lc :: r)
            end
        end
    end.

  (** one change set: bumpMinor, newLqChangeSet, Append..., append *)
  Definition lq_emit (author : string) (b : bool) (pre : bool) (chs : list lq_change)
    (st : list lq_cset * ident) : list lq_cset * ident :=
    if b then
      let id := bump_minor (snd st) in
      ((fst st ++ [mkLqCS (version id) author pre chs])%list, id)
    else st.

  (** generator.go:70-132 newCreateTableChangeSet *)
  Definition new_create_table_cs (author suffix : string) (use_comments : bool) (id : ident) (t : table)
    : option (list lq_cset * ident) :=
    let uq := uq_name_set t in
    let pk := pk_name_set t in
    match map_lq_columns use_comments (Nat.ltb 1 (ss_size pk)) (Nat.ltb 1 (ss_size uq)) (t_cols t) with
    | None => None
    | Some lcs =>
        let st := ([], id) in
        let st := lq_emit author true false [LqCreateTable (t_name t) (t_desc t) lcs] st in
        let st := lq_emit author (Nat.leb 2 (ss_size pk)) false
                          [LqAddPrimaryKey (t_name t) (ss_join pk ", ")] st in
        let st := lq_emit author (Nat.leb 1 (ss_size uq)) (Nat.eqb (ss_size uq) 1)
                          [LqAddUniqueConstraint (t_name t) (ss_join uq ", ") (t_name t ++ suffix)] st in
        Some st
    end.

  (** generator.go:181-207 newAddColumn. The position of a column in the table stands for
      its pointer; lastColName is the name of the preceding column of the new table. *)
  Definition last_col_name (all : list column) (i : nat) : string :=
    match i with
    | O => ""
    | S j => match nth_error all j with Some c => c_name c | None => "" end
    end.

  Fixpoint add_column_list (use_comments : bool) (all : list column) (cols : list (nat * column))
    : option (list lq_column) :=
    match cols with
    | [] => Some []
    | (i, c) :: cols' =>
        match new_lq_column c true true with
        | None => None
        | Some lc =>
            match add_column_list use_comments all cols' with
            | None => None
            | Some r => Some (lc_set_after (last_col_name all i) (lc_comments use_comments lc) :: r)
            end
        end
    end.

  (** ** diff.go *)

  (** diff.go:306-369 diffColumn *)
  Definition lq_diff_column (author : string) (use_comments : bool) (t : table) (id : ident) (c o : column)
    : option (list lq_cset * ident) :=
    let ty := get_liquibase_type c in
    let st := ([], id) in
    let st := lq_emit author (negb (String.eqb (c_name c) (c_name o))) false
                      [LqRenameColumn (t_name t) (c_name c) (c_name o) ty] st in
    let st := lq_emit author (negb (String.eqb (c_type c) (c_type o)) || negb (N.eqb (c_size c) (c_size o))
                              || negb (N.eqb (c_scale c) (c_scale o))) false
                      [LqModifyDataType (t_name t) (c_name c) ty] st in
    let st := lq_emit author (use_comments && negb (String.eqb (c_desc c) (c_desc o))) false
                      [LqSetColumnRemarks (t_name t) (c_name c) (c_desc c)] st in
    let st := lq_emit author (negb (Bool.eqb (c_notnull c) (c_notnull o))) false
                      [if c_notnull c then LqAddNotNullConstraint (t_name t) (c_name c) ty (c_default c)
                       else LqDropNotNullConstraint (t_name t) (c_name c) ty] st in
    (* lines 344-352: removal is only logged *)
    let st := lq_emit author (negb (Bool.eqb (c_autoinc c) (c_autoinc o)) && c_autoinc c) false
                      [LqAddAutoIncrement (t_name t) (c_name c) ty] st in
    if negb (String.eqb (c_default c) (c_default o)) then
      if String.eqb (c_default c) "" then
        Some (lq_emit author true false [LqDropDefaultValue (t_name t) (c_name c) ty] st)
      else
        match new_lq_default c with
        | None => None
        | Some dv => Some (lq_emit author true false [LqAddDefaultValue (t_name t) (c_name c) ty dv] st)
        end
    else Some st.

  (** diff.go:243-255, one renamed column *)
  Definition lq_rename_column (author : string) (t : table) (st : list lq_cset * ident)
    (r : nat * (column * column)) : list lq_cset * ident :=
    let nc := fst (snd r) in
    let oc := snd (snd r) in
    let st := lq_emit author true false
                [LqRenameColumn (t_name t) (c_name nc) (c_name oc) (get_liquibase_type nc)] st in
    lq_emit author (c_notnull oc) false
      [LqAddNotNullConstraint (t_name t) (c_name nc) (get_liquibase_type nc) (c_default nc)] st.

  (** diff.go:166-303 diffTable *)
  Definition lq_diff_table (author : string) (use_comments : bool) (suffix : string)
    (ord : list (nat * (column * column)) -> list (nat * (column * column)))
    (id : ident) (t old : table) : option (list lq_cset * ident) :=
    let '(css0, id0) :=
      lq_emit author (use_comments && negb (String.eqb (t_desc t) (t_desc old))) false
              [LqSetTableRemarks (t_name t) (t_desc t)] ([], id) in
    let removed0 := ss_new (map c_name (t_cols old)) in
    match scan_columns (lq_diff_column author use_comments t)
            (t_cols old) (with_pos (t_cols t)) id0 removed0 with
    | None => None
    | Some (css1, id1, removed1, added) =>
        let '(renamed, removed2) :=
          find_renamed (column_name_map (t_cols old)) (fun a r => is_renamed a r (negb use_comments))
                       added removed1 in
        let uq := uq_name_set t in
        let unique_changed := negb (ss_equals uq (uq_name_set old)) in
        let name := t_name t ++ suffix in
        let st := ((css0 ++ css1)%list, id1) in
        (* lines 228-234: not conditional on the old set *)
        let st := lq_emit author unique_changed false [LqDropUniqueConstraint (t_name t) name] st in
        (* lines 236-241 *)
        let st := fold_left (fun st n => lq_emit author true false [LqDropColumn (t_name t) n] st)
                            (ss_slice removed2) st in
        let st := fold_left (lq_rename_column author t) (ord renamed) st in
        (* lines 257-274 *)
        let final := filter (fun ia => negb (existsb (fun r => Nat.eqb (fst ia) (fst r)) renamed)) added in
        match (match final with
               | [] => Some st
               | _ => match add_column_list use_comments (t_cols t) final with
                      | None => None
                      | Some lcs => Some (lq_emit author true false [LqAddColumn (t_name t) lcs] st)
                      end
               end) with
        | None => None
        | Some st =>
            (* lines 276-289 *)
            let pk := pk_name_set t in
            let old_pk := pk_name_set old in
            let st := lq_emit author (negb (ss_equals pk old_pk)) false
                        ((if Nat.ltb 0 (ss_size old_pk) then [LqDropPrimaryKey (t_name t)] else []) ++
                         (if Nat.ltb 0 (ss_size pk) then [LqAddPrimaryKey (t_name t) (ss_join pk ", ")] else [])) st in
            (* lines 291-300: the change set is appended even when the new set is empty *)
            let st := lq_emit author unique_changed false
                        (if Nat.ltb 0 (ss_size uq)
                         then [LqAddUniqueConstraint (t_name t) (ss_join uq ", ") name] else []) st in
            Some st
        end
    end.

  (** diff.go:113-141, one renamed table *)
  Definition lq_rename_table (author suffix : string) (id : ident) (nw old : table) : list lq_cset * ident :=
    let css1 := if Nat.ltb 0 (ss_size (uq_name_set old))
                then [mkLqCS (version id) author false
                        [LqDropUniqueConstraint (t_name old) (t_name old ++ suffix)]] else [] in
    let st := (css1, id) in
    let st := lq_emit author true false [LqRenameTable (t_name nw) (t_name old)] st in
    lq_emit author (Nat.ltb 0 (ss_size (uq_name_set nw))) false
      [LqAddUniqueConstraint (t_name nw) (ss_join (uq_name_set nw) ", ") (t_name nw ++ suffix)] st.

  (** diff.go:12-19 DiffOption, without the two schemas *)
  Record lq_option := mkLqOption {
    lo_filter : option (table -> bool);
    lo_author : string;
    lo_suffix : string;
    lo_comments : bool
  }.

  (** diff.go:43-163 generate *)
  Definition lq_diff (ordT : list (nat * (table * table)) -> list (nat * (table * table)))
    (ordC : nat -> list (nat * (column * column)) -> list (nat * (column * column)))
    (o : lq_option) (from to : schema) : option (list lq_cset) :=
    let author := choose_author (lo_author o) to in
    diff_schemas
      (fun i id t old => lq_diff_table author (lo_comments o) (lo_suffix o) (ordC i) id t old)
      (fun id name _ => mkLqCS (version id) author false [LqDropTable name])
      (fun id nw old => lq_rename_table author (lo_suffix o) id nw old)
      (fun id t => new_create_table_cs author (lo_suffix o) (lo_comments o) id t)
      ordT (lo_filter o) from to.

  (** generator.go:531-558 generateAll; [lo_author] is not used, the author is the schema's *)
  Fixpoint generate_tables (author suffix : string) (use_comments : bool) (f : option (table -> bool))
    (ts : list table) (id : ident) : option (list lq_cset) :=
    match ts with
    | [] => Some []
    | t :: ts' =>
        if negb (passes f t) then generate_tables author suffix use_comments f ts' id
        else
          match new_create_table_cs author suffix use_comments (bump_major id) t with
          | None => None
          | Some (css, id1) =>
              match generate_tables author suffix use_comments f ts' id1 with
              | None => None
              | Some r => Some (css ++ r)%list
              end
          end
    end.

  Definition lq_generate (o : lq_option) (s : schema) : option (list lq_cset) :=
    generate_tables (s_author s) (lo_suffix o) (lo_comments o) (lo_filter o) (s_tables s) new_id.
End WithFloat.
