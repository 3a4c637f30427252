(** Comparisons of schemas in memory, where nil slices are not empty slices. Code and nothing else; Model/DiffCore.v
    has both as []. *)
From Coq Require Import String Ascii List NArith Bool.
From Verif.Model Require Import GoString Util Octopus DiffCore Diff Liquibase Json.
Import ListNotations.
Local Open Scope string_scope.

(** What json.Unmarshal (table.go:177) makes of a slice: nil if its member is missing or null, else not nil, even if it has
    no elements. [true] is nil. As in Model/Json.v a repeated member replaces the earlier one. *)
Definition nil_member (field : string) (ms : list (string * json)) : bool :=
  fold_left (fun b m => if key_is field (fst m) then match snd m with JNull => true | _ => false end else b) ms true.
Definition json_members (j : json) : list (string * json) := match j with JObj ms => ms | _ => [] end.
Definition json_elements (field : string) (ms : list (string * json)) : list json :=
  fold_left (fun l m => if key_is field (fst m) then match snd m with JArr js => js | _ => [] end else l) ms [].

(** table.go:20-27; column.go:23-37: is the slice Columns of a table nil, and Values of each of its columns *)
Record nils := mkNils { nil_columns : bool; nil_values : list bool }.
(** of a table in a file *)
Definition table_nils (j : json) : nils :=
  mkNils (nil_member "columns" (json_members j))
         (map (fun c => nil_member "values" (json_members c)) (json_elements "columns" (json_members j))).

Definition file_nils (j : json) : list nils := map table_nils (json_elements "tables" (json_members j)).
(** The i-th table of a file, and the table that TablesByName (table.go:109-118) has for a name, the last one. LoadSchema
    (io.go:8-24) sorts the tables; here those of the file must be in order already, as ToJson writes them. *)
Definition nils_at (j : json) (i : nat) : nils := nth i (file_nils j) (mkNils true []).
Definition nils_of (j : json) (s : schema) (n : string) : nils :=
  fold_left (fun m p => if String.eqb (t_name (fst p)) n then snd p else m) (combine (s_tables s) (file_nils j)) (mkNils true []).

(** the answers for the slices that have no elements; the others are not nil *)
Definition nil_places (a : table * nils) : list bool :=
  ((match t_cols (fst a) with [] => [nil_columns (snd a)] | _ => [] end) ++
   flat_map (fun p => match c_values (fst p) with [] => [snd p] | _ => [] end) (combine (t_cols (fst a)) (nil_values (snd a))))%list.

(** cmp.Diff(addedTable.Columns, removedTable.Columns) == "": diff.go:76; liquibase/diff.go:94. The package
    github.com/google/go-cmp says that nil and empty slices are not equal. *)
Definition same_memory (a b : table * nils) : bool :=
  same_columns (fst a) (fst b) && list_eqb Bool.eqb (nil_places a) (nil_places b).

Section Memory.
  Context {CS : Type}.
  Variable diff_table : nat -> ident -> table -> table -> option (list CS * ident).
  Variable drop_cs : ident -> string -> table -> CS.
  Variable rename_cs : ident -> table -> table -> list CS * ident.
  Variable create_cs : ident -> table -> option (list CS * ident).
  (** the slices of the i-th table of the new schema, and of the table of the old schema that its map of names has *)
  Variable new_nils : nat -> nils.
  Variable old_nils : string -> nils.

  (** diff.go:26-143; liquibase/diff.go:43-163, like [diff_schemas] but for [same_memory] *)
  Definition diff_memory (ord : list (nat * (table * table)) -> list (nat * (table * table)))
    (f : option (table -> bool)) (from to : schema) : option (list CS) :=
    let removed0 := ss_new (map t_name (s_tables from)) in
    match scan_tables diff_table f (s_tables from) (with_pos (s_tables to)) new_id removed0 with
    | None => None
    | Some (css1, id1, removed1, added) =>
        let '(found, removed2) :=
          find_renamed (fun n => option_map (fun t => (t, old_nils n)) (tables_by_name (s_tables from) n)) same_memory
            (map (fun it => (fst it, (snd it, new_nils (fst it)))) added) removed1 in
        let renamed := map (fun r => (fst r, (fst (fst (snd r)), fst (snd (snd r))))) found in
        let '(css2, id2) := drop_tables drop_cs (s_tables from) (ss_slice removed2) id1 in
        let '(css3, id3) := rename_tables rename_cs (ord renamed) id2 in
        match create_tables create_cs (not_renamed added renamed) id3 with
        | None => None
        | Some (css4, _) => Some (css1 ++ css2 ++ css3 ++ css4)%list
        end
    end.
End Memory.

(** diff.go:26-143 getDiff *)
Definition get_diff_memory (new_nils : nat -> nils) (old_nils : string -> nils)
  (ordT : list (nat * (table * table)) -> list (nat * (table * table)))
  (ordC : nat -> list (nat * (column * column)) -> list (nat * (column * column)))
  (o : diff_option) (from to : schema) : option (list cset) :=
  let author := choose_author (do_author o) to in
  diff_memory
    (fun i id t old => diff_table author (do_comments o) (do_suffix o) (ordC i) id t old)
    (fun id _ old => mkCS (version id) author [DropTable old])
    (fun id nw old => rename_table_cs author (do_suffix o) id nw old)
    (fun id t => Some ([mkCS (version id) author [CreateTable t]], id))
    new_nils old_nils ordT (do_filter o) from to.

(** liquibase/diff.go:43-163 generate; [float_ok] as in Model/Liquibase.v *)
Definition lq_diff_memory (float_ok : string -> bool) (new_nils : nat -> nils) (old_nils : string -> nils)
  (ordT : list (nat * (table * table)) -> list (nat * (table * table)))
  (ordC : nat -> list (nat * (column * column)) -> list (nat * (column * column)))
  (o : lq_option) (from to : schema) : option (list lq_cset) :=
  let author := choose_author (lo_author o) to in
  diff_memory
    (fun i id t old => lq_diff_table float_ok author (lo_comments o) (lo_suffix o) (ordC i) id t old)
    (fun id name _ => mkLqCS (version id) author false [LqDropTable name])
    (fun id nw old => lq_rename_table author (lo_suffix o) id nw old)
    (fun id t => new_create_table_cs float_ok author (lo_suffix o) (lo_comments o) id t)
    new_nils old_nils ordT (lo_filter o) from to.
