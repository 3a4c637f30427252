(** encoding/json (Go 1.17) when a member is given twice: the second value is decoded into what the first one left
    (decode.go, functions array, object, indirect and literalStore). Json.v simplifies this: there the second value replaces
    the first. The structs are those of format/octopus/table.go:12-27,102-107 and column.go:17-37. *)
From Coq Require Import String Ascii List NArith Bool.
From Verif.Model Require Import GoString Octopus Json Cli.
Import ListNotations.
Local Open Scope string_scope.

(** A slice: its elements, and those left behind them in the array from a longer list *)
Record slice A := mkSlice { sl_seen : list A; sl_hidden : list A }.
Arguments mkSlice {A}. Arguments sl_seen {A}. Arguments sl_hidden {A}.
Definition no_slice {A} : slice A := mkSlice [] [].

(** decode.go array: element by element into the array that is there; beyond it elements are zero *)
Fixpoint dec_into {A} (f : A -> json -> option A) (zero : A) (back : list A) (l : list json) : option (list A * list A) :=
  match l with
  | [] => Some ([], back)
  | j :: l' =>
      match f (hd zero back) j with
      | None => None
      | Some a => match dec_into f zero (tl back) l' with
                  | Some (r, h) => Some (a :: r, h)
                  | None => None
                  end
      end
  end.
(** null gives nil, the empty list a new slice *)
Definition dec_slice {A} (f : A -> json -> option A) (zero : A) (s : slice A) (j : json) : option (slice A) :=
  match j with
  | JNull => Some no_slice
  | JArr [] => Some no_slice
  | JArr l => option_map (fun p => mkSlice (fst p) (snd p)) (dec_into f zero (sl_seen s ++ sl_hidden s) l)
  | _ => None
  end.
(** decode.go indirect: null sets a pointer to nil; otherwise what it points to is used again, if there is something *)
Definition dec_ptr {A} (f : A -> json -> option A) (zero : A) (old : option A) (j : json) : option (option A) :=
  match j with
  | JNull => Some None
  | _ => option_map Some (f (match old with Some a => a | None => zero end) j)
  end.
Definition dec_fields {A} (f : A -> string -> json -> option A) (old : A) (j : json) : option A :=
  match j with JObj l => dec_members f old l | _ => None end.

(** column.go:23-37: a column, and the strings hidden behind its values. The other members as in Json.v, where they keep
    or replace the old value. *)
Definition gcol : Type := column * list string.
Definition with_values (c : column) (vs : list string) : column :=
  let '(mkCol n t d sz sc nn pk uq ai df ou _ rf) := c in mkCol n t d sz sc nn pk uq ai df ou vs rf.
Definition with_ref (c : column) (r : option reference) : column :=
  let '(mkCol n t d sz sc nn pk uq ai df ou vs _) := c in mkCol n t d sz sc nn pk uq ai df ou vs r.
Definition gcol_member (g : gcol) (k : string) (j : json) : option gcol :=
  let '(c, h) := g in
  if key_is "values" k then
    option_map (fun s => (with_values c (sl_seen s), sl_hidden s)) (dec_slice dec_str "" (mkSlice (c_values c) h) j)
  else if key_is "ref" k then
    option_map (fun r => (with_ref c r, h)) (dec_ptr (dec_fields ref_member) (mkRef "" "" "") (c_ref c) j)
  else option_map (fun c' => (c', h)) (col_member c k j).
Definition zero_gcol : gcol := (zero_col, []).

(** table.go:12-15 *)
Definition gidx : Type := index * list string.
Definition gidx_member (g : gidx) (k : string) (j : json) : option gidx :=
  let '(i, h) := g in
  if key_is "columns" k then
    option_map (fun s => (mkIdx (ix_name i) (sl_seen s), sl_hidden s)) (dec_slice dec_str "" (mkSlice (ix_cols i) h) j)
  else option_map (fun i' => (i', h)) (idx_member i k j).
Definition zero_gidx : gidx := (mkIdx "" [], []).

(** table.go:20-27; [g_rest] has the other fields *)
Record gtable := mkGTable { g_rest : table; g_cols : slice (option gcol); g_idx : slice (option gidx) }.
Definition gtbl_member (g : gtable) (k : string) (j : json) : option gtable :=
  if key_is "columns" k then
    option_map (fun s => mkGTable (g_rest g) s (g_idx g)) (dec_slice (dec_ptr (dec_fields gcol_member) zero_gcol) None (g_cols g) j)
  else if key_is "indices" k then
    option_map (fun s => mkGTable (g_rest g) (g_cols g) s) (dec_slice (dec_ptr (dec_fields gidx_member) zero_gidx) None (g_idx g) j)
  else option_map (fun t => mkGTable t (g_cols g) (g_idx g)) (tbl_member (g_rest g) k j).
Definition zero_gtable : gtable := mkGTable (mkTable "" [] "" "" "" []) no_slice no_slice.

(** table.go:102-107 *)
Record gschema := mkGSchema { g_head : schema; g_tables : slice (option gtable) }.
Definition gsch_member (g : gschema) (k : string) (j : json) : option gschema :=
  if key_is "tables" k then
    option_map (fun s => mkGSchema (g_head g) s) (dec_slice (dec_ptr (dec_fields gtbl_member) zero_gtable) None (g_tables g) j)
  else option_map (fun s => mkGSchema s (g_tables g)) (sch_member (g_head g) k j).
Definition zero_gschema : gschema := mkGSchema (mkSchema "" "" "" []) no_slice.

(** table.go:176-178 FromJson *)
Definition from_json_merging (j : json) : option gschema :=
  match j with
  | JNull => Some zero_gschema
  | _ => dec_fields gsch_member zero_gschema j
  end.
