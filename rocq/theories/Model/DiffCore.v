(** Control flow shared by /repo/format/diff/diff.go and /repo/format/liquibase/diff.go.

    The Go code of the two packages is a copy of each other up to the kind of change
    set that is built. The model has the common part once, with the places that differ
    as arguments; Model/Diff.v and Model/Liquibase.v supply them. *)
From Coq Require Import String Ascii List NArith Bool.
From Verif.Model Require Import GoString Util Octopus.
Import ListNotations.
Local Open Scope string_scope.

(** ** diff/changeset.go:9-42 ChangeSetID; liquibase/generator.go:621-654 LqId *)
Record ident := mkId { id_major : nat; id_minor : nat }.

(** changeset.go:14-19; generator.go:626-631 *)
Definition new_id : ident := mkId 0 0.

(** changeset.go:21-24; generator.go:633-636 *)
Definition bump_major (i : ident) : ident := mkId (S (id_major i)) 0.

(** changeset.go:26-29; generator.go:638-641. Only called after bumpMajor, so [pred] is exact. *)
Definition revert_major (i : ident) : ident := mkId (pred (id_major i)) 0.

(** changeset.go:31-34; generator.go:643-646, the state part; the returned
    text is [version] of the new state *)
Definition bump_minor (i : ident) : ident := mkId (id_major i) (S (id_minor i)).

(** changeset.go:36-42; generator.go:648-654 *)
Definition version (i : ident) : string :=
  if Nat.eqb (id_minor i) 0 then itoa (N.of_nat (id_major i))
  else itoa (N.of_nat (id_major i)) ++ "-" ++ itoa (N.of_nat (id_minor i)).

(** util/string.go:63-68 IfThenElseString(option.Author != "", option.Author, to.Author):
    diff.go:33; liquibase/diff.go:51 *)
Definition choose_author (opt_author : string) (to : schema) : string :=
  if negb (String.eqb opt_author "") then opt_author else s_author to.

(** ** Equality of columns, as cmp.Diff sees it: diff.go:76; liquibase/diff.go:94.
    Simplification: cmp.Diff tells a nil slice from an empty one; here both are []. *)
Definition list_eqb {A} (eqb : A -> A -> bool) : list A -> list A -> bool :=
  fix go a b := match a, b with
                | [], [] => true
                | x :: a', y :: b' => eqb x y && go a' b'
                | _, _ => false
                end.
Definition ref_eqb (a b : reference) : bool :=
  String.eqb (ref_table a) (ref_table b) && String.eqb (ref_column a) (ref_column b) &&
  String.eqb (ref_rel a) (ref_rel b).
Definition option_eqb {A} (eqb : A -> A -> bool) (a b : option A) : bool :=
  match a, b with
  | None, None => true
  | Some x, Some y => eqb x y
  | _, _ => false
  end.
Definition column_eqb (a b : column) : bool :=
  String.eqb (c_name a) (c_name b) && String.eqb (c_type a) (c_type b) &&
  String.eqb (c_desc a) (c_desc b) && N.eqb (c_size a) (c_size b) && N.eqb (c_scale a) (c_scale b) &&
  Bool.eqb (c_notnull a) (c_notnull b) && Bool.eqb (c_pk a) (c_pk b) && Bool.eqb (c_uq a) (c_uq b) &&
  Bool.eqb (c_autoinc a) (c_autoinc b) && String.eqb (c_default a) (c_default b) &&
  String.eqb (c_onupdate a) (c_onupdate b) && list_eqb String.eqb (c_values a) (c_values b) &&
  option_eqb ref_eqb (c_ref a) (c_ref b).

(** ** Finding renamed items
    diff.go:72-83, 190-201; liquibase/diff.go:90-101, 210-221.

    Items of the new side carry their position, which stands for the pointer used as map key. *)
Section Renamed.
  Context {A : Type} (lookup : string -> option A) (same : A -> A -> bool).

  (** the inner loop with its break *)
  Fixpoint match_removed (a : A) (names : list string) : option (string * A) :=
    match names with
    | [] => None
    | n :: names' =>
        match lookup n with
        | Some r => if same a r then Some (n, r) else match_removed a names'
        | None => match_removed a names'
        end
    end.

  (** returns the renamed map in insertion order, and the names still removed *)
  Fixpoint find_renamed (added : list (nat * A)) (removed : sset) : list (nat * (A * A)) * sset :=
    match added with
    | [] => ([], removed)
    | (i, a) :: added' =>
        match match_removed a (ss_slice removed) with
        | Some (n, r) =>
            let '(m, rest) := find_renamed added' (ss_remove removed n) in ((i, (a, r)) :: m, rest)
        | None => find_renamed added' removed
        end
    end.
End Renamed.

(** items of [added] that are not keys of the renamed map:
    diff.go:129-133, 233-240; liquibase/diff.go:143-148, 257-264 *)
Definition not_renamed {A} (added : list (nat * A)) (renamed : list (nat * (A * A))) : list A :=
  map snd (filter (fun ia => negb (existsb (fun r => Nat.eqb (fst ia) (fst r)) renamed)) added).

Definition with_pos {A} (l : list A) : list (nat * A) := combine (seq 0 (length l)) l.

(** ** The comparison of two schemas: diff.go:26-143 getDiff; liquibase/diff.go:43-163 generate

    [CS] is the type of change sets; the arguments build them:
    - [diff_table i id t old]: diffTable on the i-th table of the new schema;
    - [drop_cs id name old]: the change set of lines 90-92 / 108-110;
    - [rename_cs id new old]: lines 99-125 / 117-140;
    - [create_cs id t]: lines 137-139 / 152-159.
    [None] is an error return. [ord] is the iteration order of renamedTableMap. *)
Section Skeleton.
  Context {CS : Type}.
  Variable diff_table : nat -> ident -> table -> table -> option (list CS * ident).
  Variable drop_cs : ident -> string -> table -> CS.
  Variable rename_cs : ident -> table -> table -> list CS * ident.
  Variable create_cs : ident -> table -> option (list CS * ident).

  (** diff.go:43-70; liquibase/diff.go:61-88. Result: change sets, id, removedTableNames,
      addedTables. *)
  Fixpoint scan_tables (f : option (table -> bool)) (from : list table) (ts : list (nat * table))
    (id : ident) (removed : sset) : option (list CS * ident * sset * list (nat * table)) :=
    match ts with
    | [] => Some ([], id, removed, [])
    | (i, t) :: ts' =>
        if negb (passes f t) then scan_tables f from ts' id removed
        else
          let removed' := ss_remove removed (t_name t) in
          match tables_by_name from (t_name t) with
          | None =>
              match scan_tables f from ts' id removed' with
              | Some (css, id', r, added) => Some (css, id', r, (i, t) :: added)
              | None => None
              end
          | Some old =>
              match diff_table i (bump_major id) t old with
              | None => None
              | Some (css, id1) =>
                  let id2 := match css with [] => revert_major id1 | _ => id1 end in
                  match scan_tables f from ts' id2 removed' with
                  | Some (css', id', r, added) => Some ((css ++ css')%list, id', r, added)
                  | None => None
                  end
              end
          end
    end.

  (** diff.go:85-93; liquibase/diff.go:103-111. The names come from the map, so the
      lookup always succeeds. *)
  Fixpoint drop_tables (from : list table) (names : list string) (id : ident) : list CS * ident :=
    match names with
    | [] => ([], id)
    | n :: names' =>
        let id1 := bump_major id in
        let '(css, id2) := drop_tables from names' id1 in
        match tables_by_name from n with
        | Some t => (drop_cs id1 n t :: css, id2)
        | None => (css, id2)
        end
    end.

  (** diff.go:95-126; liquibase/diff.go:113-141 *)
  Fixpoint rename_tables (l : list (nat * (table * table))) (id : ident) : list CS * ident :=
    match l with
    | [] => ([], id)
    | (_, (nw, old)) :: l' =>
        let '(css, id1) := rename_cs (bump_major id) nw old in
        let '(css', id2) := rename_tables l' id1 in
        ((css ++ css')%list, id2)
    end.

  (** diff.go:128-140; liquibase/diff.go:143-160 *)
  Fixpoint create_tables (l : list table) (id : ident) : option (list CS * ident) :=
    match l with
    | [] => Some ([], id)
    | t :: l' =>
        match create_cs (bump_major id) t with
        | None => None
        | Some (css, id1) =>
            match create_tables l' id1 with
            | None => None
            | Some (css', id2) => Some ((css ++ css')%list, id2)
            end
        end
    end.

  Definition same_columns (a b : table) : bool := list_eqb column_eqb (t_cols a) (t_cols b).

  Definition diff_schemas (ord : list (nat * (table * table)) -> list (nat * (table * table)))
    (f : option (table -> bool)) (from to : schema) : option (list CS) :=
    let removed0 := ss_new (map t_name (s_tables from)) in
    match scan_tables f (s_tables from) (with_pos (s_tables to)) new_id removed0 with
    | None => None
    | Some (css1, id1, removed1, added) =>
        let '(renamed, removed2) :=
          find_renamed (tables_by_name (s_tables from)) same_columns added removed1 in
        let '(css2, id2) := drop_tables (s_tables from) (ss_slice removed2) id1 in
        let '(css3, id3) := rename_tables (ord renamed) id2 in
        match create_tables (not_renamed added renamed) id3 with
        | None => None
        | Some (css4, _) => Some (css1 ++ css2 ++ css3 ++ css4)%list
        end
    end.
End Skeleton.

(** ** The columns of one table: diff.go:162-201; liquibase/diff.go:182-221

    [diff_column id c old] is diffColumn. Result: change sets, id, removedColumnNameSet,
    addedColumns. *)
Section Columns.
  Context {CS : Type}.
  Variable diff_column : ident -> column -> column -> option (list CS * ident).

  Fixpoint scan_columns (old : list column) (cs : list (nat * column)) (id : ident) (removed : sset)
    : option (list CS * ident * sset * list (nat * column)) :=
    match cs with
    | [] => Some ([], id, removed, [])
    | (i, c) :: cs' =>
        match column_name_map old (c_name c) with
        | None =>
            match scan_columns old cs' id removed with
            | Some (css, id', r, added) => Some (css, id', r, (i, c) :: added)
            | None => None
            end
        | Some o =>
            match diff_column id c o with
            | None => None
            | Some (css, id1) =>
                match scan_columns old cs' id1 (ss_remove removed (c_name c)) with
                | Some (css', id', r, added) => Some ((css ++ css')%list, id', r, added)
                | None => None
                end
            end
        end
    end.
End Columns.
