(** Model of /repo/format/staruml: staruml.go, importer.go. The project is the tree that json.Unmarshal
    delivers (importer.go:31-42); reading the file and the JSON text are not modelled. *)
From Coq Require Import String Ascii List NArith ZArith Bool.
From Verif.Model Require Import GoString Util Octopus Common Json Liquibase.
Import ListNotations.
Local Open Scope string_scope.

(** staruml.go:7-26. A reference is represented by its $ref; Head, End1, End2 and Reference are never
    read. Length is any JSON value, null if absent. Elements of the lists may be nil. *)
Inductive element := Elem
  (typ id : string) (parent : option string) (name : string) (length : json) (type : string)
  (pk uq nullable : bool) (doc : string) (ref_to : option string)
  (owned cols : list (option element)).

Definition e_typ e := let '(Elem x _ _ _ _ _ _ _ _ _ _ _ _) := e in x.
Definition e_id e := let '(Elem _ x _ _ _ _ _ _ _ _ _ _ _) := e in x.
Definition e_parent e := let '(Elem _ _ x _ _ _ _ _ _ _ _ _ _) := e in x.
Definition e_name e := let '(Elem _ _ _ x _ _ _ _ _ _ _ _ _) := e in x.
Definition e_length e := let '(Elem _ _ _ _ x _ _ _ _ _ _ _ _) := e in x.
Definition e_type e := let '(Elem _ _ _ _ _ x _ _ _ _ _ _ _) := e in x.
Definition e_pk e := let '(Elem _ _ _ _ _ _ x _ _ _ _ _ _) := e in x.
Definition e_uq e := let '(Elem _ _ _ _ _ _ _ x _ _ _ _ _) := e in x.
Definition e_nullable e := let '(Elem _ _ _ _ _ _ _ _ x _ _ _ _) := e in x.
Definition e_doc e := let '(Elem _ _ _ _ _ _ _ _ _ x _ _ _) := e in x.
Definition e_ref_to e := let '(Elem _ _ _ _ _ _ _ _ _ _ x _ _) := e in x.
Definition e_owned e := let '(Elem _ _ _ _ _ _ _ _ _ _ _ x _) := e in x.
Definition e_cols e := let '(Elem _ _ _ _ _ _ _ _ _ _ _ _ x) := e in x.

(** importer.go:120-134 walkElement, walkElements. A nil element is dereferenced. *)
Fixpoint walk_element (e : element) (m : list (string * element)) : res (list (string * element)) :=
  match e with
  | Elem _ id _ _ _ _ _ _ _ _ _ owned cols =>
      let walks := fix walks (l : list (option element)) (m : list (string * element)) :=
        match l with
        | [] => Ok m
        | None :: _ => Panic
        | Some x :: l' => match walk_element x m with
                          | Panic => Panic
                          | Ok m' => walks l' m'
                          end
        end in
      match walks owned ((id, e) :: m) with
      | Panic => Panic
      | Ok m' => walks cols m'
      end
  end.

(** importer.go:108-118 findByType *)
Fixpoint find_by_type (typ : string) (l : list (option element)) : res (list element) :=
  match l with
  | [] => Ok []
  | None :: _ => Panic
  | Some x :: l' =>
      match find_by_type typ l' with
      | Panic => Panic
      | Ok r => Ok (if String.eqb (e_typ x) typ then x :: r else r)
      end
  end.

(** util/string.go:11-24 ToInt with default 0. A JSON number is a float64, which falls into the default
    case. *)
Definition to_int (v : json) : Z :=
  match v with
  | JStr s => match go_atoi s with Some z => z | None => 0 end
  | _ => 0
  end%Z.

(** importer.go:63-90, one column. A missing target column or table and a missing parent are
    dereferenced. *)
Definition st_column (m : list (string * element)) (e : element) : res column :=
  let '(ty, col_size, scale) := parse_type (e_type e) in
  let size := Z.to_N (to_int (e_length e) mod 65536) in
  let size := if N.eqb size 0 then col_size else size in
  let mk r := mkCol (e_name e) ty (trim_space (e_doc e)) size scale (negb (e_nullable e)) (e_pk e) (e_uq e) false "" "" [] r in
  match e_ref_to e with
  | None => Ok (mk None)
  | Some id =>
      match alist_find m id with
      | None => Panic
      | Some target =>
          match e_parent target with
          | None => Panic
          | Some p =>
              match alist_find m p with
              | None => Panic
              | Some t => Ok (mk (Some (mkRef (e_name t) (e_name target) "")))
              end
          end
      end
  end.

(** importer.go:59-99, one entity *)
Definition st_table (m : list (string * element)) (e : element) : res table :=
  match find_by_type "ERDColumn" (e_cols e) with
  | Panic => Panic
  | Ok cols => match res_map (st_column m) cols with
               | Panic => Panic
               | Ok cs => Ok (mkTable (e_name e) cs "" "" "" [])
               end
  end.

(** importer.go:49-106 toSchema; [Ok None] is the error "ERDDataModel not found" *)
Definition st_schema (m : list (string * element)) (root : element) : res (option schema) :=
  match find_by_type "ERDDataModel" (e_owned root) with
  | Panic => Panic
  | Ok [] => Ok None
  | Ok (model :: _) =>
      match find_by_type "ERDEntity" (e_owned model) with
      | Panic => Panic
      | Ok es => match res_map (st_table m) es with
                 | Panic => Panic
                 | Ok ts => Ok (Some (mkSchema "" "" (e_name root) ts))
                 end
      end
  end.

(** importer.go:31-47 ImportJson, after decoding *)
Definition import_staruml (root : element) : res (option schema) :=
  match walk_element root [] with
  | Panic => Panic
  | Ok m => st_schema m root
  end.
