(** What SQLAlchemy reads from a generated class (C112) *)
From Coq Require Import String Ascii List NArith Bool.
From Verif.Model Require Import GoString.
From Verif.Spec Require Import MappedSpec SqlalchemySpec.
Import ListNotations.
Local Open Scope string_scope.

(** ** SQLAlchemy (docs.sqlalchemy.org: Declarative Mapping; Column) *)
Definition says (args : list (string * pexpr)) (k v : string) : bool :=
  existsb (fun a => String.eqb (fst a) k && match snd a with EName w => String.eqb w v | _ => false end) args.
(** the name: the first argument if it is a string, else the name of the attribute *)
Definition name_in (x : string) (args : list (string * pexpr)) : string :=
  match args with ("", EStr n) :: _ => n | _ => x end.
Definition column_in (m : member) : list (mapped * bool) :=
  match m with
  | MAssign x (ECall f args) =>
      if String.eqb f "Column" then
        [(mkMapped (name_in x args) (says args "primary_key" "True")
            (says args "primary_key" "True" || says args "nullable" "False") (says args "autoincrement" "True"),
          says args "unique" "True")]
      else []
  | _ => []
  end.
Definition table_in (m : member) : list string :=
  match m with MAssign x (EStr t) => if String.eqb x "__tablename__" then [t] else [] | _ => [] end.
(** Constraints belong to a table if they stand in [__table_args__]; other expressions in the class have no effect. *)
Definition constraints_in (m : member) : list (option string * list string) :=
  match m with
  | MAssign x (ECall f args) =>
      if String.eqb x "__table_args__" && String.eqb f "UniqueConstraint" then
        [(match find (fun a => String.eqb (fst a) "name") args with Some (_, EStr n) => Some n | _ => None end,
          flat_map (fun a => match a with ("", EStr c) => [c] | _ => [] end) args)]
      else []
  | _ => []
  end.
Definition mapping_of (b : stmt) : option mapping :=
  match b with
  | PClass _ _ body =>
      match flat_map table_in body with
      | [t] => let cs := flat_map column_in body in
               Some (mkMapping t (map fst cs)
                 (flat_map constraints_in body ++ map (fun c => (None, [mp_column (fst c)])) (filter snd cs))%list)
      | _ => None
      end
  | _ => None
  end.
