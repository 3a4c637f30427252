(** What Hibernate reads from a generated entity (C112) *)
From Coq Require Import String Ascii List NArith Bool.
From Verif.Model Require Import GoString Octopus.
From Verif.Spec Require Import MappedSpec KotlinSpec.
Import ListNotations.
Local Open Scope string_scope.

(** ** JPA (Jakarta Persistence, 11.1: Column, Id, GeneratedValue, Table, UniqueConstraint), with Hibernate's names *)
Section Naming.
(** the naming strategy: the column for a property without a name of its own *)
Variable naming : string -> string.

Definition args_of (n : string) (l : list anno) : list arg :=
  match find (fun a => String.eqb (an_name a) n) l with Some a => an_args a | None => [] end.
Definition has_anno (n : string) (l : list anno) : bool := existsb (fun a => String.eqb (an_name a) n) l.
Definition own_name (p : param) : option string :=
  match arg_value "name" (args_of "Column" (kp_annos p)) with [Leaf (TText n)] => Some n | _ => None end.
Definition column_name (p : param) : string :=
  match own_name p with Some n => n | None => naming (kp_name p) end.
Definition required (p : param) : bool :=
  match arg_value "nullable" (args_of "Column" (kp_annos p)) with [Leaf (TWord w)] => String.eqb w "false" | _ => false end.
Definition column_in (p : param) : mapped :=
  mkMapped (column_name p) (has_anno "Id" (kp_annos p)) (has_anno "Id" (kp_annos p) || required p)
           (has_anno "GeneratedValue" (kp_annos p)).
(** a column in a constraint is found by its own name or else by the name of the property *)
Definition found (ps : list param) (n : string) : list string :=
  map column_name (filter (fun p => String.eqb n (match own_name p with Some m => m | None => kp_name p end)) ps).
Definition constraint_in (ps : list param) (a : anno) : list (option string * list string) :=
  match arg_value "uniqueConstraints" (an_args a) with
  | [Group _ [_; Group _ inner]] =>
      [(match arg_value "name" (arguments_in inner) with [Leaf (TText n)] => Some n | _ => None end,
        flat_map (found ps) (constraint_names a))]
  | _ => []
  end.
Definition mapping_of (d : decl) : option mapping :=
  match d with
  | DClass annos _ ps _ =>
      match arg_value "name" (args_of "Table" annos) with
      | [Leaf (TText t)] => Some (mkMapping t (map column_in ps)
          (flat_map (constraint_in ps) (filter (fun a => String.eqb (an_name a) "Table") annos)))
      | _ => None
      end
  | DInterface _ _ _ => None
  end.
End Naming.

(** the columns of the constraint of [t] can be found: the naming strategy turns their properties into their names, and no
    other column has such a name *)
Definition findable (lower_camel naming : string -> string) (t : table) : Prop := forall c, In c (t_cols t) -> c_uq c = true ->
  naming (property lower_camel c) = c_name c /\
  forall c', In c' (t_cols t) -> c_name c' = property lower_camel c \/ property lower_camel c' = property lower_camel c -> c' = c.
