(** What GORM reads from a generated struct (C112) *)
From Coq Require Import String Ascii List NArith Bool.
From Verif.Model Require Import GoString.
From Verif.Spec Require Import Text Reading MappedSpec GormSpec.
Import ListNotations.
Local Open Scope string_scope.

(** ** GORM (v1.gorm.io: Declaring Models). Fields with a foreign key are associations, not columns. *)
Section Naming.
(** the naming strategy: the column for a field without a name of its own *)
Variable naming : string -> string.

Definition tag_value (key : string) (tags : list string) : list string :=
  flat_map (fun x => match strip (key ++ ":") x with Some v => [v] | None => [] end) tags.
Definition has_tag (x : string) (f : gofield) : bool := existsb (String.eqb x) (snd f).
Definition is_column (f : gofield) : bool := match tag_value "foreignKey" (snd f) with [] => true | _ => false end.
Definition column_name (f : gofield) : string :=
  match tag_value "column" (snd f) with n :: _ => n | [] => naming (fst (fst f)) end.
Definition column_in (f : gofield) : mapped :=
  mkMapped (column_name f) (has_tag "primary_key" f) (has_tag "primary_key" f || has_tag "not null" f) (has_tag "auto_increment" f).
(** fields with the same index name share one index *)
Definition constraints_in (fs : list gofield) : list (option string * list string) :=
  (map (fun f => (None, [column_name f])) (filter (has_tag "unique") fs) ++
   map (fun n => (Some n, map column_name (filter (has_tag ("unique_index:" ++ n)) fs)))
       (flat_map (fun f => tag_value "unique_index" (snd f)) fs))%list.
(** a struct without embedded structs *)
Definition mapping_of (d : go_decl) : option mapping :=
  match gd_embedded d with
  | [] => let fs := filter is_column (gd_fields d) in Some (mkMapping (gd_table d) (map column_in fs) (constraints_in fs))
  | _ => None
  end.
End Naming.
