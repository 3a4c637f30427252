(** What a StarUML data model says *)
From Coq Require Import String Ascii List NArith ZArith Bool.
From Verif.Model Require Import GoString Util Octopus Json Staruml.
From Verif.Spec Require Import Text XlsxSpec.
Import ListNotations.
Local Open Scope string_scope.

(** the elements of a project *)
Inductive in_tree : element -> element -> Prop :=
| it_root : forall e, in_tree e e
| it_owned : forall e x r, In (Some x) (e_owned r) -> in_tree e x -> in_tree e r
| it_column : forall e x r, In (Some x) (e_cols r) -> in_tree e x -> in_tree e r.

Definition no_null (root : element) : Prop :=
  forall e, in_tree e root -> ~ In None (e_owned e) /\ ~ In None (e_cols e).
(** the target of every reference exists and belongs to an existing element *)
Definition references_ok (root : element) : Prop :=
  forall c id, in_tree c root -> e_ref_to c = Some id ->
    (exists t, in_tree t root /\ e_id t = id) /\
    forall t, in_tree t root -> e_id t = id ->
      exists p q, e_parent t = Some p /\ in_tree q root /\ e_id q = p.

Definition of_type (typ : string) (l : list (option element)) : list element :=
  flat_map (fun x => match x with
                     | Some e => if string_dec (e_typ e) typ then [e] else []
                     | None => [] end) l.

(** a type in any spelling: a name, or letters and a size in parentheses *)
Definition named_type (k : column) : Prop :=
  (c_size k < 65536)%N /\ (c_scale k < 65536)%N /\
  (c_size k = 0%N /\ c_scale k = 0%N /\ ~ char_in "(" (c_type k) \/
   c_size k <> 0%N /\ c_type k <> "" /\ all_chars (fun x => is_letter x = true) (c_type k)).
(** the element's type text is what the column format of [k] is; its length, if given as a text, wins *)
Definition size_described (e : element) (c : column) : Prop :=
  forall k, named_type k -> e_type e = col_format k ->
    c_type c = c_type k /\ c_scale c = c_scale k /\
    (e_length e = JNull \/ e_length e = JStr "" -> c_size c = c_size k) /\
    (forall n, (0 < n < 65536)%N -> e_length e = JStr (itoa n) -> c_size c = n).
(** a length given as a number *)
Definition number_described (e : element) (c : column) : Prop :=
  forall n, (0 < n < 65536)%N -> e_length e = JNum (itoa n) -> c_size c = n.

Definition st_column_described (root e : element) (c : column) : Prop :=
  c_name c = e_name e /\ c_pk c = e_pk e /\ c_uq c = e_uq e /\ c_notnull c = negb (e_nullable e) /\
  c_autoinc c = false /\ c_default c = "" /\ c_onupdate c = "" /\ c_values c = [] /\
  (forall l d r, blank l -> blank r -> trimmed d -> e_doc e = l ++ d ++ r -> c_desc c = d) /\
  size_described e c /\
  match e_ref_to e, c_ref c with
  | None, None => True
  | Some id, Some r => exists t p, in_tree t root /\ e_id t = id /\ in_tree p root /\ e_parent t = Some (e_id p) /\
                                   r = mkRef (e_name p) (e_name t) ""
  | _, _ => False
  end.
Definition entity_described (root e : element) (t : table) : Prop :=
  t_name t = e_name e /\ t_desc t = "" /\ t_group t = "" /\ t_class t = "" /\ t_indices t = [] /\
  Forall2 (st_column_described root) (of_type "ERDColumn" (e_cols e)) (t_cols t).
