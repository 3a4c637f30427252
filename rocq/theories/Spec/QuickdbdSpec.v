(** A reader for QuickDBD texts (quickdatabasediagrams.com) and what the text should say *)
From Coq Require Import String Ascii List NArith Bool.
From Verif.Model Require Import GoString Octopus.
From Verif.Spec Require Import Text Reading OctopusSpec DbmlSpec.
Import ListNotations.
Local Open Scope string_scope.

Record qcolumn := mkQCol {
  q_name : string; q_type : string; q_pk : bool; q_unique : bool; q_autoinc : bool; q_nullable : bool;
  q_default : option string; q_fk : option (relation * string * string); q_note : option string
}.
Record qtable := mkQTable { q_tname : string; q_tnote : option string; q_cols : list qcolumn }.

(** a text up to the next space, if [p] comes first *)
Definition accept_value (p s : string) : option string * string :=
  match strip p s with
  | Some r => let '(v, r') := until_space r in (Some v, r')
  | None => (None, s)
  end.
(** " FK rel table.column" *)
Definition accept_fk (s : string) : option (option (relation * string * string) * string) :=
  match strip " FK " s with
  | None => Some (None, s)
  | Some r =>
      let '(rel, r1) := until_space r in
      match strip " " r1 with
      | None => None
      | Some r2 =>
          let '(target, r3) := until_space r2 in
          match cut "." target with
          | None => None
          | Some (t, c) =>
              if String.eqb rel ">-" then Some (Some (Many_to_one, t, c), r3)
              else if String.eqb rel "-<" then Some (Some (One_to_many, t, c), r3)
              else if String.eqb rel "-" then Some (Some (One_to_one, t, c), r3)
              else None
          end
      end
  end.
Definition read_note (s : string) : option (option string) :=
  match s with
  | "" => Some None
  | _ => match strip " # " s with Some d => Some (Some d) | None => None end
  end.

Definition read_qcolumn (s : string) : option qcolumn :=
  match cut " " s with
  | None => None
  | Some (n, s) =>
      let '(ty, s) := until_space s in
      let '(pk, s) := accept " PK" s in
      let '(uq, s) := accept " UNIQUE" s in
      let '(ai, s) := accept " AUTOINCREMENT" s in
      let '(nu, s) := accept " NULLABLE" s in
      let '(df, s) := accept_value " default=" s in
      match accept_fk s with
      | None => None
      | Some (fk, s) =>
          match read_note s with
          | None => None
          | Some note => Some (mkQCol n ty pk uq ai nu df fk note)
          end
      end
  end.

Definition read_title (s : string) : option (string * option string) :=
  let '(n, rest) := until_space s in
  match read_note rest with Some d => Some (n, d) | None => None end.
(** the rule under a title: one dash per byte of the name *)
Definition underlines (n s : string) : bool :=
  Nat.eqb (String.length n) (String.length s) && string_forallb (Ascii.eqb "-") s.

Inductive qstate := QTop | QTitle (n : string) (d : option string) | QCols (n : string) (d : option string) (cs : list qcolumn).
Fixpoint read_qlines (st : qstate) (ls : list string) : option (list qtable) :=
  match ls with
  | [] => match st with QTop => Some [] | _ => None end
  | s :: ls' =>
      match st with
      | QTop => match read_title s with Some (n, d) => read_qlines (QTitle n d) ls' | None => None end
      | QTitle n d => if underlines n s then read_qlines (QCols n d []) ls' else None
      | QCols n d cs =>
          if String.eqb s "" then
            match read_qlines QTop ls' with Some ts => Some (mkQTable n d cs :: ts) | None => None end
          else match read_qcolumn s with
               | Some c => read_qlines (QCols n d (cs ++ [c])%list) ls'
               | None => None
               end
      end
  end.
Definition read_qdbd (s : string) : option (list qtable) :=
  match s with "" => Some [] | _ => read_qlines QTop (lines s) end.

(** ** What it should say *)

Definition if_set (s : string) : option string := match s with "" => None | _ => Some s end.
Definition qcolumn_of (c : column) : qcolumn :=
  mkQCol (c_name c) (c_type c) (c_pk c) (c_uq c) (c_autoinc c) (negb (c_notnull c)) (if_set (c_default c))
    match c_ref c with Some r => Some (relation_of r, ref_table r, ref_column r) | None => None end
    (if_set (c_desc c)).
Definition qtable_of (t : table) : qtable :=
  mkQTable (t_name t) (if_set (t_desc t)) (map qcolumn_of (t_cols t)).

Definition qcolumn_ok (c : column) : Prop :=
  word (c_name c) /\ word (c_type c) /\
  ~ char_in " " (c_default c) /\ one_line (c_default c) /\ one_line (c_desc c) /\
  match c_ref c with Some r => word (ref_table r) /\ word (ref_column r) | None => True end.
Definition qdbd_ok (s : schema) : Prop :=
  (forall t, In t (s_tables s) -> word (t_name t) /\ one_line (t_desc t)) /\
  (forall c, In c (columns_of s) -> qcolumn_ok c).
