(** Models and the tables of the database (C112) *)
From Coq Require Import String Ascii List NArith Bool.
From Verif.Model Require Import GoString Octopus Mysql.
From Verif.Spec Require Import MysqlSpec ServerSpec CreatedSpec MappedSpec.
From Verif.Proofs Require Import MigrationProofs.
Import ListNotations.
Local Open Scope string_scope.

(** ** The tables of the database *)
Definition table_mapping (required : column -> bool) (uniques : list (option string * list string)) (t : table) : mapping :=
  mkMapping (t_name t) (map (fun c => mkMapped (c_name c) (c_pk c) (required c) (c_autoinc c)) (t_cols t)) uniques.

Lemma table_fits : forall suffix t b required uniques, described_table suffix t b -> NoDup (map c_name (t_cols t)) ->
  (forall c, In c (t_cols t) -> required c = c_notnull c || c_pk c) ->
  (filter c_uq (t_cols t) = [] /\ uniques = [] \/
   filter c_uq (t_cols t) <> [] /\ uniques <> [] /\ forall u, In u uniques -> (fst u = None \/ fst u = Some (t_name t ++ suffix)) /\
     same_members (snd u) (map c_name (filter c_uq (t_cols t)))) ->
  fits b (table_mapping required uniques t).
Proof.
  intros suffix t b required uniques [N [F [K [U _]]]] D R Q.
  assert (KU : forall n ks, In (KUniq n ks) (q_keys b) <-> filter c_uq (t_cols t) <> [] /\ n = (t_name t ++ suffix)%string /\ ks = map c_name (filter c_uq (t_cols t))).
  { intros n ks. rewrite U, in_app_iff. split.
    - intros [I|I].
      + destruct (filter c_uq (t_cols t)) as [|k l]; [destruct I|]. destruct I as [I|[]]. injection I as <- <-. split; [discriminate|auto].
      + apply in_map_iff in I. destruct I as [i [I _]]. discriminate.
    - intros [E [-> ->]]. left. destruct (filter c_uq (t_cols t)); [congruence|now left]. }
  constructor; cbn [table_mapping mg_table mg_columns mg_unique].
  - congruence.
  - assert (K' : forall c, In c (t_cols t) -> c_pk c = true <-> In (c_name c) (q_pk b)).
    { intros c I. rewrite (K (c_name c)). split; [intros P; exists c; auto|].
      intros [c' [I' [P E]]]. now rewrite <- (same_name_same_col _ _ _ D I' I E). }
    clear - F R K'. revert F R K'. generalize (q_cols b) as qs. induction (t_cols t) as [|c cs IH]; intros qs F R K; inversion F; subst; constructor.
    + destruct H1 as [cd [_ ->]]. constructor; cbn [mp_column mp_key mp_required mp_counts q_name q_notnull q_autoinc]; auto.
      * apply K. now left.
      * apply R. now left.
    + apply IH; auto; intros; [apply R|apply K]; now right.
  - intros n ks I. apply KU in I. destruct I as [E [-> ->]]. destruct Q as [[E' _]|[_ [NE Q]]]; [congruence|].
    destruct uniques as [|u us]; [congruence|]. exists u. split; [now left|]. apply Q. now left.
  - intros u I. destruct Q as [[_ ->]|[E [_ Q]]]; [destruct I|].
    exists (t_name t ++ suffix)%string, (map c_name (filter c_uq (t_cols t))). split; [apply KU; auto|]. now apply Q.
Qed.

Lemma bool_iff : forall a b, (a = true <-> b = true) -> a = b.
Proof. intros [] [] [H1 H2]; auto. symmetry. now apply H1. Qed.

(** NOT NULL is left out for auto-increment columns *)
Definition required_unless_auto (c : column) : bool := c_pk c || (c_notnull c && negb (c_autoinc c)).

Lemma required_same : forall c, (c_autoinc c = true -> c_notnull c = true -> c_pk c = true) -> required_unless_auto c = c_notnull c || c_pk c.
Proof. intros c A. unfold required_unless_auto. destruct (c_pk c), (c_notnull c), (c_autoinc c); auto. Qed.
