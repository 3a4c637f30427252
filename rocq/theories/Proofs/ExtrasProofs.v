(** Members that are not described, and the case of the names of the others, do not matter *)
From Coq Require Import String Ascii List NArith Bool.
From Verif.Model Require Import GoString Octopus Json JsonText Cli.
From Verif.Spec Require Import StabilitySpec ExtrasSpec.
From Verif.Proofs Require Import StringLemmas StabilityProofs.
Import ListNotations.
Local Open Scope string_scope.

Definition kept_list (names : list string) (inner : string -> json -> json) (l : list (string * json)) :=
  flat_map (fun kv => let k := to_lower (fst kv) in if existsb (String.eqb k) names then [(k, inner k (snd kv))] else []) l.

Lemma members_map : forall A (f : A -> string -> json -> option A) (h : string -> json -> json) l a,
  dec_members f a (map (fun kv => let '(k, v) := kv in (k, h k v)) l) = dec_members (fun a k v => f a k (h k v)) a l.
Proof.
  intros A f h l. induction l as [|[k v] l IH]; intros a; [reflexivity|]. cbn [map dec_members].
  destruct (f a k (h k v)) as [b|]; [apply IH | reflexivity].
Qed.
Lemma members_ext : forall A (f g : A -> string -> json -> option A) l a, (forall a k v, f a k v = g a k v) ->
  dec_members f a l = dec_members g a l.
Proof.
  intros A f g l a H. revert a. induction l as [|[k v] l IH]; intros a; [reflexivity|]. cbn [dec_members]. rewrite H.
  destruct (g a k v); [apply IH | reflexivity].
Qed.
Lemma members_kept : forall A (f : A -> string -> json -> option A) names inner l a,
  (forall a k v, existsb (String.eqb (to_lower k)) names = false -> f a k v = Some a) ->
  (forall a k v, existsb (String.eqb (to_lower k)) names = true -> f a (to_lower k) (inner (to_lower k) v) = f a k v) ->
  dec_members f a (kept_list names inner l) = dec_members f a l.
Proof.
  intros A f names inner l a U K. revert a. induction l as [|[k v] l IH]; intros a; [reflexivity|].
  unfold kept_list in *. cbn [flat_map dec_members fst snd]. cbv zeta.
  destruct (existsb (String.eqb (to_lower k)) names) eqn:E.
  - cbn [app dec_members]. rewrite (K a k v E). destruct (f a k v); [apply IH | reflexivity].
  - cbn [app]. rewrite (U a k v E). apply IH.
Qed.
Lemma key_lower : forall f k, key_is f (to_lower k) = key_is f k.
Proof. intros f k. unfold key_is. rewrite to_lower_idem. reflexivity. Qed.
Lemma key_eq : forall f k, to_lower f = f -> key_is f k = String.eqb (to_lower k) f.
Proof. intros f k H. unfold key_is. rewrite H. apply String.eqb_sym. Qed.

Ltac no_name H := cbn [existsb] in H; repeat (apply orb_false_iff in H; let A := fresh "A" in destruct H as [A H]).

(** *** Parts *)
Lemma ref_kept : forall j, dec_ref (essential_ref j) = dec_ref j.
Proof.
  intros j. destruct j as [| | | | |l]; try reflexivity. unfold essential_ref, kept. cbn [dec_ref dec_obj]. f_equal.
  apply (members_kept _ ref_member ["table"; "column"; "relationship"] nothing).
  - intros a k v H. no_name H. unfold ref_member. rewrite !key_eq by reflexivity. rewrite A, A0, A1. reflexivity.
  - intros a k v _. unfold ref_member, nothing. rewrite !key_lower. reflexivity.
Qed.
Lemma ref_null : forall j, is_null (essential_ref j) = is_null j.
Proof. intros []; reflexivity. Qed.

Lemma column_kept : forall j, dec_column (essential_column j) = dec_column j.
Proof.
  intros j. destruct j as [| | | | |l]; try reflexivity. unfold essential_column, kept, dec_column. cbn [dec_obj].
  match goal with |- dec_members _ _ (flat_map _ l) = _ =>
    apply (members_kept _ col_member ["name"; "type"; "desc"; "size"; "scale"; "notnull"; "pk"; "unique"; "autoinc"; "default"; "onupdate"; "values"; "ref"]
             (fun k v => if String.eqb k "ref" then essential_ref v else v)) end.
  - intros a k v H. no_name H. destruct a. unfold col_member. rewrite !key_eq by reflexivity.
    rewrite A, A0, A1, A2, A3, A4, A5, A6, A7, A8, A9, A10, A11. reflexivity.
  - intros a k v _. destruct a. unfold col_member. rewrite !key_lower. destruct (String.eqb (to_lower k) "ref") eqn:R; [|reflexivity].
    rewrite ref_kept. apply String.eqb_eq in R. rewrite !key_eq by reflexivity. rewrite R. reflexivity.
Qed.
Lemma index_kept : forall j, dec_index (essential_index j) = dec_index j.
Proof.
  intros j. destruct j as [| | | | |l]; try reflexivity. unfold essential_index, kept, dec_index. cbn [dec_obj].
  apply (members_kept _ idx_member ["name"; "columns"] nothing).
  - intros a k v H. no_name H. unfold idx_member. rewrite !key_eq by reflexivity. rewrite A, A0. reflexivity.
  - intros a k v _. unfold idx_member, nothing. rewrite !key_lower. reflexivity.
Qed.
Lemma column_null : forall j, is_null (essential_column j) = is_null j.
Proof. intros []; reflexivity. Qed.
Lemma index_null : forall j, is_null (essential_index j) = is_null j.
Proof. intros []; reflexivity. Qed.
Lemma table_null : forall j, is_null (essential_table j) = is_null j.
Proof. intros []; reflexivity. Qed.

(** lists whose null elements are left out *)
Lemma list_kept : forall A (d : json -> option A) (p e : json -> json), (forall j, is_null (e j) = is_null j) ->
  (forall j, d (p (e j)) = d (p j)) ->
  forall j, dec_arr d (drop_nulls p (each e j)) = dec_arr d (drop_nulls p j).
Proof.
  intros A d p e N H j. destruct j as [| | | |l|]; try reflexivity. cbn [each drop_nulls dec_arr].
  induction l as [|x l IH]; [reflexivity|]. cbn [map filter]. rewrite N. destruct (is_null x); cbn [negb]; [exact IH|].
  cbn [map dec_list]. rewrite H. destruct (d (p x)); [|reflexivity]. rewrite IH. reflexivity.
Qed.

(** the members of a table, with null elements left out *)
Definition inner_table (t : json) : json := map_member "indices" (drop_nulls same) (map_member "columns" (drop_nulls same) t).
Definition table_values (k : string) (v : json) : json :=
  (fun k v => if key_is "indices" k then drop_nulls same v else v) k
    ((fun k v => if key_is "columns" k then drop_nulls same v else v) k v).
Lemma inner_members : forall l, dec_table (inner_table (JObj l)) = dec_members (fun t k v => tbl_member t k (table_values k v)) (mkTable "" [] "" "" "" []) l.
Proof.
  intros l. unfold inner_table, map_member, dec_table. cbn [dec_obj].
  rewrite (members_map _ tbl_member (fun k v => if key_is "indices" k then drop_nulls same v else v)).
  rewrite (members_map _ _ (fun k v => if key_is "columns" k then drop_nulls same v else v)). reflexivity.
Qed.
Lemma table_kept : forall j, dec_table (inner_table (essential_table j)) = dec_table (inner_table j).
Proof.
  intros j. destruct j as [| | | | |l]; try reflexivity. unfold essential_table, kept. rewrite !inner_members.
  apply (members_kept _ (fun t k v => tbl_member t k (table_values k v)) ["name"; "columns"; "desc"; "group"; "classname"; "indices"]
           (fun k v => if String.eqb k "columns" then each essential_column v else if String.eqb k "indices" then each essential_index v else v)).
  - intros a k v H. no_name H. destruct a. unfold tbl_member.
    rewrite (key_eq "name"), (key_eq "columns"), (key_eq "desc"), (key_eq "group"), (key_eq "indices") by reflexivity.
    change (key_is "className" k) with (key_is "classname" k). rewrite (key_eq "classname") by reflexivity.
    rewrite A, A0, A1, A2, A3, A4. reflexivity.
  - intros a k v _. destruct a. unfold tbl_member, table_values. rewrite !key_lower.
    change (key_is "className" k) with (key_is "classname" k). rewrite !key_eq by reflexivity.
    destruct (String.eqb (to_lower k) "columns") eqn:C.
    + apply String.eqb_eq in C. rewrite C. cbn [String.eqb Ascii.eqb Bool.eqb].
      rewrite (list_kept _ dec_column same essential_column column_null column_kept). reflexivity.
    + destruct (String.eqb (to_lower k) "indices") eqn:I; [|reflexivity].
      apply String.eqb_eq in I. rewrite I. cbn [String.eqb Ascii.eqb Bool.eqb].
      rewrite (list_kept _ dec_index same essential_index index_null index_kept). reflexivity.
Qed.

Lemma schema_kept : forall j, from_json (without_nulls (essential j)) = from_json (without_nulls j).
Proof.
  intros j. destruct j as [| | | | |l]; try reflexivity. unfold essential, kept, without_nulls, map_member. cbn [from_json dec_obj].
  change (fun t => map_member "indices" (drop_nulls same) (map_member "columns" (drop_nulls same) t)) with inner_table.
  rewrite !(members_map _ sch_member (fun k v => if key_is "tables" k then drop_nulls inner_table v else v)).
  apply (members_kept _ (fun s k v => sch_member s k (if key_is "tables" k then drop_nulls inner_table v else v)) ["author"; "name"; "version"; "tables"]
           (fun k v => if String.eqb k "tables" then each essential_table v else v)).
  - intros a k v H. no_name H. destruct a. unfold sch_member. rewrite !key_eq by reflexivity. rewrite A, A0, A1, A2. reflexivity.
  - intros a k v _. destruct a. unfold sch_member. rewrite !key_lower. rewrite !key_eq by reflexivity.
    destruct (String.eqb (to_lower k) "tables") eqn:T; [|reflexivity]. apply String.eqb_eq in T. rewrite T. cbn [String.eqb Ascii.eqb Bool.eqb].
    rewrite (list_kept _ dec_table inner_table essential_table table_null table_kept). reflexivity.
Qed.

(** *** Null elements *)
Lemma last_kept : forall name (p : json -> bool) names inner, to_lower name = name -> In name names -> (forall v, p (inner name v) = p v) ->
  forall j, last_member name p (kept names inner j) = last_member name p j.
Proof.
  intros name p names inner L I P j. destruct j as [| | | | |l]; try reflexivity. unfold kept, last_member.
  generalize false. induction l as [|[k v] l IH]; intros b; [reflexivity|]. cbn [flat_map fold_left fst snd]. cbv zeta.
  rewrite (key_eq name k L). destruct (existsb (String.eqb (to_lower k)) names) eqn:E.
  - cbn [app fold_left]. rewrite key_lower, (key_eq name k L). destruct (String.eqb (to_lower k) name) eqn:N; [|apply IH].
    apply String.eqb_eq in N. rewrite N, P. apply IH.
  - cbn [app]. destruct (String.eqb (to_lower k) name) eqn:N; [|apply IH].
    exfalso. apply String.eqb_eq in N. assert (X : existsb (String.eqb (to_lower k)) names = true).
    { apply existsb_exists. exists name. split; [exact I | apply String.eqb_eq; exact N]. }
    congruence.
Qed.
Lemma some_each : forall (p : json -> bool) e, (forall j, p (e j) = p j) -> forall j, some_element p (each e j) = some_element p j.
Proof.
  intros p e H j. destruct j as [| | | |l|]; try reflexivity. cbn [each some_element]. induction l as [|x l IH]; [reflexivity|].
  cbn [map existsb]. rewrite H, IH. reflexivity.
Qed.
Lemma nulls_kept : forall j, has_null_table (essential j) = has_null_table j /\ has_null_column (essential j) = has_null_column j /\
  has_null_index (essential j) = has_null_index j.
Proof.
  intros j. unfold has_null_table, has_null_column, has_null_index, essential.
  split; [|split]; (apply last_kept; [reflexivity | cbn; tauto|]); intros v; cbn [String.eqb Ascii.eqb Bool.eqb]; apply some_each.
  - exact table_null.
  - intros t. apply last_kept; [reflexivity | cbn; tauto|]. intros c. cbn [String.eqb Ascii.eqb Bool.eqb]. apply some_each. exact column_null.
  - intros t. apply last_kept; [reflexivity | cbn; tauto|]. intros c. cbn [String.eqb Ascii.eqb Bool.eqb]. apply some_each. exact index_null.
Qed.

Lemma essence_loads : forall w fs1 fs2 name, same_essence (fs1 name) (fs2 name) -> load_file w fs1 name = load_file w fs2 name.
Proof.
  intros w fs1 fs2 name [E | (x & y & j & k & X & Y & RX & RY & E)]; unfold load_file.
  - rewrite E. reflexivity.
  - rewrite X, Y, RX, RY. rewrite <- (schema_kept j), <- (schema_kept k), E.
    destruct (nulls_kept j) as (<- & <- & <-). destruct (nulls_kept k) as (<- & <- & <-). rewrite E. reflexivity.
Qed.
Lemma essence_runs : forall w fs1 fs2 c v, reads_schemas c -> (forall name, same_essence (fs1 name) (fs2 name)) -> run w fs1 c v = run w fs2 c v.
Proof. intros w fs1 fs2 c v R H. apply run_loads; [exact R|]. intros name. apply essence_loads, H. Qed.
