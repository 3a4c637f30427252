(** The null column option *)
From Coq Require Import String Ascii List NArith Bool Lia Sorting.Permutation.
From Verif.Model Require Import GoString Util Octopus Common Xlsx.
From Verif.Spec Require Import Text OctopusSpec XlsxSpec DiffSpec.
From Verif.Proofs Require Import StringLemmas ListLemmas XlsxText XlsxProofs.
Import ListNotations.
Local Open Scope string_scope.

(** a row of a sheet with a "nullable" column and its twin with a "not null" column *)
Definition twin (r r' : row) : Prop :=
  (forall i, i <> 4 -> cell r i = cell r' i) /\
  (cell r 2 = "table" \/ cell r 1 = "" \/ cell r 3 = "I" \/
   String.eqb (cell r 4) "" = negb (String.eqb (cell r' 4) "")).

Lemma read_rows_twin : forall rows rows' g k ts last, Forall2 twin rows rows' ->
  read_rows g false k rows ts last = read_rows g true k rows' ts last.
Proof.
  intros rows rows' g k ts last H. revert k ts last.
  induction H as [|r r' rows rows' [E C] H IH]; intros k ts last; auto.
  rewrite !read_rows_cons. rewrite <- (E 0), <- (E 1), <- (E 2), <- (E 3), <- (E 5), <- (E 6) by discriminate.
  destruct (String.eqb_spec (cell r 2) "table"); [destruct (String.eqb (cell r 0) ""); auto|].
  destruct last as [t|]; auto. destruct (String.eqb_spec (cell r 1) ""); auto.
  destruct (String.eqb_spec (cell r 3) "I"); auto.
  rewrite (read_column_cells false true r r'); auto.
  destruct C as [C|[C|[C|C]]]; try contradiction. exact C.
Qed.

Lemma twin_column : forall c, twin (column_row true c) (column_row false c).
Proof.
  intros c. split.
  - intros i H. destruct i as [|[|[|[|[|i]]]]]; try reflexivity. congruence.
  - right. right. right. unfold cell, get_cell_value, column_row. cbn [nth].
    destruct (c_notnull c); reflexivity.
Qed.

Lemma twin_same : forall r, cell r 2 = "table" \/ cell r 1 = "" \/ cell r 3 = "I" -> twin r r.
Proof. intros r H. split; auto. intuition. Qed.

Lemma twin_tables : forall g n ts i,
  Forall2 twin (tables_rows true g n i ts) (tables_rows false g n i ts).
Proof.
  induction ts as [|t ts IH]; intros i; cbn [tables_rows]; [constructor|].
  apply Forall2_app; [|apply IH]. destruct (String.eqb (t_group t) g); [|constructor].
  constructor; [apply twin_same; now left|]. repeat apply Forall2_app.
  - induction (t_cols t); cbn [map]; constructor; auto. apply twin_column.
  - induction (t_indices t) as [|x xs IHx]; cbn [flat_map]; [constructor|]. apply Forall2_app; auto.
    unfold index_rows. induction (ix_cols x); cbn [map]; constructor; auto.
    apply twin_same. right. now right.
  - destruct (Nat.ltb i (n - 1)); [|constructor]. constructor; [|constructor].
    apply twin_same. right. now left.
Qed.

Lemma group_rows_twin : forall s g g',
  read_group_sheet g' (group_rows true s g) = read_group_sheet g' (group_rows false s g).
Proof.
  intros s g g'. unfold group_rows, read_group_sheet.
  let b := eval vm_compute in (String.eqb (trim_space (get_cell_value (header_row true) 4)) "not null") in
    change (String.eqb (trim_space (get_cell_value (header_row true) 4)) "not null") with b.
  let b := eval vm_compute in (String.eqb (trim_space (get_cell_value (header_row false) 4)) "not null") in
    change (String.eqb (trim_space (get_cell_value (header_row false) 4)) "not null") with b.
  apply read_rows_twin, twin_tables.
Qed.

(** the two workbooks, sheet by sheet *)
Definition twin_sheet (sh sh' : sheet) : Prop :=
  fst sh = fst sh' /\ forall g, read_group_sheet g (snd sh) = read_group_sheet g (snd sh').

Lemma twin_names : forall wb wb', Forall2 twin_sheet wb wb' -> map fst wb = map fst wb'.
Proof. induction 1 as [|? ? ? ? [H _]]; simpl; congruence. Qed.

Lemma add_groups_twin : forall name_ok s gs wb wb', Forall2 twin_sheet wb wb' ->
  meta_sheet wb = meta_sheet wb' -> str_in "Meta" (map fst wb) = true ->
  match add_group_sheets name_ok true s gs wb, add_group_sheets name_ok false s gs wb' with
  | Some w, Some w' => Forall2 twin_sheet w w' /\ meta_sheet w = meta_sheet w'
  | None, None => True
  | _, _ => False
  end.
Proof.
  induction gs as [|g gs IH]; intros wb wb' H M I; cbn [add_group_sheets]; auto.
  unfold add_sheet. cbn [fst]. rewrite <- (twin_names _ _ H).
  destruct (str_in (sheet_name g) (map fst wb)) eqn:D; cbn [orb]; auto.
  destruct (name_ok (sheet_name g)); cbn [negb]; auto. apply IH.
  - apply Forall2_app; auto. constructor; [|constructor]. split; auto. intros g'. apply group_rows_twin.
  - unfold meta_sheet in *. rewrite !rev_app_distr. cbn [rev app alist_find].
    destruct (String.eqb_spec "Meta" (sheet_name g)) as [e|n]; auto.
    rewrite <- e in D. congruence.
  - rewrite map_app. apply str_in_iff. apply in_or_app. left. now apply str_in_iff.
Qed.

Lemma import_twin : forall ord wb wb', Forall2 twin_sheet wb wb' -> meta_sheet wb = meta_sheet wb' ->
  import_xlsx ord wb = import_xlsx ord wb'.
Proof.
  intros ord wb wb' H M. unfold import_xlsx. rewrite M.
  assert (G : group_names wb = group_names wb').
  { unfold group_names. generalize (@nil string). clear M. induction H as [|sh sh' wb wb' [E _] H IH]; intros l; auto.
    cbn [fold_left]. rewrite E. apply IH. }
  assert (S : forall g, read_group_sheet g (group_sheet wb g) = read_group_sheet g (group_sheet wb' g)).
  { intros g. unfold group_sheet.
    assert (R : Forall2 twin_sheet (rev wb) (rev wb')).
    { clear - H. induction H; simpl; [constructor|]. apply Forall2_app; auto. }
    clear - R. induction R as [|[n r] [n' r'] w w' [E T] R IH]; auto. cbn [fst snd] in *. subst n'.
    cbn [alist_find]. destruct (String.eqb g n); auto. }
  rewrite G. generalize (ord (group_names wb')). intros gs.
  assert (R : forall acc, read_sheets wb gs acc = read_sheets wb' gs acc).
  { induction gs as [|g gs IH]; intros acc; auto. cbn [read_sheets]. rewrite (S g).
    destruct (read_group_sheet g _); auto. }
  now rewrite R.
Qed.

Lemma null_option : forall name_ok s,
  (export_xlsx name_ok true s = None <-> export_xlsx name_ok false s = None) /\
  forall ord wb1 wb2 wb1' wb2',
    export_xlsx name_ok true s = Some wb1 -> export_xlsx name_ok false s = Some wb2 ->
    reads_as wb1 wb1' -> reads_as wb2 wb2' ->
    import_xlsx ord wb1' = import_xlsx ord wb2'.
Proof.
  intros name_ok s. unfold export_xlsx, add_sheet. cbn [map fst str_in existsb orb app].
  destruct (name_ok "Meta"); cbn [negb].
  2: { split; [tauto|]. intros; discriminate. }
  assert (T := add_groups_twin name_ok s (groups s) [("Meta", meta_rows s)] [("Meta", meta_rows s)]).
  cbv zeta in T. specialize (T ltac:(constructor; [split; auto|constructor]) eq_refl eq_refl).
  destruct (add_group_sheets name_ok true s (groups s) [("Meta", meta_rows s)]) as [w|],
           (add_group_sheets name_ok false s (groups s) [("Meta", meta_rows s)]) as [w'|]; try contradiction.
  - split; [split; discriminate|]. intros ord wb1 wb2 wb1' wb2' E1 E2 R1 R2.
    injection E1 as <-. injection E2 as <-.
    rewrite <- (import_same ord _ _ R1), <- (import_same ord _ _ R2). destruct T. now apply import_twin.
  - split; [tauto|]. intros; discriminate.
Qed.
