(** Reading back a written workbook *)
From Coq Require Import String Ascii List NArith Bool Lia Sorting.Permutation.
From Verif.Model Require Import GoString Util Octopus Common Xlsx.
From Verif.Spec Require Import Text OctopusSpec XlsxSpec DiffSpec.
From Verif.Proofs Require Import StringLemmas ListLemmas TypeProofs OctopusProofs XlsxText.
Import ListNotations.
Local Open Scope string_scope.

Definition cell (r : row) (i : nat) : string := trim_space (get_cell_value r i).
Definition opt_list {A} (o : option A) : list A := match o with Some x => [x] | None => [] end.

(** ** One row *)

Lemma read_rows_nil : forall g nn k ts last,
  read_rows g nn k [] ts last = inl (ts ++ opt_list last)%list.
Proof. reflexivity. Qed.

Lemma read_rows_cons : forall g nn k r rows ts last,
  read_rows g nn k (r :: rows) ts last =
  if String.eqb (cell r 2) "table" then
    if String.eqb (cell r 0) "" then inr k
    else read_rows g nn (S k) rows (ts ++ opt_list last)%list
           (Some (mkTable (cell r 0) [] (cell r 6) g (attr_get (parse_attributes (cell r 5)) "class") []))
  else match last with
       | None => read_rows g nn (S k) rows ts last
       | Some t =>
           if String.eqb (cell r 1) "" then read_rows g nn (S k) rows ts last
           else if String.eqb (cell r 3) "I"
           then read_rows g nn (S k) rows ts (Some (add_index_column t (cell r 0) (cell r 1)))
           else read_rows g nn (S k) rows ts (Some (add_column t (read_column nn r)))
       end.
Proof. reflexivity. Qed.

Lemma read_column_cells : forall (nn nn' : bool) r r',
  (forall i, i <> 4 -> cell r i = cell r' i) ->
  (if nn then negb (String.eqb (cell r 4) "") else String.eqb (cell r 4) "") =
  (if nn' then negb (String.eqb (cell r' 4) "") else String.eqb (cell r' 4) "") ->
  read_column nn r = read_column nn' r'.
Proof.
  intros nn nn' r r' H H4. unfold read_column. fold (cell r 0) (cell r 1) (cell r 2) (cell r 3) (cell r 4) (cell r 5) (cell r 6).
  fold (cell r' 0) (cell r' 1) (cell r' 2) (cell r' 3) (cell r' 4) (cell r' 5) (cell r' 6).
  rewrite <- !(H 0), <- !(H 1), <- !(H 2), <- !(H 3), <- !(H 5), <- !(H 6) by discriminate.
  rewrite H4. reflexivity.
Qed.

(** ** What is read does not depend on padding *)

Lemma cell_blank : forall r i, (forall j, nth j r "" = "") -> cell r i = "".
Proof. intros r i H. unfold cell, get_cell_value. now rewrite H. Qed.

Lemma read_rows_blank : forall rows g nn k ts last,
  (forall i j, nth j (nth i rows []) "" = "") ->
  read_rows g nn k rows ts last = inl (ts ++ opt_list last)%list.
Proof.
  induction rows as [|r rows IH]; intros g nn k ts last H; auto.
  rewrite read_rows_cons. rewrite !(cell_blank r) by exact (H 0).
  cbn [String.eqb Ascii.eqb]. destruct last; apply IH; intros i; exact (H (S i)).
Qed.

Lemma same_sheet_tail : forall r r' rows rows',
  same_sheet (r :: rows) (r' :: rows') -> same_sheet rows rows'.
Proof. intros r r' rows rows' H i j. exact (H (S i) j). Qed.

Lemma same_sheet_head : forall r r' rows rows',
  same_sheet (r :: rows) (r' :: rows') -> forall i, cell r i = cell r' i.
Proof. intros r r' rows rows' H i. unfold cell, get_cell_value. f_equal. exact (H 0 i). Qed.

Lemma same_sheet_nil_l : forall rows, same_sheet [] rows -> forall i j, nth j (nth i rows []) "" = "".
Proof. intros rows H i j. rewrite <- (H i j). destruct i, j; reflexivity. Qed.

Lemma read_rows_same : forall rows rows' g nn k ts last,
  same_sheet rows rows' -> read_rows g nn k rows ts last = read_rows g nn k rows' ts last.
Proof.
  induction rows as [|r rows IH]; intros rows' g nn k ts last H.
  - symmetry. rewrite read_rows_blank; auto. now apply same_sheet_nil_l.
  - destruct rows' as [|r' rows'].
    + apply read_rows_blank. apply same_sheet_nil_l. intros i j. symmetry. apply H.
    + assert (C := same_sheet_head _ _ _ _ H). assert (T := same_sheet_tail _ _ _ _ H).
      rewrite !read_rows_cons. rewrite <- !C.
      rewrite (read_column_cells nn nn r r') by (intros; rewrite ?C; auto).
      rewrite !(IH rows' g nn (S k) _ _ T).
      destruct last as [t|]; [|reflexivity]. rewrite !(IH rows' g nn (S k) _ _ T). reflexivity.
Qed.

Lemma read_group_same : forall g rows rows', same_sheet rows rows' ->
  read_group_sheet g rows = read_group_sheet g rows'.
Proof.
  intros g rows rows' H. destruct rows as [|h rows], rows' as [|h' rows']; auto.
  - cbn [read_group_sheet]. rewrite read_rows_blank; auto.
    intros i j. exact (same_sheet_nil_l _ H (S i) j).
  - cbn [read_group_sheet]. rewrite read_rows_blank; auto.
    intros i j. transitivity (nth j (nth (S i) (@nil row) []) ""); [exact (H (S i) j)|]. destruct j; reflexivity.
  - cbn [read_group_sheet]. fold (cell h 4) (cell h' 4).
    rewrite <- (same_sheet_head _ _ _ _ H). apply read_rows_same. exact (same_sheet_tail _ _ _ _ H).
Qed.

(** the meta sheet *)
Lemma read_meta_fold : forall rows rows' m m' k, k <> "" ->
  same_sheet rows rows' -> alist_find m k = alist_find m' k ->
  let f := (fun m r => match r with [] => m | x :: _ => (x, get_cell_value r 1) :: m end) in
  alist_find (fold_left f rows m) k = alist_find (fold_left f rows' m') k.
Proof.
  intros rows rows' m m' k N. cbv zeta.
  assert (B : forall rows (m : list (string * string)), (forall i j, nth j (nth i rows []) "" = "") ->
    alist_find (fold_left (fun m r => match r with [] => m | x :: _ => (x, get_cell_value r 1) :: m end) rows m) k
    = alist_find m k).
  { clear - N. induction rows as [|r rows IH]; intros m H; auto. cbn [fold_left].
    rewrite IH by (intros i; exact (H (S i))).
    destruct r as [|x r]; auto. assert (x = "") by exact (H 0 0). subst x. cbn [alist_find].
    destruct (String.eqb_spec k ""); congruence. }
  revert rows' m m'. induction rows as [|r rows IH]; intros rows' m m' H E.
  - symmetry. rewrite B; auto. now apply same_sheet_nil_l.
  - destruct rows' as [|r' rows'].
    + rewrite B; auto. apply same_sheet_nil_l. intros i j. symmetry. apply H.
    + cbn [fold_left]. apply IH; [exact (same_sheet_tail _ _ _ _ H)|].
      assert (H0 := H 0 0). assert (H1 := H 0 1). cbn [nth] in H0, H1.
      destruct r as [|x r], r' as [|x' r']; auto.
      * cbn in H0, H1. subst x'. cbn [alist_find]. destruct (String.eqb_spec k ""); congruence.
      * cbn in H0, H1. subst x. cbn [alist_find]. destruct (String.eqb_spec k ""); congruence.
      * cbn [nth] in H0. subst x'. cbn [alist_find get_cell_value nth] in *. unfold get_cell_value. cbn [nth].
        rewrite H1. now rewrite E.
Qed.

Lemma read_meta_same : forall rows rows' k, k <> "" -> same_sheet rows rows' ->
  attr_get (read_meta_sheet rows) k = attr_get (read_meta_sheet rows') k.
Proof.
  intros rows rows' k N H. unfold attr_get, read_meta_sheet.
  now rewrite (read_meta_fold rows rows' [] [] k N H eq_refl).
Qed.

Lemma reads_as_find : forall wb wb' g, reads_as wb wb' ->
  match alist_find wb g, alist_find wb' g with
  | Some r, Some r' => same_sheet r r'
  | None, None => True
  | _, _ => False
  end.
Proof.
  intros wb wb' g H. induction H as [|[n r] [n' r'] wb wb' [H1 H2] H IH]; simpl; auto.
  simpl in H1, H2. subst n'. destruct (String.eqb g n); auto.
Qed.

Lemma reads_as_rev : forall wb wb', reads_as wb wb' -> reads_as (rev wb) (rev wb').
Proof.
  unfold reads_as. induction 1; simpl; [constructor|]. apply Forall2_app; auto.
Qed.

Lemma import_same : forall ord wb wb', reads_as wb wb' -> import_xlsx ord wb = import_xlsx ord wb'.
Proof.
  intros ord wb wb' H. unfold import_xlsx.
  assert (G : group_names wb = group_names wb').
  { unfold group_names. generalize (@nil string). induction H as [|[n sh] [n' sh'] wb wb' [E _] H IH]; intros l; auto.
    cbn [fst] in E. subst n'. cbn [fold_left fst]. apply IH. }
  assert (S : forall g, same_sheet (group_sheet wb g) (group_sheet wb' g)).
  { intros g. unfold group_sheet. assert (F := reads_as_find _ _ g (reads_as_rev _ _ H)).
    destruct (alist_find (rev wb) g), (alist_find (rev wb') g); auto; try contradiction.
    intros i j. reflexivity. }
  assert (R : forall gs acc, read_sheets wb gs acc = read_sheets wb' gs acc).
  { induction gs as [|g gs IH]; intros acc; auto. cbn [read_sheets].
    rewrite (read_group_same g _ _ (S g)). destruct (read_group_sheet g _); auto. }
  rewrite G, R. destruct (read_sheets wb' _ _) as [ts|e]; auto.
  assert (M : forall k, k <> "" ->
    attr_get (match meta_sheet wb with Some rows => read_meta_sheet rows | None => [] end) k =
    attr_get (match meta_sheet wb' with Some rows => read_meta_sheet rows | None => [] end) k).
  { intros k N. unfold meta_sheet. assert (F := reads_as_find _ _ "Meta" (reads_as_rev _ _ H)).
    destruct (alist_find (rev wb) "Meta"), (alist_find (rev wb') "Meta"); auto; try contradiction.
    now apply read_meta_same. }
  now rewrite !M.
Qed.
