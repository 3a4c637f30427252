(** Lemmas about Model/Diff.v *)
From Coq Require Import String Ascii List NArith Bool Lia Sorting.Permutation Sorting.Sorted.
From Verif.Model Require Import GoString Util Octopus DiffCore Diff.
From Verif.Spec Require Import Order Text DiffSpec.
From Verif.Proofs Require Import ListLemmas StringLemmas UtilProofs OctopusProofs DiffCoreProofs.
Import ListNotations.
Local Open Scope string_scope.
Local Open Scope list_scope.

(** ** Ids *)

Lemma emit_ids : forall author b ch st M, id_inv (map cs_id (fst st)) M (snd st) ->
  id_inv (map cs_id (fst (emit author b ch st))) M (snd (emit author b ch st)).
Proof.
  intros author [] ch [css id] M I; simpl in *; auto. rewrite map_app. simpl. now apply id_inv_bump.
Qed.

Lemma fold_ids : forall {A} (step : list cset * ident -> A -> list cset * ident) l st M,
  (forall st x, id_inv (map cs_id (fst st)) M (snd st) ->
     id_inv (map cs_id (fst (step st x))) M (snd (step st x))) ->
  id_inv (map cs_id (fst st)) M (snd st) ->
  id_inv (map cs_id (fst (fold_left step l st))) M (snd (fold_left step l st)).
Proof. induction l; simpl; intros; auto. Qed.

(** diff_column started with earlier change sets *)
Lemma emit_app : forall author b ch pre st,
  emit author b ch (pre ++ fst st, snd st) = (pre ++ fst (emit author b ch st), snd (emit author b ch st)).
Proof. intros author [] ch pre [css id]; simpl; auto. now rewrite app_assoc. Qed.

Lemma emit_cat : forall author b ch css id, exists x id',
  emit author b ch ([], id) = (x, id') /\ forall pre, emit author b ch (pre ++ css, id) = (pre ++ css ++ x, id').
Proof.
  intros author [] ch css id; simpl.
  - exists [mkCS (version (bump_minor id)) author [ch]], (bump_minor id). split; auto.
    intros. now rewrite app_assoc.
  - exists [], id. split; auto. intros. now rewrite app_nil_r.
Qed.

Lemma diff_column_ids : forall author comments t M ids id c o,
  id_inv ids M id ->
  id_inv (ids ++ map cs_id (fst (diff_column author comments t id c o))) M
         (snd (diff_column author comments t id c o)).
Proof.
  intros author comments t M ids id c o I.
  assert (E : forall b ch st, id_inv (ids ++ map cs_id (fst st)) M (snd st) ->
     id_inv (ids ++ map cs_id (fst (emit author b ch st))) M (snd (emit author b ch st))).
  { intros [] ch [css j] J; simpl in *; auto. rewrite map_app, app_assoc. simpl. now apply id_inv_bump. }
  unfold diff_column. do 6 apply E. simpl. now rewrite app_nil_r.
Qed.

Lemma diff_table_ids : forall author comments suffix ord id t old css id',
  diff_table author comments suffix ord id t old = Some (css, id') ->
  id_inv (map cs_id css) (id_major id) id'.
Proof.
  intros author comments suffix ord id t old css id' H. unfold diff_table in H.
  assert (I0 : id_inv (map cs_id (fst (emit author (comments && negb (String.eqb (t_desc t) (t_desc old)))
                 (SetTableComment t) ([], id)))) (id_major id)
               (snd (emit author (comments && negb (String.eqb (t_desc t) (t_desc old)))
                 (SetTableComment t) ([], id)))).
  { apply emit_ids. simpl. apply id_inv_nil. }
  destruct (emit author (comments && negb (String.eqb (t_desc t) (t_desc old))) (SetTableComment t) ([], id))
    as [css0 id0]. simpl in I0.
  destruct (scan_columns _ (t_cols old) (with_pos (t_cols t)) id0 _) as [[[[css1 id1] r1] added]|] eqn:Es;
    [|discriminate].
  eapply (scan_columns_ids cs_id) in Es; [|intros M ids i c o x i' J D|exact I0].
  2:{ injection D as D. pose proof (diff_column_ids author comments t M ids i c o J) as Q.
      rewrite D in Q. exact Q. }
  rewrite <- map_app in Es.
  destruct (find_renamed _ _ added r1) as [ren r2].
  assert (E : forall st0, id_inv (map cs_id (fst st0)) (id_major id) (snd st0) ->
    forall st, st = st0 -> id_inv (map cs_id (fst st)) (id_major id) (snd st)) by (intros; subst; auto).
  match type of H with Some ?st = _ => set (final := st) in H end.
  assert (F : id_inv (map cs_id (fst final)) (id_major id) (snd final)).
  { unfold final. apply emit_ids. apply emit_ids.
    match goal with |- context [match ?x with [] => _ | _ :: _ => _ end] => destruct x end.
    - apply fold_ids; [intros; now apply emit_ids|]. apply fold_ids; [intros; now apply emit_ids|].
      apply emit_ids. exact Es.
    - cbn [fst snd]. apply id_inv_skip. apply fold_ids; [intros; now apply emit_ids|].
      apply fold_ids; [intros; now apply emit_ids|]. apply emit_ids. exact Es. }
  injection H as H. rewrite H in F. exact F.
Qed.

Lemma rename_table_ids : forall author suffix id nw old css id', id_minor id = 0 ->
  rename_table_cs author suffix id nw old = (css, id') -> id_inv (map cs_id css) (id_major id) id'.
Proof.
  intros author suffix id nw old css id' Hm H. unfold rename_table_cs in H.
  assert (I : forall b ch, id_inv (map cs_id (if b : bool then [mkCS (version id) author [ch]] else []))
                          (id_major id) id).
  { intros [] ch; simpl; [|apply id_inv_nil]. split; auto. exists [0]. simpl.
    destruct id as [a m]. simpl in *. subst m. repeat split; repeat constructor. }
  match type of H with ?st = _ => assert (F : id_inv (map cs_id (fst st)) (id_major id) (snd st)) end.
  { apply emit_ids. apply emit_ids. simpl. apply I. }
  rewrite H in F. exact F.
Qed.

Lemma get_diff_ids : forall ordT ordC o from to css,
  get_diff ordT ordC o from to = Some css -> NoDup (map cs_id css).
Proof.
  intros ordT ordC o from to css H. unfold get_diff in H.
  eapply (diff_schemas_ids cs_id) in H; auto.
  - intros. now apply diff_table_ids in H1.
  - intros. now apply rename_table_ids in H1.
  - intros id t c i Hm E. injection E as <- <-. split; auto. exists [0]. simpl.
    destruct id as [a m]. simpl in *. subst m. repeat split; repeat constructor.
Qed.

(** ** The changes of one table *)

Lemma all_changes_app : forall a b, all_changes (a ++ b) = all_changes a ++ all_changes b.
Proof. intros. unfold all_changes. apply flat_map_app. Qed.

Lemma emit_changes : forall author b ch st,
  all_changes (fst (emit author b ch st)) = all_changes (fst st) ++ (if b then [ch] else []).
Proof.
  intros author [] ch [css id]; simpl; [|now rewrite app_nil_r]. rewrite all_changes_app. reflexivity.
Qed.

Lemma fold_emit_changes : forall {A} author (f : A -> change) l st,
  all_changes (fst (fold_left (fun st x => emit author true (f x) st) l st)) = all_changes (fst st) ++ map f l.
Proof.
  induction l; intros; cbn [fold_left map]; [now rewrite app_nil_r|].
  rewrite IHl, emit_changes, <- app_assoc. reflexivity.
Qed.

Definition column_changes (comments : bool) (t : table) (p : column * column) : list change :=
  let '(c, o) := p in
  (if negb (String.eqb (c_name c) (c_name o)) then [RenameColumn t o c] else []) ++
  (if negb (String.eqb (c_type c) (c_type o)) || negb (N.eqb (c_size c) (c_size o))
      || negb (N.eqb (c_scale c) (c_scale o)) then [ChangeColumnType t o c] else []) ++
  (if comments && negb (String.eqb (c_desc c) (c_desc o)) then [SetColumnComment t c] else []) ++
  (if negb (Bool.eqb (c_notnull c) (c_notnull o)) then [SetNotNullConstraint t c] else []) ++
  (if negb (Bool.eqb (c_autoinc c) (c_autoinc o)) then [SetAutoIncrement t c] else []) ++
  (if negb (String.eqb (c_default c) (c_default o)) then [SetDefaultValue t c] else []).

Lemma diff_column_changes : forall author comments t id c o,
  all_changes (fst (diff_column author comments t id c o)) = column_changes comments t (c, o).
Proof.
  intros. unfold diff_column. rewrite !emit_changes. unfold column_changes. simpl (all_changes (fst _)).
  rewrite <- !app_assoc. reflexivity.
Qed.

Lemma kept_cols_spec : forall old cs c o, NoDup (map c_name (map snd cs)) ->
  In (c, o) (kept_cols old cs) <-> In c (map snd cs) /\ column_name_map old (c_name c) = Some o.
Proof.
  intros old cs c o _. unfold kept_cols. rewrite in_flat_map. split.
  - intros [[i x] [H1 H2]]. simpl in H2. destruct (column_name_map old (c_name x)) eqn:E; [|destruct H2].
    destruct H2 as [H2|[]]. injection H2 as -> ->. split; auto. apply in_map_iff. exists (i, c). auto.
  - intros [H1 H2]. apply in_map_iff in H1. destruct H1 as [[i x] [E H1]]. simpl in E. subst x.
    exists (i, c). split; auto. simpl. rewrite H2. now left.
Qed.

Lemma diff_table_changes : forall author comments suffix ord id t old css id',
  diff_table author comments suffix ord id t old = Some (css, id') ->
  iteration_order ord ->
  exists removed renamed,
    let pk_changed := negb (ss_equals (pk_name_set t) (pk_name_set old)) in
    let uq_changed := negb (ss_equals (uq_name_set t) (uq_name_set old)) in
    all_changes css =
      (if comments && negb (String.eqb (t_desc t) (t_desc old)) then [SetTableComment t] else []) ++
      flat_map (column_changes comments t) (kept_cols (t_cols old) (with_pos (t_cols t))) ++
      (if uq_changed && Nat.ltb 0 (ss_size (uq_name_set old)) then [DropUniqueConstraint (t_name t ++ suffix) old] else []) ++
      map (DropColumn t) (ss_slice removed) ++
      map (fun r => RenameColumn t (snd (snd r)) (fst (snd r))) (ord renamed) ++
      (if pk_changed then [UpdatePrimaryKey old t] else []) ++
      (if uq_changed && Nat.ltb 0 (ss_size (uq_name_set t)) then [CreateUniqueConstraint (t_name t ++ suffix) t] else []) /\
    NoDup removed /\
    (exists g, NoDup g /\ Permutation g (map (fun r => c_name (snd (snd r))) renamed ++ removed) /\
       forall k, In k g <-> In k (map c_name (t_cols old)) /\ ~ In k (map c_name (t_cols t))) /\
    (forall i c o, In (i, (c, o)) renamed ->
       In c (t_cols t) /\ ~ In (c_name c) (map c_name (t_cols old)) /\
       column_name_map (t_cols old) (c_name o) = Some o /\ is_renamed c o (negb comments) = true) /\
    NoDup (map fst renamed).
Proof.
  intros author comments suffix ord id t old css id' H Hord. unfold diff_table in H.
  assert (C0 := emit_changes author (comments && negb (String.eqb (t_desc t) (t_desc old))) (SetTableComment t) ([], id)).
  destruct (emit author (comments && negb (String.eqb (t_desc t) (t_desc old))) (SetTableComment t) ([], id))
    as [css0 id0]. simpl in C0.
  destruct (scan_columns _ (t_cols old) (with_pos (t_cols t)) id0 _) as [[[[css1 id1] r1] added]|] eqn:Es;
    [|discriminate].
  destruct (scan_columns_spec _ _ _ _ _ _ _ _ _ Es) as [[l [El Fl]] [Ea [Er Nr]]].
  specialize (Nr (ss_new_nodup _)).
  destruct (find_renamed _ _ added r1) as [ren r2] eqn:Ef.
  assert (LN : forall n r, column_name_map (t_cols old) n = Some r -> c_name r = n).
  { intros n r Hr. now apply column_name_map_some in Hr. }
  destruct (find_renamed_spec c_name _ _ LN _ _ _ _ Nr Ef) as [F1 [F2 [F3 F4]]].
  exists r2, ren. cbv zeta.
  assert (C1 : all_changes css1 = flat_map (column_changes comments t) (kept_cols (t_cols old) (with_pos (t_cols t)))).
  { rewrite El. clear - Fl. induction Fl as [|[c o] x xs ys [i0 [i1 E]] F IH]; cbn [concat flat_map]; auto.
    rewrite all_changes_app, IH. f_equal. cbn [fst snd] in E. injection E as E.
    rewrite <- (diff_column_changes author comments t i0 c o), E. reflexivity. }
  split.
  { match type of H with Some ?st = _ => assert (F : all_changes css = all_changes (fst st)) by
        (apply (f_equal (fun x => match x with Some y => all_changes (fst y) | None => [] end)) in H;
         symmetry; exact H) end.
    rewrite F. rewrite !emit_changes. clear F.
    assert (X : forall (l : list column) (st : list cset * ident),
      all_changes (fst (match l with [] => st | _ :: _ => (fst st, bump_minor (snd st)) end)) = all_changes (fst st)).
    { intros [|? ?] st; reflexivity. }
    rewrite X. rewrite (fold_emit_changes author (fun r => RenameColumn t (snd (snd r)) (fst (snd r)))).
    rewrite (fold_emit_changes author (DropColumn t)). rewrite emit_changes.
    cbn [fst]. rewrite all_changes_app, C0, C1. rewrite <- !app_assoc. reflexivity. }
  split; [exact F1|]. split.
  { exists r1. split; [auto|]. split; [auto|]. intros k. rewrite Er, ss_new_in.
    replace (map (fun ic => c_name (snd ic)) (with_pos (t_cols t))) with (map c_name (t_cols t)).
    - tauto.
    - rewrite <- (with_pos_snd (t_cols t)) at 1. now rewrite map_map. }
  split.
  { intros i c o Hi. destruct (F3 _ _ _ Hi) as [G1 [G2 G3]]. rewrite Ea in G1. apply filter_In in G1.
    destruct G1 as [G1 G4]. split; [apply with_pos_in; eauto|]. split; [|auto].
    unfold is_added_col in G4. simpl in G4. apply negb_true_iff in G4. now apply str_in_false in G4. }
  apply F4. rewrite Ea. assert (G : forall (l : list (nat * column)) p, NoDup (map fst l) -> NoDup (map fst (filter p l))).
  { clear. induction l as [|x l IH]; simpl; intros p D; auto. inversion D; subst.
    destruct (p x); simpl; auto. constructor; auto.
    intros C. apply H1. apply in_map_iff in C. destruct C as [y [E C]]. apply filter_In in C.
    apply in_map_iff. exists y. tauto. }
  apply G. apply with_pos_nodup.
Qed.

Lemma diff_table_total : forall author comments suffix ord id t old,
  exists r, diff_table author comments suffix ord id t old = Some r.
Proof.
  intros. unfold diff_table.
  destruct (emit author (comments && negb (String.eqb (t_desc t) (t_desc old))) (SetTableComment t) ([], id)) as [c i].
  assert (S : forall old cs id r, exists x,
    scan_columns (fun id c o => Some (diff_column author comments t id c o)) old cs id r = Some x).
  { clear. induction cs as [|[i c] cs IH]; intros id r; simpl; [eauto|].
    destruct (column_name_map old (c_name c)).
    - rewrite (surjective_pairing (diff_column _ _ _ _ _ _)).
      destruct (IH (snd (diff_column author comments t id c c0)) (ss_remove r (c_name c))) as [[[[x1 x2] x3] x4] ->].
      eauto.
    - destruct (IH id r) as [[[[x1 x2] x3] x4] ->]. eauto. }
  destruct (S (t_cols old) (with_pos (t_cols t)) i (ss_new (map c_name (t_cols old)))) as [[[[x1 x2] x3] x4] ->].
  destruct (find_renamed _ _ x4 x3). eauto.
Qed.

Lemma get_diff_total : forall ordT ordC o from to, exists css, get_diff ordT ordC o from to = Some css.
Proof.
  intros. unfold get_diff, diff_schemas.
  set (author := choose_author (do_author o) to).
  set (dt := fun i id t old => diff_table author (do_comments o) (do_suffix o) (ordC i) id t old).
  assert (S : forall f fs ts id r, exists x, scan_tables dt f fs ts id r = Some x).
  { clear. induction ts as [|[i t] ts IH]; intros id r; simpl; [eauto|].
    destruct (negb (passes f t)); [auto|]. destruct (tables_by_name fs (t_name t)) as [old|].
    - unfold dt at 1. destruct (diff_table_total author (do_comments o) (do_suffix o) (ordC i) (bump_major id) t old) as [[c j] ->].
      destruct (IH (match c with [] => revert_major j | _ => j end) (ss_remove r (t_name t))) as [[[[x1 x2] x3] x4] ->]. eauto.
    - destruct (IH id (ss_remove r (t_name t))) as [[[[x1 x2] x3] x4] ->]. eauto. }
  destruct (S (do_filter o) (s_tables from) (with_pos (s_tables to)) new_id (ss_new (map t_name (s_tables from))))
    as [[[[x1 x2] x3] x4] ->].
  destruct (find_renamed _ _ x4 x3) as [m r]. destruct (drop_tables _ _ _ _). destruct (rename_tables _ _ _).
  assert (C : forall l id, exists x, create_tables (fun id t => Some ([mkCS (version id) author [CreateTable t]], id)) l id = Some x).
  { induction l1; intros; simpl; [eauto|]. destruct (IHl1 (bump_major id)) as [[y1 y2] ->]. eauto. }
  destruct (C (not_renamed x4 m) i0) as [[y1 y2] ->]. eauto.
Qed.
