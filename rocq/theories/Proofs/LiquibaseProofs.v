(** Lemmas about Model/Liquibase.v *)
From Coq Require Import String Ascii List NArith Bool Lia Sorting.Permutation Sorting.Sorted.
From Verif.Model Require Import GoString Util Octopus DiffCore Liquibase.
From Verif.Spec Require Import Order Text DiffSpec LiquibaseSpec.
From Verif.Proofs Require Import ListLemmas StringLemmas UtilProofs OctopusProofs DiffCoreProofs DiffFacts.
Import ListNotations.
Local Open Scope string_scope.
Local Open Scope list_scope.

Section WithFloat.
Variable fk : string -> bool.

(** ** Ids *)

Lemma lq_emit_ids : forall author b pre ch st ids M, id_inv (ids ++ map lq_id (fst st)) M (snd st) ->
  id_inv (ids ++ map lq_id (fst (lq_emit author b pre ch st))) M (snd (lq_emit author b pre ch st)).
Proof.
  intros author [] pre ch [css id] ids M I; simpl in *; auto. rewrite map_app, app_assoc. simpl. now apply id_inv_bump.
Qed.

Lemma lq_fold_ids : forall {A} (step : list lq_cset * ident -> A -> list lq_cset * ident) ids l st M,
  (forall st x, id_inv (ids ++ map lq_id (fst st)) M (snd st) ->
     id_inv (ids ++ map lq_id (fst (step st x))) M (snd (step st x))) ->
  id_inv (ids ++ map lq_id (fst st)) M (snd st) ->
  id_inv (ids ++ map lq_id (fst (fold_left step l st))) M (snd (fold_left step l st)).
Proof. induction l; simpl; intros; auto. Qed.

Lemma lq_diff_column_ids : forall author comments t M ids id c o css id',
  id_inv ids M id -> lq_diff_column fk author comments t id c o = Some (css, id') ->
  id_inv (ids ++ map lq_id css) M id'.
Proof.
  intros author comments t M ids id c o css id' I H. unfold lq_diff_column in H.
  assert (I0 : id_inv (ids ++ map lq_id (fst (@nil lq_cset, id))) M (snd (@nil lq_cset, id))).
  { simpl. now rewrite app_nil_r. }
  repeat match type of H with context [lq_emit author ?b false ?chs (@nil lq_cset, id)] => idtac end.
  match type of H with (if _ then if _ then Some (lq_emit _ _ _ _ ?st) else _ else _) = _ =>
    assert (I1 : id_inv (ids ++ map lq_id (fst st)) M (snd st)) by (do 5 apply lq_emit_ids; exact I0);
    set (st5 := st) in * end.
  assert (F : forall st, Some st = Some (css, id') -> id_inv (ids ++ map lq_id (fst st)) M (snd st) ->
    id_inv (ids ++ map lq_id css) M id').
  { intros st E. injection E as E. rewrite E. auto. }
  destruct (negb (String.eqb (c_default c) (c_default o))).
  - destruct (String.eqb (c_default c) "").
    + eapply F; [exact H|]. now apply lq_emit_ids.
    + destruct (new_lq_default fk c); [|discriminate]. eapply F; [exact H|]. now apply lq_emit_ids.
  - eapply F; [exact H|]. exact I1.
Qed.

Lemma lq_diff_table_ids : forall author comments suffix ord id t old css id',
  lq_diff_table fk author comments suffix ord id t old = Some (css, id') ->
  id_inv (map lq_id css) (id_major id) id'.
Proof.
  intros author comments suffix ord id t old css id' H. unfold lq_diff_table in H.
  set (e0 := lq_emit author (comments && negb (String.eqb (t_desc t) (t_desc old))) false
               [LqSetTableRemarks (t_name t) (t_desc t)] ([], id)) in H.
  assert (I0 : id_inv ([] ++ map lq_id (fst e0)) (id_major id) (snd e0)).
  { unfold e0. apply lq_emit_ids. simpl. apply id_inv_nil. }
  destruct e0 as [css0 id0]. simpl in I0.
  destruct (scan_columns _ (t_cols old) (with_pos (t_cols t)) id0 _) as [[[[css1 id1] r1] added]|] eqn:Es;
    [|discriminate].
  eapply (scan_columns_ids lq_id) in Es; [|intros; eapply lq_diff_column_ids; eauto|exact I0].
  rewrite <- map_app in Es.
  destruct (find_renamed _ _ added r1) as [ren r2].
  assert (E : forall st0, id_inv ([] ++ map lq_id (fst st0)) (id_major id) (snd st0) ->
    Some st0 = Some (css, id') -> id_inv (map lq_id css) (id_major id) id').
  { intros st0 I E. injection E as E. rewrite E in I. exact I. }
  match type of H with match match _ with [] => Some ?st | _ => _ end with _ => _ end = _ =>
    assert (I3 : id_inv ([] ++ map lq_id (fst st)) (id_major id) (snd st)); [|set (st3 := st) in *] end.
  { apply lq_fold_ids.
    { intros st x I. unfold lq_rename_column. do 2 apply lq_emit_ids. exact I. }
    apply lq_fold_ids.
    { intros st x I. apply lq_emit_ids. exact I. }
    apply lq_emit_ids. exact Es. }
  match type of H with match match ?x with [] => _ | _ => _ end with _ => _ end = _ => destruct x end.
  - eapply E; [|exact H]. do 2 apply lq_emit_ids. exact I3.
  - destruct (add_column_list fk comments (t_cols t) _); [|discriminate].
    eapply E; [|exact H]. do 3 apply lq_emit_ids. exact I3.
Qed.

Lemma lq_rename_table_ids : forall author suffix id nw old css id', id_minor id = 0 ->
  lq_rename_table author suffix id nw old = (css, id') -> id_inv (map lq_id css) (id_major id) id'.
Proof.
  intros author suffix id nw old css id' Hm H. unfold lq_rename_table in H.
  assert (I : forall b ch, id_inv ([] ++ map lq_id (if b : bool then [mkLqCS (version id) author false ch] else []))
                          (id_major id) id).
  { intros [] ch; simpl; [|apply id_inv_nil]. split; auto. exists [0]. simpl.
    destruct id as [a m]. simpl in *. subst m. repeat split; repeat constructor. }
  match type of H with ?st = _ => assert (F : id_inv ([] ++ map lq_id (fst st)) (id_major id) (snd st)) end.
  { do 2 apply lq_emit_ids. simpl fst. simpl snd. apply I. }
  rewrite H in F. exact F.
Qed.

Lemma new_create_table_ids : forall author suffix comments id t css id',
  new_create_table_cs fk author suffix comments id t = Some (css, id') -> id_inv (map lq_id css) (id_major id) id'.
Proof.
  intros author suffix comments id t css id' H. unfold new_create_table_cs in H.
  destruct (map_lq_columns _ _ _ _ _); [|discriminate].
  match type of H with Some ?st = _ =>
    assert (F : id_inv ([] ++ map lq_id (fst st)) (id_major id) (snd st)); [|set (st0 := st) in *; clearbody st0] end.
  { do 3 apply lq_emit_ids. simpl. apply id_inv_nil. }
  injection H as H. rewrite H in F. exact F.
Qed.

Lemma lq_diff_ids : forall ordT ordC o from to css,
  lq_diff fk ordT ordC o from to = Some css -> NoDup (map lq_id css).
Proof.
  intros ordT ordC o from to css H. unfold lq_diff in H.
  eapply (diff_schemas_ids lq_id) in H; auto.
  - intros. now apply lq_diff_table_ids in H1.
  - intros. now apply lq_rename_table_ids in H1.
  - intros. now apply new_create_table_ids in H1.
Qed.

Lemma generate_ids_run : forall author suffix comments f ts id css,
  generate_tables fk author suffix comments f ts id = Some css ->
  exists m, ids_run (id_major id) m (map lq_id css).
Proof.
  induction ts as [|t ts IH]; intros id css H; simpl in H.
  - injection H as <-. exists (id_major id). apply ids_run_nil.
  - destruct (negb (passes f t)); [eauto|].
    destruct (new_create_table_cs fk author suffix comments (bump_major id) t) as [[c0 i1]|] eqn:E; [|discriminate].
    destruct (generate_tables fk author suffix comments f ts i1) as [r|] eqn:G; [|discriminate].
    injection H as <-. apply new_create_table_ids in E. apply IH in G. destruct G as [m G]. exists m.
    rewrite map_app. eapply ids_run_app; [eapply id_inv_run; exact E|]. destruct E as [I _]. rewrite I in G. exact G.
Qed.

Lemma lq_generate_ids : forall o s css, lq_generate fk o s = Some css -> NoDup (map lq_id css).
Proof.
  intros o s css H. unfold lq_generate in H. apply generate_ids_run in H. destruct H as [m [_ [D _]]]. exact D.
Qed.

(** ** No differences *)

Lemma lq_diff_column_self : forall author comments t id c, lq_diff_column fk author comments t id c c = Some ([], id).
Proof.
  intros. unfold lq_diff_column. rewrite !String.eqb_refl, !N.eqb_refl, !Bool.eqb_reflx.
  simpl negb. rewrite andb_false_r. reflexivity.
Qed.

Lemma lq_diff_table_self : forall author comments suffix ord id t,
  iteration_order ord -> NoDup (map c_name (t_cols t)) ->
  exists id', lq_diff_table fk author comments suffix ord id t t = Some ([], id').
Proof.
  intros author comments suffix ord id t Hord D. unfold lq_diff_table.
  rewrite String.eqb_refl. simpl negb. rewrite andb_false_r. simpl (lq_emit _ false _ _ _).
  destruct (scan_columns_nothing (lq_diff_column fk author comments t)
              (t_cols t) (with_pos (t_cols t)) id (ss_new (map c_name (t_cols t)))) as [r Es].
  { intros i c Hc. exists c. split.
    - apply column_name_map_nodup; auto. apply with_pos_in. eauto.
    - intros. now rewrite lq_diff_column_self. }
  rewrite Es. apply scan_columns_spec in Es. destruct Es as [_ [_ [K _]]].
  assert (r = []).
  { destruct r as [|n r]; auto. exfalso. destruct (proj1 (K n)) as [A B]; [now left|]. apply B.
    apply (proj1 (ss_new_in _ _)) in A. split; auto.
    rewrite <- (with_pos_snd (t_cols t)), map_map in A. exact A. }
  subst r. simpl. rewrite (ss_equals_refl (uq_name_set t)), (ss_equals_refl (pk_name_set t)).
  - simpl. assert (O : ord [] = []). { apply Permutation_nil. symmetry. apply Hord. }
    rewrite O. simpl. eauto.
  - apply pk_name_set_nodup.
  - apply uq_name_set_nodup.
Qed.

Lemma lq_self_diff_empty : forall ordT ordC o s,
  iteration_order ordT -> (forall i, iteration_order (ordC i)) ->
  distinct_names s -> (forall t, In t (s_tables s) -> selected (lo_filter o) t) ->
  lq_diff fk ordT ordC o s s = Some [].
Proof.
  intros ordT ordC o s HT HC [D1 D2] Hf. unfold lq_diff. apply diff_schemas_nothing; auto.
  intros i t Ht. assert (In t (s_tables s)) by (apply with_pos_in; eauto).
  split; [now apply passes_selected, Hf|]. exists t. split; [now apply tables_by_name_nodup|].
  intros id. apply lq_diff_table_self; auto.
Qed.

(** ** The changes of one table *)

Lemma lq_all_app : forall a b, lq_all (a ++ b) = lq_all a ++ lq_all b.
Proof. intros. unfold lq_all. apply flat_map_app. Qed.

Lemma lq_emit_changes : forall author b pre chs st,
  lq_all (fst (lq_emit author b pre chs st)) = lq_all (fst st) ++ (if b then chs else []).
Proof.
  intros author [] pre chs [css id]; simpl; [|now rewrite app_nil_r]. rewrite lq_all_app. simpl.
  now rewrite app_nil_r.
Qed.

Definition lq_column_changes (comments : bool) (t : table) (p : column * column) : option (list lq_change) :=
  let '(c, o) := p in
  let ty := get_liquibase_type c in
  let chs :=
    (if negb (String.eqb (c_name c) (c_name o)) then [LqRenameColumn (t_name t) (c_name c) (c_name o) ty] else []) ++
    (if negb (String.eqb (c_type c) (c_type o)) || negb (N.eqb (c_size c) (c_size o))
        || negb (N.eqb (c_scale c) (c_scale o)) then [LqModifyDataType (t_name t) (c_name c) ty] else []) ++
    (if comments && negb (String.eqb (c_desc c) (c_desc o)) then [LqSetColumnRemarks (t_name t) (c_name c) (c_desc c)] else []) ++
    (if negb (Bool.eqb (c_notnull c) (c_notnull o))
     then [if c_notnull c then LqAddNotNullConstraint (t_name t) (c_name c) ty (c_default c)
           else LqDropNotNullConstraint (t_name t) (c_name c) ty] else []) ++
    (if negb (Bool.eqb (c_autoinc c) (c_autoinc o)) && c_autoinc c then [LqAddAutoIncrement (t_name t) (c_name c) ty] else []) in
  if negb (String.eqb (c_default c) (c_default o)) then
    if String.eqb (c_default c) "" then Some (chs ++ [LqDropDefaultValue (t_name t) (c_name c) ty])
    else option_map (fun dv => chs ++ [LqAddDefaultValue (t_name t) (c_name c) ty dv]) (new_lq_default fk c)
  else Some chs.

Lemma lq_diff_column_changes : forall author comments t id c o css id',
  lq_diff_column fk author comments t id c o = Some (css, id') ->
  lq_column_changes comments t (c, o) = Some (lq_all css) /\ Forall (fun cs => lq_pre cs = false) css.
Proof.
  intros author comments t id c o css id' H. unfold lq_diff_column in H. unfold lq_column_changes.
  assert (PE : forall b chs st, Forall (fun cs => lq_pre cs = false) (fst st) ->
            Forall (fun cs => lq_pre cs = false) (fst (lq_emit author b false chs st))).
  { intros [] chs [x i] F; simpl in *; auto. apply Forall_app. split; auto. }
  match type of H with (if _ then if _ then Some (lq_emit _ _ _ _ ?st) else _ else _) = _ =>
    assert (P : Forall (fun cs => lq_pre cs = false) (fst st)) by (do 5 apply PE; constructor);
    pose proof (eq_refl (lq_all (fst st))) as A; set (st5 := st) in *; unfold st5 in A at 2 end.
  rewrite !lq_emit_changes in A. cbn [fst lq_all flat_map app] in A. rewrite <- !app_assoc in A. cbn [app] in A.
  rewrite <- A. clearbody st5. clear A.
  assert (F : forall st, Some st = Some (css, id') -> lq_all css = lq_all (fst st) /\ css = fst st).
  { intros st E. injection E as E. rewrite E. auto. }
  destruct (negb (String.eqb (c_default c) (c_default o))).
  - destruct (String.eqb (c_default c) "").
    + destruct (F _ H) as [F1 F2]. rewrite F1, F2, lq_emit_changes. split; auto.
    + destruct (new_lq_default fk c); [|discriminate]. destruct (F _ H) as [F1 F2].
      rewrite F1, F2, lq_emit_changes. split; auto.
  - destruct (F _ H) as [F1 F2]. rewrite F1, F2. auto.
Qed.

Definition lq_rename_changes (t : table) (r : nat * (column * column)) : list lq_change :=
  let nc := fst (snd r) in let oc := snd (snd r) in
  LqRenameColumn (t_name t) (c_name nc) (c_name oc) (get_liquibase_type nc) ::
  (if c_notnull oc then [LqAddNotNullConstraint (t_name t) (c_name nc) (get_liquibase_type nc) (c_default nc)] else []).

Definition no_pre (css : list lq_cset) : Prop := Forall (fun cs => lq_pre cs = false) css.

Lemma no_pre_emit : forall author b chs st, no_pre (fst st) -> no_pre (fst (lq_emit author b false chs st)).
Proof. intros author [] chs [x i] F; simpl in *; auto. apply Forall_app. split; auto; repeat constructor. Qed.

Lemma no_pre_fold : forall {A} (step : list lq_cset * ident -> A -> list lq_cset * ident) l st,
  (forall st x, no_pre (fst st) -> no_pre (fst (step st x))) -> no_pre (fst st) ->
  no_pre (fst (fold_left step l st)).
Proof. induction l; simpl; intros; auto. Qed.

Lemma lq_diff_table_changes : forall author comments suffix ord id t old css id',
  lq_diff_table fk author comments suffix ord id t old = Some (css, id') ->
  iteration_order ord ->
  exists lcol removed renamed adds,
    let added := filter (is_added_col (t_cols old)) (with_pos (t_cols t)) in
    let final := filter (fun ia => negb (existsb (fun r => Nat.eqb (fst ia) (fst r)) renamed)) added in
    let pk_changed := negb (ss_equals (pk_name_set t) (pk_name_set old)) in
    let uq_changed := negb (ss_equals (uq_name_set t) (uq_name_set old)) in
    lq_all css =
      (if comments && negb (String.eqb (t_desc t) (t_desc old)) then [LqSetTableRemarks (t_name t) (t_desc t)] else []) ++
      concat lcol ++
      (if uq_changed then [LqDropUniqueConstraint (t_name t) (t_name t ++ suffix)] else []) ++
      map (LqDropColumn (t_name t)) (ss_slice removed) ++
      flat_map (lq_rename_changes t) (ord renamed) ++
      (match final with [] => [] | _ => [LqAddColumn (t_name t) adds] end) ++
      (if pk_changed then
        ((if Nat.ltb 0 (ss_size (pk_name_set old)) then [LqDropPrimaryKey (t_name t)] else []) ++
         (if Nat.ltb 0 (ss_size (pk_name_set t)) then [LqAddPrimaryKey (t_name t) (ss_join (pk_name_set t) ", ")] else []))
       else []) ++
      (if uq_changed then
        (if Nat.ltb 0 (ss_size (uq_name_set t))
         then [LqAddUniqueConstraint (t_name t) (ss_join (uq_name_set t) ", ") (t_name t ++ suffix)] else []) else []) /\
    no_pre css /\
    Forall2 (fun p x => lq_column_changes comments t p = Some x) (kept_cols (t_cols old) (with_pos (t_cols t))) lcol /\
    add_column_list fk comments (t_cols t) final = Some adds /\
    NoDup removed /\
    (exists g, NoDup g /\ Permutation g (map (fun r => c_name (snd (snd r))) renamed ++ removed) /\
       forall k, In k g <-> In k (map c_name (t_cols old)) /\ ~ In k (map c_name (t_cols t))) /\
    (forall i c o, In (i, (c, o)) renamed ->
       nth_error (t_cols t) i = Some c /\ ~ In (c_name c) (map c_name (t_cols old)) /\
       column_name_map (t_cols old) (c_name o) = Some o /\ is_renamed c o (negb comments) = true) /\
    NoDup (map fst renamed) /\
    (forall i c, In (i, c) added -> (forall b r, ~ In (i, (b, r)) renamed) ->
       forall n o, In n removed -> column_name_map (t_cols old) n = Some o -> is_renamed c o (negb comments) = false).
Proof.
  intros author comments suffix ord id t old css id' H Hord. unfold lq_diff_table in H.
  set (e0 := lq_emit author (comments && negb (String.eqb (t_desc t) (t_desc old))) false
               [LqSetTableRemarks (t_name t) (t_desc t)] ([], id)) in H.
  assert (C0 : lq_all (fst e0) = if comments && negb (String.eqb (t_desc t) (t_desc old)) then [LqSetTableRemarks (t_name t) (t_desc t)] else []).
  { unfold e0. now rewrite lq_emit_changes. }
  assert (P0 : no_pre (fst e0)) by (unfold e0; apply no_pre_emit; constructor).
  destruct e0 as [css0 id0]. simpl in C0, P0.
  destruct (scan_columns _ (t_cols old) (with_pos (t_cols t)) id0 _) as [[[[css1 id1] r1] added]|] eqn:Es;
    [|discriminate].
  destruct (scan_columns_spec _ _ _ _ _ _ _ _ _ Es) as [[l [El Fl]] [Ea [Er Nr]]].
  specialize (Nr (ss_new_nodup _)).
  destruct (find_renamed _ _ added r1) as [ren r2] eqn:Ef.
  assert (LN : forall n r, column_name_map (t_cols old) n = Some r -> c_name r = n).
  { intros n r Hr. now apply column_name_map_some in Hr. }
  destruct (find_renamed_spec c_name _ _ LN _ _ _ _ Nr Ef) as [F1 [F2 [F3 F4]]].
  assert (L1 : lq_all css1 = concat (map lq_all l) /\ no_pre css1 /\
    Forall2 (fun p x => lq_column_changes comments t p = Some x) (kept_cols (t_cols old) (with_pos (t_cols t))) (map lq_all l)).
  { rewrite El. clear - Fl. induction Fl as [|[c o] x xs ys [i0 [i1 E]] F [IH1 [IH2 IH3]]]; simpl.
    - repeat split; auto; constructor.
    - apply lq_diff_column_changes in E. destruct E as [E1 E2]. rewrite lq_all_app, IH1.
      split; auto. split; [now apply Forall_app|]. constructor; auto. }
  destruct L1 as [L1 [P1 L2]].
  set (final := filter (fun ia => negb (existsb (fun r => Nat.eqb (fst ia) (fst r)) ren)) added) in H.
  match type of H with match match _ with [] => Some ?st | _ => _ end with _ => _ end = _ =>
    pose proof (eq_refl (lq_all (fst st))) as A3;
    assert (P3 : no_pre (fst st)); [|set (st3 := st) in *; unfold st3 in A3 at 2] end.
  { apply no_pre_fold. { intros. unfold lq_rename_column. now do 2 apply no_pre_emit. }
    apply no_pre_fold. { intros. now apply no_pre_emit. }
    apply no_pre_emit. cbn [fst]. now apply Forall_app. }
  assert (FR : forall l st, lq_all (fst (fold_left (lq_rename_column author t) l st)) =
            lq_all (fst st) ++ flat_map (lq_rename_changes t) l).
  { clear. induction l; intros; cbn [fold_left flat_map]; [now rewrite app_nil_r|].
    rewrite IHl. unfold lq_rename_column, lq_rename_changes at 2. rewrite !lq_emit_changes.
    rewrite <- !app_assoc. reflexivity. }
  assert (FD : forall l st, lq_all (fst (fold_left (fun st n => lq_emit author true false [LqDropColumn (t_name t) n] st) l st)) =
            lq_all (fst st) ++ map (LqDropColumn (t_name t)) l).
  { clear. induction l; intros; cbn [fold_left map]; [now rewrite app_nil_r|].
    rewrite IHl, lq_emit_changes, <- app_assoc. reflexivity. }
  rewrite FR, FD, lq_emit_changes in A3. cbn [fst] in A3. rewrite lq_all_app, C0, L1 in A3. clearbody st3.
  assert (Ex : exists adds, add_column_list fk comments (t_cols t) final = Some adds /\
     lq_all css = lq_all (fst st3) ++ (match final with [] => [] | _ => [LqAddColumn (t_name t) adds] end) ++
      (if negb (ss_equals (pk_name_set t) (pk_name_set old)) then
        ((if Nat.ltb 0 (ss_size (pk_name_set old)) then [LqDropPrimaryKey (t_name t)] else []) ++
         (if Nat.ltb 0 (ss_size (pk_name_set t)) then [LqAddPrimaryKey (t_name t) (ss_join (pk_name_set t) ", ")] else []))
       else []) ++
      (if negb (ss_equals (uq_name_set t) (uq_name_set old)) then
        (if Nat.ltb 0 (ss_size (uq_name_set t))
         then [LqAddUniqueConstraint (t_name t) (ss_join (uq_name_set t) ", ") (t_name t ++ suffix)] else []) else []) /\
     no_pre css).
  { assert (F : forall st, Some st = Some (css, id') -> css = fst st).
    { intros st E. injection E as E. now rewrite E. }
    destruct final as [|fa fl].
    - exists []. apply F in H. rewrite H. split; [reflexivity|]. rewrite !lq_emit_changes, <- !app_assoc.
      split; [reflexivity|]. now do 2 apply no_pre_emit.
    - destruct (add_column_list fk comments (t_cols t) (fa :: fl)) as [adds|]; [|discriminate].
      exists adds. apply F in H. rewrite H. split; [reflexivity|]. rewrite !lq_emit_changes, <- !app_assoc.
      split; [reflexivity|]. now do 3 apply no_pre_emit. }
  destruct Ex as [adds [Ex1 [Ex2 Ex3]]].
  exists (map lq_all l), r2, ren, adds. cbv zeta. rewrite <- Ea. fold final.
  split; [rewrite Ex2, A3, <- !app_assoc; reflexivity|].
  split; [exact Ex3|]. split; [exact L2|]. split; [exact Ex1|].
  split; [exact F1|]. split.
  { exists r1. split; [auto|]. split; [auto|]. intros k. rewrite Er, ss_new_in.
    replace (map (fun ic => c_name (snd ic)) (with_pos (t_cols t))) with (map c_name (t_cols t)).
    - tauto.
    - rewrite <- (with_pos_snd (t_cols t)) at 1. now rewrite map_map. }
  split.
  { intros i c o Hi. destruct (F3 _ _ _ Hi) as [G1 [G2 G3]]. rewrite Ea in G1. apply filter_In in G1.
    destruct G1 as [G1 G4]. split; [now apply with_pos_nth|]. split; [|auto].
    unfold is_added_col in G4. simpl in G4. apply negb_true_iff in G4. now apply str_in_false in G4. }
  split; [|exact (find_renamed_maximal c_name _ _ LN _ _ _ _ Nr Ef)].
  apply F4. rewrite Ea. assert (G : forall (l : list (nat * column)) p, NoDup (map fst l) -> NoDup (map fst (filter p l))).
  { clear. induction l as [|x l IH]; simpl; intros p D; auto. inversion D as [|? ? NI ND]; subst.
    destruct (p x); simpl; auto. constructor; auto.
    intros C. apply NI. apply in_map_iff in C. destruct C as [y [E C]]. apply filter_In in C.
    apply in_map_iff. exists y. tauto. }
  apply G. apply with_pos_nodup.
Qed.
End WithFloat.
