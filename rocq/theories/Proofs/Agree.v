(** The two comparisons of schemas report the same changes *)
From Coq Require Import String Ascii List NArith Bool Permutation.
From Verif.Model Require Import GoString Util Octopus DiffCore Diff Liquibase.
From Verif.Spec Require Import Order OctopusSpec DiffSpec LiquibaseSpec AgreeSpec.
From Verif.Proofs Require Import UtilProofs ListLemmas OctopusProofs DiffCoreProofs DiffFacts MigrationProofs.
Import ListNotations.
Local Open Scope string_scope.
Local Open Scope list_scope.

(** ** The common control flow with two kinds of change sets *)
Section Both.
  Context {CS1 CS2 : Type} (rel : list CS1 -> list CS2 -> Prop).
  Hypothesis rel_nil : rel [] [].
  Hypothesis rel_app : forall a b a' b', rel a b -> rel a' b' -> rel (a ++ a') (b ++ b').
  Variables (from to : list table).
  Variable dt1 : nat -> ident -> table -> table -> option (list CS1 * ident).
  Variable dt2 : nat -> ident -> table -> table -> option (list CS2 * ident).
  Variable dr1 : ident -> string -> table -> CS1.
  Variable dr2 : ident -> string -> table -> CS2.
  Variable rn1 : ident -> table -> table -> list CS1 * ident.
  Variable rn2 : ident -> table -> table -> list CS2 * ident.
  Variable cr1 : ident -> table -> option (list CS1 * ident).
  Variable cr2 : ident -> table -> option (list CS2 * ident).
  Hypothesis Hdt : forall i id1 id2 t old css2 id2', In t to -> In old from -> t_name old = t_name t ->
    dt2 i id2 t old = Some (css2, id2') -> exists css1 id1', dt1 i id1 t old = Some (css1, id1') /\ rel css1 css2.
  Hypothesis Hdr : forall id1 id2 old, In old from -> rel [dr1 id1 (t_name old) old] [dr2 id2 (t_name old) old].
  Hypothesis Hrn : forall id1 id2 nw old, In nw to -> In old from -> rel (fst (rn1 id1 nw old)) (fst (rn2 id2 nw old)).
  Hypothesis Hcr : forall id1 id2 t css2 id2', In t to -> cr2 id2 t = Some (css2, id2') ->
    exists css1 id1', cr1 id1 t = Some (css1, id1') /\ rel css1 css2.

  Lemma scan_both : forall f ts id1 id2 removed css2 id2' r added, (forall i t, In (i, t) ts -> In t to) ->
    scan_tables dt2 f from ts id2 removed = Some (css2, id2', r, added) ->
    exists css1 id1', scan_tables dt1 f from ts id1 removed = Some (css1, id1', r, added) /\ rel css1 css2 /\
      forall i t, In (i, t) added -> In t to.
  Proof.
    induction ts as [|[i t] ts IH]; intros id1 id2 removed css2 id2' r added I H; cbn [scan_tables] in *.
    - injection H as <- <- <- <-. exists [], id1. split; [reflexivity|]. split; [exact rel_nil|]. intros i t [].
    - assert (forall j u, In (j, u) ts -> In u to) as I' by (intros; eapply I; right; eassumption).
      destruct (negb (passes f t)); [eapply IH; eassumption|].
      destruct (tables_by_name from (t_name t)) as [old|] eqn:L.
      + apply tables_by_name_some in L. destruct L as [O E].
        destruct (dt2 i (bump_major id2) t old) as [[c2 j2]|] eqn:D2; [|discriminate].
        destruct (scan_tables dt2 f from ts _ (ss_remove removed (t_name t))) as [[[[c2' k2] r'] a']|] eqn:S2; [|discriminate].
        injection H as <- <- <- <-.
        destruct (Hdt i (bump_major id1) _ _ _ _ _ (I _ _ (or_introl eq_refl)) O E D2) as (c1 & j1 & D1 & R). rewrite D1.
        destruct (IH (match c1 with [] => revert_major j1 | _ => j1 end) _ _ _ _ _ _ I' S2) as (c1' & k1 & S1 & R' & A). rewrite S1.
        eexists _, _. split; [reflexivity|]. split; [now apply rel_app|exact A].
      + destruct (scan_tables dt2 f from ts _ (ss_remove removed (t_name t))) as [[[[c2' k2] r'] a']|] eqn:S2; [|discriminate].
        injection H as <- <- <- <-. destruct (IH id1 _ _ _ _ _ _ I' S2) as (c1' & k1 & S1 & R' & A). rewrite S1.
        eexists _, _. split; [reflexivity|]. split; [exact R'|]. intros j u [[= <- <-]|U]; [apply (I i); now left|eauto].
  Qed.

  Lemma drop_both : forall names id1 id2,
    rel (fst (drop_tables dr1 from names id1)) (fst (drop_tables dr2 from names id2)).
  Proof.
    induction names as [|n names IH]; intros id1 id2; cbn [drop_tables]; [exact rel_nil|].
    specialize (IH (bump_major id1) (bump_major id2)).
    destruct (drop_tables dr1 from names (bump_major id1)) as [c1 j1], (drop_tables dr2 from names (bump_major id2)) as [c2 j2].
    cbn [fst] in IH. destruct (tables_by_name from n) as [old|] eqn:L; [|exact IH].
    apply tables_by_name_some in L. destruct L as [O <-]. cbn [fst].
    change (rel ([dr1 (bump_major id1) (t_name old) old] ++ c1) ([dr2 (bump_major id2) (t_name old) old] ++ c2)).
    apply rel_app; auto.
  Qed.

  Lemma rename_both : forall l id1 id2, (forall i a b, In (i, (a, b)) l -> In a to /\ In b from) ->
    rel (fst (rename_tables rn1 l id1)) (fst (rename_tables rn2 l id2)).
  Proof.
    induction l as [|[i [nw old]] l IH]; intros id1 id2 I; cbn [rename_tables]; [exact rel_nil|].
    destruct (I i nw old (or_introl eq_refl)) as [N O]. pose proof (Hrn (bump_major id1) (bump_major id2) nw old N O) as R.
    destruct (rn1 (bump_major id1) nw old) as [c1 j1], (rn2 (bump_major id2) nw old) as [c2 j2].
    specialize (IH j1 j2 (fun j a b X => I j a b (or_intror X))).
    destruct (rename_tables rn1 l j1) as [d1 k1], (rename_tables rn2 l j2) as [d2 k2]. cbn [fst] in *. now apply rel_app.
  Qed.

  Lemma create_both : forall l id1 id2 css2 id2', (forall t, In t l -> In t to) ->
    create_tables cr2 l id2 = Some (css2, id2') -> exists css1 id1', create_tables cr1 l id1 = Some (css1, id1') /\ rel css1 css2.
  Proof.
    induction l as [|t l IH]; intros id1 id2 css2 id2' I H; cbn [create_tables] in *.
    - injection H as <- <-. exists [], id1. split; [reflexivity|exact rel_nil].
    - destruct (cr2 (bump_major id2) t) as [[c2 j2]|] eqn:C2; [|discriminate].
      destruct (create_tables cr2 l j2) as [[d2 k2]|] eqn:D2; [|discriminate]. injection H as <- <-.
      destruct (Hcr (bump_major id1) _ _ _ _ (I t (or_introl eq_refl)) C2) as (c1 & j1 & C1 & R). rewrite C1.
      destruct (IH j1 _ _ _ (fun u X => I u (or_intror X)) D2) as (d1 & k1 & D1 & R'). rewrite D1.
      eexists _, _. split; [reflexivity|]. now apply rel_app.
  Qed.
End Both.

Lemma renamed_from : forall A (lookup : string -> option A) same added removed m rest i a b,
  find_renamed lookup same added removed = (m, rest) -> In (i, (a, b)) m ->
  In (i, a) added /\ exists n, lookup n = Some b.
Proof.
  intros A lookup same added. induction added as [|[j x] added IH]; intros removed m rest i a b H I; cbn [find_renamed] in H.
  - injection H as <- <-. destruct I.
  - destruct (match_removed lookup same x (ss_slice removed)) as [[n r]|] eqn:M.
    + destruct (find_renamed lookup same added (ss_remove removed n)) as [m' rest'] eqn:F. injection H as <- <-.
      destruct I as [[= <- <- <-]|I].
      * split; [now left|]. clear -M. induction (ss_slice removed) as [|k ks IHk]; cbn [match_removed] in M; [discriminate|].
        destruct (lookup k) as [z|] eqn:L; [|auto]. destruct (same x z); [|auto]. injection M as <- <-. eauto.
      * destruct (IH _ _ _ _ _ _ F I) as [J E]. split; [now right|exact E].
    + destruct (IH _ _ _ _ _ _ H I) as [J E]. split; [now right|exact E].
Qed.

(** ** Parts of the log *)
Section Told.
Variable from : schema.

Lemma told_nil : tells_all from [] [].
Proof. exists (@nil (list lq_change)). split; [reflexivity|constructor]. Qed.
Lemma told_app : forall l l' c c', tells_all from l c -> tells_all from l' c' -> tells_all from (l ++ l') (c ++ c').
Proof.
  intros l l' c c' (p & C & F) (p' & C' & F'). exists (p ++ p'). rewrite concat_app, filter_app, filter_app, C, C'.
  split; [reflexivity|]. now apply Forall2_app.
Qed.
Lemma told_one : forall l c, (forall x, In x l -> in_both from x = true) -> in_log c = true -> tells l c -> tells_all from l [c].
Proof.
  intros l c A B T. exists [l]. split.
  - cbn [concat]. rewrite app_nil_r. clear T. induction l as [|x l IH]; [reflexivity|]. cbn [filter].
    rewrite (A x (or_introl eq_refl)). f_equal. apply IH. intros y Y. apply A. now right.
  - cbn [filter]. rewrite B. repeat constructor. exact T.
Qed.

Definition told (css : list cset) (css' : list lq_cset) : Prop := tells_all from (lq_all css') (all_changes css).

Lemma all_app : forall a b, all_changes (a ++ b) = all_changes a ++ all_changes b.
Proof. intros a b. unfold all_changes. apply flat_map_app. Qed.
Lemma lq_all_app : forall a b, lq_all (a ++ b) = lq_all a ++ lq_all b.
Proof. intros a b. unfold lq_all. apply flat_map_app. Qed.
Lemma told_sets : forall a b a' b', told a b -> told a' b' -> told (a ++ a') (b ++ b').
Proof. intros. unfold told. rewrite all_app, lq_all_app. now apply told_app. Qed.

Lemma emit_told : forall author author' (b b' : bool) pre ch (chs : list lq_change) st st', told (fst st) (fst st') ->
  tells_all from (if b' then chs else []) (if b then [ch] else []) ->
  told (fst (emit author b ch st)) (fst (lq_emit author' b' pre chs st')).
Proof.
  intros author author' b b' pre ch chs st st' H T. unfold emit, lq_emit, told in *.
  destruct b, b'; cbn [fst]; rewrite ?all_app, ?lq_all_app; cbn [all_changes lq_all flat_map cs_changes lq_changes]; rewrite ?app_nil_r.
  - now apply told_app.
  - rewrite <- (app_nil_r (lq_all (fst st'))). now apply told_app.
  - rewrite <- (app_nil_r (all_changes (fst st))). now apply told_app.
  - exact H.
Qed.
Lemma emit_same : forall author author' b pre ch chs st st', told (fst st) (fst st') ->
  (b = true -> tells_all from chs [ch]) -> told (fst (emit author b ch st)) (fst (lq_emit author' b pre chs st')).
Proof. intros. apply emit_told; [assumption|]. destruct b; [auto|exact told_nil]. Qed.
End Told.

Lemma some_inj : forall A (x y : A), Some x = Some y -> x = y.
Proof. intros A x y [= E]. exact E. Qed.

(** ** Columns *)
Section Cols.
Variables (from : schema) (author author' : string) (comments : bool) (float_ok : string -> bool).

Ltac one := apply told_one; [intros x X; repeat (destruct X as [<-|X]; [reflexivity|]); destruct X|reflexivity|].

Lemma column_told : forall t c o id1 id2 css2 id2', c_name c = c_name o ->
  lq_diff_column float_ok author' comments t id2 c o = Some (css2, id2') ->
  told from (fst (diff_column author comments t id1 c o)) css2.
Proof.
  intros t c o id1 id2 css2 id2' N H. unfold lq_diff_column, diff_column in *. rewrite N, String.eqb_refl in *. cbn [negb] in *.
  set (st1 := emit author false (RenameColumn t o c) ([], id1)) in *.
  set (st2 := lq_emit author' false false _ ([], id2)) in *.
  assert (told from (fst st1) (fst st2)) as T by exact (told_nil from). clearbody st1 st2.
  set (bt := (negb (String.eqb (c_type c) (c_type o)) || _ || _)%bool) in *. clearbody bt.
  set (bc := (comments && _)%bool) in *. clearbody bc.
  pose proof (emit_same from author author' bt false (ChangeColumnType t o c)
    [LqModifyDataType (t_name t) (c_name o) (get_liquibase_type c)] st1 st2 T) as T1.
  assert (bt = true -> tells_all from [LqModifyDataType (t_name t) (c_name o) (get_liquibase_type c)] [ChangeColumnType t o c]) as X
    by (intros _; one; rewrite <- N; constructor). specialize (T1 X). clear X T.
  set (st3 := emit author bt _ st1) in *. set (st4 := lq_emit author' bt _ _ st2) in *. clearbody st3 st4. clear st1 st2.
  assert (told from (fst (emit author bc (SetColumnComment t c) st3))
    (fst (lq_emit author' bc false [LqSetColumnRemarks (t_name t) (c_name o) (c_desc c)] st4))) as T2.
  { apply emit_same; [exact T1|]. intros _. one. rewrite <- N. constructor. }
  set (st5 := emit author bc _ st3) in *. set (st6 := lq_emit author' bc _ _ st4) in *. clearbody st5 st6. clear st3 st4 T1.
  set (bn := negb (Bool.eqb (c_notnull c) (c_notnull o))) in *. clearbody bn.
  match type of H with context [lq_emit author' bn false ?l st6] => set (chs := l) in * end.
  assert (told from (fst (emit author bn (SetNotNullConstraint t c) st5)) (fst (lq_emit author' bn false chs st6))) as T3.
  { apply emit_same; [exact T2|]. intros _. subst chs. rewrite <- N. apply told_one; [|reflexivity|constructor].
    intros x [<-|[]]. destruct (c_notnull c); reflexivity. }
  set (st7 := emit author bn _ st5) in *. set (st8 := lq_emit author' bn _ _ st6) in *. clearbody st7 st8. clear st5 st6 T2 chs.
  set (ba := negb (Bool.eqb (c_autoinc c) (c_autoinc o))) in *. clearbody ba.
  assert (told from (fst (emit author ba (SetAutoIncrement t c) st7))
    (fst (lq_emit author' (ba && c_autoinc c) false [LqAddAutoIncrement (t_name t) (c_name o) (get_liquibase_type c)] st8))) as T4.
  { apply emit_told; [exact T3|]. destruct ba; [|exact (told_nil from)]. cbn [andb]. destruct (c_autoinc c) eqn:A.
    - apply told_one; [intros x [<-|[]]; reflexivity|exact A|]. rewrite <- N. now constructor.
    - exists (@nil (list lq_change)). cbn [filter in_log]. rewrite A. split; [reflexivity|constructor]. }
  set (st9 := emit author ba _ st7) in *. set (st10 := lq_emit author' _ _ _ st8) in *. clearbody st9 st10. clear st7 st8 T3.
  destruct (String.eqb_spec (c_default c) (c_default o)) as [D|D]; cbn [negb] in *.
  - apply some_inj in H; rename H into E. unfold emit. rewrite E in T4. exact T4.
  - destruct (String.eqb_spec (c_default c) "") as [Z|Z].
    + apply some_inj in H; rename H into E. change css2 with (fst (css2, id2')). rewrite <- E.
      apply emit_same; [exact T4|]. intros _. one. rewrite <- N. now constructor.
    + destruct (new_lq_default float_ok c) as [dv|]; [|discriminate]. apply some_inj in H; rename H into E.
      change css2 with (fst (css2, id2')). rewrite <- E.
      apply emit_same; [exact T4|]. intros _. one. rewrite <- N. now constructor.
Qed.

Lemma scan_columns_told : forall t old cs id1 id2 removed css2 id2' r added,
  scan_columns (lq_diff_column float_ok author' comments t) old cs id2 removed = Some (css2, id2', r, added) ->
  exists css1 id1', scan_columns (fun id c o => Some (diff_column author comments t id c o)) old cs id1 removed = Some (css1, id1', r, added) /\
    told from css1 css2.
Proof.
  intros t old. induction cs as [|[i c] cs IH]; intros id1 id2 removed css2 id2' r added H; cbn [scan_columns] in *.
  - injection H as <- <- <- <-. exists [], id1. split; [reflexivity|exact (told_nil from)].
  - destruct (column_name_map old (c_name c)) as [o|] eqn:L.
    + apply column_name_map_some in L. destruct L as [_ N].
      destruct (lq_diff_column float_ok author' comments t id2 c o) as [[c2 j2]|] eqn:D; [|discriminate].
      destruct (scan_columns _ old cs j2 _) as [[[[d2 k2] r'] a']|] eqn:S; [|discriminate]. injection H as <- <- <- <-.
      pose proof (column_told t c o id1 id2 c2 j2 (eq_sym N) D) as T.
      destruct (diff_column author comments t id1 c o) as [c1 j1]. cbn [fst] in T.
      destruct (IH j1 _ _ _ _ _ _ S) as (d1 & k1 & S1 & T1). rewrite S1. eexists _, _. split; [reflexivity|]. now apply told_sets.
    + destruct (scan_columns _ old cs id2 removed) as [[[[d2 k2] r'] a']|] eqn:S; [|discriminate]. injection H as <- <- <- <-.
      destruct (IH id1 _ _ _ _ _ _ S) as (d1 & k1 & S1 & T1). rewrite S1. eexists _, _. split; [reflexivity|exact T1].
Qed.

(** ** Tables *)
Variable suffix : string.
Hypothesis Df : NoDup (map t_name (s_tables from)).

Lemma pk_lists : forall t, lists c_pk t (ss_join (pk_name_set t) ", ").
Proof.
  intros t. exists (ss_slice (pk_name_set t)). split; [|split].
  - eapply Permutation_NoDup; [apply Permutation_sym, ss_slice_perm|apply pk_name_set_nodup].
  - intros k. rewrite ss_slice_in. apply pk_name_set_in.
  - reflexivity.
Qed.
Lemma uq_lists : forall t, lists c_uq t (ss_join (uq_name_set t) ", ").
Proof.
  intros t. exists (ss_slice (uq_name_set t)). split; [|split].
  - eapply Permutation_NoDup; [apply Permutation_sym, ss_slice_perm|apply uq_name_set_nodup].
  - intros k. rewrite ss_slice_in. apply uq_name_set_in.
  - reflexivity.
Qed.
Lemma pk_some : forall t, Nat.ltb 0 (ss_size (pk_name_set t)) = some_column c_pk t.
Proof.
  intros t. apply eq_true_iff_eq. rewrite size_pos. unfold some_column. rewrite existsb_exists. split.
  - intros (k & K). apply pk_name_set_in in K. destruct K as (c & C & P & _). eauto.
  - intros (c & C & P). exists (c_name c). apply pk_name_set_in. eauto.
Qed.
Lemma uq_some : forall t, Nat.ltb 0 (ss_size (uq_name_set t)) = some_column c_uq t.
Proof.
  intros t. apply eq_true_iff_eq. rewrite size_pos. unfold some_column. rewrite existsb_exists. split.
  - intros (k & K). apply uq_name_set_in in K. destruct K as (c & C & P & _). eauto.
  - intros (c & C & P). exists (c_name c). apply uq_name_set_in. eauto.
Qed.
Lemma drop_unique_counts : forall old n, In old (s_tables from) ->
  in_both from (LqDropUniqueConstraint (t_name old) n) = some_column c_uq old.
Proof.
  intros old n O. cbn [in_both]. apply eq_true_iff_eq. rewrite existsb_exists. split.
  - intros (u & U & E). apply andb_true_iff in E. destruct E as [E S]. apply String.eqb_eq in E.
    assert (u = old) as -> by (eapply nodup_name_eq; eassumption). exact S.
  - intros S. exists old. rewrite String.eqb_refl. auto.
Qed.

Lemma fold_told : forall A (f : list cset * ident -> A -> list cset * ident) (g : list lq_cset * ident -> A -> list lq_cset * ident) l st1 st2,
  (forall a s1 s2, told from (fst s1) (fst s2) -> told from (fst (f s1 a)) (fst (g s2 a))) ->
  told from (fst st1) (fst st2) -> told from (fst (fold_left f l st1)) (fst (fold_left g l st2)).
Proof. intros A f g. induction l as [|a l IH]; intros st1 st2 S H; cbn [fold_left]; auto. Qed.

Lemma table_told : forall ord t old id1 id2 css2 id2', In old (s_tables from) -> t_name old = t_name t ->
  lq_diff_table float_ok author' comments suffix ord id2 t old = Some (css2, id2') ->
  exists css1 id1', diff_table author comments suffix ord id1 t old = Some (css1, id1') /\ told from css1 css2.
Proof.
  intros ord t old id1 id2 css2 id2' O N H. unfold lq_diff_table, diff_table in *.
  assert (told from (fst (emit author (comments && negb (String.eqb (t_desc t) (t_desc old))) (SetTableComment t) ([], id1)))
    (fst (lq_emit author' (comments && negb (String.eqb (t_desc t) (t_desc old))) false [LqSetTableRemarks (t_name t) (t_desc t)] ([], id2)))) as T0.
  { apply emit_same; [exact (told_nil from)|]. intros _. one. constructor. }
  destruct (emit author _ (SetTableComment t) ([], id1)) as [c0 j0], (lq_emit author' _ false [LqSetTableRemarks _ _] ([], id2)) as [d0 k0].
  cbn [fst] in T0.
  destruct (scan_columns (lq_diff_column float_ok author' comments t) _ _ k0 _) as [[[[d1 k1] r] added]|] eqn:S; [|discriminate].
  destruct (scan_columns_told t (t_cols old) _ j0 _ _ _ _ _ _ S) as (c1 & j1 & S1 & T1). rewrite S1.
  destruct (find_renamed (column_name_map (t_cols old)) _ added r) as [renamed removed2].
  rewrite !pk_some, !uq_some in *.
  set (bu := negb (ss_equals (uq_name_set t) (uq_name_set old))) in *. clearbody bu.
  set (bk := negb (ss_equals (pk_name_set t) (pk_name_set old))) in *. clearbody bk.
  set (name := (t_name t ++ suffix)%string) in *. clearbody name.
  assert (told from (fst (emit author (bu && some_column c_uq old) (DropUniqueConstraint name old) (c0 ++ c1, j1)))
    (fst (lq_emit author' bu false [LqDropUniqueConstraint (t_name t) name] (d0 ++ d1, k1)))) as T2.
  { apply emit_told; [now apply told_sets|]. destruct bu; [|exact (told_nil from)]. cbn [andb]. rewrite <- N.
    destruct (some_column c_uq old) eqn:Q.
    - apply told_one; [|reflexivity|constructor]. intros x [<-|[]]. now rewrite drop_unique_counts.
    - exists (@nil (list lq_change)). cbn [filter]. rewrite drop_unique_counts, Q by exact O. split; [reflexivity|constructor]. }
  set (s1 := emit author (bu && _) _ _) in *. set (s2 := lq_emit author' bu _ [LqDropUniqueConstraint _ _] _) in *. clearbody s1 s2. clear T0 T1.
  match type of H with context [fold_left (lq_rename_column author' t) (ord renamed) ?x] => set (s4 := x) in * end.
  match goal with |- context [fold_left _ (ord renamed) ?x] => set (s3 := x) in * end.
  assert (told from (fst s3) (fst s4)) as T3.
  { subst s3 s4. apply fold_told; [|exact T2]. intros n q1 q2 Q. apply emit_same; [exact Q|]. intros _. one. constructor. }
  clearbody s3 s4. clear s1 s2 T2.
  match type of H with context [fold_left (lq_rename_column author' t) (ord renamed) s4] =>
    set (s6 := fold_left (lq_rename_column author' t) (ord renamed) s4) in * end.
  match goal with |- context [fold_left ?f (ord renamed) s3] => set (s5 := fold_left f (ord renamed) s3) in * end.
  assert (told from (fst s5) (fst s6)) as T4.
  { subst s5 s6. apply fold_told; [|exact T3]. intros [i [nc oc]] q1 q2 Q. unfold lq_rename_column, told, lq_emit, emit in *. cbn [fst snd].
    destruct (c_notnull oc) eqn:NN; cbn [fst]; rewrite all_app, ?lq_all_app, <- ?app_assoc; apply told_app; auto;
      cbn [lq_all all_changes flat_map lq_changes cs_changes app].
    - one. pose proof (tells_rename_column t oc nc (get_liquibase_type nc)) as R. rewrite NN in R. exact R.
    - one. pose proof (tells_rename_column t oc nc (get_liquibase_type nc)) as R. rewrite NN in R. exact R. }
  clearbody s5 s6. clear s3 s4 T3.
  match type of H with (match ?m with _ => _ end) = _ => destruct m as [s8|] eqn:A; [|discriminate] end.
  match goal with |- context [emit author bk _ ?x] => set (s7 := x) in * end.
  assert (told from (fst s7) (fst s8)) as T5.
  { assert (told from (fst s5) (fst s8)) as Z.
    { destruct (filter _ added) as [|ia l]; [now injection A as <-|].
      destruct (add_column_list float_ok comments (t_cols t) (ia :: l)) as [lcs|]; [|discriminate]. injection A as <-.
      unfold told, lq_emit in *. cbn [fst]. rewrite lq_all_app, <- (app_nil_r (all_changes (fst s5))). apply told_app; [exact T4|].
      cbn [lq_all flat_map lq_changes app]. exists (@nil (list lq_change)). split; [reflexivity|constructor]. }
    subst s7. destruct (not_renamed added renamed); exact Z. }
  clearbody s7. clear A T4 s5 s6.
  apply some_inj in H; rename H into E. eexists _, _. split; [apply f_equal, surjective_pairing|].
  change css2 with (fst (css2, id2')). rewrite <- E. apply emit_told; [apply emit_told; [exact T5|]|].
  - destruct bk; [|exact (told_nil from)]. apply told_one; [|reflexivity|apply tells_key, pk_lists].
    intros x X. apply in_app_or in X. destruct X as [X|X]; [destruct (some_column c_pk old)|destruct (some_column c_pk t)];
      try (destruct X as [<-|[]]; reflexivity); destruct X.
  - destruct bu; [|exact (told_nil from)]. cbn [andb]. destruct (some_column c_uq t); [|exact (told_nil from)].
    one. constructor. apply uq_lists.
Qed.

Lemma rename_told : forall id1 id2 nw old, In old (s_tables from) ->
  told from (fst (rename_table_cs author suffix id1 nw old)) (fst (lq_rename_table author' suffix id2 nw old)).
Proof.
  intros id1 id2 nw old O. unfold rename_table_cs, lq_rename_table. rewrite !uq_some.
  apply emit_same; [apply emit_same|].
  - cbn [fst]. destruct (some_column c_uq old) eqn:Q; [|exact (told_nil from)].
    unfold told. cbn [lq_all all_changes flat_map lq_changes cs_changes app]. apply told_one; [|reflexivity|constructor].
    intros x [<-|[]]. now rewrite drop_unique_counts.
  - intros _. one. constructor.
  - intros _. one. constructor. apply uq_lists.
Qed.

Lemma lq_columns_names : forall a b cs lcs, map_lq_columns float_ok comments a b cs = Some lcs -> map lc_name lcs = map c_name cs.
Proof.
  intros a b. induction cs as [|c cs IH]; intros lcs H; cbn [map_lq_columns] in H; [now injection H as <-|].
  destruct (new_lq_column float_ok c a b) as [lc|] eqn:L; [|discriminate].
  destruct (map_lq_columns float_ok comments a b cs) as [r|]; [|discriminate]. injection H as <-. cbn [map]. f_equal; [|auto].
  assert (lc_name lc = c_name c) as <-.
  { unfold new_lq_column in L. destruct (negb (String.eqb (c_default c) "")).
    - destruct (new_lq_default float_ok c); [|discriminate]. cbn [option_map] in L. injection L as <-. reflexivity.
    - injection L as <-. reflexivity. }
  unfold lc_comments. destruct comments; reflexivity.
Qed.

Lemma create_told : forall id1 id2 t css2 id2', new_create_table_cs float_ok author' suffix comments id2 t = Some (css2, id2') ->
  told from [mkCS (version id1) author [CreateTable t]] css2.
Proof.
  intros id1 id2 t css2 id2' H. unfold new_create_table_cs in H.
  destruct (map_lq_columns float_ok comments _ _ (t_cols t)) as [lcs|] eqn:L; [|discriminate]. apply lq_columns_names in L.
  unfold told. cbn [all_changes flat_map cs_changes app].
  assert (exists keys, lq_all css2 = LqCreateTable (t_name t) (t_desc t) lcs :: keys /\
    Forall (fun ch => exists k n, ch = LqAddPrimaryKey (t_name t) k \/ ch = LqAddUniqueConstraint (t_name t) k n) keys) as (keys & E & F).
  { apply some_inj, (f_equal fst) in H. cbn [fst] in H. rewrite <- H. clear H. unfold lq_emit.
    destruct (Nat.leb 2 (ss_size (pk_name_set t))), (Nat.leb 1 (ss_size (uq_name_set t))); cbn [fst]; rewrite ?lq_all_app; cbn [lq_all flat_map lq_changes app];
      eexists; (split; [reflexivity|]); repeat constructor;
      first [eexists _, ""; left; reflexivity|eexists _, _; right; reflexivity]. }
  rewrite E. apply told_one; [|reflexivity|now constructor].
  intros x [<-|X]; [reflexivity|]. rewrite Forall_forall in F. destruct (F x X) as (k & n & [->| ->]); reflexivity.
Qed.
End Cols.

Lemma diffs_agree : forall float_ok ordT ordC o lo from to css',
  iteration_order ordT -> NoDup (map t_name (s_tables from)) ->
  do_filter o = lo_filter lo -> do_suffix o = lo_suffix lo -> do_comments o = lo_comments lo ->
  lq_diff float_ok ordT ordC lo from to = Some css' ->
  exists css, get_diff ordT ordC o from to = Some css /\ tells_all from (lq_all css') (all_changes css).
Proof.
  intros float_ok ordT ordC o lo from to css' HT Df Ef Es Ec H. unfold lq_diff, get_diff in *. rewrite Ef, Es, Ec.
  set (a1 := choose_author (do_author o) to). set (a2 := choose_author (lo_author lo) to) in *.
  unfold diff_schemas in *.
  match type of H with context [scan_tables ?d _ _ _ _ _] => set (dt2 := d) in * end.
  match goal with |- context [scan_tables ?d _ _ _ _ _] => set (dt1 := d) in * end.
  destruct (scan_tables dt2 _ _ _ _ _) as [[[[d1 k1] removed1] added]|] eqn:S; [|discriminate].
  assert (forall i id1 id2 t old css2 id2', In t (s_tables to) -> In old (s_tables from) -> t_name old = t_name t ->
    dt2 i id2 t old = Some (css2, id2') -> exists css1 id1', dt1 i id1 t old = Some (css1, id1') /\ told from css1 css2) as Hdt.
  { intros i id1 id2 t old css2 id2' _ O N D. subst dt1 dt2. cbn beta in *. eapply table_told; eassumption. }
  destruct (scan_both (told from) (told_nil from) (told_sets from) (s_tables from) (s_tables to) dt1 dt2 Hdt _ _ new_id _ _ _ _ _ _
    (fun i t I => proj2 (with_pos_in (s_tables to) t) (ex_intro _ i I)) S) as (c1 & j1 & S1 & T1 & IA). rewrite S1.
  destruct (find_renamed (tables_by_name (s_tables from)) same_columns added removed1) as [renamed removed2] eqn:F.
  assert (forall i a b, In (i, (a, b)) (ordT renamed) -> In a (s_tables to) /\ In b (s_tables from)) as IR.
  { intros i a b I. eapply Permutation_in in I; [|apply HT]. eapply renamed_from in I; [|exact F]. destruct I as (I & n & L).
    apply tables_by_name_some in L. split; [eauto|tauto]. }
  match type of H with context [drop_tables ?d _ _ _] => set (dr2 := d) in * end.
  match goal with |- context [drop_tables ?d _ _ _] => set (dr1 := d) in * end.
  pose proof (drop_both (told from) (told_nil from) (told_sets from) (s_tables from) dr1 dr2) as T2.
  specialize (T2 ltac:(intros id1 id2 old O; subst dr1 dr2; unfold told; cbn [all_changes lq_all flat_map cs_changes lq_changes app];
    apply told_one; [intros x [<-|[]]; reflexivity|reflexivity|constructor]) (ss_slice removed2) j1 k1).
  destruct (drop_tables dr1 _ _ j1) as [c2 j2], (drop_tables dr2 _ _ k1) as [d2 k2]. cbn [fst] in T2.
  match type of H with context [rename_tables ?d _ _] => set (rn2 := d) in * end.
  match goal with |- context [rename_tables ?d _ _] => set (rn1 := d) in * end.
  pose proof (rename_both (told from) (told_nil from) (told_sets from) (s_tables from) (s_tables to) rn1 rn2) as T3.
  specialize (T3 ltac:(intros id1 id2 nw old _ O; subst rn1 rn2; apply rename_told; assumption) (ordT renamed) j2 k2 IR).
  destruct (rename_tables rn1 _ j2) as [c3 j3], (rename_tables rn2 _ k2) as [d3 k3]. cbn [fst] in T3.
  destruct (create_tables _ (not_renamed added renamed) k3) as [[d4 k4]|] eqn:C; [|discriminate]. injection H as <-.
  eapply (create_both (told from) (told_nil from) (told_sets from) (s_tables to)
    (fun id t => Some ([mkCS (version id) a1 [CreateTable t]], id))) with (id1 := j3) in C.
  - destruct C as (c4 & j4 & C4 & T4). rewrite C4. eexists. split; [reflexivity|].
    change (told from (c1 ++ c2 ++ c3 ++ c4) (d1 ++ d2 ++ d3 ++ d4)). repeat apply told_sets; assumption.
  - intros id1 id2 t css2 id2' _ E. eexists _, _. split; [reflexivity|]. eapply create_told; eassumption.
  - intros t I. unfold not_renamed in I. apply in_map_iff in I. destruct I as ([i u] & <- & I). apply filter_In in I. destruct I as [I _].
    cbn [snd]. eauto.
Qed.
