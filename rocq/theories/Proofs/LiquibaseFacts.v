(** Properties of the Liquibase change logs that are not about running them *)
From Coq Require Import String Ascii List NArith Bool Lia Sorting.Permutation.
From Verif.Model Require Import GoString Util Octopus DiffCore Liquibase.
From Verif.Spec Require Import Order Text DiffSpec LiquibaseSpec Database.
From Verif.Proofs Require Import ListLemmas StringLemmas UtilProofs OctopusProofs DiffCoreProofs DiffFacts
  LiquibaseProofs DatabaseProofs MigrationProofs SchemaMigration.
Import ListNotations.
Local Open Scope string_scope.
Local Open Scope list_scope.

Section WithFloat.
Variable fk : string -> bool.

(** ** The change sets of one table *)

(** [P] holds of the changes of every change set *)
Definition each (P : list lq_change -> Prop) (css : list lq_cset) : Prop := Forall (fun cs => P (lq_changes cs)) css.

Lemma each_emit : forall (P : list lq_change -> Prop) author b pre chs st, (b = true -> P chs) -> each P (fst st) ->
  each P (fst (lq_emit author b pre chs st)).
Proof.
  intros P author [] pre chs [css id] H F; simpl in *; auto. apply Forall_app. split; auto.
Qed.

Lemma each_fold : forall {A} (P : list lq_change -> Prop) (step : list lq_cset * ident -> A -> list lq_cset * ident) l st,
  (forall st x, each P (fst st) -> each P (fst (step st x))) -> each P (fst st) -> each P (fst (fold_left step l st)).
Proof. induction l; simpl; intros; auto. Qed.

Lemma each_column : forall (P : list lq_change -> Prop) author comments t id c o css id',
  (forall ch, (forall n x, ch <> LqDropUniqueConstraint n x) -> P [ch]) ->
  lq_diff_column fk author comments t id c o = Some (css, id') -> each P css.
Proof.
  intros P author comments t id c o css id' HP H. unfold lq_diff_column in H.
  match type of H with (if _ then if _ then Some (lq_emit _ _ _ _ ?st) else _ else _) = _ =>
    assert (I1 : each P (fst st)); [|set (st5 := st) in *; clearbody st5] end.
  { do 5 (apply each_emit; [intros _; apply HP; try discriminate; destruct (c_notnull c); discriminate|]).
    constructor. }
  assert (F : forall st, Some st = Some (css, id') -> each P (fst st) -> each P css).
  { intros st E. injection E as E. rewrite E. auto. }
  destruct (negb (String.eqb (c_default c) (c_default o))).
  - destruct (String.eqb (c_default c) "").
    + eapply F; [exact H|]. apply each_emit; auto. intros _. apply HP. discriminate.
    + destruct (new_lq_default fk c); [|discriminate]. eapply F; [exact H|]. apply each_emit; auto.
      intros _. apply HP. discriminate.
  - eapply F; [exact H|]. exact I1.
Qed.

Lemma each_table : forall (P : list lq_change -> Prop) author comments suffix ord id t old css id',
  (forall ch, (forall n x, ch <> LqDropUniqueConstraint n x) -> P [ch]) ->
  (forall a b, (forall n x, a <> LqDropUniqueConstraint n x) -> (forall n x, b <> LqDropUniqueConstraint n x) -> P [a; b]) ->
  (~ (forall k, uq_of t k <-> uq_of old k) ->
     P [LqDropUniqueConstraint (t_name t) (t_name t ++ suffix)] /\ ((~ exists k, uq_of t k) -> P [])) ->
  lq_diff_table fk author comments suffix ord id t old = Some (css, id') -> each P css.
Proof.
  intros P author comments suffix ord id t old css id' HP HP2 HU H. unfold lq_diff_table in H.
  pose proof (changed_sets _ _ (uq_name_set_nodup t) (uq_name_set_nodup old)) as UC.
  pose proof (changed_sets _ _ (pk_name_set_nodup t) (pk_name_set_nodup old)) as PC.
  set (uc := negb (ss_equals (uq_name_set t) (uq_name_set old))) in *.
  set (pc := negb (ss_equals (pk_name_set t) (pk_name_set old))) in *.
  assert (HU1 : uc = true -> ~ (forall k, uq_of t k <-> uq_of old k)).
  { intros E. rewrite E in UC. intros C. apply UC. intros k. rewrite !uq_set. apply C. }
  set (e0 := lq_emit author (comments && negb (String.eqb (t_desc t) (t_desc old))) false
               [LqSetTableRemarks (t_name t) (t_desc t)] ([], id)) in H.
  assert (I0 : each P (fst e0)).
  { unfold e0. apply each_emit; [|constructor]. intros _. apply HP. discriminate. }
  destruct e0 as [css0 id0]. simpl in I0.
  destruct (scan_columns _ (t_cols old) (with_pos (t_cols t)) id0 _) as [[[[css1 id1] r1] added]|] eqn:Es;
    [|discriminate].
  apply scan_columns_spec in Es. destruct Es as [[l [-> Fl]] _].
  assert (I1 : each P (concat l)).
  { clear - Fl HP. induction Fl as [|[c o] x xs ys [i0 [i1 E]] F IH]; simpl; [constructor|].
    apply Forall_app. split; auto. eapply each_column; eauto. }
  destruct (find_renamed _ _ added r1) as [ren r2].
  assert (E : forall st0, each P (fst st0) -> Some st0 = Some (css, id') -> each P css).
  { intros st0 I E. injection E as E. rewrite E in I. exact I. }
  match type of H with match match _ with [] => Some ?st | _ => _ end with _ => _ end = _ =>
    assert (I3 : each P (fst st)); [|set (st3 := st) in *] end.
  { apply each_fold.
    { intros st x I. unfold lq_rename_column. do 2 (apply each_emit; [intros _; apply HP; discriminate|]). exact I. }
    apply each_fold.
    { intros st x I. apply each_emit; auto. intros _. apply HP. discriminate. }
    apply each_emit; [intros Eu; now apply HU, HU1|]. now apply Forall_app. }
  assert (PKS : pc = true -> P ((if Nat.ltb 0 (ss_size (pk_name_set old)) then [LqDropPrimaryKey (t_name t)] else []) ++
      (if Nat.ltb 0 (ss_size (pk_name_set t)) then [LqAddPrimaryKey (t_name t) (ss_join (pk_name_set t) ", ")] else []))).
  { intros Ep. rewrite Ep in PC. destruct (Nat.ltb 0 (ss_size (pk_name_set old))) eqn:E1, (Nat.ltb 0 (ss_size (pk_name_set t))) eqn:E2;
      cbn [app].
    - apply HP2; discriminate.
    - apply HP; discriminate.
    - apply HP; discriminate.
    - exfalso. apply PC. apply size_zero in E1. apply size_zero in E2. rewrite E1, E2. tauto. }
  assert (UQS : uc = true -> P (if Nat.ltb 0 (ss_size (uq_name_set t))
      then [LqAddUniqueConstraint (t_name t) (ss_join (uq_name_set t) ", ") (t_name t ++ suffix)] else [])).
  { intros Eu. destruct (Nat.ltb 0 (ss_size (uq_name_set t))) eqn:E1; [apply HP; discriminate|].
    apply HU; [now apply HU1|]. intros C. apply uq_size in C. congruence. }
  match type of H with match match ?x with [] => _ | _ => _ end with _ => _ end = _ => destruct x end.
  - eapply E; [|exact H]. apply each_emit; auto. apply each_emit; auto.
  - destruct (add_column_list fk comments (t_cols t) _); [|discriminate].
    eapply E; [|exact H]. apply each_emit; auto. apply each_emit; auto. apply each_emit; auto.
    intros _. apply HP. discriminate.
Qed.

Lemma each_concat : forall (P : list lq_change -> Prop) ll, Forall (each P) ll -> each P (concat ll).
Proof. intros P ll F. induction F; simpl; [constructor|]. now apply Forall_app. Qed.

(** ** C26 *)

Lemma lq_diff_each : forall (P : list lq_change -> Prop) ordT ordC o from to css,
  lq_diff fk ordT ordC o from to = Some css -> iteration_order ordT ->
  (forall ch, (forall n x, ch <> LqDropUniqueConstraint n x) -> P [ch]) ->
  (forall a b, (forall n x, a <> LqDropUniqueConstraint n x) -> (forall n x, b <> LqDropUniqueConstraint n x) -> P [a; b]) ->
  (forall old, In old (s_tables from) -> (exists k, uq_of old k) ->
     P [LqDropUniqueConstraint (t_name old) (t_name old ++ lo_suffix o)]) ->
  (forall t old, In t (s_tables to) -> selected (lo_filter o) t -> In old (s_tables from) -> t_name old = t_name t ->
     ~ (forall k, uq_of t k <-> uq_of old k) ->
     P [LqDropUniqueConstraint (t_name t) (t_name t ++ lo_suffix o)] /\ ((~ exists k, uq_of t k) -> P [])) ->
  each P css.
Proof.
  intros P ordT ordC o from to css H HT HP HP2 HD HU. unfold lq_diff in H.
  destruct (diff_schemas_shape _ _ _ _ _ _ _ _ _ H HT)
    as [l1 [css2 [l3 [l4 [ren [rem [E [F1 [F2 [F3 [F4 [N [G [Pm [R [NR MX]]]]]]]]]]]]]]]].
  rewrite E. clear E. apply Forall_app. split; [|apply Forall_app; split; [|apply Forall_app; split]];
    [apply (each_concat P)| |apply (each_concat P)|apply (each_concat P)].
  - assert (K : forall p, In p (kept (lo_filter o) (s_tables from) (with_pos (s_tables to))) ->
      In (snd (fst p)) (s_tables to) /\ selected (lo_filter o) (snd (fst p)) /\ In (snd p) (s_tables from) /\
      t_name (snd p) = t_name (snd (fst p))).
    { intros [[i t] old] Hp. now apply kept_in in Hp. }
    clear - F1 K HP HP2 HU. induction F1 as [|p cs l l' [i0 [i1 [_ Hd]]] F IH]; constructor.
    + eapply each_table; eauto. destruct (K p (or_introl eq_refl)) as [K1 [K2 [K3 K4]]]. apply HU; auto.
    + apply IH. intros q Hq. apply K. now right.
  - clear - F2 HP. induction F2 as [|n cs l l' [i0 [old [-> _]]] F IH]; constructor; auto. simpl.
    apply HP. discriminate.
  - assert (K : forall r, In r (ordT ren) -> In (snd (snd r)) (s_tables from)).
    { intros [i [nw old]] Hr. assert (Hr' : In (i, (nw, old)) ren) by (eapply Permutation_in; [apply HT|exact Hr]).
      apply R in Hr'. destruct Hr' as [_ [Hr' _]]. now apply tables_by_name_some in Hr'. }
    clear - F3 K HP HD. induction F3 as [|[i [nw old]] cs l l' [i0 [i1 [_ Hr]]] F IH]; constructor.
    + cbn [fst snd] in Hr. unfold lq_rename_table in Hr. apply (f_equal fst) in Hr. cbn [fst] in Hr. subst cs.
      do 2 (apply each_emit; [intros _; apply HP; discriminate|]). cbn [fst].
      destruct (Nat.ltb 0 (ss_size (uq_name_set old))) eqn:E1; [|constructor]. constructor; [|constructor].
      simpl. apply HD; [apply (K (i, (nw, old))); now left|]. now apply uq_size.
    + apply IH. intros q Hq. apply K. now right.
  - clear - F4 HP. induction F4 as [|t cs l l' [i0 [i1 [_ Hc]]] F IH]; constructor; auto.
    unfold new_create_table_cs in Hc. destruct (map_lq_columns _ _ _ _ _); [|discriminate].
    apply (f_equal (fun o => match o with Some p => fst p | None => cs end)) in Hc. cbv beta iota zeta in Hc.
    cbn [fst] in Hc. subst cs. do 3 (apply each_emit; [intros _; apply HP; discriminate|]). constructor.
Qed.

Lemma lq_constraints : forall ordT ordC o from to css,
  lq_diff fk ordT ordC o from to = Some css -> iteration_order ordT ->
  (forall t old, In t (s_tables to) -> selected (lo_filter o) t -> In old (s_tables from) -> t_name old = t_name t ->
     ~ (forall k, uq_of t k <-> uq_of old k) -> (exists k, uq_of old k) /\ (exists k, uq_of t k)) ->
  (forall cs, In cs css -> lq_changes cs <> []) /\
  (forall n name, In (LqDropUniqueConstraint n name) (lq_all css) ->
     exists old, In old (s_tables from) /\ t_name old = n /\ exists k, uq_of old k).
Proof.
  intros ordT ordC o from to css H HT HU.
  assert (G : each (fun chs => chs <> [] /\ forall n name, In (LqDropUniqueConstraint n name) chs ->
     exists old, In old (s_tables from) /\ t_name old = n /\ exists k, uq_of old k) css).
  { eapply lq_diff_each; eauto.
    - intros ch Hc. split; [discriminate|]. intros n name [C|[]]. now apply Hc in C.
    - intros a b Ha Hb. split; [discriminate|]. intros n name [C|[C|[]]]; [now apply Ha in C|now apply Hb in C].
    - intros old Ho Hk. split; [discriminate|]. intros n name [C|[]]. injection C as <- <-. eauto.
    - intros t old Ht Hs Ho Hn Hc. destruct (HU t old Ht Hs Ho Hn Hc) as [U1 U2]. split; [|contradiction].
      split; [discriminate|]. intros n name [C|[]]. injection C as <- <-. eauto. }
  unfold each in G. rewrite Forall_forall in G. split.
  - intros cs Hc. now apply G.
  - intros n name Hn. unfold lq_all in Hn. apply in_flat_map in Hn. destruct Hn as [cs [Hc Hn]].
    apply G in Hc. destruct Hc as [_ Hc]. eauto.
Qed.

(** ** C18 *)

Lemma inside_names : forall ch, inside ch -> lq_gone ch = [] /\ lq_appeared ch = [].
Proof. intros ch H. destruct ch; simpl in H; try contradiction; auto. Qed.

Lemma inside_all : forall l, Forall inside l -> flat_map lq_gone l = [] /\ flat_map lq_appeared l = [].
Proof.
  intros l F. induction F as [|ch l H F [I1 I2]]; simpl; auto. apply inside_names in H. destruct H as [H1 H2].
  now rewrite H1, H2, I1, I2.
Qed.

Lemma rename_all_names : forall suffix l,
  flat_map lq_gone (flat_map (lq_rename_all suffix) l) = map (fun r => t_name (snd (snd r))) l /\
  flat_map lq_appeared (flat_map (lq_rename_all suffix) l) = map (fun r => t_name (fst (snd r))) l.
Proof.
  intros suffix. induction l as [|[i [nw old]] l [I1 I2]]; cbn [flat_map map]; auto.
  rewrite !flat_map_app, I1, I2. unfold lq_rename_all. cbn [fst snd].
  destruct (Nat.ltb 0 (ss_size (uq_name_set old))), (Nat.ltb 0 (ss_size (uq_name_set nw))); split; reflexivity.
Qed.

Lemma lq_classification : forall ordT ordC o from to css,
  lq_diff fk ordT ordC o from to = Some css ->
  iteration_order ordT -> (forall i, iteration_order (ordC i)) ->
  let chs := lq_all css in
  (NoDup (flat_map lq_gone chs) /\
   forall n, In n (flat_map lq_gone chs) <->
     In n (map t_name (s_tables from)) /\ ~ In n (map t_name (select (lo_filter o) (s_tables to)))) /\
  Permutation (flat_map lq_appeared chs)
    (map t_name (filter (fun t => negb (str_mem (t_name t) (map t_name (s_tables from))))
                        (select (lo_filter o) (s_tables to)))) /\
  (forall nw old, In (LqRenameTable nw old) chs ->
     exists t t', In t (select (lo_filter o) (s_tables to)) /\ t_name t = nw /\
       In t' (s_tables from) /\ t_name t' = old /\ t_cols t = t_cols t').
Proof.
  intros ordT ordC o from to css H HT HC. cbv zeta. unfold lq_diff in H.
  destruct (diff_schemas_shape _ _ _ _ _ _ _ _ _ H HT)
    as [l1 [css2 [l3 [l4 [ren [rem [E [F1 [F2 [F3 [F4 [N [G [Pm [R [NR MX]]]]]]]]]]]]]]]].
  set (author := choose_author (lo_author o) to) in *.
  assert (SI : forall t, In t (select (lo_filter o) (s_tables to)) <-> In t (s_tables to) /\ passes (lo_filter o) t = true).
  { intros t. rewrite <- passes_select. apply filter_In. }
  assert (A1 : Forall inside (lq_all (concat l1))).
  { clear - F1 HC. induction F1 as [|p cs l l' [i0 [i1 [_ Hd]]] F IH]; cbn [concat]; [constructor|].
    rewrite lq_all_app. apply Forall_app. split; auto.
    apply lq_all_inside in Hd; auto. destruct Hd as [_ Hd]. eapply Forall_impl; [|exact Hd]. simpl. tauto. }
  assert (A2 : lq_all css2 = map LqDropTable (ss_slice rem)).
  { clear - F2. induction F2 as [|n cs l l' [i0 [old [-> _]]] F IH]; simpl; auto. now rewrite IH. }
  assert (A3 : lq_all (concat l3) = flat_map (lq_rename_all (lo_suffix o)) (ordT ren)).
  { clear - F3. induction F3 as [|[i [nw old]] cs l l' [id0 [id1 [_ Hr]]] F I1]; cbn [concat flat_map]; auto.
    cbn [fst snd] in Hr. destruct (lq_rename_table_all _ _ _ i _ _ _ _ Hr) as [X1 X2]. now rewrite lq_all_app, X1, I1. }
  assert (A4 : exists lc, Forall2 (fun t chs => exists r cols rest, chs = LqCreateTable (t_name t) r cols :: rest /\ Forall inside rest)
              (not_renamed (filter (is_added (lo_filter o) (s_tables from)) (with_pos (s_tables to))) ren) lc /\
            lq_all (concat l4) = concat lc).
  { exists (map lq_all l4). split; [|apply lq_all_concat].
    clear - F4. induction F4 as [|t cs l l' [i0 [i1 [_ Hc]]] F IH]; cbn [map]; constructor; auto.
    unfold new_create_table_cs in Hc. destruct (map_lq_columns _ _ _ _ _) as [lcs|]; [|discriminate].
    apply (f_equal (fun o => match o with Some p => fst p | None => cs end)) in Hc. cbv beta iota zeta in Hc.
    cbn [fst] in Hc. subst cs. rewrite !lq_emit_changes. cbn [fst lq_all flat_map app].
    eexists. eexists. eexists. split; [reflexivity|]. apply Forall_app. 
    split; match goal with |- Forall _ (if ?b then _ else _) => destruct b end; repeat constructor. }
  destruct A4 as [lc [A4 A4']].
  assert (B4 : flat_map lq_gone (concat lc) = [] /\
    flat_map lq_appeared (concat lc) = map t_name (not_renamed (filter (is_added (lo_filter o) (s_tables from)) (with_pos (s_tables to))) ren)
    /\ forall a b, ~ In (LqRenameTable a b) (concat lc)).
  { clear - A4. induction A4 as [|t chs l l' [r [cols [rest [-> Fr]]]] F [I1 [I2 I3]]]; cbn [concat map]; auto.
    destruct (inside_all rest Fr) as [J1 J2]. rewrite !flat_map_app. cbn [flat_map lq_gone lq_appeared app].
    rewrite J1, J2, I1, I2. split; auto. split; auto. intros a b C. cbn [app] in C. destruct C as [C|C]; [|apply in_app_iff in C; destruct C as [C|C]].
    - discriminate.
    - rewrite Forall_forall in Fr. now apply Fr in C.
    - now apply I3 in C. }
  destruct B4 as [B4 [B4' B4'']]. destruct (inside_all _ A1) as [B1 B1'].
  destruct (rename_all_names (lo_suffix o) (ordT ren)) as [B3 B3'].
  assert (GN : flat_map lq_gone (lq_all css) = ss_slice rem ++ map (fun r => t_name (snd (snd r))) (ordT ren)).
  { rewrite E, !lq_all_app, !flat_map_app, A2, A3, A4', B1, B3, B4, app_nil_r. simpl. f_equal.
    clear. induction (ss_slice rem); simpl; congruence. }
  assert (AP : flat_map lq_appeared (lq_all css) = map (fun r => t_name (fst (snd r))) (ordT ren) ++
     map t_name (not_renamed (filter (is_added (lo_filter o) (s_tables from)) (with_pos (s_tables to))) ren)).
  { rewrite E, !lq_all_app, !flat_map_app, A2, A3, A4', B1', B3', B4'. simpl.
    replace (flat_map lq_appeared (map LqDropTable (ss_slice rem))) with (@nil string); auto.
    clear. induction (ss_slice rem); simpl; congruence. }
  destruct G as [g [G1 [G2 G3]]].
  assert (PG : Permutation g (flat_map lq_gone (lq_all css))).
  { rewrite GN, G2, Permutation_app_comm. apply Permutation_app.
    - symmetry. apply ss_slice_perm.
    - apply Permutation_map. symmetry. apply HT. }
  split; [split|split].
  - eapply Permutation_NoDup; eauto.
  - intros n. transitivity (In n g); [split; apply Permutation_in; [symmetry; exact PG|exact PG]|].
    rewrite G3. split; intros [X1 X2]; (split; [exact X1|]); intros C; apply X2.
    + apply in_map_iff in C. destruct C as [t [C1 C2]]. apply SI in C2. exists t. tauto.
    + destruct C as [t [C1 [C2 C3]]]. rewrite <- C3. apply in_map. apply SI. auto.
  - rewrite AP. rewrite (Permutation_map (fun r => t_name (fst (snd r))) (HT ren)).
    rewrite <- (map_map (fun r => fst (snd r)) t_name), <- map_app. apply Permutation_map. rewrite <- Pm.
    rewrite <- passes_select. rewrite <- (with_pos_snd (s_tables to)) at 2.
    generalize (with_pos (s_tables to)). clear. intros l.
    induction l as [|[i t] l IH]; simpl; auto. unfold is_added at 1. unfold in_names at 1. simpl.
    destruct (passes (lo_filter o) t); simpl; auto.
    assert (S : str_mem (t_name t) (map t_name (s_tables from)) = str_in (t_name t) (map t_name (s_tables from))).
    { apply eq_true_iff_eq. rewrite str_mem_iff. symmetry. apply str_in_iff. }
    rewrite S. destruct (str_in (t_name t) (map t_name (s_tables from))); simpl; auto.
  - intros nw old Hr. rewrite E, !lq_all_app, !in_app_iff, A2, A3, A4' in Hr. destruct Hr as [Hr|[Hr|[Hr|Hr]]].
    + rewrite Forall_forall in A1. now apply A1 in Hr.
    + apply in_map_iff in Hr. destruct Hr as [x [Hr _]]. discriminate.
    + apply in_flat_map in Hr. destruct Hr as [[i [t t']] [Hi Hr]].
      assert (Hi' : In (i, (t, t')) ren) by (eapply Permutation_in; [apply HT|exact Hi]).
      apply R in Hi'. destruct Hi' as [Q1 [Q2 Q3]]. apply filter_In in Q1. destruct Q1 as [Q1 Q4].
      unfold is_added in Q4. simpl in Q4. apply andb_true_iff in Q4. destruct Q4 as [Q4 _].
      apply tables_by_name_some in Q2.
      assert (Er : nw = t_name t /\ old = t_name t').
      { unfold lq_rename_all in Hr. cbn [fst snd] in Hr. rewrite !in_app_iff in Hr. destruct Hr as [Hr|[Hr|Hr]].
        - destruct (Nat.ltb _ _); [destruct Hr as [Hr|[]]; discriminate|destruct Hr].
        - destruct Hr as [Hr|[]]. injection Hr as -> ->. auto.
        - match type of Hr with In _ (if ?b then _ else _) => destruct b end; [destruct Hr as [Hr|[]]; discriminate|destruct Hr]. }
      destruct Er as [-> ->]. exists t, t'. split; [|tauto]. apply SI. split; auto. apply with_pos_in. eauto.
    + now apply B4'' in Hr.
Qed.

(** ** C28 *)

Lemma insert_after_names : forall p a r x l, map d_name l = p ++ a :: r -> ~ In a p ->
  map d_name (insert_after a x l) = p ++ a :: d_name x :: r.
Proof.
  induction p as [|q p IH]; intros a r x [|d l] E NI; simpl in E; try discriminate; injection E as E1 E2; simpl.
  - rewrite E1, String.eqb_refl. simpl. now rewrite E1, E2.
  - destruct (String.eqb (d_name d) a) eqn:Ed.
    + apply String.eqb_eq in Ed. exfalso. apply NI. left. congruence.
    + simpl. rewrite E1, (IH a r); auto. intros C. apply NI. now right.
Qed.

Lemma nth_app_last : forall {A} (l : list A) x r, nth_error (l ++ x :: r) (length l) = Some x.
Proof. intros. rewrite nth_error_app2, PeanoNat.Nat.sub_diag; auto. Qed.

Lemma add_order : forall comments isnew suf pre adds b,
  add_column_list fk comments (pre ++ suf) (filter (fun ic => isnew (snd ic)) (combine (seq (length pre) (length suf)) suf)) = Some adds ->
  NoDup (map c_name (pre ++ suf)) -> (forall c, In c (pre ++ suf) -> c_name c <> "") ->
  (match pre with [] => match suf with [] => True | c :: _ => isnew c = false end | _ => True end) ->
  map d_name (b_cols b) = map c_name pre ++ map c_name (filter (fun c => negb (isnew c)) suf) ->
  exists b', fold_opt add_col adds b = Some b' /\ map d_name (b_cols b') = map c_name (pre ++ suf).
Proof.
  intros comments isnew. induction suf as [|c suf IH]; intros pre adds b H D Hne Hh Hb; cbn [length seq combine filter snd] in H.
  - simpl in H. injection H as <-. exists b. split; [reflexivity|]. simpl in Hb. now rewrite app_nil_r in *.
  - assert (Ea : pre ++ c :: suf = (pre ++ [c]) ++ suf) by now rewrite <- app_assoc.
    assert (El : length (pre ++ [c]) = S (length pre)) by (rewrite app_length; simpl; lia).
    assert (Hp : match pre ++ [c] with [] => match suf with [] => True | x :: _ => isnew x = false end | _ => True end).
    { destruct pre; exact I. }
    destruct (isnew c) eqn:En.
    + simpl in Hb. rewrite En in Hb. simpl in Hb. cbn [add_column_list] in H.
      destruct (new_lq_column fk c true true) as [lc|] eqn:Elc; [|discriminate].
      match type of H with match ?x with _ => _ end = _ => destruct x as [r|] eqn:Er; [|discriminate] end.
      injection H as <-. cbn [fold_opt].
      destruct pre as [|p0 pre0]; [congruence|]. clear Hh.
      destruct (exists_last (l := p0 :: pre0)) as [pp [pl Epl]]; [discriminate|]. rewrite Epl in *. clear Epl p0 pre0.
      assert (Las : last_col_name ((pp ++ [pl]) ++ c :: suf) (length (pp ++ [pl])) = c_name pl).
      { rewrite app_length. simpl. rewrite PeanoNat.Nat.add_1_r. simpl. rewrite <- app_assoc. simpl.
        now rewrite nth_app_last. }
      rewrite Las.
      set (lc' := lc_set_after (c_name pl) (lc_comments comments lc)).
      assert (N1 : lc_name lc = c_name c).
      { unfold new_lq_column in Elc. destruct (negb (String.eqb (c_default c) "")).
        - destruct (new_lq_default fk c); [|discriminate]. simpl in Elc. now injection Elc as <-.
        - now injection Elc as <-. }
      assert (K1 : declares k_pk lc = false /\ declares k_unique lc = false).
      { unfold new_lq_column in Elc. rewrite !andb_false_r in Elc. simpl in Elc.
        destruct (negb (String.eqb (c_default c) "")).
        - destruct (new_lq_default fk c); [|discriminate]. simpl in Elc. injection Elc as <-. unfold declares. simpl.
          destruct (c_notnull c); auto.
        - injection Elc as <-. unfold declares. simpl. destruct (c_notnull c); auto. }
      assert (N2 : lc_name lc' = c_name c) by (unfold lc', lc_comments; destruct comments; exact N1).
      assert (K2 : declares k_pk lc' = false /\ declares k_unique lc' = false).
      { unfold lc', lc_comments. destruct comments; exact K1. }
      destruct K2 as [K2 K3].
      rewrite map_app in D. cbn [map] in D.
      assert (NI : ~ In (c_name c) (map d_name (b_cols b))).
      { rewrite Hb, in_app_iff. apply NoDup_remove_2 in D. intros C. apply D. apply in_app_iff. destruct C as [C|C]; auto.
        right. apply in_map_iff in C. destruct C as [x [X1 X2]]. apply filter_In in X2. rewrite <- X1. apply in_map. tauto. }
      assert (Nc : named_col (c_name c) b = false).
      { apply not_true_iff_false. intros C. apply NI. now apply (proj1 (named_col_in _ _)). }
      assert (Np : named_col (c_name pl) b = true).
      { apply named_col_in. rewrite Hb. apply in_or_app. left. rewrite map_app. apply in_or_app. right. now left. }
      assert (Ne : String.eqb (c_name pl) "" = false).
      { apply String.eqb_neq. apply Hne. apply in_or_app. left. apply in_or_app. right. now left. }
      unfold add_col at 1. rewrite N2, Nc, K2, K3. cbn [orb]. change (lc_after lc') with (c_name pl).
      rewrite Ne, Np. cbv iota.
      set (b1 := set_cols b (insert_after (c_name pl) (new_dbcol lc') (b_cols b))).
      assert (B1 : map d_name (b_cols b1) = map c_name ((pp ++ [pl]) ++ [c]) ++ map c_name (filter (fun x => negb (isnew x)) suf)).
      { unfold b1. cbn [b_cols set_cols].
        rewrite (insert_after_names (map c_name pp) (c_name pl) (map c_name (filter (fun x => negb (isnew x)) suf))).
        - change (d_name (new_dbcol lc')) with (lc_name lc'). rewrite N2, !map_app. simpl. rewrite <- !app_assoc. reflexivity.
        - rewrite Hb, map_app, <- app_assoc. reflexivity.
        - rewrite map_app, <- app_assoc in D. cbn [map app] in D. apply NoDup_remove_2 in D. intros C. apply D.
          apply in_or_app. now left. }
      destruct (IH ((pp ++ [pl]) ++ [c]) r b1) as [b' [R1 R2]].
      * rewrite El, <- Ea. exact Er.
      * rewrite <- Ea, map_app. exact D.
      * rewrite <- Ea. exact Hne.
      * exact Hp.
      * exact B1.
      * exists b'. split; auto. now rewrite Ea.
    + destruct (IH (pre ++ [c]) adds b) as [b' [R1 R2]].
      * rewrite El, <- Ea. exact H.
      * now rewrite <- Ea.
      * now rewrite <- Ea.
      * exact Hp.
      * rewrite Hb. simpl. rewrite En. simpl. rewrite map_app, <- app_assoc. reflexivity.
      * exists b'. split; auto. now rewrite Ea.
Qed.

Lemma add_list_names : forall comments all final adds, add_column_list fk comments all final = Some adds ->
  map lc_name adds = map (fun ic => c_name (snd ic)) final.
Proof.
  intros comments all. induction final as [|[i c] final IH]; intros adds H; simpl in H.
  - now injection H as <-.
  - destruct (new_lq_column fk c true true) as [lc|] eqn:Elc; [|discriminate].
    destruct (add_column_list fk comments all final) as [r|]; [|discriminate]. injection H as <-. cbn [map snd].
    f_equal; [|now apply IH].
    assert (N1 : lc_name lc = c_name c).
    { unfold new_lq_column in Elc. destruct (negb (String.eqb (c_default c) "")).
      - destruct (new_lq_default fk c); [|discriminate]. simpl in Elc. now injection Elc as <-.
      - now injection Elc as <-. }
    unfold lc_comments. destruct comments; exact N1.
Qed.

Lemma table_added_order : forall sv author comments suffix ord id t old css id' n adds b,
  lq_diff_table fk author comments suffix ord id t old = Some (css, id') -> iteration_order ord ->
  In (LqAddColumn n adds) (lq_all css) ->
  NoDup (map c_name (t_cols t)) -> (forall c, In c (t_cols t) -> c_name c <> "") ->
  (match t_cols t with [] => True | c :: _ => ~ In (c_name c) (map lc_name adds) end) ->
  map d_name (b_cols b) = filter (fun k => negb (str_mem k (map lc_name adds))) (map c_name (t_cols t)) ->
  exists b', table_step sv b (LqAddColumn n adds) = Some b' /\ map d_name (b_cols b') = map c_name (t_cols t).
Proof.
  intros sv author comments suffix ord id t old css id' n adds b H Hord Hin D Hne Hh Hb.
  destruct (lq_diff_table_changes _ _ _ _ _ _ _ _ _ _ H Hord)
    as [lcol [removed [renamed [adds' [E [_ [F [Ea _]]]]]]]].
  set (final := filter (fun ia => negb (existsb (fun r => Nat.eqb (fst ia) (fst r)) renamed))
                 (filter (is_added_col (t_cols old)) (with_pos (t_cols t)))) in *.
  assert (adds' = adds).
  { rewrite E in Hin. clear E. rewrite !in_app_iff in Hin.
    destruct Hin as [X|[X|[X|[X|[X|[X|[X|X]]]]]]].
    - match type of X with In _ (if ?b then _ else _) => destruct b end; [destruct X as [X|[]]; discriminate|destruct X].
    - exfalso. apply in_concat in X. destruct X as [l [X1 X2]].
      destruct (Forall2_in_r _ _ _ _ F X1) as [[c o] [_ X]]. unfold lq_column_changes in X.
      match type of X with context[Some (?chs ++ _)] => assert (C : ~ In (LqAddColumn n adds) chs) end.
      { rewrite !in_app_iff. intros Y. repeat (destruct Y as [Y|Y]);
        (match type of Y with In _ (if ?b then _ else _) => destruct b end; [|destruct Y]);
        destruct Y as [Y|[]]; try discriminate; destruct (c_notnull c); discriminate. }
      match type of X with context[Some (?chs ++ _)] => set (l0 := chs) in * end. clearbody l0.
      destruct (negb (String.eqb (c_default c) (c_default o))); [|injection X as <-; auto].
      destruct (String.eqb (c_default c) "").
      * injection X as <-. apply in_app_iff in X2. destruct X2 as [X2|[X2|[]]]; [auto|discriminate].
      * destruct (new_lq_default fk c); [|discriminate]. injection X as <-. apply in_app_iff in X2.
        destruct X2 as [X2|[X2|[]]]; [auto|discriminate].
    - match type of X with In _ (if ?b then _ else _) => destruct b end; [destruct X as [X|[]]; discriminate|destruct X].
    - apply in_map_iff in X. destruct X as [k' [X X']]. discriminate.
    - exfalso. apply in_flat_map in X. destruct X as [r [_ X]]. unfold lq_rename_changes in X.
      destruct X as [X|X]; [discriminate|]. destruct (c_notnull _); [destruct X as [X|[]]; discriminate|destruct X].
    - destruct final; [destruct X|destruct X as [X|[]]; now injection X].
    - match type of X with In _ (if ?b then _ else _) => destruct b end; [|destruct X]. apply in_app_iff in X.
      destruct X as [X|X];
        (match type of X with In _ (if ?b then _ else _) => destruct b end; [destruct X as [X|[]]; discriminate|destruct X]).
    - match type of X with In _ (if ?b then _ else _) => destruct b end; [|destruct X].
      match type of X with In _ (if ?b then _ else _) => destruct b end; [destruct X as [X|[]]; discriminate|destruct X]. }
  subst adds'. clear E F Hin. pose proof (add_list_names _ _ _ _ Ea) as Na.
  set (isnew := fun c => str_mem (c_name c) (map lc_name adds)) in *.
  assert (EF : final = filter (fun ic => isnew (snd ic)) (with_pos (t_cols t))).
  { assert (Q : forall ic, In ic (with_pos (t_cols t)) -> (In ic final <-> isnew (snd ic) = true)).
    { intros [i c] Hi. unfold isnew. rewrite str_mem_iff, Na. split.
      - intros X. apply in_map_iff. exists (i, c). auto.
      - intros X. apply in_map_iff in X. destruct X as [[j c'] [X1 X2]]. simpl in X1.
        assert (X3 : In (j, c') (with_pos (t_cols t))) by (unfold final in X2; rewrite !filter_In in X2; tauto).
        apply with_pos_nth in Hi. apply with_pos_nth in X3.
        assert (i = j); [|subst j; congruence].
        apply (proj1 (NoDup_nth_error (map c_name (t_cols t))) D).
        + rewrite map_length. apply nth_error_Some. congruence.
        + rewrite !nth_error_map, Hi, X3. simpl. congruence. }
    unfold final in *. clear Ea Na. revert Q.
    set (p1 := fun ia : nat * column => negb (existsb (fun r : nat * (column * column) => Nat.eqb (fst ia) (fst r)) renamed)).
    set (p2 := is_added_col (t_cols old)).
    generalize (with_pos (t_cols t)). intros l Q.
    assert (EE : filter p1 (filter p2 l) = filter (fun x => p2 x && p1 x) l).
    { clear. induction l as [|x l IH]; simpl; auto. destruct (p2 x); simpl; [|auto].
      destruct (p1 x); now rewrite IH. }
    rewrite EE in *. apply filter_ext_in. intros ic Hi. specialize (Q ic Hi). rewrite filter_In in Q.
    apply eq_true_iff_eq. tauto. }
  rewrite EF in Ea. unfold with_pos in Ea. cbn [table_step].
  destruct (add_order comments isnew (t_cols t) [] adds b) as [b' [R1 R2]]; auto.
  - destruct (t_cols t) as [|c cs]; auto. unfold isnew. apply not_true_iff_false. rewrite str_mem_iff. exact Hh.
  - rewrite Hb. simpl. clear. induction (t_cols t) as [|c cs IH]; simpl; auto. unfold isnew at 1.
    destruct (str_mem (c_name c) (map lc_name adds)); simpl; auto. now rewrite IH.
  - eauto.
Qed.

Lemma lq_added_order : forall sv ordT ordC o from to css n adds t b,
  lq_diff fk ordT ordC o from to = Some css ->
  iteration_order ordT -> (forall i, iteration_order (ordC i)) ->
  NoDup (map t_name (s_tables to)) ->
  In (LqAddColumn n adds) (lq_all css) -> In t (s_tables to) -> t_name t = n ->
  NoDup (map c_name (t_cols t)) -> (forall c, In c (t_cols t) -> c_name c <> "") ->
  (match t_cols t with [] => True | c :: _ => ~ In (c_name c) (map lc_name adds) end) ->
  map d_name (b_cols b) = filter (fun k => negb (str_mem k (map lc_name adds))) (map c_name (t_cols t)) ->
  exists b', table_step sv b (LqAddColumn n adds) = Some b' /\ map d_name (b_cols b') = map c_name (t_cols t).
Proof.
  intros sv ordT ordC o from to css n adds t b H HT HC Dn Hin Ht Hn D Hne Hh Hb. unfold lq_diff in H.
  destruct (diff_schemas_shape _ _ _ _ _ _ _ _ _ H HT)
    as [l1 [css2 [l3 [l4 [ren [rem [E [F1 [F2 [F3 [F4 _]]]]]]]]]]].
  rewrite E, !lq_all_app, !in_app_iff in Hin. destruct Hin as [X|[X|[X|X]]].
  - rewrite lq_all_concat in X. apply in_concat in X. destruct X as [l [X1 X2]]. apply in_map_iff in X1.
    destruct X1 as [cs [<- X1]]. destruct (Forall2_in_r _ _ _ _ F1 X1) as [[[i t'] old] [Hk [i0 [i1 [_ Hd]]]]].
    simpl in Hd. apply kept_in in Hk. destruct Hk as [K1 _].
    assert (Ht' : t_name t' = n).
    { destruct (lq_all_inside _ _ _ _ _ _ _ _ _ _ Hd (HC i)) as [_ Z]. rewrite Forall_forall in Z.
      apply Z in X2. destruct X2 as [_ X2]. now simpl in X2. }
    assert (t' = t).
    { clear - Dn K1 Ht Hn Ht'. induction (s_tables to) as [|x l IH]; [destruct Ht|]. simpl in Dn.
      inversion Dn as [|? ? NI ND]; subst. destruct Ht as [->|Ht], K1 as [->|K1]; auto.
      - exfalso. apply NI. rewrite <- Ht'. now apply in_map.
      - exfalso. apply NI. rewrite Ht'. now apply in_map. }
    subst t'. eapply table_added_order; eauto.
  - exfalso. unfold lq_all in X. apply in_flat_map in X. destruct X as [cs [X1 X2]].
    destruct (Forall2_in_r _ _ _ _ F2 X1) as [k [_ [i0 [old [-> _]]]]]. destruct X2 as [X2|[]]. discriminate.
  - exfalso. rewrite lq_all_concat in X. apply in_concat in X. destruct X as [l [X1 X2]]. apply in_map_iff in X1.
    destruct X1 as [cs [<- X1]]. destruct (Forall2_in_r _ _ _ _ F3 X1) as [[i [nw old]] [_ [i0 [i1 [_ Hr]]]]].
    cbn [fst snd] in Hr. destruct (lq_rename_table_all _ _ _ i _ _ _ _ Hr) as [Y _]. rewrite Y in X2.
    unfold lq_rename_all in X2. rewrite !in_app_iff in X2. cbn [fst snd] in X2. destruct X2 as [X2|[X2|X2]].
    + match type of X2 with In _ (if ?b then _ else _) => destruct b end; [destruct X2 as [X2|[]]; discriminate|destruct X2].
    + destruct X2 as [X2|[]]. discriminate.
    + match type of X2 with In _ (if ?b then _ else _) => destruct b end; [destruct X2 as [X2|[]]; discriminate|destruct X2].
  - exfalso. rewrite lq_all_concat in X. apply in_concat in X. destruct X as [l [X1 X2]]. apply in_map_iff in X1.
    destruct X1 as [cs [<- X1]]. destruct (Forall2_in_r _ _ _ _ F4 X1) as [x [_ [i0 [i1 [_ Hc]]]]].
    unfold new_create_table_cs in Hc. destruct (map_lq_columns _ _ _ _ _) as [lcs|]; [|discriminate].
    apply (f_equal (fun o => match o with Some p => fst p | None => cs end)) in Hc. cbv beta iota zeta in Hc.
    cbn [fst] in Hc. subst cs. rewrite !lq_emit_changes in X2. cbn [fst lq_all flat_map app] in X2.
    destruct X2 as [X2|X2]; [discriminate|]. apply in_app_iff in X2.
    destruct X2 as [X2|X2]; (match type of X2 with In _ (if ?b then _ else _) => destruct b end;
      [destruct X2 as [X2|[]]; discriminate|destruct X2]).
Qed.
End WithFloat.
