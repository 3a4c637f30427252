(** Values of columns through reports and scripts (C118) *)
From Coq Require Import String List NArith Bool Lia Sorting.Permutation.
From Verif.Model Require Import GoString Util Octopus DiffCore Diff DiffWriters Liquibase.
From Verif.Model Require Mysql.
From Verif.Spec Require Import DiffSpec LiquibaseSpec Database MysqlGrammar MysqlSpec FlywaySpec TraceSpec.
From Verif.Proofs Require Import StringLemmas ListLemmas OctopusProofs DiffCoreProofs DiffProofs DiffFacts MigrationProofs
  SchemaMigration Trace TraceSchema TraceLog.
From Verif.Proofs Require FlywayFacts.
Import ListNotations.
Local Open Scope string_scope.

Definition quiet (ch : change) : Prop := forall p, change_moves ch p = Some p.
Lemma trace_quiet : forall l p, Forall quiet l -> trace change_moves l p = Some p.
Proof. intros l p F. induction F as [|x l H F IH]; simpl; auto. now rewrite H. Qed.

(** changes of one table, by the name of it *)
Definition change_own (n : string) (ch : change) : Prop :=
  match ch with
  | DropTable _ | RenameTable _ _ => False
  | DropColumn t _ | RenameColumn t _ _ => t_name t = n
  | _ => True
  end.
Lemma change_own_other : forall n x p, change_own n x -> fst p <> n -> change_moves x p = Some p.
Proof.
  intros n x [m c] H N. simpl in N. destruct x; simpl in *; try contradiction; auto; unfold column_gone, column_renamed; cbn [fst snd];
    destruct (String.eqb_spec m (t_name t)); try congruence; reflexivity.
Qed.
Lemma change_own_in : forall n x p q, change_own n x -> fst p = n -> change_moves x p = Some q -> fst q = n.
Proof.
  intros n x [m c] q H E M. simpl in E. subst m. destruct x; simpl in *; try contradiction;
    unfold column_gone, column_renamed in M; cbn [fst snd] in M; try (now injection M as <-).
  - destruct (_ && _); [discriminate|]. now injection M as <-.
  - destruct (_ && _); injection M as <-; auto.
Qed.

Lemma trace_change_drops : forall t l k, trace change_moves (map (DropColumn t) l) (t_name t, k) = if str_in k l then None else Some (t_name t, k).
Proof.
  intros t l k. rewrite <- trace_drops. induction l as [|x l IH]; simpl; auto.
  destruct (column_gone (t_name t) x (t_name t, k)) as [q|] eqn:E; auto. unfold column_gone in E. destruct (_ && _); [discriminate|].
  now injection E as <-.
Qed.
Lemma trace_change_renames : forall t (R : list (nat * (column * column))) k,
  trace change_moves (map (fun r => RenameColumn t (snd (snd r)) (fst (snd r))) R) (t_name t, k) =
  Some (t_name t, fold_left (rename_one col_new col_old) R k).
Proof.
  intros t. induction R as [|[i [c o]] R IH]; intros k; [reflexivity|]. cbn [map trace change_moves fold_left fst snd].
  unfold column_renamed. cbn [fst snd]. rewrite String.eqb_refl. cbn [andb]. unfold rename_one at 2, col_new, col_old. cbn [fst snd].
  destruct (String.eqb k (c_name o)); apply IH.
Qed.
Lemma trace_change_table_drops : forall l n k, trace change_moves (map DropTable l) (n, k) = if str_in n (map t_name l) then None else Some (n, k).
Proof.
  intros l n k. rewrite <- trace_table_drops. revert n k. induction l as [|x l IH]; intros n k; simpl; auto.
  unfold table_gone. cbn [fst]. destruct (String.eqb n (t_name x)); auto.
Qed.
Lemma trace_change_table_renames : forall suffix R n k,
  trace change_moves (flat_map (rename_changes suffix) R) (n, k) = Some (fold_left (rename_one tab_new tab_old) R n, k).
Proof.
  intros suffix. induction R as [|[i [a b]] R IH]; intros n k; [reflexivity|].
  cbn [flat_map]. rewrite trace_app. unfold rename_changes at 1. cbn [fst snd fold_left].
  unfold rename_one at 2, tab_new, tab_old. cbn [fst snd].
  destruct (Nat.ltb 0 (ss_size (uq_name_set b))), (Nat.ltb 0 (ss_size (uq_name_set a)));
    cbn [app trace change_moves]; unfold table_renamed; cbn [fst snd]; destruct (String.eqb n (t_name b)); apply IH.
Qed.

Lemma column_quiet : forall comments t c o, c_name c = c_name o -> Forall quiet (column_changes comments t (c, o)) /\
  Forall (change_own (t_name t)) (column_changes comments t (c, o)).
Proof.
  intros comments t c o E. unfold column_changes. rewrite E, String.eqb_refl. cbn [negb app].
  assert (S : forall (b : bool) ch, quiet ch -> change_own (t_name t) ch ->
     Forall quiet (if b then [ch] else []) /\ Forall (change_own (t_name t)) (if b then [ch] else [])).
  { intros [] ch S1 S2; split; repeat constructor; auto. }
  rewrite !Forall_app. repeat match goal with |- context [if ?b then [?x] else []] =>
    destruct (S b x) as [? ?]; [intros p; reflexivity|exact I|generalize dependent (if b then [x] else []); intros] end.
  tauto.
Qed.

(** like [diff_table_changes], with the positions of the renamed columns *)
Lemma diff_table_places : forall author comments suffix ord id t old css id',
  diff_table author comments suffix ord id t old = Some (css, id') -> iteration_order ord ->
  NoDup (map c_name (t_cols t)) -> NoDup (map c_name (t_cols old)) ->
  table_ok comments old t (fun k => trace change_moves (all_changes css) (t_name t, k)) /\
  Forall (change_own (t_name t)) (all_changes css).
Proof.
  intros author comments suffix ord id t old css id' H Hord Dt Do. unfold diff_table in H.
  assert (C0 := emit_changes author (comments && negb (String.eqb (t_desc t) (t_desc old))) (SetTableComment t) ([], id)).
  destruct (emit author (comments && negb (String.eqb (t_desc t) (t_desc old))) (SetTableComment t) ([], id))
    as [css0 id0]. simpl in C0.
  destruct (scan_columns _ (t_cols old) (with_pos (t_cols t)) id0 _) as [[[[css1 id1] r1] added]|] eqn:Es;
    [|discriminate].
  destruct (scan_columns_spec _ _ _ _ _ _ _ _ _ Es) as [[l [El Fl]] [Ea [Er Nr]]].
  specialize (Nr (ss_new_nodup _)).
  destruct (find_renamed _ _ added r1) as [ren r2] eqn:Ef.
  assert (LN : forall n r, column_name_map (t_cols old) n = Some r -> c_name r = n).
  { intros n r Hr. now apply column_name_map_some in Hr. }
  destruct (find_renamed_spec c_name _ _ LN _ _ _ _ Nr Ef) as [F1 [F2 [F3 F4]]].
  assert (C1 : all_changes css1 = flat_map (column_changes comments t) (kept_cols (t_cols old) (with_pos (t_cols t)))).
  { rewrite El. clear - Fl. induction Fl as [|[c o] x xs ys [i0 [i1 E]] F IH]; cbn [concat flat_map]; auto.
    rewrite all_changes_app, IH. f_equal. cbn [fst snd] in E. injection E as E.
    rewrite <- (diff_column_changes author comments t i0 c o), E. reflexivity. }
  assert (C2 : exists a b c, all_changes css = (a ++ map (DropColumn t) (ss_slice r2) ++
      map (fun r => RenameColumn t (snd (snd r)) (fst (snd r))) (ord ren) ++ b ++ c)%list /\
      Forall quiet a /\ Forall quiet b /\ Forall quiet c /\ Forall (change_own (t_name t)) (a ++ b ++ c)%list).
  { match type of H with Some ?st = _ => assert (F : all_changes css = all_changes (fst st)) by
        (apply (f_equal (fun x => match x with Some y => all_changes (fst y) | None => [] end)) in H;
         symmetry; exact H) end.
    rewrite F. rewrite !emit_changes. clear F.
    assert (X : forall (l : list column) (st : list cset * ident),
      all_changes (fst (match l with [] => st | _ :: _ => (fst st, bump_minor (snd st)) end)) = all_changes (fst st)).
    { intros [|? ?] st; reflexivity. }
    rewrite X. rewrite (fold_emit_changes author (fun r => RenameColumn t (snd (snd r)) (fst (snd r)))).
    rewrite (fold_emit_changes author (DropColumn t)). rewrite emit_changes.
    cbn [fst]. rewrite all_changes_app, C0, C1. rewrite <- !app_assoc.
    assert (S : forall (b : bool) ch, quiet ch -> change_own (t_name t) ch ->
       Forall quiet (if b then [ch] else []) /\ Forall (change_own (t_name t)) (if b then [ch] else [])).
    { intros [] ch S1 S2; split; repeat constructor; auto. }
    match goal with |- context [((if ?b1 then [?x1] else []) ++ flat_map ?f ?K ++ (if ?b2 then [?x2] else []) ++ ?D ++ ?R ++ (if ?b3 then [?x3] else []) ++ (if ?b4 then [?x4] else []))%list] =>
      exists ((if b1 then [x1] else []) ++ flat_map f K ++ (if b2 then [x2] else []))%list, (if b3 then [x3] else []), (if b4 then [x4] else []);
      destruct (S b1 x1) as [S1 S1']; [intros p; reflexivity|exact I|]; destruct (S b2 x2) as [S2 S2']; [intros p; reflexivity|exact I|];
      destruct (S b3 x3) as [S3 S3']; [intros p; reflexivity|exact I|]; destruct (S b4 x4) as [S4 S4']; [intros p; reflexivity|exact I|];
      assert (KQ : Forall quiet (flat_map f K) /\ Forall (change_own (t_name t)) (flat_map f K)) end.
    { assert (Q : forall p, In p (kept_cols (t_cols old) (with_pos (t_cols t))) -> c_name (fst p) = c_name (snd p)).
      { intros [c o] Hp. apply kept_cols_in in Hp. destruct Hp as [_ Hp]. apply LN in Hp. now symmetry. }
      clear - Q. induction (kept_cols (t_cols old) (with_pos (t_cols t))) as [|[c o] K IH]; cbn [flat_map]; [split; constructor|].
      destruct IH as [I1 I2]; [intros; apply Q; now right|]. destruct (column_quiet comments t c o) as [J1 J2]; [exact (Q (c, o) (or_introl eq_refl))|].
      split; apply Forall_app; auto. }
    split; [now rewrite <- !app_assoc|]. destruct KQ as [KQ1 KQ2].
    split; [now repeat (apply Forall_app; split)|]. split; auto. split; auto. now repeat (apply Forall_app; split). }
  destruct C2 as [a [b [c [EC [Qa [Qb [Qc Ow]]]]]]]. split.
  - eapply (core_ok comments t old r2 r1 ren (ord ren)); auto.
    + symmetry. apply Hord.
    + intros k. rewrite Er, ss_new_in.
      replace (map (fun ic => c_name (snd ic)) (with_pos (t_cols t))) with (map c_name (t_cols t)); [tauto|].
      rewrite <- (with_pos_snd (t_cols t)) at 1. now rewrite map_map.
    + intros i x y Hi. destruct (F3 _ _ _ Hi) as [G1 [G2 G3]]. rewrite Ea in G1. apply filter_In in G1.
      destruct G1 as [G1 G4]. split; [now apply with_pos_nth|]. split; [|auto].
      unfold is_added_col in G4. simpl in G4. apply negb_true_iff in G4. now apply str_in_false in G4.
    + apply F4. rewrite Ea. apply NoDup_fst_filter, with_pos_nodup.
    + rewrite <- Ea. exact (find_renamed_maximal c_name _ _ LN _ _ _ _ Nr Ef).
    + intros k. rewrite EC, trace_app, (trace_quiet a), trace_app, trace_change_drops; auto.
      destruct (str_in k (ss_slice r2)); auto. rewrite trace_app, trace_change_renames, trace_app, (trace_quiet b); auto. now apply trace_quiet.
  - rewrite EC. rewrite !Forall_app in *. destruct Ow as [O1 [O2 O3]]. split; auto. split; [|split; [|split; auto]].
    + clear. induction (ss_slice r2); simpl; constructor; simpl; auto.
    + clear. induction (ord ren); simpl; constructor; simpl; auto.
Qed.

Lemma report_brings : forall ordT ordC o from to css,
  get_diff ordT ordC o from to = Some css ->
  iteration_order ordT -> (forall i, iteration_order (ordC i)) ->
  all_distinct (s_tables from) -> all_distinct (select (do_filter o) (s_tables to)) ->
  brings (do_comments o) (s_tables from) (select (do_filter o) (s_tables to)) (trace change_moves (all_changes css)).
Proof.
  intros ordT ordC o from to css H HT HC Df Ds.
  destruct (get_diff_shape _ _ _ _ _ _ H HT HC) as [l1 [drops [R [created [E [F1 [[g [G1 [Pg Hg']]] [Pm [Hr' [Hd' MX]]]]]]]]]].
  cbv zeta in *. set (fs := s_tables from) in *. set (sel := select (do_filter o) (s_tables to)) in *.
  set (K := kept (do_filter o) fs (with_pos (s_tables to))) in *.
  assert (KT : Forall2 (fun p chs =>
      table_ok (do_comments o) (snd p) (snd (fst p)) (fun k => trace change_moves chs (t_name (snd (fst p)), k)) /\
      Forall (change_own (t_name (snd (fst p)))) chs) K l1).
  { assert (KI : forall p, In p K -> NoDup (map c_name (t_cols (snd (fst p)))) /\ NoDup (map c_name (t_cols (snd p)))).
    { intros [[i t] old] Hp. apply kept_in in Hp. destruct Hp as [P1 [P2 [P3 P4]]]. cbn [fst snd].
      split; [apply Ds; apply select_in; auto|now apply Df]. }
    clear - F1 HC KI. induction F1 as [|p chs K l1 [i0 [cs [i1 [Hd ->]]]] F IH]; constructor.
    - destruct (KI p (or_introl eq_refl)). eapply diff_table_places; eauto.
    - apply IH. intros. apply KI. now right. }
  assert (Hg : forall n, In n g <-> In n (map t_name fs) /\ ~ In n (map t_name sel)).
  { intros n. rewrite Hg'. split; intros [X1 X2]; (split; [exact X1|]); intros C; apply X2.
    - apply in_map_iff in C. destruct C as [t [C1 C2]]. apply select_in in C2. exists t. tauto.
    - destruct C as [t [C1 [C2 C3]]]. rewrite <- C3. apply in_map. apply select_in. auto. }
  assert (Hr : forall i nw old, In (i, (nw, old)) R -> In nw sel /\ ~ In (t_name nw) (map t_name fs) /\ In old fs /\ t_cols nw = t_cols old).
  { intros i nw old Hi. apply Hr' in Hi. destruct Hi as [Q1 [Q2 Q3]]. split; [now apply select_in|exact Q3]. }
  rewrite added_filter in Pm.
  destruct (kept_trace (fun p : nat * table * table => t_name (snd (fst p))) change_moves change_own change_own_other change_own_in
              (fun _ _ => False) (fun _ _ _ _ C => match C with end) K l1) as [T1 T2].
  { clear - KT. induction KT as [|x y l l' Hx F IH]; constructor; auto. tauto. }
  { now apply kept_distinct, Ds. }
  pose proof (sc_rest fs sel (map t_name drops) g R G1 Pg Hg Hr) as SR. cbv zeta in SR.
  assert (TD : forall n k, trace change_moves (all_changes css) (n, k) =
     match trace change_moves (concat l1) (n, k) with
     | Some (m, k') => if str_in m (map t_name drops) then None else Some (fold_left (rename_one tab_new tab_old) R m, k')
     | None => None end).
  { intros n k. rewrite E, trace_app. destruct (trace change_moves (concat l1) (n, k)) as [[m k']|]; auto.
    rewrite trace_app, trace_change_table_drops. destruct (str_in m (map t_name drops)); auto.
    rewrite trace_app, trace_change_table_renames. apply trace_quiet. clear. induction created; simpl; constructor; auto. intros p. reflexivity. }
  apply (sc_brings (do_comments o) fs sel (map t_name drops) g R created Df Ds G1 Pg Hg Pm Hr).
  - intros t old Ct Ho Hd. apply in_map_iff in Hd. destruct Hd as [d [Ed Hd]].
    assert (d = old) by (exact (same_table fs d old (proj1 Df) (Hd' d Hd) Ho Ed)). subst d. now apply MX.
  - intros old t Ho Ht En. pose proof Ht as Ht'. apply select_in in Ht'. destruct Ht' as [Ht1 Ht2].
    destruct (kept_complete (do_filter o) fs (s_tables to) t old (proj1 Df) Ht1 Ht2 Ho En) as [i Hi]. fold K in Hi.
    destruct (forall2_pick _ _ _ _ _ KT T2 Hi) as [chs [_ [[C1 C2] C3]]]. cbn [fst snd] in C1, C2, C3.
    assert (C4 : forall k, trace change_moves (all_changes css) (t_name t, k) = trace change_moves chs (t_name t, k)).
    { intros k. rewrite TD, (proj1 (C3 k)). destruct (trace change_moves chs (t_name t, k)) as [[m k']|] eqn:Tr; auto.
      apply (own_stays change_moves change_own change_own_in chs (t_name t)) in Tr; auto. simpl in Tr. subst m.
      apply (SR (t_name t) k'); [rewrite <- En; now apply in_map|now apply in_map]. }
    destruct C1 as [C11 C12 C13 C14]. constructor; try (intros; rewrite ?C4 in *; eauto; fail).
    intros o' c' Z1 Z2 Z3 Z4 Z5 Z6. rewrite C4 in Z6. destruct (C14 o' c' Z1 Z2 Z3 Z4 Z5 Z6) as [k' [Z7 Z8]].
    exists k'. split; [exact Z7|]. now rewrite C4.
  - intros n k H1 H2. rewrite TD, (proj1 (T1 n k (fun C => H2 (proj1 (kept_names _ _ _ _ C))))). reflexivity.
Qed.

(** ** Scripts *)
Lemma sql_same : forall suffix chs ls, Forall2 (sql_of suffix) chs ls ->
  (forall t k, ~ In (DropColumn t k) chs) -> (forall t a b, ~ In (RenameColumn t a b) chs) ->
  forall p, trace sql_moves (concat ls) p = trace change_moves chs p.
Proof.
  intros suffix chs ls F. induction F as [|ch l chs ls H F IH]; intros N1 N2 p; [reflexivity|].
  cbn [concat trace]. rewrite trace_app.
  assert (Q : trace sql_moves l p = change_moves ch p).
  { inversion H; subst; cbn [trace sql_moves change_moves]; auto.
    - destruct (table_gone (t_name t) p); auto.
    - destruct ch; simpl in *; try contradiction; auto.
      + exfalso. eapply N1. now left.
      + exfalso. eapply N2. now left. }
  rewrite Q. destruct (change_moves ch p); auto. apply IH.
  - intros t k C. eapply N1. right. exact C.
  - intros t a b C. eapply N2. right. exact C.
Qed.

Lemma script_brings : forall reserved ordT ordC o from to css,
  get_diff ordT ordC o from to = Some css ->
  iteration_order ordT -> (forall i, iteration_order (ordC i)) ->
  distinct_names from -> distinct_names to ->
  Forall (plain_table (alter_reserved reserved) (do_suffix o)) (s_tables to) ->
  Forall (fun t => plain_ident (alter_reserved reserved) (t_name t)) (s_tables from) ->
  (forall t old, In t (s_tables to) -> In old (s_tables from) -> t_name old = t_name t -> incl (map c_name (t_cols old)) (map c_name (t_cols t))) ->
  exists stmts, read_script reserved (flyway_write (do_suffix o) css) = Some stmts /\
    brings (do_comments o) (s_tables from) (select (do_filter o) (s_tables to)) (trace sql_moves stmts).
Proof.
  intros reserved ordT ordC o from to css H HT HC Df Dt P1 P2 Hi.
  destruct (FlywayFacts.diff_script reserved ordT ordC o from to css H HT HC P1 P2) as [ls [L1 L2]].
  exists (concat ls). split; [exact L2|].
  assert (Ds : all_distinct (select (do_filter o) (s_tables to))).
  { destruct Dt as [D1 D2]. split; [|intros t Ht; apply D2; now apply select_in in Ht].
    destruct (do_filter o) as [f|]; simpl; auto. clear - D1. induction (s_tables to) as [|u l IH]; simpl in *; [constructor|].
    inversion D1 as [|? ? A B]; subst. destruct (f u); simpl; auto. constructor; auto. intros C. apply A.
    apply in_map_iff in C. destruct C as [y [E C]]. apply filter_In in C. rewrite <- E. now apply in_map. }
  pose proof (report_brings ordT ordC o from to css H HT HC Df Ds) as B.
  assert (NC : forall n k ch, In ch (all_changes css) -> In k (gone_columns n ch) -> False).
  { intros n k ch Hc Hk.
    destruct (get_diff_shape _ _ _ _ _ _ H HT HC) as [l1 [drops [R [created [E [F1 _]]]]]]. cbv zeta in E, F1.
    assert (Z : exists t, In t (s_tables to) /\ selected (do_filter o) t /\ t_name t = n /\ In n (map t_name (s_tables from))).
    { rewrite E in Hc. rewrite !in_app_iff in Hc.
      destruct Hc as [Hc|[Hc|[Hc|Hc]]].
      - apply in_concat in Hc. destruct Hc as [chs [C1 C2]].
        assert (Z : exists p, In p (kept (do_filter o) (s_tables from) (with_pos (s_tables to))) /\ exists id cs id',
          diff_table (choose_author (do_author o) to) (do_comments o) (do_suffix o) (ordC (fst (fst p))) id (snd (fst p)) (snd p) = Some (cs, id') /\ chs = all_changes cs).
        { clear - F1 C1. induction F1 as [|p c K l Hx F IH]; [destruct C1|]. destruct C1 as [<-|C1]; [exists p; simpl; auto|].
          destruct IH as [p' [I1 I2]]; auto. exists p'. simpl. auto. }
        destruct Z as [[[i t] old] [Z1 [id [cs [id' [Z2 ->]]]]]]. cbn [fst snd] in Z2. apply kept_in in Z1. destruct Z1 as [Y1 [Y2 [Y3 Y4]]].
        exists t. split; auto. split; auto. assert (X : t_name t = n).
        { apply diff_table_places in Z2; auto; [|now apply Dt|now apply Df]. destruct Z2 as [_ Z2]. rewrite Forall_forall in Z2. apply Z2 in C2.
          destruct ch; simpl in Hk; try contradiction; simpl in C2; destruct (String.eqb_spec (t_name t0) n); simpl in Hk; try contradiction; congruence. }
        split; auto. rewrite <- X, <- Y4. now apply in_map.
      - apply in_map_iff in Hc. destruct Hc as [x [<- _]]. destruct Hk.
      - apply in_flat_map in Hc. destruct Hc as [r [_ Hc]]. unfold rename_changes in Hc. rewrite !in_app_iff in Hc.
        exfalso. destruct Hc as [Hc|[Hc|Hc]]; repeat match type of Hc with In _ (if ?b then _ else _) => destruct b end; simpl in Hc;
          repeat match type of Hc with _ \/ _ => destruct Hc as [Hc|Hc] end; try contradiction; subst ch; exact Hk.
      - apply in_map_iff in Hc. destruct Hc as [x [<- _]]. destruct Hk. }
    destruct Z as [t [Z1 [Z2 [Z3 Z4]]]]. apply in_map_iff in Z4. destruct Z4 as [old [Z4 Z5]].
    assert (En : t_name old = t_name t) by congruence.
    destruct (columns_gone ordT ordC o from to css t old H HT HC Df Dt Z1 Z2 Z5 En) as [_ [X _]].
    assert (Y : In k (map c_name (t_cols old)) /\ ~ In k (map c_name (t_cols t))).
    { apply X. apply in_flat_map. exists ch. split; auto. now rewrite Z3. }
    destruct Y as [Y1 Y2]. apply Y2. eapply Hi; eauto. }
  assert (EQ : forall p, trace sql_moves (concat ls) p = trace change_moves (all_changes css) p).
  { apply (sql_same (do_suffix o)); auto.
    - intros t k C. apply (NC (t_name t) k _ C). simpl. rewrite String.eqb_refl. now left.
    - intros t a b C. apply (NC (t_name t) (c_name a) _ C). simpl. rewrite String.eqb_refl. now left. }
  destruct B as [B1 B2 B3 B4 B5]. constructor; try (intros; rewrite ?EQ in *; eauto; fail).
  intros p q Z1 Z2 Z3. rewrite EQ in Z2. destruct (B5 p q Z1 Z2 Z3) as [p' [Z4 Z5]]. exists p'. split; [exact Z4|]. now rewrite EQ.
Qed.
