(** Values of columns through change logs and reports (C118) *)
From Coq Require Import String List NArith Bool Lia Sorting.Permutation.
From Verif.Model Require Import GoString Util Octopus DiffCore Diff Liquibase.
From Verif.Spec Require Import DiffSpec LiquibaseSpec Database MysqlGrammar MysqlSpec FlywaySpec TraceSpec.
From Verif.Proofs Require Import StringLemmas ListLemmas OctopusProofs DiffCoreProofs DiffProofs DiffFacts LiquibaseProofs
  LiquibaseFacts DatabaseProofs MigrationProofs SchemaMigration Trace TraceSchema.
From Verif.Proofs Require Agree.
Import ListNotations.
Local Open Scope string_scope.

(** ** The tables of the same name, one after the other *)
Section Kept.
Context {P A : Type} (name : P -> string) (moves : A -> place -> option place).
(** [own n x]: the statement is about table [n] *)
Variable own : string -> A -> Prop.
Hypothesis own_other : forall n x p, own n x -> fst p <> n -> moves x p = Some p.
Hypothesis own_in : forall n x p q, own n x -> fst p = n -> moves x p = Some q -> fst q = n.

Lemma own_list : forall l n p, Forall (own n) l -> fst p <> n -> trace moves l p = Some p.
Proof.
  intros l n p F N. induction F as [|x l H F IH]; simpl; auto. now rewrite (own_other n x p).
Qed.
Lemma own_stays : forall l n p q, Forall (own n) l -> fst p = n -> trace moves l p = Some q -> fst q = n.
Proof.
  intros l n p q F. revert p. induction F as [|x l H F IH]; simpl; intros p E T; [congruence|].
  destruct (moves x p) as [p'|] eqn:M; [|discriminate]. apply (IH p'); auto. eapply own_in; eauto.
Qed.

Variable mk : place -> A -> Prop.
Hypothesis own_mk : forall n x p, own n x -> mk p x -> fst p = n.

Lemma own_made : forall l n p, Forall (own n) l -> fst p <> n -> ~ Exists (mk p) l.
Proof.
  intros l n p F N C. apply Exists_exists in C. destruct C as [x [C1 C2]]. rewrite Forall_forall in F. apply N.
  eapply own_mk; eauto.
Qed.

Lemma kept_trace : forall K ll, Forall2 (fun p chs => Forall (own (name p)) chs) K ll -> NoDup (map name K) ->
  (forall n k, ~ In n (map name K) -> trace moves (concat ll) (n, k) = Some (n, k) /\ ~ Exists (mk (n, k)) (concat ll)) /\
  Forall2 (fun p chs => forall k, trace moves (concat ll) (name p, k) = trace moves chs (name p, k) /\
             (Exists (mk (name p, k)) (concat ll) <-> Exists (mk (name p, k)) chs)) K ll.
Proof.
  intros K ll F. induction F as [|p chs K ll H F IH]; simpl; intros D.
  - split; [|constructor]. intros n k _. split; [reflexivity|]. intros C. inversion C.
  - inversion D as [|? ? N D']; subst. destruct (IH D') as [I1 I2]. split.
    + intros n k C. assert (n <> name p) by auto. assert (C' : ~ In n (map name K)) by auto. destruct (I1 n k C') as [J1 J2].
      split; [rewrite trace_app, (own_list chs (name p)); auto|]. rewrite Exists_app. intros [X|X]; [|contradiction].
      revert X. apply (own_made chs (name p)); auto.
    + constructor.
      * intros k. destruct (I1 (name p) k N) as [J1 J2]. split; [|rewrite Exists_app; tauto].
        rewrite trace_app. destruct (trace moves chs (name p, k)) as [q|] eqn:T; auto.
        apply (own_stays chs (name p)) in T; auto. destruct q as [n k']. simpl in T. subst n. now apply I1.
      * assert (G : forall x, In x K -> name x <> name p) by (intros x Hx E; apply N; rewrite <- E; now apply in_map).
        revert I2. generalize (concat ll). clear - G H own_other own_mk. intros W I2.
        induction I2 as [|x c K' l' Hx F' IH]; constructor.
        -- intros k. assert (name x <> name p) by (apply G; now left). rewrite trace_app, (own_list chs (name p)); auto.
           destruct (Hx k) as [X1 X2]. split; auto. rewrite Exists_app, X2. split; auto. intros [C|C]; auto.
           exfalso. revert C. apply (own_made chs (name p)); auto.
        -- apply IH. intros. apply G. now right.
Qed.
End Kept.

Lemma forall2_pick : forall {A B} (P Q : A -> B -> Prop) xs ys x, Forall2 P xs ys -> Forall2 Q xs ys -> In x xs ->
  exists y, In y ys /\ P x y /\ Q x y.
Proof.
  intros A B P Q xs ys x F. induction F as [|a b xs ys H F IH]; intros G I; [destruct I|].
  inversion G; subst. destruct I as [->|I]; [exists b; simpl; auto|]. destruct IH as [y [Y1 Y2]]; auto. exists y. simpl. auto.
Qed.

Lemma added_filter : forall f fs ts,
  map snd (filter (is_added f fs) (with_pos ts)) = filter (fun t => negb (str_in (t_name t) (map t_name fs))) (select f ts).
Proof.
  intros f fs ts. rewrite <- passes_select. rewrite <- (with_pos_snd ts) at 2. generalize (with_pos ts). clear.
  induction l as [|[i t] l IH]; simpl; auto. unfold is_added at 1. unfold in_names at 1. simpl.
  destruct (passes f t); simpl; auto. destruct (str_in (t_name t) (map t_name fs)); simpl; auto. now rewrite IH.
Qed.
Lemma select_in : forall f ts t, In t (select f ts) <-> In t ts /\ selected f t.
Proof. intros [h|] ts t; simpl; [apply filter_In|tauto]. Qed.

Lemma kept_names : forall f fs ts n, In n (map (fun p => t_name (snd (fst p))) (kept f fs (with_pos ts))) ->
  In n (map t_name (select f ts)) /\ In n (map t_name fs).
Proof.
  intros f fs ts n H. apply in_map_iff in H. destruct H as [[[i t] old] [E H]]. simpl in E. subst n.
  apply kept_in in H. destruct H as [H1 [H2 [H3 H4]]]. split; [apply in_map; now apply select_in|]. rewrite <- H4. now apply in_map.
Qed.
Lemma kept_distinct : forall f fs ts, NoDup (map t_name (select f ts)) ->
  NoDup (map (fun p => t_name (snd (fst p))) (kept f fs (with_pos ts))).
Proof.
  intros f fs ts. rewrite <- passes_select. rewrite <- (with_pos_snd ts) at 1. generalize (with_pos ts). intros l D.
  assert (G : kept f fs l = kept f fs (filter (fun it => passes f (snd it)) l)).
  { clear. induction l as [|[i t] l IH]; auto. simpl. destruct (passes f t) eqn:E; simpl; rewrite ?E, IH; reflexivity. }
  rewrite G. apply kept_nodup. clear G. induction l as [|[i t] l IH]; simpl in *; [constructor|].
  destruct (passes f t); simpl in *; auto. inversion D as [|? ? A B]; subst. constructor; auto. intros C. apply A.
  clear - C. induction l as [|[j u] l IH]; simpl in *; [destruct C|]. destruct (passes f u); simpl in *; [|auto]. destruct C; auto.
Qed.

(** ** Change logs *)
Section Log.
Variable fk : string -> bool.

Definition log_own (n : string) (ch : lq_change) : Prop := inside ch /\ target ch = n.
Lemma log_own_other : forall n x p, log_own n x -> fst p <> n -> log_moves x p = Some p.
Proof. intros n x p [H1 H2] N. apply inside_still; auto. congruence. Qed.
Lemma log_own_in : forall n x p q, log_own n x -> fst p = n -> log_moves x p = Some q -> fst q = n.
Proof.
  intros n x [m c] q [H1 H2] E M. simpl in E. subst m. destruct x; simpl in *; try contradiction; subst;
    unfold column_gone, column_renamed in M; cbn [fst snd] in M;
    try (now injection M as <-); destruct (String.eqb n n && _); try discriminate; now injection M as <-.
Qed.

Lemma makes_own : forall n x p, log_own n x -> makes p x -> fst p = n.
Proof. intros n x p [H1 H2] M. destruct x; simpl in *; try contradiction. destruct M. congruence. Qed.

Lemma log_brings : forall ordT ordC o from to css,
  lq_diff fk ordT ordC o from to = Some css ->
  iteration_order ordT -> (forall i, iteration_order (ordC i)) ->
  all_distinct (s_tables from) -> all_distinct (select (lo_filter o) (s_tables to)) ->
  brings (lo_comments o) (s_tables from) (select (lo_filter o) (s_tables to)) (trace log_moves (lq_all css)) /\
  forall q, has (select (lo_filter o) (s_tables to)) q ->
    (Exists (makes q) (lq_all css) <-> ~ exists p, has (s_tables from) p /\ trace log_moves (lq_all css) p = Some q).
Proof.
  intros ordT ordC o from to css H HT HC Df Ds. unfold lq_diff in H.
  destruct (diff_schemas_shape _ _ _ _ _ _ _ _ _ H HT)
    as [l1 [css2 [l3 [l4 [ren [rem [E [F1 [F2 [F3 [F4 [N [G [Pm [R [NR MX]]]]]]]]]]]]]]]].
  set (author := choose_author (lo_author o) to) in *.
  set (fs := s_tables from) in *. set (sel := select (lo_filter o) (s_tables to)) in *.
  set (K := kept (lo_filter o) fs (with_pos (s_tables to))) in *.
  assert (SI : forall t, In t sel <-> In t (s_tables to) /\ passes (lo_filter o) t = true).
  { intros t. unfold sel. rewrite <- passes_select. apply filter_In. }
  assert (KT : Forall2 (fun p chs =>
      table_ok (lo_comments o) (snd p) (snd (fst p)) (fun k => trace log_moves chs (t_name (snd (fst p)), k)) /\
      (forall k, In k (map c_name (t_cols (snd (fst p)))) -> (Exists (makes (t_name (snd (fst p)), k)) chs <->
         ~ exists k', In k' (map c_name (t_cols (snd p))) /\ trace log_moves chs (t_name (snd (fst p)), k') = Some (t_name (snd (fst p)), k))) /\
      Forall (log_own (t_name (snd (fst p)))) chs) K (map lq_all l1)).
  { assert (KI : forall p, In p K -> NoDup (map c_name (t_cols (snd (fst p)))) /\ NoDup (map c_name (t_cols (snd p)))).
    { intros [[i t] old] Hp. apply kept_in in Hp. destruct Hp as [P1 [P2 [P3 P4]]]. cbn [fst snd]. split; [apply Ds|now apply Df].
      apply select_in. auto. }
    clear - F1 HC KI. induction F1 as [|p cs K l1 [i0 [i1 [_ Hd]]] F IH]; cbn [map]; constructor.
    - destruct (KI p (or_introl eq_refl)). eapply table_brought; eauto.
    - apply IH. intros. apply KI. now right. }
  assert (DK : NoDup (map (fun p => t_name (snd (fst p))) K)) by (now apply kept_distinct, Ds).
  assert (A1 : lq_all (concat l1) = concat (map lq_all l1)) by apply lq_all_concat.
  assert (A2 : lq_all css2 = map LqDropTable (ss_slice rem)).
  { clear - F2. induction F2 as [|n cs l l' [i0 [old [-> _]]] F IH]; simpl; auto. now rewrite IH. }
  assert (A3 : lq_all (concat l3) = flat_map (lq_rename_all (lo_suffix o)) (ordT ren)).
  { clear - F3. induction F3 as [|[i [nw old]] cs l l' [id0 [id1 [_ Hr]]] F I1]; cbn [concat flat_map]; auto.
    cbn [fst snd] in Hr. destruct (lq_rename_table_all _ _ _ i _ _ _ _ Hr) as [X1 X2]. now rewrite lq_all_app, X1, I1. }
  set (created := not_renamed (filter (is_added (lo_filter o) fs) (with_pos (s_tables to))) ren) in *.
  assert (A4 : Forall still (lq_all (concat l4)) /\ forall n k, Exists (makes (n, k)) (lq_all (concat l4)) <->
             exists t, In t created /\ t_name t = n /\ In k (map c_name (t_cols t))).
  { clear - F4. induction F4 as [|t cs l l' [i0 [i1 [_ Hc]]] F [I1 I2]].
    - split; [constructor|]. intros n k. split; [intros C; inversion C|]. intros [t [[] _]].
    - cbn [concat]. rewrite lq_all_app.
      assert (Q : exists r cols rest, lq_all cs = LqCreateTable (t_name t) r cols :: rest /\ map lc_name cols = map c_name (t_cols t) /\
                Forall still rest /\ forall p, ~ Exists (makes p) rest).
      { unfold new_create_table_cs in Hc. destruct (map_lq_columns _ _ _ _ _) as [lcs|] eqn:Em; [|discriminate].
        apply Agree.lq_columns_names in Em.
        apply (f_equal (fun o => match o with Some p => fst p | None => cs end)) in Hc. cbv beta iota zeta in Hc.
        cbn [fst] in Hc. subst cs. rewrite !lq_emit_changes. cbn [fst lq_all flat_map app].
        eexists. eexists. eexists. split; [reflexivity|]. split; [exact Em|].
        repeat match goal with |- context [if ?b then _ else _] => destruct b end; cbn [app];
          (split; [repeat constructor|intros p C; repeat match goal with X : Exists _ _ |- _ => inversion X; clear X; subst end; try contradiction]). }
      destruct Q as [r [cols [rest [-> [Q1 [Q2 Q3]]]]]]. split.
      + apply Forall_app. split; auto. constructor; auto. intros p. reflexivity.
      + intros n k. rewrite Exists_app, I2. cbn [app]. split.
        * intros [C|[x [C1 C2]]]; [|exists x; simpl; auto]. inversion C as [? ? M|? ? M]; subst; [|now apply Q3 in M].
          simpl in M. destruct M as [M1 M2]. exists t. rewrite <- Q1. simpl. auto.
        * intros [x [[<-|C1] [C2 C3]]]; [left; left; simpl; rewrite Q1; auto|right; eauto]. }
  destruct A4 as [A4 A4'].
  assert (EL : lq_all css = (concat (map lq_all l1) ++ map LqDropTable (ss_slice rem) ++ flat_map (lq_rename_all (lo_suffix o)) (ordT ren) ++ lq_all (concat l4))%list).
  { now rewrite E, !lq_all_app, A1, A2, A3. }
  destruct G as [g [G1 [G2 G3]]].
  assert (Pg : Permutation g (map tab_old (ordT ren) ++ ss_slice rem)).
  { rewrite G2. apply Permutation_app; [apply Permutation_map; symmetry; apply HT|symmetry; apply ss_slice_perm]. }
  assert (Hg : forall n, In n g <-> In n (map t_name fs) /\ ~ In n (map t_name sel)).
  { intros n. rewrite G3. split; intros [X1 X2]; (split; [exact X1|]); intros C; apply X2.
    - apply in_map_iff in C. destruct C as [t [C1 C2]]. apply SI in C2. exists t. tauto.
    - destruct C as [t [C1 [C2 C3]]]. rewrite <- C3. apply in_map. apply SI. auto. }
  assert (Pc : Permutation (filter (fun t => negb (str_in (t_name t) (map t_name fs))) sel) (map (fun r => fst (snd r)) (ordT ren) ++ created)).
  { unfold sel. rewrite <- added_filter. rewrite Pm. apply Permutation_app_tail. apply Permutation_map. symmetry. apply HT. }
  assert (Hr : forall i nw old, In (i, (nw, old)) (ordT ren) -> In nw sel /\ ~ In (t_name nw) (map t_name fs) /\ In old fs /\ t_cols nw = t_cols old).
  { intros i nw old Hi. apply (Permutation_in _ (HT ren)) in Hi. apply R in Hi. destruct Hi as [Q1 [Q2 Q3]].
    apply filter_In in Q1. destruct Q1 as [Q1 Q4]. unfold is_added in Q4. simpl in Q4. apply andb_true_iff in Q4. destruct Q4 as [Q4 Q5].
    apply negb_true_iff in Q5. apply str_in_false in Q5. apply tables_by_name_some in Q2.
    split; [apply SI; split; auto; apply with_pos_in; eauto|]. tauto. }
  destruct (kept_trace (fun p : nat * table * table => t_name (snd (fst p))) log_moves log_own log_own_other log_own_in makes makes_own K (map lq_all l1)) as [T1 T2].
  { clear - KT. induction KT as [|x y l l' Hx F IH]; constructor; auto. tauto. }
  { exact DK. }
  pose proof (sc_rest fs sel (ss_slice rem) g (ordT ren) G1 Pg Hg Hr) as SR. cbv zeta in SR.
  assert (TD : forall n k, trace log_moves (lq_all css) (n, k) =
     match trace log_moves (concat (map lq_all l1)) (n, k) with
     | Some (m, k') => if str_in m (ss_slice rem) then None else Some (fold_left (rename_one tab_new tab_old) (ordT ren) m, k')
     | None => None end).
  { intros n k. rewrite EL, trace_app. destruct (trace log_moves (concat (map lq_all l1)) (n, k)) as [[m k']|]; auto.
    rewrite trace_app, trace_table_drops. destruct (str_in m (ss_slice rem)); auto.
    rewrite trace_app, trace_table_renames. now apply trace_still. }
  (* a table of both schemas *)
  assert (TK : forall old t, In old fs -> In t sel -> t_name old = t_name t -> exists chs,
     table_ok (lo_comments o) old t (fun k => trace log_moves chs (t_name t, k)) /\
     (forall k, In k (map c_name (t_cols t)) -> (Exists (makes (t_name t, k)) chs <->
         ~ exists k', In k' (map c_name (t_cols old)) /\ trace log_moves chs (t_name t, k') = Some (t_name t, k))) /\
     (forall k, trace log_moves (lq_all css) (t_name t, k) = trace log_moves chs (t_name t, k)) /\
     forall k, Exists (makes (t_name t, k)) (concat (map lq_all l1)) <-> Exists (makes (t_name t, k)) chs).
  { intros old t Ho Ht En. pose proof Ht as Ht'. apply select_in in Ht'. destruct Ht' as [Ht1 Ht2].
    destruct (kept_complete (lo_filter o) fs (s_tables to) t old (proj1 Df) Ht1 Ht2 Ho En) as [i Hi]. fold K in Hi.
    destruct (forall2_pick _ _ _ _ _ KT T2 Hi) as [chs [_ [[C1 [C2 C2']] C3]]]. cbn [fst snd] in C1, C2, C2', C3.
    exists chs. split; auto. split; auto. split; [|intros k; apply C3]. intros k. rewrite TD, (proj1 (C3 k)).
    destruct (trace log_moves chs (t_name t, k)) as [[m k']|] eqn:Tr; auto.
    apply (own_stays log_moves log_own log_own_in chs (t_name t)) in Tr; auto. simpl in Tr. subst m.
    apply (SR (t_name t) k'); [rewrite <- En; now apply in_map|now apply in_map]. }
  assert (TG : forall n k, In n (map t_name fs) -> ~ In n (map t_name sel) -> trace log_moves (lq_all css) (n, k) =
     if str_in n (ss_slice rem) then None else Some (fold_left (rename_one tab_new tab_old) (ordT ren) n, k)).
  { intros n k H1 H2. rewrite TD, (proj1 (T1 n k (fun C => H2 (proj1 (kept_names _ _ _ _ C))))). reflexivity. }
  assert (BR : brings (lo_comments o) fs sel (trace log_moves (lq_all css))).
  { apply (sc_brings (lo_comments o) fs sel (ss_slice rem) g (ordT ren) created Df Ds G1 Pg Hg Pc Hr); auto.
    { intros t old Ct Ho Hd. apply (proj1 (ss_slice_in _ _)) in Hd. unfold created, not_renamed in Ct. apply in_map_iff in Ct.
      destruct Ct as [[i t'] [Et Ct]]. cbn [snd] in Et. subst t'. apply filter_In in Ct. destruct Ct as [Ct1 Ct2].
      apply (MX i t Ct1) with (n := t_name old); auto; [|apply tables_by_name_nodup; auto; apply Df].
      intros b r C. apply negb_true_iff in Ct2. cbn [fst] in Ct2.
      assert (X : existsb (fun r0 => Nat.eqb i (fst r0)) ren = true) by (apply existsb_exists; exists (i, (b, r)); split; auto; apply PeanoNat.Nat.eqb_refl).
      congruence. }
    intros old t Ho Ht En. destruct (TK old t Ho Ht En) as [chs [C1 [_ [C3 _]]]].
    destruct C1 as [C11 C12 C13 C14]. constructor; try (intros; rewrite ?C3 in *; eauto; fail).
    intros o' c' Z1 Z2 Z3 Z4 Z5 Z6. rewrite C3 in Z6. destruct (C14 o' c' Z1 Z2 Z3 Z4 Z5 Z6) as [k' [Z7 Z8]].
    exists k'. split; [exact Z7|]. now rewrite C3. }
  split; [exact BR|].
  (* the places that are made *)
  intros q [t [c [Ht [Hc ->]]]].
  assert (M1 : forall n k, Exists (makes (n, k)) (lq_all css) <->
    Exists (makes (n, k)) (concat (map lq_all l1)) \/ exists t, In t created /\ t_name t = n /\ In k (map c_name (t_cols t))).
  { intros n k. rewrite EL, !Exists_app, A4'. split; [|tauto]. intros [C|[C|[C|C]]]; auto; exfalso.
    - apply Exists_exists in C. destruct C as [x [C1 C2]]. apply in_map_iff in C1. destruct C1 as [y [<- _]]. exact C2.
    - apply Exists_exists in C. destruct C as [x [C1 C2]]. apply in_flat_map in C1. destruct C1 as [[i [a b]] [_ C1]].
      unfold lq_rename_all in C1. cbn [fst snd] in C1. rewrite !in_app_iff in C1.
      assert (Z : forall (b : bool) y, In x (if b then [y] else []) -> x = y) by (intros [] y Hy; simpl in Hy; [destruct Hy; [congruence|contradiction]|contradiction]).
      destruct C1 as [C1|[C1|C1]]; [apply Z in C1; now subst x|destruct C1 as [<-|[]]; exact C2|apply Z in C1; now subst x]. }
  rewrite M1.
  destruct (in_dec string_dec (t_name t) (map t_name fs)) as [Y|Nn].
  - pose proof Y as Y'. apply in_map_iff in Y'. destruct Y' as [old [En Ho]].
    destruct (TK old t Ho Ht En) as [chs [C1 [C2 [C3 X1]]]].
    rewrite X1, (C2 (c_name c)) by (now apply in_map). split.
    + intros [C|[t' [D1 [D2 D3]]]].
      * intros [p [[old' [o' [H1 [H2 ->]]]] H3]]. apply C.
        assert (H4 : has fs (t_name old', c_name o')) by (exists old', o'; auto).
        assert (t_name old' = t_name t).
        { destruct (in_dec string_dec (t_name old') (map t_name sel)) as [Y2|N2].
          - apply in_map_iff in Y2. destruct Y2 as [t2 [E2 Ht2]]. destruct (TK old' t2 H1 Ht2) as [ch2 [D1 [_ [D3 _]]]]; auto.
            rewrite <- E2, D3 in H3. destruct (tb_goes _ _ _ _ D1 _ _ (in_map _ _ _ H2) H3) as [[D4 _]|[? [? [_ [_ [_ [D4 _]]]]]]];
              injection D4 as D4 _; congruence.
          - exfalso. rewrite TG in H3; auto; [|now apply in_map]. destruct (SR (t_name old') (c_name o') (in_map _ _ _ H1)) as [_ S2].
            destruct (S2 N2) as [S3|[r [S3 [S4 S5]]]]; [discriminate (eq_trans (eq_sym S3) H3)|]. apply (eq_trans (eq_sym S5)) in H3. injection H3 as H3 _.
            destruct r as [i [nw od]]. apply Hr in S3. unfold tab_new in H3. cbn [fst snd] in H3. rewrite H3 in S3. tauto. }
        assert (old' = old) by (apply (same_table fs); auto; [apply Df|congruence]). subst old'. rewrite En in H3. rewrite C3 in H3.
        exists (c_name o'). split; [now apply in_map|exact H3].
      * exfalso. assert (D4 : In t' (map (fun r => fst (snd r)) (ordT ren) ++ created)) by (apply in_or_app; now right).
        apply (Permutation_in _ (Permutation_sym Pc)) in D4. apply filter_In in D4. destruct D4 as [_ D4].
        apply negb_true_iff in D4. apply str_in_false in D4. rewrite D2 in D4. contradiction.
    + intros C. left. intros [k' [H1 H2]]. apply C. apply in_map_iff in H1. destruct H1 as [o' [<- H1]].
      exists (t_name old, c_name o'). split; [exists old, o'; auto|]. now rewrite En, C3.
  - assert (X1 : ~ Exists (makes (t_name t, c_name c)) (concat (map lq_all l1))).
    { apply T1. intros C. apply kept_names in C. tauto. }
    assert (Ct : In t (map (fun r => fst (snd r)) (ordT ren)) \/ In t created).
    { apply in_app_iff. apply (Permutation_in _ Pc). apply filter_In. split; auto. apply negb_true_iff. now apply str_in_false. }
    assert (NP : NoDup (map t_name (map (fun r => fst (snd r)) (ordT ren) ++ created))).
    { apply (Permutation_NoDup (Permutation_map t_name Pc)). destruct Ds as [D _]. clear - D.
      induction sel as [|u l IH]; simpl in *; [constructor|]. inversion D as [|? ? A B]; subst.
      destruct (negb _); simpl; auto. constructor; auto. intros C. apply A. apply in_map_iff in C. destruct C as [y [E C]].
      apply filter_In in C. rewrite <- E. now apply in_map. }
    rewrite map_app in NP.
    split.
    + intros [C|[t' [D1 [D2 D3]]]]; [contradiction|]. intros [p [[old' [o' [H1 [H2 ->]]]] H3]].
      destruct (in_dec string_dec (t_name old') (map t_name sel)) as [Y2|N2].
      * apply in_map_iff in Y2. destruct Y2 as [t2 [E2 Ht2]]. destruct (TK old' t2 H1 Ht2) as [ch2 [D5 [_ [D6 _]]]]; auto.
        rewrite <- E2, D6 in H3. apply Nn.
        destruct (tb_goes _ _ _ _ D5 _ _ (in_map _ _ _ H2) H3) as [[D4 _]|[? [? [_ [_ [_ [D4 _]]]]]]];
              injection D4 as D4 _; rewrite D4, E2; now apply in_map.
      * rewrite TG in H3; auto; [|now apply in_map]. destruct (SR (t_name old') (c_name o') (in_map _ _ _ H1)) as [_ S2].
        destruct (S2 N2) as [S3|[r [S3 [S4 S5]]]]; [discriminate (eq_trans (eq_sym S3) H3)|]. apply (eq_trans (eq_sym S5)) in H3. injection H3 as H3 _.
        apply (NoDup_app_disj _ _ (t_name t) NP).
        -- rewrite <- H3. rewrite map_map. exact (in_map (fun x : nat * (table * table) => t_name (fst (snd x))) _ _ S3).
        -- rewrite <- D2. now apply in_map.
    + intros C. right. destruct Ct as [Ct|Ct]; [|exists t; split; auto; split; auto; now apply in_map]. exfalso. apply C.
      apply in_map_iff in Ct. destruct Ct as [[i [nw old]] [Et Ct]]. cbn [fst snd] in Et. subst nw.
      pose proof (Hr _ _ _ Ct) as [R1 [R2 [R3 R4]]].
      exists (t_name old, c_name c). split; [exists old, c; rewrite <- R4; auto|].
      assert (NS : ~ In (t_name old) (map t_name sel)).
      { apply (Hg (t_name old)). apply (Permutation_in _ (Permutation_sym Pg)). apply in_or_app. left. exact (in_map tab_old _ _ Ct). }
      rewrite TG; auto; [|now apply in_map].
      destruct (SR (t_name old) (c_name c) (in_map _ _ _ R3)) as [_ S2]. destruct (S2 NS) as [S3|[r [S3 [S4 S5]]]].
      * exfalso. destruct (str_in (t_name old) (ss_slice rem)) eqn:Cx; [|discriminate]. apply str_in_iff in Cx.
        pose proof (Permutation_NoDup Pg G1) as N1. apply (NoDup_app_disj _ _ (t_name old) N1); auto. exact (in_map tab_old _ _ Ct).
      * etransitivity; [exact S5|]. pose proof (nodup_name_eq tab_old (ordT ren) r (i, (t, old)) (sc_olds (ss_slice rem) g (ordT ren) G1 Pg) S3 Ct (eq_sym S4)) as ->.
        reflexivity.
Qed.
End Log.
