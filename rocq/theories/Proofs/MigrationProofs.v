(** The Liquibase diff of one table, run on the abstract database *)
From Coq Require Import String Ascii List NArith Bool Lia Sorting.Permutation Sorting.Sorted.
From Verif.Model Require Import GoString Util Octopus DiffCore Liquibase.
From Verif.Spec Require Import Order Text DiffSpec LiquibaseSpec Database.
From Verif.Proofs Require Import ListLemmas StringLemmas UtilProofs OctopusProofs DiffCoreProofs DiffFacts
  LiquibaseProofs DatabaseProofs.
Import ListNotations.
Local Open Scope string_scope.
Local Open Scope list_scope.

(** ** Column lists as text *)

Lemma trim_left_space : forall s, trim_left (String " " s) = trim_left s.
Proof. reflexivity. Qed.

Lemma column_list_join : forall parts, parts <> [] -> (forall k, In k parts -> plain_name k) ->
  column_list (join ", " parts) = parts.
Proof.
  intros parts Hne Hp. unfold column_list.
  destruct parts as [|p parts]; [congruence|]. clear Hne.
  assert (E : join ", " (p :: parts) = join "," (p :: map (fun x => String " " x) parts)).
  { revert p Hp. induction parts as [|q parts IH]; intros p Hp; [reflexivity|].
    change (join ", " (p :: q :: parts)) with (p ++ String "," (String " " (join ", " (q :: parts))))%string.
    rewrite IH by (intros; apply Hp; now right).
    change (join "," (p :: map (fun x => String " " x) (q :: parts)))
      with (p ++ String "," (join "," (String " " q :: map (fun x => String " " x) parts)))%string.
    f_equal. f_equal. destruct parts; reflexivity. }
  rewrite E. rewrite (split_char_of_join "," (p :: map (fun x => String " " x) parts)).
  - simpl. f_equal; [apply Hp; now left|]. rewrite map_map.
    rewrite <- (map_id parts) at 2. apply map_ext_in. intros x Hx. unfold trim_space. rewrite trim_left_space.
    apply (Hp x). now right.
  - discriminate.
  - intros x [<-|Hx]; [apply Hp; now left|]. apply in_map_iff in Hx. destruct Hx as [y [<- Hy]].
    simpl. intros [C|C]; [discriminate|]. revert C. apply Hp. now right.
Qed.

(** ** New columns *)

Section Cols.
Variable fk : string -> bool.
Variable sv : server.
Variable comments : bool.
Notation is_col := (is_col fk comments).
Notation has_cols := (has_cols fk comments).
Notation step := (fold_opt (table_step sv)).

Lemma new_col_ok : forall c sp su lc, new_lq_column fk c sp su = Some lc -> (c_pk c = true -> c_notnull c = true) ->
  is_col c (new_dbcol (lc_comments comments lc)) /\ lc_name lc = c_name c /\
  declares k_pk lc = c_pk c && negb sp /\ declares k_unique lc = c_uq c && negb su.
Proof.
  intros c sp su lc H Hn. unfold new_lq_column in H.
  assert (G : exists dv, schema_default fk c = Some dv /\
    lc = mkLqColumn (c_name c) (get_liquibase_type c) (if c_autoinc c then Some true else None)
      (if c_pk c && negb sp || negb (c_pk c && negb sp) && c_notnull c || c_uq c && negb su
       then Some (mkLqConstraints (if c_pk c && negb sp then Some true else None)
                    (if negb (c_pk c && negb sp) && c_notnull c then Some false else None)
                    (if c_uq c && negb su then Some true else None))
       else None) (c_desc c) dv "").
  { unfold schema_default. destruct (String.eqb (c_default c) ""); simpl in H.
    - injection H as <-. eauto.
    - destruct (new_lq_default fk c); [|discriminate]. injection H as <-. eauto. }
  clear H. destruct G as [dv [Hd ->]].
  split; [|split; [reflexivity|split]].
  - unfold lc_comments. destruct comments; repeat split; simpl; auto; try discriminate;
      [destruct (c_pk c), sp, (c_notnull c), (c_uq c), su|destruct (c_autoinc c)
      |destruct (c_pk c), sp, (c_notnull c), (c_uq c), su|destruct (c_autoinc c)]; simpl; auto;
      now specialize (Hn eq_refl).
  - unfold declares. simpl. destruct (c_pk c), sp, (c_notnull c), (c_uq c), su; reflexivity.
  - unfold declares. simpl. destruct (c_pk c), sp, (c_notnull c), (c_uq c), su; reflexivity.
Qed.

Lemma insert_after_perm : forall a x l, In a (map d_name l) -> Permutation (insert_after a x l) (x :: l).
Proof.
  induction l as [|d l IH]; simpl; intros H; [destruct H|]. destruct (String.eqb (d_name d) a) eqn:E.
  - apply perm_swap.
  - destruct H as [H|H]; [apply String.eqb_neq in E; congruence|]. rewrite IH by auto. apply perm_swap.
Qed.

Lemma add_stage : forall all final adds l b,
  add_column_list fk comments all final = Some adds ->
  (forall i c, In (i, c) final -> c_pk c = true -> c_notnull c = true) ->
  has_cols l b -> NoDup (map c_name (l ++ map snd final)) ->
  (forall f1 i c f2, final = f1 ++ (i, c) :: f2 ->
     last_col_name all i = "" \/ In (last_col_name all i) (map c_name (l ++ map snd f1))) ->
  exists b', fold_opt add_col adds b = Some b' /\ has_cols (l ++ map snd final) b' /\
    b_name b' = b_name b /\ b_pk b' = b_pk b /\ b_uqs b' = b_uqs b.
Proof.
  intros all. induction final as [|[i c] final IH]; intros adds l b H Hn Hb D Hl; simpl in H.
  - injection H as <-. exists b. simpl. rewrite app_nil_r. auto.
  - destruct (new_lq_column fk c true true) as [lc|] eqn:El; [|discriminate].
    destruct (add_column_list fk comments all final) as [r|] eqn:Er; [|discriminate]. injection H as <-.
    destruct (new_col_ok _ _ _ _ El) as [Hc [N1 [P1 U1]]]. { apply (Hn i). now left. }
    cbn [fold_opt]. set (lc' := lc_set_after (last_col_name all i) (lc_comments comments lc)).
    assert (N2 : lc_name lc' = c_name c) by (unfold lc', lc_comments; destruct comments; exact N1).
    assert (Ec : new_dbcol lc' = new_dbcol (lc_comments comments lc)) by reflexivity.
    assert (Dp : declares k_pk lc' = false).
    { rewrite andb_false_r in P1. rewrite <- P1. unfold lc', lc_comments. destruct comments; reflexivity. }
    assert (Du : declares k_unique lc' = false).
    { rewrite andb_false_r in U1. rewrite <- U1. unfold lc', lc_comments. destruct comments; reflexivity. }
    assert (S : exists b1, add_col b lc' = Some b1 /\ has_cols (l ++ [c]) b1 /\
       b_name b1 = b_name b /\ b_pk b1 = b_pk b /\ b_uqs b1 = b_uqs b).
    { assert (HP : forall cols, Permutation cols (new_dbcol lc' :: b_cols b) -> has_cols (l ++ [c]) (set_cols b cols)).
      { intros cols P. apply (has_cols_perm fk comments (c :: l)); [apply Permutation_cons_append|].
        destruct Hb as [ds [P0 F0]]. exists (new_dbcol lc' :: ds). split.
        - cbn [b_cols set_cols]. rewrite P. now constructor.
        - now constructor. }
      unfold add_col. rewrite N2.
      rewrite (named_false fk comments l); auto.
      2:{ rewrite map_app in D. intros C. apply (NoDup_app_disj _ _ _ D C). simpl. auto. }
      rewrite Dp, Du. cbn [orb].
      change (lc_after lc') with (last_col_name all i).
      destruct (String.eqb (last_col_name all i) "") eqn:Ea.
      - eexists. split; [reflexivity|]. split; [|auto]. apply HP. symmetry. apply Permutation_cons_append.
      - destruct (Hl [] i c final eq_refl) as [C|C]; [apply String.eqb_neq in Ea; congruence|].
        simpl in C. rewrite app_nil_r in C.
        assert (N3 : named_col (last_col_name all i) b = true) by (eapply named_iff; eauto).
        rewrite N3. eexists. split; [reflexivity|]. split; [|auto]. apply HP. apply insert_after_perm.
        now apply named_col_in. }
    destruct S as [b1 [S1 [S2 [S3 [S4 S5]]]]]. fold lc'. rewrite S1.
    destruct (IH r (l ++ [c]) b1) as [b' [I1 [I2 [I3 [I4 I5]]]]]; auto.
    + intros j c' Hj. apply (Hn j). now right.
    + rewrite <- app_assoc. exact D.
    + intros f1 j c' f2 E. destruct (Hl ((i, c) :: f1) j c' f2) as [C|C]; [now rewrite E|now left|right].
      rewrite <- app_assoc. exact C.
    + exists b'. split; auto. split; [rewrite <- app_assoc in I2; exact I2|]. repeat split; congruence.
Qed.

(** ** Positions *)

Lemma with_pos_sorted : forall {A} (l : list A), StronglySorted (fun a b => fst a < fst b) (with_pos l).
Proof.
  intros A l. unfold with_pos. generalize 0. induction l as [|x l IH]; intros k; simpl; constructor; auto.
  apply Forall_forall. intros [j y] H. apply in_combine_l in H. apply in_seq in H. simpl. lia.
Qed.

Lemma filter_sorted : forall {A} (R : A -> A -> Prop) p l, StronglySorted R l -> StronglySorted R (filter p l).
Proof.
  intros A R p l S. induction S as [|x l S IH F]; simpl; [constructor|]. destruct (p x); auto.
  constructor; auto. apply Forall_forall. intros y Hy. apply filter_In in Hy. rewrite Forall_forall in F.
  now apply F.
Qed.

Lemma sorted_before : forall {A} (l1 : list (nat * A)) i x l2 j y,
  StronglySorted (fun a b => fst a < fst b) (l1 ++ (i, x) :: l2) ->
  In (j, y) (l1 ++ (i, x) :: l2) -> j < i -> In (j, y) l1.
Proof.
  induction l1 as [|a l1 IH]; simpl; intros i x l2 j y S H L.
  - inversion S as [|? ? S' F]; subst. destruct H as [H|H]; [injection H as -> ->; lia|].
    rewrite Forall_forall in F. apply F in H. simpl in H. lia.
  - inversion S as [|? ? S' F]; subst. destruct H as [H|H]; auto. right. eapply IH; eauto.
Qed.

(** ** Splitting the columns *)

Lemma filter_partition : forall {A} (p : A -> bool) l, Permutation l (filter p l ++ filter (fun x => negb (p x)) l).
Proof.
  induction l as [|x l IH]; simpl; auto. destruct (p x); simpl.
  - now constructor.
  - etransitivity; [constructor; exact IH|]. apply Permutation_middle.
Qed.

Lemma NoDup_fst_filter : forall {A} (l : list (nat * A)) p, NoDup (map fst l) -> NoDup (map fst (filter p l)).
Proof.
  induction l as [|x l IH]; simpl; intros p D; auto. inversion D as [|? ? NI ND]; subst.
  destruct (p x); simpl; auto. constructor; auto. intros C. apply NI. apply in_map_iff in C.
  destruct C as [y [E C]]. apply filter_In in C. apply in_map_iff. exists y. tauto.
Qed.

Definition unmatched {A} (ren : list (nat * (A * A))) (ia : nat * A) : bool :=
  negb (existsb (fun r => Nat.eqb (fst ia) (fst r)) ren).

Lemma unmatched_iff : forall {A} (ren : list (nat * (A * A))) ia, unmatched ren ia = true <-> ~ In (fst ia) (map fst ren).
Proof.
  intros. unfold unmatched. rewrite negb_true_iff, <- not_true_iff_false, existsb_exists, in_map_iff.
  split; intros H C; apply H; destruct C as [r [C1 C2]]; exists r; [split; auto|split; auto].
  - rewrite C1. apply PeanoNat.Nat.eqb_refl.
  - apply PeanoNat.Nat.eqb_eq in C2. auto.
Qed.

Lemma renamed_split : forall {A} (added : list (nat * A)) (ren : list (nat * (A * A))),
  NoDup (map fst added) -> NoDup (map fst ren) -> (forall i c o, In (i, (c, o)) ren -> In (i, c) added) ->
  Permutation (map snd added) (map (fun r => fst (snd r)) ren ++ map snd (filter (unmatched ren) added)).
Proof.
  intros A added ren Da Dr H.
  set (l := map (fun r => (fst r, fst (snd r))) ren ++ filter (unmatched ren) added).
  assert (P : Permutation added l).
  { apply NoDup_Permutation.
    - eapply NoDup_map_inv; eauto.
    - apply (NoDup_map_inv fst). unfold l. rewrite map_app, map_map. cbn [fst].
      apply NoDup_app_intro; auto; [now apply NoDup_fst_filter|].
      intros i Hi C. apply in_map_iff in C. destruct C as [x [<- C]]. apply filter_In in C.
      destruct C as [_ C]. rewrite unmatched_iff in C. auto.
    - intros [i c]. unfold l. rewrite in_app_iff, in_map_iff, filter_In, unmatched_iff. simpl. split.
      + intros Hi. destruct (in_dec PeanoNat.Nat.eq_dec i (map fst ren)) as [Y|N]; [|auto]. left.
        apply in_map_iff in Y. destruct Y as [[j [c' o']] [E Y]]. simpl in E. subst j. exists (i, (c', o')).
        split; auto. simpl. f_equal. pose proof (H _ _ _ Y) as H'.
        clear - Da Hi H'. induction added as [|[k z] added IH]; [destruct Hi|]. simpl in Da.
        inversion Da as [|? ? NI ND]; subst. destruct Hi as [E|Hi], H' as [E'|H'].
        * congruence.
        * injection E as -> ->. exfalso. apply NI. apply in_map_iff. exists (i, c'). auto.
        * injection E' as -> ->. exfalso. apply NI. apply in_map_iff. exists (i, c). auto.
        * auto.
      + intros [[[j [c' o']] [E Y]]|[Y _]]; auto. simpl in E. injection E as -> ->. eauto. }
  apply (Permutation_map snd) in P. unfold l in P. rewrite map_app, map_map in P. exact P.
Qed.

Lemma kept_cols_fst : forall old cs,
  map fst (kept_cols old cs) = map snd (filter (fun ic => negb (is_added_col old ic)) cs).
Proof.
  intros old. unfold is_added_col, kept_cols. induction cs as [|[i c] cs IH]; simpl; auto.
  rewrite map_app, IH. rewrite negb_involutive. destruct (column_name_map old (c_name c)) as [o|] eqn:E.
  - assert (S : str_in (c_name c) (map c_name old) = true).
    { apply str_in_iff. apply column_name_map_some in E. destruct E as [E1 E2]. rewrite <- E2. now apply in_map. }
    rewrite S. reflexivity.
  - assert (S : str_in (c_name c) (map c_name old) = false).
    { apply str_in_false. now apply column_name_map_none. }
    rewrite S. reflexivity.
Qed.

Lemma same_name_same_col : forall l a b, NoDup (map c_name l) -> In a l -> In b l -> c_name a = c_name b -> a = b.
Proof.
  intros l a b D Ha Hb E. pose proof (column_name_map_nodup l a D Ha) as H1.
  pose proof (column_name_map_nodup l b D Hb) as H2. rewrite E in H1. congruence.
Qed.
End Cols.

(** ** The whole diff of a table *)

Lemma kept_cols_in : forall olds cs c o, In (c, o) (kept_cols olds (with_pos cs)) <->
  In c cs /\ column_name_map olds (c_name c) = Some o.
Proof.
  intros olds cs c o. unfold kept_cols. rewrite in_flat_map. split.
  - intros [[i x] [H1 H2]]. simpl in H2. destruct (column_name_map olds (c_name x)) as [y|] eqn:E; [|destruct H2].
    destruct H2 as [H2|[]]. injection H2 as -> ->. split; auto. apply with_pos_in. eauto.
  - intros [H1 H2]. apply with_pos_in in H1. destruct H1 as [i H1]. exists (i, c). split; auto. simpl.
    rewrite H2. now left.
Qed.

Lemma old_split : forall t old renamed removed g R,
  NoDup (map c_name (t_cols t)) -> NoDup (map c_name (t_cols old)) ->
  NoDup g -> Permutation g (map (fun r => c_name (snd (snd r))) renamed ++ removed) ->
  (forall k, In k g <-> In k (map c_name (t_cols old)) /\ ~ In k (map c_name (t_cols t))) ->
  (forall (i : nat) (c o : column), In (i, (c, o)) renamed -> column_name_map (t_cols old) (c_name o) = Some o) ->
  Permutation renamed R ->
  exists D, map c_name D = ss_slice removed /\
    Permutation (t_cols old)
      (map snd (kept_cols (t_cols old) (with_pos (t_cols t))) ++ D ++ map (fun r => snd (snd r)) R).
Proof.
  intros t old renamed removed g R Dt Do Dg Pg Hg Hr PR.
  assert (EX : exists D, map c_name D = ss_slice removed /\ forall c, In c D -> In c (t_cols old)).
  { assert (A : forall k, In k (ss_slice removed) -> In k (map c_name (t_cols old))).
    { intros k Hk. rewrite ss_slice_in in Hk. apply Hg. apply (Permutation_in _ (Permutation_sym Pg)).
      apply in_or_app. now right. }
    revert A. generalize (ss_slice removed). induction l as [|k l IH]; intros A.
    - exists []. split; auto. intros c [].
    - destruct IH as [D [E I]]; [intros; apply A; now right|].
      assert (Hk : In k (map c_name (t_cols old))) by (apply A; now left).
      apply in_map_iff in Hk. destruct Hk as [c [<- Hc]]. exists (c :: D). simpl. rewrite E. split; auto.
      intros x [<-|Hx]; auto. }
  destruct EX as [D [ED ID]]. exists D. split; auto.
  assert (PN : Permutation g (map c_name (D ++ map (fun r => snd (snd r)) R))).
  { rewrite map_app, ED, map_map, Pg. rewrite Permutation_app_comm. apply Permutation_app.
    - symmetry. apply ss_slice_perm.
    - now apply Permutation_map. }
  assert (DK : NoDup (map c_name (map snd (kept_cols (t_cols old) (with_pos (t_cols t)))))).
  { replace (map c_name (map snd (kept_cols (t_cols old) (with_pos (t_cols t)))))
      with (map (fun p => c_name (fst p)) (kept_cols (t_cols old) (with_pos (t_cols t)))).
    - apply kept_cols_nodup. now rewrite with_pos_snd.
    - rewrite map_map. apply map_ext_in. intros [c o] H. apply kept_cols_in in H. destruct H as [_ H].
      apply column_name_map_some in H. simpl. symmetry. tauto. }
  apply NoDup_Permutation.
  - eapply NoDup_map_inv; eauto.
  - apply (NoDup_map_inv c_name). rewrite map_app. apply NoDup_app_intro; auto.
    + eapply Permutation_NoDup; [exact PN|exact Dg].
    + intros k Hk C. apply (Permutation_in _ (Permutation_sym PN)) in C. apply Hg in C.
      apply in_map_iff in Hk. destruct Hk as [o [<- Hk]]. apply in_map_iff in Hk. destruct Hk as [[c o'] [E Hk]].
      simpl in E. subst o'. apply kept_cols_in in Hk. destruct Hk as [H1 H2]. apply C.
      apply column_name_map_some in H2. destruct H2 as [_ H2]. rewrite H2. now apply in_map.
  - intros o. rewrite !in_app_iff. split.
    + intros Ho. destruct (in_dec string_dec (c_name o) (map c_name (t_cols t))) as [Y|N].
      * left. apply in_map_iff in Y. destruct Y as [c [E Hc]]. apply in_map_iff. exists (c, o). split; auto.
        apply kept_cols_in. split; auto. rewrite E. now apply column_name_map_nodup.
      * right. assert (G : In (c_name o) g) by (apply Hg; split; auto; now apply in_map).
        apply (Permutation_in _ PN) in G. apply in_map_iff in G. destruct G as [o' [E G]].
        assert (In o' (t_cols old)).
        { apply in_app_iff in G. destruct G as [G|G]; auto. apply in_map_iff in G.
          destruct G as [[i [c x]] [E' G]]. simpl in E'. subst x.
          apply (Permutation_in _ (Permutation_sym PR)) in G. apply Hr in G. now apply column_name_map_some in G. }
        rewrite <- in_app_iff. replace o with o'; auto. apply (same_name_same_col (t_cols old)); auto.
    + intros [H|[H|H]]; auto.
      * apply in_map_iff in H. destruct H as [[c x] [E H]]. simpl in E. subst x. apply kept_cols_in in H.
        destruct H as [_ H]. now apply column_name_map_some in H.
      * apply in_map_iff in H. destruct H as [[i [c x]] [E H]]. simpl in E. subst x.
        apply (Permutation_in _ (Permutation_sym PR)) in H. apply Hr in H. now apply column_name_map_some in H.
Qed.

Lemma new_split : forall t old renamed R,
  NoDup (map fst renamed) ->
  (forall i c o, In (i, (c, o)) renamed -> nth_error (t_cols t) i = Some c /\ ~ In (c_name c) (map c_name (t_cols old))) ->
  Permutation renamed R ->
  Permutation (t_cols t)
    (map fst (kept_cols (t_cols old) (with_pos (t_cols t))) ++ map (fun r => fst (snd r)) R ++
     map snd (filter (unmatched renamed) (filter (is_added_col (t_cols old)) (with_pos (t_cols t))))).
Proof.
  intros t old renamed R Dr Hr PR. rewrite kept_cols_fst.
  rewrite <- (with_pos_snd (t_cols t)) at 1.
  rewrite (Permutation_map snd (filter_partition (is_added_col (t_cols old)) (with_pos (t_cols t)))).
  rewrite map_app, Permutation_app_comm. apply Permutation_app_head.
  rewrite <- (Permutation_map (fun r => fst (snd r)) PR). apply renamed_split; auto.
  - apply NoDup_fst_filter, with_pos_nodup.
  - intros i c o H. apply Hr in H. destruct H as [H1 H2]. apply filter_In. split; [now apply with_pos_nth|].
    unfold is_added_col. apply negb_true_iff. now apply str_in_false.
Qed.

Lemma lq_all_inside : forall fk author comments suffix ord id t old css id',
  lq_diff_table fk author comments suffix ord id t old = Some (css, id') -> iteration_order ord ->
  no_pre css /\ Forall (fun ch => inside ch /\ target ch = t_name t) (lq_all css).
Proof.
  intros fk author comments suffix ord id t old css id' H Hord.
  destruct (lq_diff_table_changes _ _ _ _ _ _ _ _ _ _ H Hord)
    as [lcol [removed [renamed [adds [E [NP [F _]]]]]]].
  split; auto. rewrite E. clear E. repeat rewrite Forall_app. repeat split.
  - destruct (_ && _); repeat constructor.
  - clear - F. induction F as [|[c o] x l l' Hx F IH]; simpl; [constructor|]. apply Forall_app. split; auto.
    assert (G : Forall (fun ch => inside ch /\ target ch = t_name t) x); [|exact G].
    unfold lq_column_changes in Hx.
    match type of Hx with context[Some (?chs ++ _)] => assert (C : Forall (fun ch => inside ch /\ target ch = t_name t) chs) end.
    { repeat rewrite Forall_app. repeat split;
        match goal with |- Forall _ (if ?b then _ else _) => destruct b end; repeat constructor;
        destruct (c_notnull c); simpl; auto. }
    match type of Hx with context[Some (?chs ++ _)] => set (l0 := chs) in * end. clearbody l0.
    destruct (negb (String.eqb (c_default c) (c_default o))); [|now injection Hx as <-].
    destruct (String.eqb (c_default c) "").
    + injection Hx as <-. apply Forall_app. split; auto. repeat constructor.
    + destruct (new_lq_default fk c); [|discriminate]. injection Hx as <-. apply Forall_app. split; auto. repeat constructor.
  - destruct (negb _); repeat constructor.
  - clear. induction (ss_slice removed); simpl; constructor; auto. simpl; auto.
  - clear. induction (ord renamed); cbn [flat_map]; [constructor|]. apply Forall_app. split; auto.
    unfold lq_rename_changes. constructor; [simpl; auto|].
    destruct (c_notnull _); repeat constructor.
  - destruct (filter _ _); repeat constructor.
  - destruct (negb _); [|constructor]. apply Forall_app. split; destruct (Nat.ltb _ _); repeat constructor.
  - destruct (negb _); [|constructor]. destruct (Nat.ltb _ _); repeat constructor.
Qed.

Lemma named_unique_in : forall suffix t b u k, named_unique suffix t b -> In u (b_uqs b) -> In k (snd u) -> uq_of t k.
Proof.
  intros suffix t b u k [[E _]|[ks [E [S _]]]] Hu Hk; rewrite E in Hu; [destruct Hu|].
  destruct Hu as [<-|[]]. now apply S.
Qed.

Lemma uq_of_name : forall t k, uq_of t k -> In k (map c_name (t_cols t)).
Proof. intros t k [c [H [_ <-]]]. now apply in_map. Qed.
Lemma pk_of_name : forall t k, pk_of t k -> In k (map c_name (t_cols t)).
Proof. intros t k [c [H [_ <-]]]. now apply in_map. Qed.

Lemma pk_set : forall t k, In k (pk_name_set t) <-> pk_of t k.
Proof. intros. rewrite pk_name_set_in. reflexivity. Qed.
Lemma uq_set : forall t k, In k (uq_name_set t) <-> uq_of t k.
Proof. intros. rewrite uq_name_set_in. reflexivity. Qed.

Lemma set_column_list : forall (s : sset), s <> [] -> (forall k, In k s -> plain_name k) ->
  column_list (ss_join s ", ") = ss_slice s.
Proof.
  intros s Hne Hp. unfold ss_join. apply column_list_join.
  - intros C. apply Hne. apply Permutation_nil. rewrite <- C. apply ss_slice_perm.
  - intros k Hk. apply Hp. now rewrite ss_slice_in in Hk.
Qed.

Lemma changed_sets : forall a b : sset, NoDup a -> NoDup b ->
  if negb (ss_equals a b) then ~ (forall k, In k a <-> In k b) else forall k, In k a <-> In k b.
Proof.
  intros a b Da Db. destruct (ss_equals a b) eqn:E; simpl.
  - now apply ss_equals_same.
  - intros C. apply ss_equals_same in C; auto. congruence.
Qed.

Lemma size_zero : forall s : sset, Nat.ltb 0 (ss_size s) = false -> s = [].
Proof. intros [|x s]; auto. discriminate. Qed.

(** the last two stages: the key and the unique constraint *)
Section Keys.
Variable fk : string -> bool.
Variable sv : server.
Variable comments : bool.
Notation has_cols := (has_cols fk comments).
Notation step := (fold_opt (table_step sv)).

Lemma with_notnull_id : forall d, d_notnull d = true -> with_notnull true d = d.
Proof. intros [] H. unfold with_notnull. simpl in *. now subst. Qed.

Lemma add_pk_noop : forall t b, well_formed t -> has_cols (t_cols t) b -> forall ks, (forall k, In k ks -> pk_of t k) ->
  map (fun d => if str_mem (d_name d) ks then with_notnull true d else d) (b_cols b) = b_cols b.
Proof.
  intros t b [W1 W2] [ds [P F]] ks Hk. rewrite <- (map_id (b_cols b)) at 2. apply map_ext_in. intros d Hd.
  destruct (str_mem (d_name d) ks) eqn:E; auto. apply str_mem_iff in E. apply Hk in E.
  apply with_notnull_id. apply (Permutation_in _ P) in Hd.
  destruct (Forall2_in_r _ _ _ _ F Hd) as [c [Hc Hd']]. destruct E as [c' [H1 [H2 H3]]].
  destruct Hd' as [N1 [_ [N2 _]]]. rewrite N2. replace c with c'; [now apply W2|].
  apply (same_name_same_col (t_cols t)); auto. congruence.
Qed.

Lemma pk_stage : forall t old b, well_formed t -> has_cols (t_cols t) b ->
  let pk_changed := negb (ss_equals (pk_name_set t) (pk_name_set old)) in
  (pk_changed = false -> same_set (b_pk b) (pk_of t)) ->
  (pk_changed = true -> (b_pk b = [] <-> pk_name_set old = [])) ->
  exists b', step (if pk_changed then
        ((if Nat.ltb 0 (ss_size (pk_name_set old)) then [LqDropPrimaryKey (t_name t)] else []) ++
         (if Nat.ltb 0 (ss_size (pk_name_set t)) then [LqAddPrimaryKey (t_name t) (ss_join (pk_name_set t) ", ")] else []))
       else []) b = Some b' /\ b_cols b' = b_cols b /\ same_set (b_pk b') (pk_of t) /\
    b_name b' = b_name b /\ b_uqs b' = b_uqs b.
Proof.
  intros t old b W Hb ch H1 H2. destruct ch eqn:Ec.
  2:{ exists b. simpl. repeat split; auto; apply (H1 eq_refl). }
  specialize (H2 eq_refl).
  set (drop := if Nat.ltb 0 (ss_size (pk_name_set old)) then [LqDropPrimaryKey (t_name t)] else []).
  assert (S1 : step drop b = Some (set_pk b [])).
  { unfold drop. destruct (Nat.ltb 0 (ss_size (pk_name_set old))) eqn:E.
    - simpl. destruct (b_pk b) eqn:Eb; [|reflexivity]. exfalso. apply size_pos in E. destruct E as [k Hk].
      rewrite (proj1 H2 eq_refl) in Hk. destruct Hk.
    - apply size_zero in E. simpl. rewrite <- (proj2 H2 E). now destruct b. }
  rewrite (fold_opt_app _ _ _ _ _ S1).
  destruct (Nat.ltb 0 (ss_size (pk_name_set t))) eqn:E.
  - assert (NE : pk_name_set t <> []).
    { apply size_pos in E. destruct E as [k Hk]. intros C. rewrite C in Hk. destruct Hk. }
    assert (CL : column_list (ss_join (pk_name_set t) ", ") = ss_slice (pk_name_set t)).
    { apply set_column_list; auto. intros k Hk. apply pk_set in Hk. destruct Hk as [c [Hc [_ <-]]]. now apply W. }
    assert (KS : forall k, In k (ss_slice (pk_name_set t)) <-> pk_of t k).
    { intros k. rewrite ss_slice_in. apply pk_set. }
    cbn [fold_opt table_step set_pk b_pk]. rewrite CL.
    assert (A : forallb (fun k => named_col k (set_pk b [])) (ss_slice (pk_name_set t)) = true).
    { apply forallb_forall. intros k Hk. change (named_col k b = true).
      eapply named_iff; eauto. apply pk_of_name. now apply KS. }
    rewrite A. eexists. split; [reflexivity|]. split.
    + cbn [b_cols set_pk set_cols]. eapply add_pk_noop; eauto. apply KS.
    + split; [|auto]. exact KS.
  - apply size_zero in E. exists (set_pk b []). split; [reflexivity|]. split; auto. split; auto.
    intros k. simpl. rewrite <- pk_set, E. reflexivity.
Qed.

Lemma uq_stage : forall suffix t old b, well_formed t -> has_cols (t_cols t) b ->
  let uq_changed := negb (ss_equals (uq_name_set t) (uq_name_set old)) in
  b_name b = t_name t ->
  (uq_changed = false -> named_unique suffix t b) ->
  (uq_changed = true -> b_uqs b = []) ->
  exists b', step (if uq_changed then
        (if Nat.ltb 0 (ss_size (uq_name_set t))
         then [LqAddUniqueConstraint (t_name t) (ss_join (uq_name_set t) ", ") (t_name t ++ suffix)] else []) else []) b = Some b' /\
    b_cols b' = b_cols b /\ b_pk b' = b_pk b /\ b_name b' = b_name b /\ named_unique suffix t b'.
Proof.
  intros suffix t old b W Hb ch Hn H1 H2. destruct ch eqn:Ec.
  2:{ exists b. simpl. repeat split; auto. }
  specialize (H2 eq_refl).
  destruct (Nat.ltb 0 (ss_size (uq_name_set t))) eqn:E.
  - apply size_pos in E. destruct E as [k0 Hk0].
    assert (NE : uq_name_set t <> []) by (intros C; rewrite C in Hk0; destruct Hk0).
    assert (CL : column_list (ss_join (uq_name_set t) ", ") = ss_slice (uq_name_set t)).
    { apply set_column_list; auto. intros k Hk. apply uq_set in Hk. destruct Hk as [c [Hc [_ <-]]]. now apply W. }
    assert (KS : forall k, In k (ss_slice (uq_name_set t)) <-> uq_of t k).
    { intros k. rewrite ss_slice_in. apply uq_set. }
    cbn [fold_opt table_step]. rewrite CL, H2. cbn [existsb].
    assert (A : forallb (fun k => named_col k b) (ss_slice (uq_name_set t)) = true).
    { apply forallb_forall. intros k Hk. eapply named_iff; eauto. apply uq_of_name. now apply KS. }
    rewrite A. eexists. split; [reflexivity|]. repeat split; auto. right. exists (ss_slice (uq_name_set t)).
    split; [reflexivity|]. split; auto. exists k0. now apply uq_set.
  - apply size_zero in E. exists b. split; [reflexivity|]. repeat split; auto. left. split; auto.
    intros [k Hk]. apply uq_set in Hk. rewrite E in Hk. destruct Hk.
Qed.

Lemma has_cols_eq : forall l b b', b_cols b' = b_cols b -> has_cols l b -> has_cols l b'.
Proof. intros l b b' E [ds [P F]]. exists ds. rewrite E. auto. Qed.

Lemma step_remarks : forall b ch b', (forall x r, ch <> LqSetTableRemarks x r) -> table_step sv b ch = Some b' ->
  b_remarks b' = b_remarks b.
Proof.
  intros b ch b' Hn H. destruct ch; simpl in H; unfold on_col in *; try discriminate;
    repeat match type of H with
    | (if ?c then _ else _) = _ => destruct c
    | match ?c with [] => _ | _ => _ end = _ => destruct c
    | match ?c with Some _ => _ | None => _ end = _ => destruct c eqn:?
    end; try discriminate; try (injection H as <-; reflexivity).
  - now elim (Hn table remarks).
  - clear Hn. revert b b' H. induction cols as [|lc cols IH]; simpl; intros b b' H; [now injection H as <-|].
    unfold add_col in H at 1. destruct (named_col (lc_name lc) b); [discriminate|].
    destruct (declares k_pk lc || declares k_unique lc); [discriminate|].
    destruct (String.eqb (lc_after lc) ""); [apply IH in H; exact H|].
    destruct (named_col (lc_after lc) b); [apply IH in H; exact H|discriminate].
  - injection H as <-. destruct (named_col old_name b); [|discriminate].
    match goal with E : Some _ = Some _ |- _ => injection E as <- end. reflexivity.
Qed.

Lemma run_remarks : forall chs b b', Forall (fun ch => forall x r, ch <> LqSetTableRemarks x r) chs ->
  step chs b = Some b' -> b_remarks b' = b_remarks b.
Proof.
  induction chs as [|ch chs IH]; simpl; intros b b' F H; [now injection H as <-|].
  inversion F as [|? ? F1 F2]; subst. destruct (table_step sv b ch) eqn:E; [|discriminate].
  apply IH in H; auto. apply step_remarks in E; auto. congruence.
Qed.

Lemma column_changes_no_remarks : forall t l lcol,
  Forall2 (fun p x => lq_column_changes fk comments t p = Some x) l lcol ->
  Forall (fun ch => forall x r, ch <> LqSetTableRemarks x r) (concat lcol).
Proof.
  intros t l lcol F. induction F as [|[c o] x l l' Hx F IH]; simpl; [constructor|]. apply Forall_app. split; auto.
  unfold lq_column_changes in Hx.
  match type of Hx with context[Some (?chs ++ _)] =>
    assert (C : Forall (fun ch => forall x r, ch <> LqSetTableRemarks x r) chs) end.
  { repeat rewrite Forall_app. repeat split;
      match goal with |- Forall _ (if ?b then _ else _) => destruct b end; repeat constructor; try discriminate;
      destruct (c_notnull c); discriminate. }
  match type of Hx with context[Some (?chs ++ _)] => set (l0 := chs) in * end. clearbody l0.
  destruct (negb (String.eqb (c_default c) (c_default o))); [|now injection Hx as <-].
  destruct (String.eqb (c_default c) "").
  + injection Hx as <-. apply Forall_app. split; auto. constructor; [discriminate|constructor].
  + destruct (new_lq_default fk c); [|discriminate]. injection Hx as <-. apply Forall_app. split; auto.
    constructor; [discriminate|constructor].
Qed.

Lemma table_migrates : forall author suffix ord id t old css id' b,
  lq_diff_table fk author comments suffix ord id t old = Some (css, id') -> iteration_order ord ->
  well_formed t -> well_formed old -> t_name old = t_name t ->
  migratable fk sv (lq_all css) old t -> has_table fk comments suffix old b ->
  exists b', step (lq_all css) b = Some b' /\ has_table fk comments suffix t b'.
Proof.
  intros author suffix ord id t old css id' b H Hord Wt Wo Hname M [Bn [Br [Bc [Bp Bu]]]].
  destruct (lq_diff_table_changes _ _ _ _ _ _ _ _ _ _ H Hord)
    as [lcol [removed [renamed [adds [E [_ [F [Ea [_ [[g [Dg [Pg Hg]]] [Hr [Dr _]]]]]]]]]]]].
  set (K := kept_cols (t_cols old) (with_pos (t_cols t))) in *.
  set (added := filter (is_added_col (t_cols old)) (with_pos (t_cols t))) in *.
  set (final := filter (fun ia => negb (existsb (fun r => Nat.eqb (fst ia) (fst r)) renamed)) added) in *.
  set (R := ord renamed) in *.
  assert (PR : Permutation renamed R) by (symmetry; apply Hord).
  pose proof Wt as [Dt Wt'].
  destruct Wo as [Do Wo'].
  destruct (old_split t old renamed removed g R Dt Do Dg Pg Hg) as [D [ED PO]]; auto.
  { intros i c o Hi. now apply Hr in Hi. }
  fold K in PO.
  assert (PT : Permutation (t_cols t) (map fst K ++ map (fun r => fst (snd r)) R ++ map snd final)).
  { apply new_split; auto. intros i c o Hi. apply Hr in Hi. tauto. }
  assert (PN : Permutation g (map c_name (D ++ map (fun r => snd (snd r)) R))).
  { rewrite map_app, ED, map_map, Pg. rewrite Permutation_app_comm. apply Permutation_app.
    - symmetry. apply ss_slice_perm.
    - now apply Permutation_map. }
  assert (Gone : forall c, In c (D ++ map (fun r => snd (snd r)) R) -> ~ In (c_name c) (map c_name (t_cols t))).
  { intros c Hc. apply Hg. apply (Permutation_in _ (Permutation_sym PN)). now apply in_map. }
  (* the set changes *)
  pose proof (changed_sets _ _ (uq_name_set_nodup t) (uq_name_set_nodup old)) as UC.
  pose proof (changed_sets _ _ (pk_name_set_nodup t) (pk_name_set_nodup old)) as PC.
  set (uc := negb (ss_equals (uq_name_set t) (uq_name_set old))) in *.
  set (pc := negb (ss_equals (pk_name_set t) (pk_name_set old))) in *.
  rewrite E.
  (* table remarks *)
  match goal with |- context[fold_opt _ ((if ?x then ?y else []) ++ _)] =>
    assert (S0 : exists b0, step (if x then y else []) b = Some b0 /\ b_name b0 = b_name b /\
       b_cols b0 = b_cols b /\ b_pk b0 = b_pk b /\ b_uqs b0 = b_uqs b) end.
  { destruct (_ && _); simpl; eexists; (split; [reflexivity|auto]). }
  destruct S0 as [b0 [S0 [N0 [C0 [K0 U0]]]]]. rewrite (fold_opt_app _ _ _ _ _ S0).
  assert (R0 : comments = true -> b_remarks b0 = t_desc t).
  { intros Ecm. rewrite Ecm in S0. simpl in S0. destruct (String.eqb (t_desc t) (t_desc old)) eqn:Ed.
    - apply String.eqb_eq in Ed. simpl in S0. injection S0 as <-. rewrite Ed. auto.
    - simpl in S0. injection S0 as <-. reflexivity. }
  match goal with |- context[step ?l b0] => set (rest := l) in * end.
  assert (NR : Forall (fun ch => forall x r, ch <> LqSetTableRemarks x r) rest).
  { unfold rest. repeat rewrite Forall_app. repeat split.
    - eapply column_changes_no_remarks; eauto.
    - destruct uc; constructor; [discriminate|constructor].
    - clear. induction (ss_slice removed); simpl; constructor; auto. discriminate.
    - clear. induction R as [|r R IH]; cbn [flat_map]; [constructor|]. apply Forall_app. split; auto.
      unfold lq_rename_changes. constructor; [discriminate|]. destruct (c_notnull _); constructor; [discriminate|constructor].
    - destruct final; constructor; [discriminate|constructor].
    - destruct pc; [|constructor]. apply Forall_app.
      split; match goal with |- Forall _ (if ?x then _ else _) => destruct x end; constructor; try discriminate; constructor.
    - destruct uc; [|constructor].
      match goal with |- Forall _ (if ?x then _ else _) => destruct x end; constructor; [discriminate|constructor]. }
  assert (G : exists b7, step rest b0 = Some b7 /\ b_name b7 = t_name t /\ has_cols (t_cols t) b7 /\
     same_set (b_pk b7) (pk_of t) /\ named_unique suffix t b7).
  2:{ destruct G as [b7 [G1 [G2 [G3 [G4 G5]]]]]. exists b7. split; auto. split; auto. split; auto.
      intros Ecm. rewrite (run_remarks _ _ _ NR G1). auto. }
  clear NR. subst rest.
  (* columns in both *)
  destruct (kept_stage fk sv comments t K lcol (D ++ map (fun r => snd (snd r)) R) b0 F) as [b1 [S1 [C1 [N1 [K1 U1]]]]].
  { intros c o Hco. apply kept_cols_in in Hco. destruct Hco as [Hc Ho]. apply column_name_map_some in Ho.
    destruct Ho as [Ho En]. split; auto. split; [now apply (m_autoinc _ _ _ _ _ M)|].
    split; [now apply (m_default _ _ _ _ _ M)|]. intros Q1 Q2 C. rewrite K0 in C. apply Bp in C.
    destruct C as [o' [X1 [X2 X3]]].
    assert (o' = o) by (apply (same_name_same_col (t_cols old)); auto; congruence). subst o'.
    rewrite (m_null _ _ _ _ _ M c o) in Q1; auto. discriminate. }
  { eapply Permutation_NoDup; [apply Permutation_map; exact PO|exact Do]. }
  { eapply has_cols_perm; [exact PO|]. eapply has_cols_eq; [exact C0|exact Bc]. }
  rewrite (fold_opt_app _ _ _ _ _ S1).
  (* the unique constraint *)
  assert (S2 : exists b2, step (if uc then [LqDropUniqueConstraint (t_name t) (t_name t ++ suffix)] else []) b1 = Some b2 /\
     b_name b2 = b_name b1 /\ b_cols b2 = b_cols b1 /\ b_pk b2 = b_pk b1 /\
     (uc = true -> b_uqs b2 = []) /\ (uc = false -> named_unique suffix t b2)).
  { assert (BU : named_unique suffix old b1).
    { unfold named_unique. rewrite U1, U0. exact Bu. }
    destruct uc eqn:Eu.
    - destruct (m_unique _ _ _ _ _ M) as [C|C].
      { exfalso. apply UC. intros k. rewrite !uq_set. apply C. }
      destruct BU as [[_ BU]|[ks [BU _]]]; [contradiction|]. rewrite Hname in BU.
      cbn [fold_opt table_step]. rewrite BU. cbn [existsb filter fst]. rewrite String.eqb_refl. cbn [orb negb].
      eexists. split; [reflexivity|]. repeat split; auto. discriminate.
    - exists b1. repeat split; auto; try discriminate. intros _.
      assert (Q : forall k, uq_of old k <-> uq_of t k).
      { intros k. rewrite <- !uq_set. symmetry. apply UC. }
      destruct BU as [[B1 B2]|[ks [B1 [B2 [k B3]]]]].
      + left. split; auto. intros [k Hk]. apply B2. exists k. now apply Q.
      + right. exists ks. rewrite <- Hname. split; auto. split; [|exists k; now apply Q].
        intros k'. rewrite (B2 k'). apply Q. }
  destruct S2 as [b2 [S2 [N2 [C2 [K2 [U2 U2']]]]]]. rewrite (fold_opt_app _ _ _ _ _ S2).
  assert (Free : forall u c, In u (b_uqs b2) -> In c (D ++ map (fun r => snd (snd r)) R) -> ~ In (c_name c) (snd u)).
  { intros u c Hu Hc C. apply Gone in Hc. apply Hc. apply uq_of_name. destruct uc.
    - rewrite (U2 eq_refl) in Hu. destruct Hu.
    - eapply named_unique_in; eauto. }
  (* dropped columns *)
  assert (InDrop : forall k, In (LqDropColumn (t_name t) k) (lq_all css) <-> In k (map c_name D)).
  { intros k. rewrite ED, E. rewrite !in_app_iff. split.
    - intros X. repeat (destruct X as [X|X]);
        try (match type of X with In _ (if ?b then _ else _) => destruct b end; destruct X as [X|[]]; discriminate); auto.
      + destruct (_ && _); [destruct X as [X|[]]; discriminate|destruct X].
      + exfalso. apply in_concat in X. destruct X as [l [X1 X2]].
        destruct (Forall2_in_r _ _ _ _ F X1) as [[c o] [_ X]]. unfold lq_column_changes in X.
        match type of X with context[Some (?chs ++ _)] => assert (C : ~ In (LqDropColumn (t_name t) k) chs) end.
        { rewrite !in_app_iff. intros Y. repeat (destruct Y as [Y|Y]);
          (match type of Y with In _ (if ?b then _ else _) => destruct b end; [|destruct Y]);
          destruct Y as [Y|[]]; try discriminate; destruct (c_notnull c); discriminate. }
        match type of X with context[Some (?chs ++ _)] => set (l0 := chs) in * end. clearbody l0.
        destruct (negb (String.eqb (c_default c) (c_default o))); [|injection X as <-; auto].
        destruct (String.eqb (c_default c) "").
        * injection X as <-. apply in_app_iff in X2. destruct X2 as [X2|[X2|[]]]; [auto|discriminate].
        * destruct (new_lq_default fk c); [|discriminate]. injection X as <-. apply in_app_iff in X2.
          destruct X2 as [X2|[X2|[]]]; [auto|discriminate].
      + destruct uc; [destruct X as [X|[]]; discriminate|destruct X].
      + apply in_map_iff in X. destruct X as [k' [X X']]. injection X as ->. exact X'.
      + exfalso. apply in_flat_map in X. destruct X as [r [_ X]]. unfold lq_rename_changes in X.
        destruct X as [X|X]; [discriminate|]. destruct (c_notnull _); [destruct X as [X|[]]; discriminate|destruct X].
      + destruct final; [destruct X|destruct X as [X|[]]; discriminate].
      + destruct pc; [|destruct X]. apply in_app_iff in X. destruct X as [X|X];
        (match type of X with In _ (if ?b then _ else _) => destruct b end; [destruct X as [X|[]]; discriminate|destruct X]).
      + destruct uc; [|destruct X].
        match type of X with In _ (if ?b then _ else _) => destruct b end; [destruct X as [X|[]]; discriminate|destruct X].
    - intros X. do 3 right. left. now apply in_map. }
  destruct (drop_stage fk sv comments (t_name t) D (map (fun r => snd (snd r)) R ++ map fst K) b2) as [b3 [S3 [C3 [N3 [U3 K3]]]]].
  { rewrite <- ED in *. 
    assert (Q : Permutation (D ++ map (fun r => snd (snd r)) R ++ map fst K) (map fst K ++ D ++ map (fun r => snd (snd r)) R)).
    { rewrite app_assoc. apply Permutation_app_comm. }
    eapply Permutation_NoDup; [apply Permutation_map; symmetry; exact Q|].
    rewrite map_app. apply NoDup_app_intro.
    - rewrite map_map. apply kept_cols_nodup. now rewrite with_pos_snd.
    - eapply Permutation_NoDup; [exact PN|exact Dg].
    - intros k Hk C. apply in_map_iff in C. destruct C as [c [<- C]]. apply (Gone _ C).
      apply in_map_iff in Hk. destruct Hk as [c' [<- Hk]]. apply in_map_iff in Hk. destruct Hk as [[c2 o2] [E2 Hk]].
      simpl in E2. subst c'. apply kept_cols_in in Hk. apply in_map. tauto. }
  { eapply has_cols_perm; [|eapply has_cols_eq; [exact C2|exact C1]].
    rewrite (app_assoc D). apply Permutation_app_comm. }
  { intros u c Hu Hc. apply (Free u c Hu). apply in_or_app. now left. }
  { destruct (m_some _ _ _ _ _ M) as [X|[[c [X1 X2]]|X]]; auto; right.
    - left. intros C. apply app_eq_nil in C. destruct C as [CR CK]. apply (Permutation_in _ PO) in X1.
      apply map_eq_nil in CK. rewrite CK, CR in X1. simpl in X1. rewrite app_nil_r in X1.
      apply X2. apply InDrop. now apply in_map.
    - right. rewrite X in PO. apply Permutation_nil in PO. apply app_eq_nil in PO. destruct PO as [_ PO].
      apply app_eq_nil in PO. tauto. }
  rewrite <- ED. rewrite (fold_opt_app _ _ _ _ _ S3).
  (* renamed columns *)
  destruct (rename_stage fk sv comments t R (map fst K) b3) as [b4 [S4 [C4 [N4 [U4 [K4 K4']]]]]].
  { intros i c o Hi. apply (Permutation_in _ (Permutation_sym PR)) in Hi. apply Hr in Hi.
    destruct Hi as [_ [_ [X1 X2]]]. apply column_name_map_some in X1. destruct X1 as [X1 _].
    split; [now apply is_renamed_same|]. now apply Wo'. }
  { rewrite map_app. 
    assert (Dn : NoDup (map c_name (map fst K ++ map (fun r => fst (snd r)) R ++ map snd final))).
    { eapply Permutation_NoDup; [apply Permutation_map; exact PT|exact Dt]. }
    rewrite app_assoc, map_app in Dn. apply NoDup_app_l in Dn. rewrite map_app in Dn.
    apply NoDup_app_intro.
    - apply NoDup_app_r in Dn. exact Dn.
    - rewrite map_app. apply NoDup_app_intro.
      + eapply NoDup_app_r. rewrite <- map_app. eapply Permutation_NoDup; [exact PN|exact Dg].
      + apply NoDup_app_l in Dn. exact Dn.
      + intros k Hk C. apply in_map_iff in Hk. destruct Hk as [c [<- Hk]].
        apply (Gone c); [apply in_or_app; now right|].
        eapply Permutation_in; [symmetry; apply Permutation_map; exact PT|]. rewrite map_app. apply in_or_app. now left.
    - intros k Hk C. rewrite map_app in C. apply in_app_iff in C. destruct C as [C|C].
      + apply in_map_iff in C. destruct C as [c [<- C]]. apply (Gone c); [apply in_or_app; now right|].
        eapply Permutation_in; [symmetry; apply Permutation_map; exact PT|]. rewrite !map_app. apply in_or_app. right.
        apply in_or_app. now left.
      + apply (NoDup_app_disj _ _ _ Dn C Hk). }
  { exact C3. }
  { intros u r Hu Hi. rewrite U3 in Hu. apply (Free u (snd (snd r)) Hu). apply in_or_app. right. apply in_map_iff. eauto. }
  rewrite (fold_opt_app _ _ _ _ _ S4).
  (* added columns *)
  assert (S5 : exists b5, step (match final with [] => [] | _ => [LqAddColumn (t_name t) adds] end) b4 = Some b5 /\
     has_cols (t_cols t) b5 /\ b_name b5 = b_name b4 /\ b_pk b5 = b_pk b4 /\ b_uqs b5 = b_uqs b4).
  { destruct (add_stage fk comments (t_cols t) final adds (map fst K ++ map (fun r => fst (snd r)) R) b4) as [b5 [S5 [C5 R5]]]; auto.
    - intros i c Hi. apply Wt'. unfold final, added in Hi. rewrite !filter_In in Hi.
      apply with_pos_in. exists i. tauto.
    - eapply has_cols_perm; [apply Permutation_app_comm|exact C4].
    - rewrite <- app_assoc. eapply Permutation_NoDup; [apply Permutation_map; exact PT|exact Dt].
    - intros f1 i c f2 Ef. unfold last_col_name. destruct i as [|j]; auto. right.
      assert (Hi : In (S j, c) final) by (rewrite Ef; apply in_or_app; right; now left).
      assert (Hi' := Hi). unfold final, added in Hi'. rewrite !filter_In in Hi'. destruct Hi' as [[Hi' _] _].
      apply with_pos_nth in Hi'.
      destruct (nth_error (t_cols t) j) as [c'|] eqn:Ej.
      2:{ exfalso. apply nth_error_None in Ej. assert (S j < length (t_cols t)) by (apply nth_error_Some; congruence). lia. }
      apply with_pos_nth in Ej.
      assert (Hc' : In c' (t_cols t)) by (apply with_pos_in; eauto).
      destruct (is_added_col (t_cols old) (j, c')) eqn:Ead.
      + destruct (unmatched renamed (j, c')) eqn:Eun.
        * assert (Hf : In (j, c') final) by (unfold final, added; rewrite !filter_In; auto).
          rewrite Ef in Hf. apply sorted_before in Hf; [|rewrite <- Ef; unfold final, added; do 2 apply filter_sorted; apply with_pos_sorted|lia].
          apply in_map. apply in_or_app. right. apply in_map_iff. exists (j, c'). auto.
        * apply not_true_iff_false in Eun. rewrite unmatched_iff in Eun. simpl in Eun.
          destruct (in_dec PeanoNat.Nat.eq_dec j (map fst renamed)) as [Y|Y]; [|contradiction].
          apply in_map_iff in Y. destruct Y as [[j' [c2 o2]] [E2 Y]]. simpl in E2. subst j'.
          assert (c2 = c'). { apply Hr in Y. apply with_pos_nth in Ej. destruct Y as [Y _]. congruence. } subst c2.
          apply in_map. apply in_or_app. left. apply in_or_app. right. apply in_map_iff. exists (j, (c', o2)).
          split; auto. eapply Permutation_in; eauto.
      + unfold is_added_col in Ead. apply negb_false_iff in Ead. simpl in Ead. apply str_in_iff in Ead.
        apply in_map. apply in_or_app. left. apply in_or_app. left. apply in_map_iff.
        apply in_map_iff in Ead. destruct Ead as [o [En Ho]]. exists (c', o). split; auto. apply kept_cols_in.
        split; auto. rewrite <- En. now apply column_name_map_nodup.
    - exists b5. split.
      + destruct final as [|f0 final'] eqn:Ef; cbn [fold_opt table_step].
        * simpl in Ea. injection Ea as <-. exact S5.
        * rewrite S5. reflexivity.
      + split; auto. eapply has_cols_perm; [symmetry; exact PT|]. rewrite <- app_assoc in C5. exact C5. }
  destruct S5 as [b5 [S5 [C5 [N5 [K5 U5]]]]]. rewrite (fold_opt_app _ _ _ _ _ S5).
  (* primary key *)
  assert (BP : same_set (b_pk b2) (pk_of old)) by (intros k; rewrite K2, K1, K0; apply Bp).
  destruct (pk_stage t old b5 Wt C5) as [b6 [S6 [C6 [K6 [N6 U6]]]]].
  { fold pc. intros Ep. rewrite Ep in PC. rewrite K5.
    assert (Q : same_set (b_pk b3) (pk_of t)).
    { intros k. rewrite K3, (BP k), <- !pk_set, PC. rewrite pk_set. split; [tauto|]. intros X. split; auto.
      intros C. apply in_map_iff in C. destruct C as [c [<- C]]. apply (Gone c); [apply in_or_app; now left|].
      apply pk_of_name. rewrite <- pk_set, PC, pk_set. exact X. }
    rewrite K4'; auto. intros r Hi C. apply Q in C. apply (Gone (snd (snd r))).
    - apply in_or_app. right. apply in_map_iff. eauto.
    - now apply pk_of_name. }
  { fold pc. intros Ep. rewrite Ep in PC. rewrite K5, K4.
    split; intros X.
    - destruct (m_key _ _ _ _ _ M) as [Y|[Y|[k [Y1 Y2]]]].
      + exfalso. apply PC. intros k. rewrite !pk_set. apply Y.
      + destruct (pk_name_set old) as [|k l] eqn:Eo; auto. exfalso. apply Y. exists k. apply pk_set. rewrite Eo. now left.
      + exfalso. assert (Z : In k (b_pk b3)).
        { apply K3. split; [now apply BP|]. intros C. apply Y2. now apply InDrop. }
        rewrite X in Z. destruct Z.
    - destruct (b_pk b3) as [|k l] eqn:Eb; auto. exfalso.
      assert (Z : In k (b_pk b3)) by (rewrite Eb; now left). rewrite Eb in Z. rewrite K3 in Z.
      destruct Z as [Z _]. apply BP in Z. rewrite <- pk_set, X in Z. destruct Z. }
  rewrite (fold_opt_app _ _ _ _ _ S6).
  (* unique constraint again *)
  destruct (uq_stage suffix t old b6 Wt) as [b7 [S7 [C7 [K7 [N7 U7]]]]].
  { eapply has_cols_eq; [exact C6|exact C5]. }
  { congruence. }
  { fold uc. intros Eu. specialize (U2' Eu). unfold named_unique in *. rewrite U6, U5, U4, U3. exact U2'. }
  { fold uc. intros Eu. rewrite U6, U5, U4, U3. auto. }
  exists b7. split; [exact S7|]. split; [congruence|]. split.
  - eapply has_cols_eq; [exact C7|]. eapply has_cols_eq; [exact C6|exact C5].
  - split; auto. intros k. rewrite K7. apply K6.
Qed.
End Keys.
