(** The properties of the generic diff, proved from DiffProofs *)
From Coq Require Import String Ascii List NArith Bool Lia Sorting.Permutation Sorting.Sorted.
From Verif.Model Require Import GoString Util Octopus DiffCore Diff.
From Verif.Spec Require Import Order Text DiffSpec.
From Verif.Proofs Require Import ListLemmas StringLemmas UtilProofs OctopusProofs DiffCoreProofs DiffProofs.
Import ListNotations.
Local Open Scope string_scope.
Local Open Scope list_scope.

Lemma passes_selected : forall f t, passes f t = true <-> selected f t.
Proof. intros [g|] t; simpl; try tauto. Qed.

(** ** C16 *)

Lemma ss_equals_refl : forall s, NoDup s -> ss_equals s s = true.
Proof. intros. apply ss_equals_iff; auto. Qed.

Lemma emit_false : forall author ch st, emit author false ch st = st.
Proof. reflexivity. Qed.

Lemma diff_column_self : forall author comments t id c, diff_column author comments t id c c = ([], id).
Proof.
  intros. unfold diff_column. rewrite !String.eqb_refl, !N.eqb_refl, !Bool.eqb_reflx.
  simpl negb. rewrite andb_false_r. reflexivity.
Qed.

Lemma diff_table_self : forall author comments suffix ord id t,
  iteration_order ord -> NoDup (map c_name (t_cols t)) ->
  exists id', diff_table author comments suffix ord id t t = Some ([], id').
Proof.
  intros author comments suffix ord id t Hord D. unfold diff_table.
  rewrite String.eqb_refl. simpl negb. rewrite andb_false_r, emit_false.
  destruct (scan_columns_nothing (fun id c o => Some (diff_column author comments t id c o))
              (t_cols t) (with_pos (t_cols t)) id (ss_new (map c_name (t_cols t)))) as [r Es].
  { intros i c Hc. exists c. split.
    - apply column_name_map_nodup; auto. apply with_pos_in. eauto.
    - intros. now rewrite diff_column_self. }
  rewrite Es. apply scan_columns_spec in Es. destruct Es as [_ [_ [K _]]].
  assert (r = []).
  { destruct r as [|n r]; auto. exfalso. destruct (proj1 (K n)) as [A B]; [now left|]. apply B.
    apply (proj1 (ss_new_in _ _)) in A. split; auto.
    rewrite <- (with_pos_snd (t_cols t)), map_map in A. exact A. }
  subst r. simpl. rewrite (ss_equals_refl (uq_name_set t)), (ss_equals_refl (pk_name_set t)).
  - simpl. assert (O : ord [] = []). { apply Permutation_nil. symmetry. apply Hord. }
    rewrite O. simpl. eauto.
  - apply pk_name_set_nodup.
  - apply uq_name_set_nodup.
Qed.

Lemma self_diff_empty : forall ordT ordC o s,
  iteration_order ordT -> (forall i, iteration_order (ordC i)) ->
  distinct_names s -> (forall t, In t (s_tables s) -> selected (do_filter o) t) ->
  get_diff ordT ordC o s s = Some [].
Proof.
  intros ordT ordC o s HT HC [D1 D2] Hf. unfold get_diff. apply diff_schemas_nothing; auto.
  intros i t Ht. assert (In t (s_tables s)) by (apply with_pos_in; eauto).
  split; [now apply passes_selected, Hf|]. exists t. split; [now apply tables_by_name_nodup|].
  intros id. apply diff_table_self; auto.
Qed.

(** ** The changes of a whole result *)

Definition rename_changes (suffix : string) (p : nat * (table * table)) : list change :=
  let nw := fst (snd p) in let old := snd (snd p) in
  (if Nat.ltb 0 (ss_size (uq_name_set old)) then [DropUniqueConstraint (t_name old ++ suffix) old] else []) ++
  [RenameTable old nw] ++
  (if Nat.ltb 0 (ss_size (uq_name_set nw)) then [CreateUniqueConstraint (t_name nw ++ suffix) nw] else []).

Lemma rename_table_changes : forall author suffix id p css id',
  rename_table_cs author suffix id (fst (snd p)) (snd (snd p)) = (css, id') ->
  all_changes css = rename_changes suffix p.
Proof.
  intros author suffix id [i [nw old]] css id' H. unfold rename_table_cs in H. simpl in H.
  apply (f_equal (fun x => all_changes (fst x))) in H. simpl fst in H at 2. rewrite <- H.
  rewrite emit_changes. unfold rename_changes. simpl fst. simpl snd.
  destruct (Nat.ltb 0 (ss_size (uq_name_set old))); reflexivity.
Qed.

Lemma concat_changes : forall {A} (R : A -> list cset -> Prop) (g : A -> list change) xs ll,
  (forall x cs, R x cs -> all_changes cs = g x) -> Forall2 R xs ll -> all_changes (concat ll) = flat_map g xs.
Proof.
  intros A R g xs ll HR F. induction F; simpl; auto. rewrite all_changes_app, IHF.
  now rewrite (HR _ _ H).
Qed.


Lemma get_diff_shape : forall ordT ordC o from to css,
  get_diff ordT ordC o from to = Some css ->
  iteration_order ordT -> (forall i, iteration_order (ordC i)) ->
  exists l1 drops renamed created,
    let fs := s_tables from in
    let author := choose_author (do_author o) to in
    all_changes css = concat l1 ++ map DropTable drops ++ flat_map (rename_changes (do_suffix o)) renamed ++
                      map CreateTable created /\
    Forall2 (fun p chs => exists id cs id',
               diff_table author (do_comments o) (do_suffix o) (ordC (fst (fst p))) id (snd (fst p)) (snd p)
                 = Some (cs, id') /\ chs = all_changes cs)
            (kept (do_filter o) fs (with_pos (s_tables to))) l1 /\
    (exists g, NoDup g /\
       Permutation g (map (fun r => t_name (snd (snd r))) renamed ++ map t_name drops) /\
       forall n, In n g <-> In n (map t_name fs) /\
           ~ exists t, In t (s_tables to) /\ selected (do_filter o) t /\ t_name t = n) /\
    Permutation (map snd (filter (is_added (do_filter o) fs) (with_pos (s_tables to))))
                (map (fun r => fst (snd r)) renamed ++ created) /\
    (forall i nw old, In (i, (nw, old)) renamed ->
       In nw (s_tables to) /\ selected (do_filter o) nw /\ ~ In (t_name nw) (map t_name fs) /\
       In old fs /\ t_cols nw = t_cols old) /\
    (forall t, In t drops -> In t fs) /\
    (forall t old, In t created -> In old drops -> t_cols t <> t_cols old).
Proof.
  intros ordT ordC o from to css H HT HC. unfold get_diff in H.
  destruct (diff_schemas_shape _ _ _ _ _ _ _ _ _ H HT)
    as [l1 [css2 [l3 [l4 [ren [rem [E [F1 [F2 [F3 [F4 [N [G [P [R [NR MX]]]]]]]]]]]]]]]].
  set (author := choose_author (do_author o) to) in *.
  assert (F2' : exists drops, all_changes css2 = map DropTable drops /\ map t_name drops = ss_slice rem /\
            forall t, In t drops -> tables_by_name (s_tables from) (t_name t) = Some t).
  { clear - F2. induction F2 as [|n cs ns css [id [old [-> L]]] F [ds [I1 [I2 I3]]]]; simpl.
    - exists []. repeat split; auto. intros t [].
    - exists (old :: ds). simpl. rewrite I1. apply tables_by_name_some in L as L'. destruct L' as [L1 L2].
      repeat split; auto. { now rewrite I2, L2. } intros t [->|Ht]; auto. now rewrite L2. }
  destruct F2' as [drops [D1 [D2 D3]]].
  exists (map all_changes l1), drops, (ordT ren), (not_renamed (filter (is_added (do_filter o) (s_tables from)) (with_pos (s_tables to))) ren).
  cbv zeta. split.
  { rewrite E, !all_changes_app, D1. f_equal.
    - clear. induction l1; simpl; auto. now rewrite all_changes_app, IHl1.
    - f_equal. f_equal.
      + eapply concat_changes; [|exact F3]. intros x cs [i0 [i1 [_ Hx]]]. eapply rename_table_changes; eauto.
      + transitivity (flat_map (fun t => [CreateTable t]) (not_renamed (filter (is_added (do_filter o) (s_tables from)) (with_pos (s_tables to))) ren)).
        * eapply concat_changes; [|exact F4]. intros x cs [i0 [i1 [_ Hx]]]. injection Hx as <- <-. reflexivity.
        * generalize (not_renamed (filter (is_added (do_filter o) (s_tables from)) (with_pos (s_tables to))) ren).
          clear. induction l; simpl; congruence. }
  split.
  { clear - F1. induction F1 as [|x y xs ys [i0 [i1 [Hm Hx]]] F IH]; simpl; constructor; auto.
    exists i0, y, i1. auto. }
  split.
  { destruct G as [g [G1 [G2 G3]]]. exists g. split; auto. split.
    - rewrite G2. apply Permutation_app.
      + apply Permutation_map. symmetry. apply HT.
      + rewrite D2. symmetry. apply ss_slice_perm.
    - intros n. rewrite G3. split; intros [A B]; (split; [exact A|]); intros [t [C1 [C2 C3]]]; apply B; exists t;
        repeat split; auto; now apply passes_selected. }
  split.
  { etransitivity; [exact P|]. apply Permutation_app_tail. apply Permutation_map. symmetry. apply HT. }
  split.
  { intros i nw old Hi. assert (Hi' : In (i, (nw, old)) ren) by (eapply Permutation_in; [apply HT|exact Hi]).
    destruct (R _ _ _ Hi') as [R1 [R2 R3]]. apply filter_In in R1. destruct R1 as [R1 R4].
    unfold is_added in R4. simpl in R4. apply andb_true_iff in R4. destruct R4 as [R4 R5].
    apply negb_true_iff in R5. apply str_in_false in R5.
    split; [apply with_pos_in; eauto|]. split; [now apply passes_selected|]. split; [auto|]. split; auto.
    now apply tables_by_name_some in R2. }
  split. { intros t Ht. apply D3 in Ht. now apply tables_by_name_some in Ht. }
  intros t old Ht Hold. unfold not_renamed in Ht. apply in_map_iff in Ht. destruct Ht as [[i x] [Ex Ht]].
  simpl in Ex. subst x. apply filter_In in Ht. destruct Ht as [Ht Hn]. eapply MX; eauto.
  - intros b r C. apply negb_true_iff in Hn. rewrite <- not_true_iff_false in Hn. apply Hn.
    apply existsb_exists. exists (i, (b, r)). split; auto. simpl. apply PeanoNat.Nat.eqb_refl.
  - apply ss_slice_in. rewrite <- D2. apply in_map. exact Hold.
Qed.

(** ** Which table contributes which changes *)

Lemma kept_in : forall f fs ts i t old,
  In (i, t, old) (kept f fs (with_pos ts)) ->
  In t ts /\ selected f t /\ In old fs /\ t_name old = t_name t.
Proof.
  intros f fs ts i t old H. unfold kept in H. apply in_flat_map in H. destruct H as [[j x] [H1 H2]].
  simpl in H2. destruct (passes f x) eqn:P; [|destruct H2].
  destruct (tables_by_name fs (t_name x)) as [y|] eqn:L; [|destruct H2].
  destruct H2 as [H2|[]]. injection H2 as -> -> ->. apply tables_by_name_some in L.
  split; [apply with_pos_in; eauto|]. split; [now apply passes_selected|]. tauto.
Qed.

Lemma kept_complete : forall f fs ts t old,
  NoDup (map t_name fs) -> In t ts -> selected f t -> In old fs -> t_name old = t_name t ->
  exists i, In (i, t, old) (kept f fs (with_pos ts)).
Proof.
  intros f fs ts t old D Ht Hs Ho E. apply with_pos_in in Ht. destruct Ht as [i Ht]. exists i.
  unfold kept. apply in_flat_map. exists (i, t). split; auto. simpl. apply passes_selected in Hs.
  rewrite Hs. rewrite <- E, (tables_by_name_nodup fs old); auto. now left.
Qed.

Lemma kept_nodup : forall f fs its, NoDup (map t_name (map snd its)) ->
  NoDup (map (fun p => t_name (snd (fst p))) (kept f fs its)).
Proof.
  intros f fs. induction its as [|[i t] its IH]; simpl; intros D; [constructor|].
  inversion D as [|? ? NI ND]; subst.
  assert (K : forall n, In n (map (fun p => t_name (snd (fst p))) (kept f fs its)) -> In n (map t_name (map snd its))).
  { intros n Hn. apply in_map_iff in Hn. destruct Hn as [[[j x] o] [E Hn]]. simpl in E. subst n.
    unfold kept in Hn. apply in_flat_map in Hn. destruct Hn as [[j' x'] [H1 H2]]. simpl in H2.
    destruct (passes f x'); [|destruct H2]. destruct (tables_by_name fs (t_name x')); [|destruct H2].
    destruct H2 as [H2|[]]. injection H2 as -> -> ->. apply in_map. apply in_map_iff. exists (j, x). auto. }
  rewrite map_app. destruct (passes f t); [|now apply IH].
  destruct (tables_by_name fs (t_name t)); [|now apply IH]. simpl. constructor; auto.
Qed.

Lemma table_changes_kind : forall author comments suffix ord id t old css id' ch,
  diff_table author comments suffix ord id t old = Some (css, id') -> iteration_order ord ->
  In ch (all_changes css) ->
  gone ch = [] /\ appeared ch = [] /\ (dep_table ch = t \/ dep_table ch = old) /\
  (forall x c, ch <> AddColumn x c).
Proof.
  intros author comments suffix ord id t old css id' ch H O Hin.
  destruct (diff_table_changes _ _ _ _ _ _ _ _ _ H O) as [rem [ren [E _]]]. rewrite E in Hin.
  assert (One : forall b (x : change), In ch (if b : bool then [x] else []) -> ch = x).
  { intros [] x Hx; simpl in Hx; [destruct Hx; [auto|contradiction]|contradiction]. }
  apply in_app_iff in Hin. destruct Hin as [Hin|Hin].
  { apply One in Hin. subst. simpl. repeat split; auto. discriminate. }
  apply in_app_iff in Hin. destruct Hin as [Hin|Hin].
  { apply in_flat_map in Hin. destruct Hin as [[c o] [_ Hin]]. unfold column_changes in Hin.
    rewrite !in_app_iff in Hin.
    destruct Hin as [Hin|[Hin|[Hin|[Hin|[Hin|Hin]]]]]; apply One in Hin; subst ch; simpl; repeat split; auto; discriminate. }
  apply in_app_iff in Hin. destruct Hin as [Hin|Hin].
  { apply One in Hin. subst. simpl. repeat split; auto. discriminate. }
  apply in_app_iff in Hin. destruct Hin as [Hin|Hin].
  { apply in_map_iff in Hin. destruct Hin as [k [<- _]]. simpl. repeat split; auto. discriminate. }
  apply in_app_iff in Hin. destruct Hin as [Hin|Hin].
  { apply in_map_iff in Hin. destruct Hin as [k [<- _]]. simpl. repeat split; auto. discriminate. }
  apply in_app_iff in Hin. destruct Hin as [Hin|Hin];
    apply One in Hin; subst; simpl; repeat split; auto; discriminate.
Qed.

Lemma flat_map_none : forall {A B} (g : A -> list B) l, (forall x, In x l -> g x = []) -> flat_map g l = [].
Proof. induction l; simpl; intros H; auto. rewrite H, IHl; auto. Qed.

Lemma filter_none : forall {A} (p : A -> bool) l, (forall x, In x l -> p x = false) -> filter p l = [].
Proof. induction l; simpl; intros H; auto. rewrite H, IHl; auto. Qed.

(** ** C18 *)

Lemma classification : forall ordT ordC o from to css,
  get_diff ordT ordC o from to = Some css ->
  iteration_order ordT -> (forall i, iteration_order (ordC i)) ->
  let chs := all_changes css in
  (NoDup (flat_map gone chs) /\
   forall n, In n (flat_map gone chs) <->
     In n (map t_name (s_tables from)) /\
     ~ exists t, In t (s_tables to) /\ selected (do_filter o) t /\ t_name t = n) /\
  (exists news, Permutation (flat_map appeared chs) (map snd news) /\ NoDup (map fst news) /\
     forall i t, In (i, t) news <->
       nth_error (s_tables to) i = Some t /\ selected (do_filter o) t /\
       ~ In (t_name t) (map t_name (s_tables from))) /\
  (forall old nw, In (RenameTable old nw) chs -> In old (s_tables from) /\ t_cols nw = t_cols old) /\
  (forall old, In (DropTable old) chs -> In old (s_tables from)) /\
  (forall old nw, In (DropTable old) chs -> In (CreateTable nw) chs -> t_cols nw <> t_cols old).
Proof.
  intros ordT ordC o from to css H HT HC chs. subst chs.
  destruct (get_diff_shape _ _ _ _ _ _ H HT HC) as [l1 [drops [ren [created [E [F [G [P [R [D M]]]]]]]]]].
  rewrite E. clear E.
  assert (Kl1 : forall ch, In ch (concat l1) -> gone ch = [] /\ appeared ch = []).
  { intros ch Hch. apply in_concat in Hch. destruct Hch as [l [Hl Hch]].
    destruct (Forall2_in_r _ _ _ _ F Hl) as [p [Hp [i0 [cs [i1 [Ht ->]]]]]].
    destruct (table_changes_kind _ _ _ _ _ _ _ _ _ _ Ht (HC _) Hch) as [A [B _]]. auto. }
  assert (G0 : flat_map gone (concat l1 ++ map DropTable drops ++ flat_map (rename_changes (do_suffix o)) ren ++ map CreateTable created)
             = map t_name drops ++ map (fun r => t_name (snd (snd r))) ren).
  { rewrite !flat_map_app. rewrite (flat_map_none gone (concat l1)) by (intros; now apply Kl1).
    rewrite (flat_map_none gone (map CreateTable created)).
    2:{ intros x Hx. apply in_map_iff in Hx. now destruct Hx as [y [<- _]]. }
    rewrite app_nil_r. simpl. f_equal.
    - clear. induction drops; simpl; congruence.
    - clear. induction ren as [|[i [nw old]] ren IH]; simpl; auto. rewrite flat_map_app, IH.
      unfold rename_changes. simpl fst. simpl snd.
      destruct (Nat.ltb 0 (ss_size (uq_name_set old))), (Nat.ltb 0 (ss_size (uq_name_set nw))); reflexivity. }
  assert (A0 : flat_map appeared (concat l1 ++ map DropTable drops ++ flat_map (rename_changes (do_suffix o)) ren ++ map CreateTable created)
             = map (fun r => fst (snd r)) ren ++ created).
  { rewrite !flat_map_app. rewrite (flat_map_none appeared (concat l1)) by (intros; now apply Kl1).
    rewrite (flat_map_none appeared (map DropTable drops)).
    2:{ intros x Hx. apply in_map_iff in Hx. now destruct Hx as [y [<- _]]. }
    simpl. f_equal.
    - clear. induction ren as [|[i [nw old]] ren IH]; simpl; auto. rewrite flat_map_app, IH.
      unfold rename_changes. simpl fst. simpl snd.
      destruct (Nat.ltb 0 (ss_size (uq_name_set old))), (Nat.ltb 0 (ss_size (uq_name_set nw))); reflexivity.
    - clear. induction created; simpl; congruence. }
  assert (Cases : forall ch, In ch (concat l1 ++ map DropTable drops ++ flat_map (rename_changes (do_suffix o)) ren ++ map CreateTable created) ->
    gone ch <> [] \/ appeared ch <> [] ->
    (exists t, ch = DropTable t /\ In t drops) \/ (exists i nw old, ch = RenameTable old nw /\ In (i, (nw, old)) ren) \/
    (exists t, ch = CreateTable t /\ In t created)).
  { intros ch Hch Hne. rewrite !in_app_iff in Hch. destruct Hch as [Hch|[Hch|[Hch|Hch]]].
    - destruct (Kl1 _ Hch) as [Q1 Q2]. rewrite Q1, Q2 in Hne. exfalso. destruct Hne; auto.
    - left. apply in_map_iff in Hch. destruct Hch as [t [<- Hch]]. eauto.
    - right. left. apply in_flat_map in Hch. destruct Hch as [[i [nw old]] [H1 H2]].
      unfold rename_changes in H2. simpl fst in H2. simpl snd in H2. rewrite !in_app_iff in H2.
      destruct H2 as [H2|[[H2|[]]|H2]].
      + destruct (Nat.ltb 0 _); [|destruct H2]. destruct H2 as [<-|[]]. simpl in Hne. exfalso. destruct Hne; auto.
      + subst ch. eauto 7.
      + destruct (Nat.ltb 0 _); [|destruct H2]. destruct H2 as [<-|[]]. simpl in Hne. exfalso. destruct Hne; auto.
    - right. right. apply in_map_iff in Hch. destruct Hch as [t [<- Hch]]. eauto. }
  split; [|split; [|split; [|split]]].
  - rewrite G0. destruct G as [g [G1 [G2 G3]]].
    assert (G2' : Permutation g (map t_name drops ++ map (fun r => t_name (snd (snd r))) ren))
      by (rewrite G2; apply Permutation_app_comm).
    split; [eapply Permutation_NoDup; eauto|]. intros n. rewrite <- G3. split; intros Hn.
    + eapply Permutation_in; [symmetry; exact G2'|exact Hn].
    + eapply Permutation_in; [exact G2'|exact Hn].
  - exists (filter (is_added (do_filter o) (s_tables from)) (with_pos (s_tables to))).
    rewrite A0. split; [now symmetry|]. split.
    + assert (N : forall (l : list (nat * table)) p, NoDup (map fst l) -> NoDup (map fst (filter p l))).
      { clear. induction l as [|x l IH]; simpl; intros p N; auto. inversion N as [|? ? NI ND]; subst.
        destruct (p x); simpl; auto. constructor; auto. intros C. apply NI.
        apply in_map_iff in C. destruct C as [y [E C]]. apply filter_In in C. apply in_map_iff. exists y. tauto. }
      apply N. apply with_pos_nodup.
    + intros i t. rewrite filter_In. unfold is_added. simpl. rewrite andb_true_iff, negb_true_iff, passes_selected.
      unfold in_names. rewrite str_in_false. rewrite with_pos_nth. tauto.
  - intros old nw Hin. destruct (Cases _ Hin) as [[t [C _]]|[[i [n' [o' [C Hr]]]]|[t [C _]]]]; try discriminate.
    { left. discriminate. }
    injection C as -> ->. apply R in Hr. tauto.
  - intros old Hin. destruct (Cases _ Hin) as [[t [C Ht]]|[[i [n' [o' [C Hr]]]]|[t [C _]]]]; try discriminate.
    { left. discriminate. } injection C as ->. auto.
  - intros old nw Hin Hin'. destruct (Cases _ Hin) as [[t [C Ht]]|[[i [n' [o' [C Hr]]]]|[t [C _]]]]; try discriminate.
    { left. discriminate. }
    destruct (Cases _ Hin') as [[t' [C' Ht']]|[[i [n' [o' [C' Hr]]]]|[t' [C' Ht']]]]; try discriminate.
    { right. discriminate. }
    injection C as ->. injection C' as ->. auto.
Qed.

(** ** C19, partial *)

Lemma spoken_about : forall ordT ordC o from to css ch,
  get_diff ordT ordC o from to = Some css ->
  iteration_order ordT -> (forall i, iteration_order (ordC i)) ->
  In ch (all_changes css) ->
  (exists t, In t (s_tables to) /\ selected (do_filter o) t /\ t_name (dep_table ch) = t_name t) \/
  (In (dep_table ch) (s_tables from) /\
   ~ exists t, In t (s_tables to) /\ selected (do_filter o) t /\ t_name t = t_name (dep_table ch)).
Proof.
  intros ordT ordC o from to css ch H HT HC Hin.
  destruct (get_diff_shape _ _ _ _ _ _ H HT HC) as [l1 [drops [ren [created [E [F [G [P [R [D M]]]]]]]]]].
  destruct G as [g [_ [G2 G3]]].
  assert (Gone : forall t, In t (s_tables from) -> In (t_name t) g ->
    In t (s_tables from) /\ ~ exists t', In t' (s_tables to) /\ selected (do_filter o) t' /\ t_name t' = t_name t).
  { intros t Ht Hg. split; auto. now apply G3 in Hg. }
  rewrite E, !in_app_iff in Hin. destruct Hin as [Hin|[Hin|[Hin|Hin]]].
  - left. apply in_concat in Hin. destruct Hin as [l [Hl Hch]].
    destruct (Forall2_in_r _ _ _ _ F Hl) as [[[i t] old] [Hp [i0 [cs [i1 [Ht ->]]]]]].
    apply kept_in in Hp. destruct Hp as [K1 [K2 [K3 K4]]].
    destruct (table_changes_kind _ _ _ _ _ _ _ _ _ _ Ht (HC _) Hch) as [_ [_ [[Q|Q] _]]];
      simpl in Q; exists t; rewrite Q; auto.
  - right. apply in_map_iff in Hin. destruct Hin as [t [<- Ht]]. simpl. apply Gone; auto.
    eapply Permutation_in; [symmetry; exact G2|]. apply in_or_app. right. now apply in_map.
  - apply in_flat_map in Hin. destruct Hin as [[i [nw old]] [H1 H2]].
    assert (In (t_name old) g).
    { eapply Permutation_in; [symmetry; exact G2|]. apply in_or_app. left. apply in_map_iff.
      exists (i, (nw, old)). auto. }
    destruct (R _ _ _ H1) as [R1 [R2 [R3 [R4 R5]]]].
    unfold rename_changes in H2. simpl fst in H2. simpl snd in H2. rewrite !in_app_iff in H2.
    destruct H2 as [H2|[[H2|[]]|H2]].
    + destruct (Nat.ltb 0 _); [|destruct H2]. destruct H2 as [<-|[]]. right. simpl. auto.
    + subst ch. right. simpl. auto.
    + destruct (Nat.ltb 0 _); [|destruct H2]. destruct H2 as [<-|[]]. left. exists nw. auto.
  - left. apply in_map_iff in Hin. destruct Hin as [t [<- Ht]]. exists t. simpl.
    assert (In t (map snd (filter (is_added (do_filter o) (s_tables from)) (with_pos (s_tables to))))).
    { eapply Permutation_in; [symmetry; exact P|]. apply in_or_app. auto. }
    apply in_map_iff in H0. destruct H0 as [[i x] [Ex Hx]]. simpl in Ex. subst x. apply filter_In in Hx.
    destruct Hx as [Hx Hp]. unfold is_added in Hp. simpl in Hp. apply andb_true_iff in Hp. destruct Hp as [Hp _].
    repeat split; auto. { apply with_pos_in. eauto. } now apply passes_selected.
Qed.

(** ** No added column is ever reported *)

Lemma no_add_column : forall ordT ordC o from to css t c,
  get_diff ordT ordC o from to = Some css ->
  iteration_order ordT -> (forall i, iteration_order (ordC i)) ->
  ~ In (AddColumn t c) (all_changes css).
Proof.
  intros ordT ordC o from to css t c H HT HC Hin.
  destruct (get_diff_shape _ _ _ _ _ _ H HT HC) as [l1 [drops [ren [created [E [F _]]]]]].
  rewrite E, !in_app_iff in Hin. destruct Hin as [Hin|[Hin|[Hin|Hin]]].
  - apply in_concat in Hin. destruct Hin as [l [Hl Hch]].
    destruct (Forall2_in_r _ _ _ _ F Hl) as [p [Hp [i0 [cs [i1 [Ht ->]]]]]].
    destruct (table_changes_kind _ _ _ _ _ _ _ _ _ _ Ht (HC _) Hch) as [_ [_ [_ Q]]]. now apply (Q t c).
  - apply in_map_iff in Hin. destruct Hin as [? [C _]]. discriminate.
  - apply in_flat_map in Hin. destruct Hin as [[i [nw old]] [_ H2]].
    unfold rename_changes in H2. simpl fst in H2. simpl snd in H2. rewrite !in_app_iff in H2.
    destruct H2 as [H2|[[H2|[]]|H2]]; try discriminate;
      destruct (Nat.ltb 0 _); try destruct H2 as [H2|[]]; try contradiction; discriminate.
  - apply in_map_iff in Hin. destruct Hin as [? [C _]]. discriminate.
Qed.

(** ** The changes about one table that is in both schemas *)

Lemma Forall2_single : forall {A B K C} (R : A -> B -> Prop) (key : A -> K) (g : B -> list C) xs ys x,
  Forall2 R xs ys -> NoDup (map key xs) -> In x xs ->
  (forall x' y', In x' xs -> R x' y' -> key x' <> key x -> g y' = []) ->
  exists y, R x y /\ flat_map g ys = g y.
Proof.
  intros A B K C R key g xs ys x F. induction F as [|a b xs ys Hab F IH]; intros D Hin H; [destruct Hin|].
  simpl in D. inversion D as [|? ? NI ND]; subst. destruct Hin as [->|Hin].
  - exists b. split; auto. simpl. rewrite (flat_map_none g ys), app_nil_r; auto.
    intros y Hy. destruct (Forall2_in_r _ _ _ _ F Hy) as [x' [Hx' R']]. eapply (H x'); eauto. { now right. }
    intros Q. apply NI. rewrite <- Q. now apply in_map.
  - destruct IH as [y [R1 E1]]; auto. { intros x' y' Hx' R' Q. eapply (H x'); eauto. now right. }
    exists y. split; auto. simpl. rewrite E1. erewrite (H a b); eauto. { now left. }
    intros Q. apply NI. rewrite Q. now apply in_map.
Qed.

Lemma filter_as_flat : forall {A} (p : A -> bool) l, filter p l = flat_map (fun x => if p x then [x] else []) l.
Proof. induction l; simpl; auto. rewrite IHl. now destruct (p a). Qed.

Lemma flat_map_concat' : forall {A B} (g : A -> list B) ll, flat_map g (concat ll) = flat_map (flat_map g) ll.
Proof. induction ll; simpl; auto. now rewrite flat_map_app, IHll. Qed.

(** [g] looks at changes of tables named [n] only *)
Definition about {B} (n : string) (g : change -> list B) : Prop :=
  (forall ch, t_name (dep_table ch) <> n -> g ch = []) .

Lemma table_part : forall {B} (g : change -> list B) ordT ordC o from to css t old,
  get_diff ordT ordC o from to = Some css ->
  iteration_order ordT -> (forall i, iteration_order (ordC i)) ->
  distinct_names from -> distinct_names to ->
  In t (s_tables to) -> selected (do_filter o) t -> In old (s_tables from) -> t_name old = t_name t ->
  about (t_name t) g ->
  exists i id cs id',
    diff_table (choose_author (do_author o) to) (do_comments o) (do_suffix o) (ordC i) id t old = Some (cs, id') /\
    flat_map g (all_changes css) = flat_map g (all_changes cs).
Proof.
  intros B g ordT ordC o from to css t old H HT HC [Df _] [Dt _] Ht Hs Ho En Hg.
  destruct (get_diff_shape _ _ _ _ _ _ H HT HC) as [l1 [drops [ren [created [E [F [G [P [R [D M]]]]]]]]]].
  destruct (kept_complete (do_filter o) (s_tables from) (s_tables to) t old Df Ht Hs Ho En) as [i Hi].
  destruct (Forall2_single _ (fun p => t_name (snd (fst p))) (flat_map g) _ _ (i, t, old) F)
    as [y [[id [cs [id' [Hd ->]]]] Ey]].
  - apply kept_nodup. rewrite with_pos_snd. exact Dt.
  - exact Hi.
  - intros [[j x] xo] y' Hin [id [cs [id' [Hd ->]]]] Q. simpl in Q. apply flat_map_none. intros ch Hch.
    apply kept_in in Hin. destruct Hin as [_ [_ [_ K4]]].
    destruct (table_changes_kind _ _ _ _ _ _ _ _ _ _ Hd (HC _) Hch) as [_ [_ [[K|K] _]]]; apply Hg; rewrite K;
      simpl; congruence.
  - exists i, id, cs, id'. split; [exact Hd|]. rewrite E, !flat_map_app, flat_map_concat', Ey.
    destruct G as [g0 [_ [G2 G3]]].
    assert (NG : forall x, In (t_name x) g0 -> t_name x <> t_name t).
    { intros x Hx Q. apply G3 in Hx. destruct Hx as [_ Hx]. apply Hx. exists t. auto. }
    rewrite (flat_map_none g (map DropTable drops)).
    2:{ intros x Hx. apply in_map_iff in Hx. destruct Hx as [d [<- Hd']]. apply Hg. simpl. apply NG.
        eapply Permutation_in; [symmetry; exact G2|]. apply in_or_app. right. now apply in_map. }
    rewrite (flat_map_none g (flat_map (rename_changes (do_suffix o)) ren)).
    2:{ intros ch Hch. apply in_flat_map in Hch. destruct Hch as [[j [nw ro]] [H1 H2]].
        assert (Q1 : t_name ro <> t_name t).
        { apply NG. eapply Permutation_in; [symmetry; exact G2|]. apply in_or_app. left.
          apply in_map_iff. exists (j, (nw, ro)). auto. }
        assert (Q2 : t_name nw <> t_name t).
        { intros Q. apply R in H1. destruct H1 as [_ [_ [H1 _]]]. apply H1. rewrite Q, <- En. now apply in_map. }
        unfold rename_changes in H2. simpl fst in H2. simpl snd in H2. rewrite !in_app_iff in H2.
        apply Hg. destruct H2 as [H2|[[H2|[]]|H2]].
        - destruct (Nat.ltb 0 _); [|destruct H2]. destruct H2 as [<-|[]]. exact Q1.
        - subst ch. exact Q1.
        - destruct (Nat.ltb 0 _); [|destruct H2]. destruct H2 as [<-|[]]. exact Q2. }
    rewrite (flat_map_none g (map CreateTable created)).
    2:{ intros x Hx. apply in_map_iff in Hx. destruct Hx as [d [<- Hd']]. apply Hg. simpl. intros Q.
        assert (C : In d (map snd (filter (is_added (do_filter o) (s_tables from)) (with_pos (s_tables to))))).
        { eapply Permutation_in; [symmetry; exact P|]. apply in_or_app. auto. }
        apply in_map_iff in C. destruct C as [[j x] [Ex C]]. simpl in Ex. subst x. apply filter_In in C.
        destruct C as [_ C]. unfold is_added in C. apply andb_true_iff in C. destruct C as [_ C].
        apply negb_true_iff in C. simpl in C. unfold in_names in C. rewrite str_in_false in C. apply C.
        rewrite Q, <- En. now apply in_map. }
    now rewrite !app_nil_r.
Qed.

(** ** C21 *)

Lemma filter_in_single : forall {A} (p : A -> bool) l x, In x (filter p l) <-> In x l /\ p x = true.
Proof. intros. apply filter_In. Qed.

Lemma kept_cols_nodup : forall old cs, NoDup (map c_name (map snd cs)) ->
  NoDup (map (fun p => c_name (fst p)) (kept_cols old cs)).
Proof.
  intros old. induction cs as [|[i c] cs IH]; simpl; intros D; [constructor|].
  inversion D as [|? ? NI ND]; subst. rewrite map_app. destruct (column_name_map old (c_name c)); [|now apply IH].
  simpl. constructor; auto. intros C. apply NI. apply in_map_iff in C. destruct C as [[x o] [Ex C]].
  simpl in Ex. rewrite <- Ex. apply in_map. apply (kept_cols_spec old cs x o) in C; tauto.
Qed.

Lemma single_list : forall {A B K C} (key : A -> K) (f : A -> list B) (g : B -> list C) l x,
  NoDup (map key l) -> In x l -> (forall x', In x' l -> key x' <> key x -> flat_map g (f x') = []) ->
  flat_map g (flat_map f l) = flat_map g (f x).
Proof.
  induction l as [|a l IH]; intros x D Hin H; [destruct Hin|]. simpl in D. inversion D as [|? ? NI ND]; subst.
  simpl. rewrite flat_map_app. destruct Hin as [->|Hin].
  - rewrite (flat_map_none g (flat_map f l)); [now rewrite app_nil_r|]. intros y Hy.
    apply in_flat_map in Hy. destruct Hy as [z [Hz Hy]].
    assert (Q : flat_map g (f z) = []). { apply H; [now right|]. intros Q. apply NI. rewrite <- Q. now apply in_map. }
    destruct (g y) as [|b bs] eqn:Eg; auto. exfalso.
    assert (In b (flat_map g (f z))) by (apply in_flat_map; exists y; rewrite Eg; simpl; auto).
    rewrite Q in H0. destruct H0.
  - rewrite (H a); [|now left|]. 2:{ intros Q. apply NI. rewrite Q. now apply in_map. }
    simpl. apply IH; auto. intros. apply H; auto. now right.
Qed.

Definition pick (p : change -> bool) (ch : change) : list change := if p ch then [ch] else [].

Lemma attribute_changes : forall ordT ordC opt from to css t old c o,
  get_diff ordT ordC opt from to = Some css ->
  iteration_order ordT -> (forall i, iteration_order (ordC i)) ->
  distinct_names from -> distinct_names to ->
  In t (s_tables to) -> selected (do_filter opt) t -> In old (s_tables from) -> t_name old = t_name t ->
  In c (t_cols t) -> In o (t_cols old) -> c_name c = c_name o ->
  filter (attribute_change (t_name t) (c_name c)) (all_changes css) =
  (if negb (String.eqb (c_type c) (c_type o)) || negb (N.eqb (c_size c) (c_size o))
      || negb (N.eqb (c_scale c) (c_scale o)) then [ChangeColumnType t o c] else []) ++
  (if do_comments opt && negb (String.eqb (c_desc c) (c_desc o)) then [SetColumnComment t c] else []) ++
  (if negb (Bool.eqb (c_notnull c) (c_notnull o)) then [SetNotNullConstraint t c] else []) ++
  (if negb (Bool.eqb (c_autoinc c) (c_autoinc o)) then [SetAutoIncrement t c] else []) ++
  (if negb (String.eqb (c_default c) (c_default o)) then [SetDefaultValue t c] else []).
Proof.
  intros ordT ordC opt from to css t old c o H HT HC Df Dt Ht Hs Ho En Hc Hco Ec.
  rewrite filter_as_flat. fold (pick (attribute_change (t_name t) (c_name c))).
  set (g := pick (attribute_change (t_name t) (c_name c))).
  destruct (table_part g _ _ _ _ _ _ _ _ H HT HC Df Dt Ht Hs Ho En) as [i [id [cs [id' [Hd Eq]]]]].
  { intros ch Q. unfold g, pick. destruct ch; simpl in *; auto;
      apply String.eqb_neq in Q; rewrite Q; reflexivity. }
  fold g in Eq. rewrite Eq.
  destruct (diff_table_changes _ _ _ _ _ _ _ _ _ Hd (HC i)) as [rem [ren [E _]]]. rewrite E.
  assert (One : forall b x, attribute_change (t_name t) (c_name c) x = false ->
            flat_map g (if b : bool then [x] else []) = []).
  { intros [] x Q; simpl; auto. unfold g, pick. now rewrite Q. }
  rewrite !flat_map_app. rewrite !One by reflexivity.
  rewrite (flat_map_none g (map _ (ss_slice rem))).
  2:{ intros x Hx. apply in_map_iff in Hx. destruct Hx as [? [<- _]]. reflexivity. }
  rewrite (flat_map_none g (map _ (ordC i ren))).
  2:{ intros x Hx. apply in_map_iff in Hx. destruct Hx as [? [<- _]]. reflexivity. }
  rewrite !app_nil_r. simpl.
  assert (Dc : NoDup (map c_name (map snd (with_pos (t_cols t))))) by (rewrite with_pos_snd; now apply Dt).
  rewrite (single_list (fun p => c_name (fst p)) _ _ _ (c, o)).
  - unfold column_changes. rewrite !flat_map_app. rewrite One by reflexivity. simpl.
    assert (Yes : forall b x, attribute_change (t_name t) (c_name c) x = true ->
            flat_map g (if b : bool then [x] else []) = (if b : bool then [x] else [])).
    { intros [] x Q; simpl; auto. unfold g, pick. now rewrite Q. }
    rewrite !Yes by (simpl; now rewrite !String.eqb_refl). reflexivity.
  - now apply kept_cols_nodup.
  - apply kept_cols_spec; auto. rewrite with_pos_snd. split; auto. rewrite Ec.
    apply column_name_map_nodup; auto. now apply Df.
  - intros [c' o'] _ Q. simpl in Q. apply flat_map_none. intros ch Hch. unfold column_changes in Hch.
    assert (Q' : String.eqb (c_name c') (c_name c) = false) by now apply String.eqb_neq.
    rewrite !in_app_iff in Hch.
    unfold g, pick.
    destruct Hch as [Hin|[Hin|[Hin|[Hin|[Hin|Hin]]]]];
      match type of Hin with In _ (if ?b then _ else _) => destruct b; [|destruct Hin] end;
      destruct Hin as [<-|[]]; simpl; auto; rewrite Q', andb_false_r; reflexivity.
Qed.

Lemma negb_eqb_str : forall a b, negb (String.eqb a b) = true <-> a <> b.
Proof. intros. rewrite negb_true_iff. apply String.eqb_neq. Qed.
Lemma negb_eqb_N : forall a b, negb (N.eqb a b) = true <-> a <> b.
Proof. intros. rewrite negb_true_iff. apply N.eqb_neq. Qed.
Lemma negb_eqb_bool : forall a b, negb (Bool.eqb a b) = true <-> a <> b.
Proof. intros [] []; simpl; split; congruence. Qed.
Lemma in_opt : forall {A} (b : bool) (x y : A), In y (if b then [x] else []) <-> b = true /\ y = x.
Proof. intros A [] x y; simpl; split; intros H; intuition congruence. Qed.

Lemma NoDup_opts : forall {A} (l : list (bool * A)), NoDup (map snd l) ->
  NoDup (flat_map (fun p : bool * A => if fst p then [snd p] else []) l).
Proof.
  induction l as [|[b x] l IH]; simpl; intros D; [constructor|]. inversion D as [|? ? NI ND]; subst.
  destruct b; simpl; auto. constructor; auto. intros C. apply NI. apply in_flat_map in C.
  destruct C as [[b y] [H1 H2]]. apply in_opt in H2. destruct H2 as [_ ->]. now apply (in_map snd) in H1.
Qed.

Lemma attribute_changes_exact : forall ordT ordC opt from to css t old c o,
  get_diff ordT ordC opt from to = Some css ->
  iteration_order ordT -> (forall i, iteration_order (ordC i)) ->
  distinct_names from -> distinct_names to ->
  In t (s_tables to) -> selected (do_filter opt) t -> In old (s_tables from) -> t_name old = t_name t ->
  In c (t_cols t) -> In o (t_cols old) -> c_name c = c_name o ->
  let about_c := filter (attribute_change (t_name t) (c_name c)) (all_changes css) in
  NoDup about_c /\
  (forall ch, In ch about_c <->
     (ch = ChangeColumnType t o c /\ (c_type c <> c_type o \/ c_size c <> c_size o \/ c_scale c <> c_scale o)) \/
     (ch = SetColumnComment t c /\ do_comments opt = true /\ c_desc c <> c_desc o) \/
     (ch = SetNotNullConstraint t c /\ c_notnull c <> c_notnull o) \/
     (ch = SetAutoIncrement t c /\ c_autoinc c <> c_autoinc o) \/
     (ch = SetDefaultValue t c /\ c_default c <> c_default o)).
Proof.
  intros ordT ordC opt from to css t old c o H HT HC Df Dt Ht Hs Ho En Hc Hco Ec.
  pose proof (attribute_changes _ _ _ _ _ _ _ _ _ _ H HT HC Df Dt Ht Hs Ho En Hc Hco Ec) as A.
  cbv zeta. rewrite A. split.
  - match goal with |- NoDup ((if ?b1 then [?x1] else _) ++ (if ?b2 then [?x2] else _) ++
      (if ?b3 then [?x3] else _) ++ (if ?b4 then [?x4] else _) ++ (if ?b5 then [?x5] else _)) =>
      pose proof (NoDup_opts [(b1, x1); (b2, x2); (b3, x3); (b4, x4); (b5, x5)]) as Q end.
    cbn [map flat_map fst snd] in Q. rewrite app_nil_r in Q. apply Q.
    repeat constructor; simpl; intuition discriminate.
  - intros ch. rewrite !in_app_iff, !in_opt, !orb_true_iff, andb_true_iff.
    rewrite !negb_eqb_str, !negb_eqb_N, !negb_eqb_bool. tauto.
Qed.

(** ** C20, partial *)

Lemma is_renamed_same : forall c o comments, is_renamed c o (negb comments) = true -> same_attributes comments c o.
Proof.
  intros c o comments H. unfold is_renamed in H. repeat (apply andb_true_iff in H; destruct H as [H ?]).
  repeat match goal with
  | E : String.eqb _ _ = true |- _ => apply String.eqb_eq in E
  | E : N.eqb _ _ = true |- _ => apply N.eqb_eq in E
  | E : Bool.eqb _ _ = true |- _ => apply Bool.eqb_prop in E
  end.
  unfold same_attributes. repeat (split; [assumption|]). intros ->.
  match goal with E : _ || _ = true |- _ => simpl in E; apply String.eqb_eq in E; exact E end.
Qed.

Lemma columns_gone : forall ordT ordC opt from to css t old,
  get_diff ordT ordC opt from to = Some css ->
  iteration_order ordT -> (forall i, iteration_order (ordC i)) ->
  distinct_names from -> distinct_names to ->
  In t (s_tables to) -> selected (do_filter opt) t -> In old (s_tables from) -> t_name old = t_name t ->
  NoDup (flat_map (gone_columns (t_name t)) (all_changes css)) /\
  (forall k, In k (flat_map (gone_columns (t_name t)) (all_changes css)) <->
     In k (map c_name (t_cols old)) /\ ~ In k (map c_name (t_cols t))) /\
  (forall t' o c, In (RenameColumn t' o c) (all_changes css) -> t_name t' = t_name t ->
     In o (t_cols old) /\ ~ In (c_name o) (map c_name (t_cols t)) /\
     In c (t_cols t) /\ ~ In (c_name c) (map c_name (t_cols old)) /\ same_attributes (do_comments opt) c o).
Proof.
  intros ordT ordC opt from to css t old H HT HC Df Dt Ht Hs Ho En.
  assert (Ab : about (t_name t) (gone_columns (t_name t))).
  { intros ch Q. destruct ch; simpl in *; auto; apply String.eqb_neq in Q; now rewrite Q. }
  destruct (table_part _ _ _ _ _ _ _ _ _ H HT HC Df Dt Ht Hs Ho En Ab) as [i [id [cs [id' [Hd Eq]]]]].
  destruct (diff_table_changes _ _ _ _ _ _ _ _ _ Hd (HC i)) as [rem [ren [E [Nr [[g [G1 [G2 G3]]] [R _]]]]]].
  assert (Same : forall c o, In (c, o) (kept_cols (t_cols old) (with_pos (t_cols t))) -> c_name c = c_name o).
  { intros c o Hin. apply kept_cols_spec in Hin; [|rewrite with_pos_snd; now apply Dt].
    destruct Hin as [_ Hin]. apply column_name_map_some in Hin. now symmetry. }
  assert (Eg : flat_map (gone_columns (t_name t)) (all_changes css) =
               ss_slice rem ++ map (fun r => c_name (snd (snd r))) (ordC i ren)).
  { rewrite Eq, E, !flat_map_app.
    assert (One : forall b x, gone_columns (t_name t) x = [] ->
            flat_map (gone_columns (t_name t)) (if b : bool then [x] else []) = []).
    { intros [] x Q; simpl; auto. now rewrite Q. }
    rewrite !One by reflexivity. rewrite (flat_map_none _ (flat_map _ _)).
    - simpl. rewrite app_nil_r. f_equal.
      + clear. induction (ss_slice rem); simpl; auto. rewrite String.eqb_refl. simpl. now rewrite IHl.
      + clear. induction (ordC i ren); simpl; auto. rewrite String.eqb_refl. simpl. now rewrite IHl.
    - intros ch Hch. apply in_flat_map in Hch. destruct Hch as [[c o] [H1 H2]]. unfold column_changes in H2.
      rewrite (Same _ _ H1), String.eqb_refl in H2. rewrite !in_app_iff in H2.
      destruct H2 as [[]|[H2|[H2|[H2|[H2|H2]]]]]; apply in_opt in H2; destruct H2 as [_ ->]; reflexivity. }
  assert (Pg : Permutation g (flat_map (gone_columns (t_name t)) (all_changes css))).
  { rewrite Eg, G2. etransitivity; [apply Permutation_app_comm|]. apply Permutation_app.
    - symmetry. apply ss_slice_perm.
    - apply Permutation_map. symmetry. apply HC. }
  assert (In_g : forall k, In k (flat_map (gone_columns (t_name t)) (all_changes css)) <->
     In k (map c_name (t_cols old)) /\ ~ In k (map c_name (t_cols t))).
  { intros k. rewrite <- G3. split; intros Hk.
    - eapply Permutation_in; [symmetry; exact Pg|exact Hk].
    - eapply Permutation_in; [exact Pg|exact Hk]. }
  split; [eapply Permutation_NoDup; eauto|]. split; [exact In_g|].
  intros t' o c Hin En'.
  set (isr := fun ch => match ch with RenameColumn x a b => if String.eqb (t_name x) (t_name t) then [(x, a, b)] else [] | _ => [] end).
  assert (Abr : about (t_name t) isr).
  { intros ch Q. destruct ch; simpl in *; auto; apply String.eqb_neq in Q; now rewrite Q. }
  destruct (table_part isr _ _ _ _ _ _ _ _ H HT HC Df Dt Ht Hs Ho En Abr) as [i' [id2 [cs2 [id2' [Hd2 Eq2]]]]].
  assert (Hi : In (t', o, c) (flat_map isr (all_changes css))).
  { apply in_flat_map. exists (RenameColumn t' o c). split; auto. simpl. rewrite En', String.eqb_refl. now left. }
  rewrite Eq2 in Hi. apply in_flat_map in Hi. destruct Hi as [ch [Hch Hi]].
  destruct ch; simpl in Hi; try contradiction. destruct (String.eqb (t_name t0) (t_name t)); [|destruct Hi].
  destruct Hi as [Hi|[]]. injection Hi as -> -> ->.
  destruct (diff_table_changes _ _ _ _ _ _ _ _ _ Hd2 (HC i')) as [rem2 [ren2 [E2 [Nr2 [[g' [G1' [G2' G3']]] [R2 _]]]]]].
  rewrite E2, !in_app_iff in Hch.
  destruct Hch as [Hch|[Hch|[Hch|[Hch|[Hch|[Hch|Hch]]]]]];
    try (apply in_opt in Hch; destruct Hch as [_ Hch]; discriminate).
  - exfalso. apply in_flat_map in Hch. destruct Hch as [[c' o'] [H1 H2]]. unfold column_changes in H2.
    rewrite (Same _ _ H1), String.eqb_refl in H2. rewrite !in_app_iff in H2.
    destruct H2 as [[]|[H2|[H2|[H2|[H2|H2]]]]]; apply in_opt in H2; destruct H2 as [_ H2]; discriminate.
  - apply in_map_iff in Hch. destruct Hch as [? [Hch _]]. discriminate.
  - apply in_map_iff in Hch. destruct Hch as [[j [a b]] [Hch Hr]]. simpl in Hch. injection Hch as -> -> ->.
    assert (Hr' : In (j, (c, o)) ren2) by (eapply Permutation_in; [apply HC|exact Hr]).
    destruct (R2 _ _ _ Hr') as [R3 [R4 [R5 R6]]]. apply column_name_map_some in R5 as R7.
    split; [tauto|]. split.
    { apply G3'. eapply Permutation_in; [symmetry; exact G2'|]. apply in_or_app. left. apply in_map_iff.
      exists (j, (c, o)). auto. }
    split; auto. split; auto. now apply is_renamed_same.
Qed.

(** ** C53 *)

Lemma ss_equals_same : forall a b, NoDup a -> NoDup b -> (ss_equals a b = true <-> (forall k, In k a <-> In k b)).
Proof.
  intros a b Da Db. rewrite ss_equals_iff; auto. split; intros H k.
  - rewrite <- !ss_contains_iff, H. tauto.
  - apply Bool.eq_iff_eq_true. rewrite !ss_contains_iff. apply H.
Qed.

Lemma size_pos : forall (s : sset), Nat.ltb 0 (ss_size s) = true <-> exists k, In k s.
Proof. intros [|x s]; simpl; split; intros H; try discriminate; eauto. now destruct H. Qed.

Lemma table_changes_exact : forall ordT ordC opt from to css t old,
  get_diff ordT ordC opt from to = Some css ->
  iteration_order ordT -> (forall i, iteration_order (ordC i)) ->
  distinct_names from -> distinct_names to ->
  In t (s_tables to) -> selected (do_filter opt) t -> In old (s_tables from) -> t_name old = t_name t ->
  let about_t := filter (table_change (t_name t)) (all_changes css) in
  NoDup about_t /\
  (forall ch, In ch about_t <->
     (ch = SetTableComment t /\ do_comments opt = true /\ t_desc t <> t_desc old) \/
     (ch = UpdatePrimaryKey old t /\ ~ (forall k, pk_column t k <-> pk_column old k)) \/
     (ch = DropUniqueConstraint (t_name t ++ do_suffix opt) old /\
        ~ (forall k, uq_column t k <-> uq_column old k) /\ exists k, uq_column old k) \/
     (ch = CreateUniqueConstraint (t_name t ++ do_suffix opt) t /\
        ~ (forall k, uq_column t k <-> uq_column old k) /\ exists k, uq_column t k)).
Proof.
  intros ordT ordC opt from to css t old H HT HC Df Dt Ht Hs Ho En. cbv zeta.
  rewrite filter_as_flat. fold (pick (table_change (t_name t))).
  set (g := pick (table_change (t_name t))).
  destruct (table_part g _ _ _ _ _ _ _ _ H HT HC Df Dt Ht Hs Ho En) as [i [id [cs [id' [Hd Eq]]]]].
  { intros ch Q. unfold g, pick. destruct ch; simpl in *; auto; try (apply String.eqb_neq in Q; rewrite Q; reflexivity). }
  fold g in Eq. rewrite Eq.
  destruct (diff_table_changes _ _ _ _ _ _ _ _ _ Hd (HC i)) as [rem [ren [E _]]]. rewrite E.
  assert (Yes : forall b x, table_change (t_name t) x = true ->
            flat_map g (if b : bool then [x] else []) = (if b : bool then [x] else [])).
  { intros [] x Q; simpl; auto. unfold g, pick. now rewrite Q. }
  rewrite !flat_map_app. rewrite !Yes by (simpl; rewrite ?En; apply String.eqb_refl).
  rewrite (flat_map_none g (map _ (ss_slice rem))).
  2:{ intros x Hx. apply in_map_iff in Hx. destruct Hx as [? [<- _]]. reflexivity. }
  rewrite (flat_map_none g (map _ (ordC i ren))).
  2:{ intros x Hx. apply in_map_iff in Hx. destruct Hx as [? [<- _]]. reflexivity. }
  rewrite (flat_map_none g (flat_map _ _)).
  2:{ intros ch Hch. apply in_flat_map in Hch. destruct Hch as [[c o] [_ H2]]. unfold column_changes in H2.
      rewrite !in_app_iff in H2.
      destruct H2 as [H2|[H2|[H2|[H2|[H2|H2]]]]]; apply in_opt in H2; destruct H2 as [_ ->]; reflexivity. }
  cbn [app].
  assert (PK : negb (ss_equals (pk_name_set t) (pk_name_set old)) = true <-> ~ (forall k, pk_column t k <-> pk_column old k)).
  { rewrite negb_true_iff, <- not_true_iff_false, ss_equals_same by apply pk_name_set_nodup.
    split; intros Q C; apply Q; intros k; specialize (C k); rewrite ?pk_name_set_in in *; exact C. }
  assert (UQ : negb (ss_equals (uq_name_set t) (uq_name_set old)) = true <-> ~ (forall k, uq_column t k <-> uq_column old k)).
  { rewrite negb_true_iff, <- not_true_iff_false, ss_equals_same by apply uq_name_set_nodup.
    split; intros Q C; apply Q; intros k; specialize (C k); rewrite ?uq_name_set_in in *; exact C. }
  assert (SZ : forall x, Nat.ltb 0 (ss_size (uq_name_set x)) = true <-> exists k, uq_column x k).
  { intros x. rewrite size_pos. split; intros [k Hk]; exists k; now apply uq_name_set_in. }
  split.
  - match goal with |- NoDup ((if ?b1 then [?x1] else _) ++ (if ?b2 then [?x2] else _) ++
      (if ?b3 then [?x3] else _) ++ (if ?b4 then [?x4] else _)) =>
      pose proof (NoDup_opts [(b1, x1); (b2, x2); (b3, x3); (b4, x4)]) as Q end.
    cbn [map flat_map fst snd] in Q. rewrite app_nil_r in Q. apply Q.
    repeat constructor; simpl; intuition discriminate.
  - intros ch. rewrite !in_app_iff, !in_opt, !andb_true_iff, PK, UQ, !SZ, negb_eqb_str. tauto.
Qed.

(** ** Witnesses *)

Lemma filtered_diff_witness : exists o s css t,
  distinct_names s /\
  get_diff (fun l => l) (fun _ l => l) o s s = Some css /\
  In (DropTable t) (all_changes css) /\ In t (s_tables s) /\ ~ selected (do_filter o) t.
Proof.
  pose (t := mkTable "t" [mkCol "id" "int64" "" 0 0 true true false true "" "" [] None] "" "b" "" []).
  exists (mkDiffOption (get_table_filter "a") "" "" false), (mkSchema "" "" "" [t]).
  eexists. exists t. split; [|split; [vm_compute; reflexivity|]].
  - split; simpl; [repeat constructor; auto|]. intros x [<-|[]]. simpl. repeat constructor. auto.
  - simpl. repeat split; auto; discriminate.
Qed.

Lemma added_columns_witness :
  (forall ordT ordC o from to css t c,
    get_diff ordT ordC o from to = Some css ->
    iteration_order ordT -> (forall i, iteration_order (ordC i)) ->
    ~ In (AddColumn t c) (all_changes css)) /\
  exists s1 s2, distinct_names s1 /\ distinct_names s2 /\
    (exists t1 t2 c, s_tables s1 = [t1] /\ s_tables s2 = [t2] /\ t_name t1 = t_name t2 /\
       t_cols t2 = (t_cols t1 ++ [c])%list) /\
    get_diff (fun l => l) (fun _ l => l) (mkDiffOption None "" "" true) s1 s2 = Some [].
Proof.
  split; [exact no_add_column|].
  pose (a := mkCol "a" "int64" "" 0 0 true false false false "" "" [] None).
  pose (b := mkCol "b" "text" "" 0 0 true false false false "" "" [] None).
  exists (mkSchema "" "" "" [mkTable "t" [a] "" "" "" []]), (mkSchema "" "" "" [mkTable "t" [a; b] "" "" "" []]).
  split; [|split; [|split]].
  - split; simpl; [repeat constructor; auto|]. intros x [<-|[]]. simpl. repeat constructor. auto.
  - split; simpl; [repeat constructor; auto|]. intros x [<-|[]]. simpl.
    repeat constructor; simpl; intuition discriminate.
  - eexists. eexists. exists b. repeat split; reflexivity.
  - vm_compute. reflexivity.
Qed.
