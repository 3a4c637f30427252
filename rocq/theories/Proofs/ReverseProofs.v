(** Comparison in the other direction (C114) *)
From Coq Require Import String Ascii List NArith Bool Arith Lia Sorting.Permutation Sorting.Sorted.
From Verif.Model Require Import GoString Util Octopus DiffCore Diff.
From Verif.Spec Require Import Order OctopusSpec DiffSpec ReverseSpec.
From Verif.Proofs Require Import ListLemmas StringLemmas UtilProofs OctopusProofs DiffCoreProofs DiffProofs DiffFacts Ranks.
Import ListNotations.
Local Open Scope list_scope.

(** ** Order *)

Lemma new_filter : forall {A} (name : A -> string) (same : A -> A -> bool) (alike : A -> A -> Prop) old p l,
  (forall x y, same x y = true -> alike x y) -> (forall x, p x = true -> ~ In (name x) old) ->
  new_in_order name alike old l -> in_order name same (filter p l).
Proof.
  intros A name same alike old p l S N H. unfold new_in_order in H. unfold in_order. induction H as [|x l F H IH]; [constructor|].
  cbn [filter]. destruct (p x) eqn:P; [|exact IH]. constructor; [|exact IH]. apply Forall_forall. intros y Y.
  apply filter_In in Y as [Y Q]. intros E. apply str_ltb_lt. rewrite Forall_forall in F. apply F; auto.
Qed.

Lemma filter_pos : forall {A} (p : A -> bool) (l : list A), map snd (filter (fun ia => p (snd ia)) (with_pos l)) = filter p l.
Proof.
  intros A p l. rewrite <- (with_pos_snd l) at 2. induction (with_pos l) as [|[i x] r IH]; [reflexivity|].
  cbn [filter map snd]. destruct (p x); cbn [map snd]; congruence.
Qed.

Lemma NoDup_map_filter : forall {A B} (f : A -> B) p l, NoDup (map f l) -> NoDup (map f (filter p l)).
Proof.
  intros A B f p l. induction l as [|x l IH]; intros D; [constructor|]. inversion D as [|? ? N D']; subst.
  cbn [filter]. destruct (p x); [|auto]. cbn [map]. constructor; [|auto]. intros C. apply N.
  apply in_map_iff in C as (y & E & Y). apply filter_In in Y as [Y _]. apply in_map_iff. eauto.
Qed.

(** the items with the names that are gone are the ones the other direction adds *)
Lemma items_gone : forall {A} (name : A -> string) lookup (l : list A) (p : A -> bool) gone,
  (forall n r, lookup n = Some r -> In r l /\ name r = n) -> NoDup (map name l) -> (forall x, In x l -> lookup (name x) = Some x) ->
  NoDup gone -> (forall n, In n gone <-> exists x, In x l /\ name x = n /\ p x = true) ->
  Permutation (items lookup gone) (filter p l).
Proof.
  intros A name lookup l p gone L D C DG G. apply NoDup_Permutation.
  - unfold items. assert (K : forall n, In n gone -> exists r, lookup n = Some r).
    { intros n N. apply G in N as (x & X & <- & _). eauto. }
    clear G. induction gone as [|n ns IH]; cbn [flat_map]; [constructor|]. inversion DG as [|? ? N DG']; subst.
    destruct (K n (or_introl eq_refl)) as [r R]. rewrite R. cbn [app]. constructor.
    + intros I. apply in_flat_map in I as (m & M & I). destruct (lookup m) as [r'|] eqn:E; [|contradiction]. destruct I as [->|[]].
      apply L in R as [_ R]. apply L in E as [_ E]. congruence.
    + apply IH; auto. intros m M. apply K. now right.
  - apply NoDup_filter. exact (NoDup_map_inv _ _ D).
  - intros x. rewrite (items_in name lookup), filter_In, G by (intros n r H; now apply L in H). split.
    + intros [(y & Y & E & P) F]. apply L in F as [F _]. split; [exact F|]. now rewrite <- (nodup_name_eq name l y x D Y F E).
    + intros [X P]. split; [exists x; auto|auto].
Qed.

(** ** Renamed tables *)

Lemma table_pairs : forall ordT ordC o from to css,
  get_diff ordT ordC o from to = Some css -> iteration_order ordT -> (forall i, iteration_order (ordC i)) ->
  exists gone renamed rest,
    find_renamed (tables_by_name (s_tables from)) same_columns (filter (is_added (do_filter o) (s_tables from)) (with_pos (s_tables to))) gone
      = (renamed, rest) /\ NoDup gone /\
    (forall n, In n gone <-> In n (map t_name (s_tables from)) /\
       ~ exists t, In t (s_tables to) /\ passes (do_filter o) t = true /\ t_name t = n) /\
    (forall old nw, In (RenameTable old nw) (all_changes css) <-> exists i, In (i, (nw, old)) renamed) /\
    (forall i old nw ch, In (i, (nw, old)) renamed -> In ch (rename_changes (do_suffix o) (i, (nw, old))) -> In ch (all_changes css)).
Proof.
  intros ordT ordC o from to css H HT HC. unfold get_diff, diff_schemas in H.
  set (author := choose_author (do_author o) to) in *.
  destruct (scan_tables _ (do_filter o) (s_tables from) (with_pos (s_tables to)) new_id _) as [[[[css1 id1] removed1] added]|] eqn:Es;
    [|discriminate].
  destruct (find_renamed _ same_columns added removed1) as [renamed removed2] eqn:Ef.
  destruct (drop_tables _ (s_tables from) (ss_slice removed2) id1) as [css2 id2] eqn:Ed.
  destruct (rename_tables _ (ordT renamed) id2) as [css3 id3] eqn:Er.
  destruct (create_tables _ (not_renamed added renamed) id3) as [[css4 id4]|] eqn:Ec; [|discriminate].
  injection H as <-.
  destruct (scan_spec _ (fun i _ t => mkCS "" "" []) (fun i _ _ => ([], i)) (fun i _ => None) _ _ _ _ _ _ _ _ _ Es) as [[l1 [-> K1]] [Ka [K2 K3]]]. specialize (K3 (ss_new_nodup _)).
  apply rename_tables_spec in Er; destruct Er as [l3 [-> R3]].
  assert (Rn : all_changes (concat l3) = flat_map (rename_changes (do_suffix o)) (ordT renamed)).
  { eapply concat_changes; [|exact R3]. intros x cs [i0 [i1 [_ Hx]]]. eapply rename_table_changes; exact Hx. }
  assert (N1 : forall ch, In ch (all_changes (concat l1)) -> gone ch = []).
  { intros ch I. unfold all_changes in I. apply in_flat_map in I as (cs & I & J). apply in_concat in I as (l & L & I).
    destruct (Forall2_in_r _ _ _ _ K1 L) as [p [_ [i0 [i1 [_ Hd]]]]].
    refine (proj1 (table_changes_kind _ _ _ _ _ _ _ _ _ ch Hd (HC _) _)). unfold all_changes. apply in_flat_map. eauto. }
  assert (N2 : forall ch, In ch (all_changes css2) -> exists t, ch = DropTable t).
  { clear - Ed. revert id1 css2 id2 Ed. induction (ss_slice removed2) as [|n ns IH]; cbn [drop_tables]; intros id1 css2 id2 E ch I.
    - injection E as <- <-. destruct I.
    - destruct (drop_tables _ (s_tables from) ns (bump_major id1)) as [c2 i2] eqn:D.
      destruct (tables_by_name (s_tables from) n) as [t|]; injection E as <- <-; [|exact (IH _ _ _ D ch I)].
      destruct I as [<-|I]; [eauto|exact (IH _ _ _ D ch I)]. }
  assert (N4 : forall ch, In ch (all_changes css4) -> exists t, ch = CreateTable t).
  { clear - Ec. revert id3 css4 id4 Ec. induction (not_renamed added renamed) as [|t ts IH]; cbn [create_tables]; intros id3 css4 id4 E ch I.
    - injection E as <- <-. destruct I.
    - destruct (create_tables _ ts (bump_major id3)) as [[c2 i2]|] eqn:D; [|discriminate]. injection E as <- <-.
      destruct I as [<-|I]; [eauto|exact (IH _ _ _ D ch I)]. }
  exists removed1, renamed, removed2. rewrite <- Ka. split; [exact Ef|]. split; [exact K3|]. split.
  { intros n. rewrite K2, ss_new_in. split; intros [A B]; (split; [exact A|]); intros C; apply B.
    - destruct C as [t [C1 C2]]. apply with_pos_in in C1. destruct C1 as [i C1]. exists (i, t). auto.
    - destruct C as [[i t] [C1 C2]]. exists t. split; [apply with_pos_in; eauto|exact C2]. }
  assert (Fwd : forall i old nw ch, In (i, (nw, old)) renamed -> In ch (rename_changes (do_suffix o) (i, (nw, old))) ->
    In ch (all_changes (concat l1 ++ css2 ++ concat l3 ++ css4))).
  { intros i old nw ch I J. rewrite !all_changes_app, !in_app_iff. right. right. left. rewrite Rn. apply in_flat_map.
    exists (i, (nw, old)). split; [|exact J]. eapply Permutation_in; [symmetry; apply HT|exact I]. }
  split; [|exact Fwd]. intros old nw. split.
  - rewrite !all_changes_app, !in_app_iff. intros [I|[I|[I|I]]].
    + apply N1 in I. discriminate.
    + apply N2 in I as [t I]. discriminate.
    + rewrite Rn in I. apply in_flat_map in I as ([i [a b]] & I & J). unfold rename_changes in J. cbn [fst snd] in J.
      rewrite !in_app_iff in J. destruct J as [J|[[J|[]]|J]].
      * destruct (Nat.ltb 0 _); [|destruct J]. now destruct J as [J|[]].
      * injection J as -> ->. exists i. eapply Permutation_in; [apply HT|exact I].
      * destruct (Nat.ltb 0 _); [|destruct J]. now destruct J as [J|[]].
    + apply N4 in I as [t I]. discriminate.
  - intros [i I]. apply (Fwd i old nw _ I). unfold rename_changes. rewrite !in_app_iff. right. left. now left.
Qed.


Definition absent (names : list string) (t : table) : bool := negb (str_in (t_name t) names).

(** the pairs, with nothing that depends on a direction *)
Lemma table_pair_ranks : forall oT oC o from to css, iteration_order oT -> (forall i, iteration_order (oC i)) ->
  get_diff oT oC o from to = Some css -> distinct_names from -> distinct_names to ->
  (forall t, In t (s_tables to) -> selected (do_filter o) t) ->
  new_in_order t_name (fun a b => t_cols a = t_cols b) (map t_name (s_tables from)) (s_tables to) ->
  let added := filter (absent (map t_name (s_tables from))) (s_tables to) in
  let removed := filter (absent (map t_name (s_tables to))) (s_tables from) in
  (forall old nw, In (RenameTable old nw) (all_changes css) <->
     In nw added /\ In old removed /\ t_cols nw = t_cols old /\ rank t_name same_columns nw added = rank t_name same_columns old removed) /\
  (forall old nw ch, In (RenameTable old nw) (all_changes css) -> In ch (rename_changes (do_suffix o) (0, (nw, old))) -> In ch (all_changes css)).
Proof.
  intros oT oC o from to css OT OC H [Df _] [Dt _] Sel Ord added removed.
  destruct (table_pairs _ _ _ _ _ _ H OT OC) as (gone & renamed & rest & F & DG & G & R & Ch).
  assert (Ea : map snd (filter (is_added (do_filter o) (s_tables from)) (with_pos (s_tables to))) = added).
  { transitivity (filter (fun t => passes (do_filter o) t && negb (in_names (t_name t) (s_tables from))) (s_tables to)); [exact (filter_pos _ _)|].
    apply filter_ext_in. intros t T. rewrite (proj2 (passes_selected _ _) (Sel t T)). reflexivity. }
  assert (Abs : forall names t, absent names t = true <-> ~ In (t_name t) names).
  { intros names t. unfold absent. rewrite negb_true_iff. apply str_in_false. }
  assert (P : Permutation (items (tables_by_name (s_tables from)) gone) removed).
  { apply (items_gone t_name); auto.
    - intros n r E. now apply tables_by_name_some in E.
    - intros x X. now apply tables_by_name_nodup.
    - intros n. rewrite G. split.
      + intros [I N]. apply in_map_iff in I as (x & <- & X). exists x. split; [exact X|]. split; [reflexivity|]. apply Abs. intros J.
        apply in_map_iff in J as (y & E & Y). apply N. exists y. split; [exact Y|]. split; [|exact E]. apply passes_selected. auto.
      + intros (x & X & <- & A). apply Abs in A. split; [now apply in_map|]. intros (t & T & _ & E). apply A. rewrite <- E. now apply in_map. }
  split.
  - intros old nw. rewrite R.
    rewrite (find_renamed_rank t_name (tables_by_name (s_tables from)) same_columns) with (removed := gone) (rest := rest)
      (added := filter (is_added (do_filter o) (s_tables from)) (with_pos (s_tables to))); auto.
    + rewrite Ea. rewrite (rank_perm _ _ old _ _ P). rewrite same_columns_spec.
      split; intros (A & B & C); (split; [exact A|]); (split; [|exact C]); (eapply Permutation_in; [|exact B]); [exact P|now symmetry].
    + intros n r E. now apply tables_by_name_some in E.
    + intros x y E. apply same_columns_spec in E. now apply same_columns_spec.
    + intros x y z E E'. apply same_columns_spec in E, E'. apply same_columns_spec. congruence.
    + rewrite Ea. unfold added. now apply NoDup_map_filter.
    + rewrite Ea. unfold added. eapply new_filter; [|intros x; apply Abs|exact Ord]. intros x y. apply same_columns_spec.
  - intros old nw ch I J. apply R in I as [i I]. exact (Ch i old nw ch I J).
Qed.


(** ** Renamed columns *)

Lemma column_pairs : forall author comments suffix ord id t old css id',
  diff_table author comments suffix ord id t old = Some (css, id') -> iteration_order ord ->
  exists gone renamed rest,
    find_renamed (column_name_map (t_cols old)) (fun a r => is_renamed a r (negb comments))
      (filter (is_added_col (t_cols old)) (with_pos (t_cols t))) gone = (renamed, rest) /\ NoDup gone /\
    (forall k, In k gone <-> In k (map c_name (t_cols old)) /\ ~ In k (map c_name (t_cols t))) /\
    (forall u o c, In (RenameColumn u o c) (all_changes css) <-> u = t /\ exists i, In (i, (c, o)) renamed).
Proof.
  intros author comments suffix ord id t old css id' H Hord. unfold diff_table in H.
  assert (C0 := emit_changes author (comments && negb (String.eqb (t_desc t) (t_desc old))) (SetTableComment t) ([], id)).
  destruct (emit author (comments && negb (String.eqb (t_desc t) (t_desc old))) (SetTableComment t) ([], id))
    as [css0 id0]. simpl in C0.
  destruct (scan_columns _ (t_cols old) (with_pos (t_cols t)) id0 _) as [[[[css1 id1] r1] added]|] eqn:Es;
    [|discriminate].
  destruct (scan_columns_spec _ _ _ _ _ _ _ _ _ Es) as [[l [El Fl]] [Ea [Er Nr]]].
  specialize (Nr (ss_new_nodup _)).
  destruct (find_renamed _ _ added r1) as [ren r2] eqn:Ef.
  assert (C1 : all_changes css1 = flat_map (column_changes comments t) (kept_cols (t_cols old) (with_pos (t_cols t)))).
  { rewrite El. clear - Fl. induction Fl as [|[c o] x xs ys [i0 [i1 E]] F IH]; cbn [concat flat_map]; auto.
    rewrite all_changes_app, IH. f_equal. cbn [fst snd] in E. injection E as E.
    rewrite <- (diff_column_changes author comments t i0 c o), E. reflexivity. }
  exists r1, ren, r2. rewrite <- Ea. split; [exact Ef|]. split; [exact Nr|]. split.
  { intros k. rewrite Er, ss_new_in.
    replace (map (fun ic => c_name (snd ic)) (with_pos (t_cols t))) with (map c_name (t_cols t)); [tauto|].
    rewrite <- (with_pos_snd (t_cols t)) at 1. now rewrite map_map. }
  match type of H with Some ?st = _ => assert (F : all_changes css = all_changes (fst st)) by
      (apply (f_equal (fun x => match x with Some y => all_changes (fst y) | None => [] end)) in H;
       symmetry; exact H) end.
  rewrite !emit_changes in F.
  assert (X : forall (l : list column) (st : list cset * ident),
    all_changes (fst (match l with [] => st | _ :: _ => (fst st, bump_minor (snd st)) end)) = all_changes (fst st)).
  { intros [|? ?] st; reflexivity. }
  rewrite X in F. rewrite (fold_emit_changes author (fun r => RenameColumn t (snd (snd r)) (fst (snd r)))) in F.
  rewrite (fold_emit_changes author (DropColumn t)) in F. rewrite emit_changes in F.
  cbn [fst] in F. rewrite all_changes_app, C0, C1 in F. clear X H C0 C1.
  assert (One : forall (b : bool) (x ch : change), In ch (if b then [x] else []) -> ch = x).
  { intros [] x ch Hx; simpl in Hx; [destruct Hx; [auto|contradiction]|contradiction]. }
  intros u o c. rewrite F, !in_app_iff. split.
  - intros I. repeat destruct I as [I|I]; try (apply One in I; discriminate I).
    + apply in_flat_map in I as ([c' o'] & K & I). exfalso.
      assert (N : c_name c' = c_name o').
      { unfold kept_cols in K. apply in_flat_map in K as ([i x] & _ & K). cbn [snd] in K.
        destruct (column_name_map (t_cols old) (c_name x)) as [y|] eqn:L; [|destruct K]. destruct K as [K|[]].
        injection K as -> ->. apply column_name_map_some in L as [_ L]. auto. }
      unfold column_changes in I. rewrite N, String.eqb_refl in I. cbn [negb app] in I. rewrite !in_app_iff in I.
      repeat destruct I as [I|I]; apply One in I; discriminate I.
    + apply in_map_iff in I as (k & K & _). discriminate.
    + apply in_map_iff in I as ([i [c' o']] & K & I). cbn [fst snd] in K. injection K as <- -> ->.
      split; [reflexivity|]. exists i. eapply Permutation_in; [apply Hord|exact I].
  - intros [-> [i I]]. left. left. right. apply in_map_iff. exists (i, (c, o)). split; [reflexivity|].
    eapply Permutation_in; [symmetry; apply Hord|exact I].
Qed.

Lemma is_renamed_iff : forall b x y, is_renamed x y b = true <->
  c_type x = c_type y /\ (b = true \/ c_desc x = c_desc y) /\ c_size x = c_size y /\ c_scale x = c_scale y /\
  c_notnull x = c_notnull y /\ c_pk x = c_pk y /\ c_uq x = c_uq y /\ c_autoinc x = c_autoinc y /\
  c_default x = c_default y /\ c_onupdate x = c_onupdate y.
Proof.
  intros b x y. unfold is_renamed.
  rewrite !andb_true_iff, orb_true_iff, !String.eqb_eq, !N.eqb_eq, !Bool.eqb_true_iff. tauto.
Qed.

Definition absent_column (names : list string) (c : column) : bool := negb (str_in (c_name c) names).

Lemma column_pair_ranks : forall author comments suffix ord id t old css id',
  diff_table author comments suffix ord id t old = Some (css, id') -> iteration_order ord ->
  NoDup (map c_name (t_cols old)) -> NoDup (map c_name (t_cols t)) ->
  new_in_order c_name (same_attributes comments) (map c_name (t_cols old)) (t_cols t) ->
  let same := fun a r => is_renamed a r (negb comments) in
  let added := filter (absent_column (map c_name (t_cols old))) (t_cols t) in
  let removed := filter (absent_column (map c_name (t_cols t))) (t_cols old) in
  forall u o c, In (RenameColumn u o c) (all_changes css) <->
    u = t /\ In c added /\ In o removed /\ same c o = true /\ rank c_name same c added = rank c_name same o removed.
Proof.
  intros author comments suffix ord id t old css id' H Hord Do Dt Ord same added removed u o c.
  destruct (column_pairs _ _ _ _ _ _ _ _ _ H Hord) as (gone & renamed & rest & F & DG & G & R).
  assert (Ea : map snd (filter (is_added_col (t_cols old)) (with_pos (t_cols t))) = added) by exact (filter_pos _ _).
  assert (Abs : forall names x, absent_column names x = true <-> ~ In (c_name x) names).
  { intros names x. unfold absent_column. rewrite negb_true_iff. apply str_in_false. }
  assert (P : Permutation (items (column_name_map (t_cols old)) gone) removed).
  { apply (items_gone c_name); auto.
    - intros n r E. now apply column_name_map_some in E.
    - intros x X. now apply column_name_map_nodup.
    - intros n. rewrite G. split.
      + intros [I N]. apply in_map_iff in I as (x & <- & X). exists x. split; [exact X|]. split; [reflexivity|]. now apply Abs.
      + intros (x & X & <- & A). apply Abs in A. split; [now apply in_map|exact A]. }
  rewrite R.
  rewrite (find_renamed_rank c_name (column_name_map (t_cols old)) same) with (removed := gone) (rest := rest)
    (added := filter (is_added_col (t_cols old)) (with_pos (t_cols t))); auto.
  - rewrite Ea. rewrite (rank_perm _ _ o _ _ P).
    split; intros (E & A & B & C); (split; [exact E|]); (split; [exact A|]); (split; [|exact C]); (eapply Permutation_in; [|exact B]); [exact P|now symmetry].
  - intros n r E. now apply column_name_map_some in E.
  - unfold same. intros x y E. apply is_renamed_iff in E. apply is_renamed_iff. intuition.
  - unfold same. intros x y z E E'. apply is_renamed_iff in E, E'. apply is_renamed_iff. intuition congruence.
  - rewrite Ea. unfold added. now apply NoDup_map_filter.
  - rewrite Ea. unfold added. eapply new_filter; [|intros x; apply Abs|exact Ord]. intros x y. apply is_renamed_same.
Qed.

(** ** Both directions *)

Lemma table_included : forall ordT ordC o from to css t old,
  get_diff ordT ordC o from to = Some css -> iteration_order ordT -> (forall i, iteration_order (ordC i)) ->
  distinct_names from -> distinct_names to ->
  In t (s_tables to) -> selected (do_filter o) t -> In old (s_tables from) -> t_name old = t_name t ->
  exists i id cs id',
    diff_table (choose_author (do_author o) to) (do_comments o) (do_suffix o) (ordC i) id t old = Some (cs, id') /\
    forall ch, t_name (dep_table ch) = t_name t -> In ch (all_changes cs) -> In ch (all_changes css).
Proof.
  intros ordT ordC o from to css t old H HT HC Df Dt It St Io En.
  destruct (table_part (fun ch => if String.eqb (t_name (dep_table ch)) (t_name t) then [ch] else []) _ _ _ _ _ _ t old H HT HC Df Dt It St Io En)
    as (i & id & cs & id' & D & E).
  { intros ch N. destruct (String.eqb_spec (t_name (dep_table ch)) (t_name t)); [contradiction|reflexivity]. }
  exists i, id, cs, id'. split; [exact D|]. intros ch N I.
  assert (J : In ch (flat_map (fun ch => if String.eqb (t_name (dep_table ch)) (t_name t) then [ch] else []) (all_changes css))).
  { rewrite E. apply in_flat_map. exists ch. split; [exact I|]. rewrite N, String.eqb_refl. now left. }
  apply in_flat_map in J as (ch' & J & K). destruct (String.eqb (t_name (dep_table ch')) (t_name t)); [|destruct K].
  destruct K as [->|[]]. exact J.
Qed.

Lemma NoDup_flat_once : forall {A B} (g : A -> list B) l x y b, NoDup (flat_map g l) -> In x l -> In y l -> In b (g x) -> In b (g y) -> x = y.
Proof.
  intros A B g l x y b. induction l as [|z l IH]; intros D X Y GX GY; [contradiction|]. cbn [flat_map] in D.
  pose proof (NoDup_app_r _ _ D) as D2. pose proof (fun b => NoDup_app_disj _ _ b D) as D3.
  destruct X as [->|X], Y as [->|Y]; auto.
  - exfalso. apply (D3 b GX). apply in_flat_map. eauto.
  - exfalso. apply (D3 b GY). apply in_flat_map. eauto.
Qed.

Section Reverse.
Variables (ordT ordT' : list (nat * (table * table)) -> list (nat * (table * table))).
Variables (ordC ordC' : nat -> list (nat * (column * column)) -> list (nat * (column * column))).
Variables (o : diff_option) (from to : schema) (css css' : list cset).
Hypothesis HT : iteration_order ordT.
Hypothesis HT' : iteration_order ordT'.
Hypothesis HC : forall i, iteration_order (ordC i).
Hypothesis HC' : forall i, iteration_order (ordC' i).
Hypothesis Df : distinct_names from.
Hypothesis Dt : distinct_names to.
Hypothesis Sf : forall t, In t (s_tables from) -> selected (do_filter o) t.
Hypothesis St : forall t, In t (s_tables to) -> selected (do_filter o) t.
Hypothesis Of : orderly (do_comments o) from to.
Hypothesis Ot : orderly (do_comments o) to from.
Hypothesis H : get_diff ordT ordC o from to = Some css.
Hypothesis H' : get_diff ordT' ordC' o to from = Some css'.

Lemma rename_back : forall a b, In (RenameTable a b) (all_changes css) -> In (RenameTable b a) (all_changes css').
Proof.
  intros a b I.
  apply (proj1 (table_pair_ranks _ _ _ _ _ _ HT HC H Df Dt St (proj1 Of))) in I as (A & B & C & D).
  apply (proj1 (table_pair_ranks _ _ _ _ _ _ HT' HC' H' Dt Df Sf (proj1 Ot))). auto.
Qed.

Lemma rename_forth : forall a b, In (RenameTable b a) (all_changes css') -> In (RenameTable a b) (all_changes css).
Proof.
  intros a b I.
  apply (proj1 (table_pair_ranks _ _ _ _ _ _ HT' HC' H' Dt Df Sf (proj1 Ot))) in I as (A & B & C & D).
  apply (proj1 (table_pair_ranks _ _ _ _ _ _ HT HC H Df Dt St (proj1 Of))). auto.
Qed.

(** a table that is gone in one direction is new in the other *)
Lemma dropped_created : forall t, In (DropTable t) (all_changes css) -> In (CreateTable t) (all_changes css').
Proof.
  intros t I. destruct (classification _ _ _ _ _ _ H HT HC) as ((G1 & G2) & _ & _ & Gd & _).
  destruct (classification _ _ _ _ _ _ H' HT' HC') as (_ & (news & P & _ & Nw) & _ & _ & _).
  pose proof (Gd t I) as It.
  assert (N : ~ In (t_name t) (map t_name (s_tables to))).
  { intros C. apply in_map_iff in C as (u & E & U). assert (X : In (t_name t) (flat_map gone (all_changes css))).
    { apply in_flat_map. exists (DropTable t). split; [exact I|now left]. }
    apply G2 in X as [_ X]. apply X. exists u. auto. }
  apply In_nth_error in It as [i Hi].
  assert (X : In t (flat_map appeared (all_changes css'))).
  { eapply Permutation_in; [symmetry; exact P|]. apply in_map_iff. exists (i, t). split; [reflexivity|]. apply Nw.
    split; [exact Hi|]. split; [|exact N]. apply Sf. eapply nth_error_In; exact Hi. }
  apply in_flat_map in X as (ch & C & A). destruct ch as [u| |old nw| | | | | | | | | | | |]; try contradiction; destruct A as [->|[]]; [exact C|].
  exfalso. apply rename_forth in C.
  assert (E : DropTable t = RenameTable t old); [|discriminate].
  apply (NoDup_flat_once gone (all_changes css) _ _ (t_name t) G1 I C); now left.
Qed.

Lemma created_dropped : forall t, In (CreateTable t) (all_changes css) -> In (DropTable t) (all_changes css').
Proof.
  intros t I. destruct (classification _ _ _ _ _ _ H HT HC) as (_ & (news & P & Dn & Nw) & _ & _ & _).
  destruct (classification _ _ _ _ _ _ H' HT' HC') as ((G1 & G2) & _ & _ & Gd & _).
  assert (X : In t (map snd news)).
  { eapply Permutation_in; [exact P|]. apply in_flat_map. exists (CreateTable t). split; [exact I|now left]. }
  apply in_map_iff in X as ([i u] & E & X). cbn [snd] in E. subst u. apply Nw in X as (Hi & _ & N). apply nth_error_In in Hi.
  assert (X : In (t_name t) (flat_map gone (all_changes css'))).
  { apply G2. split; [now apply in_map|]. intros (u & U & _ & E). apply N. rewrite <- E. now apply in_map. }
  apply in_flat_map in X as (ch & C & A).
  destruct ch as [|u|old nw| | | | | | | | | | | |]; try contradiction; destruct A as [A|[]].
  - rewrite <- (nodup_name_eq t_name (s_tables to) u t (proj1 Dt) (Gd u C) Hi A). exact C.
  - exfalso.
    assert (old = t).
    { apply (nodup_name_eq t_name (s_tables to) old t (proj1 Dt)); [|exact Hi|exact A].
      apply (proj1 (table_pair_ranks _ _ _ _ _ _ HT' HC' H' Dt Df Sf (proj1 Ot))) in C as (_ & C & _). now apply filter_In in C as [C _]. }
    subst old. apply rename_forth in C.
    (* created and the target of a rename: twice among the new tables *)
    assert (Dt' : NoDup (map snd news)).
    { clear - Dn Nw Dt. assert (Inj : forall x y, In x news -> In y news -> snd x = snd y -> x = y).
      { intros [i x] [j y] X Y E. cbn [snd] in E. subst y. f_equal. apply Nw in X as (X & _), Y as (Y & _).
        assert (L : i < length (map t_name (s_tables to))). { rewrite map_length. apply nth_error_Some. congruence. }
        apply (proj1 (NoDup_nth_error (map t_name (s_tables to))) (proj1 Dt) i j L).
        now rewrite (map_nth_error t_name i _ X), (map_nth_error t_name j _ Y). }
      clear Nw. apply NoDup_map_inv in Dn. induction Dn as [|x l N D IH]; cbn [map]; constructor.
      - intros C. apply in_map_iff in C as (y & E & Y). apply N. rewrite (Inj x y); auto; [now left|now right].
      - apply IH. intros x' y' X Y. apply Inj; now right. }
    assert (D : NoDup (flat_map appeared (all_changes css))) by (eapply Permutation_NoDup; [symmetry; exact P|exact Dt']).
    assert (E : CreateTable t = RenameTable nw t); [|discriminate].
    apply (NoDup_flat_once appeared (all_changes css) _ _ t D I C); now left.
Qed.

Lemma reversed : forall ch, In ch (all_changes css) -> (forall t k, ch <> DropColumn t k) ->
  exists ch', In ch' (all_changes css') /\ opposite ch ch'.
Proof.
  intros ch I ND. destruct (get_diff_shape _ _ _ _ _ _ H HT HC) as [l1 [drops [ren [created [E [F _]]]]]].
  assert (One : forall (b : bool) (x : change), In ch (if b then [x] else []) -> b = true /\ ch = x).
  { intros b x X. now apply in_opt in X. }
  pose proof I as I0. rewrite E, !in_app_iff in I. destruct I as [I|[I|[I|I]]].
  - apply in_concat in I as (l & L & I). destruct (Forall2_in_r _ _ _ _ F L) as [[[i t] old] [K [i0 [cs [i1 [Hd ->]]]]]].
    cbn [fst snd] in Hd. apply kept_in in K as (It & Ss & Io & En).
    assert (TC : forall ch', table_change (t_name old) ch' = true ->
      (ch' = SetTableComment old /\ do_comments o = true /\ t_desc old <> t_desc t) \/
      (ch' = UpdatePrimaryKey t old /\ ~ (forall k, pk_column old k <-> pk_column t k)) \/
      (ch' = DropUniqueConstraint (t_name old ++ do_suffix o)%string t /\
         ~ (forall k, uq_column old k <-> uq_column t k) /\ exists k, uq_column t k) \/
      (ch' = CreateUniqueConstraint (t_name old ++ do_suffix o)%string old /\
         ~ (forall k, uq_column old k <-> uq_column t k) /\ exists k, uq_column old k) -> In ch' (all_changes css')).
    { intros ch' T X.
      apply (proj2 (table_changes_exact _ _ _ _ _ _ old t H' HT' HC' Dt Df Io (Sf _ Io) It (eq_sym En))) in X. now apply filter_In in X as [X _]. }
    assert (TF : table_change (t_name t) ch = true ->
      (ch = SetTableComment t /\ do_comments o = true /\ t_desc t <> t_desc old) \/
      (ch = UpdatePrimaryKey old t /\ ~ (forall k, pk_column t k <-> pk_column old k)) \/
      (ch = DropUniqueConstraint (t_name t ++ do_suffix o)%string old /\
         ~ (forall k, uq_column t k <-> uq_column old k) /\ exists k, uq_column old k) \/
      (ch = CreateUniqueConstraint (t_name t ++ do_suffix o)%string t /\
         ~ (forall k, uq_column t k <-> uq_column old k) /\ exists k, uq_column t k)).
    { intros T. apply (proj2 (table_changes_exact _ _ _ _ _ _ t old H HT HC Df Dt It Ss Io En)). apply filter_In. auto. }
    assert (Done : table_change (t_name t) ch = true -> exists ch', In ch' (all_changes css') /\ opposite ch ch').
    { intros T. destruct (TF T) as [(-> & C & N)|[(-> & N)|[(-> & N & k & U)|(-> & N & k & U)]]].
      - exists (SetTableComment old). split; [|constructor; auto]. apply TC; [apply String.eqb_refl|]. left. auto.
      - exists (UpdatePrimaryKey t old). split; [|constructor]. apply TC; [cbn [table_change]; apply String.eqb_eq; auto|]. right. left.
        split; [reflexivity|]. intros Q. apply N. intros k. symmetry. apply Q.
      - exists (CreateUniqueConstraint (t_name t ++ do_suffix o)%string old). split; [|constructor]. rewrite <- En.
        apply TC; [apply String.eqb_refl|]. right. right. right. split; [reflexivity|]. split; [|eauto]. intros Q. apply N. intros x. symmetry. apply Q.
      - exists (DropUniqueConstraint (t_name t ++ do_suffix o)%string t). split; [|constructor]. rewrite <- En.
        apply TC; [cbn [table_change]; apply String.eqb_eq; auto|]. right. right. left. split; [reflexivity|]. split; [|eauto].
        intros Q. apply N. intros x. symmetry. apply Q. }
    destruct (diff_table_changes _ _ _ _ _ _ _ _ _ Hd (HC i)) as [rem [rn [Ec _]]]. pose proof I as I1. rewrite Ec in I. clear Ec.
    rewrite !in_app_iff in I.
    destruct I as [I|[I|[I|[I|[I|[I|I]]]]]];
      try (apply One in I as [_ ->]; apply Done; cbn [table_change]; (apply String.eqb_refl || (apply String.eqb_eq; exact En))).
    + apply in_flat_map in I as ([c p] & K & I).
      apply kept_cols_spec in K as [Kc Kp]; [|rewrite with_pos_snd; exact (proj2 Dt t It)]. rewrite with_pos_snd in Kc.
      apply column_name_map_some in Kp as [Kp Np].
      assert (AC : forall ch', attribute_change (t_name old) (c_name p) ch' = true ->
        (ch' = ChangeColumnType old c p /\ (c_type p <> c_type c \/ c_size p <> c_size c \/ c_scale p <> c_scale c)) \/
        (ch' = SetColumnComment old p /\ do_comments o = true /\ c_desc p <> c_desc c) \/
        (ch' = SetNotNullConstraint old p /\ c_notnull p <> c_notnull c) \/
        (ch' = SetAutoIncrement old p /\ c_autoinc p <> c_autoinc c) \/
        (ch' = SetDefaultValue old p /\ c_default p <> c_default c) -> In ch' (all_changes css')).
      { intros ch' T X.
        apply (proj2 (attribute_changes_exact _ _ _ _ _ _ old t p c H' HT' HC' Dt Df Io (Sf _ Io) It (eq_sym En) Kp Kc Np)) in X.
        now apply filter_In in X as [X _]. }
      assert (Self : String.eqb (t_name old) (t_name old) && String.eqb (c_name p) (c_name p) = true) by (now rewrite !String.eqb_refl).
      unfold column_changes in I. rewrite !in_app_iff in I.
      destruct I as [I|[I|[I|[I|[I|I]]]]]; apply One in I as [B ->].
      * rewrite Np, String.eqb_refl in B. discriminate.
      * exists (ChangeColumnType old c p). split; [|constructor; auto]. apply AC; [exact Self|]. left. split; [reflexivity|].
        rewrite !orb_true_iff, negb_eqb_str, !negb_eqb_N in B. intuition.
      * exists (SetColumnComment old p). rewrite andb_true_iff, negb_eqb_str in B.
        split; [|constructor; intuition]. apply AC; [exact Self|]. right. left. intuition.
      * exists (SetNotNullConstraint old p). rewrite negb_eqb_bool in B.
        split; [|constructor; auto; revert B; clear; destruct (c_notnull c), (c_notnull p); intros B; [now destruct B|reflexivity|reflexivity|now destruct B]]. apply AC; [exact Self|]. right. right. left. auto.
      * exists (SetAutoIncrement old p). rewrite negb_eqb_bool in B.
        split; [|constructor; auto; revert B; clear; destruct (c_autoinc c), (c_autoinc p); intros B; [now destruct B|reflexivity|reflexivity|now destruct B]]. apply AC; [exact Self|]. right. right. right. left. auto.
      * exists (SetDefaultValue old p). rewrite negb_eqb_str in B.
        split; [|constructor; auto]. apply AC; [exact Self|]. right. right. right. right. auto.
    + apply in_map_iff in I as (k & <- & _). now destruct (ND t k).
    + apply in_map_iff in I as ([j [c p]] & <- & _). cbn [fst snd] in *.
      apply (column_pair_ranks _ _ _ _ _ _ _ _ _ Hd (HC i) (proj2 Df old Io) (proj2 Dt t It) (proj2 Of old t Io It En)) in I1
        as (_ & A & B & C & R).
      destruct (table_included _ _ _ _ _ _ old t H' HT' HC' Dt Df Io (Sf _ Io) It (eq_sym En)) as (i' & id' & cs' & id'' & Hd' & Inc).
      exists (RenameColumn old c p). split; [|constructor; auto]. apply Inc; [reflexivity|].
      apply (column_pair_ranks _ _ _ _ _ _ _ _ _ Hd' (HC' i') (proj2 Dt t It) (proj2 Df old Io) (proj2 Ot t old It Io (eq_sym En))).
      split; [reflexivity|]. split; [exact B|]. split; [exact A|]. split; [|now symmetry].
      apply is_renamed_iff in C. apply is_renamed_iff. intuition.
  - apply in_map_iff in I as (t & <- & _). exists (CreateTable t). split; [now apply dropped_created|constructor].
  - apply in_flat_map in I as ([i [nw old]] & J & I).
    assert (R : In (RenameTable old nw) (all_changes css)).
    { rewrite E, !in_app_iff. right. right. left. apply in_flat_map. exists (i, (nw, old)). split; [exact J|].
      unfold rename_changes. rewrite !in_app_iff. right. left. now left. }
    apply rename_back in R.
    pose proof (proj2 (table_pair_ranks _ _ _ _ _ _ HT' HC' H' Dt Df Sf (proj1 Ot))) as Inc.
    unfold rename_changes in I. cbn [fst snd] in I. rewrite !in_app_iff in I. destruct I as [I|[[I|[]]|I]].
    + apply One in I as [B ->]. exists (CreateUniqueConstraint (t_name old ++ do_suffix o)%string old). split; [|constructor].
      apply (Inc _ _ _ R). unfold rename_changes. cbn [fst snd]. rewrite !in_app_iff. right. right. rewrite B. now left.
    + subst ch. exists (RenameTable nw old). split; [exact R|constructor].
    + apply One in I as [B ->]. exists (DropUniqueConstraint (t_name nw ++ do_suffix o)%string nw). split; [|constructor].
      apply (Inc _ _ _ R). unfold rename_changes. cbn [fst snd]. rewrite !in_app_iff. left. rewrite B. now left.
  - apply in_map_iff in I as (t & <- & _). exists (DropTable t). split; [now apply created_dropped|constructor].
Qed.
End Reverse.
