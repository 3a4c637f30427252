(** Values of columns through migrations (C118): whole schemas *)
From Coq Require Import String List NArith Bool Lia Sorting.Permutation.
From Verif.Model Require Import GoString Util Octopus DiffCore Diff Liquibase.
From Verif.Spec Require Import DiffSpec LiquibaseSpec Database TraceSpec.
From Verif.Proofs Require Import StringLemmas ListLemmas OctopusProofs DiffCoreProofs DiffProofs DiffFacts LiquibaseProofs
  LiquibaseFacts DatabaseProofs MigrationProofs SchemaMigration Trace.
From Verif.Proofs Require Agree.
Import ListNotations.
Local Open Scope string_scope.

Definition tab_new (r : nat * (table * table)) : string := t_name (fst (snd r)).
Definition tab_old (r : nat * (table * table)) : string := t_name (snd (snd r)).

Section Schema.
Variables (comments : bool) (fs sel : list table) (drops g : list string) (R : list (nat * (table * table))) (created : list table).
Hypothesis Df : all_distinct fs.
Hypothesis Ds : all_distinct sel.
Hypothesis Ng : NoDup g.
Hypothesis Pg : Permutation g (map tab_old R ++ drops).
Hypothesis Hg : forall n, In n g <-> In n (map t_name fs) /\ ~ In n (map t_name sel).
Hypothesis Pc : Permutation (filter (fun t => negb (str_in (t_name t) (map t_name fs))) sel) (map (fun r => fst (snd r)) R ++ created).
Hypothesis Hr : forall i nw old, In (i, (nw, old)) R ->
  In nw sel /\ ~ In (t_name nw) (map t_name fs) /\ In old fs /\ t_cols nw = t_cols old.
Hypothesis Hm : forall t old, In t created -> In old fs -> In (t_name old) drops -> t_cols t <> t_cols old.

Lemma sc_old : forall r, In r R -> In (tab_old r) (map t_name fs) /\ ~ In (tab_old r) (map t_name sel).
Proof.
  intros r H. apply Hg. apply (Permutation_in _ (Permutation_sym Pg)). apply in_or_app. left. now apply in_map.
Qed.
Lemma sc_news : NoDup (map tab_new R).
Proof.
  assert (N : NoDup (map t_name (filter (fun t => negb (str_in (t_name t) (map t_name fs))) sel))).
  { destruct Ds as [D _]. clear - D. induction sel as [|t l IH]; simpl; [constructor|]. simpl in D. inversion D as [|? ? A B]; subst.
    destruct (negb (str_in (t_name t) (map t_name fs))); simpl; auto. constructor; auto. intros C. apply A.
    apply in_map_iff in C. destruct C as [x [E C]]. apply filter_In in C. rewrite <- E. now apply in_map. }
  apply (Permutation_NoDup (Permutation_map t_name Pc)) in N. rewrite map_app, map_map in N. now apply NoDup_app_l in N.
Qed.
Lemma sc_olds : NoDup (map tab_old R).
Proof. pose proof (Permutation_NoDup Pg Ng) as N. now apply NoDup_app_l in N. Qed.
Lemma sc_apart : forall x y, In x R -> In y R -> tab_new x <> tab_old y.
Proof.
  intros x y Hx Hy E. apply sc_old in Hy. destruct x as [i [nw old]]. apply Hr in Hx. unfold tab_new in E. cbn [fst snd] in E.
  rewrite <- E in Hy. tauto.
Qed.
Lemma sc_new_inj : forall x y, In x R -> In y R -> tab_new x = tab_new y -> x = y.
Proof.
  intros x y Hx Hy E. exact (nodup_name_eq tab_new R x y sc_news Hx Hy E).
Qed.

(** the order of things: tables of the same name, dropped tables, renamed tables *)
Lemma sc_rest : forall n (k : string) (q := if str_in n drops then None else Some (fold_left (rename_one tab_new tab_old) R n, k)),
  In n (map t_name fs) ->
  (In n (map t_name sel) -> q = Some (n, k)) /\
  (~ In n (map t_name sel) -> q = None \/ exists r, In r R /\ n = tab_old r /\ q = Some (tab_new r, k)).
Proof.
  intros n k q Hn. subst q. split; intros Hs.
  - destruct (str_in n drops) eqn:C.
    + apply str_in_iff in C. assert (G : In n g) by (apply (Permutation_in _ (Permutation_sym Pg)); apply in_or_app; now right).
      apply Hg in G. tauto.
    + rewrite renames_other; auto. intros C'. apply in_map_iff in C'. destruct C' as [r [E C']]. apply sc_old in C'.
      rewrite E in C'. tauto.
  - assert (G : In n g) by (apply Hg; auto). apply (Permutation_in _ Pg) in G. apply in_app_iff in G. destruct G as [G|G].
    + right. apply in_map_iff in G. destruct G as [r [<- G]]. exists r. split; auto. split; auto.
      destruct (str_in (tab_old r) drops) eqn:C.
      * exfalso. apply str_in_iff in C. pose proof (Permutation_NoDup Pg Ng) as N.
        apply (NoDup_app_disj _ _ (tab_old r) N); auto. now apply in_map.
      * rewrite renames_hit; auto; [apply sc_olds|apply sc_apart].
    + left. apply str_in_iff in G. now rewrite G.
Qed.

Variable tr : place -> option place.
Hypothesis HK : forall old t, In old fs -> In t sel -> t_name old = t_name t -> table_ok comments old t (fun k => tr (t_name t, k)).
Hypothesis HT : forall n k, In n (map t_name fs) -> ~ In n (map t_name sel) ->
  tr (n, k) = if str_in n drops then None else Some (fold_left (rename_one tab_new tab_old) R n, k).

Lemma same_table : forall ts a b, NoDup (map t_name ts) -> In a ts -> In b ts -> t_name a = t_name b -> a = b.
Proof. intros ts a b N Ha Hb E. eapply (nodup_name_eq t_name); eauto. Qed.

(** what becomes of a place *)
Lemma sc_cases : forall old o, In old fs -> In o (t_cols old) ->
  (exists t, In t sel /\ t_name old = t_name t /\ table_ok comments old t (fun k => tr (t_name t, k))) \/
  ~ In (t_name old) (map t_name sel) /\ (tr (t_name old, c_name o) = None \/
    exists i nw, In (i, (nw, old)) R /\ tr (t_name old, c_name o) = Some (t_name nw, c_name o)).
Proof.
  intros old o Ho _. destruct (in_dec string_dec (t_name old) (map t_name sel)) as [Y|N].
  - left. apply in_map_iff in Y. destruct Y as [t [E Ht]]. exists t. split; auto.
  - right. split; auto. assert (Hn : In (t_name old) (map t_name fs)) by (now apply in_map).
    rewrite (HT _ _ Hn N). destruct (sc_rest (t_name old) (c_name o) Hn) as [_ X]. destruct (X N) as [X1|[[i [nw old']] [X1 [X2 X3]]]].
    + now left.
    + right. exists i, nw. unfold tab_old in X2. cbn [fst snd] in X2.
      assert (old = old').
      { apply (same_table fs); auto; [apply Df|]. apply Hr in X1. tauto. }
      subst old'. split; auto.
Qed.

Lemma sc_brings : brings comments fs sel tr.
Proof.
  assert (NF := proj1 Df). assert (NS := proj1 Ds).
  assert (HE : forall p q, has fs p -> tr p = Some q -> q <> p -> may_move comments fs sel p q).
  { intros p q [old [o [H1 [H2 ->]]]] Q Nq. destruct (sc_cases old o H1 H2) as [[t [T1 [T2 T3]]]|[N [C|[i [nw [C1 C2]]]]]].
    - rewrite T2 in *. destruct (tb_goes _ _ _ _ T3 (c_name o) q (in_map _ _ _ H2) Q) as [[-> _]|[o' [c [A1 [A2 [A3 [-> [A4 [A5 A6]]]]]]]]].
      + now exfalso.
      + rewrite A3. apply (move_column comments fs sel old t o' c); auto.
    - congruence.
    - rewrite C2 in Q. injection Q as <-. destruct (Hr _ _ _ C1) as [R1 [R2 [R3 R4]]].
      apply (move_table comments fs sel old nw o); auto. now rewrite R4. }
  constructor.
  - intros p [old [o [H1 [H2 ->]]]] [t [c [H3 [H4 E]]]]. injection E as E1 E2.
    rewrite E1. apply (tb_stays _ _ _ _ (HK old t H1 H3 E1)); [now apply in_map|]. rewrite E2. now apply in_map.
  - exact HE.
  - intros p p' q [old [o [H1 [H2 ->]]]] [old' [o' [H1' [H2' ->]]]] Q Q'.
    assert (FR : forall i nw x, In (i, (nw, x)) R -> forall u, In u fs -> t_name nw <> t_name u).
    { intros i nw x Hx u Hu E. apply Hr in Hx. destruct Hx as [_ [X _]]. apply X. rewrite E. now apply in_map. }
    assert (TQ : forall old o t q, In old fs -> In o (t_cols old) -> table_ok comments old t (fun k => tr (t_name t, k)) -> tr (t_name t, c_name o) = Some q -> fst q = t_name t).
    { intros old0 o0 t0 q0 _ Y2 Y3 Y4. destruct (tb_goes _ _ _ _ Y3 _ _ (in_map _ _ _ Y2) Y4) as [[-> _]|[? [? [_ [_ [_ [-> _]]]]]]]; reflexivity. }
    destruct (sc_cases old o H1 H2) as [[t [T1 [T2 T3]]]|[N [C|[i [nw [C1 C2]]]]]];
    destruct (sc_cases old' o' H1' H2') as [[t' [T1' [T2' T3']]]|[N' [C'|[i' [nw' [C1' C2']]]]]]; try congruence.
    + rewrite T2 in Q. rewrite T2' in Q'.
      pose proof (TQ old o t q H1 H2 T3 Q) as F1. pose proof (TQ old' o' t' q H1' H2' T3' Q') as F2.
      assert (t = t') by (apply (same_table sel); auto; congruence). subst t'.
      assert (old = old') by (apply (same_table fs); auto; congruence). subst old'. rewrite T2. f_equal.
      apply (tb_apart _ _ _ _ T3 _ _ q); auto; now apply in_map.
    + rewrite T2 in Q. pose proof (TQ old o t q H1 H2 T3 Q) as F1. rewrite C2' in Q'. injection Q' as <-. cbn [fst] in F1.
      exfalso. apply (FR _ _ _ C1' old H1). congruence.
    + rewrite T2' in Q'. pose proof (TQ old' o' t' q H1' H2' T3' Q') as F1. rewrite C2 in Q. injection Q as <-. cbn [fst] in F1.
      exfalso. apply (FR _ _ _ C1 old' H1'). congruence.
    + assert (Z : (i, (nw, old)) = (i', (nw', old'))).
      { apply sc_new_inj; auto. unfold tab_new. cbn [fst snd]. congruence. }
      injection Z as <- <- <-. congruence.
  - intros p q Hp Q. destruct (string_dec (fst q) (fst p)) as [E1|E1]; [destruct (string_dec (snd q) (snd p)) as [E2|E2]|].
    + assert (q = p) by (destruct p, q; simpl in *; congruence). subst q.
      destruct Hp as [old [o [H1 [H2 ->]]]]. destruct (sc_cases old o H1 H2) as [[t [T1 [T2 T3]]]|[N [C|[i [nw [C1 C2]]]]]].
      * rewrite T2 in *. destruct (tb_goes _ _ _ _ T3 (c_name o) _ (in_map _ _ _ H2) Q) as [[_ X]|[o' [c [A1 [A2 [A3 [A4 _]]]]]]].
        -- apply in_map_iff in X. destruct X as [c [X1 X2]]. exists t, c. rewrite X1. auto.
        -- exists t, c. auto.
      * congruence.
      * exfalso. rewrite C2 in Q. injection Q as Q. apply Hr in C1. destruct C1 as [_ [X _]]. apply X. rewrite Q. now apply in_map.
    + assert (M : may_move comments fs sel p q) by (apply HE; auto; congruence). destruct M; [exists t, c|exists t, c]; auto.
    + assert (M : may_move comments fs sel p q) by (apply HE; auto; congruence). destruct M; [exists t, c|exists t, c]; auto.
  - intros p q Hp Q M. destruct M as [old t o c M1 M2 M3 M4 M5 M6 M7 M8|old t c M1 M2 M3 M4 M5 M6].
    + destruct (tb_lost _ _ _ _ (HK old t M1 M2 M3) o c M4 M5 M6 M7 M8 Q) as [k' [K1 K2]].
      apply in_map_iff in K1. destruct K1 as [o' [<- K1]]. exists (t_name t, c_name o'). split; [|exact K2].
      exists old, o'. rewrite M3. auto.
    + assert (Ct : In t (map (fun r => fst (snd r)) R ++ created)).
      { apply (Permutation_in _ Pc). apply filter_In. split; auto. apply negb_true_iff. now apply str_in_false. }
      apply in_app_iff in Ct. destruct Ct as [Ct|Ct].
      * apply in_map_iff in Ct. destruct Ct as [[i [nw old']] [Et Ct]]. cbn [fst snd] in Et. subst nw.
        destruct (Hr _ _ _ Ct) as [R1 [R2 [R3 R4]]]. exists (t_name old', c_name c).
        assert (Hc : In c (t_cols old')) by (now rewrite <- R4). split; [exists old', c; auto|].
        assert (On := sc_old _ Ct). unfold tab_old in On. cbn [fst snd] in On. destruct On as [O1 O2].
        rewrite (HT _ _ O1 O2). destruct (str_in (t_name old') drops) eqn:C.
        -- exfalso. apply str_in_iff in C. pose proof (Permutation_NoDup Pg Ng) as N.
           apply (NoDup_app_disj _ _ (t_name old') N); auto. exact (in_map tab_old _ _ Ct).
        -- f_equal. f_equal. exact (renames_hit tab_new tab_old R (i, (t, old')) sc_olds sc_apart Ct).
      * exfalso. apply (Hm t old Ct M1); auto. rewrite (HT _ _ (in_map t_name _ _ M1) M5) in Q.
        destruct (str_in (t_name old) drops) eqn:C; [|discriminate]. now apply str_in_iff.
Qed.
End Schema.
