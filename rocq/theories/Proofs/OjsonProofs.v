(** Import of octopus v1 schemas *)
From Coq Require Import String Ascii List NArith Bool Arith Lia Sorting.Permutation Sorting.Sorted.
From Verif.Model Require Import GoString Util Octopus Common Ojson.
From Verif.Spec Require Import Text Order OctopusSpec OjsonSpec.
From Verif.Proofs Require Import StringLemmas ListLemmas TypeProofs OctopusProofs.
Import ListNotations.
Local Open Scope string_scope.

Lemma res_map_ok : forall {A B} (f : A -> res B) l,
  (forall x, In x l -> exists y, f x = Ok y) -> exists l', res_map f l = Ok l' /\ Forall2 (fun x y => f x = Ok y) l l'.
Proof.
  induction l as [|x l IH]; intros H.
  - exists []. split; [reflexivity|constructor].
  - destruct (H x (or_introl eq_refl)) as [y E]. destruct IH as [l' [E' F]]; [intros; apply H; now right|].
    exists (y :: l'). cbn [res_map]. rewrite E, E'. split; [reflexivity|]. now constructor.
Qed.
Lemma res_map_panic : forall {A B} (f : A -> res B) l x, In x l -> f x = Panic -> res_map f l = Panic.
Proof.
  induction l as [|y l IH]; intros x H E; [destruct H|]. cbn [res_map]. destruct H as [->|H].
  - now rewrite E.
  - destruct (f y); auto. now rewrite (IH x H E).
Qed.

(** ** Types *)

Lemma v1_type_named : forall t t', v1_normalize_type t = (t', true) <-> v1_named t t'.
Proof.
  intros t t'. unfold v1_named. remember (to_lower t) as l eqn:E. unfold v1_normalize_type. rewrite <- E. clear t E.
  assert (G : forall b x, In (b, x) (map (fun n => (fst n, snd n)) v1_names) -> In (b, x) v1_names).
  { intros b x H. apply in_map_iff in H as [[u v] [H I]]. cbn in H. now inversion H; subst. }
  split.
  - intros H.
    repeat match type of H with
    | (if str_in l ?ns then _ else _) = _ =>
        let D := fresh "D" in destruct (str_in l ns) eqn:D;
        [apply str_in_iff in D; injection H as <-; eexists; split;
         [vm_compute; first [left; reflexivity|right; left; reflexivity|do 2 right; left; reflexivity|do 3 right; left; reflexivity|do 4 right; left; reflexivity]|cbn in *; tauto]|]
    | (if String.eqb l ?n then _ else _) = _ =>
        destruct (String.eqb_spec l n) as [->|?];
        [injection H as <-; eexists; split; [vm_compute; intuition (eauto; fail)|left; reflexivity]|]
    end.
    all: try discriminate.
  - intros [names [I J]]. vm_compute in I.
    repeat (destruct I as [I|I]; [injection I as <- <-; cbn in J; repeat (destruct J as [<-|J]; [reflexivity|]); destruct J|]).
    destruct I.
Qed.

Lemma v1_type_unknown : forall t, snd (v1_normalize_type t) = false <-> ~ v1_known t.
Proof.
  intros t. split.
  - intros H [t' K]. apply v1_type_named in K. rewrite K in H. discriminate.
  - intros H. destruct (v1_normalize_type t) as [t' []] eqn:E; [|reflexivity].
    exfalso. apply H. exists t'. now apply v1_type_named.
Qed.

(** ** Columns *)

Lemma v1_col_ok : forall c c1, v1_normalize_col c = Ok c1 ->
  same_column c (from_v1_column c1) /\ same_type c (from_v1_column c1).
Proof.
  intros c c1. unfold v1_normalize_col. destruct (v1_normalize_type (o_type c)) as [t known] eqn:E.
  destruct known.
  - unfold v1_validate. destruct (String.eqb_spec (o_name c) "") as [|N]; [discriminate|].
    intros H. injection H as <-. split.
    + unfold same_column. cbn. destruct (o_ref c); cbn; repeat split; reflexivity.
    + split.
      * intros t' K. apply v1_type_named in K. rewrite K in E. injection E as <-. cbn. split; [reflexivity|].
        rewrite andb_true_iff, orb_true_iff, !String.eqb_eq. reflexivity.
      * intros K. apply v1_type_unknown in K. rewrite E in K. discriminate.
  - intros H. injection H as <-. split.
    + unfold same_column. cbn. destruct (o_ref c); cbn; repeat split; reflexivity.
    + split.
      * intros t' K. apply v1_type_named in K. rewrite K in E. discriminate.
      * intros _. split; reflexivity.
Qed.

Lemma v1_col_total : forall c, (v1_known (o_type c) -> o_name c <> "") -> exists c1, v1_normalize_col c = Ok c1.
Proof.
  intros c H. unfold v1_normalize_col. destruct (v1_normalize_type (o_type c)) as [t known] eqn:E.
  destruct known; [|now eexists]. unfold v1_validate.
  destruct (String.eqb_spec (o_name c) "") as [Q|N]; [|now eexists].
  exfalso. apply H; [|exact Q]. exists t. now apply v1_type_named.
Qed.
Lemma v1_col_panic : forall c, v1_known (o_type c) -> o_name c = "" -> v1_normalize_col c = Panic.
Proof.
  intros c [t K] N. unfold v1_normalize_col. apply v1_type_named in K. rewrite K.
  unfold v1_validate. now rewrite N.
Qed.

Lemma v1_col_default : forall c c1, v1_normalize_col c = Ok c1 -> c_default (from_v1_column c1) = o_desc c.
Proof.
  intros c c1. unfold v1_normalize_col. destruct (v1_normalize_type (o_type c)) as [t known].
  destruct known.
  - unfold v1_validate. destruct (String.eqb (o_name c) ""); [discriminate|].
    intros H. now injection H as <-.
  - intros H. now injection H as <-.
Qed.

(** ** Schemas *)

Definition normalize_one (t : v1_table) : res v1_table :=
  match res_map v1_normalize_col (o_cols t) with
  | Panic => Panic
  | Ok cs => Ok (v1_with_cols t cs)
  end.

Lemma import_v1_eq : forall sortf s, import_v1 sortf s =
  match res_map normalize_one (sortf (o_tables s)) with
  | Panic => Panic
  | Ok ts => Ok (mkSchema (o_author s) (o_sname s) (o_version s) (map from_v1_table ts))
  end.
Proof. reflexivity. Qed.

Lemma res_map_forall2 : forall {A B} (f : A -> res B) l l', res_map f l = Ok l' ->
  Forall2 (fun x y => f x = Ok y) l l'.
Proof.
  induction l as [|x l IH]; intros l' H; cbn [res_map] in H.
  - injection H as <-. constructor.
  - destruct (f x) as [y|] eqn:E; [|discriminate]. destruct (res_map f l) as [ys|]; [|discriminate].
    injection H as <-. constructor; auto.
Qed.

Lemma forall2_map_r : forall {A B C} (R : A -> C -> Prop) (g : B -> C) l l',
  Forall2 (fun x y => R x (g y)) l l' -> Forall2 R l (map g l').
Proof. induction 1; cbn; constructor; auto. Qed.
Lemma forall2_impl_in : forall {A B} (P Q : A -> B -> Prop) l l',
  (forall x y, P x y -> Q x y) -> Forall2 P l l' -> Forall2 Q l l'.
Proof. induction 2; constructor; auto. Qed.

Lemma import_v1_keeps : forall sortf s s', sorts_v1 sortf -> import_v1 sortf s = Ok s' ->
  s_author s' = o_author s /\ s_name s' = o_sname s /\ s_version s' = o_version s /\
  exists ts, Permutation ts (o_tables s) /\ Forall2 same_table ts (s_tables s').
Proof.
  intros sortf s s' HS. rewrite import_v1_eq.
  destruct (res_map normalize_one (sortf (o_tables s))) as [ts|] eqn:E; [|discriminate].
  intros H. injection H as <-. split; [reflexivity|]. split; [reflexivity|]. split; [reflexivity|].
  exists (sortf (o_tables s)). split; [apply HS|].
  apply res_map_forall2 in E. cbn [s_tables]. apply forall2_map_r. revert E. apply forall2_impl_in.
  intros t t1. unfold normalize_one.
  destruct (res_map v1_normalize_col (o_cols t)) as [cs|] eqn:C; [|discriminate].
  intros H. injection H as <-. apply res_map_forall2 in C.
  split; [reflexivity|]. split; [reflexivity|]. split; [reflexivity|]. cbn.
  apply forall2_map_r. revert C. apply forall2_impl_in. apply v1_col_ok.
Qed.

Lemma import_v1_panics : forall sortf s, sorts_v1 sortf ->
  (import_v1 sortf s = Panic <-> exists c, In c (v1_columns s) /\ v1_known (o_type c) /\ o_name c = "").
Proof.
  intros sortf s HS. rewrite import_v1_eq. destruct (HS (o_tables s)) as [P _]. split.
  - intros H. destruct (Exists_dec (fun c => v1_normalize_col c = Panic) (v1_columns s)) as [D|D].
    { intros c. destruct (v1_normalize_col c); [right; discriminate|now left]. }
    + apply Exists_exists in D as [c [I E]]. exists c. split; [exact I|].
      unfold v1_normalize_col in E. destruct (v1_normalize_type (o_type c)) as [t known] eqn:K.
      destruct known; [|discriminate]. unfold v1_validate in E.
      destruct (String.eqb_spec (o_name c) "") as [Q|N]; [|discriminate].
      split; [|exact Q]. exists t. now apply v1_type_named.
    + destruct (@res_map_ok _ _ normalize_one (sortf (o_tables s))) as [l' [E _]].
      * intros t I. unfold normalize_one.
        destruct (@res_map_ok _ _ v1_normalize_col (o_cols t)) as [cs [E _]].
        { intros c J. destruct (v1_normalize_col c) as [c1|] eqn:F; [now exists c1|].
          exfalso. apply D. apply Exists_exists. exists c. split; [|exact F].
          apply in_flat_map. exists t. split; [|exact J]. now apply (Permutation_in _ P). }
        rewrite E. now eexists.
      * rewrite E in H. discriminate.
  - intros [c [I [K N]]]. apply in_flat_map in I as [t [I J]].
    rewrite (res_map_panic normalize_one _ t); [reflexivity| |].
    + apply (Permutation_in _ (Permutation_sym P)), I.
    + unfold normalize_one. rewrite (res_map_panic v1_normalize_col _ c J); [reflexivity|].
      now apply v1_col_panic.
Qed.

Lemma in_import : forall sortf s s' t', import_v1 sortf s = Ok s' -> In t' (s_tables s') ->
  t_class t' = "" /\ t_indices t' = [] /\
  forall c', In c' (t_cols t') -> c_default c' = c_desc c' /\ c_onupdate c' = "" /\ c_values c' = [] /\
    forall r, c_ref c' = Some r -> ref_rel r = "".
Proof.
  intros sortf s s' t'. rewrite import_v1_eq.
  destruct (res_map normalize_one (sortf (o_tables s))) as [ts|]; [|discriminate].
  intros H. injection H as <-. cbn [s_tables]. intros I. apply in_map_iff in I as [t [<- I]].
  split; [reflexivity|]. split; [reflexivity|]. intros c' J. cbn in J. apply in_map_iff in J as [c [<- J]].
  split; [reflexivity|]. split; [reflexivity|]. split; [reflexivity|]. cbn [from_v1_column c_ref].
  destruct (o_ref c) as [r0|]; [|discriminate]. intros r E. injection E as <-. reflexivity.
Qed.

(** ** Then writing it as a v2 file *)

Lemma v1_named_canonical : forall t t', v1_named t t' -> exists t2, canonical t' t2 /\ In t2 octopus_types /\
  t2 <> "enum" /\ t2 <> "set" /\ (In t2 integer_types <-> t' = "int" \/ t' = "long").
Proof.
  intros t t' [names [I _]]. vm_compute in I.
  repeat (destruct I as [I|I]; [injection I as <- _; eexists; split;
    [first [left; vm_compute; intuition (reflexivity)|
            right; split; [vm_compute; intuition discriminate|reflexivity]]|];
    split; [vm_compute; intuition (reflexivity)|];
    split; [vm_compute; discriminate|]; split; [vm_compute; discriminate|];
    vm_compute; intuition discriminate|]).
  destruct I.
Qed.

Lemma import_v1_valid : forall sortf sortf2 s s', sorts_v1 sortf -> sorts_tables sortf2 ->
  import_v1 sortf s = Ok s' ->
  (forall c, In c (v1_columns s) -> v1_known (o_type c)) ->
  exists s2, normalize sortf2 s' = (s2, None) /\ valid_schema s2.
Proof.
  intros sortf sortf2 s s' HS HS2 H K.
  destruct (import_v1_keeps sortf s s' HS H) as [_ [_ [_ [ts [P F]]]]].
  assert (NP : forall c, In c (v1_columns s) -> o_name c <> "").
  { intros c I Q. assert (import_v1 sortf s = Panic) as E; [|rewrite H in E; discriminate].
    apply import_v1_panics; [exact HS|]. exists c. auto. }
  destruct (normalize sortf2 s') as [s2 e] eqn:E.
  assert (R : forall c', In c' (columns_of s') -> repairable c').
  { intros c' I. apply in_flat_map in I as [t' [I J]].
    destruct (Forall2_in_r _ _ _ _ F I) as [t [It [_ [_ [_ FC]]]]].
    destruct (Forall2_in_r _ _ _ _ FC J) as [c [Ic [[N [_ [_ [_ [_ [_ [_ _]]]]]]] [T _]]]].
    assert (Icol : In c (v1_columns s)).
    { apply in_flat_map. exists t. split; [|exact Ic]. now apply (Permutation_in _ P). }
    destruct (K c Icol) as [t1 K1]. destruct (T t1 K1) as [ET EA].
    destruct (v1_named_canonical _ _ K1) as [t2 [C2 [O2 [NE [NS I2]]]]].
    exists (mkCol (c_name c') t2 (c_desc c') (c_size c') (c_scale c') (c_notnull c') (c_pk c') (c_uq c')
                  (c_autoinc c') (c_default c') (c_onupdate c') (c_values c') (c_ref c')).
    split.
    - split; [cbn; rewrite ET; exact C2|]. cbn. split; [|repeat split; reflexivity].
      rewrite EA, I2. tauto.
    - split; [cbn; rewrite N; now apply NP|]. cbn. split; [exact O2|]. split; [|split; intros Q; contradiction].
      rewrite I2, EA. tauto. }
  destruct e as [e|].
  - exfalso. pose proof (proj2 (normalize_error sortf2 s' HS2) R) as NE. rewrite E in NE. discriminate.
  - exists s2. split; [reflexivity|]. now apply (normalize_ok sortf2 s' s2 HS2 E).
Qed.

(** ** The example sort *)

Definition shape (t : v1_table) : table := mkTable (o_tname t) [] "" (o_group t) "" [].
Lemma v1_less_shape : forall a b, v1_table_less a b = table_less (shape a) (shape b).
Proof. reflexivity. Qed.
Lemma insert_v1_perm : forall t l, Permutation (insert_v1 t l) (t :: l).
Proof.
  induction l as [|y l IH]; cbn; [apply Permutation_refl|]. destruct (v1_table_less y t); [|apply Permutation_refl].
  rewrite IH. apply perm_swap.
Qed.
Lemma insert_v1_hd : forall a t l, v1_table_less t a = false ->
  HdRel (fun a b => v1_table_less b a = false) a l -> HdRel (fun a b => v1_table_less b a = false) a (insert_v1 t l).
Proof.
  intros a t l H1 H2. destruct l as [|y l]; cbn; [constructor; exact H1|].
  inversion H2; subst. destruct (v1_table_less y t); constructor; auto.
Qed.
Lemma insert_v1_sorted : forall t l, Sorted (fun a b => v1_table_less b a = false) l ->
  Sorted (fun a b => v1_table_less b a = false) (insert_v1 t l).
Proof.
  induction l as [|y l IH]; intros H; cbn; [repeat constructor|].
  inversion H; subst. destruct (v1_table_less y t) eqn:E.
  - constructor; [auto|]. apply insert_v1_hd; [|assumption].
    rewrite v1_less_shape in *. now apply table_less_asym.
  - constructor; [assumption|]. constructor. exact E.
Qed.
Lemma isort_v1_sorts : sorts_v1 isort_v1.
Proof.
  intros l. split.
  - induction l as [|t l IH]; cbn; [constructor|]. rewrite insert_v1_perm. now constructor.
  - induction l as [|t l IH]; cbn; [constructor|]. now apply insert_v1_sorted.
Qed.

(** ** Witnesses *)

Definition v1_user : v1_schema :=
  mkV1Schema "me" "db" "1"
    [mkV1Table "user" [mkV1Col "id" "Long" "row id" 0 0 true true false true "" None;
                       mkV1Col "name" "varchar" "login name" 40 0 true false true true "anonymous" None;
                       mkV1Col "group_id" "bigint" "" 0 0 false false false false ""
                         (Some (mkV1Ref "group" "id"))] "all users" "common" "Person"].
Definition v1_unnamed : v1_schema :=
  mkV1Schema "" "" "" [mkV1Table "t" [mkV1Col "" "int" "" 0 0 false false false false "" None] "" "" ""].

Lemma v1_default_witness : exists sortf s s' t t' c c', sorts_v1 sortf /\ import_v1 sortf s = Ok s' /\
  o_tables s = [t] /\ s_tables s' = [t'] /\ In c (o_cols t) /\ In c' (t_cols t') /\ c_name c' = o_name c /\
  NoDup (map o_name (o_cols t)) /\ c_default c' <> o_default c /\ t_class t' <> o_class t.
Proof.
  exists isort_v1, v1_user.
  let r := eval vm_compute in (import_v1 isort_v1 v1_user) in
  match r with Ok ?x => exists x end.
  do 2 eexists.
  exists (mkV1Col "name" "varchar" "login name" 40 0 true false true true "anonymous" None).
  exists (mkCol "name" "string" "login name" 40 0 true false true false "login name" "" [] None).
  split; [exact isort_v1_sorts|]. split; [vm_compute; reflexivity|]. split; [reflexivity|]. split; [reflexivity|].
  split; [cbn; tauto|]. split; [cbn; tauto|]. split; [reflexivity|].
  split; [repeat (apply NoDup_cons; [cbn; intuition discriminate|]); apply NoDup_nil|].
  split; cbn; discriminate.
Qed.
