(** General facts about the string functions of Model/GoString.v *)
From Coq Require Import String Ascii List NArith Bool Lia Sorting.Permutation Sorting.Sorted Arith.
From Coq Require Import Decimal DecimalString DecimalN DecimalFacts.
From Verif.Model Require Import GoString.
From Verif.Spec Require Import Order Text.
Import ListNotations.
Local Open Scope string_scope.

Lemma app_assoc_s : forall a b c : string, ((a ++ b) ++ c) = (a ++ (b ++ c)).
Proof. induction a; simpl; intros; [reflexivity|now rewrite IHa]. Qed.

Lemma app_nil_r_s : forall a, a ++ "" = a.
Proof. induction a; simpl; [reflexivity|now rewrite IHa]. Qed.

Lemma app_inj_l_s : forall a b c, a ++ b = a ++ c -> b = c.
Proof. induction a; simpl; intros; [assumption|]. inversion H. eauto. Qed.

Lemma length_app_s : forall a b, String.length (a ++ b) = String.length a + String.length b.
Proof. induction a; simpl; intros; [reflexivity|now rewrite IHa]. Qed.

Lemma app_inj_r_s : forall a b c, a ++ c = b ++ c -> a = b.
Proof.
  intros a b c H.
  assert (L : String.length a = String.length b).
  { apply (f_equal String.length) in H. rewrite !length_app_s in H. lia. }
  revert b L H. induction a; destruct b; simpl; intros; try discriminate; auto.
  inversion H; subst. f_equal. apply IHa; auto.
Qed.

(** ** str_in *)
Lemma str_in_iff : forall x l, str_in x l = true <-> In x l.
Proof.
  intros. unfold str_in. rewrite existsb_exists. split.
  - intros [y [H1 H2]]. apply String.eqb_eq in H2. now subst.
  - intros. exists x. split; auto. apply String.eqb_refl.
Qed.

Lemma str_in_false : forall x l, str_in x l = false <-> ~ In x l.
Proof.
  intros. rewrite <- str_in_iff. destruct (str_in x l); split; intros; try discriminate; auto.
  exfalso; auto.
Qed.

(** ** Order *)
Lemma str_leb_lt : forall a b, str_leb a b = true <-> (a = b \/ bytes_lt a b).
Proof.
  induction a as [|x a IH]; destruct b as [|y b]; simpl; split; intros H; auto.
  - right. constructor.
  - discriminate.
  - destruct H as [H|H]; [discriminate|inversion H].
  - destruct (nat_of_ascii x <? nat_of_ascii y)%nat eqn:E1.
    + right. constructor. now apply Nat.ltb_lt.
    + destruct (nat_of_ascii x =? nat_of_ascii y)%nat eqn:E2; [|discriminate].
      apply Nat.eqb_eq in E2.
      assert (x = y) by (rewrite <- (ascii_nat_embedding x), <- (ascii_nat_embedding y); congruence).
      subst. apply IH in H. destruct H as [->|H]; auto. right. now constructor.
  - destruct H as [H|H].
    + inversion H; subst. rewrite Nat.ltb_irrefl, Nat.eqb_refl. apply IH. auto.
    + inversion H; subst.
      * apply Nat.ltb_lt in H1. now rewrite H1.
      * rewrite Nat.ltb_irrefl, Nat.eqb_refl. apply IH. auto.
Qed.

Lemma bytes_lt_irrefl : forall a, ~ bytes_lt a a.
Proof. induction a; intros H; inversion H; subst; [lia|auto]. Qed.

Lemma bytes_lt_trans : forall a b c, bytes_lt a b -> bytes_lt b c -> bytes_lt a c.
Proof.
  intros a b c H. revert c. induction H; intros d H2; inversion H2; subst.
  - constructor.
  - constructor.
  - apply blt_head. lia.
  - now apply blt_head.
  - now apply blt_head.
  - apply blt_tail. auto.
Qed.

Lemma bytes_lt_total : forall a b, a = b \/ bytes_lt a b \/ bytes_lt b a.
Proof.
  induction a as [|x a IH]; destruct b as [|y b]; auto.
  - right; left; constructor.
  - right; right; constructor.
  - destruct (lt_eq_lt_dec (nat_of_ascii x) (nat_of_ascii y)) as [[H|H]|H].
    + right; left; now constructor.
    + assert (x = y) by (rewrite <- (ascii_nat_embedding x), <- (ascii_nat_embedding y); congruence).
      subst. destruct (IH b) as [->|[H1|H1]]; auto.
      * right; left; now constructor.
      * right; right; now constructor.
    + right; right; now constructor.
Qed.

Lemma str_ltb_lt : forall a b, str_ltb a b = true <-> bytes_lt a b.
Proof.
  intros. unfold str_ltb. rewrite andb_true_iff, negb_true_iff, str_leb_lt, String.eqb_neq.
  split.
  - intros [[H|H] H2]; [contradiction|assumption].
  - intros H. split; auto. intros ->. now apply bytes_lt_irrefl in H.
Qed.

Lemma str_leb_total : forall a b, str_leb a b = false -> str_leb b a = true.
Proof.
  intros. destruct (str_leb b a) eqn:E; auto.
  destruct (bytes_lt_total a b) as [->|[H1|H1]].
  - now rewrite (proj2 (str_leb_lt b b) (or_introl eq_refl)) in H.
  - rewrite (proj2 (str_leb_lt a b) (or_intror H1)) in H. discriminate.
  - rewrite (proj2 (str_leb_lt b a) (or_intror H1)) in E. discriminate.
Qed.

(** ** Sorting *)
Lemma insert_str_perm : forall x l, Permutation (insert_str x l) (x :: l).
Proof.
  induction l; simpl; auto. destruct (str_leb x a); auto.
  rewrite IHl. apply perm_swap.
Qed.

Lemma sort_strings_perm : forall l, Permutation (sort_strings l) l.
Proof.
  induction l; simpl; auto. rewrite insert_str_perm. now constructor.
Qed.

Definition str_le (a b : string) : Prop := str_leb a b = true.

Lemma str_le_trans : forall a b c, str_le a b -> str_le b c -> str_le a c.
Proof.
  unfold str_le. intros a b c. rewrite !str_leb_lt. intros [->|H1] [->|H2]; auto.
  right. eapply bytes_lt_trans; eauto.
Qed.

Lemma insert_str_sorted : forall x l,
  StronglySorted str_le l -> StronglySorted str_le (insert_str x l).
Proof.
  induction l; simpl; intros H.
  - constructor; constructor.
  - inversion H; subst. destruct (str_leb x a) eqn:E.
    + constructor; auto. constructor; auto.
      eapply Forall_impl; [|exact H3]. intros. eapply str_le_trans; eauto.
    + constructor; auto.
      rewrite (insert_str_perm x l). constructor; auto. now apply str_leb_total.
Qed.

Lemma sort_strings_sorted : forall l, StronglySorted str_le (sort_strings l).
Proof. induction l; simpl; [constructor|now apply insert_str_sorted]. Qed.

Lemma sorted_nodup_strict : forall l,
  StronglySorted str_le l -> NoDup l -> strictly_increasing l.
Proof.
  induction l; intros H1 H2; constructor; inversion H1; inversion H2; subst.
  - apply IHl; auto.
  - rewrite Forall_forall in *. intros x Hx.
    specialize (H4 x Hx). apply str_leb_lt in H4. destruct H4; auto. subst. contradiction.
Qed.

Lemma sort_strings_nodup_strict : forall l, NoDup l -> strictly_increasing (sort_strings l).
Proof.
  intros. apply sorted_nodup_strict; [apply sort_strings_sorted|].
  eapply Permutation_NoDup; [|exact H]. symmetry. apply sort_strings_perm.
Qed.

Lemma strictly_increasing_nodup : forall l, strictly_increasing l -> NoDup l.
Proof.
  induction l; intros H; constructor; inversion H; subst.
  - intros Hin. rewrite Forall_forall in H3. apply H3 in Hin. now apply bytes_lt_irrefl in Hin.
  - now apply IHl.
Qed.

(** A strictly increasing list is determined by its members. *)
Lemma strictly_increasing_unique : forall l1 l2,
  strictly_increasing l1 -> strictly_increasing l2 ->
  (forall x, In x l1 <-> In x l2) -> l1 = l2.
Proof.
  induction l1 as [|a l1 IH]; intros l2 H1 H2 H.
  - destruct l2; auto. exfalso. apply (proj2 (H s)). now left.
  - destruct l2 as [|b l2]. { exfalso. apply (proj1 (H a)). now left. }
    apply StronglySorted_inv in H1; destruct H1 as [S1 F1].
    apply StronglySorted_inv in H2; destruct H2 as [S2 F2].
    rewrite Forall_forall in F1, F2.
    assert (a = b).
    { destruct (proj1 (H a) (or_introl eq_refl)) as [|Ha]; auto.
      destruct (proj2 (H b) (or_introl eq_refl)) as [|Hb]; auto.
      exfalso. apply F2 in Ha. apply F1 in Hb.
      apply (bytes_lt_irrefl a). eapply bytes_lt_trans; eauto. }
    subst. f_equal. apply IH; auto.
    intros x. specialize (H x). simpl in H. split; intros Hx.
    + destruct (proj1 H (or_intror Hx)); auto. subst. apply F1 in Hx. now apply bytes_lt_irrefl in Hx.
    + destruct (proj2 H (or_intror Hx)); auto. subst. apply F2 in Hx. now apply bytes_lt_irrefl in Hx.
Qed.

(** ** Characters in strings *)
Lemma contains_char_iff : forall c s, contains_char c s = true <-> char_in c s.
Proof.
  induction s; simpl; [split; [discriminate|tauto]|].
  rewrite orb_true_iff, IHs, Ascii.eqb_eq. tauto.
Qed.

Lemma contains_char_false : forall c s, contains_char c s = false <-> ~ char_in c s.
Proof.
  intros. rewrite <- contains_char_iff. destruct (contains_char c s); split; intros; try discriminate; auto.
  exfalso; auto.
Qed.

Lemma char_in_app : forall c a b, char_in c (a ++ b) <-> char_in c a \/ char_in c b.
Proof. induction a; simpl; intros; [tauto|rewrite IHa; tauto]. Qed.

Lemma char_in_dec : forall c s, {char_in c s} + {~ char_in c s}.
Proof.
  intros. destruct (contains_char c s) eqn:E.
  - left. now apply contains_char_iff.
  - right. now apply contains_char_false.
Qed.

(** ** Splitting *)
Lemma split_char_nonempty : forall c s, split_char c s <> [].
Proof.
  induction s; simpl; try discriminate.
  destruct (Ascii.eqb c a); try discriminate. destruct (split_char c s); discriminate.
Qed.

Lemma split_char_join : forall c s, join (String c "") (split_char c s) = s.
Proof.
  induction s as [|a s IH]; [reflexivity|].
  simpl. destruct (Ascii.eqb c a) eqn:E.
  - apply Ascii.eqb_eq in E. subst.
    destruct (split_char a s) eqn:E2; [now apply split_char_nonempty in E2|].
    simpl in *. now rewrite IH.
  - destruct (split_char c s) eqn:E2; [now apply split_char_nonempty in E2|].
    simpl in *. destruct l; simpl in *; now rewrite <- IH.
Qed.

Lemma split_char_clean : forall c s x, In x (split_char c s) -> ~ char_in c x.
Proof.
  induction s as [|a s IH]; simpl; intros x H.
  - destruct H as [<-|[]]. simpl. tauto.
  - destruct (Ascii.eqb c a) eqn:E.
    + destruct H as [<-|H]; simpl; auto.
    + destruct (split_char c s) eqn:E2; [now apply split_char_nonempty in E2|].
      apply Ascii.eqb_neq in E.
      destruct H as [<-|H].
      * simpl. intros [|H]; [congruence|]. apply (IH s0); simpl; auto.
      * apply IH. simpl; auto.
Qed.

Lemma split_char_nochar : forall c s, ~ char_in c s -> split_char c s = [s].
Proof.
  induction s; simpl; intros; auto.
  destruct (Ascii.eqb c a) eqn:E; [apply Ascii.eqb_eq in E; tauto|].
  rewrite IHs by tauto. reflexivity.
Qed.

Lemma split_char_app : forall c a b, ~ char_in c a ->
  split_char c (a ++ String c b) = a :: split_char c b.
Proof.
  induction a; simpl; intros.
  - now rewrite Ascii.eqb_refl.
  - destruct (Ascii.eqb c a) eqn:E; [apply Ascii.eqb_eq in E; tauto|].
    rewrite IHa by tauto. reflexivity.
Qed.

(** splitting is the only way to cut a string into separator-free parts *)
Lemma split_char_of_join : forall c parts, parts <> [] ->
  (forall x, In x parts -> ~ char_in c x) ->
  split_char c (join (String c "") parts) = parts.
Proof.
  induction parts as [|p parts IH]; intros H1 H2; [congruence|].
  destruct parts as [|q parts].
  - simpl. apply split_char_nochar. apply H2. now left.
  - change (join (String c "") (p :: q :: parts))
      with (p ++ String c (join (String c "") (q :: parts))).
    rewrite split_char_app by (apply H2; now left).
    f_equal. apply IH; [discriminate|]. intros. apply H2. now right.
Qed.

Lemma split_once_none : forall c s h, split_once c s = (h, None) <-> (h = s /\ ~ char_in c s).
Proof.
  induction s; simpl; intros.
  - split; [intros H; inversion H; tauto|intros [-> _]; reflexivity].
  - destruct (Ascii.eqb c a) eqn:E.
    + apply Ascii.eqb_eq in E. split; [discriminate|tauto].
    + apply Ascii.eqb_neq in E. destruct (split_once c s) as [h' t] eqn:E2.
      split.
      * intros H. inversion H; subst. destruct (proj1 (IHs h') eq_refl). subst. tauto.
      * intros [-> H]. assert (X : (h', t) = (s, None)) by (apply IHs; tauto).
        inversion X; subst. reflexivity.
Qed.

Lemma split_once_some : forall c s h t,
  split_once c s = (h, Some t) <-> (s = h ++ String c t /\ ~ char_in c h).
Proof.
  induction s; simpl; intros.
  - split; [discriminate|]. intros [H _]. destruct h; discriminate.
  - destruct (Ascii.eqb c a) eqn:E.
    + apply Ascii.eqb_eq in E. subst. split.
      * intros H. inversion H; subst. simpl. tauto.
      * intros [H1 H2]. destruct h; simpl in *; inversion H1; subst; auto. tauto.
    + apply Ascii.eqb_neq in E. destruct (split_once c s) as [h' t'] eqn:E2.
      split.
      * intros H. inversion H; subst. destruct (proj1 (IHs h' t) eq_refl). subst. simpl.
        split; auto. intros [|]; [congruence|tauto].
      * intros [H1 H2]. destruct h; simpl in *; inversion H1; subst; [congruence|].
        assert (X : (h', t') = (h, Some t)) by (apply IHs; tauto).
        inversion X; subst. reflexivity.
Qed.

(** ** Prefixes *)
Lemma prefix_app : forall p s, String.prefix p (p ++ s) = true.
Proof.
  induction p as [|a p IH]; intros; [destruct s; reflexivity|].
  cbn [String.prefix append]. destruct (ascii_dec a a); [auto|congruence].
Qed.

Lemma prefix_iff : forall p s, String.prefix p s = true <-> exists r, s = p ++ r.
Proof.
  split.
  - revert s. induction p as [|a p IH]; intros s H; [now exists s|].
    destruct s as [|b s]; [discriminate H|]. cbn [String.prefix] in H. destruct (ascii_dec a b) as [->|]; [|discriminate H].
    destruct (IH _ H) as [r ->]. now exists r.
  - intros [r ->]. apply prefix_app.
Qed.

Lemma string_drop_app : forall p s, string_drop (String.length p) (p ++ s) = s.
Proof. induction p; simpl; auto. Qed.

(** ** Lower case *)
Lemma lower_ascii_idem : forall c, lower_ascii (lower_ascii c) = lower_ascii c.
Proof. destruct c as [[] [] [] [] [] [] [] []]; vm_compute; reflexivity. Qed.

Lemma to_lower_idem : forall s, to_lower (to_lower s) = to_lower s.
Proof. unfold to_lower. induction s; simpl; auto. now rewrite lower_ascii_idem, IHs. Qed.

Lemma to_lower_app : forall a b, to_lower (a ++ b) = to_lower a ++ to_lower b.
Proof. unfold to_lower. induction a; simpl; intros; [|rewrite IHa]; reflexivity. Qed.

(** ** Numbers *)
Lemma digits_to_N_itoa : forall n, digits_to_N (itoa n) = Some n.
Proof.
  intros. unfold digits_to_N, itoa. rewrite NilZero.usu.
  - simpl. now rewrite DecimalN.Unsigned.of_to.
  - destruct n as [|p]; [intros H; discriminate H|]. apply DecimalPos.Unsigned.to_uint_nonnil.
Qed.

Lemma itoa_inj : forall a b, itoa a = itoa b -> a = b.
Proof.
  intros. assert (Some a = Some b) by (rewrite <- !digits_to_N_itoa; congruence). congruence.
Qed.

Lemma uint_digits : forall u, string_forallb is_digit (NilEmpty.string_of_uint u) = true.
Proof. induction u; simpl; auto. Qed.

Lemma itoa_digits : forall n, string_forallb is_digit (itoa n) = true.
Proof.
  intros. unfold itoa, NilZero.string_of_uint. destruct (N.to_uint n); [reflexivity| | | | | | | | | |]; apply uint_digits.
Qed.

Lemma itoa_nonempty : forall n, itoa n <> "".
Proof.
  intros n H. pose proof (digits_to_N_itoa n). rewrite H in H0. discriminate.
Qed.

Lemma forallb_app_s : forall f a b, string_forallb f (a ++ b) = string_forallb f a && string_forallb f b.
Proof. induction a; simpl; intros; auto. now rewrite IHa, andb_assoc. Qed.

Lemma forallb_char_in : forall f s c, string_forallb f s = true -> char_in c s -> f c = true.
Proof.
  induction s; simpl; intros c H H1; [tauto|].
  apply andb_true_iff in H. destruct H, H1; subst; auto.
Qed.
