(** Running the Liquibase change log on the abstract database *)
From Coq Require Import String Ascii List NArith Bool Lia Sorting.Permutation Sorting.Sorted.
From Verif.Model Require Import GoString Util Octopus DiffCore Liquibase.
From Verif.Spec Require Import Order Text DiffSpec LiquibaseSpec Database.
From Verif.Proofs Require Import ListLemmas StringLemmas UtilProofs OctopusProofs DiffCoreProofs DiffFacts LiquibaseProofs.
Import ListNotations.
Local Open Scope string_scope.
Local Open Scope list_scope.

Lemma fold_opt_app : forall {A B} (f : B -> A -> option B) l1 l2 b b1,
  fold_opt f l1 b = Some b1 -> fold_opt f (l1 ++ l2) b = fold_opt f l2 b1.
Proof.
  induction l1; simpl; intros l2 b b1 H; [now injection H as ->|]. destruct (f b a); [eauto|discriminate].
Qed.

Lemma str_mem_iff : forall k l, str_mem k l = true <-> In k l.
Proof.
  intros. unfold str_mem. rewrite existsb_exists. split.
  - intros [x [H E]]. apply String.eqb_eq in E. now subst.
  - intros H. exists k. split; auto. apply String.eqb_refl.
Qed.

(** ** Change sets without preconditions *)

Lemma run_no_pre : forall sv css s, no_pre css -> run_log sv css s = fold_opt (apply_change sv) (lq_all css) s.
Proof.
  intros sv. unfold run_log. induction css as [|cs css IH]; intros s H; simpl; auto.
  inversion H as [|? ? P N]; subst. unfold run_change_set at 1. rewrite P. simpl.
  destruct (fold_opt (apply_change sv) (lq_changes cs) s) as [s1|] eqn:E.
  - rewrite IH; auto. symmetry. now apply fold_opt_app.
  - clear - E. assert (G : forall l, fold_opt (apply_change sv) (lq_changes cs ++ l) s = None).
    { intros l. revert s E. induction (lq_changes cs); simpl; intros s E; [discriminate|].
      destruct (apply_change sv s a); auto. }
    symmetry. apply G.
Qed.

Lemma run_log_app : forall sv a b s s1, run_log sv a s = Some s1 -> run_log sv (a ++ b) s = run_log sv b s1.
Proof. intros. now apply fold_opt_app. Qed.

(** ** From one table to the database *)

Definition inside (ch : lq_change) : Prop :=
  match ch with LqCreateTable _ _ _ | LqDropTable _ | LqRenameTable _ _ => False | _ => True end.

Lemma add_col_name : forall cols b b', fold_opt add_col cols b = Some b' -> b_name b' = b_name b.
Proof.
  induction cols as [|lc cols IH]; simpl; intros b b' H; [now injection H as <-|].
  unfold add_col in H at 1. destruct (named_col (lc_name lc) b); [discriminate|].
  destruct (declares k_pk lc || declares k_unique lc); [discriminate|].
  destruct (String.eqb (lc_after lc) ""); [apply IH in H; exact H|].
  destruct (named_col (lc_after lc) b); [apply IH in H; exact H|discriminate].
Qed.

Lemma step_name : forall sv b ch b', table_step sv b ch = Some b' -> b_name b' = b_name b.
Proof.
  intros sv b ch b' H. destruct ch; simpl in H; unfold on_col in *; try discriminate;
    repeat match type of H with
    | (if ?c then _ else _) = _ => destruct c
    | match ?c with [] => _ | _ => _ end = _ => destruct c
    | match ?c with Some _ => _ | None => _ end = _ => destruct c eqn:?
    end; try discriminate; try (injection H as <-; reflexivity); try now apply add_col_name in H.
  injection H as <-. destruct (named_col old_name b); [|discriminate].
  match goal with E : Some _ = Some _ |- _ => injection E as <- end. reflexivity.
Qed.

Lemma find_put : forall n b s m, b_name b = n ->
  find_table m (put_table n b s) =
  match find_table m s with Some x => if String.eqb m n then Some b else Some x | None => None end.
Proof.
  intros n b s m E. subst n. unfold find_table, put_table. induction s as [|x s IH]; simpl; auto.
  destruct (String.eqb (b_name x) (b_name b)) eqn:E1.
  - apply String.eqb_eq in E1. rewrite E1. rewrite (String.eqb_sym m).
    destruct (String.eqb (b_name b) m) eqn:E2; auto. rewrite IH, (String.eqb_sym m), E2. reflexivity.
  - destruct (String.eqb (b_name x) m) eqn:E2; auto.
    apply String.eqb_eq in E2. subst m. now rewrite E1.
Qed.

Lemma put_put : forall n b1 b2 s, b_name b1 = n -> put_table n b2 (put_table n b1 s) = put_table n b2 s.
Proof.
  intros n b1 b2 s E. subst n. unfold put_table. rewrite map_map. apply map_ext. intros x.
  destruct (String.eqb (b_name x) (b_name b1)) eqn:E; [now rewrite String.eqb_refl|now rewrite E].
Qed.

Lemma put_self : forall n b s, NoDup (map b_name s) -> find_table n s = Some b -> put_table n b s = s.
Proof.
  intros n b s. unfold find_table, put_table. induction s as [|x s IH]; simpl; intros D H; auto.
  inversion D as [|? ? NI ND]; subst. destruct (String.eqb (b_name x) n) eqn:E.
  - injection H as ->. f_equal. apply String.eqb_eq in E. subst n. clear - NI.
    induction s as [|y s IHs]; simpl in *; auto.
    destruct (String.eqb (b_name y) (b_name b)) eqn:E; [apply String.eqb_eq in E; intuition|].
    rewrite IHs; auto.
  - f_equal. now apply IH.
Qed.

Lemma table_run : forall sv chs s n b b', Forall (fun ch => inside ch /\ target ch = n) chs ->
  NoDup (map b_name s) -> find_table n s = Some b -> fold_opt (table_step sv) chs b = Some b' ->
  fold_opt (apply_change sv) chs s = Some (put_table n b' s).
Proof.
  intros sv. induction chs as [|ch chs IH]; intros s n b b' F D Hf Hr; simpl in *.
  - injection Hr as <-. now rewrite put_self.
  - inversion F as [|? ? [Hi Ht] F']; subst.
    destruct (table_step sv b ch) as [b1|] eqn:E; [|discriminate].
    assert (A : apply_change sv s ch = Some (put_table (target ch) b1 s)).
    { destruct ch; simpl in Hi; try contradiction; unfold apply_change; rewrite Hf, E; reflexivity. }
    rewrite A.
    assert (Nb : b_name b = target ch). { apply find_some in Hf. now apply String.eqb_eq. }
    assert (N1 : b_name b1 = target ch) by (apply step_name in E; congruence).
    rewrite (IH _ (target ch) b1 b'); auto.
    + now rewrite put_put.
    + unfold put_table. rewrite map_map.
      replace (map _ s) with (map b_name s); auto. apply map_ext. intros x.
      destruct (String.eqb (b_name x) (target ch)) eqn:Ex; auto. apply String.eqb_eq in Ex. congruence.
    + rewrite find_put; auto. rewrite Hf, String.eqb_refl. reflexivity.
Qed.

(** ** Columns *)

Section Cols.
Variable fk : string -> bool.
Variable sv : server.
Variable comments : bool.
Notation is_col := (is_col fk comments).
Notation has_cols := (has_cols fk comments).
Notation step := (fold_opt (table_step sv)).

Lemma has_cols_perm : forall l l' b, Permutation l l' -> has_cols l b -> has_cols l' b.
Proof.
  intros l l' b P [ds [P1 F]]. destruct (Permutation_Forall2 P F) as [ds' [P2 F2]].
  exists ds'. split; auto. now rewrite P1.
Qed.

Lemma Forall2_names : forall l ds, Forall2 is_col l ds -> map d_name ds = map c_name l.
Proof. intros l ds F. induction F as [|c d l ds [E _] F IH]; simpl; congruence. Qed.

Lemma has_cols_names : forall l b, has_cols l b -> Permutation (map d_name (b_cols b)) (map c_name l).
Proof.
  intros l b [ds [P F]]. rewrite <- (Forall2_names _ _ F). now apply Permutation_map.
Qed.

Lemma named_col_in : forall k b, named_col k b = true <-> In k (map d_name (b_cols b)).
Proof.
  intros. unfold named_col. rewrite existsb_exists, in_map_iff. split; intros [d [H1 H2]]; exists d.
  - apply String.eqb_eq in H2. auto.
  - split; auto. now apply String.eqb_eq.
Qed.

Lemma named_iff : forall l b k, has_cols l b -> (named_col k b = true <-> In k (map c_name l)).
Proof.
  intros l b k H. rewrite named_col_in. apply has_cols_names in H. split; intros Hk.
  - eapply Permutation_in; eauto.
  - eapply Permutation_in; [symmetry|]; eauto.
Qed.

Lemma named_false : forall l b k, has_cols l b -> ~ In k (map c_name l) -> named_col k b = false.
Proof. intros l b k H N. apply not_true_iff_false. rewrite (named_iff l); auto. Qed.

Lemma map_other : forall k f ds l, Forall2 is_col l ds -> ~ In k (map c_name l) ->
  map (fun d => if String.eqb (d_name d) k then f d else d) ds = ds.
Proof.
  intros k f ds l F. induction F as [|c d l ds [E _] F IH]; simpl; intros N; auto.
  rewrite IH; [|tauto]. destruct (String.eqb (d_name d) k) eqn:Q; auto.
  apply String.eqb_eq in Q. exfalso. apply N. left. congruence.
Qed.

(** one column changes *)
Lemma has_cols_upd : forall o c l f b, NoDup (map c_name (o :: l)) -> has_cols (o :: l) b ->
  (forall d, is_col o d -> is_col c (f d)) -> has_cols (c :: l) (upd_col (c_name o) f b).
Proof.
  intros o c l f b D [ds [P F]] Hf. inversion F as [|? d ? ds' Ho F']; subst.
  simpl in D. inversion D as [|? ? NI ND]; subst.
  exists (f d :: ds'). split; [|constructor; auto]. unfold upd_col. cbn [b_cols set_cols].
  rewrite P. simpl. destruct Ho as [E _]. rewrite E, String.eqb_refl. now rewrite (map_other _ _ _ l).
Qed.

Lemma upd_name : forall k f b, b_name (upd_col k f b) = b_name b. Proof. reflexivity. Qed.

Lemma upd_id : forall k b, upd_col k (fun d => d) b = b.
Proof.
  intros k [n r cols pk uqs]. unfold upd_col, set_cols. cbn [b_cols b_name b_remarks b_pk b_uqs]. f_equal.
  rewrite <- (map_id cols) at 2. apply map_ext. intros d. now destruct (String.eqb (d_name d) k).
Qed.

Lemma upd_upd : forall k f g b, (forall d, d_name (f d) = d_name d) ->
  upd_col k g (upd_col k f b) = upd_col k (fun d => g (f d)) b.
Proof.
  intros k f g b Hf. unfold upd_col, set_cols. cbn [b_cols b_name b_remarks b_pk b_uqs]. f_equal.
  rewrite map_map. apply map_ext. intros d. destruct (String.eqb (d_name d) k) eqn:E.
  - now rewrite Hf, E.
  - now rewrite E.
Qed.

Lemma named_upd : forall k f b, (forall d, d_name (f d) = d_name d) -> named_col k (upd_col k f b) = named_col k b.
Proof.
  intros k f b Hf. apply Bool.eq_iff_eq_true. rewrite !named_col_in. unfold upd_col. cbn [b_cols set_cols].
  rewrite map_map. replace (map _ (b_cols b)) with (map d_name (b_cols b)); [tauto|].
  apply map_ext. intros d. destruct (String.eqb (d_name d) k); auto.
Qed.

(** a run of changes to one column *)
Definition touches (k : string) (pk : list string) (ch : lq_change) (f : dbcol -> dbcol) : Prop :=
  (forall d, d_name (f d) = d_name d) /\
  forall b, b_pk b = pk -> named_col k b = true -> table_step sv b ch = Some (upd_col k f b).

Lemma run_touch : forall k pk b (cnd : bool) ch f rest, touches k pk ch f \/ cnd = false -> b_pk b = pk ->
  named_col k b = true ->
  step ((if cnd then [ch] else []) ++ rest) b = step rest (upd_col k (if cnd then f else fun d => d) b).
Proof.
  intros k pk b cnd ch f rest H Hpk Hn. destruct cnd; simpl.
  - destruct H as [[_ H]|]; [|discriminate]. now rewrite H.
  - now rewrite upd_id.
Qed.

Definition column_effect (c o : column) (dv : lq_default) (d : dbcol) : dbcol :=
  let d := if negb (String.eqb (c_type c) (c_type o)) || negb (N.eqb (c_size c) (c_size o)) || negb (N.eqb (c_scale c) (c_scale o))
           then mkDbCol (d_name d) (get_liquibase_type c) (d_notnull d) (d_autoinc d) (d_default d) (d_remarks d) else d in
  let d := if comments && negb (String.eqb (c_desc c) (c_desc o))
           then mkDbCol (d_name d) (d_type d) (d_notnull d) (d_autoinc d) (d_default d) (c_desc c) else d in
  let d := if negb (Bool.eqb (c_notnull c) (c_notnull o)) then with_notnull (c_notnull c) d else d in
  let d := if negb (Bool.eqb (c_autoinc c) (c_autoinc o)) && c_autoinc c
           then mkDbCol (d_name d) (d_type d) (d_notnull d) true (d_default d) (d_remarks d) else d in
  if negb (String.eqb (c_default c) (c_default o))
  then mkDbCol (d_name d) (d_type d) (d_notnull d) (d_autoinc d) dv (d_remarks d) else d.

Lemma get_type_ext : forall c o, c_type c = c_type o -> c_size c = c_size o -> c_scale c = c_scale o ->
  get_liquibase_type c = get_liquibase_type o.
Proof. intros c o H1 H2 H3. unfold get_liquibase_type. now rewrite H1, H2, H3. Qed.

Lemma column_effect_ok : forall c o dv d,
  c_name c = c_name o -> is_col o d ->
  (c_autoinc o = true -> c_autoinc c = true) ->
  (c_default c = c_default o -> schema_default fk c = schema_default fk o) ->
  (c_default c <> c_default o -> schema_default fk c = Some dv) ->
  is_col c (column_effect c o dv d).
Proof.
  intros c o dv d En [H1 [H2 [H3 [H4 [H5 H6]]]]] Ha Hd1 Hd2. unfold column_effect.
  assert (T : forall x : dbcol, d_type x = get_liquibase_type o ->
    d_type (if negb (String.eqb (c_type c) (c_type o)) || negb (N.eqb (c_size c) (c_size o)) || negb (N.eqb (c_scale c) (c_scale o))
           then mkDbCol (d_name x) (get_liquibase_type c) (d_notnull x) (d_autoinc x) (d_default x) (d_remarks x) else x)
    = get_liquibase_type c).
  { intros x Hx. destruct (String.eqb (c_type c) (c_type o)) eqn:E1; [|reflexivity].
    destruct (N.eqb (c_size c) (c_size o)) eqn:E2; [|reflexivity].
    destruct (N.eqb (c_scale c) (c_scale o)) eqn:E3; [|reflexivity]. simpl. rewrite Hx. symmetry.
    apply get_type_ext; [now apply String.eqb_eq|now apply N.eqb_eq|now apply N.eqb_eq]. }
  specialize (T d H2).
  set (b1 := negb (String.eqb (c_type c) (c_type o)) || negb (N.eqb (c_size c) (c_size o)) || negb (N.eqb (c_scale c) (c_scale o))) in *.
  repeat split.
  - destruct b1, (comments && negb (String.eqb (c_desc c) (c_desc o))), (negb (Bool.eqb (c_notnull c) (c_notnull o))),
      (negb (Bool.eqb (c_autoinc c) (c_autoinc o)) && c_autoinc c), (negb (String.eqb (c_default c) (c_default o)));
      simpl; congruence.
  - destruct b1, (comments && negb (String.eqb (c_desc c) (c_desc o))), (negb (Bool.eqb (c_notnull c) (c_notnull o))),
      (negb (Bool.eqb (c_autoinc c) (c_autoinc o)) && c_autoinc c), (negb (String.eqb (c_default c) (c_default o)));
      simpl in *; congruence.
  - destruct (Bool.eqb (c_notnull c) (c_notnull o)) eqn:E.
    + apply Bool.eqb_prop in E.
      destruct b1, (comments && negb (String.eqb (c_desc c) (c_desc o))),
       (negb (Bool.eqb (c_autoinc c) (c_autoinc o)) && c_autoinc c), (negb (String.eqb (c_default c) (c_default o)));
       simpl; congruence.
    + destruct (negb (Bool.eqb (c_autoinc c) (c_autoinc o)) && c_autoinc c), (negb (String.eqb (c_default c) (c_default o)));
       reflexivity.
  - destruct (Bool.eqb (c_autoinc c) (c_autoinc o)) eqn:E.
    + apply Bool.eqb_prop in E. cbn [negb andb].
      destruct b1, (comments && negb (String.eqb (c_desc c) (c_desc o))),
       (negb (Bool.eqb (c_notnull c) (c_notnull o))), (negb (String.eqb (c_default c) (c_default o)));
       simpl; congruence.
    + destruct (c_autoinc c) eqn:Ea.
      * simpl. destruct (negb (String.eqb (c_default c) (c_default o))); reflexivity.
      * exfalso. destruct (c_autoinc o); [now specialize (Ha eq_refl)|discriminate].
  - destruct (String.eqb (c_default c) (c_default o)) eqn:E.
    + apply String.eqb_eq in E. rewrite (Hd1 E), H5. simpl.
      destruct b1, (comments && negb (String.eqb (c_desc c) (c_desc o))),
       (negb (Bool.eqb (c_notnull c) (c_notnull o))), (negb (Bool.eqb (c_autoinc c) (c_autoinc o)) && c_autoinc c); reflexivity.
    + apply String.eqb_neq in E. rewrite (Hd2 E). reflexivity.
  - intros Hc. specialize (H6 Hc). rewrite Hc. cbn [andb].
    destruct (String.eqb (c_desc c) (c_desc o)) eqn:E.
    + apply String.eqb_eq in E. cbn [negb].
      destruct b1, (negb (Bool.eqb (c_notnull c) (c_notnull o))), (negb (Bool.eqb (c_autoinc c) (c_autoinc o)) && c_autoinc c),
       (negb (String.eqb (c_default c) (c_default o))); simpl; congruence.
    + destruct b1, (negb (Bool.eqb (c_notnull c) (c_notnull o))), (negb (Bool.eqb (c_autoinc c) (c_autoinc o)) && c_autoinc c),
       (negb (String.eqb (c_default c) (c_default o))); reflexivity.
Qed.

Lemma on_col_touch : forall k pk ch f, (forall d, d_name (f d) = d_name d) ->
  (forall b, table_step sv b ch = on_col k f b) -> touches k pk ch f.
Proof. intros k pk ch f Hf H. split; auto. intros b _ Hn. rewrite H. unfold on_col. now rewrite Hn. Qed.

Lemma column_run : forall t c o chs b,
  lq_column_changes fk comments t (c, o) = Some chs -> c_name c = c_name o ->
  named_col (c_name c) b = true ->
  (c_notnull c = false -> c_notnull o = true -> ~ In (c_name c) (b_pk b)) ->
  exists dv, (c_default c <> c_default o -> schema_default fk c = Some dv) /\
    step chs b = Some (upd_col (c_name c) (column_effect c o dv) b).
Proof.
  intros t c o chs b H En Hn Hpk. unfold lq_column_changes in H.
  rewrite En, String.eqb_refl in H. cbn [negb] in H. rewrite <- En in H.
  set (k := c_name c) in *.
  set (b1 := negb (String.eqb (c_type c) (c_type o)) || negb (N.eqb (c_size c) (c_size o)) || negb (N.eqb (c_scale c) (c_scale o))) in *.
  set (b2 := comments && negb (String.eqb (c_desc c) (c_desc o))) in *.
  set (b3 := negb (Bool.eqb (c_notnull c) (c_notnull o))) in *.
  set (b4 := negb (Bool.eqb (c_autoinc c) (c_autoinc o)) && c_autoinc c) in *.
  set (f1 := fun d => mkDbCol (d_name d) (get_liquibase_type c) (d_notnull d) (d_autoinc d) (d_default d) (d_remarks d)).
  set (f2 := fun d => mkDbCol (d_name d) (d_type d) (d_notnull d) (d_autoinc d) (d_default d) (c_desc c)).
  set (f4 := fun d => mkDbCol (d_name d) (d_type d) (d_notnull d) true (d_default d) (d_remarks d)).
  assert (T3 : touches k (b_pk b) (if c_notnull c then LqAddNotNullConstraint (t_name t) k (get_liquibase_type c) (c_default c)
           else LqDropNotNullConstraint (t_name t) k (get_liquibase_type c)) (with_notnull (c_notnull c)) \/ b3 = false).
  { destruct b3 eqn:Eb; [left|now right]. destruct (c_notnull c) eqn:En1.
    - apply on_col_touch; reflexivity.
    - split; [reflexivity|]. intros b' Epk Hn'. simpl. rewrite Epk.
      assert (M : str_mem k (b_pk b) = false).
      { apply not_true_iff_false. rewrite str_mem_iff. apply Hpk; auto. unfold b3 in Eb.
        destruct (c_notnull o); auto. }
      rewrite M. unfold on_col. now rewrite Hn'. }
  assert (Main : forall rest, step (((if b1 then [LqModifyDataType (t_name t) k (get_liquibase_type c)] else []) ++
      (if b2 then [LqSetColumnRemarks (t_name t) k (c_desc c)] else []) ++
      (if b3 then [if c_notnull c then LqAddNotNullConstraint (t_name t) k (get_liquibase_type c) (c_default c)
             else LqDropNotNullConstraint (t_name t) k (get_liquibase_type c)] else []) ++
      (if b4 then [LqAddAutoIncrement (t_name t) k (get_liquibase_type c)] else [])) ++ rest) b =
    step rest (upd_col k (fun d =>
       (if b4 then f4 else fun d => d) ((if b3 then with_notnull (c_notnull c) else fun d => d)
         ((if b2 then f2 else fun d => d) ((if b1 then f1 else fun d => d) d)))) b)).
  { intros rest. rewrite <- !app_assoc.
    rewrite (run_touch k (b_pk b) b b1 _ f1); auto; [|left; apply on_col_touch; reflexivity].
    assert (N1 : forall d, d_name ((if b1 then f1 else fun d => d) d) = d_name d) by (generalize b1; intros []; reflexivity).
    rewrite (run_touch k (b_pk b) _ b2 _ f2); auto;
      [|left; apply on_col_touch; reflexivity|rewrite named_upd; auto].
    rewrite upd_upd by auto.
    assert (N2 : forall d, d_name ((if b2 then f2 else fun d => d) ((if b1 then f1 else fun d => d) d)) = d_name d)
      by (intros d; generalize b1 b2; intros [] []; reflexivity).
    rewrite (run_touch k (b_pk b) _ b3 _ (with_notnull (c_notnull c))); auto; [|rewrite named_upd; auto].
    rewrite upd_upd by auto.
    assert (N3 : forall d, d_name ((if b3 then with_notnull (c_notnull c) else fun d => d)
         ((if b2 then f2 else fun d => d) ((if b1 then f1 else fun d => d) d))) = d_name d)
      by (intros d; generalize b1 b2 b3; intros [] [] []; reflexivity).
    rewrite (run_touch k (b_pk b) _ b4 _ f4); auto;
      [|left; apply on_col_touch; reflexivity|rewrite named_upd; auto].
    rewrite upd_upd by auto. reflexivity. }
  assert (N4 : forall d, d_name ((if b4 then f4 else fun d => d) ((if b3 then with_notnull (c_notnull c) else fun d => d)
         ((if b2 then f2 else fun d => d) ((if b1 then f1 else fun d => d) d)))) = d_name d)
    by (intros d; generalize b1 b2 b3 b4; intros [] [] [] []; reflexivity).
  assert (EF : forall dv b', upd_col k (fun d => let x := ((if b4 then f4 else fun d => d) ((if b3 then with_notnull (c_notnull c) else fun d => d)
         ((if b2 then f2 else fun d => d) ((if b1 then f1 else fun d => d) d)))) in
         if negb (String.eqb (c_default c) (c_default o)) then mkDbCol (d_name x) (d_type x) (d_notnull x) (d_autoinc x) dv (d_remarks x) else x) b'
       = upd_col k (column_effect c o dv) b').
  { intros dv b'. unfold upd_col. f_equal. apply map_ext. intros d.
    destruct (String.eqb (d_name d) k); auto. unfold column_effect. fold b1 b2 b3 b4.
    generalize b1 b2 b3 b4. intros [] [] [] []; reflexivity. }
  destruct (String.eqb (c_default c) (c_default o)) eqn:Ed; cbn [negb] in H.
  - exists no_default. split. { apply String.eqb_eq in Ed. congruence. }
    injection H as <-. cbn [app]. rewrite <- EF. cbn [negb].
    rewrite <- (app_nil_r (_ ++ _ ++ _)). rewrite Main. reflexivity.
  - destruct (String.eqb (c_default c) "") eqn:E0.
    + exists no_default. split. { intros _. unfold schema_default. now rewrite E0. }
      injection H as <-. cbn [app]. rewrite Main, <- EF. cbn [negb fold_opt].
      assert (T : touches k (b_pk b) (LqDropDefaultValue (t_name t) k (get_liquibase_type c))
         (fun d => mkDbCol (d_name d) (d_type d) (d_notnull d) (d_autoinc d) no_default (d_remarks d)))
        by (apply on_col_touch; reflexivity).
      destruct T as [_ T]. rewrite T; auto; [|rewrite named_upd; auto]. rewrite upd_upd by auto. reflexivity.
    + destruct (new_lq_default fk c) as [dv|] eqn:Edv; [|discriminate]. cbn [option_map] in H.
      exists dv. split. { intros _. unfold schema_default. now rewrite E0. }
      injection H as <-. cbn [app]. rewrite Main, <- EF. cbn [negb fold_opt].
      assert (T : touches k (b_pk b) (LqAddDefaultValue (t_name t) k (get_liquibase_type c) dv)
         (fun d => mkDbCol (d_name d) (d_type d) (d_notnull d) (d_autoinc d) dv (d_remarks d)))
        by (apply on_col_touch; reflexivity).
      destruct T as [_ T]. rewrite T; auto; [|rewrite named_upd; auto]. rewrite upd_upd by auto. reflexivity.
Qed.

(** *** the columns in both tables *)
Lemma kept_stage : forall t K lcol rest b,
  Forall2 (fun p x => lq_column_changes fk comments t p = Some x) K lcol ->
  (forall c o, In (c, o) K -> c_name c = c_name o /\
     (c_autoinc o = true -> c_autoinc c = true) /\
     (c_default c = c_default o -> schema_default fk c = schema_default fk o) /\
     (c_notnull c = false -> c_notnull o = true -> ~ In (c_name c) (b_pk b))) ->
  NoDup (map c_name (map snd K ++ rest)) -> has_cols (map snd K ++ rest) b ->
  exists b', step (concat lcol) b = Some b' /\ has_cols (map fst K ++ rest) b' /\
    b_name b' = b_name b /\ b_pk b' = b_pk b /\ b_uqs b' = b_uqs b.
Proof.
  intros t K lcol rest b F. revert rest b. induction F as [|[c o] x K lcol Hx F IH]; intros rest b HK D Hb.
  - exists b. auto.
  - destruct (HK c o) as [En [Ha [Hd Hp]]]; [now left|].
    simpl in D, Hb. cbn [concat].
    assert (Nc : named_col (c_name c) b = true).
    { eapply named_iff; [exact Hb|]. simpl. auto. }
    destruct (column_run t c o x b Hx En Nc Hp) as [dv [Hdv Hs]].
    rewrite (fold_opt_app _ _ _ _ _ Hs).
    assert (Hb1 : has_cols (c :: map snd K ++ rest) (upd_col (c_name c) (column_effect c o dv) b)).
    { rewrite En. apply (has_cols_upd o c); auto. intros d Hd0. now apply column_effect_ok. }
    assert (Hb2 : has_cols (map snd K ++ (c :: rest)) (upd_col (c_name c) (column_effect c o dv) b)).
    { eapply has_cols_perm; [|exact Hb1]. apply Permutation_middle. }
    destruct (IH (c :: rest) (upd_col (c_name c) (column_effect c o dv) b)) as [b' [H1 [H2 [H3 [H4 H5]]]]]; auto.
    + intros c' o' Hin. apply HK. now right.
    + eapply Permutation_NoDup; [apply Permutation_map; apply Permutation_middle|]. simpl. now rewrite En.
    + exists b'. split; auto. split; [|auto]. eapply has_cols_perm; [|exact H2].
      simpl. symmetry. apply Permutation_middle.
Qed.

(** *** dropped columns *)
Lemma filter_other : forall k ds l, Forall2 is_col l ds -> ~ In k (map c_name l) ->
  filter (fun d => negb (String.eqb (d_name d) k)) ds = ds.
Proof.
  intros k ds l F. induction F as [|c d l ds [E _] F IH]; simpl; intros N; auto.
  destruct (String.eqb (d_name d) k) eqn:Q.
  - apply String.eqb_eq in Q. exfalso. apply N. left. congruence.
  - simpl. f_equal. apply IH. tauto.
Qed.

Lemma Permutation_filter' : forall {A} (p : A -> bool) l l', Permutation l l' -> Permutation (filter p l) (filter p l').
Proof.
  intros A p l l' P. induction P; simpl; auto.
  - destruct (p x); auto.
  - destruct (p x), (p y); auto. apply perm_swap.
  - etransitivity; eauto.
Qed.

Lemma drop_stage : forall n D rest b,
  NoDup (map c_name (D ++ rest)) -> has_cols (D ++ rest) b ->
  (forall u c, In u (b_uqs b) -> In c D -> ~ In (c_name c) (snd u)) ->
  sv_empty_tables sv = true \/ rest <> [] \/ D = [] ->
  exists b', step (map (LqDropColumn n) (map c_name D)) b = Some b' /\ has_cols rest b' /\
    b_name b' = b_name b /\ b_uqs b' = b_uqs b /\
    (forall k, In k (b_pk b') <-> In k (b_pk b) /\ ~ In k (map c_name D)).
Proof.
  intros n. induction D as [|c D IH]; intros rest b ND Hb Hu He.
  - exists b. simpl. repeat split; auto; tauto.
  - simpl in ND, Hb. inversion ND as [|? ? NI ND']; subst. cbn [map fold_opt].
    set (b1 := mkDbTable (b_name b) (b_remarks b) (filter (fun d => negb (String.eqb (d_name d) (c_name c))) (b_cols b))
                 (filter (fun x => negb (String.eqb x (c_name c))) (b_pk b)) (b_uqs b)).
    assert (H1 : has_cols (D ++ rest) b1).
    { destruct Hb as [ds [P F]]. inversion F as [|? d ? ds' Hd F']; subst. exists ds'. split; auto.
      unfold b1. cbn [b_cols]. rewrite (Permutation_filter' _ _ _ P). simpl.
      destruct Hd as [E _]. rewrite E, String.eqb_refl. simpl. now rewrite (filter_other _ _ (D ++ rest)). }
    assert (Es : table_step sv b (LqDropColumn n (c_name c)) = Some b1).
    { simpl. assert (N : named_col (c_name c) b = true) by (eapply named_iff; [exact Hb|simpl; auto]).
      rewrite N. simpl.
      assert (X : existsb (fun u => str_mem (c_name c) (snd u)) (b_uqs b) = false).
      { apply not_true_iff_false. intros C. apply existsb_exists in C. destruct C as [u [Hu1 Hu2]].
        apply str_mem_iff in Hu2. apply (Hu u c) in Hu2; auto. now left. }
      rewrite X. destruct He as [He|[He|He]]; [now rewrite He| |discriminate].
      assert (L : Nat.eqb (length (filter (fun d => negb (String.eqb (d_name d) (c_name c))) (b_cols b))) 0 = false).
      { apply PeanoNat.Nat.eqb_neq. intros C. apply length_zero_iff_nil in C.
        apply has_cols_names in H1. unfold b1 in H1. cbn [b_cols] in H1. rewrite C in H1. simpl in H1.
        apply Permutation_nil in H1. rewrite map_app in H1. apply app_eq_nil in H1. destruct H1 as [_ H1].
        apply map_eq_nil in H1. auto. }
      rewrite L, andb_false_r. reflexivity. }
    rewrite Es. destruct (IH rest b1) as [b' [I1 [I2 [I3 [I4 I5]]]]]; auto.
    + intros u c' Hu1 Hc'. apply Hu; auto. now right.
    + destruct He as [He|[He|He]]; auto; discriminate.
    + exists b'. split; auto. split; auto. split; [now rewrite I3|]. split; [now rewrite I4|].
      intros k. rewrite I5. unfold b1. cbn [b_pk]. rewrite filter_In, negb_true_iff, String.eqb_neq. simpl.
      split; intros [G1 G2]; intuition.
Qed.

(** *** renamed columns *)
Lemma rename_in_absent : forall old nw l, ~ In old l -> rename_in old nw l = l.
Proof.
  intros old nw l H. unfold rename_in. rewrite <- (map_id l) at 2. apply map_ext_in. intros x Hx.
  destruct (String.eqb x old) eqn:E; auto. apply String.eqb_eq in E. congruence.
Qed.

Lemma map_rename_absent : forall old nw (us : list (option string * list string)),
  (forall u, In u us -> ~ In old (snd u)) -> map (fun u => (fst u, rename_in old nw (snd u))) us = us.
Proof.
  intros old nw us H. rewrite <- (map_id us) at 2. apply map_ext_in. intros [a l] Hu. simpl.
  rewrite rename_in_absent; auto. now apply (H (a, l)).
Qed.

Lemma default_ext : forall c o, c_type c = c_type o -> c_default c = c_default o ->
  schema_default fk c = schema_default fk o.
Proof. intros c o H1 H2. unfold schema_default, new_lq_default. now rewrite H1, H2. Qed.

Lemma rename_stage : forall t (R : list (nat * (column * column))) rest b,
  (forall i c o, In (i, (c, o)) R -> same_attributes comments c o /\ (c_pk o = true -> c_notnull o = true)) ->
  NoDup (map c_name (map (fun r => fst (snd r)) R ++ map (fun r => snd (snd r)) R ++ rest)) ->
  has_cols (map (fun r => snd (snd r)) R ++ rest) b ->
  (forall u r, In u (b_uqs b) -> In r R -> ~ In (c_name (snd (snd r))) (snd u)) ->
  exists b', step (flat_map (lq_rename_changes t) R) b = Some b' /\
    has_cols (map (fun r => fst (snd r)) R ++ rest) b' /\
    b_name b' = b_name b /\ b_uqs b' = b_uqs b /\
    (b_pk b' = [] <-> b_pk b = []) /\
    ((forall r, In r R -> ~ In (c_name (snd (snd r))) (b_pk b)) -> b_pk b' = b_pk b).
Proof.
  intros t. induction R as [|[i [c o]] R IH]; intros rest b HR ND Hb Hu.
  - exists b. simpl. repeat split; auto; tauto.
  - cbn [map fst snd app] in ND, Hb. cbn [flat_map].
    destruct (HR i c o) as [SA _]; [now left|].
    destruct SA as [A1 [A2 [A3 [A4 [A5 [A6 [A7 [A8 [A9 A10]]]]]]]]].
    assert (ND1 : NoDup (map c_name (map (fun r => fst (snd r)) R ++ map (fun r => snd (snd r)) R ++ c :: rest))).
    { inversion ND as [|? ? NI ND']; subst.
      assert (P : Permutation (c :: map (fun r => fst (snd r)) R ++ map (fun r => snd (snd r)) R ++ rest)
                    (map (fun r => fst (snd r)) R ++ map (fun r => snd (snd r)) R ++ c :: rest)).
      { etransitivity; [apply Permutation_middle|]. apply Permutation_app_head. apply Permutation_middle. }
      eapply Permutation_NoDup; [apply Permutation_map; exact P|]. simpl. 
      assert (ND2 : NoDup (c_name o :: map c_name (map (fun r => fst (snd r)) R ++ map (fun r => snd (snd r)) R ++ rest))).
      { eapply Permutation_NoDup; [|exact ND'].
        apply (Permutation_map c_name (l := map (fun r => fst (snd r)) R ++ o :: map (fun r => snd (snd r)) R ++ rest)
                 (l' := o :: map (fun r => fst (snd r)) R ++ map (fun r => snd (snd r)) R ++ rest)).
        symmetry. apply Permutation_middle. }
      inversion ND2 as [|? ? NI2 ND3]; subst. constructor; auto.
      intros C. apply NI. rewrite !map_app, !in_app_iff in C.
      rewrite map_app, in_app_iff. cbn [map]. rewrite map_app. simpl. rewrite in_app_iff. tauto. }
    assert (Nc : ~ In (c_name c) (map c_name (o :: map (fun r => snd (snd r)) R ++ rest))).
    { inversion ND as [|? ? NI ND']; subst. intros C. apply NI. rewrite map_app, in_app_iff. right. exact C. }
    assert (NDo : NoDup (map c_name (o :: map (fun r => snd (snd r)) R ++ rest))).
    { inversion ND as [|? ? NI ND']; subst. rewrite map_app in ND'. now apply NoDup_app_r in ND'. }
    set (keep := sv_rename_keeps_null sv || str_mem (c_name o) (b_pk b)).
    set (f := fun d => mkDbCol (c_name c) (d_type d) (d_notnull d && keep) (d_autoinc d) (d_default d) (d_remarks d)).
    set (b1 := mkDbTable (b_name b) (b_remarks b) (b_cols (upd_col (c_name o) f b)) (rename_in (c_name o) (c_name c) (b_pk b)) (b_uqs b)).
    assert (Es : table_step sv b (LqRenameColumn (t_name t) (c_name c) (c_name o) (get_liquibase_type c)) = Some b1).
    { simpl. rewrite (named_false (o :: map (fun r => snd (snd r)) R ++ rest)); auto.
      unfold on_col. assert (N : named_col (c_name o) b = true) by (eapply named_iff; [exact Hb|simpl; auto]).
      rewrite N. cbn [b_name b_remarks b_cols b_pk b_uqs upd_col set_cols]. unfold b1. f_equal. f_equal.
      apply map_rename_absent. intros u Hu1. apply (Hu u (i, (c, o))); auto. now left. }
    (* the state after the rename and the not-null change *)
    assert (Step : exists b2, step (lq_rename_changes t (i, (c, o))) b = Some b2 /\
        has_cols (c :: map (fun r => snd (snd r)) R ++ rest) b2 /\ b_name b2 = b_name b /\ b_uqs b2 = b_uqs b /\
        b_pk b2 = rename_in (c_name o) (c_name c) (b_pk b)).
    { unfold lq_rename_changes. cbn [fst snd fold_opt]. rewrite Es. destruct (c_notnull o) eqn:En.
      - set (b2 := upd_col (c_name c) (with_notnull true) b1). exists b2.
        cbn [fold_opt]. simpl (table_step sv b1 _). unfold on_col.
        assert (N1 : named_col (c_name c) b1 = true).
        { apply named_col_in. unfold b1. cbn [b_cols upd_col set_cols]. destruct Hb as [ds [P F]].
          apply in_map_iff. inversion F as [|? d ? ds' Hd F']; subst. exists (f d). split; auto.
          apply in_map_iff. exists d. destruct Hd as [Hd _]. rewrite Hd, String.eqb_refl. split; auto.
          eapply Permutation_in; [symmetry; exact P|]. now left. }
        rewrite N1. split; [reflexivity|]. split; [|auto].
        assert (E2 : b_cols b2 = b_cols (upd_col (c_name o) (fun d => with_notnull true (f d)) b)).
        { unfold b2, b1. cbn [b_cols upd_col set_cols]. rewrite map_map. apply map_ext_in. intros d Hd.
          destruct (String.eqb (d_name d) (c_name o)) eqn:E.
          - simpl. now rewrite String.eqb_refl.
          - assert (X : String.eqb (d_name d) (c_name c) = false).
            { apply String.eqb_neq. intros C. apply Nc. apply has_cols_names in Hb.
              eapply Permutation_in; [exact Hb|]. rewrite <- C. now apply in_map. }
            now rewrite X. }
        assert (Hh : has_cols (c :: map (fun r => snd (snd r)) R ++ rest) (upd_col (c_name o) (fun d => with_notnull true (f d)) b)).
        { apply (has_cols_upd o c); auto. intros d [D1 [D2 [D3 [D4 [D5 D6]]]]]. unfold f. repeat split; simpl; auto.
          - rewrite D2. symmetry. now apply get_type_ext.
          - congruence.
          - rewrite <- D5. now apply default_ext.
          - intros Hc. rewrite (D6 Hc), (A10 Hc). reflexivity. }
        destruct Hh as [ds [P F]]. exists ds. split; auto. now rewrite E2.
      - exists b1. split; [reflexivity|]. split; [|auto].
        assert (Hh : has_cols (c :: map (fun r => snd (snd r)) R ++ rest) (upd_col (c_name o) f b)).
        { apply (has_cols_upd o c); auto. intros d [D1 [D2 [D3 [D4 [D5 D6]]]]]. unfold f. repeat split; simpl; auto.
          - rewrite D2. symmetry. now apply get_type_ext.
          - rewrite D3, A4, En. reflexivity.
          - congruence.
          - rewrite <- D5. now apply default_ext.
          - intros Hc. rewrite (D6 Hc), (A10 Hc). reflexivity. }
        destruct Hh as [ds [P F]]. exists ds. split; auto. }
    destruct Step as [b2 [S1 [S2 [S3 [S4 S5]]]]].
    rewrite (fold_opt_app _ _ _ _ _ S1).
    destruct (IH (c :: rest) b2) as [b' [I1 [I2 [I3 [I4 [I5 I6]]]]]]; auto.
    + intros j c' o' Hin. apply (HR j). now right.
    + eapply has_cols_perm; [|exact S2]. apply Permutation_middle.
    + intros u r Hu1 Hr. rewrite S4 in Hu1. apply Hu; auto. now right.
    + exists b'. split; auto. split.
      { eapply has_cols_perm; [|exact I2]. cbn [map fst snd app]. symmetry. apply Permutation_middle. }
      split; [congruence|]. split; [congruence|]. split.
      { rewrite I5, S5. unfold rename_in. destruct (b_pk b); simpl; split; congruence. }
      intros Hno. assert (Eb : b_pk b2 = b_pk b).
      { rewrite S5. apply rename_in_absent. apply (Hno (i, (c, o))). now left. }
      rewrite <- Eb. apply I6. intros r Hr. rewrite Eb. apply Hno. now right.
Qed.
End Cols.
