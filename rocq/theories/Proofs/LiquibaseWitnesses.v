(** Concrete cases for the Liquibase properties *)
From Coq Require Import String Ascii List NArith Bool Lia Sorting.Permutation.
From Verif.Model Require Import GoString Util Octopus DiffCore Liquibase.
From Verif.Spec Require Import Text DiffSpec LiquibaseSpec Database.
Import ListNotations.
Local Open Scope string_scope.

Definition lx_id := mkCol "id" "int64" "key" 0 0 true true false true "" "" [] None.
Definition lx_col (n : string) (uq : bool) := mkCol n "varchar" "" 50 0 true false uq false "" "" [] None.
Definition lx_num (n : string) (auto pk : bool) := mkCol n "int32" "" 0 0 true pk false auto "" "" [] None.
Definition lx_t (n : string) (cols : list column) := mkTable n cols "" "a" "" [].
Definition lx_s (ts : list table) := mkSchema "me" "db" "1" ts.
Definition lx_o := mkLqOption None "" "_uq" true.
Definition lx_ord {A} (l : list A) := rev l.

Lemma lx_order : forall {A}, iteration_order (@lx_ord A).
Proof. intros A l. unfold lx_ord. symmetry. apply Permutation_rev. Qed.

(** the database table the tool expects for a table without defaults *)
Definition lx_d (c : column) : dbcol :=
  mkDbCol (c_name c) (get_liquibase_type c) (c_notnull c) (c_autoinc c) no_default (c_desc c).
Definition lx_b (suffix : string) (t : table) : dbtable :=
  mkDbTable (t_name t) (t_desc t) (map lx_d (t_cols t)) (map c_name (filter c_pk (t_cols t)))
    (match map c_name (filter c_uq (t_cols t)) with [] => [] | ks => [(Some (t_name t ++ suffix), ks)] end).

Lemma lx_has_table : forall fk comments suffix t, (forall c, In c (t_cols t) -> c_default c = "") ->
  has_table fk comments suffix t (lx_b suffix t).
Proof.
  intros fk comments suffix t Hd. unfold lx_b. split; [reflexivity|]. split; [reflexivity|].
  assert (KEY : forall (p : column -> bool) k, In k (map c_name (filter p (t_cols t))) <->
    exists c, In c (t_cols t) /\ p c = true /\ c_name c = k).
  { intros p k. rewrite in_map_iff. split; intros [c H]; exists c; rewrite filter_In in *; tauto. }
  split; [|split].
  - exists (map lx_d (t_cols t)). split; [reflexivity|]. clear KEY. revert Hd. induction (t_cols t) as [|c cs IH]; intros Hd; simpl; constructor.
    + unfold is_col, lx_d, schema_default. simpl. rewrite (Hd c) by now left. repeat split.
    + apply IH. intros. apply Hd. now right.
  - intros k. apply KEY.
  - unfold named_unique. cbn [b_uqs t_name]. destruct (map c_name (filter c_uq (t_cols t))) as [|k ks] eqn:E.
    + left. split; auto. intros [k Hk]. apply (proj2 (KEY c_uq k)) in Hk. rewrite E in Hk. destruct Hk.
    + right. exists (k :: ks). split; auto. split; [|exists k; apply (proj1 (KEY c_uq k)); rewrite E; now left].
      intros k'. rewrite <- E. apply KEY.
Qed.

Lemma lx_database : forall fk comments suffix ts, (forall t c, In t ts -> In c (t_cols t) -> c_default c = "") ->
  is_database (has_table fk comments suffix) ts (map (lx_b suffix) ts).
Proof.
  intros fk comments suffix ts H. exists (map (lx_b suffix) ts). split; [reflexivity|].
  induction ts as [|t ts IH]; simpl; constructor.
  - apply lx_has_table. intros c. apply H. now left.
  - apply IH. intros t' c Ht. apply H. now right.
Qed.

Ltac in_cases := repeat match goal with
  | H : In _ (_ :: _) |- _ => destruct H as [<-|H]
  | H : _ = _ \/ _ |- _ => destruct H as [<-|H]
  | H : In _ [] |- _ => destruct H
  | H : False |- _ => destruct H
  end.

Ltac plain := split; [simpl; intuition discriminate|reflexivity].
Ltac nodup := repeat (constructor; [simpl; intuition discriminate|]); try constructor.
Ltac wf := split; [simpl; nodup|]; intros c Hc; simpl in Hc;
  repeat (destruct Hc as [Hc|Hc]; [subst c; split; [plain|try reflexivity; discriminate]|]); destruct Hc.

(** *** a unique column is added to a table without one *)
Definition lx_from1 := lx_s [lx_t "u" [lx_id; lx_col "mail" false]].
Definition lx_to1 := lx_s [lx_t "u" [lx_id; lx_col "mail" true]].

Lemma lq_migration_refuted : forall fk sv, exists o from to css s,
  NoDup (map t_name (s_tables from)) /\ NoDup (map t_name (s_tables to)) /\
  (forall t, In t (s_tables from) \/ In t (s_tables to) -> well_formed t) /\
  lq_diff fk lx_ord (fun _ => lx_ord) o from to = Some css /\
  is_database (has_table fk (lo_comments o) (lo_suffix o)) (s_tables from) s /\
  run_log sv css s = None.
Proof.
  intros fk sv. exists lx_o, lx_from1, lx_to1.
  eexists. exists (map (lx_b "_uq") (s_tables lx_from1)).
  split; [nodup|]. split; [nodup|]. split.
  { intros t [H|H]; simpl in H; in_cases; wf. }
  split; [vm_compute; reflexivity|]. split.
  { apply lx_database. intros t c Ht Hc. simpl in Ht. in_cases. simpl in Hc. in_cases; reflexivity. }
  vm_compute. reflexivity.
Qed.

(** *** auto-increment is removed *)
Definition lx_from2 := lx_s [lx_t "u" [lx_num "n" true true]].
Definition lx_to2 := lx_s [lx_t "u" [lx_num "n" false true]].

Lemma lq_autoinc_refuted : forall fk sv, exists o from to css s,
  NoDup (map t_name (s_tables from)) /\ NoDup (map t_name (s_tables to)) /\
  (forall t, In t (s_tables from) \/ In t (s_tables to) -> well_formed t) /\
  lq_diff fk lx_ord (fun _ => lx_ord) o from to = Some css /\
  is_database (has_table fk (lo_comments o) (lo_suffix o)) (s_tables from) s /\
  ~ exists s', run_log sv css s = Some s' /\ is_database (good_table fk (lo_comments o)) (s_tables to) s'.
Proof.
  intros fk sv. exists lx_o, lx_from2, lx_to2.
  eexists. exists (map (lx_b "_uq") (s_tables lx_from2)).
  split; [nodup|]. split; [nodup|]. split.
  { intros t [H|H]; simpl in H; in_cases; wf. }
  split; [vm_compute; reflexivity|]. split.
  { apply lx_database. intros t c Ht Hc. simpl in Ht. in_cases. simpl in Hc. in_cases; reflexivity. }
  intros [s' [R [bs [P F]]]]. vm_compute in R. injection R as <-.
  apply Permutation_length_1_inv in P. subst bs. inversion F as [|? ? ? ? G _]; subst.
  destruct G as [_ [_ [[ds [P F']] _]]]. simpl in P. apply Permutation_length_1_inv in P. subst ds.
  inversion F' as [|? ? ? ? C _]; subst. destruct C as [_ [_ [_ [C _]]]]. discriminate.
Qed.

(** *** the database was made by the generator: the unique column has two constraints *)
Definition lx_from3 := lx_s [lx_t "u" [lx_id; lx_col "mail" true; lx_col "name" false]].
Definition lx_to3 := lx_s [lx_t "u" [lx_id; lx_col "mail" false; lx_col "name" true]].

Lemma lq_generated_refuted : forall fk sv, exists o from to css0 s css,
  NoDup (map t_name (s_tables from)) /\ NoDup (map t_name (s_tables to)) /\
  (forall t, In t (s_tables from) \/ In t (s_tables to) -> well_formed t) /\
  lq_generate fk o from = Some css0 /\ run_log sv css0 [] = Some s /\
  lq_diff fk lx_ord (fun _ => lx_ord) o from to = Some css /\
  ~ exists s', run_log sv css s = Some s' /\ is_database (good_table fk (lo_comments o)) (s_tables to) s'.
Proof.
  intros fk [[] e r]; exists lx_o, lx_from3, lx_to3; eexists; eexists; eexists.
  - split; [nodup|]. split; [nodup|]. split.
    { intros t [H|H]; simpl in H; in_cases; wf. }
    split; [vm_compute; reflexivity|]. split; [vm_compute; reflexivity|]. split; [vm_compute; reflexivity|].
    intros [s' [R [bs [P F]]]]. vm_compute in R. injection R as <-.
    apply Permutation_length_1_inv in P. subst bs. inversion F as [|? ? ? ? G _]; subst.
    destruct G as [_ [_ [_ [_ [G _]]]]]. simpl in G.
    assert (X : uq_of (lx_t "u" [lx_id; lx_col "mail" false; lx_col "name" true]) "mail").
    { apply (G (None, ["mail"])); simpl; auto. }
    destruct X as [c [X1 [X2 X3]]]. simpl in X1. in_cases; discriminate.
  - split; [nodup|]. split; [nodup|]. split.
    { intros t [H|H]; simpl in H; in_cases; wf. }
    split; [vm_compute; reflexivity|]. split; [vm_compute; reflexivity|]. split; [vm_compute; reflexivity|].
    intros [s' [R _]]. vm_compute in R. discriminate.
Qed.

(** *** schemas that migrate *)
Definition lx_from4 := lx_s
  [lx_t "u" [lx_id; lx_col "mail" true; lx_col "code" false; lx_col "old" false; lx_num "n" false false];
   lx_t "gone" [lx_id]; lx_t "before" [lx_id; lx_col "x" true]].
Definition lx_to4 := lx_s
  [lx_t "u" [lx_id; lx_col "mail" true; lx_col "code" true; lx_col "renamed" false; lx_num "n" true false; lx_num "extra" false false];
   lx_t "after" [lx_id; lx_col "x" true]; lx_t "fresh" [lx_num "a" false true; lx_num "b" false true]].

(** *** the first column is added *)
Definition lx_from5 := lx_s [lx_t "u" [lx_col "b" false]].
Definition lx_to5 := lx_s [lx_t "u" [lx_col "a" true; lx_col "b" false]].

(** *** the key loses all its columns *)
Definition lx_from6 := lx_s [lx_t "u" [lx_num "n" false true; lx_col "a" false]].
Definition lx_to6 := lx_s [lx_t "u" [lx_col "a" false]].

Lemma lq_key_refuted : forall fk sv, exists o from to css s,
  NoDup (map t_name (s_tables from)) /\ NoDup (map t_name (s_tables to)) /\
  (forall t, In t (s_tables from) \/ In t (s_tables to) -> well_formed t) /\
  lq_diff fk lx_ord (fun _ => lx_ord) o from to = Some css /\
  is_database (has_table fk (lo_comments o) (lo_suffix o)) (s_tables from) s /\
  run_log sv css s = None.
Proof.
  intros fk sv. exists lx_o, lx_from6, lx_to6.
  eexists. exists (map (lx_b "_uq") (s_tables lx_from6)).
  split; [nodup|]. split; [nodup|]. split.
  { intros t [H|H]; simpl in H; in_cases; wf. }
  split; [vm_compute; reflexivity|]. split.
  { apply lx_database. intros t c Ht Hc. simpl in Ht. in_cases. simpl in Hc. in_cases; reflexivity. }
  destruct sv as [? [] ?]; vm_compute; reflexivity.
Qed.

(** *** a comma in a column name *)
Definition lx_comma := lx_s [lx_t "u" [lx_id; lx_col "a,b" true]].

Lemma lq_comma_refuted : forall fk sv, sv_pre_holds sv = true -> exists o sc css,
  NoDup (map t_name (s_tables sc)) /\ (forall t, In t (s_tables sc) -> NoDup (map c_name (t_cols t))) /\
  (forall t c, In t (s_tables sc) -> In c (t_cols t) -> c_pk c = true -> c_notnull c = true) /\
  lq_generate fk o sc = Some css /\ run_log sv css [] = None.
Proof.
  intros fk [p e r] E. simpl in E. subst p. exists lx_o, lx_comma. eexists.
  split; [nodup|]. split. { intros t H. simpl in H. in_cases. simpl. nodup. }
  split. { intros t c H1 H2. simpl in H1. in_cases. simpl in H2. in_cases; simpl; auto. }
  split; vm_compute; reflexivity.
Qed.

(** *** C26 *)
Lemma lq_drop_unique_refuted : forall fk, exists o from to css n name,
  NoDup (map t_name (s_tables from)) /\ NoDup (map t_name (s_tables to)) /\
  (forall t, In t (s_tables from) \/ In t (s_tables to) -> well_formed t) /\
  lq_diff fk lx_ord (fun _ => lx_ord) o from to = Some css /\
  In (LqDropUniqueConstraint n name) (lq_all css) /\
  forall old, In old (s_tables from) -> ~ exists k, uq_of old k.
Proof.
  intros fk. exists lx_o, lx_from1, lx_to1. eexists. exists "u", "u_uq".
  split; [nodup|]. split; [nodup|]. split.
  { intros t [H|H]; simpl in H; in_cases; wf. }
  split; [vm_compute; reflexivity|]. split; [left; reflexivity|].
  intros old Ho [k [c [Hc [Hu _]]]]. simpl in Ho. in_cases. simpl in Hc. in_cases; discriminate.
Qed.

Lemma lq_empty_change_set_refuted : forall fk, exists o from to css cs,
  NoDup (map t_name (s_tables from)) /\ NoDup (map t_name (s_tables to)) /\
  (forall t, In t (s_tables from) \/ In t (s_tables to) -> well_formed t) /\
  lq_diff fk lx_ord (fun _ => lx_ord) o from to = Some css /\ In cs css /\ lq_changes cs = [].
Proof.
  intros fk. exists lx_o, lx_to1, lx_from1. eexists. exists (mkLqCS "1-2" "me" false []).
  split; [nodup|]. split; [nodup|]. split.
  { intros t [H|H]; simpl in H; in_cases; wf. }
  split; [vm_compute; reflexivity|]. split; [right; left; reflexivity|reflexivity].
Qed.

(** *** C28: the new first column is put last *)
Lemma lq_first_column_refuted : forall fk sv, exists o from to css n adds t b b',
  NoDup (map t_name (s_tables from)) /\ NoDup (map t_name (s_tables to)) /\
  (forall t, In t (s_tables from) \/ In t (s_tables to) -> well_formed t) /\
  lq_diff fk lx_ord (fun _ => lx_ord) o from to = Some css /\
  In (LqAddColumn n adds) (lq_all css) /\ In t (s_tables to) /\ t_name t = n /\
  map d_name (b_cols b) = filter (fun k => negb (str_mem k (map lc_name adds))) (map c_name (t_cols t)) /\
  table_step sv b (LqAddColumn n adds) = Some b' /\ map d_name (b_cols b') <> map c_name (t_cols t).
Proof.
  intros fk sv. exists lx_o, lx_from5, lx_to5. eexists. exists "u". eexists.
  exists (lx_t "u" [lx_col "a" true; lx_col "b" false]), (lx_b "_uq" (lx_t "u" [lx_col "b" false])). eexists.
  split; [nodup|]. split; [nodup|]. split.
  { intros t [H|H]; simpl in H; in_cases; wf. }
  split; [vm_compute; reflexivity|]. split; [right; left; reflexivity|]. split; [left; reflexivity|].
  split; [reflexivity|]. split; [reflexivity|]. split; [vm_compute; reflexivity|]. discriminate.
Qed.

(** *** the case of C25 *)
Definition lx_sv := mkServer true false false.
Definition lx_log4 : list lq_cset :=
  match lq_diff (fun _ => false) lx_ord (fun _ => lx_ord) lx_o lx_from4 lx_to4 with Some l => l | None => [] end.

Lemma lx_case4_diff : lq_diff (fun _ => false) lx_ord (fun _ => lx_ord) lx_o lx_from4 lx_to4 = Some lx_log4.
Proof. vm_compute. reflexivity. Qed.

Lemma lx_case4_wf : forall t, In t (s_tables lx_from4) \/ In t (s_tables lx_to4) -> well_formed t.
Proof. intros t [H|H]; simpl in H; in_cases; wf. Qed.

Lemma lx_case4_migratable : forall t old, In t (s_tables lx_to4) -> selected (lo_filter lx_o) t ->
  In old (s_tables lx_from4) -> t_name old = t_name t -> migratable (fun _ => false) lx_sv (lq_all lx_log4) old t.
Proof.
  intros t old Ht _ Ho E. simpl in Ht, Ho. in_cases; try discriminate E. constructor.
  - right. exists "mail", (lx_col "mail" true). simpl. auto.
  - intros c o Hc Ho E1 E2. simpl in Hc, Ho. in_cases; try discriminate; reflexivity.
  - intros c o Hc Ho E1 E2. simpl in Hc, Ho. in_cases; try discriminate; reflexivity.
  - intros c o Hc Ho E1 E2. simpl in Hc, Ho. in_cases; try discriminate; reflexivity.
  - right. right. exists "id". split; [exists lx_id; simpl; auto|].
    intros H. vm_compute in H. repeat (destruct H as [H|H]; [discriminate|]). destruct H.
  - right. left. exists lx_id. split; [now left|].
    intros H. vm_compute in H. repeat (destruct H as [H|H]; [discriminate|]). destruct H.
Qed.

Lemma lx_case4_database :
  is_database (has_table (fun _ => false) true "_uq") (s_tables lx_from4) (map (lx_b "_uq") (s_tables lx_from4)).
Proof. apply lx_database. intros t c Ht Hc. simpl in Ht. in_cases; simpl in Hc; in_cases; reflexivity. Qed.
