(** DDL and Flyway scripts run on the server *)
From Coq Require Import String Ascii List NArith ZArith Bool Lia Sorting.Permutation.
From Verif.Model Require Import GoString Util Octopus DiffCore Diff Mysql DiffWriters.
From Verif.Spec Require Import Text Order DiffSpec MysqlGrammar MysqlSpec FlywaySpec ServerSpec.
From Verif.Proofs Require Import ListLemmas StringLemmas OctopusProofs UtilProofs DiffCoreProofs DiffProofs DiffFacts MysqlTables
  FlywayFacts ServerProofs FlywayTable.
From Verif.Proofs Require SchemaMigration DatabaseProofs.
Import ListNotations.
Local Open Scope string_scope.
Local Open Scope list_scope.

(** ** Tables by name *)
Lemma find_sql_none : forall n s, find_sql n s = None <-> ~ In n (map q_table s).
Proof.
  intros n s. unfold find_sql. induction s as [|b s IH]; simpl; [tauto|].
  destruct (String.eqb (q_table b) n) eqn:E.
  - apply String.eqb_eq in E. split; [discriminate|]. intros C. exfalso. apply C. auto.
  - apply String.eqb_neq in E. rewrite IH. tauto.
Qed.

Lemma find_sql_in : forall s b, NoDup (map q_table s) -> In b s -> find_sql (q_table b) s = Some b.
Proof.
  intros s b. unfold find_sql. induction s as [|x s IH]; simpl; intros D H; [destruct H|].
  inversion D as [|? ? NI ND]; subst. destruct H as [->|H]; [now rewrite String.eqb_refl|].
  destruct (String.eqb (q_table x) (q_table b)) eqn:E; auto.
  apply String.eqb_eq in E. exfalso. apply NI. rewrite E. now apply in_map.
Qed.

Lemma put_sql_absent : forall n b' s, ~ In n (map q_table s) -> put_sql n b' s = s.
Proof.
  intros n b' s. unfold put_sql. induction s as [|x s IH]; simpl; intros H; auto.
  destruct (String.eqb (q_table x) n) eqn:E; [apply String.eqb_eq in E; tauto|]. rewrite IH; tauto.
Qed.

Lemma put_sql_perm : forall s b b' rest, Permutation s (b :: rest) -> NoDup (map q_table s) ->
  Permutation (put_sql (q_table b) b' s) (b' :: rest).
Proof.
  intros s b b' rest P D.
  assert (D' : NoDup (map q_table (b :: rest))) by (eapply Permutation_NoDup; [apply Permutation_map; exact P|exact D]).
  unfold put_sql. rewrite (Permutation_map _ P). simpl. rewrite String.eqb_refl. constructor.
  inversion D' as [|? ? NI ND]; subst. fold (put_sql (q_table b) b' rest). now rewrite put_sql_absent.
Qed.

Lemma drop_sql_perm : forall s b rest, Permutation s (b :: rest) -> NoDup (map q_table s) ->
  Permutation (filter (fun x => negb (String.eqb (q_table x) (q_table b))) s) rest.
Proof.
  intros s b rest P D.
  assert (D' : NoDup (map q_table (b :: rest))) by (eapply Permutation_NoDup; [apply Permutation_map; exact P|exact D]).
  rewrite (DatabaseProofs.Permutation_filter' _ _ _ P). simpl. rewrite String.eqb_refl. simpl.
  inversion D' as [|? ? NI ND]; subst. clear - NI. induction rest as [|x rest IH]; simpl in *; auto.
  destruct (String.eqb (q_table x) (q_table b)) eqn:E; simpl; [apply String.eqb_eq in E; tauto|].
  constructor. apply IH. tauto.
Qed.

Lemma run_stmts_app : forall ms ms' s s', run_stmts s ms = Some s' -> run_stmts s (ms ++ ms') = run_stmts s' ms'.
Proof.
  induction ms as [|m ms IH]; cbn [run_stmts app]; intros ms' s s' H; [congruence|].
  destruct (run_stmt s m); [eauto|discriminate].
Qed.

(** ** Statements about one table *)
Lemma add_keys_table : forall ks b b', add_keys ks b = Some b' -> q_table b' = q_table b.
Proof.
  intros ks b b' H. unfold add_keys, checked in H. destruct (primary_of ks) as [|p [|p' ps]]; [| |discriminate].
  - destruct (table_ok _); [|discriminate]. apply (f_equal (fun x => match x with Some y => q_table y | None => "" end)) in H.
    cbn in H. congruence.
  - destruct (q_pk b); [|discriminate]. destruct (table_ok _); [|discriminate].
    apply (f_equal (fun x => match x with Some y => q_table y | None => "" end)) in H. cbn in H. congruence.
Qed.

Lemma alter_fun_table : forall m b b', alter_fun m b = Some b' -> q_table b' = q_table b.
Proof.
  intros m b b' H. destruct m; cbn [alter_fun] in H; try discriminate.
  - destruct (str_in _ _); [|discriminate]. apply add_keys_table in H. exact H.
  - destruct (q_pk b); [discriminate|]. unfold checked in H. destruct (table_ok _); [|discriminate].
    apply (f_equal (fun x => match x with Some y => q_table y | None => "" end)) in H. cbn in H. congruence.
  - now apply add_keys_table in H.
Qed.

Lemma run_about : forall n m s b, about n m -> find_sql n s = Some b ->
  run_stmt s m = option_map (fun b' => put_sql n b' s) (alter_fun m b).
Proof.
  intros n m s b A F. destruct m; cbn [about] in A; try tauto; subst; cbn [run_stmt alter_fun]; unfold alter; now rewrite F.
Qed.

Lemma put_put : forall n b b' s, q_table b = n -> put_sql n b' (put_sql n b s) = put_sql n b' s.
Proof.
  intros n b b' s E. unfold put_sql. rewrite map_map. apply map_ext. intros x.
  destruct (String.eqb (q_table x) n) eqn:Ex; [|now rewrite Ex]. now rewrite E, String.eqb_refl.
Qed.

Lemma put_same : forall n b s, NoDup (map q_table s) -> find_sql n s = Some b -> put_sql n b s = s.
Proof.
  intros n b s D F. unfold put_sql. rewrite <- (map_id s) at 2. apply map_ext_in. intros x X.
  destruct (String.eqb (q_table x) n) eqn:E; auto. apply String.eqb_eq in E.
  rewrite <- E in F. rewrite (find_sql_in s x D X) in F. congruence.
Qed.

Lemma find_put : forall n b b' s, find_sql n s = Some b -> q_table b' = n -> find_sql n (put_sql n b' s) = Some b'.
Proof.
  intros n b b' s F E. unfold find_sql, put_sql in *. induction s as [|x s IH]; [discriminate|].
  cbn [find map] in *. destruct (String.eqb (q_table x) n) eqn:Ex.
  - rewrite E, String.eqb_refl. reflexivity.
  - rewrite Ex. auto.
Qed.

Lemma run_table : forall n ms s b b', Forall (about n) ms -> NoDup (map q_table s) -> find_sql n s = Some b -> q_table b = n ->
  alter_all ms b = Some b' -> run_stmts s ms = Some (put_sql n b' s) /\ q_table b' = n.
Proof.
  intros n ms s b b' A D F E R.
  assert (G : forall ms b0, Forall (about n) ms -> q_table b0 = n -> alter_all ms b0 = Some b' ->
     run_stmts (put_sql n b0 s) ms = Some (put_sql n b' s) /\ q_table b' = n).
  { clear A R ms. induction ms as [|m ms IH]; cbn [alter_all run_stmts]; intros b0 A E0 R.
    - injection R as <-. auto.
    - inversion A as [|? ? A1 A2]; subst. destruct (alter_fun m b0) as [b1|] eqn:Em; [|discriminate].
      rewrite (run_about (q_table b) m (put_sql (q_table b) b0 s) b0 A1), Em. 2:{ eapply find_put; eauto. }
      cbn [option_map]. rewrite put_put by auto. apply IH; auto.
      apply alter_fun_table in Em. congruence. }
  specialize (G ms b A E R). now rewrite (put_same n b s D F) in G.
Qed.

(** ** New tables *)
Lemma columns_means_of : forall cs cds, Forall2 column_means cs cds ->
  flat_map keys_of cds = [] /\
  (forall pk, (forall c, In c cs -> str_in (c_name c) pk = c_pk c) ->
     Forall2 described_column cs (map (not_null_in pk) (map column_of cds))).
Proof.
  intros cs cds F. induction F as [|c cd cs cds M F [I1 I4]].
  - split; auto. intros. constructor.
  - destruct (column_of_means _ _ M) as [d [u [V [E [Ek En]]]]]. cbn [flat_map map filter]. rewrite Ek, I1, E. cbn [q_name q_autoinc].
    split; auto. intros pk H. constructor.
    + apply described_column_iff. exists (cd_type cd), d, u. split; auto. unfold not_null_in. cbn.
      rewrite H by now left. reflexivity.
    + apply I4. intros c' I. apply H. now right.
Qed.

Lemma filter_one : forall {A} (p : A -> bool) (l : list A), NoDup l ->
  (forall x y, In x l -> In y l -> p x = true -> p y = true -> x = y) -> length (filter p l) <= 1.
Proof.
  intros A p l D H. assert (D' : NoDup (filter p l)) by now apply NoDup_filter.
  destruct (filter p l) as [|x [|y r]] eqn:E; cbn [length]; auto. exfalso.
  assert (X : In x (filter p l)) by (rewrite E; now left). assert (Y : In y (filter p l)) by (rewrite E; right; now left).
  apply filter_In in X, Y. assert (x = y) by (apply H; tauto). subst. inversion D' as [|? ? NI]; subst. apply NI. now left.
Qed.

(** the table before the server checks it *)
Definition unchecked (suffix : string) (t : table) (b : sql_table) : Prop :=
  q_table b = t_name t /\ Forall2 described_column (t_cols t) (q_cols b) /\
  q_pk b = map c_name (filter c_pk (t_cols t)) /\
  q_keys b = key_if (map c_name (filter c_uq (t_cols t))) (KUniq (append (t_name t) suffix)) ++
             map (fun i => KIndex (ix_name i) (ix_cols i)) (t_indices t).

Lemma pk_names : forall t k, In k (map c_name (filter c_pk (t_cols t))) <-> pk_column t k.
Proof. intros t k. unfold pk_column. rewrite in_map_iff. split; intros [c H]; exists c; rewrite filter_In in *; tauto. Qed.

Lemma uq_names : forall t k, In k (map c_name (filter c_uq (t_cols t))) <-> uq_column t k.
Proof. intros t k. unfold uq_column. rewrite in_map_iff. split; intros [c H]; exists c; rewrite filter_In in *; tauto. Qed.

Lemma new_table_checked : forall suffix t n cds ks, NoDup (map c_name (t_cols t)) -> table_means suffix t (SCreateTable n cds ks) ->
  n = t_name t /\ exists b, new_table n cds ks = checked b /\ unchecked suffix t b.
Proof.
  intros suffix t n cds ks Nd [cds' [F E]]. injection E as -> <- ->. split; auto.
  destruct (columns_means_of _ _ F) as [K1 K4].
  set (pk := map c_name (filter c_pk (t_cols t))).
  set (us := key_if (map c_name (filter c_uq (t_cols t))) (KUniq (t_name t ++ suffix))).
  set (ixs := map (fun i => KIndex (ix_name i) (ix_cols i)) (t_indices t)).
  set (b := mkSqlTable (t_name t) (map (not_null_in pk) (map column_of cds)) pk (us ++ ixs)).
  exists b. split.
  - unfold new_table. rewrite K1. cbn [app]. unfold add_keys. cbn [q_pk q_cols q_keys q_table].
    fold us ixs pk.
    assert (Pr : primary_of (key_if pk KPrimaryKey ++ us ++ ixs) = match pk with [] => [] | _ => [pk] end).
    { unfold primary_of. rewrite !flat_map_app.
      replace (flat_map _ us) with (@nil (list string)) by (unfold us, key_if; destruct (map c_name (filter c_uq _)); reflexivity).
      replace (flat_map _ ixs) with (@nil (list string)) by (unfold ixs; clear; induction (t_indices t); auto).
      unfold key_if. destruct pk; reflexivity. }
    assert (Ot : others_of (key_if pk KPrimaryKey ++ us ++ ixs) = us ++ ixs).
    { unfold others_of. rewrite !filter_app.
      assert (X : filter (fun k => match k with KPrimaryKey _ => false | _ => true end) (key_if pk KPrimaryKey) = [])
        by (unfold key_if; destruct pk; reflexivity).
      rewrite X. cbn [app]. f_equal.
      - unfold us, key_if. destruct (map c_name (filter c_uq _)); reflexivity.
      - unfold ixs. clear. induction (t_indices t); cbn; congruence. }
    rewrite Pr, Ot. destruct pk as [|p pk0] eqn:Ep; cbn [app]; reflexivity.
  - split; [reflexivity|]. split; [|split; reflexivity].
    apply K4. intros c I. apply eq_iff_eq_true. rewrite str_in_iff. unfold pk. rewrite pk_names. now apply pk_column_flag.
Qed.

Lemma unchecked_ok : forall suffix t b, unchecked suffix t b -> (ok b <-> acceptable suffix t).
Proof.
  intros suffix t b [B1 [Fd [Epk Eks]]].
  set (us := key_if (map c_name (filter c_uq (t_cols t))) (KUniq (t_name t ++ suffix))) in *.
  set (ixs := map (fun i => KIndex (ix_name i) (ix_cols i)) (t_indices t)) in *.
  assert (Nb : map q_name (q_cols b) = map c_name (t_cols t)).
  { clear - Fd. induction Fd as [|c q cs qs H F IH]; auto. apply described_column_iff in H. destruct (is_column_name _ _ _ H) as [X _].
    cbn [map]. congruence. }
  assert (Au : map c_name (filter c_autoinc (t_cols t)) = map q_name (filter q_autoinc (q_cols b))).
  { clear - Fd. induction Fd as [|c q cs qs H F IH]; auto. apply described_column_iff in H.
    destruct (is_column_name _ _ _ H) as [X [Y _]]. cbn [filter]. rewrite Y. destruct (c_autoinc c); cbn [map]; congruence. }
  assert (Kn : flat_map key_name_of ixs = map ix_name (t_indices t)).
  { unfold ixs. clear. induction (t_indices t) as [|i l IH]; auto. cbn [map flat_map key_name_of app]. now rewrite IH. }
  assert (Kc : map key_columns_of ixs = map ix_cols (t_indices t)).
  { unfold ixs. now rewrite map_map. }
  assert (Un : forall x, In x (flat_map key_name_of us) <-> x = append (t_name t) suffix /\ exists k, uq_column t k).
  { intros x. unfold us, key_if. pose proof (uq_names t) as U. destruct (map c_name (filter c_uq (t_cols t))) as [|k r].
    - cbn. split; [tauto|]. intros [_ [k C]]. now apply U in C.
    - cbn. split; [intros [<-|[]]; split; auto; exists k; apply U; now left|]. intros [-> _]. now left. }
  assert (Uc : forall l, In l (map key_columns_of us) <-> l = map c_name (filter c_uq (t_cols t)) /\ exists k, uq_column t k).
  { intros x. unfold us, key_if. pose proof (uq_names t) as U. destruct (map c_name (filter c_uq (t_cols t))) as [|k r].
    - cbn. split; [tauto|]. intros [_ [k C]]. now apply U in C.
    - cbn. split; [intros [<-|[]]; split; auto; exists k; apply U; now left|]. intros [-> _]. now left. }
  assert (Al : forall l, l <> [] -> (In l (all_keys b) <-> In l (map c_name (filter c_pk (t_cols t)) :: other_keys t))).
  { intros l Hl. unfold all_keys, other_keys. rewrite Epk, Eks, map_app, Kc. cbn [In]. rewrite in_app_iff, Uc. split.
    - intros [A|[[A _]|A]]; auto.
    - intros [A|[A|A]]; auto. right. left. split; auto. destruct l as [|k r]; [congruence|]. exists k. apply uq_names.
      rewrite A. now left. }
  split.
  - intros [O1 O2 O3 O4 O5 O6]. rewrite Nb in O2, O3. constructor.
    + split; auto. intros C. rewrite C in Fd. inversion Fd. congruence.
    + intros i k I J. apply (O3 (ix_cols i)); auto. unfold all_keys. right. rewrite Eks, map_app, Kc. apply in_or_app. right.
      now apply in_map.
    + rewrite Eks, flat_map_app, Kn in O4. split; [now apply NoDup_app_r in O4|]. intros X C.
      apply (NoDup_app_disj _ _ (append (t_name t) suffix) O4); [|exact C]. now apply Un.
    + intros c c' I I' A A'. rewrite <- (map_length q_name), <- Au, map_length in O5.
      assert (X : In c (filter c_autoinc (t_cols t))) by now apply filter_In.
      assert (X' : In c' (filter c_autoinc (t_cols t))) by now apply filter_In.
      destruct (filter c_autoinc (t_cols t)) as [|x [|y r]]; [destruct X| |cbn in O5; lia].
      destruct X as [<-|[]], X' as [<-|[]]. reflexivity.
    + intros c I A. destruct (Forall2_in_l _ _ _ _ Fd I) as [q [Q Hq]]. apply described_column_iff in Hq.
      destruct (is_column_name _ _ _ Hq) as [Nq [Aq _]]. destruct (O6 q Q) as [r R]; [congruence|]. rewrite Nq in R.
      exists r. apply Al; [discriminate|exact R].
  - intros Ac. destruct (ac_columns _ _ Ac) as [Ne Nd]. constructor.
    + intros C. rewrite C in Fd. inversion Fd. congruence.
    + now rewrite Nb.
    + intros l k I J. rewrite Nb. apply Al in I; [|intros ->; destruct J].
      destruct I as [<-|[<-|I]].
      * apply pk_names in J. destruct J as [c [Ic [_ <-]]]. now apply in_map.
      * apply uq_names in J. destruct J as [c [Ic [_ <-]]]. now apply in_map.
      * apply in_map_iff in I. destruct I as [i [<- I]]. eapply ac_indices; eauto.
    + rewrite Eks, flat_map_app, Kn. destruct (ac_names _ _ Ac) as [N N']. apply NoDup_app_intro; auto.
      * unfold us, key_if. destruct (map c_name (filter c_uq (t_cols t))); cbn; [constructor|constructor; [intros []|constructor]].
      * intros k I. apply Un in I. destruct I as [-> X]. auto.
    + rewrite <- (map_length q_name), <- Au, map_length. apply filter_one; [eapply NoDup_map_inv; eauto|].
      intros x y X Y. now apply (ac_autoinc _ _ Ac).
    + intros q Q A. destruct (Forall2_in_r _ _ _ _ Fd Q) as [c [Ic Hc]]. apply described_column_iff in Hc.
      destruct (is_column_name _ _ _ Hc) as [Nq [Aq _]]. rewrite Nq.
      destruct (ac_key _ _ Ac c Ic) as [r R]; [congruence|]. exists r. apply Al; [discriminate|exact R].
Qed.

Lemma unchecked_described : forall suffix t b, unchecked suffix t b -> ok b -> described_table suffix t b.
Proof.
  intros suffix t b [B1 [B2 [B3 B4]]] K. split; auto. split; auto. split; [intros k; rewrite B3; apply pk_names|].
  split; auto. now apply table_ok_iff.
Qed.

Lemma new_table_ok : forall suffix t n cds ks, acceptable suffix t -> table_means suffix t (SCreateTable n cds ks) ->
  exists b, new_table n cds ks = Some b /\ described_table suffix t b.
Proof.
  intros suffix t n cds ks Ac M. destruct (ac_columns _ _ Ac) as [_ Nd].
  destruct (new_table_checked suffix t n cds ks Nd M) as [_ [b [N U]]]. apply (unchecked_ok _ _ _ U) in Ac.
  exists b. split; [|now apply unchecked_described]. rewrite N. unfold checked. now rewrite (proj2 (table_ok_iff _) Ac).
Qed.

(** and only tables like that are created *)
Lemma means_names : forall cs cds, Forall2 column_means cs cds -> map q_name (map column_of cds) = map c_name cs.
Proof.
  intros cs cds F. induction F as [|c cd cs cds M F IH]; auto.
  destruct (column_of_means _ _ M) as [d [u [_ [E _]]]]. cbn [map]. rewrite E, IH. reflexivity.
Qed.

Lemma new_table_acceptable : forall suffix t n cds ks b, new_table n cds ks = Some b ->
  table_means suffix t (SCreateTable n cds ks) -> acceptable suffix t.
Proof.
  intros suffix t n cds ks b H M.
  assert (Nd : NoDup (map c_name (t_cols t))).
  { destruct M as [cds' [F E]]. assert (cds' = cds) by congruence. subst cds'. rewrite <- (means_names _ _ F).
    assert (X : exists pk p os, checked (mkSqlTable n (map (not_null_in pk) (map column_of cds)) p os) = Some b).
    { unfold new_table, add_keys in H. cbn [q_pk q_cols q_keys q_table] in H.
      destruct (primary_of _) as [|p [|? ?]]; [| |discriminate]; eauto. }
    destruct X as [pk [p [os X]]]. unfold checked in X. destruct (table_ok _) eqn:Ok; [|discriminate].
    apply table_ok_iff in Ok. pose proof (ok_names _ Ok) as N. cbn [q_cols] in N. rewrite map_map in N. exact N. }
  destruct (new_table_checked suffix t n cds ks Nd M) as [_ [b' [N U]]]. rewrite N in H. unfold checked in H.
  destruct (table_ok b') eqn:Ok; [|discriminate]. apply table_ok_iff in Ok. now apply (unchecked_ok _ _ _ U) in Ok.
Qed.

(** ** Many tables *)
Section Many.
  Variable suffix : string.

  Lemma described_table_names : forall ts bs, Forall2 (described_table suffix) ts bs -> map q_table bs = map t_name ts.
  Proof. intros ts bs F. induction F as [|t b ts bs [B _] F IH]; simpl; congruence. Qed.

  Lemma kept_tables : forall (K : list (table * table)) logs bs rest s,
    Forall2 (fun p ms => t_name (snd p) = t_name (fst p) /\ forall b, described_table suffix (snd p) b ->
       Forall (about (t_name (fst p))) ms /\ exists b', alter_all ms b = Some b' /\ described_table suffix (fst p) b') K logs ->
    Forall2 (described_table suffix) (map snd K) bs -> Permutation s (bs ++ rest) -> NoDup (map q_table s) ->
    exists s' bs', run_stmts s (concat logs) = Some s' /\ Permutation s' (bs' ++ rest) /\
      Forall2 (described_table suffix) (map fst K) bs' /\ NoDup (map q_table s') /\ Permutation (map q_table s') (map q_table s).
  Proof.
    intros K logs bs rest s F. revert bs rest s. induction F as [|[t old] ms K logs [I1 I2] F IH]; intros bs rest s B P D.
    - inversion B; subst. exists s, []. split; [reflexivity|]. split; [exact P|]. split; [constructor|]. split; auto.
    - cbn [map snd] in B. inversion B as [|? b ? bs0 B1 B2]; subst. cbn [fst snd] in I1, I2. cbn [concat].
      destruct (I2 b B1) as [A [b' [S1 B1']]].
      assert (Hin : In b s) by (eapply Permutation_in; [symmetry; exact P|now left]).
      assert (Nb : q_table b = t_name t) by (destruct B1 as [B1 _]; congruence).
      assert (Nb' : q_table b' = t_name t) by (destruct B1' as [B1' _]; congruence).
      destruct (run_table (t_name t) ms s b b' A D) as [R _]; auto.
      { rewrite <- Nb. now apply find_sql_in. }
      rewrite (run_stmts_app _ _ _ _ R).
      assert (P1 : Permutation (put_sql (t_name t) b' s) (b' :: bs0 ++ rest)).
      { rewrite <- Nb. now apply put_sql_perm. }
      assert (PN : Permutation (map q_table (put_sql (t_name t) b' s)) (map q_table s)).
      { rewrite (Permutation_map _ P1), (Permutation_map _ P). simpl. rewrite Nb, Nb'. reflexivity. }
      destruct (IH bs0 (b' :: rest) (put_sql (t_name t) b' s) B2) as [s' [bs' [R' [P' [F' [D' N']]]]]].
      + rewrite P1. apply Permutation_middle.
      + eapply Permutation_NoDup; [symmetry; exact PN|exact D].
      + exists s', (b' :: bs'). split; auto. split.
        * rewrite P'. simpl. symmetry. apply Permutation_middle.
        * split; [constructor; auto|]. split; auto. now rewrite N'.
  Qed.

  Lemma dropped_tables : forall bs rest s, Permutation s (bs ++ rest) -> NoDup (map q_table s) ->
    exists s', run_stmts s (map MDropTable (map q_table bs)) = Some s' /\ Permutation s' rest.
  Proof.
    induction bs as [|b bs IH]; intros rest s P D; [exists s; split; [reflexivity|exact P]|].
    cbn [map run_stmts run_stmt].
    assert (Hin : In b s) by (eapply Permutation_in; [symmetry; exact P|now left]).
    rewrite (find_sql_in s b D Hin). pose proof (drop_sql_perm _ _ _ P D) as P1.
    destruct (IH rest _ P1) as [s' [R P']]; [|eauto].
    eapply Permutation_NoDup; [symmetry; apply Permutation_map; exact P1|].
    assert (D' : NoDup (map q_table (b :: bs ++ rest))) by (eapply Permutation_NoDup; [apply Permutation_map; exact P|exact D]).
    now inversion D'.
  Qed.

  Definition key_kept (nw old : table) : Prop := (forall k, ~ uq_column nw k) /\ t_indices nw = t_indices old.

  Lemma no_uq_names : forall t, (forall k, ~ uq_column t k) -> map c_name (filter c_uq (t_cols t)) = [].
  Proof.
    intros t H. destruct (filter c_uq (t_cols t)) as [|c r] eqn:E; auto. exfalso. apply (H (c_name c)).
    assert (I : In c (filter c_uq (t_cols t))) by (rewrite E; now left). apply filter_In in I. exists c. tauto.
  Qed.

  Lemma renamed_described : forall nw old b, described_table suffix old b -> t_cols nw = t_cols old -> key_kept nw old ->
    described_table suffix nw (mkSqlTable (t_name nw) (q_cols b) (q_pk b) (q_keys b)).
  Proof.
    intros nw old b [B1 [B2 [B3 [B4 B5]]]] Ec [U I].
    assert (U' : forall k, ~ uq_column old k) by (intros k [c C]; apply (U k); exists c; now rewrite Ec).
    split; [reflexivity|]. cbn [q_cols q_pk q_keys]. split; [now rewrite Ec|]. split.
    - intros k. rewrite B3. unfold pk_column. now rewrite Ec.
    - split; [|exact B5]. rewrite B4, (no_uq_names _ U), (no_uq_names _ U'), I. reflexivity.
  Qed.

  Lemma renamed_tables : forall (R : list (nat * (table * table))) bs rest s,
    Forall2 (described_table suffix) (map (fun r => snd (snd r)) R) bs -> Permutation s (bs ++ rest) ->
    NoDup (map q_table s) -> NoDup (map (fun r => t_name (fst (snd r))) R) ->
    (forall r, In r R -> ~ In (t_name (fst (snd r))) (map q_table s) /\ t_cols (fst (snd r)) = t_cols (snd (snd r)) /\
       key_kept (fst (snd r)) (snd (snd r))) ->
    exists s' bs', run_stmts s (map (fun r => MRename (t_name (snd (snd r))) (t_name (fst (snd r)))) R) = Some s' /\
      Forall2 (described_table suffix) (map (fun r => fst (snd r)) R) bs' /\ Permutation s' (bs' ++ rest).
  Proof.
    induction R as [|[i [nw old]] R IH]; intros bs rest s F P D Dn HR.
    - inversion F; subst. exists s, []. split; [reflexivity|]. split; [constructor|exact P].
    - cbn [map fst snd] in F. inversion F as [|? b ? bs0 F1 F2]; subst. cbn [app] in P.
      destruct (HR (i, (nw, old)) (or_introl eq_refl)) as [H1 [H2 H3]]. cbn [fst snd] in H1, H2, H3.
      pose proof (renamed_described _ _ _ F1 H2 H3) as B1.
      set (b1 := mkSqlTable (t_name nw) (q_cols b) (q_pk b) (q_keys b)) in *.
      assert (Nb : q_table b = t_name old) by apply F1.
      assert (Hin : In b s) by (eapply Permutation_in; [symmetry; exact P|now left]).
      cbn [map fst snd run_stmts run_stmt]. rewrite (proj2 (find_sql_none _ _) H1). unfold alter.
      rewrite <- Nb, (find_sql_in s b D Hin). cbn [option_map]. fold b1.
      pose proof (put_sql_perm s b b1 (bs0 ++ rest) P D) as P1.
      cbn [map fst snd] in Dn. inversion Dn as [|? ? NI ND]; subst.
      assert (D' : NoDup (map q_table (b :: bs0 ++ rest))) by (eapply Permutation_NoDup; [apply Permutation_map; exact P|exact D]).
      assert (Sub : forall k, In k (map q_table (bs0 ++ rest)) -> In k (map q_table s)).
      { intros k Hk. eapply Permutation_in; [symmetry; apply Permutation_map; exact P|]. now right. }
      destruct (IH bs0 (b1 :: rest) (put_sql (q_table b) b1 s) F2) as [s' [bs' [R' [F' P']]]]; auto.
      + rewrite P1. apply Permutation_middle.
      + eapply Permutation_NoDup; [symmetry; apply Permutation_map; exact P1|]. cbn [map b1 q_table].
        inversion D' as [|? ? NI' ND']; subst. constructor; auto.
      + intros r Hr. destruct (HR r (or_intror Hr)) as [Q1 Q2]. split; auto. intros C.
        apply (Permutation_in _ (Permutation_map q_table P1)) in C. cbn [map b1 q_table] in C. destruct C as [C|C].
        * apply NI. rewrite C. now apply (in_map (fun r => t_name (fst (snd r)))).
        * apply Q1. now apply Sub.
      + exists s', (b1 :: bs'). split; auto. split; [constructor; auto|]. rewrite P'. simpl. symmetry. apply Permutation_middle.
  Qed.

  Lemma created_tables : forall ts sts s, Forall2 (table_means suffix) ts sts ->
    (forall t, In t ts -> acceptable suffix t /\ ~ In (t_name t) (map q_table s)) -> NoDup (map t_name ts) ->
    exists bs, run_stmts s (map MCreate sts) = Some (s ++ bs) /\ Forall2 (described_table suffix) ts bs.
  Proof.
    intros ts sts s F. revert s. induction F as [|t st ts sts M F IH]; intros s W D.
    - exists []. rewrite app_nil_r. split; [reflexivity|constructor].
    - cbn [map] in D. inversion D as [|? ? NI ND]; subst. destruct (W t (or_introl eq_refl)) as [W1 W2].
      cbn [map run_stmts run_stmt]. destruct st as [n cds ks|]; [|now destruct M as [? [_ C]]].
      destruct (new_table_ok suffix t n cds ks W1 M) as [b [N B]].
      assert (En : n = t_name t) by (destruct M as [cds' [_ C]]; congruence). subst n.
      rewrite (proj2 (find_sql_none _ _) W2), N. cbn [option_map].
      destruct (IH (s ++ [b])) as [bs [R' F']]; auto.
      + intros x Hx. destruct (W x (or_intror Hx)) as [X1 X2]. split; auto. rewrite map_app, in_app_iff. intros [C|[C|[]]]; auto.
        destruct B as [B _]. apply NI. rewrite <- B, C. now apply in_map.
      + exists (b :: bs). rewrite R', <- app_assoc. split; [reflexivity|]. now constructor.
  Qed.

  Lemma created_only : forall ts sts s s', Forall2 (table_means suffix) ts sts ->
    (forall t, In t ts -> ~ In (t_name t) (map q_table s)) -> NoDup (map t_name ts) ->
    run_stmts s (map MCreate sts) = Some s' -> Forall (acceptable suffix) ts.
  Proof.
    intros ts sts s s' F. revert s. induction F as [|t st ts sts M F IH]; intros s W D R; [constructor|].
    cbn [map] in D. inversion D as [|? ? NI ND]; subst. pose proof (W t (or_introl eq_refl)) as W2.
    cbn [map run_stmts run_stmt] in R. destruct st as [n cds ks|]; [|now destruct M as [? [_ C]]].
    assert (En : n = t_name t) by (destruct M as [cds' [_ C]]; congruence). subst n.
    rewrite (proj2 (find_sql_none _ _) W2) in R. destruct (new_table _ cds ks) as [b|] eqn:N; [|discriminate].
    cbn [option_map] in R. pose proof (new_table_acceptable _ _ _ _ _ _ N M) as Ac. constructor; auto.
    apply (IH (s ++ [b])); auto. intros x Hx. rewrite map_app, in_app_iff. intros [C|[C|[]]]; [apply (W x (or_intror Hx) C)|].
    destruct (new_table_ok _ _ _ _ _ Ac M) as [b' [N' [B _]]]. assert (b' = b) by congruence. subst b'.
    apply NI. rewrite <- B, C. now apply in_map.
  Qed.

  (** a table that is there is left as it is *)
  Lemma present_tables : forall ts sts s, Forall2 (table_means suffix) ts sts ->
    (forall t, In t ts -> In (t_name t) (map q_table s)) -> run_stmts s (map MCreate sts) = Some s.
  Proof.
    intros ts sts s F. induction F as [|t st ts sts M F IH]; intros W; [reflexivity|].
    cbn [map run_stmts run_stmt]. destruct st as [n cds ks|]; [|now destruct M as [? [_ C]]].
    assert (En : n = t_name t) by (destruct M as [cds' [_ C]]; congruence). subst n.
    destruct (find_sql (t_name t) s) as [b|] eqn:E.
    - apply IH. intros x Hx. apply W. now right.
    - apply find_sql_none in E. exfalso. apply E. apply W. now left.
  Qed.
End Many.

(** ** Reading off the statements *)
Lemma Forall2_app_l : forall {A B} (R : A -> B -> Prop) xs ys zs, Forall2 R (xs ++ ys) zs ->
  exists z1 z2, zs = z1 ++ z2 /\ Forall2 R xs z1 /\ Forall2 R ys z2.
Proof. intros A B R xs ys zs H. apply Forall2_app_inv_l in H. destruct H as [z1 [z2 [H1 [H2 ->]]]]. eauto. Qed.

Lemma Forall2_concat_l : forall {A B} (R : A -> B -> Prop) xss zs, Forall2 R (concat xss) zs ->
  exists zss, zs = concat zss /\ Forall2 (Forall2 R) xss zss.
Proof.
  intros A B R. induction xss as [|xs xss IH]; cbn [concat]; intros zs H.
  - inversion H; subst. exists []. split; [reflexivity|constructor].
  - apply Forall2_app_l in H. destruct H as [z1 [z2 [-> [H1 H2]]]]. destruct (IH _ H2) as [zss [-> H3]].
    exists (z1 :: zss). split; [reflexivity|now constructor].
Qed.

Lemma drops_sql : forall suffix ts ls, Forall2 (sql_of suffix) (map DropTable ts) ls -> concat ls = map MDropTable (map t_name ts).
Proof.
  induction ts as [|t ts IH]; cbn [map]; intros ls H; inversion H as [|? l ? ls' H1 H2]; subst; auto.
  inversion H1 as [| | | | | | | |? Si]; subst; [|now destruct Si]. cbn [concat app]. now rewrite (IH _ H2).
Qed.

Lemma creates_sql : forall suffix ts ls, Forall2 (sql_of suffix) (map CreateTable ts) ls ->
  exists sts, Forall2 (table_means suffix) ts sts /\ concat ls = map MCreate sts.
Proof.
  induction ts as [|t ts IH]; cbn [map]; intros ls H; inversion H as [|? l ? ls' H1 H2]; subst; [exists []; split; [constructor|auto]|].
  destruct (IH _ H2) as [sts [F E]].
  inversion H1 as [? st M| | | | | | | |? Si]; subst; [|now destruct Si]. exists (st :: sts). split; [now constructor|].
  cbn [concat app map]. now rewrite E.
Qed.

Lemma renames_sql : forall suffix (R : list (nat * (table * table))) ls,
  Forall2 (sql_of suffix) (flat_map (rename_changes suffix) R) ls ->
  concat ls = map (fun r => MRename (t_name (snd (snd r))) (t_name (fst (snd r)))) R.
Proof.
  assert (Q : forall suffix ch l, sql_of suffix ch l -> silent ch -> l = []).
  { intros suffix ch l H S. inversion H; subst; cbn in S; tauto || reflexivity. }
  intros suffix. induction R as [|[i [nw old]] R IH]; cbn [flat_map]; intros ls H.
  - inversion H; subst. reflexivity.
  - apply Forall2_app_l in H. destruct H as [l1 [l2 [-> [H1 H2]]]]. rewrite concat_app, (IH _ H2). cbn [map fst snd].
    unfold rename_changes in H1. cbn [fst snd] in H1.
    apply Forall2_app_l in H1. destruct H1 as [m1 [m2 [-> [H1 H3]]]].
    apply Forall2_app_l in H3. destruct H3 as [m3 [m4 [-> [H3 H4]]]].
    assert (E1 : concat m1 = []).
    { destruct (Nat.ltb 0 _); inversion H1 as [|? l ? l' X Y]; subst; auto. inversion Y; subst.
      rewrite (Q _ _ _ X I). reflexivity. }
    assert (E4 : concat m4 = []).
    { destruct (Nat.ltb 0 (ss_size (uq_name_set nw))); inversion H4 as [|? l ? l' X Y]; subst; auto. inversion Y; subst.
      rewrite (Q _ _ _ X I). reflexivity. }
    inversion H3 as [|? l ? l' X Y]; subst. inversion Y; subst. rewrite !concat_app, E1, E4.
    inversion X as [| | | | | | | |? Si]; subst; [reflexivity|now destruct Si].
Qed.

(** ** C100 *)
Lemma selection_select : forall f ts, filter (passes f) ts = selection f ts.
Proof. intros [g|] ts; simpl; auto. induction ts; simpl; auto. now rewrite IHts. Qed.

Lemma flyway_migrates : forall reserved ordT ordC o from to css s,
  get_diff ordT ordC o from to = Some css ->
  iteration_order ordT -> (forall i, iteration_order (ordC i)) ->
  Forall (plain_table (alter_reserved reserved) (do_suffix o)) (s_tables to) ->
  Forall (fun t => plain_ident (alter_reserved reserved) (t_name t)) (s_tables from) ->
  NoDup (map t_name (s_tables from)) -> NoDup (map t_name (s_tables to)) ->
  Forall (acceptable (do_suffix o)) (s_tables to) ->
  (forall t old, In t (s_tables to) -> selected (do_filter o) t -> In old (s_tables from) -> t_name old = t_name t ->
     alterable old t) ->
  (forall nw old, In (RenameTable old nw) (all_changes css) ->
     (forall k, ~ uq_column nw k) /\ t_indices nw = t_indices old) ->
  described (do_suffix o) (s_tables from) s ->
  exists ms s', read_script reserved (flyway_write (do_suffix o) css) = Some ms /\ run_stmts s ms = Some s' /\
    described (do_suffix o) (selection (do_filter o) (s_tables to)) s'.
Proof.
  intros reserved ordT ordC o from to css s H HT HC Pt Pf Df Dt Ac Al Rn [bs0 [P0 F0]].
  destruct (diff_script reserved _ _ _ _ _ _ H HT HC Pt Pf) as [ls [Sq Rd]].
  destruct (get_diff_shape _ _ _ _ _ _ H HT HC) as [l1 [D [Rs [created [E [F1 [[g [Dg [Pg Hg]]] [PA [R [D4 _]]]]]]]]]].
  clear H. set (suffix := do_suffix o) in *. set (f := do_filter o) in *. rewrite E in Sq, Rn.
  set (fs := s_tables from) in *. set (K := kept f fs (with_pos (s_tables to))) in *.
  set (added := filter (is_added f fs) (with_pos (s_tables to))) in *.
  rewrite Forall_forall in Ac.
  (* the statements *)
  apply Forall2_app_l in Sq. destruct Sq as [q1 [q2 [-> [Sq1 Sq]]]].
  apply Forall2_app_l in Sq. destruct Sq as [q3 [q4 [-> [Sq2 Sq]]]].
  apply Forall2_app_l in Sq. destruct Sq as [q5 [q6 [-> [Sq3 Sq4]]]].
  apply Forall2_concat_l in Sq1. destruct Sq1 as [qs [-> Sq1]].
  apply drops_sql in Sq2. apply renames_sql in Sq3. apply creates_sql in Sq4. destruct Sq4 as [sts [Ms Sq4]].
  assert (Ec : concat (concat qs ++ q3 ++ q5 ++ q6) =
     concat (map (@concat mig_stmt) qs) ++ map MDropTable (map t_name D) ++
       map (fun r => MRename (t_name (snd (snd r))) (t_name (fst (snd r)))) Rs ++ map MCreate sts).
  { rewrite !concat_app, Sq2, Sq3, Sq4. f_equal. clear. induction qs; cbn [concat map]; auto. now rewrite concat_app, IHqs. }
  exists (concat (concat qs ++ q3 ++ q5 ++ q6)). rewrite Rd, Ec. clear Rd Ec Sq2 Sq3 Sq4.
  (* the tables *)
  assert (DA : NoDup (map t_name (map snd added))).
  { unfold added. apply (SchemaMigration.NoDup_filter_names (with_pos (s_tables to))). now rewrite with_pos_snd. }
  assert (AddIn : forall t, In t (map snd added) -> In t (s_tables to) /\ passes f t = true /\ ~ In (t_name t) (map t_name fs)).
  { intros t Ht. apply in_map_iff in Ht. destruct Ht as [[i x] [Ex Ht]]. simpl in Ex. subst x.
    unfold added in Ht. apply filter_In in Ht. destruct Ht as [Ht1 Ht2]. unfold is_added in Ht2. simpl in Ht2.
    apply andb_true_iff in Ht2. destruct Ht2 as [Ht2 Ht3]. apply negb_true_iff in Ht3. apply str_in_false in Ht3.
    split; [apply with_pos_in; eauto|]. auto. }
  assert (PT : Permutation (selection f (s_tables to)) (map (fun p => snd (fst p)) K ++ map (fun r => fst (snd r)) Rs ++ created)).
  { rewrite <- PA. unfold K. rewrite SchemaMigration.kept_fst, <- selection_select. unfold added.
    rewrite <- (with_pos_snd (s_tables to)) at 1. generalize (with_pos (s_tables to)). clear.
    induction l as [|[i t] l IH]; simpl; auto. unfold is_added at 1. unfold in_names at 1. simpl. destruct (passes f t); simpl; auto.
    destruct (str_in (t_name t) (map t_name fs)); simpl.
    - apply perm_skip. exact IH.
    - etransitivity; [constructor; exact IH|apply Permutation_middle]. }
  assert (KIn : forall i t old, In (i, t, old) K -> In t (s_tables to) /\ selected f t /\ In old fs /\ t_name old = t_name t).
  { intros i t old. apply kept_in. }
  assert (PN : Permutation g (map t_name (D ++ map (fun r => snd (snd r)) Rs))).
  { rewrite map_app, map_map, Pg. apply Permutation_app_comm. }
  assert (PO : Permutation fs (map snd K ++ D ++ map (fun r => snd (snd r)) Rs)).
  { apply (SchemaMigration.name_partition t_name); auto.
    - rewrite map_app. apply NoDup_app_intro.
      + replace (map t_name (map snd K)) with (map (fun p => t_name (snd (fst p))) K).
        * apply kept_nodup. now rewrite with_pos_snd.
        * rewrite map_map. apply map_ext_in. intros [[i t] old] Hi. apply KIn in Hi. simpl. symmetry. tauto.
      + eapply Permutation_NoDup; [exact PN|exact Dg].
      + intros n Hn C. apply (Permutation_in _ (Permutation_sym PN)) in C. apply Hg in C. destruct C as [_ C].
        apply in_map_iff in Hn. destruct Hn as [old [<- Hn]]. apply in_map_iff in Hn. destruct Hn as [[[i t] old'] [Eo Hn]].
        simpl in Eo. subst old'. apply KIn in Hn. apply C. exists t. split; [tauto|]. split; [tauto|].
        symmetry. tauto.
    - intros x Hx. rewrite !in_app_iff in Hx. destruct Hx as [Hx|[Hx|Hx]]; auto.
      + apply in_map_iff in Hx. destruct Hx as [[[i t] old] [Eo Hx]]. simpl in Eo. subst old. now apply KIn in Hx.
      + apply in_map_iff in Hx. destruct Hx as [[i [nw old]] [Eo Hx]]. simpl in Eo. subst old. now apply R in Hx.
    - intros n Hn. rewrite map_app, in_app_iff.
      destruct (in_dec string_dec n (map t_name (map snd K))) as [Y|Y]; auto. right.
      apply (Permutation_in _ PN). apply Hg. split; auto. intros [t [T1 [T2 T3]]]. apply Y.
      apply in_map_iff in Hn. destruct Hn as [old [En Ho]].
      destruct (kept_complete f fs (s_tables to) t old) as [i Hi]; auto; [congruence|].
      rewrite <- En. apply in_map. apply in_map_iff. exists (i, t, old). auto. }
  (* the state *)
  destruct (Permutation_Forall2 PO F0) as [bs1 [P1 F0']].
  apply Forall2_app_inv_l in F0'. destruct F0' as [bK [bDR [FK [FDR EB]]]].
  apply Forall2_app_inv_l in FDR. destruct FDR as [bD [bR [FDd [FR EB2]]]]. subst bs1 bDR.
  assert (Ps : Permutation s (bK ++ bD ++ bR)) by (rewrite P0; exact P1).
  assert (Dn : NoDup (map q_table s)).
  { eapply Permutation_NoDup; [symmetry; apply Permutation_map; exact P0|]. rewrite (described_table_names _ _ _ F0). exact Df. }
  (* kept tables *)
  assert (L2 : Forall2 (fun p ms => t_name (snd p) = t_name (fst p) /\ forall b, described_table suffix (snd p) b ->
       Forall (about (t_name (fst p))) ms /\ exists b', alter_all ms b = Some b' /\ described_table suffix (fst p) b')
       (map (fun p => (snd (fst p), snd p)) K) (map (@concat mig_stmt) qs)).
  { clear - F1 KIn Sq1 HC Ac Al. revert qs Sq1. induction F1 as [|[[i t] old] chs K0 l1 [id0 [cs [id1 [Hd ->]]]] F IH]; intros qs Sq1.
    - inversion Sq1; subst. constructor.
    - inversion Sq1 as [|? q ? qs' S1 S2]; subst. cbn [map fst snd] in Hd |- *.
      destruct (KIn i t old (or_introl eq_refl)) as [Q1 [Q2 [Q3 Q4]]].
      constructor.
      + cbn [fst snd]. split; auto. intros b Hb. eapply table_alters; eauto.
      + apply IH; auto. intros j t' old' Hj. apply (KIn j). now right. }
  destruct (kept_tables suffix (map (fun p => (snd (fst p), snd p)) K) (map (@concat mig_stmt) qs) bK (bD ++ bR) s L2)
    as [s1 [bK' [R1 [P1' [FK' [Dn1 PN1]]]]]]; auto.
  { rewrite map_map. exact FK. }
  rewrite map_map in FK'. cbn [fst] in FK'.
  rewrite (run_stmts_app _ _ _ _ R1).
  (* dropped tables *)
  destruct (dropped_tables bD (bR ++ bK') s1) as [s2 [R2 P2]]; auto.
  { rewrite P1', (app_assoc bD). apply Permutation_app_comm. }
  rewrite (described_table_names _ _ _ FDd) in R2. rewrite (run_stmts_app _ _ _ _ R2).
  (* renamed tables *)
  assert (N1s : forall n, In n (map q_table s1) -> In n (map t_name fs)).
  { intros n Hn. apply (Permutation_in _ PN1) in Hn. apply (Permutation_in _ (Permutation_map q_table P0)) in Hn.
    now rewrite (described_table_names _ _ _ F0) in Hn. }
  assert (N2s : forall n, In n (map q_table s2) -> In n (map q_table s1)).
  { intros n Hn. apply (Permutation_in _ (Permutation_map q_table P2)) in Hn.
    apply (Permutation_in _ (Permutation_sym (Permutation_map q_table P1'))).
    rewrite !map_app, !in_app_iff in *. tauto. }
  assert (Dn2 : NoDup (map q_table s2)).
  { eapply Permutation_NoDup; [symmetry; apply Permutation_map; exact P2|].
    assert (Q : NoDup (map q_table (bK' ++ bD ++ bR))) by (eapply Permutation_NoDup; [apply Permutation_map; exact P1'|exact Dn1]).
    assert (Q' : NoDup (map q_table (bD ++ bR ++ bK'))).
    { eapply Permutation_NoDup; [apply Permutation_map|exact Q]. rewrite (app_assoc bD). apply Permutation_app_comm. }
    rewrite map_app in Q'. now apply NoDup_app_r in Q'. }
  assert (DAR : NoDup (map t_name (map (fun r => fst (snd r)) Rs ++ created))).
  { eapply Permutation_NoDup; [apply Permutation_map; exact PA|exact DA]. }
  destruct (renamed_tables suffix Rs bR bK' s2) as [s3 [bR' [R3 [FR' P3]]]]; auto.
  { rewrite map_app in DAR. apply NoDup_app_l in DAR. rewrite map_map in DAR. exact DAR. }
  { intros [i [nw old]] Hi. cbn [fst snd]. destruct (R _ _ _ Hi) as [X1 [X2 [X3 [X4 X5]]]].
    split; [intros C; apply N2s, N1s in C; tauto|]. split; auto.
    apply Rn. rewrite !in_app_iff. right. right. left. apply in_flat_map.
    exists (i, (nw, old)). split; auto. unfold rename_changes. apply in_or_app. right. apply in_or_app. left. now left. }
  rewrite (run_stmts_app _ _ _ _ R3).
  (* created tables *)
  assert (CrIn : forall t, In t created -> In t (map snd added)).
  { intros t Ht. apply (Permutation_in _ (Permutation_sym PA)). apply in_or_app. now right. }
  destruct (created_tables suffix created sts s3 Ms) as [bC [R4 FC]].
  { intros t Ht. split; [apply Ac; now apply AddIn, CrIn|]. intros C.
    apply (Permutation_in _ (Permutation_map q_table P3)) in C. rewrite map_app, in_app_iff in C. destruct C as [C|C].
    - rewrite (described_table_names _ _ _ FR') in C. rewrite map_app in DAR. apply (NoDup_app_disj _ _ _ DAR C). now apply in_map.
    - apply CrIn, AddIn in Ht. apply Ht. apply N1s, N2s.
      eapply Permutation_in; [symmetry; apply Permutation_map; exact P2|]. rewrite map_app. apply in_or_app. now right. }
  { rewrite map_app in DAR. now apply NoDup_app_r in DAR. }
  exists (s3 ++ bC). split; [reflexivity|]. split; [exact R4|].
  assert (Q : Permutation (s3 ++ bC) (bK' ++ bR' ++ bC)).
  { rewrite P3. rewrite (app_assoc bK'). apply Permutation_app_tail. apply Permutation_app_comm. }
  assert (FF : Forall2 (described_table suffix) (map (fun p => snd (fst p)) K ++ map (fun r => fst (snd r)) Rs ++ created) (bK' ++ bR' ++ bC)).
  { apply Forall2_app; [exact FK'|]. now apply Forall2_app. }
  destruct (Permutation_Forall2 (Permutation_sym PT) FF) as [bs' [Pb Fb]].
  exists bs'. split; auto. now rewrite Q.
Qed.
