(** MySQL tables: import on its own, export followed by import, and layout of the text *)
From Coq Require Import String Ascii List NArith ZArith Bool Lia.
From Verif.Model Require Import GoString Util Octopus Common Mysql.
From Verif.Spec Require Import Text MysqlGrammar MysqlSpec MysqlImportSpec.
From Verif.Proofs Require Import StringLemmas UtilProofs MysqlLex MysqlTypes MysqlRead MysqlFacts.
Import ListNotations.
Local Open Scope string_scope.
Local Open Scope list_scope.

(** ** Constraints *)

Lemma fold_add_in : forall l s k, In k (fold_left ss_add l s) <-> In k l \/ In k s.
Proof.
  induction l as [|x l IH]; intros s k; simpl; [tauto|]. rewrite IH, ss_add_in.
  split; [intros [H|[->|H]]; auto|intros [[->|H]|H]; auto].
Qed.

Lemma ss_new_in : forall l k, ss_contains (ss_new l) k = str_in k l.
Proof.
  intros l k. apply eq_true_iff_eq. rewrite ss_contains_iff, str_in_iff. unfold ss_new. rewrite fold_add_in. simpl. tauto.
Qed.

Lemma constraints_spec : forall ks pk uq ixs pk' uq' ixs',
  fold_left import_constraint ks (pk, uq, ixs) = (pk', uq', ixs') ->
  (forall n, In n pk' <-> In n pk \/ in_primary_key ks n) /\
  (forall n, In n uq' <-> In n uq \/ in_unique_key ks n) /\ ixs' = ixs ++ indices_of ks.
Proof.
  induction ks as [|k ks IH]; intros pk uq ixs pk' uq' ixs' H.
  - cbn [fold_left] in H. inversion H; subst. split; [|split].
    + intros n. split; [auto|]. intros [X|[keys [[] _]]]; auto.
    + intros n. split; [auto|]. intros [X|[k [keys [[] _]]]]; auto.
    + now rewrite app_nil_r.
  - cbn [fold_left] in H. destruct k as [keys|name keys|name keys| |]; cbn [import_constraint] in H;
    apply IH in H; destruct H as [A [B C]]; (split; [|split]).
    + intros n. rewrite A, fold_add_in. split.
      * intros [[X|X]|[keys' [X Y]]]; auto.
        -- right. exists keys. split; [now left|exact X].
        -- right. exists keys'. split; [now right|exact Y].
      * intros [X|[keys' [[X|X] Y]]]; auto.
        -- inversion X; subst. auto.
        -- right. now exists keys'.
    + intros n. rewrite B. split; intros [X|[k [keys' [X Y]]]]; auto; right; exists k, keys'; split; auto; [now right|].
      destruct X as [X|X]; [discriminate|exact X].
    + exact C.
    + intros n. rewrite A. split; intros [X|[keys' [X Y]]]; auto; right; exists keys'; split; auto; [now right|].
      destruct X as [X|X]; [discriminate|exact X].
    + intros n. rewrite B. split; intros [X|[k [keys' [X Y]]]]; auto; right; exists k, keys'; split; auto; [now right|].
      destruct X as [X|X]; [discriminate|exact X].
    + rewrite C, <- app_assoc. reflexivity.
    + intros n. rewrite A. split; intros [X|[keys' [X Y]]]; auto; right; exists keys'; split; auto; [now right|].
      destruct X as [X|X]; [discriminate|exact X].
    + intros n. rewrite B, fold_add_in. split.
      * intros [[X|X]|[k [keys' [X Y]]]]; auto.
        -- right. exists name, keys. split; [now left|exact X].
        -- right. exists k, keys'. split; [now right|exact Y].
      * intros [X|[k [keys' [[X|X] Y]]]]; auto.
        -- inversion X; subst. auto.
        -- right. now exists k, keys'.
    + exact C.
    + intros n. rewrite A. split; intros [X|[keys' [X Y]]]; auto; right; exists keys'; split; auto; [now right|].
      destruct X as [X|X]; [discriminate|exact X].
    + intros n. rewrite B. split; intros [X|[k [keys' [X Y]]]]; auto; right; exists k, keys'; split; auto; [now right|].
      destruct X as [X|X]; [discriminate|exact X].
    + exact C.    + intros n. rewrite A. split; intros [X|[keys' [X Y]]]; auto; right; exists keys'; split; auto; [now right|].
      destruct X as [X|X]; [discriminate|exact X].
    + intros n. rewrite B. split; intros [X|[k [keys' [X Y]]]]; auto; right; exists k, keys'; split; auto; [now right|].
      destruct X as [X|X]; [discriminate|exact X].
    + exact C.
Qed.

(** ** Options *)

Lemma last_such_snoc : forall {A} (P : A -> Prop) l o x,
  last_such P (l ++ [o]) x <-> (P o /\ x = o) \/ (~ P o /\ last_such P l x).
Proof.
  intros A P l o x. split.
  - intros [pre [post [E [Hx Hp]]]]. destruct post as [|p post] using rev_ind.
    + apply app_inj_tail in E. destruct E as [_ <-]. now left.
    + clear IHpost. right. rewrite app_comm_cons, app_assoc in E. apply app_inj_tail in E. destruct E as [E <-].
      split; [apply Hp, in_or_app; right; now left|]. exists pre, post. split; [exact E|]. split; [exact Hx|].
      intros y Hy. apply Hp, in_or_app. now left.
  - intros [[Ho ->]|[Ho [pre [post [E [Hx Hp]]]]]].
    + exists l, []. split; [reflexivity|]. split; [exact Ho|]. intros y [].
    + exists pre, (post ++ [o]). split; [now rewrite E, <- app_assoc|]. split; [exact Hx|].
      intros y Hy. apply in_app_or in Hy. destruct Hy as [Hy|[<-|[]]]; auto.
Qed.

Lemma last_such_nil : forall {A} (P : A -> Prop) x, ~ last_such P [] x.
Proof. intros A P x [pre [post [E _]]]. destruct pre; discriminate. Qed.

Ltac fields := cbn [import_option with_notnull_flag with_pk with_autoinc with_desc set_default_value set_default_value_fn set_on_update
  set_on_update_fn with_default with_onupdate c_name c_type c_desc c_size c_scale c_notnull c_pk c_uq c_autoinc c_default c_onupdate c_values c_ref] in *.

Lemma options_fixed : forall os c0, let c := fold_left import_option os c0 in
  c_name c = c_name c0 /\ c_type c = c_type c0 /\ c_size c = c_size c0 /\ c_scale c = c_scale c0 /\
  c_uq c = c_uq c0 /\ c_values c = c_values c0 /\ c_ref c = c_ref c0.
Proof.
  induction os as [|o os IH]; intros c0; cbn [fold_left]; cbv zeta; [tauto|].
  destruct (IH (import_option c0 o)) as (E1 & E2 & E3 & E4 & E5 & E6 & E7).
  rewrite E1, E2, E3, E4, E5, E6, E7. destruct o as [| | |[[v|]|f|]| |[[v|]|f|]|v| |]; repeat split; reflexivity.
Qed.

Lemma options_pk : forall os c0, c_pk (fold_left import_option os c0) = true <-> In OPrimaryKey os \/ c_pk c0 = true.
Proof.
  induction os as [|o os IH]; intros c0; cbn [fold_left In]; [tauto|]. rewrite IH.
  destruct o as [| | |[[v|]|f|]| |[[v|]|f|]|v| |]; fields; intuition discriminate.
Qed.

Lemma options_autoinc : forall os c0, c_autoinc (fold_left import_option os c0) = true <-> In OAutoIncrement os \/ c_autoinc c0 = true.
Proof.
  induction os as [|o os IH]; intros c0; cbn [fold_left In]; [tauto|]. rewrite IH.
  destruct o as [| | |[[v|]|f|]| |[[v|]|f|]|v| |]; fields; intuition discriminate.
Qed.

Lemma options_notnull : forall os c0, c_notnull c0 = false ->
  (c_notnull (fold_left import_option os c0) = true <-> exists o, last_such null_like os o /\ o <> ONull).
Proof.
  intros os c0 H0. induction os as [|o os IH] using rev_ind.
  - cbn [fold_left]. rewrite H0. split; [discriminate|]. intros [o [X _]]. now apply last_such_nil in X.
  - rewrite fold_left_app. cbn [fold_left]. set (c := fold_left import_option os c0) in *.
    assert (Y : null_like o -> o <> ONull -> c_notnull (import_option c o) = true).
    { intros [-> |[->|[->| ->]]] N; try reflexivity. congruence. }
    assert (N : ~ null_like o -> c_notnull (import_option c o) = c_notnull c).
    { unfold null_like. intros X. destruct o as [| | |[[v|]|f|]| |[[v|]|f|]|v| |]; try reflexivity; exfalso; apply X; auto. }
    assert (D : null_like o \/ ~ null_like o).
    { unfold null_like. destruct o; try (right; intuition discriminate); left; auto. }
    split.
    + intros E. destruct D as [D|D].
      * exists o. split; [apply last_such_snoc; now left|]. intros ->. discriminate E.
      * rewrite (N D) in E. apply IH in E. destruct E as [x [E1 E2]]. exists x. split; [|exact E2]. apply last_such_snoc. now right.
    + intros [x [L NX]]. apply last_such_snoc in L. destruct L as [[P ->]|[P L]]; [now apply Y|].
      rewrite (N P). apply IH. now exists x.
Qed.

Lemma options_default : forall os c0, c_default c0 = "" ->
  (forall e, last_such sets_default os (ODefault e) -> c_default (fold_left import_option os c0) = stored e) /\
  ((forall o, In o os -> ~ sets_default o) -> c_default (fold_left import_option os c0) = "").
Proof.
  intros os c0 H0. induction os as [|o os [IH1 IH2]] using rev_ind.
  - split; [intros e X; now apply last_such_nil in X|auto].
  - rewrite fold_left_app. cbn [fold_left]. set (c := fold_left import_option os c0) in *.
    assert (N : ~ sets_default o -> c_default (import_option c o) = c_default c).
    { intros X. destruct o as [| | |e| |[[v|]|f|]|v| |]; try reflexivity. destruct e as [[v|]|f|]; try reflexivity;
      exfalso; apply X; eexists; (split; [reflexivity|discriminate]). }
    split.
    + intros e L. apply last_such_snoc in L. destruct L as [[P <-]|[P L]].
      * destruct P as [e' [E Ne]]. inversion E; subst e'. destruct e as [[v|]|f|]; try reflexivity. congruence.
      * rewrite (N P). now apply IH1.
    + intros X. rewrite N by (apply X, in_or_app; right; now left). apply IH2. intros x Hx. apply X, in_or_app. now left.
Qed.

Lemma options_update : forall os c0, c_onupdate c0 = "" ->
  (forall e, last_such sets_update os (OOnUpdate e) -> c_onupdate (fold_left import_option os c0) = stored e) /\
  ((forall o, In o os -> ~ sets_update o) -> c_onupdate (fold_left import_option os c0) = "").
Proof.
  intros os c0 H0. induction os as [|o os [IH1 IH2]] using rev_ind.
  - split; [intros e X; now apply last_such_nil in X|auto].
  - rewrite fold_left_app. cbn [fold_left]. set (c := fold_left import_option os c0) in *.
    assert (N : ~ sets_update o -> c_onupdate (import_option c o) = c_onupdate c).
    { intros X. destruct o as [| | |[[v|]|f|]| |e|v| |]; try reflexivity. destruct e as [[v|]|f|]; try reflexivity;
      exfalso; apply X; eexists; (split; [reflexivity|discriminate]). }
    split.
    + intros e L. apply last_such_snoc in L. destruct L as [[P <-]|[P L]].
      * destruct P as [e' [E Ne]]. inversion E; subst e'. destruct e as [[v|]|f|]; try reflexivity. congruence.
      * rewrite (N P). now apply IH1.
    + intros X. rewrite N by (apply X, in_or_app; right; now left). apply IH2. intros x Hx. apply X, in_or_app. now left.
Qed.

Lemma options_desc : forall os c0, c_desc c0 = "" ->
  (forall v, last_such sets_comment os (OComment v) -> c_desc (fold_left import_option os c0) = v) /\
  ((forall o, In o os -> ~ sets_comment o) -> c_desc (fold_left import_option os c0) = "").
Proof.
  intros os c0 H0. induction os as [|o os [IH1 IH2]] using rev_ind.
  - split; [intros e X; now apply last_such_nil in X|auto].
  - rewrite fold_left_app. cbn [fold_left]. set (c := fold_left import_option os c0) in *.
    assert (N : ~ sets_comment o -> c_desc (import_option c o) = c_desc c).
    { intros X. destruct o as [| | |[[v|]|f|]| |[[v|]|f|]|v| |]; try reflexivity. exfalso; apply X; now eexists. }
    split.
    + intros e L. apply last_such_snoc in L. destruct L as [[P <-]|[P L]]; [reflexivity|].
      rewrite (N P). now apply IH1.
    + intros X. rewrite N by (apply X, in_or_app; right; now left). apply IH2. intros x Hx. apply X, in_or_app. now left.
Qed.

Lemma import_column_spec : forall ks pk uq cd,
  (forall n, In n pk <-> in_primary_key ks n) -> (forall n, In n uq <-> in_unique_key ks n) ->
  imported_column ks cd (import_column pk uq cd).
Proof.
  intros ks pk uq cd Hpk Huq. unfold import_column. destruct (import_column_type (cd_type cd)) as [[ty size] scale] eqn:ET.
  set (c0 := mkCol _ _ _ _ _ _ _ _ _ _ _ _ _).
  destruct (options_fixed (cd_options cd) c0) as (E1 & E2 & E3 & E4 & E5 & E6 & E7).
  constructor.
  - exact E1.
  - rewrite E2, E3, E4. symmetry. exact ET.
  - rewrite options_pk. unfold c0. fields. rewrite ss_contains_iff, Hpk. tauto.
  - rewrite E5. unfold c0. fields. now rewrite ss_contains_iff, Huq.
  - now apply options_notnull.
  - rewrite options_autoinc. unfold c0. fields. intuition discriminate.
  - now apply options_default.
  - now apply options_update.
  - now apply options_desc.
  - rewrite E6, E2. unfold c0, import_column_values, str_in. fields. cbn [existsb]. now rewrite orb_false_r.
  - exact E7.
Qed.

Lemma import_stmt_spec : forall excludes s,
  (wanted excludes s = true -> exists t, import_stmt (ss_new excludes) s = [t] /\ imported_table s t) /\
  (wanted excludes s = false -> import_stmt (ss_new excludes) s = []).
Proof.
  intros excludes [name cds ks|]; cbn [wanted import_stmt]; [|split; [discriminate|reflexivity]].
  rewrite ss_new_in. destruct (str_in name excludes); cbn [negb]; (split; [try discriminate|try discriminate; try reflexivity]).
  intros _. destruct (fold_left import_constraint ks (ss_new [], ss_new [], [])) as [[pk uq] ixs] eqn:E.
  apply constraints_spec in E. destruct E as [A [B C]].
  eexists. split; [reflexivity|]. constructor; try reflexivity; [|exact C]. cbn [t_cols].
  assert (X : forall l, Forall2 (imported_column ks) l (map (import_column pk uq) l)).
  { induction l; cbn [map]; constructor; auto. apply import_column_spec; intros n; rewrite ?A, ?B; simpl; tauto. }
  apply X.
Qed.

Lemma import_stmts_spec : forall excludes author version stmts,
  let s := import_stmts excludes author version stmts in
  s_author s = author /\ s_version s = version /\ s_name s = "" /\
  Forall2 imported_table (filter (wanted excludes) stmts) (s_tables s).
Proof.
  intros excludes author version stmts. cbv zeta. unfold import_stmts. cbn [s_author s_version s_name s_tables].
  repeat split. induction stmts as [|st stmts IH]; cbn [filter flat_map]; [constructor|].
  destruct (import_stmt_spec excludes st) as [Y N]. destruct (wanted excludes st).
  - destruct (Y eq_refl) as [t [E T]]. rewrite E. constructor; auto.
  - rewrite (N eq_refl). exact IH.
Qed.

Lemma import_sql_ok : forall excludes author version stmts s,
  import_sql excludes author version stmts = Ok s -> s = import_stmts excludes author version stmts.
Proof. intros excludes author version stmts s H. unfold import_sql in H. destruct (existsb _ _); congruence. Qed.

Lemma import_spec : forall excludes author version stmts s, import_sql excludes author version stmts = Ok s ->
  s_author s = author /\ s_version s = version /\ s_name s = "" /\
  Forall2 imported_table (filter (wanted excludes) stmts) (s_tables s).
Proof. intros excludes author version stmts s H. rewrite (import_sql_ok _ _ _ _ _ H). apply import_stmts_spec. Qed.

(** what the exporter writes has no keys on expressions *)
Lemma means_no_panic : forall suffix ex ts stmts, Forall2 (table_means suffix) ts stmts -> existsb (stmt_panics ex) stmts = false.
Proof.
  intros suffix ex ts stmts M. induction M as [|t st ts sts (cds & _ & ->) M IH]; [reflexivity|].
  cbn [existsb]. rewrite IH, orb_false_r. cbn [stmt_panics].
  assert (E : forall l, existsb constraint_panics (map (fun i => KIndex (ix_name i) (ix_cols i)) l) = false)
    by (induction l as [|i l H]; cbn [map existsb constraint_panics orb]; auto).
  rewrite !existsb_app, E. destruct (map c_name (filter c_pk (t_cols t))), (map c_name (filter c_uq (t_cols t)));
    cbn [key_if existsb constraint_panics orb]; apply andb_false_r.
Qed.

(** a UNIQUE option of a column changes nothing *)
Lemma uniq_option_ignored : forall pk uq cd pre post, cd_options cd = pre ++ OUniqKey :: post ->
  import_column pk uq cd = import_column pk uq (mkColDef (cd_name cd) (cd_type cd) (pre ++ post)).
Proof.
  intros pk uq cd pre post E. unfold import_column. rewrite E. cbn [cd_type cd_name cd_options].
  destruct (import_column_type (cd_type cd)) as [[ty size] scale]. rewrite !fold_left_app. reflexivity.
Qed.

(** ** Export followed by import *)

Section Reserved.
Variable reserved : string -> bool.

Lemma name_flag : forall p cs c, NoDup (map c_name cs) -> In c cs ->
  (In (c_name c) (map c_name (filter p cs)) <-> p c = true).
Proof.
  intros p cs c ND Hc. rewrite in_map_iff. split.
  - intros [d [E Hd]]. apply filter_In in Hd. destruct Hd as [Hd Pd].
    assert (d = c); [|now subst]. revert ND Hc Hd E. clear. induction cs as [|x cs IH]; intros ND Hc Hd E; [destruct Hc|].
    cbn [map] in ND. inversion ND as [|? ? N ND']; subst. destruct Hc as [->|Hc], Hd as [->|Hd]; auto.
    + exfalso. apply N. rewrite <- E. now apply in_map.
    + exfalso. apply N. rewrite E. now apply in_map.
  - intros H. exists c. split; [reflexivity|]. apply filter_In. auto.
Qed.

Lemma table_back : forall suffix t st excludes, plain_table reserved suffix t -> NoDup (map c_name (t_cols t)) ->
  Forall survives (t_cols t) -> table_means suffix t st ->
  import_stmt (ss_new excludes) st = if str_in (t_name t) excludes then [] else [table_core t].
Proof.
  intros suffix t st excludes P ND SV [cds [M ->]]. cbn [import_stmt]. rewrite ss_new_in.
  destruct (str_in (t_name t) excludes); [reflexivity|].
  set (pkn := map c_name (filter c_pk (t_cols t))). set (uqn := map c_name (filter c_uq (t_cols t))).
  set (ixk := map (fun i => KIndex (ix_name i) (ix_cols i)) (t_indices t)).
  destruct (fold_left import_constraint (key_if pkn KPrimaryKey ++ key_if uqn (KUniq (t_name t ^ suffix)) ++ ixk)
              (ss_new [], ss_new [], [])) as [[pk uq] ixs] eqn:E.
  apply constraints_spec in E. destruct E as [A [B C]].
  assert (Eix : ixs = t_indices t).
  { rewrite C. unfold indices_of. rewrite !flat_map_app.
    replace (flat_map _ (key_if pkn KPrimaryKey)) with (@nil index) by (destruct pkn; reflexivity).
    replace (flat_map _ (key_if uqn (KUniq (t_name t ^ suffix)))) with (@nil index) by (destruct uqn; reflexivity).
    unfold ixk. cbn [app]. clear. induction (t_indices t) as [|[n cols] l IH]; [reflexivity|]. cbn. now rewrite IH. }
  assert (NIX : forall k, In k ixk -> exists n cols, k = KIndex n cols).
  { intros k Hk. apply in_map_iff in Hk. destruct Hk as [i [<- _]]. eauto. }
  assert (Epk : forall n, In n pk <-> In n pkn).
  { intros n. rewrite A. split.
    - intros [[]|[ks [X Y]]]. apply in_app_or in X. destruct X as [X|X].
      + destruct pkn; [destruct X|]. destruct X as [X|[]]. inversion X. now subst.
      + apply in_app_or in X. destruct X as [X|X].
        * destruct uqn; [destruct X|]. destruct X as [X|[]]. discriminate.
        * apply NIX in X. destruct X as [? [? X]]. discriminate.
    - intros X. right. exists pkn. split; [|exact X]. apply in_or_app. left. destruct pkn; [destruct X|now left]. }
  assert (Euq : forall n, In n uq <-> In n uqn).
  { intros n. rewrite B. split.
    - intros [[]|[k [ks [X Y]]]]. apply in_app_or in X. destruct X as [X|X].
      + destruct pkn; [destruct X|]. destruct X as [X|[]]. discriminate.
      + apply in_app_or in X. destruct X as [X|X].
        * destruct uqn; [destruct X|]. destruct X as [X|[]]. inversion X. now subst.
        * apply NIX in X. destruct X as [? [? X]]. discriminate.
    - intros X. right. exists (t_name t ^ suffix), uqn. split; [|exact X]. apply in_or_app. right. apply in_or_app. left.
      destruct uqn; [destruct X|now left]. }
  unfold table_core. rewrite Eix. f_equal. f_equal.
  destruct P as [_ _ [_ PC] _].
  assert (FL : forall c, In c (t_cols t) -> ss_contains pk (c_name c) = c_pk c /\ ss_contains uq (c_name c) = c_uq c).
  { intros c Hc. split; apply eq_true_iff_eq; rewrite ss_contains_iff.
    - rewrite Epk. now apply name_flag.
    - rewrite Euq. now apply name_flag. }
  clear - M PC SV FL. revert PC SV FL. induction M as [|c cd cs cds Hc M IH]; intros PC SV FL; [reflexivity|].
  inversion PC; subst. inversion SV; subst. cbn [map]. f_equal.
  - destruct (FL c (or_introl eq_refl)) as [F1 F2]. eapply column_back; eauto.
  - apply IH; auto. intros d Hd. apply FL. now right.
Qed.

Lemma export_import : forall f suffix s excludes author version,
  Forall (plain_table reserved suffix) (filter (passes f) (s_tables s)) ->
  Forall (fun t => NoDup (map c_name (t_cols t)) /\ Forall survives (t_cols t)) (filter (passes f) (s_tables s)) ->
  exists stmts, read_sql reserved (my_export f suffix s) = Some stmts /\
    import_sql excludes author version stmts =
    Ok (mkSchema author "" version
      (map table_core (filter (fun t => negb (str_in (t_name t) excludes)) (filter (passes f) (s_tables s))))).
Proof.
  intros f suffix s excludes author version HP HS.
  destruct (export_reads reserved f suffix s HP) as [stmts [R M]]. exists stmts. split; [exact R|].
  unfold import_sql. rewrite (means_no_panic _ _ _ _ M). unfold import_stmts. do 2 f_equal. revert HP HS. clear R. induction M as [|t st ts sts Ht M IH]; intros HP HS; [reflexivity|].
  inversion HP; subst. inversion HS as [|? ? [X Y] ?]; subst. cbn [flat_map filter].
  rewrite (table_back suffix t st excludes) by assumption. rewrite IH by assumption.
  destruct (str_in (t_name t) excludes); reflexivity.
Qed.

(** ** Different tables, different text *)

Lemma default_head : forall c ds, default_means c ds -> ds = [] \/ exists e, ds = [ODefault e].
Proof. intros c ds [E|e H]; eauto. Qed.
Lemma update_head : forall c us, update_means c us -> us = [] \/ exists e, us = [OOnUpdate e].
Proof. intros c us [E|e H]; eauto. Qed.

Lemma means_inj : forall c1 c2 cd, column_means c1 cd -> column_means c2 cd -> same_column c1 c2.
Proof.
  intros c1 c2 cd [N1 [T1 [d1 [u1 [D1 [U1 O1]]]]]] [N2 [T2 [d2 [u2 [D2 [U2 O2]]]]]].
  rewrite O1 in O2.
  assert (X : d1 = d2 /\ u1 = u2 /\ c_desc c1 = c_desc c2 /\ c_notnull c1 = c_notnull c2 /\ c_autoinc c1 = c_autoinc c2).
  { destruct (default_head _ _ D1) as [-> |[e1 ->]], (default_head _ _ D2) as [-> |[e2 ->]];
    destruct (update_head _ _ U1) as [-> |[e3 ->]], (update_head _ _ U2) as [-> |[e4 ->]];
    destruct (c_notnull c1), (c_notnull c2), (c_autoinc c1), (c_autoinc c2);
    destruct (String.eqb_spec (c_desc c1) "") as [S1|S1], (String.eqb_spec (c_desc c2) "") as [S2|S2];
    cbn [app] in O2; try discriminate O2; inversion O2; subst; repeat split; congruence. }
  destruct X as (-> & -> & X3 & X4 & X5). repeat split; try congruence; eauto.
Qed.

Lemma forall2_inj : forall l1 l2 cds, Forall2 column_means l1 cds -> Forall2 column_means l2 cds -> Forall2 same_column l1 l2.
Proof.
  intros l1 l2 cds H. revert l2. induction H as [|c cd l cds Hc H IH]; intros l2 H2; inversion H2; subst; constructor; auto.
  eapply means_inj; eauto.
Qed.

Lemma keys_split : forall p1 p2 (u1 u2 : list string) n1 n2 x1 x2,
  key_if p1 KPrimaryKey ++ key_if u1 (KUniq n1) ++ map (fun i => KIndex (ix_name i) (ix_cols i)) x1 =
  key_if p2 KPrimaryKey ++ key_if u2 (KUniq n2) ++ map (fun i => KIndex (ix_name i) (ix_cols i)) x2 ->
  p1 = p2 /\ u1 = u2 /\ x1 = x2.
Proof.
  assert (IX : forall x1 x2 : list index, map (fun i => KIndex (ix_name i) (ix_cols i)) x1 = map (fun i => KIndex (ix_name i) (ix_cols i)) x2 -> x1 = x2).
  { induction x1 as [|[a b] x1 IH]; intros [|[c d] x2] E; try discriminate; auto. cbn in E. injection E as E1 E2 E3. subst.
    f_equal. now apply IH. }
  intros p1 p2 u1 u2 n1 n2 x1 x2 E.
  destruct p1 as [|p p1], p2 as [|q p2]; destruct u1 as [|u u1], u2 as [|v u2]; cbn [key_if app] in E.
  all: try (destruct x1; discriminate E). all: try (destruct x2; discriminate E). all: try discriminate E.
  all: try (injection E as E; subst; split; [reflexivity|split; [reflexivity|now apply IX]]).
  all: try (split; [reflexivity|split; [reflexivity|now apply IX]]).
  all: try (inversion E; subst; split; [reflexivity|split; [reflexivity|now apply IX]]).
Qed.

Lemma export_injective : forall suffix t1 t2, plain_table reserved suffix t1 -> plain_table reserved suffix t2 ->
  export_table suffix t1 = export_table suffix t2 ->
  t_name t1 = t_name t2 /\ Forall2 same_column (t_cols t1) (t_cols t2) /\ t_indices t1 = t_indices t2 /\
  map c_name (filter c_pk (t_cols t1)) = map c_name (filter c_pk (t_cols t2)) /\
  map c_name (filter c_uq (t_cols t1)) = map c_name (filter c_uq (t_cols t2)).
Proof.
  intros suffix t1 t2 P1 P2 E.
  destruct (table_reads reserved suffix t1 P1) as [ts1 [st1 [L1 [_ [_ [R1 M1]]]]]].
  destruct (table_reads reserved suffix t2 P2) as [ts2 [st2 [L2 [_ [_ [R2 M2]]]]]].
  assert (T : ts1 = ts2).
  { apply any_lexes, lex_all in L1. apply any_lexes, lex_all in L2. rewrite E in L1. rewrite L1 in L2. injection L2 as L2.
    now apply app_inj_tail in L2. }
  subst ts2. rewrite R1 in R2. injection R2 as <-. destruct M1 as [cds1 [F1 E1]], M2 as [cds2 [F2 E2]].
  rewrite E1 in E2. injection E2 as En Ec Ek. subst cds2. apply keys_split in Ek. destruct Ek as [K1 [K2 K3]].
  repeat split; auto. eapply forall2_inj; eauto.
Qed.

(** with canonical default values even the values are the same *)
Lemma canonical_default : forall c1 c2, c_type c1 = c_type c2 -> stable_default c1 -> stable_default c2 ->
  (exists ds, default_means c1 ds /\ default_means c2 ds) -> c_default c1 = c_default c2.
Proof.
  intros c1 c2 T S1 S2 [ds [D1 D2]].
  destruct (default_stored c1 ds D1 S1) as [[-> E1]|[e [-> [E1 N1]]]], (default_stored c2 _ D2 S2) as [[E E2]|[e' [E [E2 N2]]]];
  try discriminate; [congruence|]. injection E as <-. congruence.
Qed.

End Reserved.

(** ** Layout *)

Lemma comma_lines : forall ds, ds <> [] ->
  String.concat "" (map (fun d => "  " ^ d ^ newline) (comma_except_last ds)) = "  " ^ join ("," ^ newline ^ "  ") ds ^ newline.
Proof.
  induction ds as [|d ds IH]; intros H; [congruence|]. destruct ds as [|d2 ds].
  - reflexivity.
  - change (comma_except_last (d :: d2 :: ds)) with ((d ^ ",") :: comma_except_last (d2 :: ds)).
    assert (M : comma_except_last (d2 :: ds) <> []) by (destruct ds; discriminate).
    specialize (IH ltac:(discriminate)). revert M IH. generalize (comma_except_last (d2 :: ds)). intros [|m more] M IH; [congruence|].
    change (map (fun d => "  " ^ d ^ newline) ((d ^ ",") :: m :: more)) with
      (("  " ^ (d ^ ",") ^ newline) :: map (fun d => "  " ^ d ^ newline) (m :: more)).
    change (String.concat "" (("  " ^ (d ^ ",") ^ newline) :: map (fun d => "  " ^ d ^ newline) (m :: more))) with
      (("  " ^ (d ^ ",") ^ newline) ^ String.concat "" (map (fun d => "  " ^ d ^ newline) (m :: more))).
    rewrite IH. cbn [join]. rewrite !app_assoc_s. reflexivity.
Qed.

Lemma filter_none : forall {A} (p : A -> bool) l, filter p l = [] -> forall x, In x l -> p x = false.
Proof.
  intros A p l H x Hx. destruct (p x) eqn:E; auto. assert (X : In x (filter p l)) by (apply filter_In; auto). rewrite H in X. destruct X.
Qed.
Lemma filter_some : forall {A} (p : A -> bool) l y ys, filter p l = y :: ys -> exists x, In x l /\ p x = true.
Proof. intros A p l y ys H. exists y. apply filter_In. rewrite H. now left. Qed.

Lemma export_layout : forall suffix t, exists cols keys, layout suffix t cols keys /\
  export_table suffix t = ddl_text (t_name t) (cols ++ keys).
Proof.
  intros suffix t. eexists. eexists. split; [|unfold export_table, ddl_text].
  2:{ unfold table_definitions. cbv zeta. match goal with |- context [comma_except_last ?l] => set (ds := l) end.
      assert (E : ds = ds) by reflexivity. unfold ds at 2 in E.
      match type of E with _ = ?a ++ ?b => instantiate (2 := a); instantiate (1 := b) end.
      fold ds. destruct ds as [|d ds'] eqn:Ed; [reflexivity|]. rewrite comma_lines by discriminate. rewrite !app_assoc_s. reflexivity. }
  constructor.
  - induction (t_cols t) as [|c cs IH]; cbn [map]; constructor; auto.
    unfold column_definition. cbv zeta. destruct (String.eqb (column_constraints c) ""); cbn [app join].
    + exists "". now rewrite app_nil_r_s.
    + exists (" " ^ column_constraints c). reflexivity.
  - eexists. eexists. eexists. split; [reflexivity|]. split; [|split].
    + destruct (filter c_pk (t_cols t)) as [|c cs] eqn:E; cbn [map].
      * left. split; [now apply filter_none|reflexivity].
      * right. split; [eapply filter_some; eauto|]. rewrite E. reflexivity.
    + destruct (filter c_uq (t_cols t)) as [|c cs] eqn:E; cbn [map].
      * left. split; [now apply filter_none|reflexivity].
      * right. split; [eapply filter_some; eauto|]. rewrite E. unfold my_quote, quoted. rewrite !app_assoc_s. reflexivity.
    + induction (t_indices t) as [|i ixs IH]; cbn [map]; constructor; auto.
Qed.
