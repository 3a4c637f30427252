(** GORM structs and the tables of the database (C112) *)
From Coq Require Import String Ascii List NArith Bool Arith Lia.
From Verif.Model Require Import GoString Util Octopus Common Mysql Gorm.
From Verif.Spec Require Import Text DiffSpec Reading OctopusSpec GraphqlSpec MysqlGrammar FlywaySpec MysqlSpec ServerSpec CreatedSpec MappedSpec.
From Verif.Proofs Require Import ListLemmas StringLemmas FlywayMigration ServerCases Mapped.
From Verif.Proofs Require GormText.
From Verif.Spec Require Import GormSpec MappedGoSpec.
Import ListNotations.
Local Open Scope string_scope.

Lemma strip_iff : forall p x v, strip p x = Some v <-> x = p ++ v.
Proof.
  induction p as [|c p IH]; intros x v; cbn; [split; congruence|]. destruct x as [|d x]; [split; discriminate|].
  destruct (Ascii.eqb_spec c d) as [->|NE]; [rewrite IH; split; congruence|split; [discriminate|congruence]].
Qed.

Lemma tag_value_in : forall key tags v, In v (tag_value key tags) <-> In (key ++ ":" ++ v) tags.
Proof.
  intros key tags v. unfold tag_value. rewrite in_flat_map. split.
  - intros [x [I J]]. destruct (strip (key ++ ":") x) eqn:E; [|destruct J]. destruct J as [<-|[]]. apply strip_iff in E. subst x.
    now rewrite app_assoc_s in I.
  - intros I. exists (key ++ ":" ++ v). split; auto. rewrite <- app_assoc_s, (proj2 (strip_iff _ _ _) eq_refl). now left.
Qed.

Lemma has_tag_iff : forall x f, has_tag x f = true <-> In x (snd f).
Proof.
  intros x f. unfold has_tag. rewrite existsb_exists. split.
  - intros [y [I E]]. apply String.eqb_eq in E. now subst.
  - intros I. exists x. split; auto. apply String.eqb_refl.
Qed.

Section Fields.
Variables camel snake naming : string -> string.
Variable suffix : string.
Hypothesis usual : forall x b, camel_id camel x b -> naming b = snake (camel x).
Variable t : table.
Notation field := (gorm_field camel snake suffix t).
Notation tag := (tag_for camel snake suffix t).

Lemma tags_of : forall c f x, field c f -> In x (snd f) <-> tag c x.
Proof. intros c [[n ty] tags] x [_ [_ H]]. apply H. Qed.

Lemma camel_id_total : forall x, exists b, camel_id camel x b.
Proof.
  intros x.
  assert (X : (exists r, camel x = r ++ "Id") \/ forall r, camel x <> r ++ "Id").
  { generalize (camel x) as s. clear. induction s as [|c s IH]; [right; intros [|? ?]; discriminate|].
    destruct (string_dec (String c s) "Id") as [E|NE]; [left; exists ""; exact E|]. destruct IH as [[r E]|N].
    - left. exists (String c r). cbn. now rewrite E.
    - right. intros [|d r] E; cbn in E; [congruence|]. injection E as _ E. now apply (N r). }
  destruct X as [[r E]|N]; [exists (r ++ "ID"); left; eauto|exists (camel x); right; auto].
Qed.

Lemma starts_dec : forall s, starts_with_digit s \/ ~ starts_with_digit s.
Proof.
  intros [|c s]; [right; intros [c [r [E _]]]; discriminate|].
  destruct (in_dec ascii_dec c (list_ascii_of_string "0123456789")) as [I|N]; [left; now exists c, s|].
  right. intros [d [r [E D]]]. injection E as -> ->. now apply N.
Qed.

Lemma column_name_is : forall c f, field c f -> column_name naming f = c_name c.
Proof.
  intros c f H. unfold column_name.
  assert (V : forall v, In v (tag_value "column" (snd f)) <-> tag c ("column:" ++ v)).
  { intros v. rewrite tag_value_in. apply (tags_of c f _ H). }
  destruct (tag_value "column" (snd f)) as [|v l].
  - destruct f as [[n ty] tags]. destruct H as [[b [B [N1 N2]]] _]. cbn [fst].
    assert (NT : ~ tag c ("column:" ++ c_name c)) by (intros T; now apply (V (c_name c)) in T).
    destruct (starts_dec b) as [S|S]; [destruct NT; econstructor; eauto|]. rewrite (N2 S), (usual _ _ B).
    destruct (string_dec (snake (camel (c_name c))) (c_name c)) as [E|NE]; [exact E|]. destruct NT. econstructor; eauto.
  - assert (T : tag c ("column:" ++ v)) by (apply V; now left). inversion T; congruence.
Qed.

Lemma tag_is : forall c f x b, field c f -> (tag c x <-> b = true) -> has_tag x f = b.
Proof. intros c f x b H E. apply bool_iff. rewrite has_tag_iff, (tags_of c f x H). exact E. Qed.

Lemma field_maps : forall c f, field c f ->
  column_in naming f = mkMapped (c_name c) (c_pk c) (required_unless_auto c) (c_autoinc c).
Proof.
  intros c f H. unfold column_in. rewrite (column_name_is c f H).
  rewrite (tag_is c f "primary_key" (c_pk c) H), (tag_is c f "not null" (c_notnull c && negb (c_autoinc c)) H), (tag_is c f "auto_increment" (c_autoinc c) H);
    [reflexivity| | |].
  - split; [intros T; inversion T; auto; discriminate|now constructor].
  - split; [intros T; inversion T as [| | | | | | | | |N1 N2]; try discriminate; now rewrite N1, N2|].
    intros E. apply andb_prop in E. destruct E as [E1 E2]. apply negb_true_iff in E2. now constructor.
  - split; [intros T; inversion T; auto; discriminate|now constructor].
Qed.

Lemma field_is_column : forall c f, field c f -> is_column f = true.
Proof.
  intros c f H. unfold is_column. destruct (tag_value "foreignKey" (snd f)) as [|v l] eqn:E; [reflexivity|].
  assert (T : tag c ("foreignKey:" ++ v)).
  { apply (tags_of c f _ H). change ("foreignKey:" ++ v) with ("foreignKey" ++ ":" ++ v). apply tag_value_in. rewrite E. now left. }
  inversion T; discriminate.
Qed.

Lemma unique_is : forall c f, field c f -> has_tag "unique" f = c_uq c && Nat.eqb (length (filter c_uq (t_cols t))) 1.
Proof.
  intros c f H. apply (tag_is c f _ _ H). split.
  - intros T. inversion T as [| | | |U L| | | | | ]; try discriminate. now rewrite U, L.
  - intros E. apply andb_prop in E. destruct E as [U L]. apply Nat.eqb_eq in L. now constructor.
Qed.

Lemma uniques_is : forall c f n, field c f -> In n (tag_value "unique_index" (snd f)) <->
  n = t_name t ++ suffix /\ c_uq c = true /\ length (filter c_uq (t_cols t)) > 1.
Proof.
  intros c f n H. rewrite tag_value_in, (tags_of c f _ H). change ("unique_index" ++ ":" ++ n) with ("unique_index:" ++ n). split.
  - intros T. inversion T; try discriminate; auto.
  - intros [-> [U L]]. now constructor.
Qed.

Lemma fields_unique : forall cs fs, cs = t_cols t -> Forall2 field cs fs ->
  filter c_uq (t_cols t) = [] /\ constraints_in naming fs = [] \/
  filter c_uq (t_cols t) <> [] /\ constraints_in naming fs <> [] /\
  forall u, In u (constraints_in naming fs) -> (fst u = None \/ fst u = Some (t_name t ++ suffix)) /\
    same_members (snd u) (map c_name (filter c_uq (t_cols t))).
Proof.
  intros cs fs -> F. 
  assert (I1 : forall u, In u (constraints_in naming fs) <->
     (exists c f, In c (t_cols t) /\ In f fs /\ field c f /\ c_uq c = true /\ length (filter c_uq (t_cols t)) = 1 /\ u = (None, [c_name c])) \/
     (exists c f, In c (t_cols t) /\ In f fs /\ field c f /\ c_uq c = true /\ length (filter c_uq (t_cols t)) > 1 /\
        u = (Some (t_name t ++ suffix), map (column_name naming) (filter (has_tag ("unique_index:" ++ t_name t ++ suffix)) fs)))).
  { intros u. unfold constraints_in. rewrite in_app_iff, !in_map_iff. split.
    - intros [[f [<- I]]|[n [<- I]]].
      + apply filter_In in I. destruct I as [I T]. destruct (Forall2_in_r _ _ _ _ F I) as [c [J H]].
        rewrite (unique_is c f H) in T. apply andb_prop in T. destruct T as [U L]. apply Nat.eqb_eq in L.
        left. exists c, f. rewrite (column_name_is c f H). auto 7.
      + apply in_flat_map in I. destruct I as [f [I T]]. destruct (Forall2_in_r _ _ _ _ F I) as [c [J H]].
        apply (uniques_is c f n H) in T. destruct T as [-> [U L]]. right. exists c, f. auto 7.
    - intros [[c [f [J [I [H [U [L ->]]]]]]]|[c [f [J [I [H [U [L ->]]]]]]]].
      + left. exists f. rewrite (column_name_is c f H). split; auto. apply filter_In. split; auto. rewrite (unique_is c f H), U, L. reflexivity.
      + right. exists (t_name t ++ suffix). split; auto. apply in_flat_map. exists f. split; auto. apply (uniques_is c f _ H). auto. }
  destruct (filter c_uq (t_cols t)) as [|c0 rest] eqn:E.
  - left. split; auto. destruct (constraints_in naming fs) as [|u l]; [reflexivity|].
    destruct (proj1 (I1 u) (or_introl eq_refl)) as [[c [f [J [_ [_ [U _]]]]]]|[c [f [J [_ [_ [U _]]]]]]];
      exfalso; assert (X : In c (filter c_uq (t_cols t))) by (apply filter_In; auto); rewrite E in X; destruct X.
  - right. split; [discriminate|].
    assert (J0 : In c0 (t_cols t) /\ c_uq c0 = true) by (apply filter_In; rewrite E; now left). destruct J0 as [J0 U0].
    destruct (Forall2_in_l _ _ _ _ F J0) as [f0 [K0 H0]]. split.
    + intros Z. destruct rest as [|c1 rest].
      * assert (X : In (None, [c_name c0]) (constraints_in naming fs)) by (apply I1; left; exists c0, f0; auto 7). now rewrite Z in X.
      * eassert (X : In (Some (t_name t ++ suffix), _) (constraints_in naming fs))
          by (apply I1; right; exists c0, f0; repeat (split; [assumption|]); split; [cbn; lia|reflexivity]). now rewrite Z in X.
    + intros u I. apply I1 in I. destruct I as [[c [f [J [_ [_ [U [L ->]]]]]]]|[c [f [J [_ [_ [U [L ->]]]]]]]]; (split; [cbn; auto|]); cbn [snd].
      * destruct rest as [|c1 rest]; [|discriminate L].
        assert (X : In c (filter c_uq (t_cols t))) by (apply filter_In; auto). rewrite E in X. destruct X as [<-|[]]. intros k. reflexivity.
      * rewrite <- E. intros k. rewrite !in_map_iff. split.
        -- intros [g [<- G]]. apply filter_In in G. destruct G as [G T]. destruct (Forall2_in_r _ _ _ _ F G) as [d [D H]].
           exists d. split; [now rewrite (column_name_is d g H)|]. apply filter_In. split; auto.
           apply has_tag_iff in T. change ("unique_index:" ++ t_name t ++ suffix) with ("unique_index" ++ ":" ++ (t_name t ++ suffix)) in T.
           apply tag_value_in in T. now apply (uniques_is d g _ H) in T.
        -- intros [d [<- D]]. apply filter_In in D. destruct D as [D Ud]. destruct (Forall2_in_l _ _ _ _ F D) as [g [G H]].
           exists g. split; [now apply column_name_is|]. apply filter_In. split; auto. apply has_tag_iff.
           change ("unique_index:" ++ t_name t ++ suffix) with ("unique_index" ++ ":" ++ (t_name t ++ suffix)).
           apply tag_value_in, (uniques_is d g _ H). rewrite E. auto.
Qed.
End Fields.

Lemma kept_all : forall A (P : A -> Prop) l l', kept P l l' -> (forall x, P x) -> l' = l.
Proof. intros A P l l' K H. induction K; [reflexivity|now rewrite IHK|now destruct (H0 (H x))]. Qed.

Lemma struct_maps : forall camel snake prefix unwanted pointer suffix naming ms ts t d,
  (forall x b, camel_id camel x b -> naming b = snake (camel x)) ->
  decl_described camel snake prefix unwanted pointer suffix ms ts t d ->
  (forall n cols, In (n, cols) ms -> ~ fits_table t cols) ->
  exists uniques, mapping_of naming d = Some (table_mapping required_unless_auto uniques t) /\
   (filter c_uq (t_cols t) = [] /\ uniques = [] \/
    filter c_uq (t_cols t) <> [] /\ uniques <> [] /\ forall u, In u uniques -> (fst u = None \/ fst u = Some (t_name t ++ suffix)) /\
      same_members (snd u) (map c_name (filter c_uq (t_cols t)))).
Proof.
  intros camel snake prefix unwanted pointer suffix naming ms ts t d U [_ [T [[_ [M _]] [cs [fs [rs [assocs [E [K [F [_ A]]]]]]]]]]] N.
  assert (Em : gd_embedded d = []).
  { destruct (gd_embedded d) as [|n l]; [reflexivity|]. destruct (M n (or_introl eq_refl)) as [cols [I H]]. now destruct (N n cols I). }
  rewrite Em in K. apply kept_all in K; [|intros c [n [cols [[] _]]]]. subst cs.
  assert (Fc : filter is_column (gd_fields d) = fs).
  { rewrite E, filter_app.
    replace (filter is_column assocs) with (@nil gofield).
    - rewrite app_nil_r. clear - F. induction F as [|c f cs fs H F IH]; [reflexivity|]. cbn [filter]. rewrite (field_is_column _ _ _ _ _ _ H). now rewrite IH.
    - clear - A. induction A as [|c f cs fs H A IH]; [reflexivity|]. cbn [filter].
      destruct H as [r [u [e [fk [rf [_ [_ [_ ->]]]]]]]]. exact IH. }
  exists (constraints_in naming fs). unfold mapping_of. rewrite Em. cbv zeta. rewrite Fc. split.
  - unfold table_mapping. rewrite T. do 2 f_equal. clear - F U. induction F as [|c f cs fs H F IH]; [reflexivity|]. cbn [map].
    rewrite (field_maps camel snake naming suffix U _ _ _ H). now rewrite IH.
  - now apply (fields_unique camel snake naming suffix U t (t_cols t)).
Qed.

Lemma gorm_fits : forall camel snake naming om on reserved m o s,
  (forall k, iteration_order (om k)) -> (forall k, iteration_order (on k)) -> models_ok m ->
  go_names_ok camel (get_prefix (go_prefix o)) (go_remove o) (go_suffix o) (s_tables s) (filter (passes (go_filter o)) (s_tables s)) ->
  one_line (go_package o) ->
  (forall x b, camel_id camel x b -> naming b = snake (camel x)) ->
  proper reserved (go_suffix o) (selection (go_filter o) (s_tables s)) ->
  (forall t, In t (selection (go_filter o) (s_tables s)) ->
     (forall n cols, In (n, cols) (embed_models m (go_embed o)) -> ~ fits_table t cols) /\
     forall c, In c (t_cols t) -> c_autoinc c = true -> c_notnull c = true -> c_pk c = true) ->
  exists f stmts bs, read_go (fst (gorm_generate camel snake om on m o s)) = Some f /\
    read_sql reserved (my_export (go_filter o) (go_suffix o) s) = Some stmts /\ run_stmts [] (map MCreate stmts) = Some bs /\
    Forall2 (fun b d => exists g, mapping_of naming d = Some g /\ fits b g) bs (gf_decls f).
Proof.
  intros camel snake naming om on reserved m o s Om On M N L U [Q1 [Q2 Q3]] H.
  destruct (GormText.file_described camel snake om on Om On m o s M N L) as [f [R [_ F]]].
  destruct (ddl_creates reserved (go_filter o) (go_suffix o) s [] Q1 Q2) as [stmts [bs [Rs [Rn Fb]]]]; auto.
  exists f, stmts, bs. repeat (split; [assumption|]). rewrite selection_select in F.
  rewrite Forall_forall in Q3. clear - F Fb H Q3 U. revert bs Fb F H Q3. generalize (gf_decls f) as ds. generalize (s_tables s) at 2 as all. intros all.
  induction (selection (go_filter o) (s_tables s)) as [|t ts IH]; intros es bs Fb F H Q3;
    inversion Fb as [|t1 b1 ts1 bs1 HB FB]; inversion F as [|t2 e2 ts2 es2 HF FF]; subst; [constructor|].
  constructor.
  - destruct (H t (or_introl eq_refl)) as [H1 H2]. destruct (struct_maps _ _ _ _ _ _ naming _ _ _ _ U HF H1) as [us [E1 E2]].
    eexists. split; [exact E1|]. eapply table_fits; [eassumption|apply (ac_columns _ _ (Q3 t (or_introl eq_refl)))| |exact E2].
    intros c I. apply required_same, H2, I.
  - apply IH; auto; intros; [apply H|apply Q3]; now right.
Qed.
