(** Kotlin entities and the tables of the database (C112) *)
From Coq Require Import String Ascii List NArith Bool Arith Lia.
From Verif.Model Require Import GoString Util Octopus Common Mysql Jpa.
From Verif.Spec Require Import Text OctopusSpec GraphqlSpec MysqlGrammar FlywaySpec MysqlSpec ServerSpec CreatedSpec MappedSpec.
From Verif.Proofs Require Import ListLemmas FlywayMigration ServerCases Mapped.
From Verif.Proofs Require JpaMain.
From Verif.Spec Require Import KotlinSpec MappedKtSpec.
Import ListNotations.
Local Open Scope string_scope.

Lemma arg_in : forall l k v, NoDup (map fst l) -> In (k, v) l -> arg_value k l = v.
Proof.
  induction l as [|[k' v'] l IH]; intros k v D I; [destruct I|]. inversion D; subst. cbn.
  destruct I as [I|I].
  - injection I as -> ->. now rewrite String.eqb_refl.
  - destruct (String.eqb_spec k' k) as [E|_]; [|now apply IH]. exfalso. apply H1. subst. now apply (in_map fst) in I.
Qed.
Lemma arg_out : forall l k, (forall v, ~ In (k, v) l) -> arg_value k l = [].
Proof.
  induction l as [|[k' v'] l IH]; intros k N; [reflexivity|]. cbn. destruct (String.eqb_spec k' k) as [E|_].
  - exfalso. apply (N v'). left. now rewrite E.
  - apply IH. intros v I. apply (N v). now right.
Qed.

Lemma args_skip : forall n l l', (forall a, In a l -> an_name a <> n) -> args_of n (l ++ l') = args_of n l'.
Proof.
  intros n l l' H. unfold args_of. replace (find (fun a => String.eqb (an_name a) n) (l ++ l')) with (find (fun a => String.eqb (an_name a) n) l'); auto.
  induction l as [|a l IH]; [reflexivity|]. cbn. destruct (String.eqb_spec (an_name a) n) as [E|_]; [now destruct (H a (or_introl eq_refl))|].
  apply IH. intros; apply H; now right.
Qed.

Lemma property_names : forall camel lower_camel prefix unwanted relation ts c a,
  property_anno camel lower_camel prefix unwanted relation ts c a -> an_name a <> "Column".
Proof. intros camel lower_camel prefix unwanted relation ts c a H E. destruct H; discriminate. Qed.

Section Columns.
Variables camel lower_camel snake prefix : string -> string.
Variable unwanted : list string.
Variables identity relation : string.
Variable ts : list table.
Notation described_param := (param_described camel lower_camel snake prefix unwanted identity relation ts).

(** the attributes of [@Column] *)
Lemma column_args : forall c annos, annos_described camel lower_camel snake prefix unwanted relation ts c annos ->
  NoDup (map fst (args_of "Column" annos)) /\ forall a, In a (args_of "Column" annos) <-> column_attr lower_camel snake c a.
Proof.
  intros c annos [others [columns [-> [O [_ C]]]]].
  rewrite args_skip; [|intros a I; apply O in I; eapply property_names; eassumption].
  destruct C as [[-> N]|[attrs [-> [_ [D A]]]]]; [|split; auto].
  split; [constructor|]. intros a. split; [intros []|intros H; now apply N in H].
Qed.

Lemma own_is : forall t c p, described_param t c p ->
  own_name p = if String.eqb (snake (property lower_camel c)) (c_name c) then None else Some (c_name c).
Proof.
  intros t c p [_ [_ [_ [A _]]]]. destruct (column_args c _ A) as [D I]. unfold own_name.
  destruct (String.eqb_spec (snake (property lower_camel c)) (c_name c)) as [E|E].
  - rewrite arg_out; [reflexivity|]. intros v H. apply I in H. inversion H. congruence.
  - rewrite (arg_in _ "name" (text_of (c_name c)) D); [reflexivity|]. apply I. now constructor.
Qed.

Lemma required_is : forall t c p, described_param t c p -> required p = c_notnull c.
Proof.
  intros t c p [_ [_ [_ [A _]]]]. destruct (column_args c _ A) as [D I]. unfold required.
  destruct (c_notnull c) eqn:E.
  - rewrite (arg_in _ "nullable" (kt "false") D); [reflexivity|]. apply I. now constructor.
  - rewrite arg_out; [reflexivity|]. intros v H. apply I in H. inversion H. congruence.
Qed.

Lemma column_name_is : forall t c p, described_param t c p -> column_name snake p = c_name c.
Proof.
  intros t c p H. unfold column_name. rewrite (own_is t c p H).
  destruct (String.eqb_spec (snake (property lower_camel c)) (c_name c)) as [E|_]; [|reflexivity].
  destruct H as [-> _]. exact E.
Qed.

Lemma anno_is : forall t c p n b, described_param t c p -> n <> "Column" ->
  ((exists a, property_anno camel lower_camel prefix unwanted relation ts c a /\ an_name a = n) <-> b = true) -> has_anno n (kp_annos p) = b.
Proof.
  intros t c p n b [_ [_ [_ [A _]]]] NC H. apply bool_iff. rewrite <- H. clear H.
  destruct A as [others [columns [-> [O [_ C]]]]]. unfold has_anno. rewrite existsb_exists. split.
  - intros [a [I E]]. apply String.eqb_eq in E. apply in_app_iff in I. destruct I as [I|I]; [exists a; split; auto; now apply O|].
    destruct C as [[-> _]|[attrs [-> _]]]; [destruct I|]. destruct I as [<-|[]]. cbn in E. congruence.
  - intros [a [I E]]. exists a. split; [apply in_app_iff; left; now apply O|now apply String.eqb_eq].
Qed.

Definition kt_required (c : column) : bool := c_pk c || c_notnull c.

Lemma param_maps : forall t c p, described_param t c p ->
  column_in snake p = mkMapped (c_name c) (c_pk c) (kt_required c) (c_autoinc c).
Proof.
  intros t c p H. unfold column_in. rewrite (column_name_is t c p H), (required_is t c p H).
  rewrite (anno_is t c p "Id" (c_pk c) H), (anno_is t c p "GeneratedValue" (c_autoinc c) H); try discriminate; [reflexivity| |].
  - split; [intros [a [I E]]; destruct I; try discriminate; auto|]. intros E. eexists. split; [now apply anno_generated|reflexivity].
  - split; [intros [a [I E]]; destruct I; try discriminate; auto|]. intros E. eexists. split; [now apply anno_id|reflexivity].
Qed.

(** the columns of the constraint *)
Lemma found_is : forall t ps c, Forall2 (described_param t) (t_cols t) ps -> findable lower_camel snake t -> In c (t_cols t) -> c_uq c = true ->
  forall k, In k (found snake ps (property lower_camel c)) <-> k = c_name c.
Proof.
  intros t ps c F N I U k. destruct (N c I U) as [S O]. unfold found. rewrite in_map_iff. split.
  - intros [p [<- J]]. apply filter_In in J. destruct J as [J E]. apply String.eqb_eq in E.
    destruct (Forall2_in_r _ _ _ _ F J) as [c' [I' H]]. rewrite (column_name_is t c' p H).
    rewrite (own_is t c' p H) in E. destruct (String.eqb (snake (property lower_camel c')) (c_name c')).
    + destruct H as [E' _]. rewrite E' in E. f_equal. apply O; auto.
    + f_equal. apply O; auto.
  - intros ->. destruct (Forall2_in_l _ _ _ _ F I) as [p [J H]]. exists p. split; [now apply (column_name_is t)|].
    apply filter_In. split; auto. rewrite (own_is t c p H), S, String.eqb_refl. destruct H as [-> _]. apply String.eqb_refl.
Qed.
End Columns.

Lemma texts_in : forall l : list string, flat_map (fun x => match x with [Leaf (TText n)] => [n] | _ => [] end) (map text_of l) = l.
Proof. induction l as [|x l IH]; [reflexivity|]. cbn. now rewrite IH. Qed.

Lemma entity_maps : forall camel lower_camel snake prefix wanted unwanted identity relation suffix ts t ds,
  entity_described camel lower_camel snake prefix wanted unwanted identity relation suffix ts t ds ->
  (forall g, ~ In "Table" (wanted g)) -> findable lower_camel snake t ->
  exists d more uniques, ds = d :: more /\ mapping_of snake d = Some (table_mapping kt_required uniques t) /\
   (filter c_uq (t_cols t) = [] /\ uniques = [] \/
    filter c_uq (t_cols t) <> [] /\ uniques <> [] /\ forall u, In u uniques -> (fst u = None \/ fst u = Some (t_name t ++ suffix)) /\
      same_members (snd u) (map c_name (filter c_uq (t_cols t)))).
Proof.
  intros camel lower_camel snake prefix wanted unwanted identity relation suffix ts t ds [ta [ids [ps [super [more [-> [T [_ [F X]]]]]]]]] W N.
  eexists _, more, (constraint_in snake ps ta). split; [reflexivity|].
  assert (M : map (column_in snake) ps = map (fun c => mkMapped (c_name c) (c_pk c) (kt_required c) (c_autoinc c)) (t_cols t)).
  { clear - F. induction F as [|c p cs ps H F IH]; [reflexivity|]. cbn [map]. rewrite (param_maps _ _ _ _ _ _ _ _ _ _ _ H). now rewrite IH. }
  assert (Tn : an_name ta = "Table") by (destruct T as [[_ ->]|[_ [names [-> _]]]]; reflexivity).
  assert (NI : forall a, In a ids -> an_name a <> "Table").
  { destruct X as [[_ [-> _]]|[_ [-> _]]]; [intros a []|]. intros a [<-|[]]. discriminate. }
  assert (NW : forall a, In a (map (fun w => mkAnno w []) (wanted (t_group t)) ++ [mkAnno "Entity" []]) -> an_name a <> "Table").
  { intros a I. apply in_app_iff in I. destruct I as [I|[<-|[]]]; [|discriminate]. apply in_map_iff in I. destruct I as [w [<- I]].
    cbn. intros ->. exact (W _ I). }
  split.
  - unfold mapping_of. change ([mkAnno "Entity" []; ta] ++ ids)%list with ([mkAnno "Entity" []] ++ ta :: ids)%list. rewrite app_assoc.
    rewrite args_skip; [|exact NW]. unfold args_of at 1. cbn [find]. rewrite Tn, String.eqb_refl.
    replace (arg_value "name" (an_args ta)) with (text_of (t_name t)) by (destruct T as [[_ ->]|[_ [names [-> _]]]]; reflexivity).
    cbn [text_of]. f_equal. unfold table_mapping. f_equal; [exact M|].
    rewrite filter_app. cbn [filter]. rewrite Tn, String.eqb_refl.
    assert (Z : forall l, (forall a, In a l -> an_name a <> "Table") -> filter (fun a => String.eqb (an_name a) "Table") l = []).
    { induction l as [|a l IH]; intros H; [reflexivity|]. cbn. destruct (String.eqb_spec (an_name a) "Table") as [E|_]; [now destruct (H a (or_introl eq_refl))|].
      apply IH. intros; apply H; now right. }
    rewrite (Z _ NW), (Z _ NI). cbn. apply app_nil_r.
  - destruct T as [[E ->]|[E [names [-> I]]]]; [left; auto|right]. split; [exact E|].
    assert (C : constraint_in snake ps (mkAnno "Table" [("name", text_of (t_name t)); ("uniqueConstraints", [Group "[" [Leaf (TWord "UniqueConstraint");
           Group "(" ([Leaf (TWord "name"); Leaf (TMark "="); Leaf (TText (t_name t ++ suffix)); Leaf (TMark ",");
                       Leaf (TWord "columnNames"); Leaf (TMark "="); Group "[" names])]])])
      = [(Some (t_name t ++ suffix), flat_map (found snake ps) (map (property lower_camel) (filter c_uq (t_cols t))))]).
    { transitivity [(Some (t_name t ++ suffix), flat_map (found snake ps) (flat_map (fun x => match x with [Leaf (TText n)] => [n] | _ => [] end) (items names)))];
        [reflexivity|].
      rewrite I. rewrite <- map_map with (f := property lower_camel) (g := text_of). now rewrite texts_in. }
    rewrite C. split; [discriminate|]. intros u [<-|[]]. split; [now right|]. cbn [snd]. intros k.
    rewrite in_flat_map, in_map_iff. split.
    + intros [x [J K]]. apply in_map_iff in J. destruct J as [c [<- J]]. exists c. split; auto. apply filter_In in J. destruct J as [J U].
      symmetry. now apply (found_is _ _ _ _ _ _ _ _ t ps c F N J U).
    + intros [c [<- J]]. exists (property lower_camel c). split; [now apply in_map|]. apply filter_In in J. destruct J as [J U].
      now apply (found_is _ _ _ _ _ _ _ _ t ps c F N J U).
Qed.

Lemma kotlin_fits : forall camel lower_camel snake path_join reserved o s output wanted,
  kt_names_ok camel lower_camel (get_prefix (ko_prefix o)) (ko_remove o) (ko_identity o) (ko_relation o) (ko_suffix o) (filter (passes (ko_filter o)) (s_tables s)) ->
  package_ok (ko_package o) ->
  (forall t, In t (filter (passes (ko_filter o)) (s_tables s)) -> annotations (get_annotations (ko_anno o) (t_group t)) (wanted (t_group t))) ->
  (ko_repos o = "" \/ package_ok (ko_repos o) /\ forall t, In t (filter (passes (ko_filter o)) (s_tables s)) -> keys t <> []) ->
  (forall g, ~ In "Table" (wanted g)) ->
  proper reserved (ko_suffix o) (selection (ko_filter o) (s_tables s)) ->
  (forall t, In t (selection (ko_filter o) (s_tables s)) -> findable lower_camel snake t) ->
  exists entities repos stmts bs, kt_generate camel lower_camel snake path_join o s output = ((entities ++ repos)%list, KtDone) /\
    read_sql reserved (my_export (ko_filter o) (ko_suffix o) s) = Some stmts /\ run_stmts [] (map MCreate stmts) = Some bs /\
    Forall2 (fun b file => exists f d more g, read_kotlin (snd file) = Some f /\ ki_decls f = d :: more /\
      mapping_of snake d = Some g /\ fits b g) bs entities.
Proof.
  intros camel lower_camel snake path_join reserved o s output wanted N P W R WT [Q1 [Q2 Q3]] H.
  destruct (JpaMain.files_described camel lower_camel snake path_join o s output wanted N P W R) as [entities [repos [E [F _]]]].
  destruct (ddl_creates reserved (ko_filter o) (ko_suffix o) s [] Q1 Q2) as [stmts [bs [Rs [Rn Fb]]]]; auto.
  exists entities, repos, stmts, bs. repeat (split; [assumption|]).
  change (JpaMain.selection o s) with (filter (passes (ko_filter o)) (s_tables s)) in F. rewrite selection_select in F.
  rewrite Forall_forall in Q3. clear - F Fb H Q3 WT. revert entities bs Fb F H Q3.
  generalize (selection (ko_filter o) (s_tables s)) at 2 as all. intros all.
  induction (selection (ko_filter o) (s_tables s)) as [|t ts IH]; intros es bs Fb F H Q3;
    inversion Fb as [|t1 b1 ts1 bs1 HB FB]; inversion F as [|t2 e2 ts2 es2 HF FF]; subst; [constructor|].
  constructor.
  - destruct HF as [_ [f [Rf [_ D]]]]. destruct (entity_maps _ _ _ _ _ _ _ _ _ _ _ _ D WT (H t (or_introl eq_refl))) as [d [more [us [E1 [E2 E3]]]]].
    exists f, d, more. eexists. split; [exact Rf|]. split; [exact E1|]. split; [exact E2|].
    eapply table_fits; [eassumption|apply (ac_columns _ _ (Q3 t (or_introl eq_refl)))| |exact E3].
    intros c _. apply orb_comm.
  - apply IH; auto; intros; [apply H|apply Q3]; now right.
Qed.
