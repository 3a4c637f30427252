(** The option "groups" against the schema without the other tables *)
From Coq Require Import String Ascii List NArith ZArith Bool.
From Verif.Model Require Import GoString GoPath Util Octopus Common Json JsonText Mysql Liquibase DiffCore Protobuf Gorm Sqlalchemy Jpa Cli.
From Verif.Spec Require Import Text OctopusSpec CliSpec OptionsSpec GroupSpec.
From Verif.Proofs Require Import StringLemmas OctopusProofs CliCases CliOptions.
Import ListNotations.
Local Open Scope string_scope.

Lemma chosen_iff : forall opt t, passes (get_table_filter opt) t = true <-> chosen opt t.
Proof.
  intros opt t. destruct (string_dec opt "") as [->|N].
  - split; intros _; [now left|reflexivity].
  - split.
    + intros H. right. exists (split_char "," opt). split; [intros p; apply split_char_clean|].
      split; [symmetry; apply split_char_join|].
      refine (proj1 (proj2 (filter_spec opt t) N (split_char "," opt) (split_char_nonempty _ _) _ _) H).
      * intros p. apply split_char_clean.
      * symmetry. apply split_char_join.
    + intros [E|(parts & C & E & I)]; [contradiction|].
      refine (proj2 (proj2 (filter_spec opt t) N parts _ C E) I). intros ->. destruct I.
Qed.
Lemma picked_filter : forall opt ts ts', picked (chosen opt) ts ts' -> filter (passes (get_table_filter opt)) ts = ts'.
Proof.
  intros opt ts ts' H. induction H as [|t l l' P H IH|t l l' P H IH]; cbn [filter]; [reflexivity| |].
  - apply chosen_iff in P. now rewrite P, IH.
  - destruct (passes (get_table_filter opt) t) eqn:E; [|exact IH]. apply chosen_iff in E. contradiction.
Qed.
Lemma passes_all : forall ts : list table, filter (passes None) ts = ts.
Proof. induction ts as [|t ts IH]; cbn [filter passes]; [reflexivity|]. now rewrite IH. Qed.

Lemma generate_filtered : forall fo au sx com f ts id,
  generate_tables fo au sx com f ts id = generate_tables fo au sx com None (filter (passes f) ts) id.
Proof.
  intros fo au sx com f. induction ts as [|t ts IH]; intros id; cbn [generate_tables filter]; [reflexivity|].
  destruct (passes f t); cbn [negb]; [|apply IH]. cbn [generate_tables passes negb].
  destruct (new_create_table_cs fo au sx com (bump_major id) t) as [[css id1]|]; [|reflexivity]. now rewrite IH.
Qed.

Section Stay.
Variables (opt : string) (s s' : schema).
Hypothesis O : only_chosen opt s s'.
Hypothesis R : references_stay opt s.
Lemma lookup_picked : forall n, (forall u, In u (s_tables s) -> t_name u = n -> chosen opt u) ->
  table_by_name (s_tables s') n = table_by_name (s_tables s) n.
Proof.
  destruct O as (_ & _ & _ & P). clear R. induction P as [|t l l' C P IH|t l l' C P IH]; intros n H; cbn [table_by_name]; [reflexivity| |].
  - destruct (String.eqb (t_name t) n); [reflexivity|]. apply IH. intros u U. apply H. now right.
  - destruct (String.eqb (t_name t) n) eqn:E.
    + exfalso. apply C, H; [now left|now apply String.eqb_eq].
    + apply IH. intros u U. apply H. now right.
Qed.
Lemma chosen_in : forall t, In t (s_tables s') -> In t (s_tables s) /\ chosen opt t.
Proof.
  destruct O as (_ & _ & _ & P). intros t T. rewrite <- (picked_filter _ _ _ P) in T. apply filter_In in T as [I C].
  split; [exact I|now apply chosen_iff].
Qed.
Lemma found_same : forall t c r, In t (s_tables s') -> In c (t_cols t) -> c_ref c = Some r ->
  table_by_name (s_tables s') (ref_table r) = table_by_name (s_tables s) (ref_table r).
Proof.
  intros t c r T C E. apply lookup_picked. intros u U N. destruct (chosen_in t T) as [I Ch]. exact (R t c r u I Ch C E U N).
Qed.

Lemma structs_same : forall ca sn om on m remove pm ts k, incl ts (s_tables s') ->
  go_structs_from ca sn k om on m s remove pm ts = go_structs_from ca sn k om on m s' remove pm ts.
Proof.
  intros ca sn om on m remove pm. induction ts as [|t ts IH]; intros k I; cbn [go_structs_from]; [reflexivity|].
  rewrite IH by (intros x X; apply I; now right). f_equal. unfold new_go_struct. cbv zeta. f_equal.
  assert (T : In t (s_tables s')) by (apply I; now left). clear I IH.
  assert (J : forall l, incl l (t_cols t) -> flat_map (go_assoc_of ca s remove pm) l = flat_map (go_assoc_of ca s' remove pm) l).
  { induction l as [|c l IH]; intros J; cbn [flat_map]; [reflexivity|].
    rewrite IH by (intros x X; apply J; now right). f_equal. unfold go_assoc_of, find_reference.
    destruct (c_ref c) as [r|] eqn:E; [|reflexivity]. rewrite (found_same t c r T); [reflexivity| |exact E]. apply J. now left. }
  apply J. intros x X. exact X.
Qed.
Lemma relations_same : forall ca o f t cs, In t (s_tables s') -> incl cs (t_cols t) ->
  pb_relations ca o s cs = pb_relations ca (mkPbOpt (po_prefix o) f (po_remove o) (po_package o) (po_go_package o) (po_start o) (po_decr o)) s' cs.
Proof.
  intros ca o f t cs T. induction cs as [|c cs IH]; intros I; cbn [pb_relations]; [reflexivity|].
  assert (I' : incl cs (t_cols t)) by (intros x X; apply I; now right).
  destruct (c_ref c) as [r|] eqn:E; [|exact (IH I')].
  rewrite (found_same t c r T); [|apply I; now left|exact E]. now rewrite (IH I').
Qed.
End Stay.

(** ** The generators look at the filter only to choose the tables *)
Lemma sa_each_filter : forall ca sn pm f g rm sx utc ks sa im,
  sa_each (mkSaOpt pm f rm sx utc) sa im (map (new_sa_class ca sn (mkSaOpt pm f rm sx utc)) ks) =
  sa_each (mkSaOpt pm g rm sx utc) sa im (map (new_sa_class ca sn (mkSaOpt pm g rm sx utc)) ks).
Proof.
  intros ca sn pm f g rm sx utc. induction ks as [|k ks IH]; intros sa im; cbn [map sa_each]; [reflexivity|].
  cbv zeta. f_equal. apply IH.
Qed.
Lemma fields_lines_filter : forall sn am pm f g ie pk rl rm rp ux all id fs,
  fields_lines sn (mkKtOpt am pm f ie pk rl rm rp ux) all id fs =
  fields_lines sn (mkKtOpt am pm g ie pk rl rm rp ux) all id fs.
Proof.
  intros sn am pm f g ie pk rl rm rp ux all id. induction fs as [|k fs IH]; cbn [fields_lines]; [reflexivity|].
  rewrite IH. reflexivity.
Qed.
Lemma entity_text_filter : forall sn am pm f g ie pk rl rm rp ux all k,
  entity_text sn (mkKtOpt am pm f ie pk rl rm rp ux) all k = entity_text sn (mkKtOpt am pm g ie pk rl rm rp ux) all k.
Proof.
  intros. unfold entity_text. cbv zeta. rewrite (fields_lines_filter _ _ _ _ g). reflexivity.
Qed.
Lemma kt_entities_filter : forall sn pj am pm f g ie pk rl rm rp ux all dir ks,
  kt_entities sn pj (mkKtOpt am pm f ie pk rl rm rp ux) all dir ks =
  kt_entities sn pj (mkKtOpt am pm g ie pk rl rm rp ux) all dir ks.
Proof.
  intros sn pj am pm f g ie pk rl rm rp ux all dir. induction ks as [|k ks IH]; cbn [kt_entities]; [reflexivity|].
  rewrite IH, (entity_text_filter _ _ _ _ g). reflexivity.
Qed.
Lemma kt_repositories_filter : forall pj am pm f g ie pk rl rm rp ux dir ks,
  kt_repositories pj (mkKtOpt am pm f ie pk rl rm rp ux) dir ks =
  kt_repositories pj (mkKtOpt am pm g ie pk rl rm rp ux) dir ks.
Proof.
  intros pj am pm f g ie pk rl rm rp ux dir. induction ks as [|k ks IH]; cbn [kt_repositories]; [reflexivity|].
  rewrite IH. reflexivity.
Qed.

(** ** The commands *)
Section Runs.
Variables (w : world) (fs fs' : files) (v v' : values) (s s' : schema).
Hypothesis D : differ_only_at "groups" v v'.
Hypothesis G : given v' "groups" = "".
Hypothesis L : load_file w fs (given v "input") = Loaded s.
Hypothesis L' : load_file w fs' (given v' "input") = Loaded s'.
Hypothesis O : only_chosen (given v "groups") s s'.

Let P : filter (passes (get_table_filter (given v "groups"))) (s_tables s) = s_tables s'.
Proof. apply picked_filter. apply O. Qed.

Lemma mysql_groups : run w fs ExportMysql v = run w fs' ExportMysql v'.
Proof.
  unfold run. rewrite (given_same ExportMysql _ v v' D);
    [|cbn; intros f F E; repeat (destruct F as [F|F]; [subst f; try reflexivity; discriminate|]); destruct F].
  destruct (required_given ExportMysql v'); [|reflexivity]. cbn [action]. unfold export_mysql_file, with_schema.
  change (flag_string ExportMysql v "input") with (given v "input"). change (flag_string ExportMysql v' "input") with (given v' "input").
  change (flag_string ExportMysql v "groups") with (given v "groups"). change (flag_string ExportMysql v' "groups") with (given v' "groups").
  rewrite L, L', G. same_flags D. unfold my_export. rewrite P. change (get_table_filter "") with (@None (table -> bool)).
  rewrite passes_all. reflexivity.
Qed.
Lemma liquibase_groups : run w fs GenerateLiquibase v = run w fs' GenerateLiquibase v'.
Proof.
  unfold run. rewrite (given_same GenerateLiquibase _ v v' D);
    [|cbn; intros f F E; repeat (destruct F as [F|F]; [subst f; try reflexivity; discriminate|]); destruct F].
  destruct (required_given GenerateLiquibase v'); [|reflexivity]. cbn [action]. unfold generate_liquibase, with_schema.
  change (flag_string GenerateLiquibase v "input") with (given v "input"). change (flag_string GenerateLiquibase v' "input") with (given v' "input").
  change (flag_string GenerateLiquibase v "groups") with (given v "groups"). change (flag_string GenerateLiquibase v' "groups") with (given v' "groups").
  rewrite L, L', G. same_flags D. unfold lq_generate. cbn [lo_suffix lo_comments lo_filter].
  rewrite (generate_filtered _ _ _ _ _ (s_tables s)), P. replace (s_author s') with (s_author s) by (symmetry; apply O). reflexivity.
Qed.
Lemma sqlalchemy_groups : run w fs GenerateSqlalchemy v = run w fs' GenerateSqlalchemy v'.
Proof.
  unfold run. rewrite (given_same GenerateSqlalchemy _ v v' D);
    [|cbn; intros f F E; repeat (destruct F as [F|F]; [subst f; try reflexivity; discriminate|]); destruct F].
  destruct (required_given GenerateSqlalchemy v'); [|reflexivity]. cbn [action]. unfold generate_sqlalchemy, with_schema.
  change (flag_string GenerateSqlalchemy v "input") with (given v "input"). change (flag_string GenerateSqlalchemy v' "input") with (given v' "input").
  change (flag_string GenerateSqlalchemy v "groups") with (given v "groups"). change (flag_string GenerateSqlalchemy v' "groups") with (given v' "groups").
  rewrite L, L', G. same_flags D. destruct (new_prefix_mapper _) as [pm|]; [|reflexivity]. cbn [with_res].
  unfold sa_generate, sa_single, sa_separate, sa_classes. cbn [so_filter]. rewrite P.
  change (get_table_filter "") with (@None (table -> bool)). rewrite passes_all.
  rewrite (sa_each_filter _ _ _ _ None). reflexivity.
Qed.
Lemma kt_groups : run w fs GenerateKt v = run w fs' GenerateKt v'.
Proof.
  unfold run. rewrite (given_same GenerateKt _ v v' D);
    [|cbn; intros f F E; repeat (destruct F as [F|F]; [subst f; try reflexivity; discriminate|]); destruct F].
  destruct (required_given GenerateKt v'); [|reflexivity]. cbn [action]. unfold generate_kt, with_schema.
  change (flag_string GenerateKt v "input") with (given v "input"). change (flag_string GenerateKt v' "input") with (given v' "input").
  change (flag_string GenerateKt v "groups") with (given v "groups"). change (flag_string GenerateKt v' "groups") with (given v' "groups").
  rewrite L, L', G. same_flags D. destruct (new_anno_mapper _) as [am|]; [|reflexivity]. cbn [with_res].
  destruct (new_prefix_mapper _) as [pm|]; [|reflexivity]. cbn [with_res].
  unfold kt_generate, kt_classes. cbn [ko_filter]. rewrite P.
  change (get_table_filter "") with (@None (table -> bool)). rewrite passes_all.
  rewrite (kt_entities_filter _ _ _ _ _ None). destruct (kt_entities _ _ _ _ _ _) as [es e].
  destruct e; try reflexivity. rewrite (kt_repositories_filter _ _ _ _ None). reflexivity.
Qed.
Hypothesis R : references_stay (given v "groups") s.
Lemma gorm_groups : run w fs GenerateGorm v = run w fs' GenerateGorm v'.
Proof.
  unfold run. rewrite (given_same GenerateGorm _ v v' D);
    [|cbn; intros f F E; repeat (destruct F as [F|F]; [subst f; try reflexivity; discriminate|]); destruct F].
  destruct (required_given GenerateGorm v'); [|reflexivity]. cbn [action]. unfold generate_gorm, with_schema.
  change (flag_string GenerateGorm v "input") with (given v "input"). change (flag_string GenerateGorm v' "input") with (given v' "input").
  change (flag_string GenerateGorm v "groups") with (given v "groups"). change (flag_string GenerateGorm v' "groups") with (given v' "groups").
  rewrite L, L', G. same_flags D.
  destruct (new_prefix_mapper _) as [pm|]; [|reflexivity]. cbn [with_res].
  unfold gorm_generate, go_structs. cbn [go_filter go_remove go_prefix]. rewrite P.
  change (get_table_filter "") with (@None (table -> bool)). rewrite passes_all.
  rewrite (structs_same (given v "groups") s s' O R) by (intros x X; exact X). reflexivity.
Qed.
Lemma pb_groups : run w fs GeneratePb v = run w fs' GeneratePb v'.
Proof.
  unfold run. rewrite (given_same GeneratePb _ v v' D);
    [|cbn; intros f F E; repeat (destruct F as [F|F]; [subst f; try reflexivity; discriminate|]); destruct F].
  destruct (required_given GeneratePb v'); [|reflexivity]. cbn [action]. unfold generate_pb, with_schema, pb_cli_option.
  change (flag_string GeneratePb v "input") with (given v "input"). change (flag_string GeneratePb v' "input") with (given v' "input").
  change (flag_string GeneratePb v "groups") with (given v "groups"). change (flag_string GeneratePb v' "groups") with (given v' "groups").
  rewrite L, L', G. same_flags D.
  destruct (new_prefix_mapper _) as [pm|]; [|reflexivity]. cbn [with_res].
  unfold pb_generate, pb_messages. cbn [po_filter po_package po_go_package]. rewrite P.
  change (get_table_filter "") with (@None (table -> bool)). rewrite passes_all.
  match goal with |- with_res (match res_map (pb_new_message ?a ?b ?o s) _ with _ => _ end) _ = with_res (match res_map (pb_new_message _ _ ?o' s') _ with _ => _ end) _ =>
    assert (M : forall ts, incl ts (s_tables s') -> res_map (pb_new_message a b o s) ts = res_map (pb_new_message a b o' s') ts) end.
  { induction ts as [|t ts IH]; intros I; cbn [res_map]; [reflexivity|].
    rewrite IH by (intros x X; apply I; now right). unfold pb_new_message. cbv zeta.
    rewrite (relations_same _ s s' O R (w_camel w) _ None t (t_cols t)) by (first [apply I; now left|intros x X; exact X]).
    reflexivity. }
  rewrite M by (intros x X; exact X). reflexivity.
Qed.
End Runs.

Definition whole_choice (c : command) : Prop := In c [ExportMysql; GenerateKt; GenerateLiquibase; GenerateSqlalchemy].
Lemma groups_alone : forall w fs fs' c v v' s s', whole_choice c ->
  differ_only_at "groups" v v' -> given v' "groups" = "" ->
  load_file w fs (given v "input") = Loaded s -> load_file w fs' (given v' "input") = Loaded s' ->
  only_chosen (given v "groups") s s' -> run w fs c v = run w fs' c v'.
Proof.
  intros w fs fs' c v v' s s' [<-|[<-|[<-|[<-|[]]]]] D G L L' O.
  - exact (mysql_groups w fs fs' v v' s s' D G L L' O).
  - exact (kt_groups w fs fs' v v' s s' D G L L' O).
  - exact (liquibase_groups w fs fs' v v' s s' D G L L' O).
  - exact (sqlalchemy_groups w fs fs' v v' s s' D G L L' O).
Qed.
Lemma groups_stay : forall w fs fs' c v v' s s', In c [GenerateGorm; GeneratePb] ->
  differ_only_at "groups" v v' -> given v' "groups" = "" ->
  load_file w fs (given v "input") = Loaded s -> load_file w fs' (given v' "input") = Loaded s' ->
  only_chosen (given v "groups") s s' -> references_stay (given v "groups") s -> run w fs c v = run w fs' c v'.
Proof.
  intros w fs fs' c v v' s s' [<-|[<-|[]]] D G L L' O R.
  - exact (gorm_groups w fs fs' v v' s s' D G L L' O R).
  - exact (pb_groups w fs fs' v v' s s' D G L L' O R).
Qed.

(** ** Cases *)
Definition sorted_old : schema := schema_of (load_file sample_world sales_files "a.json").
Definition old_tables (g : string) : schema :=
  mkSchema (s_author sorted_old) (s_name sorted_old) (s_version sorted_old)
    (filter (fun t => String.eqb (t_group t) g) (s_tables sorted_old)).
Definition one_group (g : string) : files := fun _ => Some (saved_text (to_text isort_tables (old_tables g))).
Lemma one_group_picked : forall g, In g ["g1"; "g2"] -> only_chosen g sorted_old (old_tables g).
Proof.
  intros g I. do 3 (split; [reflexivity|]). unfold old_tables. cbn [s_tables].
  assert (C : forall t, chosen g t <-> t_group t = g).
  { intros t. rewrite <- chosen_iff. destruct I as [<-|[<-|[]]]; unfold get_table_filter, passes; cbn [String.eqb]; cbn;
      rewrite orb_false_r; apply String.eqb_eq. }
  induction (s_tables sorted_old) as [|t l IH]; cbn [filter]; [constructor|].
  destruct (String.eqb (t_group t) g) eqn:E.
  - apply picked_in; [apply C; now apply String.eqb_eq|exact IH].
  - apply picked_out; [|exact IH]. intros X. apply C in X. apply String.eqb_neq in E. contradiction.
Qed.
Definition choose_group (g : string) : values := option_values [("groups", g); ("input", "a.json"); ("output", "o")].
Definition choose_all : values := option_values [("input", "a.json"); ("output", "o")].
Lemma choices_differ : forall g, differ_only_at "groups" (choose_group g) choose_all.
Proof.
  intros g n N. unfold choose_group, choose_all, option_values. cbn [alist_find].
  destruct (String.eqb n "groups") eqn:E; [apply String.eqb_eq in E; contradiction|reflexivity].
Qed.
Lemma gorm_dangles : exists w fs fs' v v' s s', real_world w /\
  differ_only_at "groups" v v' /\ given v' "groups" = "" /\
  load_file w fs (given v "input") = Loaded s /\ load_file w fs' (given v' "input") = Loaded s' /\
  only_chosen (given v "groups") s s' /\
  snd (run w fs GenerateGorm v) = Done /\ snd (run w fs' GenerateGorm v') = Done /\
  run w fs GenerateGorm v <> run w fs' GenerateGorm v'.
Proof.
  exists sample_world, sales_files, (one_group "g2"), (choose_group "g2"), choose_all, sorted_old, (old_tables "g2").
  split; [exact sample_real|]. split; [apply choices_differ|]. split; [reflexivity|].
  split; [vm_compute; reflexivity|]. split; [vm_compute; reflexivity|].
  split; [apply one_group_picked; cbn; auto|]. split; [vm_compute; reflexivity|]. split; [vm_compute; reflexivity|].
  vm_compute. discriminate.
Qed.
Lemma pb_dangles : exists w fs fs' v v' s s', real_world w /\
  differ_only_at "groups" v v' /\ given v' "groups" = "" /\
  load_file w fs (given v "input") = Loaded s /\ load_file w fs' (given v' "input") = Loaded s' /\
  only_chosen (given v "groups") s s' /\
  snd (run w fs GeneratePb v) = Done /\ snd (run w fs' GeneratePb v') = Crashed.
Proof.
  exists sample_world, sales_files, (one_group "g2"), (choose_group "g2"), choose_all, sorted_old, (old_tables "g2").
  split; [exact sample_real|]. split; [apply choices_differ|]. split; [reflexivity|].
  split; [vm_compute; reflexivity|]. split; [vm_compute; reflexivity|].
  split; [apply one_group_picked; cbn; auto|]. split; vm_compute; reflexivity.
Qed.
Lemma group_case : only_chosen "g1" sorted_old (old_tables "g1") /\ references_stay "g1" sorted_old /\
  length (s_tables sorted_old) = 2 /\ length (s_tables (old_tables "g1")) = 1 /\
  load_file sample_world sales_files "a.json" = Loaded sorted_old /\
  load_file sample_world (one_group "g1") "a.json" = Loaded (old_tables "g1") /\
  snd (run sample_world sales_files GenerateGorm (choose_group "g1")) = Done.
Proof.
  split; [apply one_group_picked; cbn; auto|]. split.
  - intros t c r u T C I E U N. apply chosen_iff in C.
    assert (A : forallb (fun t => negb (passes (get_table_filter "g1") t) ||
       forallb (fun c => match c_ref c with None => true | Some _ => false end) (t_cols t)) (s_tables sorted_old) = true) by (vm_compute; reflexivity).
    rewrite forallb_forall in A. specialize (A t T). cbv beta in A. rewrite C in A. cbn [negb orb] in A.
    rewrite forallb_forall in A. specialize (A c I). cbv beta in A. rewrite E in A. discriminate.
  - repeat split; vm_compute; reflexivity.
Qed.
