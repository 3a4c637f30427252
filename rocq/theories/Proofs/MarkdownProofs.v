(** The Markdown report; Flyway scripts of real diffs *)
From Coq Require Import String Ascii List NArith ZArith Bool Lia Sorting.Permutation.
From Verif.Model Require Import GoString Util Octopus DiffCore Diff Mysql DiffWriters.
From Verif.Spec Require Import Text Order UtilSpec UtilRun DiffSpec MysqlGrammar MysqlSpec FlywaySpec MarkdownSpec.
From Verif.Proofs Require Import StringLemmas UtilProofs OctopusProofs DiffCoreProofs DiffProofs DiffFacts ListLemmas.
Import ListNotations.
Local Open Scope string_scope.

Lemma md_line_kind : forall a b, md_line a = md_line b -> kind_of a = kind_of b.
Proof.
  assert (D : forall a, match kind_of a with
    | KCreate => md_line a = "create table" | KDrop => md_line a = "drop table"
    | KRename => exists r, md_line a = "rename table `" ++ r
    | KPk => exists r, md_line a = "update PK: [" ++ r
    | KUniqueOn => exists r, md_line a = "create unique" ++ r | KUniqueOff => exists r, md_line a = "drop unique" ++ r
    | KTableComment => exists r, md_line a = "update table" ++ r
    | KAdd => exists r, md_line a = "add column" ++ r | KDropCol => exists r, md_line a = "drop column" ++ r
    | KComment => exists r, md_line a = "update column" ++ r
    | KType => exists r, md_line a = "change column" ++ r | KRenameCol => exists r, md_line a = "rename column" ++ r
    | KNotNull => exists r, md_line a = "set not null" ++ r | KNullable => exists r, md_line a = "set nullable" ++ r
    | KAutoOn => exists r, md_line a = "set auto" ++ r | KAutoOff => exists r, md_line a = "remove auto" ++ r
    | KNoDefault => exists r, md_line a = "remove default" ++ r | KDefault => exists r, md_line a = "update default" ++ r
    end).
  { intros []; cbn [kind_of md_line]; try reflexivity; try (eexists; reflexivity).
    - destruct (c_notnull c); eexists; reflexivity.
    - destruct (c_autoinc c); eexists; reflexivity.
    - destruct (String.eqb (c_default c) ""); eexists; reflexivity. }
  intros a b E. pose proof (D a) as A. pose proof (D b) as B. rewrite E in A. clear E D.
  destruct (kind_of a), (kind_of b); try reflexivity; exfalso;
    repeat match goal with H : exists _, _ |- _ => destruct H end;
    match goal with X : md_line b = _, Y : md_line b = _ |- _ => rewrite X in Y; cbn [String.append] in Y; discriminate Y end.
Qed.

Lemma occurs_here : forall p b, occurs p (p ++ b).
Proof. intros p b. now exists "", b. Qed.
Lemma occurs_later : forall p a b, occurs p b -> occurs p (a ++ b).
Proof. intros p a b [x [y ->]]. exists (a ++ x), y. now rewrite app_assoc_s. Qed.

Lemma md_line_shows : forall ch x, In x (shows ch) -> occurs ("`" ++ x ++ "`") (md_line ch).
Proof.
  assert (Q : forall pre x post, occurs ("`" ++ x ++ "`") (pre ++ "`" ++ x ++ "`" ++ post)).
  { intros pre x post. exists pre, post. rewrite !app_assoc_s. reflexivity. }
  assert (Q0 : forall pre x, occurs ("`" ++ x ++ "`") (pre ++ "`" ++ x ++ "`")).
  { intros pre x. exists pre, "". now rewrite app_nil_r_s. }
  intros ch x H. destruct ch; cbn [shows md_line] in *; try destruct H.
  - subst x. exact (Q "rename table " (t_name old) (" " ++ arrow ++ " `" ++ t_name new ++ "`")).
  - destruct H as [<-|[]]. exact (occurs_later _ "rename table `" _ (occurs_later _ _ _ (Q0 (String "`" (" " ++ arrow ++ " ")) (t_name new)))).
  - subst x. exact (Q0 "update table comment: " (t_desc t)).
  - destruct H.
  - subst x. exact (Q0 "add column: " (c_name c)).
  - destruct H.
  - subst x. exact (Q0 "drop column: " name).
  - destruct H.
  - subst x. exact (Q "update column comment: " (c_name c) (" :`" ++ c_desc c ++ "`")).
  - destruct H as [<-|[]]. exact (occurs_later _ "update column comment: `" _ (occurs_later _ _ _ (Q0 "` :" (c_desc c)))).
  - subst x. exact (Q "change column type: " (c_name new) (" :`" ++ col_format old ++ "` " ++ arrow ++ " `" ++ col_format new ++ "`")).
  - destruct H as [<-|[<-|[]]].
    + exact (occurs_later _ "change column type: `" _ (occurs_later _ _ _ (Q "` :" (col_format old) (" " ++ arrow ++ " `" ++ col_format new ++ "`")))).
    + exact (occurs_later _ "change column type: `" _ (occurs_later _ _ _ (occurs_later _ "` :`" _ (occurs_later _ _ _ (Q0 (String "`" (" " ++ arrow ++ " ")) (col_format new)))))).
  - subst x. exact (Q "rename column: " (c_name old) (" " ++ arrow ++ " `" ++ c_name new ++ "`")).
  - destruct H as [<-|[]]. exact (occurs_later _ "rename column: `" _ (occurs_later _ _ _ (Q0 (String "`" (" " ++ arrow ++ " ")) (c_name new)))).
  - subst x. destruct (c_notnull c); [exact (Q0 "set not null: " (c_name c))|exact (Q0 "set nullable: " (c_name c))].
  - destruct H.
  - subst x. destruct (c_autoinc c); [exact (Q0 "set auto incremental: " (c_name c))|exact (Q0 "remove auto incremental: " (c_name c))].
  - destruct H.
  - subst x. destruct (String.eqb (c_default c) ""); [exact (Q0 "remove default value: " (c_name c))|].
    exact (Q "update default value: " (c_name c) (" : `" ++ c_default c ++ "`")).
  - destruct (String.eqb (c_default c) ""); [destruct H|]. destruct H as [<-|[]].
    exact (occurs_later _ "update default value: `" _ (occurs_later _ _ _ (Q0 "` : " (c_default c)))).
Qed.

(** ** Sections *)

Definition puts (chs : list change) : list (mm_op string change) := map (fun ch => MPut (t_name (dep_table ch)) ch) chs.

Lemma by_table_run : forall css, changes_by_table css = mm_run String.eqb (puts (all_changes css)).
Proof.
  intros css. unfold changes_by_table, mm_run, puts, all_changes. generalize (@nil (string * list change)).
  induction css as [|cs css IH]; intros m; [reflexivity|]. cbn [fold_left flat_map]. rewrite map_app, fold_left_app, IH. f_equal.
  generalize (cs_changes cs) m. clear. induction l as [|ch l IH]; intros m; [reflexivity|]. cbn [fold_left map mm_step]. apply IH.
Qed.

Lemma puts_values : forall chs n, values_of (puts chs) n (filter (under n) chs).
Proof.
  intros chs n. induction chs as [|ch chs IH] using rev_ind; [constructor|].
  unfold puts in *. rewrite map_app, filter_app. cbn [map filter]. unfold under at 2.
  destruct (String.eqb_spec (t_name (dep_table ch)) n) as [E|E].
  - rewrite E. now constructor.
  - rewrite app_nil_r. now constructor.
Qed.

Lemma filter_partition : forall (chs : list change) names, NoDup names ->
  (forall ch, In ch chs -> In (t_name (dep_table ch)) names) ->
  Permutation (flat_map (fun n => filter (under n) chs) names) chs.
Proof.
  induction chs as [|ch chs IH]; intros names N H.
  - rewrite (flat_map_none (fun n => filter (under n) [])) by reflexivity. constructor.
  - assert (P := IH names N (fun c Hc => H c (or_intror Hc))).
    transitivity (ch :: flat_map (fun n => filter (under n) chs) names); [|now apply perm_skip]. clear P.
    assert (Hn := H ch (or_introl eq_refl)). clear - N Hn. induction names as [|n names IHn]; [destruct Hn|].
    inversion N as [|? ? N1 N2]; subst. cbn [flat_map filter]. unfold under at 1.
    destruct (String.eqb_spec (t_name (dep_table ch)) n) as [E|E].
    + cbn [app]. apply perm_skip. apply Permutation_app_head.
      replace (flat_map (fun n0 => if under n0 ch then ch :: filter (under n0) chs else filter (under n0) chs) names)
        with (flat_map (fun n0 => filter (under n0) chs) names); [reflexivity|].
      rewrite !flat_map_concat_map. f_equal. apply map_ext_in. intros m Hm. unfold under at 2.
      destruct (String.eqb_spec (t_name (dep_table ch)) m); [|reflexivity]. subst. contradiction.
    + destruct Hn as [Hn|Hn]; [congruence|]. specialize (IHn N2 Hn). rewrite IHn. symmetry. apply Permutation_middle.
Qed.

Theorem report : forall ord from to css, iteration_order ord ->
  exists names, strictly_increasing names /\
    (forall n, In n names <-> exists ch, In ch (all_changes css) /\ t_name (dep_table ch) = n) /\
    Permutation (flat_map (fun n => filter (under n) (all_changes css)) names) (all_changes css) /\
    md_lines ord from to css =
      (report_head (s_version from) (s_version to) ++ flat_map (report_section md_line (all_changes css)) names)%list.
Proof.
  intros ord from to css O.
  set (keys := mm_keys ord (changes_by_table css)).
  assert (IN : forall n, In n keys <-> exists ch, In ch (all_changes css) /\ t_name (dep_table ch) = n).
  { intros n. unfold keys. rewrite by_table_run.
    destruct (multimap_history String.eqb String.eqb_eq _ n _ (puts_values (all_changes css) n)) as [_ [_ [K _]]].
    destruct (K ord O) as [_ K2]. rewrite K2. split.
    - destruct (filter (under n) (all_changes css)) as [|ch l] eqn:E; [congruence|]. intros _.
      assert (I : In ch (filter (under n) (all_changes css))) by (rewrite E; now left).
      apply filter_In in I. destruct I as [I1 I2]. exists ch. split; [exact I1|]. now apply String.eqb_eq in I2.
    - intros [ch [H1 H2]] E. assert (I : In ch (filter (under n) (all_changes css))).
      { apply filter_In. split; [exact H1|]. unfold under. now apply String.eqb_eq. }
      rewrite E in I. destruct I. }
  assert (ND : NoDup keys).
  { unfold keys. rewrite by_table_run.
    destruct (multimap_history String.eqb String.eqb_eq _ "" _ (puts_values (all_changes css) "")) as [_ [_ [K _]]].
    apply (K ord O). }
  assert (IN2 : forall n, In n (sort_strings keys) <-> exists ch, In ch (all_changes css) /\ t_name (dep_table ch) = n).
  { intros n. rewrite <- IN. split; apply Permutation_in; [|symmetry]; apply sort_strings_perm. }
  exists (sort_strings keys). split; [now apply sort_strings_nodup_strict|]. split; [exact IN2|]. split.
  - apply filter_partition.
    + eapply Permutation_NoDup; [symmetry; apply sort_strings_perm|exact ND].
    + intros ch H. apply IN2. eauto.
  - unfold md_lines. cbv zeta. fold keys. unfold report_head. cbn [app]. do 4 f_equal. rewrite !flat_map_concat_map. f_equal.
    apply map_ext_in. intros n Hn. unfold report_section. do 2 f_equal. f_equal. rewrite by_table_run.
    destruct (multimap_history String.eqb String.eqb_eq _ n _ (puts_values (all_changes css) n)) as [G _]. rewrite G.
    destruct (filter (under n) (all_changes css)); reflexivity.
Qed.

(** ** Changes of real diffs *)

Lemma diff_plain : forall reserved ordT ordC o from to css,
  get_diff ordT ordC o from to = Some css ->
  iteration_order ordT -> (forall i, iteration_order (ordC i)) ->
  Forall (plain_table (alter_reserved reserved) (do_suffix o)) (s_tables to) ->
  Forall (fun t => plain_ident (alter_reserved reserved) (t_name t)) (s_tables from) ->
  Forall (plain_change reserved (do_suffix o)) (all_changes css).
Proof.
  intros reserved ordT ordC o from to css H HT HC PT PF. apply Forall_forall. intros ch Hin.
  destruct (get_diff_shape _ _ _ _ _ _ H HT HC) as [l1 [drops [ren [created [E [F [_ [P [R [D _]]]]]]]]]].
  rewrite Forall_forall in PT, PF.
  rewrite E, !in_app_iff in Hin. destruct Hin as [Hin|[Hin|[Hin|Hin]]].
  - apply in_concat in Hin. destruct Hin as [l [Hl Hch]].
    destruct (Forall2_in_r _ _ _ _ F Hl) as [[[i t] old] [Hp [i0 [cs [i1 [Ht ->]]]]]].
    apply kept_in in Hp. destruct Hp as [K1 [K2 [K3 K4]]]. cbn [fst snd] in *.
    specialize (PT _ K1). destruct PT as [PN PS [_ PC] PI]. rewrite Forall_forall in PC.
    destruct (diff_table_changes _ _ _ _ _ _ _ _ _ Ht (HC _)) as [rem [rn [Ec _]]]. cbv zeta in Ec. rewrite Ec in Hch.
    assert (One : forall b (x : change), In ch (if b : bool then [x] else []) -> ch = x).
    { intros [] x Hx; simpl in Hx; [destruct Hx; [auto|contradiction]|contradiction]. }
    rewrite !in_app_iff in Hch. destruct Hch as [X|[X|[X|[X|[X|[X|X]]]]]].
    + apply One in X. subst ch. exact I.
    + apply in_flat_map in X. destruct X as [[c oc] [X1 X2]].
      assert (Hc : In c (t_cols t)).
      { unfold kept_cols in X1. apply in_flat_map in X1. destruct X1 as [[j x] [Y1 Y2]]. cbn [snd] in Y2.
        destruct (column_name_map (t_cols old) (c_name x)); [|destruct Y2]. destruct Y2 as [Y2|[]]. injection Y2 as -> ->.
        apply with_pos_in. eauto. }
      unfold column_changes in X2. rewrite !in_app_iff in X2.
      destruct X2 as [X|[X|[X|[X|[X|X]]]]]; apply One in X; subst ch; cbn [plain_change]; auto.
    + apply One in X. subst ch. exact I.
    + apply in_map_iff in X. destruct X as [k [<- _]]. exact I.
    + apply in_map_iff in X. destruct X as [k [<- _]]. exact I.
    + apply One in X. subst ch. cbn [plain_change]. split; [exact PN|]. apply Forall_forall. intros c Hc. apply (PC c Hc).
    + apply One in X. subst ch. exact I.
  - apply in_map_iff in Hin. destruct Hin as [t [<- Ht]]. cbn [plain_change]. auto.
  - apply in_flat_map in Hin. destruct Hin as [[i [nw old]] [H1 H2]]. destruct (R _ _ _ H1) as [R1 [R2 [R3 [R4 R5]]]].
    unfold rename_changes in H2. cbn [fst snd] in H2. rewrite !in_app_iff in H2.
    destruct H2 as [H2|[[H2|[]]|H2]].
    + destruct (Nat.ltb 0 _); [|destruct H2]. destruct H2 as [<-|[]]. exact I.
    + subst ch. cbn [plain_change]. split; [auto|]. apply (PT nw R1).
    + destruct (Nat.ltb 0 _); [|destruct H2]. destruct H2 as [<-|[]]. exact I.
  - apply in_map_iff in Hin. destruct Hin as [t [<- Ht]]. cbn [plain_change]. apply PT.
    assert (In t (map snd (filter (is_added (do_filter o) (s_tables from)) (with_pos (s_tables to))))).
    { eapply Permutation_in; [symmetry; exact P|]. apply in_or_app. auto. }
    apply in_map_iff in H0. destruct H0 as [[i x] [Ex Hx]]. simpl in Ex. subst x. apply filter_In in Hx.
    apply with_pos_in. exists i. apply Hx.
Qed.
