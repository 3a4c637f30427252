(** Adding columns to the tables of a schema: SQLAlchemy classes (C142) *)
From Coq Require Import String Ascii List NArith Bool Lia.
From Verif.Model Require Import GoString Util Octopus Common Sqlalchemy.
From Verif.Spec Require Import Text Reading LocalSpec WidenSpec WidenPython.
From Verif.Proofs Require Import StringLemmas ListLemmas UtilProofs ReadingProofs LocalProofs WidenProofs WidenCases.
Import ListNotations.
Local Open Scope string_scope.

Lemma text_besides : forall im sa body, (forall x, In x im -> starts_with "from " x = true /\ one_line x) -> (forall x, In x sa -> one_line x) ->
  besides_imports (lines_text (header_lines im sa ++ body ++ [""])%list) = (short_header im ++ besides (flat_map lines body))%list.
Proof.
  intros im sa body I S. unfold besides_imports. rewrite app_assoc, file_lines_text, flat_map_app.
  fold (besides (flat_map lines (header_lines im sa) ++ flat_map lines body)%list). rewrite besides_app. f_equal. now apply header_besides.
Qed.
Lemma short_sub : forall s l l', sub l l' -> sub (short_header (ss_slice (ss_add_all s l))) (short_header (ss_slice (ss_add_all s l'))).
Proof.
  intros s l l' S. unfold short_header. apply sub_app; [|apply sub_refl].
  destruct (ss_slice (ss_add_all s l)) as [|x r] eqn:Q; [apply sub_none|].
  assert (I : In x (ss_slice (ss_add_all s l'))).
  { assert (J : In x (ss_slice (ss_add_all s l))) by (rewrite Q; now left). apply (proj1 (DiffCoreProofs.ss_slice_in _ _)) in J. apply DiffCoreProofs.ss_slice_in.
    apply GormProofs.add_all_in. apply GormProofs.add_all_in in J as [J|J]; [now left|right; now apply (sub_in l)]. }
  destruct (ss_slice (ss_add_all s l')); [destruct I|apply sub_refl].
Qed.

Section Python.
Variables camel snake : string -> string.
Variable o : sa_opt.
Let class := new_sa_class camel snake o.
Let field := new_sa_field snake.

Definition kept (t t' : table) : Prop := widened_table t t' /\ constraint_kept t t'.

Lemma class_name_kept : forall t t', widened_table t t' -> sc_name (class t') = sc_name (class t).
Proof. intros t t' [N [G [C _]]]. unfold class, new_sa_class, sa_class_name. cbn [sc_name]. now rewrite N, G, C. Qed.
Lemma unique_fields : forall t, sc_unique (class t) = map field (unique_of t).
Proof.
  intros t. unfold class, new_sa_class, unique_of. cbn [sc_unique]. fold field. generalize (t_cols t) as cs.
  induction cs as [|c cs IH]; [reflexivity|]. cbn [map filter]. rewrite IH. change (sf_col (field c)) with c. now destruct (c_uq c).
Qed.
Lemma fields_widen : forall t t', widened_table t t' -> sub (sc_fields (class t)) (sc_fields (class t')).
Proof. intros t t' W. apply sub_map, W. Qed.
Lemma class_widens : forall t t', kept t t' -> sub (class_lines o (class t)) (class_lines o (class t')).
Proof.
  intros t t' [W C]. unfold class_lines. cbv zeta. rewrite (class_name_kept t t' W).
  assert (T : t_name (sc_table (class t')) = t_name (sc_table (class t))) by apply W. rewrite T.
  apply sub_app; [apply sub_refl|]. apply sub_app; [|apply sub_app; [apply sub_refl|]].
  - unfold has_constraint, unique_line. rewrite !unique_fields, T, !map_length. destruct C as [C|C].
    + replace (Nat.ltb 1 (length (unique_of t))) with false by (symmetry; apply PeanoNat.Nat.ltb_ge; exact C). apply sub_none.
    + rewrite C. apply sub_refl.
  - apply sub_map. now apply fields_widen.
Qed.
Lemma imports_widen : forall t t', widened_table t t' -> sub (class_imports o (class t)) (class_imports o (class t')).
Proof. intros t t' W. apply sub_flat. now apply fields_widen. Qed.
Lemma all_imports_widen : forall ts ts', Forall2 kept ts ts' -> sub (flat_map (class_imports o) (map class ts)) (flat_map (class_imports o) (map class ts')).
Proof. intros ts ts' F. induction F as [|t t' ts ts' [W _] F IH]; [constructor|]. cbn [map flat_map]. apply sub_app; [now apply imports_widen|exact IH]. Qed.
Lemma all_classes_widen : forall ts ts', Forall2 kept ts ts' -> sub (flat_map (class_lines o) (map class ts)) (flat_map (class_lines o) (map class ts')).
Proof. intros ts ts' F. induction F as [|t t' ts ts' Q F IH]; [constructor|]. cbn [map flat_map]. apply sub_app; [now apply class_widens|exact IH]. Qed.
Lemma tz_widens : forall ts ts', Forall2 kept ts ts' ->
  existsb (fun k => existsb (uses_tz (so_utc o)) (sc_fields k)) (map class ts) = true ->
  existsb (fun k => existsb (uses_tz (so_utc o)) (sc_fields k)) (map class ts') = true.
Proof.
  intros ts ts' F. induction F as [|t t' ts ts' [W _] F IH]; intros E; [discriminate|]. cbn [map existsb] in *.
  apply orb_true_iff in E as [E|E]; apply orb_true_iff; [left|right; auto].
  apply existsb_exists in E as [f [I E]]. apply existsb_exists. exists f. split; [|exact E].
  apply (sub_in (sc_fields (class t))); [now apply fields_widen|exact I].
Qed.

Lemma im_from : forall ts x, In x (ss_slice (ss_add_all (ss_new []) (flat_map (class_imports o) (map class ts)))) -> starts_with "from " x = true /\ one_line x.
Proof.
  intros ts x I. apply (proj1 (DiffCoreProofs.ss_slice_in _ _)) in I. apply GormProofs.add_all_in in I as [[]|I].
  apply in_flat_map in I as [k [I J]]. apply in_map_iff in I as [t [<- _]]. exact (imports_from camel snake o t x J).
Qed.
Lemma sa_one : forall s ts x, (forall x, In x s -> one_line x) -> In x (ss_slice (ss_add_all s (flat_map (class_sa o) (map class ts)))) -> one_line x.
Proof.
  intros s ts x S I. apply (proj1 (DiffCoreProofs.ss_slice_in _ _)) in I. apply GormProofs.add_all_in in I as [I|I]; [auto|].
  apply in_flat_map in I as [k [I J]]. apply in_map_iff in I as [t [<- _]]. exact (sa_line camel snake o t x J).
Qed.
Lemma first_one : forall x, In x first_sa -> one_line x.
Proof. intros x [<-|[]]. oneline. Qed.

Lemma kept_filtered : forall g s s', so_filter o = get_table_filter g -> widened s s' -> Forall2 constraint_kept (s_tables s) (s_tables s') ->
  Forall2 kept (filter (passes (so_filter o)) (s_tables s)) (filter (passes (so_filter o)) (s_tables s')).
Proof.
  intros g s s' G [_ [_ [_ W]]] C. apply filter_both.
  - intros t t' [V _]. rewrite G. now apply passes_group, V.
  - now apply (Forall2_both widened_table constraint_kept).
Qed.

Lemma single_widens : forall g s s', so_filter o = get_table_filter g -> widened s s' -> Forall2 constraint_kept (s_tables s) (s_tables s') ->
  sub (besides_imports (sa_single camel snake o s)) (besides_imports (sa_single camel snake o s')).
Proof.
  intros g s s' G W C. pose proof (kept_filtered g s s' G W C) as F. unfold sa_single, sa_classes. cbv zeta. fold class.
  set (ts := filter (passes (so_filter o)) (s_tables s)) in *. set (ts' := filter (passes (so_filter o)) (s_tables s')) in *.
  assert (A : forall (a b c : list string), (a ++ b ++ c = (a ++ b) ++ c)%list) by (intros; apply app_assoc).
  rewrite (A (if existsb _ (map class ts) then tz_lines else [])), (A (if existsb _ (map class ts') then tz_lines else [])).
  rewrite !text_besides by (apply im_from || (intros x; apply sa_one; exact first_one)).
  apply sub_app.
  - apply short_sub. now apply all_imports_widen.
  - apply sub_filter. apply sub_flat. apply sub_app.
    + destruct (existsb _ (map class ts)) eqn:E; [|apply sub_none]. rewrite (tz_widens ts ts' F E). apply sub_refl.
    + now apply all_classes_widen.
Qed.

Lemma each_widens : forall ts ts', Forall2 kept ts ts' -> forall sa, (forall x, In x sa -> one_line x) ->
  files_add_besides (sa_each o sa [] (map class ts)) (sa_each o sa [] (map class ts')).
Proof.
  intros ts ts' F. induction F as [|t t' ts ts' Q F IH]; intros sa S; cbn [map sa_each]; [constructor|]. constructor.
  - cbn [fst snd]. destruct Q as [W C]. assert (T : t_name (sc_table (class t')) = t_name (sc_table (class t))) by apply W. rewrite T. split; [reflexivity|].
    assert (I : forall u x, In x (ss_slice (ss_add_all [] (class_imports o (class u)))) -> starts_with "from " x = true /\ one_line x).
    { intros u x. pose proof (im_from [u] x) as H. cbn [map flat_map] in H. rewrite app_nil_r in H. exact H. }
    assert (J : forall u x, In x (ss_slice (ss_add_all sa (class_sa o (class u)))) -> one_line x).
    { intros u x. pose proof (sa_one sa [u] x S) as H. cbn [map flat_map] in H. rewrite app_nil_r in H. exact H. }
    rewrite !text_besides by (apply I || apply J). apply sub_app; [apply short_sub; now apply imports_widen|].
    apply sub_filter, sub_flat. apply class_widens. now split.
  - apply IH. intros x [].
Qed.
Lemma separate_widens : forall g s s', so_filter o = get_table_filter g -> widened s s' -> Forall2 constraint_kept (s_tables s) (s_tables s') ->
  files_add_besides (sa_separate camel snake o s) (sa_separate camel snake o s').
Proof.
  intros g s s' G W C. unfold sa_separate, sa_classes. fold class. apply each_widens; [now apply (kept_filtered g)|exact first_one].
Qed.
Lemma python_widens : forall g s s' output, so_filter o = get_table_filter g -> widened s s' -> Forall2 constraint_kept (s_tables s) (s_tables s') ->
  files_add_besides (sa_generate camel snake o s output) (sa_generate camel snake o s' output).
Proof.
  intros g s s' output G W C. unfold sa_generate. destruct (String.eqb (to_lower (filepath_ext output)) ".py").
  - constructor; [|constructor]. split; [reflexivity|]. now apply (single_widens g).
  - pose proof (separate_widens g s s' G W C) as F. induction F as [|f f' l l' [E S] F IH]; cbn [map]; constructor; [|exact IH].
    cbn [fst snd]. rewrite E. split; [reflexivity|exact S].
Qed.
End Python.

(** ** Columns whose addition changes other lines *)

Definition wp_opt : sa_opt := mkSaOpt (mkPM "" [] false) None [] "_uq" false.
Definition wp_uq (n : string) : column := mkCol n "varchar" "" 40 0 true false true false "" "" [] None.
Definition wp_files (s : schema) (output : string) : list (string * string) := sa_generate same_word same_word wp_opt s output.

(** a third unique column: the constraint changes *)
Lemma python_unique_not : exists s s', widened s s' /\ ~ files_add_besides (wp_files s "out.py") (wp_files s' "out.py").
Proof.
  exists (wd_schema [wd_id] [wd_id; wp_uq "a"; wp_uq "b"]), (wd_schema [wd_id] [wd_id; wp_uq "a"; wp_uq "b"; wp_uq "c"]). split.
  - apply wd_widened; added.
  - intros F. inversion F as [|? ? ? ? [_ S] _]. subst. apply sub_subb in S. revert S. vm_compute. discriminate.
Qed.
(** a column of another type: the line that imports the types changes *)
Lemma python_imports_not : exists s s', widened s s' /\ Forall2 constraint_kept (s_tables s) (s_tables s') /\
  ~ Forall2 (fun f f' => only_adds (snd f) (snd f')) (wp_files s "out.py") (wp_files s' "out.py").
Proof.
  exists (wd_schema [wd_id] [wd_id]), (wd_schema [wd_id] [wd_id; wd_mail]). split; [|split].
  - apply wd_widened; added.
  - constructor; [|constructor; [|constructor]]; left; cbn; auto with arith.
  - intros F. inversion F as [|? ? ? ? S _]. subst. apply sub_subb in S. revert S. vm_compute. discriminate.
Qed.
