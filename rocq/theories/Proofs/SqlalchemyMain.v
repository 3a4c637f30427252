(** What the SQLAlchemy generator writes *)
From Coq Require Import String Ascii List NArith Bool Lia Arith.
From Verif.Model Require Import GoString Util Octopus Common Sqlalchemy.
From Verif.Spec Require Import Text Reading OctopusSpec GraphqlSpec SqlalchemySpec.
From Verif.Proofs Require Import StringLemmas UtilProofs CommonProofs ReadingProofs GraphqlProofs GormProofs GormText PythonProofs
  SqlalchemyProofs SqlalchemyText SqlalchemyNames.
From Verif.Spec Require Import SqlalchemySpec.
Import ListNotations.
Local Open Scope string_scope.

(** ** The path *)

Lemma to_lower_char : forall c s, char_in c s -> char_in (lower_ascii c) (to_lower s).
Proof.
  induction s as [|d s IH]; intros I; [destruct I|]. cbn. destruct I as [->|I]; [now left|right; now apply IH].
Qed.
Lemma ext_scan_suffix : forall r acc, ext_scan r acc = "" \/ exists q, string_rev r ++ acc = q ++ ext_scan r acc.
Proof.
  induction r as [|c r IH]; intros acc; cbn [ext_scan]; [now left|].
  destruct (Ascii.eqb_spec c "/") as [->|N]; [now left|]. destruct (Ascii.eqb_spec c ".") as [->|N'].
  - right. exists (string_rev r). rewrite string_rev_cons. now rewrite app_assoc_s.
  - destruct (IH (String c acc)) as [E|[q E]]; [now left|]. right. exists q. rewrite <- E. rewrite string_rev_cons. now rewrite app_assoc_s.
Qed.
Lemma ext_of : forall p, python_path p -> to_lower (filepath_ext p) = ".py".
Proof.
  intros p [q [e [-> E]]]. rewrite filepath_ext_dot.
  - change ("." ++ e) with (String "." e). change (String "." (to_lower e) = ".py"). now rewrite E.
  - split; intros I; apply to_lower_char in I; rewrite E in I; cbn in I; intuition discriminate.
Qed.
Lemma ext_not : forall p, ~ python_path p -> String.eqb (to_lower (filepath_ext p)) ".py" = false.
Proof.
  intros p H. apply String.eqb_neq. intros Q. apply H. unfold filepath_ext in Q.
  destruct (ext_scan_suffix (string_rev p) "") as [E|[q E]]; [rewrite E in Q; discriminate|].
  rewrite app_nil_r_s, string_rev_invol in E.
  destruct (ext_scan (string_rev p) "") as [|c e] eqn:X; [discriminate|].
  assert (C : c = "."%char).
  { clear - X. revert X. generalize "" as acc. generalize (string_rev p) as r. induction r as [|d r IH]; intros acc X; [discriminate|].
    cbn [ext_scan] in X. destruct (Ascii.eqb d "/"); [discriminate|]. destruct (Ascii.eqb d "."); [congruence|]. eauto. }
  subst c. exists q, e. split; [exact E|]. cbn [to_lower] in Q. now injection Q.
Qed.

(** ** One file *)

Lemma no_model : forall im sa, filter is_model (header_stmts im sa) = [].
Proof.
  intros im sa. unfold header_stmts. rewrite filter_app. cbn. rewrite app_nil_r. induction im as [|x im IH]; [reflexivity|].
  cbn [map filter]. unfold import_stmt at 1. destruct (String.eqb x _); exact IH.
Qed.
Lemma models_of : forall camel snake o im sa tz ts,
  filter is_model (file_stmts camel snake o im sa tz ts) = map (class_stmt camel snake o) ts.
Proof.
  intros. unfold file_stmts. rewrite !filter_app, no_model.
  replace (filter is_model (if tz then [tz_stmt] else [])) with (@nil stmt) by (destruct tz; reflexivity). cbn [app].
  induction ts as [|t ts IH]; [reflexivity|]. cbn [map filter is_model class_stmt]. change (String.eqb "Base" "Base") with true.
  cbv iota. now rewrite IH.
Qed.

Lemma single_main : forall camel snake o s output, python_path output ->
  py_names_ok camel snake (get_prefix (so_prefix o)) (so_remove o) (so_suffix o) (filter (passes (so_filter o)) (s_tables s)) ->
  exists text f, sa_generate camel snake o s output = [(output, text)] /\ read_python text = Some f /\ names_known f /\
    file_described camel snake (get_prefix (so_prefix o)) (so_remove o) (so_suffix o) (so_utc o) (filter (passes (so_filter o)) (s_tables s)) f.
Proof.
  intros camel snake o s output P H. exists (sa_single camel snake o s), (single_file camel snake o s).
  split; [unfold sa_generate; now rewrite (ext_of output P)|]. split; [now apply single_reads|]. split; [now apply single_known|].
  unfold file_described, single_file. rewrite (models_of camel snake o). destruct (single_described camel snake o s H) as [h [_ F]]. exact F.
Qed.

(** ** One file per table *)

Section Separate.
Variables camel snake : string -> string.
Variables (o : sa_opt) (s : schema) (output : string).
Notation sel := (filter (passes (so_filter o)) (s_tables s)).
Hypothesis Hpath : ~ python_path output.
Hypothesis Hnames : py_names_ok camel snake (get_prefix (so_prefix o)) (so_remove o) (so_suffix o) sel.
Hypothesis Hcols : forall t, In t sel -> t_cols t <> [].
Notation missing := (if so_utc o then ["TZDateTime"] else []).
Notation described := (file_described camel snake (get_prefix (so_prefix o)) (so_remove o) (so_suffix o) (so_utc o)).

Lemma sel_ok' : forall t, In t sel -> table_ok camel snake o t.
Proof. intros t I. now apply (sel_ok camel snake o s). Qed.

Definition good (xs : list string) (t : table) (file : string * string) : Prop :=
  fst file = output ++ "/" ++ t_name t ++ ".py" /\
  exists f, read_python (snd file) = Some f /\ names_known_but xs f /\ described [t] f.

Lemma good_file : forall sa t, In t sel -> (forall x, In x sa -> In x sa_names) ->
  good ((if str_in "Column" sa then [] else ["Column"]) ++ missing)%list t
    (output ++ "/" ++ t_name t ++ ".py",
     lines_text (header_lines (ss_slice (ss_add_all (ss_new []) (class_imports o (new_sa_class camel snake o t))))
       (ss_slice (ss_add_all sa (class_sa o (new_sa_class camel snake o t)))) ++ class_lines o (new_sa_class camel snake o t) ++ [""])%list).
Proof.
  intros sa t I S. split; [reflexivity|]. exists (table_file camel snake o sa t).
  split; [apply (table_reads camel snake o s Hnames); auto; now apply sel_ok'|].
  split; [apply table_known; now apply sel_ok'|]. unfold file_described, table_file. rewrite (models_of camel snake o).
  constructor; [|constructor]. apply class_spec. now apply sel_ok'.
Qed.
Lemma rest_files : forall ts, (forall t, In t ts -> In t sel) ->
  Forall2 (good ("Column" :: missing)) ts
    (map (fun f => (output ++ "/" ++ fst f, snd f)) (sa_each o [] [] (map (new_sa_class camel snake o) ts))).
Proof.
  induction ts as [|t ts IH]; intros H; [constructor|]. cbn [map sa_each]. constructor.
  - apply (good_file []); [apply H; now left|]. intros x [].
  - apply IH. intros u I. apply H. now right.
Qed.
Lemma rest_unknown : forall ts, (forall t, In t ts -> In t sel) ->
  forall file, In file (map (fun f => (output ++ "/" ++ fst f, snd f)) (sa_each o [] [] (map (new_sa_class camel snake o) ts))) ->
  exists f, read_python (snd file) = Some f /\ ~ names_known f.
Proof.
  induction ts as [|t ts IH]; intros H file I; [destruct I|]. cbn [map sa_each] in I. destruct I as [<-|I].
  - cbn [snd]. exists (table_file camel snake o [] t). pose proof (H t (or_introl eq_refl)) as J. split.
    + apply (table_reads camel snake o s Hnames); auto; [now apply sel_ok'|]. intros x [].
    + apply table_unknown; [now apply sel_ok'|now apply Hcols].
  - apply IH; [|exact I]. intros u J. apply H. now right.
Qed.
Lemma first_in : forall x, In x first_sa -> In x sa_names.
Proof. intros x [<-|[]]. cbn. tauto. Qed.
Lemma generate_is : sa_generate camel snake o s output =
  map (fun f => (output ++ "/" ++ fst f, snd f)) (sa_each o first_sa [] (map (new_sa_class camel snake o) sel)).
Proof. unfold sa_generate. now rewrite (ext_not output Hpath). Qed.

Lemma separate_main : Forall2 (good ("Column" :: missing)) sel (sa_generate camel snake o s output).
Proof.
  rewrite generate_is. generalize (fun t (I : In t sel) => I). generalize sel at 1 3 4. intros [|t ts] H; [constructor|].
  cbn [map sa_each]. constructor.
  - destruct (good_file first_sa t (H t (or_introl eq_refl)) first_in) as [A [f [B [C D]]]].
    split; [exact A|]. exists f. split; [exact B|]. split; [|exact D].
    intros pre b post n E U. destruct (C pre b post n E U) as [K|K]; [now left|right; now right].
  - apply rest_files. intros u I. apply H. now right.
Qed.
Lemma first_main : forall file rest, sa_generate camel snake o s output = file :: rest ->
  exists f, read_python (snd file) = Some f /\ names_known_but missing f.
Proof.
  intros file rest E. rewrite generate_is in E. revert E. generalize (fun t (I : In t sel) => I). generalize sel at 1 3.
  intros [|t ts] H E; [discriminate|]. cbn [map sa_each] in E. injection E as <- <-.
  destruct (good_file first_sa t (H t (or_introl eq_refl)) first_in) as [_ [f [B [C _]]]]. now exists f.
Qed.
Lemma later_main : forall first rest file, sa_generate camel snake o s output = first :: rest -> In file rest ->
  exists f, read_python (snd file) = Some f /\ ~ names_known f.
Proof.
  intros first rest file E I. rewrite generate_is in E. revert E. generalize (fun t (I : In t sel) => I). generalize sel at 1 3.
  intros [|t ts] H E; [discriminate|]. cbn [map sa_each] in E. injection E as _ <-.
  apply (rest_unknown ts); [|exact I]. intros u J. apply H. now right.
Qed.
End Separate.

(** ** Calls of types, constraints *)

Section Files.
Variables camel snake : string -> string.
Variables (o : sa_opt).
Notation files := (file_stmts camel snake o).

Lemma class_in_file : forall im sa tz ts n base body, In (PClass n base body) (files im sa tz ts) ->
  (n = "TZDateTime" /\ body = tz_body) \/ exists t, In t ts /\ body = class_members snake o t.
Proof.
  intros im sa tz ts n base body I. unfold file_stmts in I. rewrite !in_app_iff in I. destruct I as [I|[I|I]].
  - exfalso. unfold header_stmts in I. apply in_app_iff in I as [I|I].
    + apply in_map_iff in I as [x [Q _]]. unfold import_stmt in Q. destruct (String.eqb _ _); discriminate.
    + destruct I as [Q|[Q|[Q|[Q|[]]]]]; discriminate.
  - left. destruct tz; [|destruct I]. destruct I as [Q|[]]. injection Q as <- <- <-. auto.
  - right. apply in_map_iff in I as [t [Q I]]. injection Q as <- <- <-. now exists t.
Qed.

Lemma type_calls : forall im sa tz ts,
  (forall t c, In t ts -> In c (t_cols t) -> has_sa_type c /\ (In (c_type c) ["float"; "double"] -> c_scale c = 0%N)) ->
  type_calls_valid (files im sa tz ts).
Proof.
  intros im sa tz ts H n base body x args ty targs ps k e I J K P Q.
  destruct (class_in_file im sa tz ts n base body I) as [[_ ->]|[t [T ->]]].
  { exfalso. destruct J as [J|[J|[J|[]]]]; discriminate. }
  unfold class_members in J. destruct J as [J|J]; [discriminate|]. apply in_app_iff in J as [J|J].
  { exfalso. unfold unique_members in J. destruct (Nat.ltb _ _); [|destruct J]. destruct J as [J|[]]; discriminate. }
  apply in_map_iff in J as [c [J C]]. injection J as <- <-. destruct (H t c T C) as [HT HS].
  unfold all_exprs in K. rewrite !in_app_iff in K. destruct K as [K|[K|K]].
  { exfalso. unfold named_exprs in K. destruct (sf_override _); [|destruct K]. destruct K as [K|[]]. discriminate. }
  2: { exfalso. apply in_app_iff in K. apply (keywords_spec camel snake o c _ HT) in K. inversion K. }
  destruct K as [K|[]]. injection K as K. unfold type_exprs in K. rewrite (typed_lower c HT) in K. cbv zeta in K.
  destruct ((_ || _) && _).
  { cbn [fst] in K. injection K as <- <-. destruct Q as [Q|[]]. injection Q as <- <-. now left. }
  destruct (_ || _ || _) eqn:F.
  2: { exfalso. destruct (String.eqb (c_type c) "datetime"); [|discriminate].
       destruct (String.eqb (c_name c) "created_at"); [discriminate|]. destruct (String.eqb (c_name c) "updated_at"); [discriminate|].
       destruct (so_utc o); discriminate. }
  cbn [fst] in K. injection K as <- <-. right. rewrite !orb_true_iff, !eqb_iff in F.
  apply (proj1 (number_spec camel snake _ _ _)) in Q.
  destruct F as [[F|F]|F]; unfold sa_type_of in P; rewrite F in P; cbn in P;
    destruct P as [P|[P|[P|[]]]]; try discriminate; injection P as <-;
    destruct Q as [[-> _]|[-> [Z _]]]; cbn; try tauto; exfalso; rewrite F in HS; rewrite HS in Z by (cbn; tauto); lia.
Qed.

Lemma reserved_false : forall c, python_reserved (snake (to_lower (c_name c))) = false -> snake (to_lower (c_name c)) = c_name c ->
  sf_name (new_sa_field snake c) = c_name c.
Proof. intros c A B. unfold new_sa_field. cbn [sf_name]. now rewrite A. Qed.
Lemma map_str_inj : forall (xs ys : list string) a b,
  (map (fun x => ("", EStr x)) xs ++ [("name", a)] = map (fun x => ("", EStr x)) ys ++ [("name", b)])%list -> xs = ys.
Proof.
  induction xs as [|x xs IH]; intros [|y ys] a b H; cbn in H; try discriminate; [reflexivity|]. injection H as -> H. f_equal. eauto.
Qed.
Lemma constraint_names : forall im sa tz ts xs, constraint_columns (files im sa tz ts) xs ->
  exists t, In t ts /\ length (filter c_uq (t_cols t)) > 1 /\ xs = map (fun c => sf_name (new_sa_field snake c)) (filter c_uq (t_cols t)).
Proof.
  intros im sa tz ts xs [n [base [body [nm [I J]]]]]. destruct (class_in_file im sa tz ts n base body I) as [[_ ->]|[t [T ->]]].
  { exfalso. destruct J as [J|[J|[J|[]]]]; discriminate. }
  exists t. split; [exact T|]. unfold class_members in J. destruct J as [J|J]; [discriminate|]. apply in_app_iff in J as [J|J].
  - unfold unique_members in J. destruct (Nat.ltb_spec 1 (length (filter c_uq (t_cols t)))) as [L|L]; [|destruct J].
    split; [lia|]. destruct J as [J|[]]. injection J as J. unfold unique_args in J.
    rewrite <- (map_map (fun c => sf_name (new_sa_field snake c)) (fun x => ("", EStr x))) in J. apply map_str_inj in J. now symmetry.
  - exfalso. apply in_map_iff in J as [c [J _]]. discriminate.
Qed.
End Files.

(** every file of a generation is one of these *)
Lemma files_are : forall camel snake o s output path text,
  py_names_ok camel snake (get_prefix (so_prefix o)) (so_remove o) (so_suffix o) (filter (passes (so_filter o)) (s_tables s)) ->
  (forall t, In t (filter (passes (so_filter o)) (s_tables s)) -> t_cols t <> []) ->
  In (path, text) (sa_generate camel snake o s output) ->
  exists im sa tz ts, read_python text = Some (file_stmts camel snake o im sa tz ts) /\
    forall t, In t ts -> In t (filter (passes (so_filter o)) (s_tables s)).
Proof.
  intros camel snake o s output path text H N I. unfold sa_generate in I. destruct (String.eqb _ _).
  - destruct I as [I|[]]. injection I as <- <-. eexists _, _, _, _. split; [now apply single_reads|auto].
  - apply in_map_iff in I as [[p x] [E I]]. cbn in E. injection E as _ <-.
    assert (K : forall ts sa, (forall t, In t ts -> In t (filter (passes (so_filter o)) (s_tables s))) -> (forall x, In x sa -> In x sa_names) ->
      forall p x, In (p, x) (sa_each o sa [] (map (new_sa_class camel snake o) ts)) ->
      exists im sa tz us, read_python x = Some (file_stmts camel snake o im sa tz us) /\
        forall t, In t us -> In t (filter (passes (so_filter o)) (s_tables s))).
    { clear p x I. induction ts as [|t ts IH]; intros sa A B p x I; [destruct I|]. cbn [map sa_each] in I. destruct I as [I|I].
      - injection I as _ <-. eexists _, _, _, _. split.
        + apply (table_reads camel snake o s H); [apply (sel_ok camel snake o s H); apply A; now left|apply N, A; now left|exact B].
        + intros u [<-|[]]. apply A. now left.
      - apply (IH [] (fun u J => A u (or_intror J)) (fun x (J : In x []) => match J with end) p x I). }
    apply (K _ first_sa (fun t J => J) first_in p x I).
Qed.

Lemma types_main : forall camel snake o s output path text f,
  py_names_ok camel snake (get_prefix (so_prefix o)) (so_remove o) (so_suffix o) (filter (passes (so_filter o)) (s_tables s)) ->
  (forall t, In t (filter (passes (so_filter o)) (s_tables s)) -> t_cols t <> []) ->
  (forall t c, In t (filter (passes (so_filter o)) (s_tables s)) -> In c (t_cols t) -> In (c_type c) ["float"; "double"] -> c_scale c = 0%N) ->
  In (path, text) (sa_generate camel snake o s output) -> read_python text = Some f -> type_calls_valid f.
Proof.
  intros camel snake o s output path text f H N S I R. destruct (files_are _ _ _ _ _ _ _ H N I) as [im [sa [tz [ts [E T]]]]].
  rewrite E in R. injection R as <-. apply type_calls. intros t c J K. split; [|intros F; exact (S t c (T t J) K F)].
  destruct H as [_ H]. now apply (H t (T t J)).
Qed.
Lemma constraint_main : forall camel snake o s output path text f xs,
  py_names_ok camel snake (get_prefix (so_prefix o)) (so_remove o) (so_suffix o) (filter (passes (so_filter o)) (s_tables s)) ->
  (forall t, In t (filter (passes (so_filter o)) (s_tables s)) -> t_cols t <> []) ->
  (forall t c, In t (filter (passes (so_filter o)) (s_tables s)) -> In c (t_cols t) ->
     snake (to_lower (c_name c)) = c_name c /\ ~ In (c_name c) python_keywords) ->
  In (path, text) (sa_generate camel snake o s output) -> read_python text = Some f -> constraint_columns f xs ->
  exists t, In t (filter (passes (so_filter o)) (s_tables s)) /\ length (filter c_uq (t_cols t)) > 1 /\ xs = map c_name (filter c_uq (t_cols t)).
Proof.
  intros camel snake o s output path text f xs H N S I R C. destruct (files_are _ _ _ _ _ _ _ H N I) as [im [sa [tz [ts [E T]]]]].
  rewrite E in R. injection R as <-. destruct (constraint_names _ _ _ _ _ _ _ _ C) as [t [J [L ->]]].
  exists t. split; [now apply T|]. split; [exact L|]. apply map_ext_in. intros c K. apply filter_In in K as [K _].
  destruct (S t c (T t J) K) as [A B]. apply reserved_false; [|exact A]. rewrite A. apply str_in_false. intros Q. apply B.
  unfold python_words in Q. unfold python_keywords. cbn in Q |- *. tauto.
Qed.

Lemma keyword_main : forall snake c, ~ In (snake (to_lower (c_name c))) ["async"; "await"] ->
  ~ In (sf_name (new_sa_field snake c)) python_keywords.
Proof.
  intros snake c. unfold new_sa_field. cbn [sf_name]. generalize (snake (to_lower (c_name c))). intros x N I.
  destruct (python_reserved x) eqn:R.
  - assert (E : forall k, In k python_keywords -> forall y, k <> y ++ "_").
    { clear. intros k I y E. assert (L : strip_end "_" k = Some y) by (rewrite E; apply strip_end_app).
      revert L. clear E. unfold python_keywords in I. cbn in I.
      repeat (destruct I as [<-|I]; [discriminate|]). destruct I. }
    exact (E _ I x eq_refl).
  - unfold python_reserved in R. apply str_in_false in R. unfold python_words in R. unfold python_keywords in I. cbn in R, N, I. tauto.
Qed.

(** ** Examples *)

Definition sa_check (camel snake prefix : string -> string) unwanted (t : table) : bool :=
  wordy (t_name t) && wordy (type_named camel prefix unwanted t)
  && forallb (fun c => wordy (c_name c) && wordy (snake (to_lower (c_name c)))
                       && (existsb (fun p => str_in (c_type c) (fst p)) sa_types || (String.eqb (c_type c) "bit" && N.eqb (c_size c) 1)))
       (t_cols t).
Lemma sa_checked : forall camel snake prefix unwanted suffix ts, string_forallb word_char suffix = true ->
  forallb (sa_check camel snake prefix unwanted) ts = true -> py_names_ok camel snake prefix unwanted suffix ts.
Proof.
  intros camel snake prefix unwanted suffix ts S H. split.
  - intros c I. exact (forallb_char_in _ _ _ S I).
  - intros t T. rewrite forallb_forall in H. specialize (H t T). apply andb_true_iff in H as [H C]. apply andb_true_iff in H as [A B].
    split; [now apply wordy_ok|]. split; [now apply wordy_ok|]. intros c I. rewrite forallb_forall in C. specialize (C c I).
    apply andb_true_iff in C as [C Y]. apply andb_true_iff in C as [C D]. split; [now apply wordy_ok|]. split; [now apply wordy_ok|].
    apply orb_true_iff in Y as [Y|Y].
    + apply existsb_exists in Y as [[l k] [Y Z]]. exists k. left. exists l. split; [exact Y|now apply str_in_iff].
    + apply andb_true_iff in Y as [Y Z]. exists "Boolean". right. apply String.eqb_eq in Y. apply N.eqb_eq in Z. auto.
Qed.

Definition sa_user : schema := mkSchema "" "" ""
  [mkTable "group" [mkCol "id" "int64" "" 0 0 true true false true "" "" [] None;
                    mkCol "name" "varchar" "" 40 0 true false true false "" "" [] None] "" "" "UserGroup" [];
   mkTable "user" [mkCol "id" "int64" "" 0 0 true true false true "" "" [] None;
                   mkCol "name" "varchar" "" 40 0 true false true false "" "" [] None;
                   mkCol "eMail" "varchar" "" 80 0 true false true false "" "" [] None;
                   mkCol "from" "date" "" 0 0 false false false false "" "" [] None;
                   mkCol "score" "decimal" "" 8 2 false false false false "" "" [] None;
                   mkCol "seen_at" "datetime" "" 0 0 false false false false "" "" [] None;
                   mkCol "created_at" "datetime" "" 0 0 true false false false "" "" [] None;
                   mkCol "updated_at" "datetime" "" 0 0 false false false false "" "" [] None] "" "" "" []].
Definition py_camel (s : string) : string := if String.eqb s "user" then "User" else s.
Definition py_snake (s : string) : string := if String.eqb s "eMail" then "e_mail" else s.
Definition sa_plain (utc : bool) : sa_opt := mkSaOpt (mkPM "" [] false) None [] "_uq" utc.
Lemma sa_user_ok : forall utc, py_names_ok py_camel py_snake (get_prefix (so_prefix (sa_plain utc))) (so_remove (sa_plain utc))
  (so_suffix (sa_plain utc)) (filter (passes (so_filter (sa_plain utc))) (s_tables sa_user)).
Proof. intros utc. apply sa_checked; vm_compute; reflexivity. Qed.
Lemma sa_user_cols : forall t, In t (s_tables sa_user) -> t_cols t <> [].
Proof. intros t [<-|[<-|[]]]; discriminate. Qed.

(** a check of [known] *)
Definition knownb (f : list stmt) (n : string) : bool :=
  str_in n ["True"; "False"; "None"]
  || existsb (fun b => match b with PImport _ l => str_in n l | PAssign x _ => String.eqb x n | PClass x _ _ => String.eqb x n end) f.
Lemma known_checked : forall f n, known f n -> knownb f n = true.
Proof.
  intros f n K. unfold knownb. apply orb_true_iff. destruct K as [K|K]; [left; now apply str_in_iff|]. right. apply existsb_exists.
  destruct K as [[m [l [I [J _]]]]|[[e I]|[b [l I]]]]; (eexists; split; [exact I|]).
  - now apply str_in_iff.
  - apply String.eqb_refl.
  - apply String.eqb_refl.
Qed.
Lemma unknown : forall f k n b, nth_error f k = Some b -> stmt_uses b n -> knownb (firstn k f) n = false -> ~ names_known f.
Proof.
  intros f k n b E U F K. apply nth_error_split in E as [l1 [l2 [-> L]]].
  specialize (K l1 b l2 n eq_refl U). apply known_checked in K. rewrite <- L, firstn_app, firstn_all, Nat.sub_diag in F.
  cbn [firstn] in F. rewrite app_nil_r in F. congruence.
Qed.

Definition one_table (cs : list column) : schema := mkSchema "" "" "" [mkTable "user" cs "" "" "" []].
Definition id_string (s : string) : string := s.

(** a UTC date, one file per table *)
Lemma tz_refuted : exists camel snake o s output path text f, ~ python_path output /\
  py_names_ok camel snake (get_prefix (so_prefix o)) (so_remove o) (so_suffix o) (filter (passes (so_filter o)) (s_tables s)) /\
  sa_generate camel snake o s output = [(path, text)] /\ read_python text = Some f /\ ~ names_known f.
Proof.
  exists id_string, id_string, (sa_plain true), (one_table [mkCol "seen" "datetime" "" 0 0 false false false false "" "" [] None]), "model".
  eexists _, _, _. split; [|split; [|split; [|split]]].
  - intros [q [e [E L]]]. assert (I : char_in "." "model") by (rewrite E; apply char_in_app; right; now left). cbn in I. intuition discriminate.
  - apply sa_checked; vm_compute; reflexivity.
  - vm_compute. reflexivity.
  - vm_compute. reflexivity.
  - eapply (unknown _ 6 "TZDateTime"); [vm_compute; reflexivity| |vm_compute; reflexivity].
    right. eexists. split; [right; left; reflexivity|]. right. left. reflexivity.
Qed.

(** a type without a counterpart: the file cannot be read *)
Lemma types_refuted : exists camel snake o s output text, (forall t c, In t (s_tables s) -> In c (t_cols t) -> In (c_type c) octopus_types) /\
  (forall t, In t (s_tables s) -> word (t_name t) /\ word (type_named camel (get_prefix (so_prefix o)) (so_remove o) t) /\
     forall c, In c (t_cols t) -> word (c_name c) /\ word (snake (to_lower (c_name c)))) /\
  sa_generate camel snake o s output = [(output, text)] /\ read_python text = None.
Proof.
  exists id_string, id_string, (sa_plain false), (one_table [mkCol "data" "json" "" 0 0 true false false false "" "" [] None]), "model.py".
  eexists. split; [|split; [|split]].
  - intros t c [<-|[]] [<-|[]]. apply str_in_iff. vm_compute. reflexivity.
  - intros t [<-|[]]. split; [now apply wordy_ok|]. split; [now apply wordy_ok|]. intros c [<-|[]]. split; now apply wordy_ok.
  - vm_compute. reflexivity.
  - vm_compute. reflexivity.
Qed.
(** [Float] has no parameter [scale] *)
Lemma scale_refuted : exists camel snake o s output text f,
  py_names_ok camel snake (get_prefix (so_prefix o)) (so_remove o) (so_suffix o) (filter (passes (so_filter o)) (s_tables s)) /\
  sa_generate camel snake o s output = [(output, text)] /\ read_python text = Some f /\ ~ type_calls_valid f.
Proof.
  exists id_string, id_string, (sa_plain false), (one_table [mkCol "rate" "double" "" 10 2 false false false false "" "" [] None]), "model.py".
  eexists _, _. split; [|split; [|split]].
  - apply sa_checked; vm_compute; reflexivity.
  - vm_compute. reflexivity.
  - vm_compute. reflexivity.
  - intros V. assert (X : "scale" = "" \/ In "scale" ["precision"; "asdecimal"; "decimal_return_scale"]).
    { eapply (V "user" "Base" _ "rate" _ "Float" _ _ "scale").
      - do 4 right. left. reflexivity.
      - right. left. reflexivity.
      - left. reflexivity.
      - right. right. now left.
      - right. left. reflexivity. }
    cbn in X. intuition discriminate.
Qed.
(** an attribute called [async] *)
Lemma keyword_refuted : exists snake c, In (sf_name (new_sa_field snake c)) python_keywords.
Proof.
  exists id_string, (mkCol "async" "boolean" "" 0 0 false false false false "" "" [] None). apply str_in_iff. vm_compute. reflexivity.
Qed.
(** a constraint over attributes *)
Lemma constraint_refuted : exists camel snake o s output text f xs,
  py_names_ok camel snake (get_prefix (so_prefix o)) (so_remove o) (so_suffix o) (filter (passes (so_filter o)) (s_tables s)) /\
  sa_generate camel snake o s output = [(output, text)] /\ read_python text = Some f /\ constraint_columns f xs /\
  forall t, In t (s_tables s) -> exists x, In x xs /\ ~ In x (map c_name (t_cols t)).
Proof.
  exists py_camel, py_snake, (sa_plain false), (one_table [mkCol "from" "varchar" "" 10 0 false false true false "" "" [] None;
    mkCol "to" "varchar" "" 10 0 false false true false "" "" [] None]), "model.py".
  eexists _, _, ["from_"; "to"]. split; [|split; [|split; [|split]]].
  - apply sa_checked; vm_compute; reflexivity.
  - vm_compute. reflexivity.
  - vm_compute. reflexivity.
  - exists "User", "Base". eexists _, _. split.
    + do 4 right. left. reflexivity.
    + right. left. reflexivity.
  - intros t [<-|[]]. exists "from_". split; [now left|]. cbn. intuition discriminate.
Qed.

Lemma separate_described : forall camel snake o s output, ~ python_path output ->
  py_names_ok camel snake (get_prefix (so_prefix o)) (so_remove o) (so_suffix o) (filter (passes (so_filter o)) (s_tables s)) ->
  (forall t, In t (filter (passes (so_filter o)) (s_tables s)) -> t_cols t <> []) ->
  Forall2 (fun t file => fst file = output ++ "/" ++ t_name t ++ ".py" /\ exists f, read_python (snd file) = Some f /\
      file_described camel snake (get_prefix (so_prefix o)) (so_remove o) (so_suffix o) (so_utc o) [t] f)
    (filter (passes (so_filter o)) (s_tables s)) (sa_generate camel snake o s output).
Proof.
  intros camel snake o s output P H N. assert (M := separate_main camel snake o s output P H N).
  clear - M. induction M as [|t file ts fs [A [f [B [_ D]]]] M IH]; [constructor|].
  constructor; [|exact IH]. split; [exact A|]. now exists f.
Qed.
