(** Facts about the SQLAlchemy generator *)
From Coq Require Import String Ascii List NArith Bool Lia Arith.
From Verif.Model Require Import GoString Util Octopus Common Sqlalchemy.
From Verif.Spec Require Import Text Reading OctopusSpec GraphqlSpec SqlalchemySpec.
From Verif.Proofs Require Import StringLemmas UtilProofs ReadingProofs GraphqlProofs GormProofs GormText PythonProofs.
Import ListNotations.
Local Open Scope string_scope.
Notation sname := Sqlalchemy.sa_class_name.

(** ** Types *)

Lemma listed_type : forall c ts k, In (ts, k) sa_types -> In (c_type c) ts ->
  sa_type_of c = k /\ to_lower (c_type c) = c_type c.
Proof.
  intros c ts k I J. unfold sa_type_of.
  cbn in I. repeat (destruct I as [I|I]; [injection I as <- <-; cbn in J;
    repeat (destruct J as [J|J]; [rewrite <- J; split; reflexivity|]); destruct J|]). destruct I.
Qed.
Lemma typed_lower : forall c, has_sa_type c -> to_lower (c_type c) = c_type c.
Proof.
  intros c [k [[ts [I J]]|[E _]]]; [now apply (listed_type c ts k)|]. rewrite E. reflexivity.
Qed.
Lemma typed_class : forall c, has_sa_type c -> sa_class_for c (sa_type_of c).
Proof.
  intros c [k [[ts [I J]]|[E [Z ->]]]].
  - left. exists ts. rewrite (proj1 (listed_type c ts k I J)). auto.
  - right. split; [exact E|]. split; [exact Z|]. unfold sa_type_of. rewrite E, Z. reflexivity.
Qed.
Definition sa_kinds : list string := map snd sa_types.
Lemma typed_kind : forall c, has_sa_type c -> In (sa_type_of c) sa_kinds.
Proof.
  intros c H. destruct (typed_class c H) as [[ts [I _]]|[_ [_ ->]]]; [|cbn; tauto].
  apply in_map_iff. now exists (ts, sa_type_of c).
Qed.
Lemma kind_word : forall k, In k sa_kinds -> word k.
Proof. intros k I. exact (listed_word _ _ I eq_refl). Qed.
Lemma typed_word : forall c, has_sa_type c -> word (sa_type_of c).
Proof. intros c H. now apply kind_word, typed_kind. Qed.
Lemma class_fun : forall c k, sa_class_for c k -> k = sa_type_of c.
Proof.
  intros c k [[ts [I J]]|[E [Z ->]]]; [symmetry; now apply (listed_type c ts k)|].
  unfold sa_type_of. rewrite E, Z. reflexivity.
Qed.

Lemma itoa_word : forall n, word (itoa n).
Proof.
  intros n. split; [apply itoa_nonempty|]. intros c I. pose proof (forallb_char_in _ _ _ (itoa_digits n) I) as D.
  unfold is_digit in D. unfold word_char. apply andb_true_iff in D as [A B]. cbv zeta.
  cbn in A, B. destruct c as [[] [] [] [] [] [] [] []]; try reflexivity; discriminate.
Qed.
Lemma itoa_numeral : forall n, numeral (itoa n) = true.
Proof.
  intros n. pose proof (itoa_digits n) as D. pose proof (itoa_nonempty n) as E. destruct (itoa n) as [|c r]; [congruence|].
  cbn [string_forallb] in D. apply andb_true_iff in D as [D _].
  destruct c as [[] [] [] [] [] [] [] []]; try reflexivity; discriminate.
Qed.

Section Columns.
Variable snake : string -> string.
Notation field := (new_sa_field snake).

Lemma imports_of : forall c, has_sa_type c -> sf_imports (field c) = [sa_type_of c].
Proof.
  intros c H. unfold new_sa_field. cbn [sf_imports]. destruct (typed_word c H) as [N _].
  apply String.eqb_neq in N. rewrite N. reflexivity.
Qed.

(** ** The arguments of a column *)

Definition number_exprs (c : column) : list (string * pexpr) :=
  ((if N.ltb 0 (c_size c) then [("precision", EName (itoa (c_size c)))] else [])
   ++ (if N.ltb 0 (c_scale c) then [("scale", EName (itoa (c_scale c)))] else []))%list.
Definition type_exprs (utc : bool) (c : column) : pexpr * list (string * pexpr) :=
  let t := to_lower (c_type c) in
  if (String.eqb t "varchar" || String.eqb t "char") && N.ltb 0 (c_size c)
  then (ECall (sa_type_of c) [("", EName (itoa (c_size c)))], [])
  else if String.eqb t "double" || String.eqb t "float" || String.eqb t "decimal"
  then (ECall (sa_type_of c) (number_exprs c), [])
  else if String.eqb t "datetime" then
    if String.eqb (c_name c) "created_at" then (EName (sa_type_of c), [("default", now utc)])
    else if String.eqb (c_name c) "updated_at" then (EName (sa_type_of c), [("default", now utc); ("onupdate", now utc)])
    else if utc then (EName "TZDateTime", []) else (EName (sa_type_of c), [])
  else (EName (sa_type_of c), []).
Definition kw_exprs (c : column) : list (string * pexpr) :=
  ((if c_pk c then [("primary_key", EName "True")] else [])
   ++ (if c_uq c then [("unique", EName "True")] else [])
   ++ (if c_autoinc c then [("autoincrement", EName "True")] else [])
   ++ (if c_notnull c && negb (c_autoinc c) then [("nullable", EName "False")] else []))%list.
Definition named_exprs (c : column) : list (string * pexpr) :=
  if sf_override (field c) then [("", EStr (c_name c))] else [].
Definition all_exprs (utc : bool) (c : column) : list (string * pexpr) :=
  (named_exprs c ++ [("", fst (type_exprs utc c))] ++ snd (type_exprs utc c) ++ kw_exprs c)%list.

Lemma attrs_pr : forall utc c, sa_attrs utc (field c) = map pr_arg (all_exprs utc c).
Proof.
  intros utc c. unfold sa_attrs, all_exprs. rewrite !map_app. f_equal; [|rewrite (app_assoc (map pr_arg [_])); f_equal].
  - unfold named_exprs. change (sf_col (field c)) with c. destruct (sf_override (field c)); reflexivity.
  - unfold type_attrs, type_exprs. change (sf_col (field c)) with c. change (sf_type (field c)) with (sa_type_of c).
    generalize (to_lower (c_type c)). intros t. cbv zeta.
    destruct (_ && _); [reflexivity|]. destruct (_ || _ || _).
    { unfold number_args, number_exprs. destruct (N.ltb 0 (c_size c)), (N.ltb 0 (c_scale c)); reflexivity. }
    destruct (String.eqb t "datetime"); [|reflexivity].
    destruct (String.eqb (c_name c) "created_at"); [destruct utc; reflexivity|].
    destruct (String.eqb (c_name c) "updated_at"); destruct utc; reflexivity.
  - change (sf_col (field c)) with c. unfold kw_exprs. rewrite !map_app.
    destruct (c_pk c), (c_uq c), (c_autoinc c), (c_notnull c); reflexivity.
Qed.

Lemma kind_dotted : forall c, has_sa_type c -> is_dotted (sa_type_of c) = true.
Proof. intros c H. now apply word_dotted, typed_word. Qed.
Lemma now_wf : forall n utc, wf n (now utc).
Proof. intros [] []; reflexivity. Qed.
Lemma name_wf : forall n s, is_dotted s = true -> wf n (EName s).
Proof. intros [] s H; exact H. Qed.
Lemma number_wf : forall c k e, In (k, e) (number_exprs c) -> (k = "" \/ word k) /\ wf 1 e.
Proof.
  intros c k e I. unfold number_exprs in I.
  assert (W : word k /\ wf 1 e); [|split; [right|]; apply W].
  destruct (N.ltb 0 (c_size c)), (N.ltb 0 (c_scale c)); cbn in I;
    repeat (destruct I as [I|I]; [injection I as <- <-; split; [now apply wordy_ok|apply name_wf, word_dotted, itoa_word]|]); destruct I.
Qed.
Lemma exprs_wf : forall utc c k e, has_sa_type c -> word (c_name c) -> In (k, e) (all_exprs utc c) ->
  (k = "" \/ word k) /\ wf 2 e.
Proof.
  intros utc c k e H N I. unfold all_exprs in I. rewrite !in_app_iff in I. destruct I as [I|[I|[I|I]]].
  - unfold named_exprs in I. destruct (sf_override (field c)); [|destruct I]. destruct I as [I|[]]. injection I as <- <-.
    split; [now left|]. cbn. now apply word_plain.
  - destruct I as [I|[]]. injection I as <- <-. split; [now left|]. unfold type_exprs. cbv zeta.
    destruct (_ && _).
    { cbn [fst]. split; [now apply kind_dotted|]. intros k e [I|[]]. injection I as <- <-. split; [now left|]. apply name_wf, word_dotted, itoa_word. }
    destruct (_ || _ || _).
    { cbn [fst]. split; [now apply kind_dotted|]. apply number_wf. }
    destruct (String.eqb (to_lower (c_type c)) "datetime"); [|now apply kind_dotted].
    destruct (String.eqb (c_name c) "created_at"); [now apply kind_dotted|].
    destruct (String.eqb (c_name c) "updated_at"); [now apply kind_dotted|].
    destruct utc; [reflexivity|now apply kind_dotted].
  - assert (J : In (k, e) [("default", now utc); ("onupdate", now utc)]).
    { unfold type_exprs in I. cbv zeta in I. destruct (_ && _); [destruct I|]. destruct (_ || _ || _); [destruct I|].
      destruct (String.eqb (to_lower (c_type c)) "datetime"); [|destruct I].
      destruct (String.eqb (c_name c) "created_at"); [destruct I as [I|[]]; left; exact I|].
      destruct (String.eqb (c_name c) "updated_at"); [exact I|]. destruct utc; destruct I. }
    destruct J as [J|[J|[]]]; injection J as <- <-; (split; [right; now apply wordy_ok|apply now_wf]).
  - assert (J : In (k, e) [("primary_key", EName "True"); ("unique", EName "True"); ("autoincrement", EName "True"); ("nullable", EName "False")]).
    { unfold kw_exprs in I. rewrite !in_app_iff in I.
      destruct I as [I|[I|[I|I]]];
        [destruct (c_pk c)|destruct (c_uq c)|destruct (c_autoinc c)|destruct (_ && _)];
        try (destruct I; fail); destruct I as [I|[]]; rewrite <- I; cbn; tauto. }
    destruct J as [J|[J|[J|[J|[]]]]]; injection J as <- <-; (split; [right; now apply wordy_ok|reflexivity]).
Qed.

Definition col_ok (c : column) : Prop := word (c_name c) /\ word (snake (to_lower (c_name c))) /\ has_sa_type c.

Lemma attr_word : forall c, col_ok c -> word (sf_name (field c)).
Proof.
  intros c [_ [W _]]. unfold new_sa_field. cbn [sf_name]. destruct (python_reserved (snake (to_lower (c_name c)))); [|exact W]. destruct W as [A B]. split.
  - intros Q. destruct (snake (to_lower (c_name c))); discriminate.
  - apply plain_app; [exact B|]. intros x [->|[]]. reflexivity.
Qed.

Definition column_expr (utc : bool) (c : column) : pexpr := ECall "Column" (all_exprs utc c).
Definition column_member (utc : bool) (c : column) : member := MAssign (sf_name (field c)) (column_expr utc c).
Lemma column_wf : forall utc c, col_ok c -> wf 3 (column_expr utc c).
Proof.
  intros utc c [N [_ H]]. split; [reflexivity|]. intros k e I. now apply (exprs_wf utc c).
Qed.
Definition column_text (utc : bool) (c : column) : string := sf_name (field c) ++ " = " ++ pr (column_expr utc c).
Lemma column_line_is : forall utc c, column_line utc (field c) = sa_indent ++ column_text utc c.
Proof. intros. unfold column_line, column_text, column_expr. rewrite attrs_pr, pr_call. reflexivity. Qed.

Lemma assign_reads : forall x e, word x -> wf 3 e -> read_assign (x ++ " = " ++ pr e) = Some (x, e).
Proof.
  intros x e X W. unfold read_assign. change (x ++ " = " ++ pr e) with (x ++ String " " ("= " ++ pr e)).
  rewrite cut_app by nochar. rewrite strip_app, (proj2 (is_word_iff x) X), (read_pr 3 e W). reflexivity.
Qed.
(** an assignment to a call or a string does not look like a definition *)
Definition ended (e : pexpr) : Prop := match e with EName _ => False | _ => True end.
Lemma ends : forall e, ended e -> exists s c, pr e = s ++ String c "" /\ c <> ":"%char.
Proof.
  intros [s|s|f args] H; [|destruct H|].
  - exists ("'" ++ s), "'"%char. split; [now cbn [pr]; rewrite app_assoc_s|discriminate].
  - exists (f ++ "(" ++ join ", " (map pr_arg args)), ")"%char. split; [|discriminate].
    rewrite pr_call. now rewrite !app_assoc_s.
Qed.
Lemma member_assign : forall x e, word x -> wf 3 e -> ended e -> read_member (x ++ " = " ++ pr e, []) = Some (MAssign x e).
Proof.
  intros x e X W E. unfold read_member. destruct (ends e E) as [s [c [P N]]].
  replace (between "def " ":" (x ++ " = " ++ pr e)) with (@None string).
  - now rewrite (assign_reads x e X W).
  - rewrite P, <- !app_assoc_s. symmetry. now apply between_last.
Qed.
Lemma member_call : forall f args, wf 3 (ECall f args) -> read_member (pr (ECall f args), []) = Some (MExpr (ECall f args)).
Proof.
  intros f args W. unfold read_member. destruct (ends (ECall f args) I) as [s [c [P N]]].
  replace (between "def " ":" (pr (ECall f args))) with (@None string).
  2: { rewrite P. symmetry. now apply between_last. }
  replace (read_assign (pr (ECall f args))) with (@None (string * pexpr)); [now rewrite (read_pr 3 _ W)|].
  symmetry. unfold read_assign. destruct (cut " " (pr (ECall f args))) as [[x r]|] eqn:Q; [|reflexivity].
  destruct (strip "= " r) as [e|]; [|reflexivity].
  replace (is_word x) with false; [reflexivity|]. symmetry.
  assert (F : is_dotted f = true) by (cbn [wf] in W; apply W).
  assert (N' : ~ char_in " " (f ++ "(")).
  { apply no_app; [|nochar]. apply (dotted_no f _ F); [reflexivity|discriminate]. }
  rewrite pr_call in Q.
  change (f ++ "(" ++ join ", " (map pr_arg args) ++ ")") with (f ++ ("(" ++ (join ", " (map pr_arg args) ++ ")"))) in Q.
  rewrite <- app_assoc_s in Q. destruct (cut_prefix _ _ _ _ _ N' Q) as [k' ->].
  apply (is_word_no _ "("); [|reflexivity]. apply char_in_app. left. apply char_in_app. right. now left.
Qed.

End Columns.

(** ** Blocks *)

Lemma blocks_blank : forall ls, blocks ("" :: ls) = blocks ls.
Proof. intros ls. cbn [blocks]. now destruct (blocks ls). Qed.
Lemma blocks_in : forall s ls b bs, blocks ls = (b, bs) -> blocks (("    " ++ s) :: ls) = (s :: b, bs).
Proof. intros s ls b bs H. cbn [blocks]. rewrite H, strip_app. reflexivity. Qed.
Lemma blocks_top : forall c s ls b bs, c <> " "%char -> blocks ls = (b, bs) -> blocks (String c s :: ls) = ([], (String c s, b) :: bs).
Proof.
  intros c s ls b bs N H. cbn [blocks]. rewrite H. cbn [String.eqb].
  replace (strip "    " (String c s)) with (@None string); [reflexivity|].
  cbn [strip]. destruct (Ascii.eqb_spec " " c); congruence.
Qed.
Lemma blocks_ins : forall l ls b bs, blocks ls = (b, bs) -> blocks (map (append "    ") l ++ ls)%list = ((l ++ b)%list, bs).
Proof.
  induction l as [|x l IH]; intros ls b bs H; [exact H|]. cbn [map app]. apply blocks_in. now apply IH.
Qed.
(** a list of lines that are not indented *)
Definition topped (s : string) : Prop := exists c r, s = String c r /\ c <> " "%char.
Lemma word_topped : forall s r, word s -> topped (s ++ r).
Proof.
  intros s r W. destruct (word_cons s W) as [c [q [-> C]]]. exists c, (q ++ r). split; [reflexivity|]. intros ->. discriminate.
Qed.
Lemma blocks_tops : forall l ls bs, (forall x, In x l -> topped x) -> blocks ls = ([], bs) ->
  blocks (l ++ ls)%list = ([], (map (fun x => (x, [])) l ++ bs)%list).
Proof.
  induction l as [|x l IH]; intros ls bs H Q; [exact Q|]. cbn [map app].
  destruct (H x (or_introl eq_refl)) as [c [r [-> N]]]. apply blocks_top; [exact N|]. apply IH; [|exact Q].
  intros y I. apply H. now right.
Qed.

(** ** Classes *)

Section Gen.
Variables camel snake : string -> string.
Notation field := (new_sa_field snake).
Variable o : sa_opt.
Notation class_of := (new_sa_class camel snake o).
Notation cname := (sa_class_name camel (so_remove o) (so_prefix o)).
Definition table_ok (t : table) : Prop :=
  word (t_name t) /\ word (cname t) /\ forall c, In c (t_cols t) -> col_ok snake c.
Hypothesis Hsuffix : plain (so_suffix o).

Definition unique_args (t : table) : list (string * pexpr) :=
  (map (fun c => ("", EStr (sf_name (field c)))) (filter c_uq (t_cols t)) ++ [("name", EStr (t_name t ++ so_suffix o))])%list.
Definition unique_members (t : table) : list member :=
  if Nat.ltb 1 (length (filter c_uq (t_cols t))) then [MExpr (ECall "UniqueConstraint" (unique_args t))] else [].
Definition class_members (t : table) : list member :=
  (MAssign "__tablename__" (EStr (t_name t)) :: unique_members t ++ map (column_member snake (so_utc o)) (t_cols t))%list.
Definition class_stmt (t : table) : stmt := PClass (cname t) "Base" (class_members t).

Lemma uniques_are : forall t, sc_unique (class_of t) = map field (filter c_uq (t_cols t)).
Proof. intros t. unfold new_sa_class. cbn [sc_unique]. now rewrite filter_map_comm. Qed.

Definition tablename_text (t : table) : string := "__tablename__" ++ " = " ++ pr (EStr (t_name t)).
Definition unique_texts (t : table) : list string :=
  if Nat.ltb 1 (length (filter c_uq (t_cols t))) then [pr (ECall "UniqueConstraint" (unique_args t))] else [].
Definition class_texts (t : table) : list string :=
  (tablename_text t :: unique_texts t ++ map (column_text snake (so_utc o)) (t_cols t))%list.

Lemma join_snoc : forall l x, l <> [] -> join ", " (l ++ [x]) = join ", " l ++ ", " ++ x.
Proof.
  induction l as [|y l IH]; intros x N; [congruence|]. destruct l as [|z l]; [reflexivity|].
  cbn [app]. change (join ", " (y :: z :: (l ++ [x])%list)) with (y ++ ", " ++ join ", " ((z :: l) ++ [x])%list).
  rewrite IH by discriminate. change (join ", " (y :: z :: l)) with (y ++ ", " ++ join ", " (z :: l)). now rewrite !app_assoc_s.
Qed.
Lemma unique_line_is : forall t, filter c_uq (t_cols t) <> [] ->
  unique_line o (class_of t) = "    " ++ pr (ECall "UniqueConstraint" (unique_args t)).
Proof.
  intros t N. unfold unique_line. rewrite uniques_are, pr_call. unfold unique_args. rewrite map_app, !map_map.
  change (map pr_arg [("name", EStr (t_name t ++ so_suffix o))]) with ["name=" ++ "'" ++ (t_name t ++ so_suffix o) ++ "'"].
  rewrite join_snoc by (intros Q; apply N; now apply map_eq_nil in Q).
  change (sc_table (class_of t)) with t. unfold sa_indent, py_quote.
  assert (E : map (fun x => pr_arg ("", EStr (sf_name (field x)))) (filter c_uq (t_cols t)) =
              map (fun x => "'" ++ sf_name (field x) ++ "'") (filter c_uq (t_cols t))) by reflexivity.
  rewrite E. cbn [append]. do 21 f_equal. rewrite !app_assoc_s. cbn [append]. rewrite !app_assoc_s. reflexivity.
Qed.
Lemma unique_wf : forall t, table_ok t -> wf 3 (ECall "UniqueConstraint" (unique_args t)).
Proof.
  intros t [A [_ C]]. split; [reflexivity|]. intros k e I. unfold unique_args in I. apply in_app_iff in I as [I|[I|[]]].
  - apply in_map_iff in I as [c [E I]]. injection E as <- <-. apply filter_In in I as [I _]. split; [now left|].
    cbn. apply word_plain, attr_word. now apply C.
  - injection I as <- <-. split; [right; now apply wordy_ok|]. cbn. apply plain_app; [now apply word_plain|exact Hsuffix].
Qed.

Lemma class_blocks : forall t ls bs, table_ok t -> blocks ls = ([], bs) ->
  blocks (class_lines o (class_of t) ++ ls)%list = ([], (("class " ++ cname t ++ "(Base):", class_texts t) :: bs)).
Proof.
  intros t ls bs T H. unfold class_lines. cbn [app]. rewrite !blocks_blank.
  change (sc_table (class_of t)) with t. change (sc_name (class_of t)) with (cname t).
  change (sc_fields (class_of t)) with (map field (t_cols t)).
  apply (blocks_top "c" ("lass " ++ cname t ++ "(Base):")); [discriminate|].
  apply (blocks_in (tablename_text t)).
  rewrite <- app_assoc.
  assert (R : blocks (([""] ++ map (column_line (so_utc o)) (map field (t_cols t))) ++ ls)%list =
              (map (column_text snake (so_utc o)) (t_cols t), bs)).
  { cbn [app]. rewrite blocks_blank, map_map.
    rewrite (map_ext _ (fun c => "    " ++ column_text snake (so_utc o) c)) by (intros c; apply column_line_is).
    rewrite <- (map_map (column_text snake (so_utc o)) (append "    ")). rewrite (blocks_ins _ _ _ _ H). now rewrite app_nil_r. }
  unfold has_constraint. rewrite uniques_are, map_length. unfold unique_texts.
  destruct (Nat.ltb 1 (length (filter c_uq (t_cols t)))) eqn:L.
  - rewrite unique_line_is by (intros Q; rewrite Q in L; discriminate). cbn [app]. now apply blocks_in.
  - exact R.
Qed.

Lemma class_reads : forall t, table_ok t ->
  read_stmt ("class " ++ cname t ++ "(Base):", class_texts t) = Some (class_stmt t).
Proof.
  intros t T. pose proof T as [A [B C]].
  assert (Bl : blocks (class_texts t) = ([], map (fun x => (x, [])) (class_texts t))).
  { rewrite <- (app_nil_r (class_texts t)) at 1. rewrite (blocks_tops (class_texts t) [] []); [now rewrite app_nil_r| |reflexivity].
    intros x I. unfold class_texts in I. destruct I as [<-|I].
    - eexists _, _. split; [reflexivity|discriminate].
    - apply in_app_iff in I as [I|I].
      + unfold unique_texts in I. destruct (Nat.ltb _ _); [|destruct I]. destruct I as [<-|[]].
        eexists _, _. split; [reflexivity|discriminate].
      + apply in_map_iff in I as [c [<- I]]. apply word_topped, attr_word. now apply C. }
  unfold class_texts at 1. unfold read_stmt. unfold read_class.
  replace ("class " ++ cname t ++ "(Base):") with ("class " ++ (cname t ++ "(Base") ++ "):") by now rewrite !app_assoc_s.
  rewrite between_app. change (cname t ++ "(Base") with (cname t ++ String "(" "Base"). rewrite cut_app by nochar.
  change (tablename_text t :: (unique_texts t ++ map (column_text snake (so_utc o)) (t_cols t))%list) with (class_texts t).
  rewrite Bl. unfold class_texts at 1. cbn [map]. rewrite (proj2 (is_word_iff _) B). cbn [andb is_word].
  change (is_word "Base") with true. cbv iota.
  change ((tablename_text t, []) :: map (fun x => (x, [])) (unique_texts t ++ map (column_text snake (so_utc o)) (t_cols t)))
    with (map (fun x => (x, @nil string)) (class_texts t)).
  assert (R : read_all read_member (map (fun x => (x, [])) (class_texts t)) = Some (class_members t)).
  { unfold class_texts, class_members.
    change (map (fun x => (x, [])) (tablename_text t :: (unique_texts t ++ map (column_text snake (so_utc o)) (t_cols t))%list))
      with ([(tablename_text t, @nil string)] ++ map (fun x => (x, [])) (unique_texts t ++ map (column_text snake (so_utc o)) (t_cols t)))%list.
    change (MAssign "__tablename__" (EStr (t_name t)) :: (unique_members t ++ map (column_member snake (so_utc o)) (t_cols t))%list)
      with ([MAssign "__tablename__" (EStr (t_name t))] ++ (unique_members t ++ map (column_member snake (so_utc o)) (t_cols t)))%list.
    apply read_all_app.
    - cbn [read_all]. unfold tablename_text. rewrite member_assign; [reflexivity|now apply wordy_ok|cbn; now apply word_plain|exact I].
    - rewrite map_app. apply read_all_app.
      + unfold unique_texts, unique_members. destruct (Nat.ltb _ _); [|reflexivity]. cbn [map read_all].
        rewrite member_call; [reflexivity|now apply unique_wf].
      + rewrite map_map. apply read_all_map. intros c I. unfold column_text, column_member.
        apply member_assign; [apply attr_word; now apply C|apply column_wf; now apply C|exact Logic.I]. }
  rewrite R. reflexivity.
Qed.
End Gen.
