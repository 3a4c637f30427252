(** The files of the SQLAlchemy generator, read back *)
From Coq Require Import String Ascii List NArith Bool Lia Arith.
From Verif.Model Require Import GoString Util Octopus Common Sqlalchemy.
From Verif.Spec Require Import Text Reading OctopusSpec GraphqlSpec SqlalchemySpec.
From Verif.Proofs Require Import StringLemmas UtilProofs ReadingProofs GraphqlProofs GormProofs GormText PythonProofs SqlalchemyProofs.
Import ListNotations.
Local Open Scope string_scope.

(** ** The header *)

Definition sa_line (sa : list string) : string := "from sqlalchemy import " ++ join ", " sa.
Definition known_imports : list string := ["from datetime import datetime"; "from datetime import timezone"].
Definition import_stmt (s : string) : stmt :=
  if String.eqb s "from datetime import datetime" then PImport "datetime" ["datetime"] else PImport "datetime" ["timezone"].
Definition base_stmt : stmt := PAssign "Base" (ECall "declarative_base" [("cls", EName "RepresentableBase")]).
Definition header_stmts (im sa : list string) : list stmt :=
  (map import_stmt im ++ [PImport "sqlalchemy" sa; PImport "sqlalchemy.ext.declarative" ["declarative_base"];
     PImport "sqlalchemy_repr" ["RepresentableBase"]; base_stmt])%list.

Lemma split_on_join2 : forall l, l <> [] -> (forall x, In x l -> word x) -> unspaced (split_on "," (join ", " l)) = Some l.
Proof.
  assert (K : forall l x, (forall y, In y (x :: l) -> word y) -> split_on "," (join ", " (x :: l)) = x :: map (append " ") l).
  { induction l as [|y l IH]; intros x H.
    - apply split_on_one. pose proof (H x (or_introl eq_refl)). nochar.
    - change (join ", " (x :: y :: l)) with (x ++ String "," (" " ++ join ", " (y :: l))).
      rewrite split_on_cons by (pose proof (H x (or_introl eq_refl)); nochar). f_equal.
      specialize (IH y (fun z I => H z (or_intror I))).
      transitivity (match split_on "," (join ", " (y :: l)) with a :: ls => String " " a :: ls | [] => [String " " ""] end); [reflexivity|].
      rewrite IH. reflexivity. }
  intros [|x l] N H; [congruence|]. rewrite (K l x H). cbn [unspaced].
  rewrite (read_all_map (strip " ") (append " ") (fun z => z)).
  - now rewrite map_id.
  - intros z _. apply strip_app.
Qed.
Lemma import_line : forall m l, is_dotted m = true -> l <> [] -> (forall x, In x l -> word x) ->
  read_stmt ("from " ++ m ++ " import " ++ join ", " l, []) = Some (PImport m l).
Proof.
  intros m l M N W. unfold read_stmt, read_import. rewrite strip_app.
  change (m ++ " import " ++ join ", " l) with (m ++ String " " ("import " ++ join ", " l)).
  rewrite cut_app by (apply (dotted_no m _ M); [reflexivity|discriminate]).
  rewrite strip_app, (split_on_join2 l N W), M.
  replace (forallb is_word l) with true; [reflexivity|]. symmetry. apply forallb_forall. intros x I. apply is_word_iff. now apply W.
Qed.

Lemma header_blocks : forall im sa ls bs, (forall x, In x im -> In x known_imports) -> blocks ls = ([], bs) ->
  blocks (header_lines im sa ++ ls)%list =
  ([], (map (fun x => (x, [])) im ++
        [(sa_line sa, []); ("from sqlalchemy.ext.declarative import declarative_base", []);
         ("from sqlalchemy_repr import RepresentableBase", []); ("Base = declarative_base(cls=RepresentableBase)", [])] ++ bs)%list).
Proof.
  intros im sa ls bs H B. unfold header_lines. fold (sa_line sa). cbv zeta.
  assert (Q : blocks ([sa_line sa; "from sqlalchemy.ext.declarative import declarative_base";
       "from sqlalchemy_repr import RepresentableBase"; ""; "Base = declarative_base(cls=RepresentableBase)"] ++ ls)%list =
     ([], ([(sa_line sa, []); ("from sqlalchemy.ext.declarative import declarative_base", []);
         ("from sqlalchemy_repr import RepresentableBase", []); ("Base = declarative_base(cls=RepresentableBase)", [])] ++ bs)%list)).
  { cbn [app]. apply (blocks_top "f"); [discriminate|]. apply blocks_top; [discriminate|]. apply blocks_top; [discriminate|].
    rewrite blocks_blank. now apply blocks_top. }
  assert (T : forall x, In x im -> topped x).
  { intros x I. specialize (H x I). destruct H as [<-|[<-|[]]]; eexists _, _; (split; [reflexivity|discriminate]). }
  destruct im as [|i im]; [exact Q|]. rewrite <- !app_assoc. apply blocks_tops; [exact T|]. cbn [app]. rewrite blocks_blank. exact Q.
Qed.
Lemma imports_read : forall im, (forall x, In x im -> In x known_imports) ->
  read_all read_stmt (map (fun x => (x, [])) im) = Some (map import_stmt im).
Proof.
  intros im H. apply read_all_map. intros x I. specialize (H x I). destruct H as [<-|[<-|[]]]; reflexivity.
Qed.
Lemma header_reads : forall im sa, (forall x, In x im -> In x known_imports) -> sa <> [] -> (forall x, In x sa -> word x) ->
  read_all read_stmt (map (fun x => (x, [])) im ++
        [(sa_line sa, []); ("from sqlalchemy.ext.declarative import declarative_base", []);
         ("from sqlalchemy_repr import RepresentableBase", []); ("Base = declarative_base(cls=RepresentableBase)", [])])%list
  = Some (header_stmts im sa).
Proof.
  intros im sa H N W. unfold header_stmts. apply read_all_app; [now apply imports_read|].
  change ([PImport "sqlalchemy" sa; PImport "sqlalchemy.ext.declarative" ["declarative_base"];
     PImport "sqlalchemy_repr" ["RepresentableBase"]; base_stmt])
    with ([PImport "sqlalchemy" sa] ++ [PImport "sqlalchemy.ext.declarative" ["declarative_base"];
     PImport "sqlalchemy_repr" ["RepresentableBase"]; base_stmt])%list.
  change ([(sa_line sa, []); ("from sqlalchemy.ext.declarative import declarative_base", []);
         ("from sqlalchemy_repr import RepresentableBase", []); ("Base = declarative_base(cls=RepresentableBase)", @nil string)])
    with ([(sa_line sa, @nil string)] ++ [("from sqlalchemy.ext.declarative import declarative_base", @nil string);
         ("from sqlalchemy_repr import RepresentableBase", @nil string); ("Base = declarative_base(cls=RepresentableBase)", @nil string)])%list.
  apply read_all_app; [|reflexivity].
  cbn [read_all]. pose proof (import_line "sqlalchemy" sa eq_refl N W) as R.
  change ("from " ++ "sqlalchemy" ++ " import " ++ join ", " sa) with (sa_line sa) in R.
  now rewrite R.
Qed.

(** ** TZDateTime *)

Definition tz_body : list member :=
  [MAssign "impl" (EName "DateTime");
   MDef "process_bind_param(self, value, dialect)"
     ["if value is not None:"; "    if not value.tzinfo:"; "        raise TypeError(""tzinfo is required"")";
      "    value = value.astimezone(timezone.utc).replace(tzinfo=None)"; "return value"];
   MDef "process_result_value(self, value, dialect)"
     ["if value is not None:"; "    value = value.replace(tzinfo=timezone.utc)"; "return value"]].
Definition tz_stmt : stmt := PClass "TZDateTime" "TypeDecorator" tz_body.
Definition tz_block : string * list string :=
  match blocks tz_lines with (_, b :: _) => b | _ => ("", []) end.
Lemma blocks_app_top : forall l b bs ls cs, blocks l = (b, bs) -> blocks ls = ([], cs) -> blocks (l ++ ls)%list = (b, (bs ++ cs)%list).
Proof.
  induction l as [|x l IH]; intros b bs ls cs H L.
  - injection H as <- <-. exact L.
  - cbn [blocks app] in *. destruct (blocks l) as [b' bs'] eqn:E. rewrite (IH b' bs' ls cs eq_refl L).
    destruct (String.eqb x ""); [injection H as <- <-; reflexivity|].
    destruct (strip "    " x); injection H as <- <-; reflexivity.
Qed.
Lemma tz_blocks : forall ls bs, blocks ls = ([], bs) -> blocks (tz_lines ++ ls)%list = ([], tz_block :: bs).
Proof. intros ls bs H. now rewrite (blocks_app_top tz_lines [] [tz_block] ls bs). Qed.
Lemma tz_reads : read_stmt tz_block = Some tz_stmt.
Proof. vm_compute. reflexivity. Qed.

(** ** Whole files *)

Section Gen.
Variables camel snake : string -> string.
Variable o : sa_opt.
Notation field := (new_sa_field snake).
Notation class_of := (new_sa_class camel snake o).
Notation cname := (sa_class_name camel (so_remove o) (so_prefix o)).
Notation t_ok := (table_ok camel snake o).
Definition cblock (t : table) : string * list string := ("class " ++ cname t ++ "(Base):", class_texts snake o t).
Notation cstmt := (class_stmt camel snake o).
Hypothesis Hsuffix : plain (so_suffix o).

Lemma classes_blocks : forall ts ls bs, (forall t, In t ts -> t_ok t) -> blocks ls = ([], bs) ->
  blocks (flat_map (class_lines o) (map class_of ts) ++ ls)%list =
  ([], (map cblock ts ++ bs)%list).
Proof.
  induction ts as [|t ts IH]; intros ls bs H L; [exact L|]. cbn [map flat_map app]. rewrite <- app_assoc.
  apply class_blocks; [apply H; now left|]. apply IH; [|exact L]. intros u I. apply H. now right.
Qed.

Lemma column_one : forall c, col_ok snake c -> one_line (column_line (so_utc o) (field c)).
Proof.
  intros c H. rewrite column_line_is. unfold column_text, sa_indent. pose proof (attr_word snake c H).
  pose proof (pr_one_line 3 _ (column_wf snake (so_utc o) c H)). oneline.
Qed.
Lemma class_one : forall t x, t_ok t -> In x (class_lines o (class_of t)) -> one_line x.
Proof.
  intros t x T I. pose proof T as [A [B C]]. unfold class_lines in I.
  change (sc_table (class_of t)) with t in I. change (sc_name (class_of t)) with (cname t) in I.
  change (sc_fields (class_of t)) with (map field (t_cols t)) in I.
  rewrite !in_app_iff in I. destruct I as [[<-|[<-|[<-|[<-|[]]]]]|[I|[[<-|[]]|I]]].
  - oneline.
  - oneline.
  - oneline.
  - unfold sa_indent. oneline.
  - destruct (has_constraint (class_of t)) eqn:L; [|destruct I]. destruct I as [<-|[]].
    unfold has_constraint in L. rewrite (uniques_are camel snake o t), map_length in L.
    rewrite (unique_line_is camel snake o t) by (intros Q; rewrite Q in L; discriminate).
    pose proof (pr_one_line 3 _ (unique_wf camel snake o Hsuffix t T)). oneline.
  - oneline.
  - rewrite map_map in I. apply in_map_iff in I as [c [<- I]]. apply column_one. now apply C.
Qed.
Lemma header_one : forall im sa x, (forall x, In x im -> In x known_imports) -> (forall x, In x sa -> word x) ->
  In x (header_lines im sa) -> one_line x.
Proof.
  intros im sa x H W I. unfold header_lines in I. apply in_app_iff in I as [I|I].
  - assert (J : In x im \/ x = ""). { destruct im as [|i im]; [destruct I|]. apply in_app_iff in I as [I|[<-|[]]]; auto. }
    destruct J as [J| ->]; [|oneline]. specialize (H x J). destruct H as [<-|[<-|[]]]; oneline.
  - destruct I as [<-|[<-|[<-|[<-|[<-|[]]]]]]; try oneline.
    assert (~ char_in newline (join ", " sa)); [|oneline].
    intros J. revert J. generalize (join_chars (fun c => c <> newline) sa). intros K J.
    refine (K _ _ _ newline J eq_refl); [discriminate|discriminate|]. intros y c M N ->. exact (word_one_line y (W y M) N).
Qed.
Lemma tz_one : forall x, In x tz_lines -> one_line x.
Proof.
  intros x I. unfold tz_lines in I. repeat (destruct I as [<-|I]; [oneline|]). destruct I.
Qed.

Definition file_stmts (im sa : list string) (tz : bool) (ts : list table) : list stmt :=
  (header_stmts im sa ++ (if tz then [tz_stmt] else []) ++ map cstmt ts)%list.
Lemma file_reads : forall im sa (tz : bool) ts,
  (forall x, In x im -> In x known_imports) -> sa <> [] -> (forall x, In x sa -> word x) -> (forall t, In t ts -> t_ok t) ->
  read_python (lines_text (header_lines im sa ++ (if tz then tz_lines else []) ++ flat_map (class_lines o) (map class_of ts) ++ [""])%list)
  = Some (file_stmts im sa tz ts).
Proof.
  intros im sa tz ts H N W T. unfold read_python, lines_text. rewrite lines_join.
  - assert (E : blocks (flat_map (class_lines o) (map class_of ts) ++ [""])%list =
                ([], map cblock ts)).
    { rewrite (classes_blocks ts [""] [] T eq_refl). now rewrite app_nil_r. }
    assert (F : blocks ((if tz then tz_lines else []) ++ flat_map (class_lines o) (map class_of ts) ++ [""])%list =
                ([], ((if tz then [tz_block] else []) ++ map cblock ts)%list)).
    { destruct tz; [|exact E]. now apply tz_blocks. }
    rewrite (header_blocks im sa _ _ H F). rewrite app_assoc. unfold file_stmts.
    apply read_all_app; [now apply header_reads|]. apply read_all_app.
    + destruct tz; [|reflexivity]. cbn [read_all]. now rewrite tz_reads.
    + apply read_all_map. intros t I. apply class_reads; [exact Hsuffix|now apply T].
  - intros Q. apply (f_equal (@length string)) in Q. rewrite !app_length in Q. cbn in Q. lia.
  - apply Forall_forall. intros x I. rewrite !in_app_iff in I. destruct I as [I|[I|[I|[<-|[]]]]].
    + now apply (header_one im sa).
    + destruct tz; [|destruct I]. now apply tz_one.
    + apply in_flat_map in I as [k [K I]]. apply in_map_iff in K as [t [<- K]]. apply (class_one t); [now apply T|exact I].
    + oneline.
Qed.

(** ** What the columns say *)

Lemma eqb_iff : forall a b, String.eqb a b = true <-> a = b.
Proof. intros. apply String.eqb_eq. Qed.
Lemma name_is_type : forall t, cname t = type_named camel (get_prefix (so_prefix o)) (so_remove o) t.
Proof. intros t. apply (GraphqlProofs.name_is camel). Qed.

Lemma attr_spec : forall c, attr_named snake c (sf_name (field c)).
Proof.
  intros c. unfold new_sa_field. cbn [sf_name]. destruct (python_reserved (snake (to_lower (c_name c)))) eqn:E; [right|now left].
  split; [reflexivity|]. unfold python_reserved in E. apply str_in_iff in E. revert E. generalize (snake (to_lower (c_name c))). intros x E.
  unfold python_words in E. unfold python_keywords. cbn in E |- *. tauto.
Qed.
Lemma named_spec : forall c, named_exprs snake c = [("", EStr (c_name c))] \/ (named_exprs snake c = [] /\ sf_name (field c) = c_name c).
Proof.
  intros c. unfold named_exprs. destruct (sf_override (field c)) eqn:E; [now left|]. right. split; [reflexivity|].
  unfold new_sa_field in *. cbn [sf_override sf_name] in *. apply orb_false_iff in E as [A B].
  rewrite A. apply negb_false_iff, String.eqb_eq in B. now rewrite <- B.
Qed.

Lemma number_spec : forall c x e, In (x, e) (number_exprs c) <->
  (x = "precision" /\ (c_size c > 0)%N /\ e = EName (itoa (c_size c))) \/
  (x = "scale" /\ (c_scale c > 0)%N /\ e = EName (itoa (c_scale c))).
Proof.
  intros c x e. unfold number_exprs. rewrite in_app_iff.
  assert (K : forall (b : bool) (y : string) (d : pexpr), In (x, e) (if b then [(y, d)] else []) <-> b = true /\ x = y /\ e = d).
  { intros [] y d; cbn; [|intuition discriminate]. split; [intros [Q|[]]; injection Q as <- <-; auto|].
    intros [_ [-> ->]]. now left. }
  rewrite !K, !N.ltb_lt. split; intros [[P [Q R]]|[P [Q R]]]; [left|right|left|right]; repeat split; auto; lia.
Qed.

Lemma type_spec : forall c, has_sa_type c -> sa_type_arg (so_utc o) c (fst (type_exprs (so_utc o) c)).
Proof.
  intros c H. unfold type_exprs. rewrite (typed_lower c H). cbv zeta.
  pose proof (typed_class c H) as K.
  destruct ((_ || _) && _) eqn:E1.
  { apply andb_true_iff in E1 as [E1 Z]. apply N.ltb_lt in Z. rewrite orb_true_iff, !eqb_iff in E1.
    assert (S : sa_type_of c = "String").
    { unfold sa_type_of. destruct E1 as [-> | ->]; reflexivity. }
    cbn [fst]. rewrite S. apply arg_length; [cbn; intuition|lia]. }
  destruct (_ || _ || _) eqn:E2.
  { rewrite !orb_true_iff, !eqb_iff in E2. cbn [fst]. apply arg_number; [cbn; intuition|exact K|apply number_spec]. }
  assert (NF : ~ In (c_type c) ["float"; "double"; "decimal"]).
  { rewrite !orb_false_iff, !String.eqb_neq in E2. destruct E2 as [[X Y] Z]. intros [I|[I|[I|[]]]]; congruence. }
  assert (NV : In (c_type c) ["char"; "varchar"] -> c_size c = 0%N).
  { intros I. apply andb_false_iff in E1 as [E1|E1].
    - rewrite orb_false_iff, !String.eqb_neq in E1. destruct E1 as [X Y]. destruct I as [I|[I|[]]]; congruence.
    - apply N.ltb_ge in E1. lia. }
  destruct (String.eqb_spec (c_type c) "datetime") as [D|D].
  - destruct (String.eqb_spec (c_name c) "created_at") as [N1|N1].
    { cbn [fst]. apply arg_plain; auto. intros _ _. now left. }
    destruct (String.eqb_spec (c_name c) "updated_at") as [N2|N2].
    { cbn [fst]. apply arg_plain; auto. intros _ _. now right. }
    destruct (so_utc o).
    { cbn [fst]. apply arg_utc; [reflexivity|exact D|]. unfold audit_column. intuition. }
    cbn [fst]. apply arg_plain; auto. discriminate.
  - cbn [fst]. apply arg_plain; auto. intros _ Q. congruence.
Qed.

Lemma default_spec : forall c a, has_sa_type c ->
  (In a (snd (type_exprs (so_utc o) c)) <->
   (c_type c = "datetime" /\ audit_column c /\ a = ("default", now (so_utc o))) \/
   (c_type c = "datetime" /\ c_name c = "updated_at" /\ a = ("onupdate", now (so_utc o)))).
Proof.
  intros c a H. unfold type_exprs. rewrite (typed_lower c H). cbv zeta. unfold audit_column.
  destruct (String.eqb_spec (c_type c) "datetime") as [D|D].
  - rewrite D. change (("datetime" =? "varchar") || ("datetime" =? "char")) with false.
    change (("datetime" =? "double") || ("datetime" =? "float") || ("datetime" =? "decimal")) with false. cbn [andb].
    destruct (String.eqb_spec (c_name c) "created_at") as [N1|N1].
    { rewrite N1. cbn [snd In]. split; [intros [<-|[]]; left; auto|]. intros [[_ [_ ->]]|[_ [Q _]]]; [now left|discriminate]. }
    destruct (String.eqb_spec (c_name c) "updated_at") as [N2|N2].
    { cbn [snd In]. split; [intros [<-|[<-|[]]]; auto|]. intros [[_ [_ ->]]|[_ [_ ->]]]; auto. }
    destruct (so_utc o); cbn [snd In]; (split; [intros []|intros [[_ [[Q|Q] _]]|[_ [Q _]]]; congruence]).
  - assert (E : forall x y z : pexpr, snd (if (String.eqb (c_type c) "varchar" || String.eqb (c_type c) "char") && N.ltb 0 (c_size c) then (x, [])
       else if String.eqb (c_type c) "double" || String.eqb (c_type c) "float" || String.eqb (c_type c) "decimal" then (y, @nil (string * pexpr)) else (z, [])) = []).
    { intros x y z. destruct (_ && _); [reflexivity|]. destruct (_ || _ || _); reflexivity. }
    rewrite E. split; [intros []|]. intros [[Q _]|[Q _]]; congruence.
Qed.
Lemma kw_spec : forall c a, In a (kw_exprs c) <->
  (c_pk c = true /\ a = ("primary_key", EName "True")) \/ (c_uq c = true /\ a = ("unique", EName "True")) \/
  (c_autoinc c = true /\ a = ("autoincrement", EName "True")) \/
  (c_notnull c = true /\ c_autoinc c = false /\ a = ("nullable", EName "False")).
Proof.
  intros c a. unfold kw_exprs. rewrite !in_app_iff.
  destruct (c_pk c), (c_uq c), (c_autoinc c), (c_notnull c); cbn; intuition congruence.
Qed.
Lemma keywords_spec : forall c a, has_sa_type c ->
  (In a (snd (type_exprs (so_utc o) c) ++ kw_exprs c)%list <-> sa_keyword (so_utc o) c a).
Proof.
  intros c a H. rewrite in_app_iff, (default_spec c a H), kw_spec. split.
  - intros [[[A [B ->]]|[A [B ->]]]|[[A ->]|[[A ->]|[[A ->]|[A [B ->]]]]]]; now constructor.
  - intros K. inversion K; subst; auto 10.
Qed.
Lemma keywords_nodup : forall c, NoDup (map fst (snd (type_exprs (so_utc o) c) ++ kw_exprs c)).
Proof.
  intros c.
  assert (E : In (map fst (snd (type_exprs (so_utc o) c))) [[]; ["default"]; ["default"; "onupdate"]]).
  { unfold type_exprs. cbv zeta. destruct (_ && _); [now left|]. destruct (_ || _ || _); [now left|].
    destruct (String.eqb (to_lower (c_type c)) "datetime"); [|now left].
    destruct (String.eqb (c_name c) "created_at"); [right; now left|].
    destruct (String.eqb (c_name c) "updated_at"); [right; right; now left|]. destruct (so_utc o); now left. }
  rewrite map_app. unfold kw_exprs. destruct E as [<-|[<-|[<-|[]]]];
    destruct (c_pk c), (c_uq c), (c_autoinc c), (c_notnull c); cbn;
    repeat (constructor; [cbn; intuition discriminate|]); constructor.
Qed.

Lemma column_spec : forall c, col_ok snake c -> column_described snake (so_utc o) c (column_member snake (so_utc o) c).
Proof.
  intros c [A [B H]]. exists (sf_name (field c)), (named_exprs snake c), (fst (type_exprs (so_utc o) c)),
    (snd (type_exprs (so_utc o) c) ++ kw_exprs c)%list.
  split; [reflexivity|]. split; [apply attr_spec|]. split; [apply named_spec|]. split; [now apply type_spec|].
  split; [intros a; now apply keywords_spec|apply keywords_nodup].
Qed.
Lemma map_forall2 : forall {A B} (P : A -> B -> Prop) (f : A -> B) l, (forall x, In x l -> P x (f x)) -> Forall2 P l (map f l).
Proof.
  induction l as [|x l IH]; intros H; cbn; constructor; [apply H; now left|]. apply IH. intros y I. apply H. now right.
Qed.
Lemma class_spec : forall t, t_ok t ->
  class_described camel snake (get_prefix (so_prefix o)) (so_remove o) (so_suffix o) (so_utc o) t (cstmt t).
Proof.
  intros t T. pose proof T as [A [B C]]. exists (unique_members snake o t), (map (column_member snake (so_utc o)) (t_cols t)).
  split; [unfold class_stmt, class_members; now rewrite name_is_type|]. split.
  - unfold constraint_described, unique_members. cbv zeta. destruct (Nat.ltb_spec 1 (length (filter c_uq (t_cols t)))) as [L|L].
    + right. split; [lia|]. exists (map (fun c => sf_name (field c)) (filter c_uq (t_cols t))). split.
      * apply map_forall2. intros c _. apply attr_spec.
      * unfold unique_args. rewrite map_map. reflexivity.
    + left. split; [lia|reflexivity].
  - apply map_forall2. intros c I. apply column_spec. now apply C.
Qed.
End Gen.
