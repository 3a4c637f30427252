(** Which names the files of the SQLAlchemy generator use and import *)
From Coq Require Import String Ascii List NArith Bool Lia Arith.
From Verif.Model Require Import GoString Util Octopus Common Sqlalchemy.
From Verif.Spec Require Import Text Reading OctopusSpec GraphqlSpec SqlalchemySpec.
From Verif.Proofs Require Import StringLemmas UtilProofs ReadingProofs GraphqlProofs GormProofs GormText PythonProofs
  SqlalchemyProofs SqlalchemyText.
Import ListNotations.
Local Open Scope string_scope.

(** ** Known names *)

Lemma known_app : forall A B n, known A n -> known (A ++ B) n.
Proof.
  intros A B n [H|[[m [l [H K]]]|[[e H]|[b [l H]]]]].
  - now left.
  - right. left. exists m, l. split; [apply in_app_iff; now left|exact K].
  - right. right. left. exists e. apply in_app_iff. now left.
  - right. right. right. exists b, l. apply in_app_iff. now left.
Qed.
Lemma app_split : forall {A} (a b pre post : list A) x, (a ++ b = pre ++ x :: post)%list ->
  (exists post', a = (pre ++ x :: post')%list) \/ (exists pre', pre = (a ++ pre')%list /\ b = (pre' ++ x :: post)%list).
Proof.
  induction a as [|y a IH]; intros b pre post x H.
  - right. exists pre. split; [reflexivity|exact H].
  - destruct pre as [|z pre]; cbn in H; injection H as -> H.
    + left. exists a. reflexivity.
    + destruct (IH b pre post x H) as [[p ->]|[p [-> ->]]]; [left; now exists p|right; now exists p].
Qed.
Lemma but_app : forall xs A B, names_known_but xs A ->
  (forall b n, In b B -> stmt_uses b n -> known A n \/ In n xs) -> names_known_but xs (A ++ B)%list.
Proof.
  intros xs A B HA HB pre b post n E U. destruct (app_split A B pre post b E) as [[p Q]|[p [-> Q]]].
  - exact (HA pre b p n Q U).
  - destruct (HB b n) as [K|K]; [rewrite Q; apply in_app_iff; right; now left|exact U| |now right].
    left. now apply known_app.
Qed.
Lemma but_nil : forall f, names_known_but [] f -> names_known f.
Proof. intros f H pre b post n E U. destruct (H pre b post n E U) as [K|[]]. exact K. Qed.

Lemma header_known : forall xs im sa, names_known_but xs (header_stmts im sa).
Proof.
  intros xs im sa. unfold header_stmts.
  change [PImport "sqlalchemy" sa; PImport "sqlalchemy.ext.declarative" ["declarative_base"];
     PImport "sqlalchemy_repr" ["RepresentableBase"]; base_stmt]
    with ([PImport "sqlalchemy" sa; PImport "sqlalchemy.ext.declarative" ["declarative_base"];
     PImport "sqlalchemy_repr" ["RepresentableBase"]] ++ [base_stmt])%list.
  rewrite app_assoc. apply but_app.
  - intros pre b post n E U. exfalso.
    assert (I : In b (pre ++ b :: post)) by (apply in_app_iff; right; now left). rewrite <- E in I.
    apply in_app_iff in I as [I|I].
    + apply in_map_iff in I as [x [<- _]]. unfold import_stmt in U. destruct (String.eqb _ _); exact U.
    + destruct I as [<-|[<-|[<-|[]]]]; exact U.
  - intros b n [<-|[]] U. left. right. left. destruct U as [<-|[<-|[]]].
    + exists "sqlalchemy.ext.declarative", ["declarative_base"]. split; [apply in_app_iff; right; cbn; tauto|]. split; [now left|cbn; tauto].
    + exists "sqlalchemy_repr", ["RepresentableBase"]. split; [apply in_app_iff; right; cbn; tauto|]. split; [now left|cbn; tauto].
Qed.

Definition sa_names : list string :=
  ["Column"; "UniqueConstraint"; "TypeDecorator"; "String"; "Boolean"; "Integer"; "BigInteger"; "Numeric";
   "Float"; "DateTime"; "Date"; "Time"; "LargeBinary"].
Lemma sa_known : forall im sa n, In n sa -> In n sa_names -> known (header_stmts im sa) n.
Proof.
  intros im sa n I J. right. left. exists "sqlalchemy", sa. split.
  - unfold header_stmts. apply in_app_iff. right. now left.
  - split; [exact I|]. unfold homes. apply in_app_iff. left. apply in_map_iff. now exists n.
Qed.
Lemma kind_sa : forall k, In k sa_kinds -> In k sa_names.
Proof. intros k I. cbn in I. cbn. tauto. Qed.
Lemma datetime_known : forall im sa, In "from datetime import datetime" im -> known (header_stmts im sa) "datetime".
Proof.
  intros im sa I. right. left. exists "datetime", ["datetime"]. split; [|split; [now left|cbn; tauto]].
  unfold header_stmts. apply in_app_iff. left. apply in_map_iff. exists "from datetime import datetime". split; [reflexivity|exact I].
Qed.
Lemma timezone_known : forall im sa, In "from datetime import timezone" im -> known (header_stmts im sa) "timezone".
Proof.
  intros im sa I. right. left. exists "datetime", ["timezone"]. split; [|split; [now left|cbn; tauto]].
  unfold header_stmts. apply in_app_iff. left. apply in_map_iff. exists "from datetime import timezone". split; [reflexivity|exact I].
Qed.
Lemma base_known : forall im sa, known (header_stmts im sa) "Base".
Proof.
  intros im sa. right. right. left. exists (ECall "declarative_base" [("cls", EName "RepresentableBase")]).
  unfold header_stmts. apply in_app_iff. right. cbn. tauto.
Qed.

Lemma tz_uses : forall n, stmt_uses tz_stmt n -> In n ["TypeDecorator"; "DateTime"; "timezone"].
Proof.
  intros n [->|[m [I U]]]; [now left|]. destruct I as [<-|[<-|[<-|[]]]].
  - destruct U as [<-|[]]. cbn. tauto.
  - destruct U as [A [l [I B]]]. right.
    destruct I as [<-|[<-|[<-|[<-|[<-|[<-|[]]]]]]]; vm_compute in A, B; cbn; intuition (subst; try discriminate; auto).
  - destruct U as [A [l [I B]]]. right.
    destruct I as [<-|[<-|[<-|[<-|[]]]]]; vm_compute in A, B; cbn; intuition (subst; try discriminate; auto).
Qed.

Section Gen.
Variables camel snake : string -> string.
Variable o : sa_opt.
Notation field := (new_sa_field snake).
Notation class_of := (new_sa_class camel snake o).
Notation t_ok := (table_ok camel snake o).
Notation cstmt := (class_stmt camel snake o).

(** ** The two sets *)

Lemma tz_field : forall c, has_sa_type c -> uses_tz (so_utc o) (field c) = true -> so_utc o = true /\ c_type c = "datetime" /\ sa_type_of c = "DateTime".
Proof.
  intros c H U. unfold uses_tz in U. change (sf_col (field c)) with c in U. rewrite (typed_lower c H) in U.
  apply andb_true_iff in U as [U _]. apply andb_true_iff in U as [A B]. apply String.eqb_eq in B.
  split; [exact A|]. split; [exact B|]. unfold sa_type_of. rewrite B. reflexivity.
Qed.
Lemma class_sa_in : forall t n, t_ok t ->
  (In n (class_sa o (class_of t)) <->
   (n = "UniqueConstraint" /\ length (filter c_uq (t_cols t)) > 1) \/
   (exists c, In c (t_cols t) /\ n = sa_type_of c) \/
   (n = "TypeDecorator" /\ exists c, In c (t_cols t) /\ uses_tz (so_utc o) (field c) = true)).
Proof.
  intros t n [_ [_ C]]. unfold class_sa. change (sc_fields (class_of t)) with (map field (t_cols t)).
  unfold has_constraint. rewrite (uniques_are camel snake o t), map_length, in_app_iff.
  assert (A : In n (if Nat.ltb 1 (length (filter c_uq (t_cols t))) then ["UniqueConstraint"] else []) <->
              n = "UniqueConstraint" /\ length (filter c_uq (t_cols t)) > 1).
  { destruct (Nat.ltb_spec 1 (length (filter c_uq (t_cols t)))) as [L|L]; cbn; split.
    - intros [<-|[]]. auto.
    - intros [-> _]. now left.
    - intros [].
    - intros [_ L']. lia. }
  rewrite A. clear A. rewrite in_flat_map.
  assert (B : (exists x, In x (map field (t_cols t)) /\ In n (field_sa (so_utc o) x)) <->
    (exists c, In c (t_cols t) /\ n = sa_type_of c) \/
    (n = "TypeDecorator" /\ exists c, In c (t_cols t) /\ uses_tz (so_utc o) (field c) = true)).
  { split.
    - intros [x [I J]]. apply in_map_iff in I as [c [<- I]]. unfold field_sa in J. destruct (C c I) as [_ [_ H]].
      rewrite (imports_of snake c H) in J. apply in_app_iff in J as [J|[<-|[]]]; [|left; now exists c].
      destruct (uses_tz (so_utc o) (field c)) eqn:U; [|destruct J]. destruct J as [<-|[]]. right. split; [reflexivity|now exists c].
    - intros [[c [I ->]]|[-> [c [I U]]]]; exists (field c); (split; [now apply in_map|]); unfold field_sa; apply in_app_iff.
      + right. destruct (C c I) as [_ [_ H]]. rewrite (imports_of snake c H). now left.
      + left. rewrite U. now left. }
  now rewrite B.
Qed.
Lemma class_sa_names : forall t n, t_ok t -> In n (class_sa o (class_of t)) -> In n sa_names.
Proof.
  intros t n T I. apply (class_sa_in t n T) in I as [[-> _]|[[c [I ->]]|[-> _]]].
  - cbn. tauto.
  - apply kind_sa, typed_kind. now apply T.
  - cbn. tauto.
Qed.
Lemma class_imports_in : forall t n, t_ok t ->
  (In n (class_imports o (class_of t)) <->
   (n = "from datetime import datetime" /\ exists c, In c (t_cols t) /\ c_type c = "datetime") \/
   (n = "from datetime import timezone" /\ exists c, In c (t_cols t) /\ uses_tz (so_utc o) (field c) = true)).
Proof.
  intros t n [_ [_ C]]. unfold class_imports. change (sc_fields (class_of t)) with (map field (t_cols t)). rewrite in_flat_map. split.
  - intros [x [I J]]. apply in_map_iff in I as [c [<- I]]. unfold field_imports in J. destruct (C c I) as [_ [_ H]].
    change (sf_col (field c)) with c in J. rewrite (typed_lower c H) in J. apply in_app_iff in J as [J|J].
    + destruct (uses_tz (so_utc o) (field c)) eqn:U; [|destruct J]. destruct J as [<-|[]]. right. split; [reflexivity|now exists c].
    + destruct (String.eqb_spec (c_type c) "datetime") as [E|E]; [|destruct J]. destruct J as [<-|[]]. left. split; [reflexivity|now exists c].
  - intros [[-> [c [I E]]]|[-> [c [I U]]]]; exists (field c); (split; [now apply in_map|]); unfold field_imports; apply in_app_iff.
    + right. change (sf_col (field c)) with c. rewrite E. now left.
    + left. rewrite U. now left.
Qed.
Lemma class_imports_known : forall t n, t_ok t -> In n (class_imports o (class_of t)) -> In n known_imports.
Proof. intros t n T I. apply (class_imports_in t n T) in I as [[-> _]|[-> _]]; cbn; tauto. Qed.

(** ** The names a class uses *)

Lemma type_uses : forall c n, has_sa_type c -> In n (names_in (fst (type_exprs (so_utc o) c))) ->
  n = sa_type_of c \/ (n = "TZDateTime" /\ uses_tz (so_utc o) (field c) = true).
Proof.
  intros c n H I. pose proof (typed_word c H) as W. unfold type_exprs in I. unfold uses_tz. change (sf_col (field c)) with c.
  rewrite (typed_lower c H) in *. cbv zeta in I.
  assert (NW : forall s, word s -> until_dot s = s).
  { clear. intros s [_ P]. induction s as [|d s IH]; [reflexivity|]. cbn [until_dot].
    destruct (Ascii.eqb_spec d ".") as [->|N]; [exfalso; specialize (P "."%char (or_introl eq_refl)); discriminate|].
    rewrite IH; [reflexivity|]. intros x I. apply P. now right. }
  assert (NM : In n (names_in (EName (sa_type_of c))) -> n = sa_type_of c).
  { cbn [names_in]. destruct (numeral (sa_type_of c)); [intros []|]. rewrite (NW _ W). intros [<-|[]]. reflexivity. }
  destruct ((_ || _) && _).
  { cbn [fst names_in flat_map snd] in I. rewrite itoa_numeral, (NW _ W) in I. destruct I as [<-|[]]. now left. }
  destruct (_ || _ || _).
  { cbn [fst names_in] in I. rewrite (NW _ W) in I. destruct I as [<-|I]; [now left|]. exfalso.
    apply in_flat_map in I as [[k e] [I J]]. apply (proj1 (number_spec camel snake _ _ _)) in I. destruct I as [[_ [_ ->]]|[_ [_ ->]]]; cbn [snd names_in] in J;
      rewrite itoa_numeral in J; destruct J. }
  destruct (String.eqb (c_type c) "datetime"); [|left; now apply NM].
  unfold is_audit. destruct (String.eqb (c_name c) "created_at"); [left; now apply NM|].
  destruct (String.eqb (c_name c) "updated_at"); [left; now apply NM|].
  destruct (so_utc o); [|left; now apply NM]. right. destruct I as [<-|[]]. split; reflexivity.
Qed.
Lemma keyword_uses : forall c k e n, sa_keyword (so_utc o) c (k, e) -> In n (names_in e) ->
  In n ["True"; "False"] \/ (n = "datetime" /\ c_type c = "datetime").
Proof.
  intros c k e n K I. inversion K; subst; unfold now in *; try (destruct I as [<-|[]]; left; cbn; tauto).
  - right. destruct (so_utc o); destruct I as [<-|[]]; split; auto.
  - right. destruct (so_utc o); destruct I as [<-|[]]; split; auto.
Qed.
Lemma class_uses : forall t n, t_ok t -> stmt_uses (cstmt t) n ->
  n = "Base" \/ (n = "UniqueConstraint" /\ length (filter c_uq (t_cols t)) > 1) \/
  exists c, In c (t_cols t) /\
    (n = "Column" \/ n = sa_type_of c \/ (n = "TZDateTime" /\ uses_tz (so_utc o) (field c) = true) \/
     In n ["True"; "False"] \/ (n = "datetime" /\ c_type c = "datetime")).
Proof.
  intros t n T [->|[m [I U]]]; [now left|]. right. unfold class_members in I. destruct I as [<-|I]; [destruct U|].
  apply in_app_iff in I as [I|I].
  - left. unfold unique_members in I. destruct (Nat.ltb_spec 1 (length (filter c_uq (t_cols t)))) as [L|L]; [|destruct I].
    destruct I as [<-|[]]. split; [|lia]. cbn [member_uses names_in] in U. destruct U as [<-|U]; [reflexivity|]. exfalso.
    apply in_flat_map in U as [[k e] [I J]]. unfold unique_args in I. apply in_app_iff in I as [I|[I|[]]].
    + apply in_map_iff in I as [c [E _]]. injection E as <- <-. destruct J.
    + injection I as <- <-. destruct J.
  - right. apply in_map_iff in I as [c [<- I]]. exists c. split; [exact I|]. destruct T as [_ [_ C]]. destruct (C c I) as [_ [_ H]].
    cbn [member_uses column_member column_expr names_in] in U. destruct U as [<-|U]; [now left|]. right.
    apply in_flat_map in U as [[k e] [J U]]. cbn [snd] in U. unfold all_exprs in J. rewrite !in_app_iff in J.
    destruct J as [J|[J|J]].
    + exfalso. unfold named_exprs in J. destruct (sf_override (field c)); [|destruct J]. destruct J as [J|[]]. injection J as <- <-. destruct U.
    + destruct J as [J|[]]. injection J as <- <-. destruct (type_uses c n H U) as [->|Q]; auto.
    + apply in_app_iff in J. apply (keywords_spec camel snake o c (k, e) H) in J. destruct (keyword_uses c k e n J U); auto.
Qed.

(** ** One file *)

Variable s : schema.
Notation sel := (filter (passes (so_filter o)) (s_tables s)).
Hypothesis Hnames : py_names_ok camel snake (get_prefix (so_prefix o)) (so_remove o) (so_suffix o) sel.

Lemma suffix_plain : plain (so_suffix o).
Proof. apply Hnames. Qed.
Lemma sel_ok : forall t, In t sel -> t_ok t.
Proof.
  intros t I. destruct Hnames as [_ H]. destruct (H t I) as [A [B C]]. split; [exact A|]. split; [|exact C].
  now rewrite name_is_type.
Qed.

Definition single_sa : list string := ss_slice (ss_add_all first_sa (flat_map (class_sa o) (map class_of sel))).
Definition single_im : list string := ss_slice (ss_add_all (ss_new []) (flat_map (class_imports o) (map class_of sel))).
Definition single_tz : bool := existsb (fun k => existsb (uses_tz (so_utc o)) (sc_fields k)) (map class_of sel).
Definition single_file : list stmt := file_stmts camel snake o single_im single_sa single_tz sel.

Lemma single_sa_in : forall n, In n single_sa <-> n = "Column" \/ exists t, In t sel /\ In n (class_sa o (class_of t)).
Proof.
  intros n. unfold single_sa. rewrite slice_in, add_all_in, in_flat_map. split.
  - intros [[<-|[]]|[k [I J]]]; [now left|]. apply in_map_iff in I as [t [<- I]]. right. now exists t.
  - intros [->|[t [I J]]]; [left; now left|]. right. exists (class_of t). split; [now apply in_map|exact J].
Qed.
Lemma single_im_in : forall n, In n single_im <-> exists t, In t sel /\ In n (class_imports o (class_of t)).
Proof.
  intros n. unfold single_im. rewrite slice_in, add_all_in, in_flat_map. split.
  - intros [[]|[k [I J]]]. apply in_map_iff in I as [t [<- I]]. now exists t.
  - intros [t [I J]]. right. exists (class_of t). split; [now apply in_map|exact J].
Qed.
Lemma single_tz_iff : single_tz = true <-> exists t c, In t sel /\ In c (t_cols t) /\ uses_tz (so_utc o) (field c) = true.
Proof.
  unfold single_tz. rewrite existsb_exists. split.
  - intros [k [I J]]. apply in_map_iff in I as [t [<- I]]. apply existsb_exists in J as [x [J U]].
    change (sc_fields (class_of t)) with (map field (t_cols t)) in J. apply in_map_iff in J as [c [<- J]]. now exists t, c.
  - intros [t [c [I [J U]]]]. exists (class_of t). split; [now apply in_map|]. apply existsb_exists. exists (field c).
    split; [|exact U]. change (sc_fields (class_of t)) with (map field (t_cols t)). now apply in_map.
Qed.

Lemma sa_word : forall n, In n sa_names -> word n.
Proof. intros n I. exact (listed_word _ _ I eq_refl). Qed.
Lemma single_reads : read_python (sa_single camel snake o s) = Some single_file.
Proof.
  unfold sa_single, sa_classes. cbv zeta. apply (file_reads camel snake o suffix_plain single_im single_sa single_tz sel).
  - intros x I. apply single_im_in in I as [t [I J]]. apply (class_imports_known t); [now apply sel_ok|exact J].
  - intros Q. assert (I : In "Column" single_sa) by (apply single_sa_in; now left). rewrite Q in I. destruct I.
  - intros x I. apply sa_word. apply single_sa_in in I as [->|[t [I J]]]; [cbn; tauto|].
    apply (class_sa_names t); [now apply sel_ok|exact J].
  - apply sel_ok.
Qed.

Lemma single_known : names_known single_file.
Proof.
  apply but_nil. unfold single_file, file_stmts. rewrite app_assoc. apply but_app; [apply but_app; [apply header_known|]|].
  - intros b n I U. left. destruct single_tz eqn:Z; [|destruct I]. destruct I as [<-|[]].
    apply single_tz_iff in Z as [t [c [I [J Z]]]]. pose proof (sel_ok t I) as T.
    pose proof (proj2 (proj2 T) c J) as [_ [_ H]]. destruct (tz_field c H Z) as [_ [_ D]].
    apply tz_uses in U. destruct U as [<-|[<-|[<-|[]]]].
    + apply sa_known; [|cbn; tauto]. apply single_sa_in. right. exists t. split; [exact I|]. apply (class_sa_in t _ T).
      right. right. split; [reflexivity|now exists c].
    + apply sa_known; [|cbn; tauto]. apply single_sa_in. right. exists t. split; [exact I|]. apply (class_sa_in t _ T).
      right. left. exists c. split; [exact J|now rewrite D].
    + apply timezone_known, single_im_in. exists t. split; [exact I|]. apply (class_imports_in t _ T). right. split; [reflexivity|now exists c].
  - intros b n I U. left. apply in_map_iff in I as [t [<- I]]. pose proof (sel_ok t I) as T.
    destruct (class_uses t n T U) as [->|[[-> L]|[c [J Q]]]].
    + apply known_app, base_known.
    + apply known_app, sa_known; [|cbn; tauto]. apply single_sa_in. right. exists t. split; [exact I|]. apply (class_sa_in t _ T). now left.
    + pose proof (proj2 (proj2 T) c J) as [_ [_ H]]. destruct Q as [->|[->|[[-> Z]|[Q|[-> D]]]]].
      * apply known_app, sa_known; [|cbn; tauto]. apply single_sa_in. now left.
      * apply known_app, sa_known; [|now apply kind_sa, typed_kind]. apply single_sa_in. right. exists t. split; [exact I|].
        apply (class_sa_in t _ T). right. left. now exists c.
      * right. right. right. exists "TypeDecorator", tz_body. apply in_app_iff. right.
        replace single_tz with true; [now left|]. symmetry. apply single_tz_iff. now exists t, c.
      * left. cbn in Q |- *. tauto.
      * apply known_app, datetime_known, single_im_in. exists t. split; [exact I|]. apply (class_imports_in t _ T).
        left. split; [reflexivity|now exists c].
Qed.
Lemma single_described : exists header, single_file = (header ++ map cstmt sel)%list /\
  Forall2 (class_described camel snake (get_prefix (so_prefix o)) (so_remove o) (so_suffix o) (so_utc o)) sel (map cstmt sel).
Proof.
  exists (header_stmts single_im single_sa ++ (if single_tz then [tz_stmt] else []))%list. split.
  - unfold single_file, file_stmts. now rewrite app_assoc.
  - apply map_forall2. intros t I. apply class_spec. now apply sel_ok.
Qed.

(** ** One file per table *)

Definition table_file (sa : sset) (t : table) : list stmt :=
  file_stmts camel snake o (ss_slice (ss_add_all (ss_new []) (class_imports o (class_of t))))
    (ss_slice (ss_add_all sa (class_sa o (class_of t)))) false [t].
Lemma table_reads : forall sa t, t_ok t -> t_cols t <> [] -> (forall x, In x sa -> In x sa_names) ->
  read_python (lines_text (header_lines (ss_slice (ss_add_all (ss_new []) (class_imports o (class_of t))))
                                        (ss_slice (ss_add_all sa (class_sa o (class_of t)))) ++ class_lines o (class_of t) ++ [""])%list)
  = Some (table_file sa t).
Proof.
  intros sa t T N H.
  assert (E : class_lines o (class_of t) = flat_map (class_lines o) (map class_of [t])) by (cbn [map flat_map]; now rewrite app_nil_r).
  rewrite E. apply (file_reads camel snake o suffix_plain _ _ false [t]).
  - intros x I. apply slice_in, add_all_in in I as [[]|I]. now apply (class_imports_known t).
  - intros Q. destruct (t_cols t) as [|c cs] eqn:C; [congruence|].
    assert (I : In (sa_type_of c) (ss_slice (ss_add_all sa (class_sa o (class_of t))))).
    { apply slice_in, add_all_in. right. apply (class_sa_in t _ T). right. left. exists c. split; [rewrite C; now left|reflexivity]. }
    rewrite Q in I. destruct I.
  - intros x I. apply sa_word. apply slice_in, add_all_in in I as [I|I]; [now apply H|]. now apply (class_sa_names t).
  - intros u [<-|[]]. exact T.
Qed.
Lemma table_known : forall sa t, t_ok t ->
  names_known_but ((if str_in "Column" sa then [] else ["Column"]) ++ (if so_utc o then ["TZDateTime"] else []))%list (table_file sa t).
Proof.
  intros sa t T. unfold table_file, file_stmts. cbn [app map]. apply but_app; [apply header_known|].
  intros b n [<-|[]] U.
  set (A := class_sa o (class_of t)). set (B := class_imports o (class_of t)).
  assert (KA : forall x, In x A -> In x (ss_slice (ss_add_all sa A))) by (intros x I; apply slice_in, add_all_in; now right).
  assert (KB : forall x, In x B -> In x (ss_slice (ss_add_all (ss_new []) B))) by (intros x I; apply slice_in, add_all_in; now right).
  destruct (class_uses t n T U) as [->|[[-> L]|[c [J Q]]]].
  - left. apply base_known.
  - left. apply sa_known; [|cbn; tauto]. apply KA. apply (class_sa_in t _ T). now left.
  - pose proof (proj2 (proj2 T) c J) as [_ [_ H]]. destruct Q as [->|[->|[[-> Z]|[Q|[-> D]]]]].
    + destruct (str_in "Column" sa) eqn:S; [|right; apply in_app_iff; left; now left].
      left. apply sa_known; [|cbn; tauto]. apply slice_in, add_all_in. left. now apply str_in_iff.
    + left. apply sa_known; [|now apply kind_sa, typed_kind]. apply KA. apply (class_sa_in t _ T). right. left. now exists c.
    + right. apply in_app_iff. right. destruct (tz_field c H Z) as [-> _]. now left.
    + left. left. cbn in Q |- *. tauto.
    + left. apply datetime_known, KB. apply (class_imports_in t _ T). left. split; [reflexivity|now exists c].
Qed.
Lemma table_unknown : forall t, t_ok t -> t_cols t <> [] -> ~ names_known (table_file [] t).
Proof.
  intros t T N K. unfold table_file, file_stmts in K. cbn [app map] in K.
  assert (U : stmt_uses (cstmt t) "Column").
  { destruct (t_cols t) as [|c cs] eqn:C; [congruence|]. right. exists (column_member snake (so_utc o) c). split.
    - unfold class_members. right. apply in_app_iff. right. rewrite C. now left.
    - now left. }
  specialize (K _ (cstmt t) [] "Column" eq_refl U).
  destruct K as [K|[[m [l [I [J H]]]]|[[e I]|[b [l I]]]]].
  - cbn in K. intuition discriminate.
  - assert (M : m = "sqlalchemy") by (cbn in H; intuition congruence). subst m.
    unfold header_stmts in I. apply in_app_iff in I as [I|I].
    + apply in_map_iff in I as [x [Q _]]. unfold import_stmt in Q. destruct (String.eqb _ _); discriminate.
    + destruct I as [Q|[Q|[Q|[Q|[]]]]]; try discriminate. injection Q as <-. apply slice_in, add_all_in in J as [[]|J].
      apply (class_sa_in t _ T) in J as [[Q _]|[[c [I E]]|[Q _]]]; try discriminate.
      pose proof (proj2 (proj2 T) c I) as [_ [_ H']]. pose proof (typed_kind c H') as V. rewrite <- E in V. cbn in V. intuition discriminate.
  - unfold header_stmts in I. apply in_app_iff in I as [I|I].
    + apply in_map_iff in I as [x [Q _]]. unfold import_stmt in Q. destruct (String.eqb _ _); discriminate.
    + destruct I as [Q|[Q|[Q|[Q|[]]]]]; discriminate.
  - unfold header_stmts in I. apply in_app_iff in I as [I|I].
    + apply in_map_iff in I as [x [Q _]]. unfold import_stmt in Q. destruct (String.eqb _ _); discriminate.
    + destruct I as [Q|[Q|[Q|[Q|[]]]]]; discriminate.
Qed.
End Gen.
