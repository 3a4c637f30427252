(** The Kotlin files: claims about all of them, and cases *)
From Coq Require Import String Ascii List NArith Bool Lia Arith.
From Verif.Model Require Import GoString Util Octopus Common Jpa.
From Verif.Spec Require Import Text Reading OctopusSpec GraphqlSpec KotlinSpec.
From Verif.Proofs Require Import StringLemmas UtilProofs ReadingProofs GraphqlProofs GormProofs KotlinProofs JpaProofs JpaEntity JpaFile JpaDescribed JpaMain JpaNames.
From Verif.Spec Require Import KotlinSpec.
Import ListNotations.
Local Open Scope string_scope.

Notation class_in o camel t := (class_named camel (get_prefix (ko_prefix o)) (ko_remove o) t).
Notation names_ok camel lower_camel o s := (kt_names_ok camel lower_camel (get_prefix (ko_prefix o)) (ko_remove o) (ko_identity o) (ko_relation o) (ko_suffix o) (selection o s)).
Notation wanted_ok o s wanted := (forall t, In t (selection o s) -> annotations (get_annotations (ko_anno o) (t_group t)) (wanted (t_group t))).
Notation repos_ok o s := (ko_repos o = "" \/ package_ok (ko_repos o) /\ forall t, In t (selection o s) -> keys t <> []).

Lemma forall2_in_right : forall {A B} (P : A -> B -> Prop) l m, Forall2 P l m -> forall y, In y m -> exists x, In x l /\ P x y.
Proof.
  intros A B P l m H. induction H as [|x y l m H F IH]; [intros y []|]. intros z [<-|I]; [exists x; split; [now left|exact H]|].
  destruct (IH z I) as [w [W1 W2]]. exists w. split; [now right|exact W2].
Qed.
Lemma forall2_weaken : forall {A B} (P Q : A -> B -> Prop) l m, (forall x y, In x l -> P x y -> Q x y) -> Forall2 P l m -> Forall2 Q l m.
Proof.
  intros A B P Q l m W H. induction H as [|x y l m H F IH]; constructor; [apply W; [now left|exact H]|]. apply IH. intros a b I. apply W. now right.
Qed.

Section All.
Variables camel lower_camel snake : string -> string.
Variable path_join : list string -> string.
Variable o : kt_opt.
Variable s : schema.
Variable output : string.
Variable wanted : string -> list string.
Hypothesis N : names_ok camel lower_camel o s.
Hypothesis P : package_ok (ko_package o).
Hypothesis W : wanted_ok o s wanted.
Hypothesis R : repos_ok o s.

Lemma octopus_columns : forall t, In t (selection o s) -> forall c, In c (t_cols t) -> In (c_type c) octopus_types.
Proof. intros t T c C. destruct N as [_ [_ M]]. destruct (M t T) as [_ [_ K]]. apply (K c C). Qed.

Theorem all_read : forall file, In file (fst (kt_generate camel lower_camel snake path_join o s output)) -> exists f, read_kotlin (snd file) = Some f.
Proof.
  intros file I. destruct (files_exact camel lower_camel snake path_join o s output wanted N P W R) as [es [rs [E [F G]]]]. rewrite E in I. cbn [fst] in I.
  apply in_app_iff in I as [I|I].
  - destruct (forall2_in_right _ _ _ F file I) as [t [_ [_ Q]]]. eexists. exact Q.
  - destruct G as [[_ ->]|[_ G]]; [destruct I|]. destruct (forall2_in_right _ _ _ G file I) as [t [_ [_ Q]]]. eexists. exact Q.
Qed.
Theorem id_classes : exists entities repos, kt_generate camel lower_camel snake path_join o s output = ((entities ++ repos)%list, KtDone) /\
  Forall2 (fun t file => length (keys t) > 1 -> exists f annos params super ps, read_kotlin (snd file) = Some f /\
    ki_decls f = [DClass annos (class_in o camel t) params super; DClass [] (class_in o camel t ++ "PK") ps (kt "Serializable")] /\
    In (mkAnno "IdClass" [("", [Leaf (TWord (class_in o camel t ++ "PK")); Leaf (TMark ":"); Leaf (TMark ":"); Leaf (TWord "class")])]) annos /\
    map kp_name ps = map (fun c => lower_camel (c_name c)) (keys t)) (selection o s) entities.
Proof.
  destruct (files_described camel lower_camel snake path_join o s output wanted N P W R) as [es [rs [E [F _]]]]. exists es, rs. split; [exact E|].
  revert F. apply forall2_weaken. intros t file T [_ [f [Q [_ D]]]] L. destruct D as [ta [ids [params [super [more [D1 [_ [_ [_ D]]]]]]]]].
  destruct D as [[D _]|[_ [D2 [ps [D3 D4]]]]]; [lia|]. subst ids more. exists f. do 4 eexists. split; [exact Q|]. split; [exact D1|]. split.
  - rewrite !in_app_iff. right. right. now left.
  - clear - D4. induction D4 as [|c p l m H F IH]; [reflexivity|]. cbn [map]. f_equal; [apply H|exact IH].
Qed.
Theorem all_imports : ~ In (ko_identity o) (map fst kt_homes) -> (forall g n, In n (wanted g) -> ~ In n (map fst kt_homes)) ->
  exists entities repos, kt_generate camel lower_camel snake path_join o s output = ((entities ++ repos)%list, KtDone) /\
  length entities = length (selection o s) /\
  forall file, In file entities -> exists f, read_kotlin (snd file) = Some f /\ kt_imports_enough f /\ kt_imports_used f.
Proof.
  intros I A. destruct (files_exact camel lower_camel snake path_join o s output wanted N P W R) as [es [rs [E [F _]]]]. exists es, rs. split; [exact E|].
  split; [symmetry; clear - F; induction F; [reflexivity|cbn [length]; now f_equal]|].
  intros file J. destruct (forall2_in_right _ _ _ F file J) as [t [T [_ Q]]]. eexists. split; [exact Q|]. split.
  - apply imports_enough; [exact (octopus_columns t T)|exact (A (t_group t))|exact I].
  - apply imports_used. exact (octopus_columns t T).
Qed.
Theorem repo_imports_all :
  (forall t, In t (selection o s) -> ~ In (class_in o camel t) (map fst kt_homes)) ->
  (forall t c, In t (selection o s) -> keys t = [c] -> ~ In (c_type c) ["decimal"; "datetime"; "date"; "time"; "blob8"; "blob16"; "blob24"; "blob32"]) ->
  exists entities repos, kt_generate camel lower_camel snake path_join o s output = ((entities ++ repos)%list, KtDone) /\
  length entities = length (selection o s) /\
  forall file, In file repos -> exists f, read_kotlin (snd file) = Some f /\ kt_imports_enough f.
Proof.
  intros C K. destruct (files_exact camel lower_camel snake path_join o s output wanted N P W R) as [es [rs [E [F G]]]]. exists es, rs. split; [exact E|].
  split; [symmetry; clear - F; induction F; [reflexivity|cbn [length]; now f_equal]|].
  intros file J. destruct G as [[_ ->]|[Z G]]; [destruct J|]. destruct (forall2_in_right _ _ _ G file J) as [t [T [_ Q]]]. eexists. split; [exact Q|].
  destruct R as [R'|[_ R']]; [contradiction|]. apply repo_enough.
  - destruct N as [_ [_ M]]. now apply (M t T).
  - now apply C.
  - intros c. now apply K.
  - now apply R'.
Qed.
Theorem all_constraints : (forall t c, In t (selection o s) -> In c (t_cols t) -> c_uq c = true -> snake (lower_camel (c_name c)) = c_name c) ->
  forall file, In file (fst (kt_generate camel lower_camel snake path_join o s output)) ->
  exists f, read_kotlin (snd file) = Some f /\ Forall constraints_known (ki_decls f).
Proof.
  intros U file I. destruct (files_exact camel lower_camel snake path_join o s output wanted N P W R) as [es [rs [E [F G]]]]. rewrite E in I. cbn [fst] in I.
  apply in_app_iff in I as [I|I].
  - destruct (forall2_in_right _ _ _ F file I) as [t [T [_ Q]]]. eexists. split; [exact Q|]. apply constraints_all; [exact (octopus_columns t T)|].
    intros c. now apply (U t).
  - destruct G as [[_ ->]|[_ G]]; [destruct I|]. destruct (forall2_in_right _ _ _ G file I) as [t [_ [_ Q]]]. eexists. split; [exact Q|].
    cbn [ki_decls the_repo repo_decls]. constructor; [exact Logic.I|constructor].
Qed.
Theorem all_ids : ko_identity o <> "" -> ko_identity o <> "Serializable" ->
  forall file, In file (fst (kt_generate camel lower_camel snake path_join o s output)) ->
  exists f, read_kotlin (snd file) = Some f /\ Forall (id_overridden (ko_identity o)) (ki_decls f).
Proof.
  intros Z S file I. destruct (files_exact camel lower_camel snake path_join o s output wanted N P W R) as [es [rs [E [F G]]]]. rewrite E in I. cbn [fst] in I.
  apply in_app_iff in I as [I|I].
  - destruct (forall2_in_right _ _ _ F file I) as [t [T [_ Q]]]. eexists. split; [exact Q|]. apply id_all; [exact Z| |exact S].
    intros c D. destruct N as [_ [_ M]]. destruct (M t T) as [_ [_ K]].
    assert (C : In c (t_cols t)) by (apply (key_col t c); destruct D as [_ [D _]]; rewrite D; now left).
    apply (K c C). now left.
  - destruct G as [[_ ->]|[_ G]]; [destruct I|]. destruct (forall2_in_right _ _ _ G file I) as [t [_ [_ Q]]]. eexists. split; [exact Q|].
    cbn [ki_decls the_repo repo_decls]. constructor; [exact Logic.I|constructor].
Qed.
End All.

(** ** A check of the names *)

Definition col_okb (lower_camel : string -> string) (relation : string) (ts : list table) (c : column) : bool :=
  wordy (c_name c) && identifier (lower_camel (c_name c)) && str_in (c_type c) octopus_types
  && (negb (c_notnull c) || match default_of (c_type c) with Some _ => true | None => false end)
  && (negb (c_pk c) || c_notnull c)
  && match c_ref c with
     | Some r => negb (String.eqb relation "VRelation") || (str_in (ref_table r) (map t_name ts) && wordy (lower_camel (ref_column r)))
     | None => true
     end.
Definition kt_okb (camel lower_camel : string -> string) (o : kt_opt) (ts : list table) : bool :=
  (String.eqb (ko_identity o) "" || identifier (ko_identity o)) && string_forallb word_char (ko_suffix o)
  && forallb (fun t => wordy (t_name t) && identifier (class_in o camel t) && forallb (col_okb lower_camel (ko_relation o) ts) (t_cols t)) ts.
Lemma kt_checked : forall camel lower_camel o s, kt_okb camel lower_camel o (selection o s) = true -> names_ok camel lower_camel o s.
Proof.
  intros camel lower_camel o s. set (ts := selection o s). unfold kt_okb. rewrite !andb_true_iff. intros [[A B] C]. split; [|split].
  - apply orb_true_iff in A as [A|A]; [left; now apply String.eqb_eq|now right].
  - intros c I. exact (forallb_char_in _ _ _ B I).
  - rewrite forallb_forall in C. intros t T. specialize (C t T). rewrite !andb_true_iff in C. destruct C as [[C1 C2] C3].
    split; [now apply wordy_ok|]. split; [exact C2|]. intros c I. rewrite forallb_forall in C3. specialize (C3 c I). unfold col_okb in C3.
    rewrite !andb_true_iff in C3. destruct C3 as [[[[[D1 D2] D3] D4] D5] D6].
    split; [now apply wordy_ok|]. split; [exact D2|]. split; [now apply str_in_iff|]. split; [|split].
    + intros H. rewrite H in D4. cbn [negb orb] in D4. destruct (default_of (c_type c)) as [[k v]|] eqn:E; [|discriminate].
      exists k, v. now apply default_iff.
    + intros H. assert (PK : c_pk c = true).
      { destruct H as [[_ [H _]]|[H _]]; [|exact H]. assert (J : In c (keys t)) by (rewrite H; now left). apply key_col in J. apply J. }
      rewrite PK in D5. exact D5.
    + intros r V Q. rewrite Q, V in D6. cbn [negb orb String.eqb Ascii.eqb Bool.eqb] in D6.
      apply andb_true_iff in D6 as [D6 D7]. split; [now apply str_in_iff|now apply wordy_ok].
Qed.
Lemma package_checked : forall p, forallb identifier (split_on "." p) = true -> package_ok p.
Proof. intros p H. apply Forall_forall. now apply forallb_forall. Qed.

(** ** Cases *)

Definition kt_lower_camel (s : string) : string :=
  if String.eqb s "created_at" then "createdAt" else if String.eqb s "updated_at" then "updatedAt"
  else if String.eqb s "user_id" then "userId" else if String.eqb s "group_id" then "groupId" else s.
Definition kt_snake (s : string) : string :=
  if String.eqb s "createdAt" then "created_at" else if String.eqb s "updatedAt" then "updated_at"
  else if String.eqb s "userId" then "user_id" else if String.eqb s "groupId" then "group_id" else s.
Definition kt_camel (s : string) : string :=
  if String.eqb s "user" then "User" else if String.eqb s "member" then "Member" else s.
Definition kt_plain : kt_opt :=
  mkKtOpt (mkAM "" [("common", ["@Common"])] true) (mkPM "" [("common", "C")] true) None "IdEntity" "com.lechuck" "VRelation" [] "com.repos" "_uq".
Definition kt_wanted (g : string) : list string := if String.eqb g "common" then ["Common"] else [].
Definition kt_col (name ty : string) (size scale : N) (notnull pk uq ai : bool) (ref : option reference) : column :=
  mkCol name ty "" size scale notnull pk uq ai "" "" [] ref.
Definition kt_user : schema := mkSchema "" "" "" [
  mkTable "user" [kt_col "id" "int64" 0 0 true true false true None;
                  kt_col "name" "varchar" 100 0 true false true false None;
                  kt_col "score" "decimal" 20 5 true false false false None;
                  kt_col "created_at" "datetime" 0 0 true false false false None;
                  kt_col "updated_at" "datetime" 0 0 false false false false None] "" "common" "" [];
  mkTable "member" [kt_col "user_id" "int64" 0 0 true true false false (Some (mkRef "user" "id" ""));
                    kt_col "group_id" "int32" 0 0 true true false false None] "" "" "" []].
Lemma kt_user_ok : names_ok kt_camel kt_lower_camel kt_plain kt_user.
Proof. apply kt_checked. vm_compute. reflexivity. Qed.
Lemma kt_user_rest : package_ok (ko_package kt_plain) /\ wanted_ok kt_plain kt_user kt_wanted /\ repos_ok kt_plain kt_user.
Proof.
  split; [apply package_checked; reflexivity|]. split.
  - intros t [<-|[<-|[]]]; [apply (one_annotation "Common"); [reflexivity|constructor]|repeat constructor].
  - right. split; [apply package_checked; reflexivity|]. intros t [<-|[<-|[]]]; discriminate.
Qed.
Definition one_table (name : string) (cols : list column) : schema := mkSchema "" "" "" [mkTable name cols "" "" "" []].
Definition kt_id (s : string) : string := s.
(** without repositories, without groups *)
Definition kt_small (identity package repos : string) : kt_opt :=
  mkKtOpt (mkAM "" [] true) (mkPM "" [] true) None identity package "" [] repos "_uq".

(** the names are fine, as are the types *)
Notation plain_names camel o s := (forall t, In t (selection o s) ->
  word (t_name t) /\ identifier (class_in o camel t) = true /\
  forall c, In c (t_cols t) -> word (c_name c) /\ In (c_type c) octopus_types).
Ltac plain := intros t T; cbn in T; destruct T as [<-|[]]; split; [apply wordy_ok; reflexivity|]; split; [vm_compute; reflexivity|];
  let c := fresh in let C := fresh in intros c C; cbn in C;
  repeat (destruct C as [<-|C]; [split; [apply wordy_ok; reflexivity|apply str_in_iff; vm_compute; reflexivity]|]); destruct C.

Theorem nopk_refuted : exists camel lower_camel snake path_join o s output,
  (exists wanted, names_ok camel lower_camel o s /\ package_ok (ko_package o) /\ wanted_ok o s wanted /\ package_ok (ko_repos o)) /\
  snd (kt_generate camel lower_camel snake path_join o s output) = KtPanic.
Proof.
  exists kt_id, kt_id, kt_id, (join "/"), (kt_small "" "com.a" "com.b"), (one_table "log" [kt_col "message" "text16" 0 0 true false false false None]), "out". split.
  - exists (fun _ => []). split; [apply kt_checked; vm_compute; reflexivity|]. split; [apply package_checked; reflexivity|].
    split; [intros t [<-|[]]; repeat constructor|apply package_checked; reflexivity].
  - vm_compute. reflexivity.
Qed.
(** its repository is missing *)
Theorem norepo_refuted : exists camel lower_camel snake path_join o s output t,
  (exists wanted, names_ok camel lower_camel o s /\ package_ok (ko_package o) /\ wanted_ok o s wanted /\ package_ok (ko_repos o)) /\
  In t (filter (passes (ko_filter o)) (s_tables s)) /\
  ~ In (path_join [path_join (output :: split_on "." (ko_repos o)); class_named camel (get_prefix (ko_prefix o)) (ko_remove o) t ++ "Repository.kt"])
       (map fst (fst (kt_generate camel lower_camel snake path_join o s output))).
Proof.
  exists kt_id, kt_id, kt_id, (join "/"), (kt_small "" "com.a" "com.b"), (one_table "log" [kt_col "message" "text16" 0 0 true false false false None]), "out".
  eexists. split; [|split; [left; reflexivity|]].
  - exists (fun _ => []). split; [apply kt_checked; vm_compute; reflexivity|]. split; [apply package_checked; reflexivity|].
    split; [intros t [<-|[]]; repeat constructor|apply package_checked; reflexivity].
  - vm_compute. intros [X|[]]. discriminate X.
Qed.
(** a reference to a table of another group *)
Theorem fatal_refuted : exists camel lower_camel snake path_join o s output,
  (forall t c r, In t (s_tables s) -> In c (t_cols t) -> c_ref c = Some r -> exists u d, In u (s_tables s) /\ t_name u = ref_table r /\ In d (t_cols u) /\ c_name d = ref_column r) /\
  (forall t, In t (s_tables s) -> keys t <> []) /\
  snd (kt_generate camel lower_camel snake path_join o s output) = KtFatal.
Proof.
  exists kt_camel, kt_lower_camel, kt_snake, (join "/"),
    (mkKtOpt (mkAM "" [] true) (mkPM "" [] true) (Some (fun t => String.eqb (t_group t) "")) "" "com.a" "VRelation" [] "" "_uq"), kt_user, "out". split; [|split].
  - intros t c r T C Q. cbn in T. destruct T as [<-|[<-|[]]]; cbn in C.
    + repeat (destruct C as [<-|C]; [discriminate|]). destruct C.
    + destruct C as [<-|[<-|[]]]; [|discriminate]. injection Q as <-. cbn [ref_table ref_column].
      exists (nth 0 (s_tables kt_user) (mkTable "" [] "" "" "" [])), (kt_col "id" "int64" 0 0 true true false true None). cbn. tauto.
  - intros t [<-|[<-|[]]]; discriminate.
  - vm_compute. reflexivity.
Qed.
Theorem value_refuted : exists camel lower_camel snake path_join o s output path text,
  plain_names camel o s /\ package_ok (ko_package o) /\
  (forall t c, In t (selection o s) -> In c (t_cols t) -> identifier (lower_camel (c_name c)) = true) /\
  kt_generate camel lower_camel snake path_join o s output = ([(path, text)], KtDone) /\ read_kotlin text = None.
Proof.
  exists kt_id, kt_id, kt_id, (join "/"), (kt_small "" "com.a" ""), (one_table "photo" [kt_col "image" "blob16" 0 0 true false false false None]), "out".
  do 2 eexists. split; [plain|]. split; [apply package_checked; reflexivity|]. split; [intros t c [<-|[]] [<-|[]]; reflexivity|].
  split; [vm_compute; reflexivity|vm_compute; reflexivity].
Qed.
Theorem nullable_key_refuted : exists camel lower_camel snake path_join o s output path text,
  plain_names camel o s /\ package_ok (ko_package o) /\
  (forall t c, In t (selection o s) -> In c (t_cols t) -> identifier (lower_camel (c_name c)) = true /\ has_default c) /\
  kt_generate camel lower_camel snake path_join o s output = ([(path, text)], KtDone) /\ read_kotlin text = None.
Proof.
  exists kt_id, kt_id, kt_id, (join "/"), (kt_small "" "com.a" ""), (one_table "pair" [kt_col "left" "int64" 0 0 true true false false None; kt_col "right" "int64" 0 0 false true false false None]), "out".
  do 2 eexists. split; [plain|]. split; [apply package_checked; reflexivity|].
  split; [intros t c [<-|[]] [<-|[<-|[]]]; (split; [reflexivity|]; exists "Long", "0L"; eexists; split; [do 3 right; left; reflexivity|now left])|].
  split; [vm_compute; reflexivity|vm_compute; reflexivity].
Qed.
Theorem keyword_refuted : exists camel lower_camel snake path_join o s output path text,
  plain_names camel o s /\ package_ok (ko_package o) /\
  (forall t c, In t (selection o s) -> In c (t_cols t) -> has_default c /\ c_notnull c = true) /\
  kt_generate camel lower_camel snake path_join o s output = ([(path, text)], KtDone) /\ read_kotlin text = None.
Proof.
  exists kt_id, kt_id, kt_id, (join "/"), (kt_small "" "com.a" ""), (one_table "door" [kt_col "in" "int64" 0 0 true false false false None]), "out".
  do 2 eexists. split; [plain|]. split; [apply package_checked; reflexivity|].
  split; [intros t c [<-|[]] [<-|[]]; (split; [|reflexivity]; exists "Long", "0L"; eexists; split; [do 3 right; left; reflexivity|now left])|].
  split; [vm_compute; reflexivity|vm_compute; reflexivity].
Qed.
Theorem package_refuted : exists camel lower_camel snake path_join o s output path text,
  names_ok camel lower_camel o s /\ ko_package o = "" /\
  kt_generate camel lower_camel snake path_join o s output = ([(path, text)], KtDone) /\ read_kotlin text = None.
Proof.
  exists kt_id, kt_id, kt_id, (join "/"), (kt_small "" "" ""), (one_table "door" [kt_col "width" "int64" 0 0 true false false false None]), "out".
  do 2 eexists. split; [apply kt_checked; vm_compute; reflexivity|]. split; [reflexivity|]. split; vm_compute; reflexivity.
Qed.
Theorem repo_import_refuted : exists camel lower_camel snake path_join o s output wanted entity path text f,
  names_ok camel lower_camel o s /\ package_ok (ko_package o) /\ wanted_ok o s wanted /\ package_ok (ko_repos o) /\
  kt_generate camel lower_camel snake path_join o s output = ([entity; (path, text)], KtDone) /\ read_kotlin text = Some f /\ ~ kt_imports_enough f.
Proof.
  exists kt_id, kt_id, kt_id, (join "/"), (kt_small "" "com.a" "com.b"), (one_table "day" [kt_col "id" "date" 0 0 true true false false None]), "out", (fun _ => []).
  do 4 eexists. split; [apply kt_checked; vm_compute; reflexivity|]. split; [apply package_checked; reflexivity|].
  split; [intros t [<-|[]]; repeat constructor|]. split; [apply package_checked; reflexivity|].
  split; [vm_compute; reflexivity|]. split; [vm_compute; reflexivity|].
  intros H. assert (J := H "LocalDate" ["java"; "time"; "LocalDate"]). lapply J; [clear J; intros J; lapply J; [clear J; intros J|]|].
  - cbn in J. destruct J as [J|[J|[J|[]]]]; discriminate.
  - unfold kt_homes. repeat (first [left; reflexivity|right]).
  - vm_compute. repeat (first [left; reflexivity|right]).
Qed.
Theorem constraint_refuted : exists camel lower_camel snake path_join o s output wanted path text f,
  names_ok camel lower_camel o s /\ package_ok (ko_package o) /\ wanted_ok o s wanted /\
  kt_generate camel lower_camel snake path_join o s output = ([(path, text)], KtDone) /\ read_kotlin text = Some f /\ ~ Forall constraints_known (ki_decls f).
Proof.
  exists kt_id, (fun s => if String.eqb s "eMail" then "email" else s), kt_id, (join "/"), (kt_small "" "com.a" ""),
    (one_table "user" [kt_col "eMail" "varchar" 40 0 false false true false None]), "out", (fun _ => []).
  do 3 eexists. split; [apply kt_checked; vm_compute; reflexivity|]. split; [apply package_checked; reflexivity|].
  split; [intros t [<-|[]]; repeat constructor|].
  split; [vm_compute; reflexivity|]. split; [vm_compute; reflexivity|].
  intros H. inversion H as [|d ds H1 _]; subst. cbn [constraints_known] in H1.
  edestruct H1 as [p [I C]]; [right; left; reflexivity|vm_compute; left; reflexivity|].
  destruct I as [<-|[]]. destruct C as [[attrs [A B]]|[_ C]]; cbn [kp_annos] in *.
  - destruct A as [A|[]]. injection A as <-. cbn in B. destruct B as [B|[B|[]]]; discriminate.
  - eapply C; [left; reflexivity|left; reflexivity].
Qed.
Theorem id_refuted : exists camel lower_camel snake path_join o s output path text f,
  plain_names camel o s /\ package_ok (ko_package o) /\ identifier (ko_identity o) = true /\
  kt_generate camel lower_camel snake path_join o s output = ([(path, text)], KtDone) /\ read_kotlin text = Some f /\
  ~ Forall (id_overridden (ko_identity o)) (ki_decls f).
Proof.
  exists kt_id, kt_id, kt_id, (join "/"), (kt_small "IdEntity" "com.a" ""), (one_table "user" [kt_col "id" "int64" 0 0 false true false true None]), "out".
  do 3 eexists. split; [plain|]. split; [apply package_checked; reflexivity|]. split; [reflexivity|].
  split; [vm_compute; reflexivity|]. split; [vm_compute; reflexivity|].
  intros H. inversion H as [|d ds H1 _]; subst. cbn [id_overridden] in H1. destruct (H1 eq_refl) as [p [I [_ C]]].
  destruct I as [<-|[]]. discriminate.
Qed.
