(** Models and tables: cases (C112) *)
From Coq Require Import String Ascii List NArith Bool Arith.
From Verif.Model Require Import GoString Util Octopus Common Mysql Sqlalchemy Jpa Gorm.
From Verif.Spec Require Import Text DiffSpec Reading OctopusSpec GraphqlSpec MysqlGrammar FlywaySpec MysqlSpec ServerSpec CreatedSpec MappedSpec.
From Verif.Spec Require SqlalchemySpec KotlinSpec GormSpec MappedPySpec MappedKtSpec MappedGoSpec.
From Verif.Proofs Require StringLemmas SqlalchemyMain JpaCases GormProofs GormText.
From Verif.Proofs Require Import StringLemmas MysqlLex MysqlFacts MysqlWitnesses FlywayFacts ServerCases Mapped.
Import ListNotations.
Local Open Scope string_scope.

(** [two]: two unique columns *)
Definition bx_member (two : bool) := mkTable "member" [sx_col "user_id" "int64" "" true true false true "";
  sx_col "group_id" "int32" "" true false true false ""; sx_col "code" "int32" "a code" false false two false ""] "" "" "" [].
(** an auto-increment column that is not the key *)
Definition bx_loose := mkTable "log" [sx_col "no" "int64" "" true false true true ""; sx_col "note" "text16" "" false false false false ""] "" "" "" [].
Definition bx_mail := mkTable "user" [sx_col "eMail" "int32" "" true false true false ""] "" "" "" [].
Definition bx_schema (t : table) := mkSchema "me" "s" "1" [t].

Ltac bx_plain := constructor; [plain_ident_tac|no_char|split; [discriminate|]|constructor];
  repeat (apply Forall_cons; [plain_column_tac; [exists []; now constructor|exists []; now constructor]|]); apply Forall_nil.
Lemma bx_proper : forall t, plain_table sx_reserved "_uq" t -> accept "_uq" t = true -> proper sx_reserved "_uq" (s_tables (bx_schema t)).
Proof. intros t P A. apply proper_of; [now constructor|]. cbn. now rewrite A. Qed.
Lemma bx_member_proper : forall two, proper sx_reserved "_uq" (s_tables (bx_schema (bx_member two))).
Proof. intros two. apply bx_proper; [bx_plain|destruct two; reflexivity]. Qed.
Lemma bx_loose_proper : proper sx_reserved "_uq" (s_tables (bx_schema bx_loose)).
Proof. apply bx_proper; [bx_plain|reflexivity]. Qed.
Lemma bx_mail_proper : proper sx_reserved "_uq" (s_tables (bx_schema bx_mail)).
Proof. apply bx_proper; [bx_plain|reflexivity]. Qed.

(** the table of the database *)
Definition bx_stmts (s : schema) : list my_stmt := match read_sql sx_reserved (my_export None "_uq" s) with Some l => l | None => [] end.
Definition bx_sql (s : schema) : sql_table := match run_stmts [] (map MCreate (bx_stmts s)) with Some (b :: _) => b | _ => mkSqlTable "" [] [] [] end.
Definition bx_none := mkMapping "" [] [].

(** ** SQLAlchemy *)
Definition same (s : string) := s.
Lemma py_names : forall s, forallb (SqlalchemyMain.sa_check same same (get_prefix (mkPM "" [] false)) []) (s_tables s) = true ->
  SqlalchemySpec.py_names_ok same same (get_prefix (so_prefix (SqlalchemyMain.sa_plain false))) (so_remove (SqlalchemyMain.sa_plain false))
    (so_suffix (SqlalchemyMain.sa_plain false)) (filter (passes (so_filter (SqlalchemyMain.sa_plain false))) (s_tables s)).
Proof. intros s H. rewrite FlywayMigration.selection_select. cbn [SqlalchemyMain.sa_plain so_filter selection so_prefix so_remove so_suffix]. now apply SqlalchemyMain.sa_checked. Qed.
Lemma py_path : SqlalchemySpec.python_path "model.py".
Proof. exists "model", "py". split; reflexivity. Qed.

Definition py_text (s : schema) : string := match sa_generate same same (SqlalchemyMain.sa_plain false) s "model.py" with (_, x) :: _ => x | [] => "" end.
Definition py_file (s : schema) : list SqlalchemySpec.stmt := match SqlalchemySpec.read_python (py_text s) with Some f => f | None => [] end.
Definition py_class (s : schema) : SqlalchemySpec.stmt := hd (SqlalchemySpec.PImport "" []) (filter SqlalchemySpec.is_model (py_file s)).
Definition py_mapping (s : schema) : mapping := match MappedPySpec.mapping_of (py_class s) with Some g => g | None => bx_none end.

(** the class and the table made from one schema *)
Definition py_pair (s : schema) (b : sql_table) (g : mapping) : Prop :=
  proper sx_reserved "_uq" (s_tables s) /\
  SqlalchemySpec.py_names_ok same same (get_prefix (so_prefix (SqlalchemyMain.sa_plain false))) (so_remove (SqlalchemyMain.sa_plain false))
    (so_suffix (SqlalchemyMain.sa_plain false)) (filter (passes (so_filter (SqlalchemyMain.sa_plain false))) (s_tables s)) /\
  exists text f m stmts, sa_generate same same (SqlalchemyMain.sa_plain false) s "model.py" = [("model.py", text)] /\
    SqlalchemySpec.read_python text = Some f /\ filter SqlalchemySpec.is_model f = [m] /\ MappedPySpec.mapping_of m = Some g /\
    read_sql sx_reserved (my_export None "_uq" s) = Some stmts /\ run_stmts [] (map MCreate stmts) = Some [b].

Ltac py_parts s := split; [|split; [apply py_names; vm_compute; reflexivity|]];
  [|exists (py_text s), (py_file s), (py_class s), (bx_stmts s); repeat (split; [vm_compute; reflexivity|]); vm_compute; reflexivity].

Lemma py_case : py_pair (bx_schema (bx_member false)) (bx_sql (bx_schema (bx_member false)))
  (mkMapping "member" [mkMapped "user_id" true true true; mkMapped "group_id" false true false; mkMapped "code" false false false] [(None, ["group_id"])]).
Proof. py_parts (bx_schema (bx_member false)). apply bx_member_proper. Qed.

Lemma py_unique : exists s b g, py_pair s b g /\ q_keys b = [KUniq "member_uq" ["group_id"; "code"]] /\
  mg_unique g = [(None, ["group_id"]); (None, ["code"])] /\ ~ fits b g.
Proof.
  set (s := bx_schema (bx_member true)). exists s, (bx_sql s), (py_mapping s).
  assert (K : q_keys (bx_sql s) = [KUniq "member_uq" ["group_id"; "code"]]) by (vm_compute; reflexivity).
  assert (G : mg_unique (py_mapping s) = [(None, ["group_id"]); (None, ["code"])]) by (vm_compute; reflexivity).
  split; [py_parts s; apply bx_member_proper|]. split; [exact K|]. split; [exact G|].
  intros [_ _ _ O]. rewrite G, K in O. destruct (O _ (or_introl eq_refl)) as [n [ks [[E|[]] [_ S]]]]. injection E as <- <-.
  pose proof (proj2 (S "code") (or_intror (or_introl eq_refl))) as X. cbn in X. destruct X as [X|[]]. discriminate X.
Qed.

Lemma py_null : exists s b g, py_pair s b g /\ map (fun q => (q_name q, q_notnull q)) (q_cols b) = [("no", true); ("note", false)] /\
  map (fun m => (mp_column m, mp_required m)) (mg_columns g) = [("no", false); ("note", false)] /\ ~ fits b g.
Proof.
  set (s := bx_schema bx_loose). exists s, (bx_sql s), (py_mapping s).
  split; [py_parts s; apply bx_loose_proper|]. split; [vm_compute; reflexivity|]. split; [vm_compute; reflexivity|].
  intros [_ C _ _]. vm_compute in C. inversion C as [|q m qs ms X _]. destruct X as [_ _ X _]. discriminate X.
Qed.

(** ** Kotlin *)
Definition kt_o := JpaCases.kt_small "" "com.a" "".
Definition kt_email (s : string) := if String.eqb s "eMail" then "email" else JpaCases.kt_lower_camel s.
Definition kt_files (s : schema) := fst (kt_generate JpaCases.kt_camel kt_email JpaCases.kt_snake (join "/") kt_o s "out").
Definition kt_file (s : schema) : KotlinSpec.kfile :=
  match KotlinSpec.read_kotlin (snd (hd ("", "") (kt_files s))) with Some f => f | None => KotlinSpec.mkKfile [] [] [] end.
Definition kt_mapping (s : schema) : mapping :=
  match KotlinSpec.ki_decls (kt_file s) with d :: _ => match MappedKtSpec.mapping_of JpaCases.kt_snake d with Some g => g | None => bx_none end | [] => bx_none end.

Definition kt_pair (s : schema) (b : sql_table) (g : mapping) : Prop :=
  proper sx_reserved "_uq" (s_tables s) /\
  (KotlinSpec.kt_names_ok JpaCases.kt_camel kt_email (get_prefix (ko_prefix kt_o)) (ko_remove kt_o) (ko_identity kt_o) (ko_relation kt_o)
     (ko_suffix kt_o) (filter (passes (ko_filter kt_o)) (s_tables s)) /\ KotlinSpec.package_ok (ko_package kt_o)) /\
  exists path text f d stmts, kt_generate JpaCases.kt_camel kt_email JpaCases.kt_snake (join "/") kt_o s "out" = ([(path, text)], KtDone) /\
    KotlinSpec.read_kotlin text = Some f /\ KotlinSpec.ki_decls f = [d] /\ MappedKtSpec.mapping_of JpaCases.kt_snake d = Some g /\
    read_sql sx_reserved (my_export None "_uq" s) = Some stmts /\ run_stmts [] (map MCreate stmts) = Some [b].

Ltac kt_parts s := split; [|split; [split; [apply JpaCases.kt_checked; vm_compute; reflexivity|apply JpaCases.package_checked; reflexivity]|]];
  [|exists (fst (hd ("", "") (kt_files s))), (snd (hd ("", "") (kt_files s))), (kt_file s),
      (hd (KotlinSpec.DInterface [] "" []) (KotlinSpec.ki_decls (kt_file s))), (bx_stmts s);
    repeat (split; [vm_compute; reflexivity|]); vm_compute; reflexivity].

Lemma kt_case : kt_pair (bx_schema (bx_member true)) (bx_sql (bx_schema (bx_member true)))
    (mkMapping "member" [mkMapped "user_id" true true true; mkMapped "group_id" false true false; mkMapped "code" false false false]
       [(Some "member_uq", ["group_id"; "code"])]) /\
  (forall t, In t (s_tables (bx_schema (bx_member true))) -> MappedKtSpec.findable kt_email JpaCases.kt_snake t).
Proof.
  split; [kt_parts (bx_schema (bx_member true)); apply bx_member_proper|].
  intros t [<-|[]] c I U. cbn [bx_member t_cols] in I.
  destruct I as [<-|[<-|[<-|[]]]]; [discriminate U| |]; (split; [vm_compute; reflexivity|]);
    intros c' I; cbn [bx_member t_cols] in I; destruct I as [<-|[<-|[<-|[]]]]; vm_compute; intros [E|E]; congruence.
Qed.

Lemma kt_unique : exists s b g, kt_pair s b g /\ q_keys b = [KUniq "user_uq" ["eMail"]] /\
  map mp_column (mg_columns g) = ["eMail"] /\ mg_unique g = [(Some "user_uq", [])] /\ ~ fits b g.
Proof.
  set (s := bx_schema bx_mail). exists s, (bx_sql s), (kt_mapping s).
  assert (K : q_keys (bx_sql s) = [KUniq "user_uq" ["eMail"]]) by (vm_compute; reflexivity).
  assert (G : mg_unique (kt_mapping s) = [(Some "user_uq", [])]) by (vm_compute; reflexivity).
  split; [kt_parts s; apply bx_mail_proper|]. split; [exact K|]. split; [vm_compute; reflexivity|]. split; [exact G|].
  intros [_ _ _ O]. rewrite G, K in O. destruct (O _ (or_introl eq_refl)) as [n [ks [[E|[]] [_ S]]]]. injection E as <- <-.
  exact (proj2 (S "eMail") (or_introl eq_refl)).
Qed.

(** ** GORM *)
Definition go_camel (s : string) : string :=
  match alist_find [("user_id", "UserId"); ("group_id", "GroupId"); ("code", "Code"); ("member", "Member"); ("log", "Log"); ("no", "No"); ("note", "Note")] s with
  | Some x => x | None => s end.
Definition go_naming (s : string) : string :=
  match alist_find [("UserID", "user_id"); ("GroupID", "group_id"); ("No", "no")] s with Some x => x | None => s end.
Definition go_snake (s : string) : string := go_naming (id_suffix s).
Lemma go_usual : forall x b, GormSpec.camel_id go_camel x b -> go_naming b = go_snake (go_camel x).
Proof. intros x b H. unfold go_snake. now rewrite <- (GormText.camel_id_fun go_camel x b H). Qed.

Definition go_o := GormText.user_opt "".
Definition go_text (s : schema) := fst (gorm_generate go_camel go_snake (fun _ l => l) (fun _ l => l) default_models go_o s).
Definition go_decls (s : schema) := match GormSpec.read_go (go_text s) with Some f => GormSpec.gf_decls f | None => [] end.
Definition go_mapping (s : schema) : mapping :=
  match go_decls s with d :: _ => match MappedGoSpec.mapping_of go_naming d with Some g => g | None => bx_none end | [] => bx_none end.

Definition go_pair (s : schema) (b : sql_table) (g : mapping) : Prop :=
  proper sx_reserved "_uq" (s_tables s) /\
  (GormSpec.go_names_ok go_camel (get_prefix (go_prefix go_o)) (go_remove go_o) (go_suffix go_o) (s_tables s) (filter (passes (go_filter go_o)) (s_tables s)) /\
   one_line (go_package go_o) /\ forall t n cols, In t (s_tables s) -> In (n, cols) (embed_models default_models (go_embed go_o)) -> ~ GormSpec.fits_table t cols) /\
  exists f d stmts, GormSpec.read_go (fst (gorm_generate go_camel go_snake (fun _ l => l) (fun _ l => l) default_models go_o s)) = Some f /\
    GormSpec.gf_decls f = [d] /\ MappedGoSpec.mapping_of go_naming d = Some g /\
    read_sql sx_reserved (my_export None "_uq" s) = Some stmts /\ run_stmts [] (map MCreate stmts) = Some [b].

Lemma go_unfit : forall t, ~ In "created_at" (map c_name (t_cols t)) -> forall n cols,
  In (n, cols) (embed_models default_models (go_embed go_o)) -> ~ GormSpec.fits_table t cols.
Proof.
  intros t N n cols I F. vm_compute in I. destruct I as [I|[]]. injection I as <- <-. apply N, F. right. now left.
Qed.

Ltac go_parts s := split; [|split; [split; [apply GormText.names_check;
    [left; vm_compute; reflexivity|intros ? I; now apply filter_In in I as [I _]|vm_compute; reflexivity]|split; [apply StringLemmas.contains_char_false; reflexivity|]]|]];
  [|intros t n cols [<-|[]]; apply go_unfit; cbn; intuition discriminate
   |eexists _, (hd (GormSpec.mkDecl "" [] [] "") (go_decls s)), (bx_stmts s);
    split; [vm_compute; reflexivity|]; repeat (split; [vm_compute; reflexivity|]); vm_compute; reflexivity].

Lemma go_case : go_pair (bx_schema (bx_member true)) (bx_sql (bx_schema (bx_member true)))
  (mkMapping "member" [mkMapped "user_id" true true true; mkMapped "group_id" false true false; mkMapped "code" false false false]
     [(Some "member_uq", ["group_id"; "code"]); (Some "member_uq", ["group_id"; "code"])]).
Proof. go_parts (bx_schema (bx_member true)). apply bx_member_proper. Qed.

Lemma go_null : exists s b g, go_pair s b g /\ map (fun q => (q_name q, q_notnull q)) (q_cols b) = [("no", true); ("note", false)] /\
  map (fun m => (mp_column m, mp_required m)) (mg_columns g) = [("no", false); ("note", false)] /\ ~ fits b g.
Proof.
  set (s := bx_schema bx_loose). exists s, (bx_sql s), (go_mapping s).
  split; [go_parts s; apply bx_loose_proper|]. split; [vm_compute; reflexivity|]. split; [vm_compute; reflexivity|].
  intros [_ C _ _]. vm_compute in C. inversion C as [|q m qs ms X _]. destruct X as [_ _ X _]. discriminate X.
Qed.
