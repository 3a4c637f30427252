(** Columns whose generated type does not have room for a value *)
From Coq Require Import String Ascii List NArith ZArith Bool Lia.
From Verif.Model Require Import GoString Octopus Common Mysql Liquibase.
From Verif.Model Require Gorm Graphql Protobuf Sqlalchemy.
From Verif.Spec Require Import Text Reading OctopusSpec ValuesSpec ValuesFilesSpec.
From Verif.Spec Require DiffSpec GormSpec GraphqlSpec ProtobufSpec SqlalchemySpec MysqlGrammar MysqlSpec ServerSpec Database FlywaySpec.
From Verif.Proofs Require Import ValuesProofs ValuesFiles.
From Verif.Proofs Require GormText GraphqlProofs ProtobufProofs SqlalchemyMain ServerCases MysqlWitnesses LiquibaseWitnesses.
Import ListNotations.
Local Open Scope string_scope.

Definition vx_col (n ty : string) (size scale : N) (nn pk : bool) (l : list string) : column :=
  mkCol n ty "" size scale nn pk false false "" "" l None.
Definition vx_id := vx_col "id" "int64" 0 0 true true [].
Definition vx_big := vx_col "big" "int64" 0 0 true false [].
Definition vx_price := vx_col "price" "decimal" 10 2 true false [].
Definition vx_kind := vx_col "kind" "enum" 0 0 false false ["a"; "b"].
Definition vx_flags := vx_col "flags" "bit" 16 0 true false [].
Definition vx_hash := vx_col "hash" "binary" 16 0 true false [].
Definition vx_data := vx_col "data" "blob24" 0 0 true false [].
Definition vx_rate := vx_col "rate" "double" 0 0 true false [].
Definition vx_day := vx_col "day" "date" 0 0 true false [].
Definition vx_small := vx_col "small" "int24" 0 0 true false [].
Definition vx (cs : list column) : schema := mkSchema "" "" "" [mkTable "item" (vx_id :: cs) "" "" "" []].

Definition vx_go := vx [vx_kind; vx_flags].
Definition vx_same (s : string) : string := s.
Lemma vx_go_ok : GormSpec.go_names_ok vx_same (get_prefix (mkPM "" [] false)) [] "_uq" (s_tables vx_go) (filter (passes None) (s_tables vx_go)).
Proof.
  apply GormText.names_check; [left; vm_compute; reflexivity|intros t I; now apply filter_In in I as [I _]|vm_compute; reflexivity].
Qed.
Lemma gorm_no_room : exists s f d,
  GormSpec.go_names_ok vx_same (get_prefix (mkPM "" [] false)) [] "_uq" (s_tables s) (filter (passes None) (s_tables s)) /\
  GormSpec.read_go (fst (Gorm.gorm_generate vx_same vx_same (fun _ l => l) (fun _ l => l) Gorm.default_models (GormText.user_opt "") s)) = Some f /\
  GormSpec.gf_decls f = [d] /\ GormSpec.gd_embedded d = [] /\
  (exists t c ty tags v, In t (s_tables s) /\ In c (t_cols t) /\ c_name c = "kind" /\ In ("kind", ty, tags) (GormSpec.gd_fields d) /\
     v = VNull /\ has_value c v /\ ~ go_holds ty v) /\
  (exists t c ty tags v, In t (s_tables s) /\ In c (t_cols t) /\ c_name c = "flags" /\ In ("flags", ty, tags) (GormSpec.gd_fields d) /\
     v = VBits 256 /\ has_value c v /\ ~ go_holds ty v).
Proof.
  exists vx_go. do 2 eexists. split; [exact vx_go_ok|]. split; [vm_compute; reflexivity|]. split; [reflexivity|]. split; [reflexivity|]. split.
  - do 5 eexists. split; [left; reflexivity|]. split; [right; left; reflexivity|]. split; [reflexivity|].
    split; [right; left; reflexivity|]. split; [reflexivity|]. split; [left; repeat split|]. cbn. tauto.
  - do 5 eexists. split; [left; reflexivity|]. split; [right; right; left; reflexivity|]. split; [reflexivity|].
    split; [right; right; left; reflexivity|]. split; [reflexivity|]. split; [right; reflexivity|]. cbn. discriminate.
Qed.

Lemma cent : ~ decimal_doubles (VDecimal 1 2).
Proof.
  intros [m [e [_ E]]]. cbn [Z.of_N] in E. change (10 ^ 2)%Z with (5 * 20)%Z in E.
  apply (pow2_mod5 (Z.max (- e) 0)); [lia|]. rewrite ?Z.mul_1_l in E. rewrite <- E.
  replace (m * 2 ^ Z.max e 0 * (5 * 20))%Z with (m * 2 ^ Z.max e 0 * 20 * 5)%Z by ring. apply Z.mod_mul. discriminate.
Qed.
Definition vx_gql := vx [vx_big; vx_price].
Lemma vx_gql_ok : GraphqlSpec.gql_names_ok vx_same vx_same (fun x => x ++ "s") (get_prefix (mkPM "" [] false)) []
  (filter (passes None) (s_tables vx_gql)).
Proof.
  intros t I. cbn in I. destruct I as [<-|[]].
  (split; [apply GraphqlProofs.wordy_ok; reflexivity|]; split; [apply GraphqlProofs.wordy_ok; reflexivity|]).
  intros c J; cbn in J; repeat (destruct J as [<-|J]; [split; [apply GraphqlProofs.wordy_ok; reflexivity|vm_compute; tauto]|]); destruct J.
Qed.
Lemma graphql_no_room : exists s query n fs,
  GraphqlSpec.gql_names_ok vx_same vx_same (fun x => x ++ "s") (get_prefix (mkPM "" [] false)) [] (filter (passes None) (s_tables s)) /\
  GraphqlSpec.read_graphql (Graphql.gql_text vx_same vx_same (fun x => x ++ "s") None [] (mkPM "" [] false) s) =
    Some [GraphqlSpec.GSchema [("query", GraphqlSpec.GName "Query")]; GraphqlSpec.GType "Query" query; GraphqlSpec.GType n fs] /\
  (exists t c ty v, In t (s_tables s) /\ In c (t_cols t) /\ c_name c = "big" /\ In ("big", ty) fs /\
     v = VInt 2147483648 /\ has_value c v /\ ~ gql_holds ty v) /\
  (exists t c ty v, In t (s_tables s) /\ In c (t_cols t) /\ c_name c = "price" /\ In ("price", ty) fs /\
     v = VDecimal 1 2 /\ has_value c v /\ ~ gql_holds ty v).
Proof.
  exists vx_gql. do 3 eexists. split; [exact vx_gql_ok|]. split; [vm_compute; reflexivity|]. split.
  - do 4 eexists. split; [left; reflexivity|]. split; [right; left; reflexivity|]. split; [reflexivity|].
    split; [right; left; reflexivity|]. split; [reflexivity|]. split; [right; cbn; lia|]. cbn. lia.
  - do 4 eexists. split; [left; reflexivity|]. split; [right; right; left; reflexivity|]. split; [reflexivity|].
    split; [right; right; left; reflexivity|]. split; [reflexivity|].
    split; [right; split; [discriminate|reflexivity]|]. intros [[]|H]. exact (cent H).
Qed.

Definition vx_pb := vx [vx_price; vx_day].
Lemma vx_pb_ok : ProtobufSpec.pb_names_ok vx_same vx_same (get_prefix (mkPM "" [] false)) [] (s_tables vx_pb) (filter (passes None) (s_tables vx_pb)).
Proof.
  intros t I. cbn in I. destruct I as [<-|[]].
  split; [apply GraphqlProofs.wordy_ok; reflexivity|]. split; [|intros r u []].
  intros c J. cbn in J. repeat (destruct J as [<-|J]; [split; [apply GraphqlProofs.wordy_ok; reflexivity|vm_compute; tauto]|]). destruct J.
Qed.
Lemma proto_no_room : exists s text l n fs,
  ProtobufSpec.pb_names_ok vx_same vx_same (get_prefix (mkPM "" [] false)) [] (s_tables s) (filter (passes None) (s_tables s)) /\
  Protobuf.pb_generate vx_same vx_same (ProtobufProofs.pb_opt (-1) false None) s = Ok text /\
  ProtobufSpec.read_proto text = Some l /\ In (ProtobufSpec.PMessage n fs) l /\
  (exists t c x v, In t (s_tables s) /\ In c (t_cols t) /\ c_name c = "price" /\ In x fs /\ ProtobufSpec.rf_name x = "price" /\
     v = VDecimal 1 2 /\ has_value c v /\ ~ proto_holds (ProtobufSpec.rf_type x) v) /\
  (exists t c x v, In t (s_tables s) /\ In c (t_cols t) /\ c_name c = "day" /\ In x fs /\ ProtobufSpec.rf_name x = "day" /\
     v = VDate 2020 1 31 /\ has_value c v /\ ~ proto_holds (ProtobufSpec.rf_type x) v).
Proof.
  exists vx_pb. do 4 eexists. split; [exact vx_pb_ok|]. split; [vm_compute; reflexivity|]. split; [vm_compute; reflexivity|].
  split; [do 3 right; left; reflexivity|]. split.
  - do 4 eexists. split; [left; reflexivity|]. split; [right; left; reflexivity|]. split; [reflexivity|].
    split; [right; left; reflexivity|]. split; [reflexivity|]. split; [reflexivity|].
    split; [right; split; [discriminate|reflexivity]|]. intros [[]|H]. exact (cent H).
  - do 4 eexists. split; [left; reflexivity|]. split; [right; right; left; reflexivity|]. split; [reflexivity|].
    split; [right; right; left; reflexivity|]. split; [reflexivity|]. split; [reflexivity|]. split; [right; exact I|]. cbn. tauto.
Qed.

Definition vx_sa := vx [vx_rate; vx_data].
Lemma vx_sa_ok : SqlalchemySpec.py_names_ok vx_same vx_same (get_prefix (mkPM "" [] false)) [] "_uq" (filter (passes None) (s_tables vx_sa)).
Proof. apply SqlalchemyMain.sa_checked; vm_compute; reflexivity. Qed.
Lemma sa_no_room : exists s text f n base body,
  SqlalchemySpec.py_names_ok vx_same vx_same (get_prefix (mkPM "" [] false)) [] "_uq" (filter (passes None) (s_tables s)) /\
  Sqlalchemy.sa_generate vx_same vx_same (SqlalchemyMain.sa_plain false) s "m.py" = [("m.py", text)] /\
  SqlalchemySpec.read_python text = Some f /\ In (SqlalchemySpec.PClass n base body) f /\
  (exists t c ty kws v, In t (s_tables s) /\ In c (t_cols t) /\ c_name c = "rate" /\
     In (SqlalchemySpec.MAssign "rate" (SqlalchemySpec.ECall "Column" (("", ty) :: kws))) body /\
     v = VFloat 33554433 0 /\ has_value c v /\ ~ sa_column_holds false (top 16) ty kws v) /\
  (exists t c ty kws v, In t (s_tables s) /\ In c (t_cols t) /\ c_name c = "data" /\
     In (SqlalchemySpec.MAssign "data" (SqlalchemySpec.ECall "Column" (("", ty) :: kws))) body /\
     v = VBytes 65536 /\ has_value c v /\ ~ sa_column_holds false (top 16) ty kws v).
Proof.
  exists vx_sa. do 5 eexists. split; [exact vx_sa_ok|]. split; [vm_compute; reflexivity|]. split; [vm_compute; reflexivity|].
  split; [do 4 right; left; reflexivity|]. split.
  - do 5 eexists. split; [left; reflexivity|]. split; [right; left; reflexivity|]. split; [reflexivity|].
    split; [do 2 right; left; reflexivity|]. split; [reflexivity|]. split.
    + right. split; [split; [reflexivity|lia]|left; reflexivity].
    + intros [[E _]|[E _]]; discriminate E.
  - do 5 eexists. split; [left; reflexivity|]. split; [right; right; left; reflexivity|]. split; [reflexivity|].
    split; [do 3 right; left; reflexivity|]. split; [reflexivity|]. split.
    + right. vm_compute. discriminate.
    + intros [[E _]|E]; [discriminate E|]. apply E. reflexivity.
Qed.

Definition vx_my := vx [vx_hash].
Ltac vx_column := MysqlWitnesses.plain_column_tac; [exists []; now constructor|exists []; now constructor].
Lemma vx_my_plain : Forall (MysqlSpec.plain_table ServerCases.sx_reserved "_uq") (s_tables vx_my).
Proof.
  apply Forall_cons; [|apply Forall_nil].
  constructor; [MysqlWitnesses.plain_ident_tac|MysqlWitnesses.no_char|split; [discriminate|]|repeat constructor].
  apply Forall_cons; [vx_column|]. apply Forall_cons; [vx_column|]. apply Forall_nil.
Qed.
Lemma mysql_no_room : exists s stmts b t c q v,
  ServerSpec.proper ServerCases.sx_reserved "_uq" (s_tables s) /\
  MysqlGrammar.read_sql ServerCases.sx_reserved (my_export None "_uq" s) = Some stmts /\
  ServerSpec.run_stmts [] (map FlywaySpec.MCreate stmts) = Some [b] /\
  In t (s_tables s) /\ In c (t_cols t) /\ c_name c = "hash" /\ In q (ServerSpec.q_cols b) /\ ServerSpec.q_name q = "hash" /\
  v = VBytes 16 /\ has_value c v /\ ~ my_column_holds q v.
Proof.
  exists vx_my. do 6 eexists. split; [apply ServerCases.proper_of; [exact vx_my_plain|reflexivity]|].
  split; [vm_compute; reflexivity|]. split; [vm_compute; reflexivity|]. split; [left; reflexivity|]. split; [right; left; reflexivity|].
  split; [reflexivity|]. split; [right; left; reflexivity|]. split; [reflexivity|]. split; [reflexivity|]. split.
  - right. vm_compute. discriminate.
  - intros [[E _]|E]; [discriminate E|]. apply E. reflexivity.
Qed.

Definition vx_lq := vx [vx_small; vx_data].
Lemma vx_lq_ok : NoDup (map t_name (s_tables vx_lq)) /\ (forall t, In t (s_tables vx_lq) -> Database.well_formed t) /\
  (forall t c, In t (s_tables vx_lq) -> In c (t_cols t) -> In (c_type c) octopus_types /\ sizes_ok c).
Proof.
  split; [LiquibaseWitnesses.nodup|]. split.
  - intros t [<-|[]]. LiquibaseWitnesses.wf.
  - intros t c [<-|[]] J. cbn in J. repeat (destruct J as [<-|J]; [split; [vm_compute; tauto|repeat split]|]). destruct J.
Qed.
Lemma lq_no_room : exists s css b t c d v,
  NoDup (map t_name (s_tables s)) /\ (forall t, In t (s_tables s) -> Database.well_formed t) /\
  (forall t c, In t (s_tables s) -> In c (t_cols t) -> In (c_type c) octopus_types /\ sizes_ok c) /\
  lq_generate (fun _ => false) LiquibaseWitnesses.lx_o s = Some css /\ Database.run_log LiquibaseWitnesses.lx_sv css [] = Some [b] /\
  In t (s_tables s) /\ In c (t_cols t) /\ c_name c = "data" /\ In d (Database.b_cols b) /\ Database.d_name d = "data" /\
  v = VBytes 65536 /\ has_value c v /\ ~ lq_column_holds "blob" d v.
Proof.
  exists vx_lq. do 6 eexists. split; [exact (proj1 vx_lq_ok)|]. split; [exact (proj1 (proj2 vx_lq_ok))|].
  split; [exact (proj2 (proj2 vx_lq_ok))|]. split; [vm_compute; reflexivity|]. split; [vm_compute; reflexivity|].
  split; [left; reflexivity|]. split; [do 2 right; left; reflexivity|]. split; [reflexivity|]. split; [do 2 right; left; reflexivity|].
  split; [reflexivity|]. split; [reflexivity|]. split.
  - right. vm_compute. discriminate.
  - intros [[E _]|[ft [E F]]]; [discriminate E|]. vm_compute in E. injection E as <-. apply F. reflexivity.
Qed.
