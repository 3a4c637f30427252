(** Names in generated files: cases (C95, C96) *)
From Coq Require Import String Ascii List NArith ZArith Bool Lia.
From Verif.Model Require Import GoString Util Octopus Common Strcase Gorm Graphql Protobuf.
From Verif.Model Require Sqlalchemy Jpa.
From Verif.Spec Require Import Text Reading OctopusSpec CommonSpec DiffSpec GraphqlSpec ProtobufSpec GormSpec NamesSpec.
From Verif.Spec Require SqlalchemySpec KotlinSpec.
From Verif.Proofs Require Import StringLemmas ListLemmas ReadingProofs NamesProofs StrcaseProofs.
From Verif.Proofs Require GraphqlProofs ProtobufProofs GormProofs GormText SqlalchemyMain KotlinProofs JpaFile JpaMain JpaCases.
Import ListNotations.
Local Open Scope string_scope.

(** ** Checks *)
Fixpoint distinctb (l : list string) : bool :=
  match l with [] => true | x :: l' => negb (str_in x l') && distinctb l' end.
Lemma distinct_iff : forall l, distinctb l = true <-> NoDup l.
Proof.
  induction l as [|x l IH]; cbn [distinctb]; [split; [constructor|reflexivity]|]. rewrite andb_true_iff, negb_true_iff, IH. split.
  - intros (A & B). constructor; [|exact B]. intros I. apply str_in_iff in I. congruence.
  - intros N. inversion N as [|? ? NI ND]; subst. split; [|exact ND]. destruct (str_in x l) eqn:E; [|reflexivity]. apply str_in_iff in E. contradiction.
Qed.
Lemma distinct_ok : forall l, distinctb l = true -> NoDup l.
Proof. intros l. apply distinct_iff. Qed.
Lemma distinct_not : forall l, distinctb l = false -> ~ NoDup l.
Proof. intros l H N. apply distinct_iff in N. congruence. Qed.

Definition pb_clash (text : string) : bool :=
  match read_proto text with
  | Some l => existsb (fun x => match x with ProtobufSpec.PMessage _ fs => negb (distinctb (map rf_name fs)) | _ => false end) l
  | None => false
  end.
Lemma pb_clashes : forall text, pb_clash text = true -> exists l, read_proto text = Some l /\ ~ pb_members_distinct l.
Proof.
  intros text H. unfold pb_clash in H. destruct (read_proto text) as [l|]; [|discriminate]. exists l. split; [reflexivity|]. intros D.
  apply existsb_exists in H as (x & X & H). destruct x as [| | | |n fs]; try discriminate. apply negb_true_iff in H. exact (distinct_not _ H (D n fs X)).
Qed.
Definition go_clash (text : string) : bool :=
  match read_go text with Some f => existsb (fun d => negb (distinctb (go_member_names d))) (gf_decls f) | None => false end.
Lemma go_clashes : forall text, go_clash text = true -> exists f, read_go text = Some f /\ ~ go_members_distinct f.
Proof.
  intros text H. unfold go_clash in H. destruct (read_go text) as [f|]; [|discriminate]. exists f. split; [reflexivity|]. intros D.
  apply existsb_exists in H as (x & X & H). apply negb_true_iff in H. exact (distinct_not _ H (D x X)).
Qed.
Definition gql_clash (text : string) : bool :=
  match read_graphql text with
  | Some l => existsb (fun x => match x with GType _ fs => negb (distinctb (map fst fs)) | _ => false end) l
  | None => false
  end.
Lemma gql_clashes : forall text, gql_clash text = true -> exists l, read_graphql text = Some l /\ ~ gql_members_distinct l.
Proof.
  intros text H. unfold gql_clash in H. destruct (read_graphql text) as [l|]; [|discriminate]. exists l. split; [reflexivity|]. intros D.
  apply existsb_exists in H as (x & X & H). destruct x as [|n fs]; try discriminate. apply negb_true_iff in H. exact (distinct_not _ H (D n fs X)).
Qed.
Definition py_clash (text : string) : bool :=
  match SqlalchemySpec.read_python text with
  | Some f => existsb (fun x => match x with SqlalchemySpec.PClass _ b body => String.eqb b "Base" && negb (distinctb (flat_map assigned body)) | _ => false end) f
  | None => false
  end.
Lemma py_clashes : forall text, py_clash text = true -> exists f, SqlalchemySpec.read_python text = Some f /\ ~ py_members_distinct f.
Proof.
  intros text H. unfold py_clash in H. destruct (SqlalchemySpec.read_python text) as [l|]; [|discriminate]. exists l. split; [reflexivity|]. intros D.
  apply existsb_exists in H as (x & X & H). destruct x as [| |n b body]; try discriminate. apply andb_true_iff in H as (B & H). apply String.eqb_eq in B. subst b.
  apply negb_true_iff in H. exact (distinct_not _ H (D n body X)).
Qed.
Definition kt_clash (text : string) : bool :=
  match KotlinSpec.read_kotlin text with
  | Some f => existsb (fun x => match x with KotlinSpec.DClass _ _ ps _ => negb (distinctb (map KotlinSpec.kp_name ps)) | _ => false end) (KotlinSpec.ki_decls f)
  | None => false
  end.
Lemma kt_clashes : forall text, kt_clash text = true -> exists f, KotlinSpec.read_kotlin text = Some f /\ ~ kt_members_distinct f.
Proof.
  intros text H. unfold kt_clash in H. destruct (KotlinSpec.read_kotlin text) as [f|]; [|discriminate]. exists f. split; [reflexivity|]. intros D.
  apply existsb_exists in H as (x & X & H). destruct x as [a n ps su|]; try discriminate. apply negb_true_iff in H. exact (distinct_not _ H (D a n ps su X)).
Qed.
Definition py_types_clash (text : string) : bool :=
  match SqlalchemySpec.read_python text with Some f => negb (distinctb (py_bound f)) | None => false end.

(** ** Schemas *)
Definition nm_col (n ty : string) (pk : bool) (r : option reference) : column :=
  mkCol n ty "" (if String.eqb ty "varchar" then 40 else 0) 0 true pk false pk "" "" [] r.
Definition nm_table (n : string) (cols : list column) : table := mkTable n cols "" "" "" [].
Definition nm_schema (ts : list table) : schema := mkSchema "" "" "" ts.
(** one table with a key and the columns *)
Definition nm_one (cols : list string) : schema :=
  nm_schema [nm_table "user" (nm_col "id" "int64" true None :: map (fun n => nm_col n "varchar" false None) cols)].
(** tables with a key only *)
Definition nm_keys (names : list string) : schema :=
  nm_schema (map (fun n => nm_table n [nm_col "id" "int64" true None]) names).
Definition nm_twice : schema := nm_schema [
  nm_table "user" [nm_col "id" "int64" true None];
  nm_table "trip" [nm_col "id" "int64" true None; nm_col "driver_id" "int64" false (Some (mkRef "user" "id" "n:1"));
                   nm_col "rider_id" "int64" false (Some (mkRef "user" "id" "n:1"))]].
Definition nm_good : schema := nm_schema [
  nm_table "user" [nm_col "id" "int64" true None; nm_col "full_name" "varchar" false None; nm_col "address1" "varchar" false None];
  nm_table "user_group" [nm_col "id" "int64" true None; nm_col "owner_id" "int64" false (Some (mkRef "user" "id" "n:1")); nm_col "from" "varchar" false None]].
Definition nm_pb : pb_option := mkPbOpt (mkPM "" [] false) None [] "" "" (-1) false.
Definition nm_go : gorm_opt := mkGormOpt "" None "" false (mkPM "" [] false) [] "_uq".
Definition nm_sa : Sqlalchemy.sa_opt := Sqlalchemy.mkSaOpt (mkPM "" [] false) None [] "_uq" false.
Definition nm_kt : Jpa.kt_opt := Jpa.mkKtOpt (mkAM "" [] true) (mkPM "" [] true) None "" "com.octopus" "" [] "com.repos" "_uq".
Notation plural_s := (fun n : string => append n "s").

Definition names_b (s : schema) : bool :=
  distinctb (map t_name (s_tables s)) && forallb (fun t => distinctb (column_names t)) (s_tables s).
Lemma names_checked : forall s, names_b s = true -> distinct_names s.
Proof.
  intros s H. apply andb_true_iff in H as (A & B). split; [now apply distinct_ok|]. intros t T. rewrite forallb_forall in B. now apply distinct_ok, B.
Qed.

(** ** Clashes *)
Notation go_same := (fun (_ : nat) (l : list (string * list string)) => l).
Theorem member_clashes :
  (exists o s text l, distinct_names s /\ pb_generate strcase_camel strcase_lower_camel o s = Ok text /\ read_proto text = Some l /\ ~ pb_members_distinct l) /\
  (exists o s f, distinct_names s /\ read_go (fst (gorm_generate strcase_camel strcase_snake go_same go_same default_models o s)) = Some f /\ ~ go_members_distinct f) /\
  (exists s l, distinct_names s /\ read_graphql (gql_text strcase_camel strcase_lower_camel plural_s None [] (mkPM "" [] false) s) = Some l /\ ~ gql_members_distinct l) /\
  (exists o s text f, distinct_names s /\ Sqlalchemy.sa_generate strcase_camel strcase_snake o s "model.py" = [("model.py", text)] /\
     SqlalchemySpec.read_python text = Some f /\ ~ py_members_distinct f) /\
  (exists o s path text f, distinct_names s /\ In (path, text) (fst (Jpa.kt_generate strcase_camel strcase_lower_camel strcase_snake (join "/") o s "out")) /\
     KotlinSpec.read_kotlin text = Some f /\ ~ kt_members_distinct f).
Proof.
  split; [|split; [|split; [|split]]].
  - exists nm_pb, (nm_one ["user_name"; "userName"]).
    destruct (pb_generate strcase_camel strcase_lower_camel nm_pb (nm_one ["user_name"; "userName"])) as [text|] eqn:E; [|vm_compute in E; discriminate].
    exists text. destruct (pb_clashes text) as (l & R & D).
    { assert (X : match pb_generate strcase_camel strcase_lower_camel nm_pb (nm_one ["user_name"; "userName"]) with Ok t => pb_clash t | Panic => false end = true) by (vm_compute; reflexivity).
      now rewrite E in X. }
    exists l. split; [apply names_checked; vm_compute; reflexivity|]. split; [reflexivity|]. now split.
  - exists nm_go, (nm_one ["table_name"]).
    destruct (go_clashes (fst (gorm_generate strcase_camel strcase_snake go_same go_same default_models nm_go (nm_one ["table_name"])))) as (f & R & D); [vm_compute; reflexivity|].
    exists f. split; [apply names_checked; vm_compute; reflexivity|]. now split.
  - exists (nm_one ["user_name"; "userName"]).
    destruct (gql_clashes (gql_text strcase_camel strcase_lower_camel plural_s None [] (mkPM "" [] false) (nm_one ["user_name"; "userName"]))) as (l & R & D); [vm_compute; reflexivity|].
    exists l. split; [apply names_checked; vm_compute; reflexivity|]. now split.
  - exists nm_sa, (nm_one ["from"; "from_"]).
    set (text := Sqlalchemy.sa_single strcase_camel strcase_snake nm_sa (nm_one ["from"; "from_"])). exists text.
    destruct (py_clashes text) as (f & R & D); [vm_compute; reflexivity|]. exists f. split; [apply names_checked; vm_compute; reflexivity|].
    split; [reflexivity|]. now split.
  - exists nm_kt, (nm_one ["user_name"; "userName"]).
    set (files := fst (Jpa.kt_generate strcase_camel strcase_lower_camel strcase_snake (join "/") nm_kt (nm_one ["user_name"; "userName"]) "out")).
    assert (X : existsb (fun x => kt_clash (snd x)) files = true) by (vm_compute; reflexivity).
    apply existsb_exists in X as ((path & text) & I & X). destruct (kt_clashes text X) as (f & R & D). exists path, text, f.
    split; [apply names_checked; vm_compute; reflexivity|]. split; [exact I|]. now split.
Qed.

Lemma py_base_clash : forall text f, SqlalchemySpec.read_python text = Some f -> py_types_distinct f ->
  existsb (fun x => match x with SqlalchemySpec.PClass n b _ => String.eqb b "Base" && Nat.ltb 1 (length (filter (String.eqb n) (py_bound f))) | _ => false end) f = false.
Proof.
  intros text f _ D. destruct (existsb _ f) eqn:X; [|reflexivity]. exfalso. apply existsb_exists in X as (x & I & X). destruct x as [| |n b body]; try discriminate.
  apply andb_true_iff in X as (B & X). apply String.eqb_eq in B. subst b. apply in_split in I as (pre & post & E). specialize (D pre n body post E).
  rewrite E in X. unfold py_bound in X. rewrite flat_map_app in X. cbn [flat_map app] in X. rewrite filter_app in X. cbn [filter] in X. rewrite String.eqb_refl in X.
  unfold py_bound in D. rewrite flat_map_app in D.
  assert (Z : forall l : list string, ~ In n l -> filter (String.eqb n) l = []).
  { induction l as [|y l IH]; intros NI; [reflexivity|]. cbn [filter]. destruct (String.eqb_spec n y) as [->|]; [exfalso; apply NI; now left|]. apply IH. intros J. apply NI. now right. }
  rewrite !Z in X; [discriminate| |]; intros J; apply D, in_or_app; auto.
Qed.
Definition py_base_b (text : string) : bool :=
  match SqlalchemySpec.read_python text with
  | Some f => existsb (fun x => match x with SqlalchemySpec.PClass n b _ => String.eqb b "Base" && Nat.ltb 1 (length (filter (String.eqb n) (py_bound f))) | _ => false end) f
  | None => false
  end.
Lemma py_base_not : forall text, py_base_b text = true -> exists f, SqlalchemySpec.read_python text = Some f /\ ~ py_types_distinct f.
Proof.
  intros text H. unfold py_base_b in H. destruct (SqlalchemySpec.read_python text) as [f|] eqn:R; [|discriminate]. exists f. split; [reflexivity|].
  intros D. rewrite (py_base_clash text f R D) in H. discriminate.
Qed.

Theorem type_clashes :
  (exists o s text l, distinct_names s /\ pb_generate strcase_camel strcase_lower_camel o s = Ok text /\ read_proto text = Some l /\ ~ NoDup (pb_messages_named l)) /\
  (exists o s f, distinct_names s /\ read_go (fst (gorm_generate strcase_camel strcase_snake go_same go_same default_models o s)) = Some f /\ ~ NoDup (map gd_name (gf_decls f))) /\
  (exists s l, distinct_names s /\ length (s_tables s) = 1 /\
     read_graphql (gql_text strcase_camel strcase_lower_camel plural_s None [] (mkPM "" [] false) s) = Some l /\ ~ NoDup (gql_types_named l)) /\
  (exists o s text f, distinct_names s /\ length (s_tables s) = 1 /\ Sqlalchemy.sa_generate strcase_camel strcase_snake o s "model.py" = [("model.py", text)] /\
     SqlalchemySpec.read_python text = Some f /\ ~ py_types_distinct f) /\
  (exists o s, distinct_names s /\ ~ NoDup (map fst (fst (Jpa.kt_generate strcase_camel strcase_lower_camel strcase_snake (join "/") o s "out")))).
Proof.
  split; [|split; [|split; [|split]]].
  - exists nm_pb, (nm_keys ["tbl1a"; "tbl1_a"]).
    destruct (pb_generate strcase_camel strcase_lower_camel nm_pb (nm_keys ["tbl1a"; "tbl1_a"])) as [text|] eqn:E; [|vm_compute in E; discriminate].
    exists text.
    assert (X : match pb_generate strcase_camel strcase_lower_camel nm_pb (nm_keys ["tbl1a"; "tbl1_a"]) with
      Ok t => match read_proto t with Some l => negb (distinctb (pb_messages_named l)) | None => false end | Panic => false end = true) by (vm_compute; reflexivity).
    rewrite E in X. destruct (read_proto text) as [l|]; [|discriminate]. apply negb_true_iff in X. exists l.
    split; [apply names_checked; vm_compute; reflexivity|]. split; [reflexivity|]. split; [reflexivity|now apply distinct_not].
  - exists nm_go, (nm_keys ["user_group"; "userGroup"]).
    set (text := fst (gorm_generate strcase_camel strcase_snake go_same go_same default_models nm_go (nm_keys ["user_group"; "userGroup"]))).
    assert (X : match read_go text with Some f => negb (distinctb (map gd_name (gf_decls f))) | None => false end = true) by (vm_compute; reflexivity).
    destruct (read_go text) as [f|]; [|discriminate]. apply negb_true_iff in X. exists f.
    split; [apply names_checked; vm_compute; reflexivity|]. split; [reflexivity|now apply distinct_not].
  - exists (nm_keys ["query"]).
    set (text := gql_text strcase_camel strcase_lower_camel plural_s None [] (mkPM "" [] false) (nm_keys ["query"])).
    assert (X : match read_graphql text with Some f => negb (distinctb (gql_types_named f)) | None => false end = true) by (vm_compute; reflexivity).
    destruct (read_graphql text) as [f|]; [|discriminate]. apply negb_true_iff in X. exists f.
    split; [apply names_checked; vm_compute; reflexivity|]. split; [reflexivity|]. split; [reflexivity|now apply distinct_not].
  - exists nm_sa, (nm_keys ["base"]). set (text := Sqlalchemy.sa_single strcase_camel strcase_snake nm_sa (nm_keys ["base"])). exists text.
    destruct (py_base_not text) as (f & R & D); [vm_compute; reflexivity|]. exists f. split; [apply names_checked; vm_compute; reflexivity|].
    split; [reflexivity|]. split; [reflexivity|]. now split.
  - exists nm_kt, (nm_keys ["user_group"; "userGroup"]). split; [apply names_checked; vm_compute; reflexivity|]. apply distinct_not. vm_compute. reflexivity.
Qed.

(** ** A schema that meets the hypotheses *)
Lemma good_snake : forall t, In t (s_tables nm_good) -> snake_case (t_name t) /\ NoDup (column_names t) /\ Forall snake_case (column_names t).
Proof.
  intros t [<-|[<-|[]]]; (split; [reflexivity|]); (split; [apply distinct_ok; vm_compute; reflexivity|repeat (constructor; [reflexivity|])]; constructor).
Qed.
Lemma good_pb : pb_names_ok strcase_camel strcase_lower_camel (get_prefix (po_prefix nm_pb)) (po_remove nm_pb) (s_tables nm_good) (filter (passes (po_filter nm_pb)) (s_tables nm_good)) /\
  (forall t, In t (s_tables nm_good) -> fits (po_start nm_pb) (length (t_cols t))) /\
  (forall t, In t (filter (passes (po_filter nm_pb)) (s_tables nm_good)) ->
     pb_apart strcase_camel strcase_lower_camel (get_prefix (po_prefix nm_pb)) (po_remove nm_pb) (s_tables nm_good) t).
Proof.
  split; [|split].
  - intros t I. cbn in I. destruct I as [<-|[<-|[]]].
    + split; [apply GraphqlProofs.wordy_ok; reflexivity|]. split; [|intros r u []].
      intros c J. cbn in J. repeat (destruct J as [<-|J]; [split; [apply GraphqlProofs.wordy_ok; reflexivity|vm_compute; tauto]|]). destruct J.
    + split; [apply GraphqlProofs.wordy_ok; reflexivity|]. split.
      * intros c J. cbn in J. repeat (destruct J as [<-|J]; [split; [apply GraphqlProofs.wordy_ok; reflexivity|vm_compute; tauto]|]). destruct J.
      * intros r u J T. apply ProtobufProofs.target_in in T as [T _]. cbn in T.
        destruct T as [<-|[<-|[]]]; split; apply GraphqlProofs.wordy_ok; reflexivity.
  - intros t [<-|[<-|[]]]; vm_compute; repeat split; discriminate.
  - intros t I. assert (I' : In t (s_tables nm_good)) by exact (proj1 (proj1 (filter_In _ _ _) I)). destruct (good_snake t I') as (_ & N & S).
    split; [exact N|]. split; [now apply lower_camel_apart|]. clear N S I. destruct I' as [<-|[<-|[]]].
    + split; [constructor|]. split; [intros r u r' u' []|intros c r u _ []].
    + split; [repeat (constructor; [cbn; intuition discriminate|]); constructor|]. split.
      * intros r u r' u' [<-|[]] [<-|[]] _ _ _. reflexivity.
      * intros c r u C [<-|[]] T. apply ProtobufProofs.target_in in T as [T Q]. cbn in T. destruct T as [<-|[<-|[]]]; [|discriminate Q].
        cbn in C. repeat (destruct C as [<-|C]; [vm_compute; discriminate|]). destruct C.
Qed.

(** the names of a struct *)
Definition go_pairs (camel prefix : string -> string) (unwanted : list string) (ms : list (string * list string)) (ts : list table) (t : table) : list (string * string) :=
  (("method", "TableName") :: map (fun c => (append "column " (c_name c), GormText.plain_name (id_suffix (camel (c_name c))))) (t_cols t)
   ++ flat_map (fun c => match c_ref c with
                         | Some r => flat_map (fun u => if String.eqb (t_name u) (ref_table r) then [(append "reference of " (c_name c), type_named camel prefix unwanted u)] else []) ts
                         | None => [] end) (t_cols t)
   ++ map (fun m => (append "model " (fst m), unqualified (fst m))) ms)%list.
Lemma go_pairs_in : forall camel prefix unwanted ms ts t a n, go_named camel prefix unwanted ms ts t a n -> In (a, n) (go_pairs camel prefix unwanted ms ts t).
Proof.
  intros camel prefix unwanted ms ts t a n H. unfold go_pairs. destruct H as [c n C F|c r u d C (R & T & _)|m cols M _|].
  - right. apply in_or_app. left. apply in_map_iff. exists c. split; [|exact C]. now rewrite (GormText.field_named_fun _ _ _ F).
  - right. apply in_or_app. right. apply in_or_app. left. apply in_flat_map. exists c. split; [exact C|]. rewrite R.
    apply in_flat_map. exists u. apply ProtobufProofs.target_in in T as (T & Q). split; [exact T|]. rewrite Q, String.eqb_refl. now left.
  - right. apply in_or_app. right. apply in_or_app. right. apply in_map_iff. exists (m, cols). now split.
  - now left.
Qed.
Lemma go_checked : forall camel prefix unwanted ms ts t, NoDup (column_names t) ->
  distinctb (map snd (go_pairs camel prefix unwanted ms ts t)) = true -> go_apart camel prefix unwanted ms ts t.
Proof.
  intros camel prefix unwanted ms ts t N D. split; [exact N|]. intros a b n A B. apply go_pairs_in in A. apply go_pairs_in in B.
  apply distinct_ok in D. revert A B D. generalize (go_pairs camel prefix unwanted ms ts t). clear. induction l as [|[x y] l IH]; intros A B D; [destruct A|].
  cbn [map snd] in D. inversion D as [|? ? NI ND]; subst. destruct A as [A|A], B as [B|B].
  - congruence.
  - exfalso. apply NI. injection A as _ ->. change n with (snd (b, n)). now apply in_map.
  - exfalso. apply NI. injection B as _ ->. change n with (snd (a, n)). now apply in_map.
  - now apply IH.
Qed.
Lemma good_go : go_names_ok strcase_camel (get_prefix (go_prefix nm_go)) (go_remove nm_go) (go_suffix nm_go) (s_tables nm_good) (filter (passes (go_filter nm_go)) (s_tables nm_good)) /\
  (forall t, In t (filter (passes (go_filter nm_go)) (s_tables nm_good)) ->
     go_apart strcase_camel (get_prefix (go_prefix nm_go)) (go_remove nm_go) (embed_models default_models (go_embed nm_go)) (s_tables nm_good) t).
Proof.
  split.
  - apply GormText.names_check; [left; vm_compute; reflexivity|intros t I; now apply filter_In in I as [I _]|vm_compute; reflexivity].
  - intros t I. assert (I' : In t (s_tables nm_good)) by exact (proj1 (proj1 (filter_In _ _ _) I)). apply go_checked; [apply good_snake, I'|].
    destruct I' as [<-|[<-|[]]]; vm_compute; reflexivity.
Qed.
Lemma good_gql : gql_names_ok strcase_camel strcase_lower_camel plural_s (get_prefix (mkPM "" [] false)) [] (filter (passes None) (s_tables nm_good)) /\
  NoDup (map (fun t => plural_s (strcase_lower_camel (type_named strcase_camel (get_prefix (mkPM "" [] false)) [] t))) (filter (passes None) (s_tables nm_good))).
Proof.
  split; [|apply distinct_ok; vm_compute; reflexivity]. intros t I. cbn in I.
  destruct I as [<-|[<-|[]]]; (split; [apply GraphqlProofs.wordy_ok; reflexivity|]); (split; [apply GraphqlProofs.wordy_ok; reflexivity|]);
    intros c J; cbn in J; repeat (destruct J as [<-|J]; [split; [apply GraphqlProofs.wordy_ok; reflexivity|vm_compute; tauto]|]); destruct J.
Qed.
Lemma good_py : SqlalchemySpec.py_names_ok strcase_camel strcase_snake (get_prefix (Sqlalchemy.so_prefix nm_sa)) (Sqlalchemy.so_remove nm_sa) (Sqlalchemy.so_suffix nm_sa)
    (filter (passes (Sqlalchemy.so_filter nm_sa)) (s_tables nm_good)) /\
  (forall t, In t (filter (passes (Sqlalchemy.so_filter nm_sa)) (s_tables nm_good)) -> t_cols t <> [] /\ py_apart strcase_snake t) /\
  (forall t, In t (filter (passes (Sqlalchemy.so_filter nm_sa)) (s_tables nm_good)) ->
     ~ In (type_named strcase_camel (get_prefix (Sqlalchemy.so_prefix nm_sa)) (Sqlalchemy.so_remove nm_sa) t) py_taken).
Proof.
  split; [apply SqlalchemyMain.sa_checked; vm_compute; reflexivity|]. split.
  - intros t I. assert (I' : In t (s_tables nm_good)) by exact (proj1 (proj1 (filter_In _ _ _) I)). destruct (good_snake t I') as (_ & N & S).
    split; [destruct I' as [<-|[<-|[]]]; discriminate|now apply snake_py_apart].
  - intros t I. assert (I' : In t (s_tables nm_good)) by exact (proj1 (proj1 (filter_In _ _ _) I)). intros J. apply str_in_iff in J. revert J.
    destruct I' as [<-|[<-|[]]]; vm_compute; discriminate.
Qed.
Lemma good_kt : KotlinSpec.kt_names_ok strcase_camel strcase_lower_camel (get_prefix (Jpa.ko_prefix nm_kt)) (Jpa.ko_remove nm_kt) (Jpa.ko_identity nm_kt) (Jpa.ko_relation nm_kt) (Jpa.ko_suffix nm_kt)
    (filter (passes (Jpa.ko_filter nm_kt)) (s_tables nm_good)) /\
  KotlinSpec.package_ok (Jpa.ko_package nm_kt) /\
  (forall t, In t (filter (passes (Jpa.ko_filter nm_kt)) (s_tables nm_good)) -> KotlinSpec.annotations (get_annotations (Jpa.ko_anno nm_kt) (t_group t)) []) /\
  (Jpa.ko_repos nm_kt = "" \/ KotlinSpec.package_ok (Jpa.ko_repos nm_kt) /\ forall t, In t (filter (passes (Jpa.ko_filter nm_kt)) (s_tables nm_good)) -> KotlinSpec.keys t <> []).
Proof.
  split; [exact (JpaCases.kt_checked strcase_camel strcase_lower_camel nm_kt nm_good eq_refl)|].
  split; [apply JpaCases.package_checked; reflexivity|]. split.
  - intros t [<-|[<-|[]]]; repeat constructor.
  - right. split; [apply JpaCases.package_checked; reflexivity|]. intros t [<-|[<-|[]]]; discriminate.
Qed.

(** joining with "/" *)
Lemma join_inj : forall d a b, word a -> word b -> join "/" [d; a ++ ".kt"] = join "/" [d; b ++ ".kt"] -> a = b.
Proof. intros d a b _ _ E. cbn in E. apply app_inj_l_s in E. cbn in E. injection E as E. now apply app_inj_r_s in E. Qed.
Lemma join_apart : forall a b, word a -> word b ->
  join "/" [join "/" ("out" :: split_on "." (Jpa.ko_package nm_kt)); a ++ ".kt"] <> join "/" [join "/" ("out" :: split_on "." (Jpa.ko_repos nm_kt)); b ++ ".kt"].
Proof. intros a b _ _ E. vm_compute in E. discriminate E. Qed.

Theorem snake_columns : forall t, NoDup (column_names t) -> Forall snake_case (column_names t) ->
  apart strcase_camel (column_names t) /\ apart strcase_lower_camel (column_names t) /\ py_apart strcase_snake t.
Proof. intros t N F. split; [now apply camel_apart|]. split; [now apply lower_camel_apart|now apply snake_py_apart]. Qed.
Theorem snake_tables : forall prefix ts, NoDup (map t_name ts) -> Forall snake_case (map t_name ts) ->
  (forall t, In t ts -> prefix (t_group t) = "" /\ t_class t = "") ->
  NoDup (map (type_named strcase_camel prefix []) ts) /\ NoDup (map (message_named strcase_camel prefix []) ts).
Proof. intros prefix ts N F P. apply plain_types_distinct; [exact N|now apply camel_apart|exact P]. Qed.
