(** The SQLAlchemy generator (C46, C67 to C70) *)
From Coq Require Import String List NArith Bool Arith.
From Verif.Model Require Import GoString Util Octopus Common Sqlalchemy.
From Verif.Spec Require Import Text Reading OctopusSpec GraphqlSpec.
From Verif.Proofs Require Import SqlalchemyMain.
From Verif.Spec Require Import SqlalchemySpec.
Import ListNotations.
Local Open Scope string_scope.

(** C46. A single file: every name is known where it is used. *)
Theorem C46_single_partial : forall camel snake o s output, python_path output ->
  py_names_ok camel snake (get_prefix (so_prefix o)) (so_remove o) (so_suffix o) (filter (passes (so_filter o)) (s_tables s)) ->
  exists text f, sa_generate camel snake o s output = [(output, text)] /\ read_python text = Some f /\ names_known f.
Proof.
  exact (fun camel snake o s output P N => match single_main camel snake o s output P N with
    ex_intro _ text (ex_intro _ f (conj A (conj B (conj C _)))) => ex_intro _ text (ex_intro _ f (conj A (conj B C))) end).
Qed.
Print Assumptions C46_single_partial.

(** One file per table: "Column" is not imported by any file but the first. *)
Theorem C46_column_refuted : forall camel snake o s output, ~ python_path output ->
  py_names_ok camel snake (get_prefix (so_prefix o)) (so_remove o) (so_suffix o) (filter (passes (so_filter o)) (s_tables s)) ->
  (forall t, In t (filter (passes (so_filter o)) (s_tables s)) -> t_cols t <> []) ->
  forall first rest file, sa_generate camel snake o s output = first :: rest -> In file rest ->
  exists f, read_python (snd file) = Some f /\ ~ names_known f.
Proof. exact later_main. Qed.
Print Assumptions C46_column_refuted.

(** The UTC type is not defined in the files of the tables, not even in the first. *)
Theorem C46_tz_refuted : exists camel snake o s output path text f, ~ python_path output /\
  py_names_ok camel snake (get_prefix (so_prefix o)) (so_remove o) (so_suffix o) (filter (passes (so_filter o)) (s_tables s)) /\
  sa_generate camel snake o s output = [(path, text)] /\ read_python text = Some f /\ ~ names_known f.
Proof. exact tz_refuted. Qed.
Print Assumptions C46_tz_refuted.

(** Nothing else is missing in the files of the tables... *)
Theorem C46_separate_partial : forall camel snake o s output, ~ python_path output ->
  py_names_ok camel snake (get_prefix (so_prefix o)) (so_remove o) (so_suffix o) (filter (passes (so_filter o)) (s_tables s)) ->
  (forall t, In t (filter (passes (so_filter o)) (s_tables s)) -> t_cols t <> []) ->
  Forall2 (fun t file => fst file = output ++ "/" ++ t_name t ++ ".py" /\ exists f, read_python (snd file) = Some f /\
      names_known_but ("Column" :: (if so_utc o then ["TZDateTime"] else [])) f /\
      file_described camel snake (get_prefix (so_prefix o)) (so_remove o) (so_suffix o) (so_utc o) [t] f)
    (filter (passes (so_filter o)) (s_tables s)) (sa_generate camel snake o s output).
Proof. exact separate_main. Qed.
Print Assumptions C46_separate_partial.

(** ... and the first of them has "Column" too. *)
Theorem C46_first_partial : forall camel snake o s output, ~ python_path output ->
  py_names_ok camel snake (get_prefix (so_prefix o)) (so_remove o) (so_suffix o) (filter (passes (so_filter o)) (s_tables s)) ->
  (forall t, In t (filter (passes (so_filter o)) (s_tables s)) -> t_cols t <> []) ->
  forall file rest, sa_generate camel snake o s output = file :: rest ->
  exists f, read_python (snd file) = Some f /\ names_known_but (if so_utc o then ["TZDateTime"] else []) f.
Proof. exact first_main. Qed.
Print Assumptions C46_first_partial.

Example C46_case : (forall t, In t (s_tables sa_user) -> t_cols t <> []) /\
  map fst (sa_generate py_camel py_snake (sa_plain true) sa_user "model") = ["model/group.py"; "model/user.py"] /\
  map (fun file => firstn 1 (lines (snd file))) (sa_generate py_camel py_snake (sa_plain false) sa_user "model") =
    [["from sqlalchemy import BigInteger, Column, String"]; ["from datetime import datetime"]].
Proof. split; [exact sa_user_cols|]. vm_compute. split; reflexivity. Qed.

(** C67. The single file describes the selected tables. *)
Theorem C67_single : forall camel snake o s output, python_path output ->
  py_names_ok camel snake (get_prefix (so_prefix o)) (so_remove o) (so_suffix o) (filter (passes (so_filter o)) (s_tables s)) ->
  exists text f, sa_generate camel snake o s output = [(output, text)] /\ read_python text = Some f /\ names_known f /\
    file_described camel snake (get_prefix (so_prefix o)) (so_remove o) (so_suffix o) (so_utc o) (filter (passes (so_filter o)) (s_tables s)) f.
Proof. exact single_main. Qed.
Print Assumptions C67_single.

(** The files of the tables describe one table each. *)
Theorem C67_separate : forall camel snake o s output, ~ python_path output ->
  py_names_ok camel snake (get_prefix (so_prefix o)) (so_remove o) (so_suffix o) (filter (passes (so_filter o)) (s_tables s)) ->
  (forall t, In t (filter (passes (so_filter o)) (s_tables s)) -> t_cols t <> []) ->
  Forall2 (fun t file => fst file = output ++ "/" ++ t_name t ++ ".py" /\ exists f, read_python (snd file) = Some f /\
      file_described camel snake (get_prefix (so_prefix o)) (so_remove o) (so_suffix o) (so_utc o) [t] f)
    (filter (passes (so_filter o)) (s_tables s)) (sa_generate camel snake o s output).
Proof. exact separate_described. Qed.
Print Assumptions C67_separate.

Example C67_case :
  py_names_ok py_camel py_snake (get_prefix (so_prefix (sa_plain true))) (so_remove (sa_plain true)) (so_suffix (sa_plain true))
    (filter (passes (so_filter (sa_plain true))) (s_tables sa_user)) /\
  sa_generate py_camel py_snake (sa_plain true) sa_user "out/user.py" = [("out/user.py",
"from datetime import datetime
from datetime import timezone

from sqlalchemy import BigInteger, Column, Date, DateTime, Numeric, String, TypeDecorator, UniqueConstraint
from sqlalchemy.ext.declarative import declarative_base
from sqlalchemy_repr import RepresentableBase

Base = declarative_base(cls=RepresentableBase)


class TZDateTime(TypeDecorator):
    impl = DateTime

    def process_bind_param(self, value, dialect):
        if value is not None:
            if not value.tzinfo:
                raise TypeError(""tzinfo is required"")
            value = value.astimezone(timezone.utc).replace(tzinfo=None)
        return value

    def process_result_value(self, value, dialect):
        if value is not None:
            value = value.replace(tzinfo=timezone.utc)
        return value


class UserGroup(Base):
    __tablename__ = 'group'

    id = Column(BigInteger, primary_key=True, autoincrement=True)
    name = Column(String(40), unique=True, nullable=False)


class User(Base):
    __tablename__ = 'user'
    UniqueConstraint('name', 'email', name='user_uq')

    id = Column(BigInteger, primary_key=True, autoincrement=True)
    name = Column(String(40), unique=True, nullable=False)
    email = Column('eMail', String(80), unique=True, nullable=False)
    from_ = Column('from', Date)
    score = Column(Numeric(precision=8, scale=2))
    seen_at = Column(TZDateTime)
    created_at = Column(DateTime, default=datetime.utcnow, nullable=False)
    updated_at = Column(DateTime, default=datetime.utcnow, onupdate=datetime.utcnow)
")].
Proof. split; [exact (sa_user_ok true)|]. vm_compute. reflexivity. Qed.

(** C68. False as stated: a JSON column gives an empty argument... *)
Theorem C68_type_refuted : exists camel snake o s output text,
  (forall t c, In t (s_tables s) -> In c (t_cols t) -> In (c_type c) octopus_types) /\
  (forall t, In t (s_tables s) -> word (t_name t) /\ word (type_named camel (get_prefix (so_prefix o)) (so_remove o) t) /\
     forall c, In c (t_cols t) -> word (c_name c) /\ word (snake (to_lower (c_name c)))) /\
  sa_generate camel snake o s output = [(output, text)] /\ read_python text = None.
Proof. exact types_refuted. Qed.
Print Assumptions C68_type_refuted.

(** ... and the scale of a floating point column an argument that "Float" does not have. *)
Theorem C68_scale_refuted : exists camel snake o s output text f,
  py_names_ok camel snake (get_prefix (so_prefix o)) (so_remove o) (so_suffix o) (filter (passes (so_filter o)) (s_tables s)) /\
  sa_generate camel snake o s output = [(output, text)] /\ read_python text = Some f /\ ~ type_calls_valid f.
Proof. exact scale_refuted. Qed.
Print Assumptions C68_scale_refuted.

(** True if every column has a type with a counterpart and no floating point column has a scale. *)
Theorem C68_partial : forall camel snake o s output path text f,
  py_names_ok camel snake (get_prefix (so_prefix o)) (so_remove o) (so_suffix o) (filter (passes (so_filter o)) (s_tables s)) ->
  (forall t, In t (filter (passes (so_filter o)) (s_tables s)) -> t_cols t <> []) ->
  (forall t c, In t (filter (passes (so_filter o)) (s_tables s)) -> In c (t_cols t) -> In (c_type c) ["float"; "double"] -> c_scale c = 0%N) ->
  In (path, text) (sa_generate camel snake o s output) -> read_python text = Some f -> type_calls_valid f.
Proof. exact types_main. Qed.
Print Assumptions C68_partial.

Example C68_case : forall t c, In t (s_tables sa_user) -> In c (t_cols t) ->
  (In (c_type c) ["float"; "double"] -> c_scale c = 0%N) /\ has_sa_type c.
Proof.
  intros t c T C. split.
  - destruct T as [<-|[<-|[]]]; cbn in C;
      repeat (destruct C as [<-|C]; [cbn; intros F; repeat (destruct F as [F|F]; [discriminate|]); destruct F|]); destruct C.
  - destruct (sa_user_ok true) as [_ H]. apply (H t); [|exact C]. apply filter_In. now split.
Qed.

(** C69. False as stated: "async" and "await" are keywords since Python 3.7. *)
Theorem C69_refuted : exists snake c, In (sf_name (new_sa_field snake c)) python_keywords.
Proof. exact keyword_refuted. Qed.
Print Assumptions C69_refuted.

Theorem C69_partial : forall snake c, ~ In (snake (to_lower (c_name c))) ["async"; "await"] ->
  ~ In (sf_name (new_sa_field snake c)) python_keywords.
Proof. exact keyword_main. Qed.
Print Assumptions C69_partial.

Example C69_case : map (fun n => sf_name (new_sa_field id_string (mkCol n "boolean" "" 0 0 false false false false "" "" [] None)))
  ["from"; "None"; "FROM"; "id"] = ["from_"; "none"; "from_"; "id"].
Proof. vm_compute. reflexivity. Qed.

(** C70. False as stated: the constraint lists attributes, and an attribute may be called other than its column. *)
Theorem C70_refuted : exists camel snake o s output text f xs,
  py_names_ok camel snake (get_prefix (so_prefix o)) (so_remove o) (so_suffix o) (filter (passes (so_filter o)) (s_tables s)) /\
  sa_generate camel snake o s output = [(output, text)] /\ read_python text = Some f /\ constraint_columns f xs /\
  forall t, In t (s_tables s) -> exists x, In x xs /\ ~ In x (map c_name (t_cols t)).
Proof. exact constraint_refuted. Qed.
Print Assumptions C70_refuted.

(** True for columns in lower snake case that are not keywords. *)
Theorem C70_partial : forall camel snake o s output path text f xs,
  py_names_ok camel snake (get_prefix (so_prefix o)) (so_remove o) (so_suffix o) (filter (passes (so_filter o)) (s_tables s)) ->
  (forall t, In t (filter (passes (so_filter o)) (s_tables s)) -> t_cols t <> []) ->
  (forall t c, In t (filter (passes (so_filter o)) (s_tables s)) -> In c (t_cols t) ->
     snake (to_lower (c_name c)) = c_name c /\ ~ In (c_name c) python_keywords) ->
  In (path, text) (sa_generate camel snake o s output) -> read_python text = Some f -> constraint_columns f xs ->
  exists t, In t (filter (passes (so_filter o)) (s_tables s)) /\ length (filter c_uq (t_cols t)) > 1 /\ xs = map c_name (filter c_uq (t_cols t)).
Proof. exact constraint_main. Qed.
Print Assumptions C70_partial.

Example C70_case : exists text f, sa_generate py_camel py_snake (sa_plain false)
    (one_table [mkCol "first" "varchar" "" 10 0 false false true false "" "" [] None;
                mkCol "last" "varchar" "" 10 0 false false true false "" "" [] None]) "model.py" = [("model.py", text)] /\
  read_python text = Some f /\ constraint_columns f ["first"; "last"].
Proof.
  eexists _, _. split; [vm_compute; reflexivity|]. split; [vm_compute; reflexivity|].
  exists "User", "Base". eexists _, _. split; [do 4 right; left; reflexivity|]. right. left. reflexivity.
Qed.
