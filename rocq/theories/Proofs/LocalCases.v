(** Cases for C97 and C98 *)
From Coq Require Import String Ascii List NArith ZArith Bool.
From Verif.Model Require Import GoString Util Octopus Common Strcase Mysql Quickdbd Plantuml Dbml Graphql Protobuf Gorm Xlsx.
From Verif.Model Require Sqlalchemy Jpa DiffCore Liquibase.
From Verif.Spec Require Import Text Reading LocalSpec.
From Verif.Proofs Require Import LocalProofs.
Import ListNotations.
Local Open Scope string_scope.

(** ** Deciding [sub] *)
Section Decide.
Context {A : Type} (eqb : A -> A -> bool) (eqb_spec : forall x y, reflect (x = y) (eqb x y)).
Fixpoint subb (l l' : list A) : bool :=
  match l' with
  | [] => match l with [] => true | _ => false end
  | y :: r' => match l with [] => true | x :: r => if eqb x y then subb r r' else subb l r' end
  end.
Lemma sub_tail : forall (x : A) l l', sub (x :: l) l' -> sub l l'.
Proof.
  intros x l l' H. remember (x :: l) as l0 eqn:E. revert x l E. induction H as [|y l0 l' H IH|y l0 l' H IH]; intros x l E; [discriminate| |].
  - injection E as -> ->. now constructor.
  - constructor. now apply (IH x).
Qed.
Lemma subb_spec : forall l' l, subb l l' = true <-> sub l l'.
Proof.
  induction l' as [|y l' IH]; intros l; cbn [subb].
  - destruct l; split; intros H; [constructor|reflexivity|discriminate|inversion H].
  - destruct l as [|x l]; [split; [intros _; apply sub_none|reflexivity]|]. destruct (eqb_spec x y) as [->|N].
    + rewrite IH. split; intros H; [now constructor|]. inversion H; subst; [assumption|]. now apply (sub_tail y).
    + rewrite IH. split; intros H; [now constructor|]. inversion H; subst; [congruence|assumption].
Qed.
Lemma sub_ok : forall l l', subb l l' = true -> sub l l'.
Proof. intros. now apply subb_spec. Qed.
Lemma sub_not : forall l l', subb l l' = false -> ~ sub l l'.
Proof. intros l l' H S. apply subb_spec in S. congruence. Qed.
End Decide.
Definition pair_eqb (x y : string * string) : bool := String.eqb (fst x) (fst y) && String.eqb (snd x) (snd y).
Lemma pair_eqb_spec : forall x y, reflect (x = y) (pair_eqb x y).
Proof.
  intros [a b] [c d]. unfold pair_eqb. cbn [fst snd]. destruct (String.eqb_spec a c), (String.eqb_spec b d); cbn [andb]; constructor; congruence.
Qed.

(** ** Schemas *)
Definition lo_col (n ty : string) (pk : bool) (r : option reference) : column :=
  mkCol n ty "" (if String.eqb ty "varchar" then 40 else 0) 0 true pk false false "" "" [] r.
Definition lo_ref (t c : string) : option reference := Some (mkRef t c "n:1").
Definition lo_user := mkTable "user" [lo_col "id" "int64" true None; lo_col "name" "varchar" false None] "" "common" "" [].
Definition lo_post := mkTable "post" [lo_col "id" "int64" true None; lo_col "author" "int64" false (lo_ref "user" "id")] "" "blog" "" [].
Definition lo_login := mkTable "login" [lo_col "id" "int64" true None; lo_col "at" "datetime" false None; lo_col "who" "int64" false (lo_ref "user" "id")] "" "common" "" [].
Definition lo_comment := mkTable "comment" [lo_col "id" "int64" true None; lo_col "post" "int64" false (lo_ref "post" "id")] "" "blog" "" [].
Definition lo_schema (ts : list table) : schema := mkSchema "jo" "site" "1.0" ts.
Definition lo_old := lo_schema [lo_user; lo_post].
Definition lo_new := lo_schema [lo_login; lo_user; lo_comment; lo_post].
Definition lo_late := lo_schema [lo_user; lo_post; lo_comment].
Definition lo_part := lo_schema [lo_post].

Lemma lo_grown : grown lo_old lo_new /\ same_targets lo_old lo_new.
Proof.
  split.
  - split; [reflexivity|]. split; [reflexivity|]. split; [reflexivity|]. unfold lo_old, lo_new, lo_schema. cbn [s_tables]. repeat constructor.
  - intros t c r I J R. unfold lo_old, lo_new, lo_schema in *. cbn [s_tables] in *.
    destruct I as [<-|[<-|[]]]; destruct J as [<-|[<-|[]]]; try discriminate. injection R as <-. reflexivity.
Qed.
Lemma lo_grown_late : grown lo_old lo_late.
Proof. split; [reflexivity|]. split; [reflexivity|]. split; [reflexivity|]. unfold lo_old, lo_late, lo_schema. cbn [s_tables]. repeat constructor. Qed.
Lemma lo_part_grown : grown lo_part lo_old.
Proof. split; [reflexivity|]. split; [reflexivity|]. split; [reflexivity|]. unfold lo_part, lo_old, lo_schema. cbn [s_tables]. repeat constructor. Qed.

(** ** The findings *)
Definition lo_py : Sqlalchemy.sa_opt := Sqlalchemy.mkSaOpt (mkPM "" [] false) None [] "_uq" false.
Definition lo_lq : Liquibase.lq_option := Liquibase.mkLqOption None "" "_uq" false.
Definition lo_kt : Jpa.kt_opt := Jpa.mkKtOpt (mkAM "" [] true) (mkPM "" [] true) None "" "com.octopus" "VRelation" [] "com.repos" "_uq".

Lemma python_file_changes : exists camel snake o s s', grown s s' /\ same_targets s s' /\
  ~ only_adds (Sqlalchemy.sa_single camel snake o s) (Sqlalchemy.sa_single camel snake o s').
Proof.
  exists strcase_camel, strcase_snake, lo_py, lo_old, lo_new. destruct lo_grown as [G T]. split; [exact G|]. split; [exact T|].
  unfold only_adds. apply (sub_not String.eqb String.eqb_spec). vm_compute. reflexivity.
Qed.
Lemma python_files_change : exists camel snake o s s', grown s s' /\ same_targets s s' /\
  ~ sub (Sqlalchemy.sa_separate camel snake o s) (Sqlalchemy.sa_separate camel snake o s').
Proof.
  exists strcase_camel, strcase_snake, lo_py, lo_old, lo_new. destruct lo_grown as [G T]. split; [exact G|]. split; [exact T|].
  apply (sub_not pair_eqb pair_eqb_spec). vm_compute. reflexivity.
Qed.
Lemma liquibase_changes : exists float o s s' r r', grown s s' /\ same_targets s s' /\
  Liquibase.lq_generate float o s = Some r /\ Liquibase.lq_generate float o s' = Some r' /\ ~ sub r r'.
Proof.
  exists (fun _ => true), lo_lq, lo_old, lo_new.
  destruct (Liquibase.lq_generate (fun _ => true) lo_lq lo_old) as [r|] eqn:R; [|vm_compute in R; discriminate].
  destruct (Liquibase.lq_generate (fun _ => true) lo_lq lo_new) as [r'|] eqn:R'; [|vm_compute in R'; discriminate].
  exists r, r'. destruct lo_grown as [G T]. split; [exact G|]. split; [exact T|]. split; [reflexivity|]. split; [reflexivity|].
  intros S. vm_compute in R, R'. injection R as <-. injection R' as <-.
  match type of S with sub (?x :: _) _ => pose proof (sub_in _ _ x S (or_introl eq_refl)) as I end.
  cbn [In] in I. repeat destruct I as [I|I]; try discriminate. exact I.
Qed.
