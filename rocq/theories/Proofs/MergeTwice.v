(** A text or a boolean that is given twice *)
From Coq Require Import String Ascii List NArith Bool.
From Verif.Model Require Import GoString Octopus Json Cli JsonMerge.
From Verif.Spec Require Import MergeSpec.
From Verif.Proofs Require Import StringLemmas ExtrasProofs.
Import ListNotations.
Local Open Scope string_scope.

Section Twice.
  Variables (A : Type) (m : A -> string -> json -> option A) (f : A -> A) (k k' : string) (v w : json).
  Hypothesis apart : forall a a' x j, f a = f a' -> option_map f (m a x j) = option_map f (m a' x j).
  Hypothesis first : forall a, exists b, m a k v = Some b /\ f b = f a.
  Hypothesis last : forall a a', f a = f a' -> m a k' w = m a' k' w.

  Lemma twice_later : forall l2 l3 a a', f a = f a' -> dec_members m a (l2 ++ (k', w) :: l3) = dec_members m a' (l2 ++ (k', w) :: l3).
  Proof.
    induction l2 as [|[x j] l2 IH]; intros l3 a a' E; cbn [app dec_members].
    - rewrite (last a a' E). reflexivity.
    - specialize (apart a a' x j E). destruct (m a x j) as [b|]; destruct (m a' x j) as [b'|]; cbn [option_map] in apart; try discriminate; [|reflexivity].
      apply IH. congruence.
  Qed.
  Lemma twice_members : forall l1 l2 l3 a, dec_members m a (l1 ++ (k, v) :: l2 ++ (k', w) :: l3) = dec_members m a (l1 ++ l2 ++ (k', w) :: l3).
  Proof.
    induction l1 as [|[x j] l1 IH]; intros l2 l3 a; cbn [app dec_members].
    - destruct (first a) as (b & -> & E). apply twice_later. exact E.
    - destruct (m a x j); [apply IH | reflexivity].
  Qed.
End Twice.

Ltac keys := rewrite !key_eq by reflexivity.

(** *** Schemas *)
Definition no_text_s (n : string) (g : gschema) : gschema :=
  let '(mkSchema a nm v ts) := g_head g in
  mkGSchema (mkSchema (if String.eqb n "author" then "" else a) (if String.eqb n "name" then "" else nm) (if String.eqb n "version" then "" else v) ts) (g_tables g).
Lemma schema_twice : forall l1 l2 l3 k k' v w, In (to_lower k) schema_scalars -> to_lower k' = to_lower k ->
  from_json_merging (JObj [(k, v)]) <> None -> w <> JNull ->
  from_json_merging (twice l1 l2 l3 k k' v w) = from_json_merging (no_first l1 l2 l3 k' w).
Proof.
  intros l1 l2 l3 k k' v w I E R W. unfold from_json_merging, twice, no_first, dec_fields in *. cbn [dec_members] in R.
  apply (twice_members _ gsch_member (no_text_s (to_lower k))).
  - intros [[] ts] [[] ts'] z j H. cbn [schema_scalars In] in I.
    destruct I as [I|[I|[I|[]]]]; rewrite <- I in H |- *; cbn in H; injection H as ? ? ? ?; subst;
      unfold gsch_member, sch_member; cbn [g_head g_tables]; keys;
      repeat match goal with |- context [if ?b then _ else _] => destruct b end;
      try match goal with |- context [dec_slice ?a ?b ?c ?d] => destruct (dec_slice a b c d) end;
      try match goal with |- context [dec_arr ?a ?b] => destruct (dec_arr a b) end;
      try (destruct j); reflexivity.
  - intros [[] ts]. unfold gsch_member, sch_member in *. cbn [g_head g_tables zero_gschema] in *. rewrite !key_eq in * by reflexivity. cbn [schema_scalars In] in I.
    destruct I as [I|[I|[I|[]]]]; rewrite <- I in *; cbn in R |- *; destruct v; cbn in R |- *; try (exfalso; apply R; reflexivity); eexists; split; reflexivity.
  - intros [[] ts] [[] ts'] H. unfold gsch_member, sch_member. cbn [g_head g_tables]. keys. rewrite E. cbn [schema_scalars In] in I.
    destruct I as [I|[I|[I|[]]]]; rewrite <- I in H |- *; cbn in H; injection H as ? ? ? ?; subst; destruct w; try reflexivity; exfalso; apply W; reflexivity.
Qed.

(** *** Tables *)
Definition no_text_t (n : string) (g : gtable) : gtable :=
  let '(mkTable nm cs d gr cl ix) := g_rest g in
  mkGTable (mkTable (if String.eqb n "name" then "" else nm) cs (if String.eqb n "desc" then "" else d) (if String.eqb n "group" then "" else gr)
    (if String.eqb n "classname" then "" else cl) ix) (g_cols g) (g_idx g).
Lemma table_twice : forall g l1 l2 l3 k k' v w, In (to_lower k) table_scalars -> to_lower k' = to_lower k ->
  dec_fields gtbl_member zero_gtable (JObj [(k, v)]) <> None -> w <> JNull ->
  dec_fields gtbl_member g (twice l1 l2 l3 k k' v w) = dec_fields gtbl_member g (no_first l1 l2 l3 k' w).
Proof.
  intros g l1 l2 l3 k k' v w I E R W. unfold twice, no_first, dec_fields in *. cbn [dec_members] in R.
  apply (twice_members _ gtbl_member (no_text_t (to_lower k))).
  - intros [[] cs ix] [[] cs' ix'] z j H. cbn [table_scalars In] in I.
    destruct I as [I|[I|[I|[I|[]]]]]; rewrite <- I in H |- *; cbn in H; injection H as ? ? ? ? ? ? ?; subst;
      unfold gtbl_member, tbl_member; cbn [g_rest g_cols g_idx]; change (key_is "className" z) with (key_is "classname" z); keys;
      repeat match goal with |- context [if ?b then _ else _] => destruct b end;
      try match goal with |- context [dec_slice ?a ?b ?c ?d] => destruct (dec_slice a b c d) end;
      try match goal with |- context [dec_arr ?a ?b] => destruct (dec_arr a b) end;
      try (destruct j); reflexivity.
  - intros [[] cs ix]. unfold gtbl_member, tbl_member in *. cbn [g_rest g_cols g_idx zero_gtable] in *.
    change (key_is "className" k) with (key_is "classname" k) in *. rewrite !key_eq in * by reflexivity. cbn [table_scalars In] in I.
    destruct I as [I|[I|[I|[I|[]]]]]; rewrite <- I in *; cbn in R |- *; destruct v; cbn in R |- *; try (exfalso; apply R; reflexivity); eexists; split; reflexivity.
  - intros [[] cs ix] [[] cs' ix'] H. unfold gtbl_member, tbl_member. cbn [g_rest g_cols g_idx]. change (key_is "className" k') with (key_is "classname" k').
    keys. rewrite E. cbn [table_scalars In] in I.
    destruct I as [I|[I|[I|[I|[]]]]]; rewrite <- I in H |- *; cbn in H; injection H as ? ? ? ? ? ? ?; subst; destruct w; try reflexivity; exfalso; apply W; reflexivity.
Qed.

(** *** Columns *)
Definition no_member_c (n : string) (g : gcol) : gcol :=
  let '(mkCol nm t d sz sc nn pk uq ai df ou vs rf, h) := g in
  (mkCol (if String.eqb n "name" then "" else nm) (if String.eqb n "type" then "" else t) (if String.eqb n "desc" then "" else d)
     (if String.eqb n "size" then 0%N else sz) (if String.eqb n "scale" then 0%N else sc)
     (if String.eqb n "notnull" then false else nn) (if String.eqb n "pk" then false else pk) (if String.eqb n "unique" then false else uq)
     (if String.eqb n "autoinc" then false else ai) (if String.eqb n "default" then "" else df) (if String.eqb n "onupdate" then "" else ou) vs rf, h).
(** a number that is not null does not depend on what was there *)
Lemma u16_any : forall a b j, j <> JNull -> dec_u16 a j = dec_u16 b j.
Proof. intros a b [] H; try reflexivity. exfalso. apply H. reflexivity. Qed.
Lemma no_member_apart : forall n, In n column_scalars -> forall a a' x j, no_member_c n a = no_member_c n a' ->
  option_map (no_member_c n) (gcol_member a x j) = option_map (no_member_c n) (gcol_member a' x j).
Proof.
  intros n I [[] h] [[] h'] z j H. cbn [column_scalars In] in I.
  repeat destruct I as [I|I]; try contradiction; subst n; cbn in H; injection H as; subst;
    unfold gcol_member, col_member; cbn [Octopus.c_values Octopus.c_ref with_values with_ref]; keys;
    repeat match goal with |- context [if ?b then _ else _] => destruct b end;
    try match goal with |- context [dec_slice ?a ?b ?c ?d] => destruct (dec_slice a b c d) end;
    try match goal with |- context [dec_ptr ?a ?b ?c ?d] => destruct (dec_ptr a b c d) end;
    try match goal with |- context [dec_arr ?a ?b] => destruct (dec_arr a b) end;
    try match goal with |- context [dec_ref ?a] => destruct (dec_ref a) end;
    try (destruct j); try reflexivity;
    match goal with |- context [dec_u16 ?a ?b] => rewrite (u16_any a 0%N b) by discriminate end;
    try match goal with |- context [dec_u16 ?a ?b] => lazymatch a with 0%N => fail | _ => rewrite (u16_any a 0%N b) by discriminate end end;
    match goal with |- context [dec_u16 ?a ?b] => destruct (dec_u16 a b) end; reflexivity.
Qed.
Lemma column_twice : forall g l1 l2 l3 k k' v w, In (to_lower k) column_scalars -> to_lower k' = to_lower k ->
  dec_fields gcol_member zero_gcol (JObj [(k, v)]) <> None -> w <> JNull ->
  dec_fields gcol_member g (twice l1 l2 l3 k k' v w) = dec_fields gcol_member g (no_first l1 l2 l3 k' w).
Proof.
  intros g l1 l2 l3 k k' v w I E R W. unfold twice, no_first, dec_fields in *. cbn [dec_members] in R.
  apply (twice_members _ gcol_member (no_member_c (to_lower k))).
  - apply no_member_apart. exact I.
  - intros [[] h]. unfold gcol_member, col_member, zero_gcol, zero_col in *. rewrite !key_eq in * by reflexivity. cbn [column_scalars In] in I.
    repeat destruct I as [I|I]; try contradiction; rewrite <- I in *; cbn [String.eqb Ascii.eqb Bool.eqb] in R |- *;
      destruct v as [| | |s| |]; try (exfalso; apply R; reflexivity); try (eexists; split; reflexivity);
      rewrite (u16_any _ 0%N) by discriminate;
      match goal with |- context [dec_u16 ?a ?b] => destruct (dec_u16 a b) end; first [exfalso; apply R; reflexivity | eexists; split; reflexivity].
  - intros [[] h] [[] h'] H. unfold gcol_member, col_member. keys. rewrite E. cbn [column_scalars In] in I.
    repeat destruct I as [I|I]; try contradiction; rewrite <- I in H |- *; cbn in H; injection H as; subst; destruct w; try reflexivity; exfalso; apply W; reflexivity.
Qed.

(** *** A list given twice *)
Definition repeat_first : json := JArr [JObj [("name", JStr "a"); ("desc", JStr "x"); ("columns", JArr [JObj [("name", JStr "id"); ("type", JStr "int"); ("pk", JBool true)]])]].
Definition repeat_second : json := JArr [JObj [("name", JStr "b"); ("columns", JArr [JObj [("name", JStr "no"); ("type", JStr "text")]])]].
Lemma list_twice : exists a b g h, from_json_merging (JObj [("tables", a); ("tables", b)]) = Some g /\ from_json_merging (JObj [("tables", b)]) = Some h /\ seen_schema g <> seen_schema h.
Proof.
  exists repeat_first, repeat_second. eexists. eexists. split; [vm_compute; reflexivity|]. split; [vm_compute; reflexivity|]. vm_compute. discriminate.
Qed.
