(** Export, import and both together *)
From Coq Require Import String Ascii List NArith ZArith Bool Lia.
From Verif.Model Require Import GoString Util Octopus Mysql.
From Verif.Spec Require Import Text MysqlGrammar MysqlSpec MysqlImportSpec.
From Verif.Proofs Require Import StringLemmas UtilProofs MysqlLex MysqlTypes MysqlRead.
Import ListNotations.
Local Open Scope string_scope.
Local Open Scope list_scope.

(** ** Types *)

Lemma pos_u16_N : forall n, (n < 65536)%N -> pos_u16 (Z.of_N n) = n.
Proof.
  intros n H. unfold pos_u16, u16. destruct (Z.ltb_spec 0 (Z.of_N n)).
  - rewrite N2Z.id. now apply N.mod_small.
  - lia.
Qed.

Lemma Z_eqb_one : forall n, Z.eqb (Z.of_N n) 1 = N.eqb n 1.
Proof. intros n. destruct (Z.eqb_spec (Z.of_N n) 1), (N.eqb_spec n 1); lia. Qed.

Lemma reimported_sql : forall c, In (c_type c) col_types -> Forall plain_text (c_values c) ->
  reimported_type c = match sql_type c with
    | Some ft => let '(ty, n, s) := import_column_type ft in Some (ty, n, s, import_column_values ty ft)
    | None => None end.
Proof.
  intros c HT HV. destruct (type_reads c HT HV) as [ts [L [_ R]]]. unfold reimported_type, read_type_text.
  rewrite (lex_all _ _ L). specialize (R [] I). rewrite app_nil_r in R. rewrite R. destruct (sql_type c); reflexivity.
Qed.

Lemma type_back_iff : forall c, In (c_type c) col_types -> (c_size c < 65536)%N -> (c_scale c < 65536)%N ->
  (match sql_type c with
    | Some ft => let '(ty, n, s) := import_column_type ft in Some (ty, n, s, import_column_values ty ft)
    | None => None end = Some (c_type c, c_size c, c_scale c, c_values c) <-> type_survives c).
Proof.
  intros [name ty desc n s nn pk uq ai df ou vs rf] HT Hn Hs. cbn [c_type c_size c_scale c_values] in *.
  unfold col_types in HT. cbn [In] in HT.
  repeat (destruct HT as [<-|HT]; [|]).
  all: try (destruct HT; fail).
  all: destruct vs as [|v vs].
  all: unfold sql_type, type_survives; cbn -[pos_u16 Z.of_N import_column_type].
  all: repeat match goal with
    | |- context [N.eqb ?x 0] => destruct (N.eqb_spec x 0)
    | |- context [N.leb ?x ?k] => destruct (N.leb_spec x k)
    end.
  all: cbn -[pos_u16 Z.of_N contains to_lower].
  all: repeat match goal with |- context [contains ?a ?b] => let r := eval vm_compute in (contains a b) in change (contains a b) with r end; cbv iota.
  all: rewrite ?Z_eqb_one, ?pos_u16_N by assumption.
  all: repeat match goal with
    | |- context [N.eqb ?x 1] => destruct (N.eqb_spec x 1)
    end.
  all: cbn -[pos_u16 Z.of_N contains to_lower]; rewrite ?pos_u16_N by assumption;
    change (pos_u16 (-1)) with 0%N; try (change (pos_u16 1) with 1%N).
  all: split; intros E; [try discriminate E; inversion E; subst; repeat split; auto; try congruence; try lia|].
  all: try (decompose [and] E; subst; first [reflexivity|congruence|lia]).
  all: try (decompose [and iff] E; subst; intuition (subst; congruence)).
  all: destruct E as [_ [E _]]; rewrite (E e), e; reflexivity.
Qed.

Lemma reimport_iff : forall c, In (c_type c) col_types -> Forall plain_text (c_values c) ->
  (c_size c < 65536)%N -> (c_scale c < 65536)%N ->
  (reimported_type c = Some (c_type c, c_size c, c_scale c, c_values c) <-> type_survives c).
Proof. intros c HT HV Hn Hs. rewrite reimported_sql by assumption. now apply type_back_iff. Qed.

(** ** Values *)

Lemma dot_not_digits : forall a b, digits (a ^ "." ^ b) -> False.
Proof.
  intros a b [_ H]. assert (X := H "."%char). rewrite char_in_app in X. specialize (X (or_intror (or_introl eq_refl))).
  vm_compute in X. discriminate.
Qed.

Lemma fn_not_digits : forall s, digits ("fn::" ^ s) -> False.
Proof. intros s [_ H]. assert (X := H "f"%char (or_introl eq_refl)). vm_compute in X. discriminate. Qed.

Lemma null_not_digit : forall v, to_lower v = "null" -> digits v -> False.
Proof. intros v H D. revert H. now apply digits_kw. Qed.

Lemma fn_not_dec : forall s a b, "fn::" ^ s = a ^ "." ^ b -> digits a -> False.
Proof.
  intros s [|c a] b E [H1 H2]; [congruence|]. cbn [String.append] in E. injection E as E _. subst c.
  specialize (H2 "f"%char (or_introl eq_refl)). vm_compute in H2. discriminate.
Qed.

Lemma dec_not_null : forall a b, to_lower (a ^ "." ^ b) = "null" -> digits a -> False.
Proof.
  intros [|c a] b E [H1 H2]; [congruence|]. unfold to_lower in E. cbn [String.append string_map] in E. injection E as E _.
  rewrite lower_digit in E by (apply H2; now left). subst c. specialize (H2 "n"%char (or_introl eq_refl)).
  vm_compute in H2. discriminate.
Qed.

Lemma fn_not_null : forall s, to_lower ("fn::" ^ s) = "null" -> False.
Proof. intros s H. unfold to_lower in H. cbn in H. discriminate. Qed.

Lemma plain_value_det : forall ty v e1 e2, plain_value ty v e1 -> plain_value ty v e2 -> e1 = e2.
Proof.
  assert (A : forall ty v e1 e2, plain_value ty v e1 -> plain_value ty v e2 ->
    match e1, e2 with
    | EValue (Some x), EValue (Some y) => x = y
    | EValue None, EValue None => True
    | EFunc x, EFunc y => x = y
    | _, _ => False
    end).
  { intros ty v e1 e2 H1 H2.
    destruct H1 as [f Hn Hc|v Ht Hv Hp Hf|v n T1 T2 Hd Hn|a b T1 T2 Ha Hb|v T1 T2 Hl]; inversion H2; subst.
    all: try (reflexivity || exact I).
    all: try (destruct Ht; congruence).
    all: try match goal with H : String.prefix "fn::" ("fn::" ^ _) = false |- _ => rewrite prefix_app in H; discriminate H end.
    all: try match goal with H : _ = "char" \/ _ = "varchar" |- _ => destruct H; congruence end.
    all: try match goal with H : digits ("fn::" ^ _) |- _ => destruct (fn_not_digits _ H) end.
    all: try match goal with H : digits (_ ^ "." ^ _) |- _ => destruct (dot_not_digits _ _ H) end.
    all: try match goal with H : to_lower ("fn::" ^ _) = _ |- _ => destruct (fn_not_null _ H) end.
    all: try match goal with H : to_lower ?v = "null", D : digits ?v |- _ => destruct (null_not_digit _ H D) end.
    all: try match goal with H : to_lower _ = "null", D : digits _ |- _ => destruct (dec_not_null _ _ H D) end.
    all: try match goal with H : _ ^ "." ^ _ = "fn::" ^ _ , D : digits _ |- _ => symmetry in H; destruct (fn_not_dec _ _ _ H D) end.
    all: try match goal with H : "fn::" ^ _ = _ ^ "." ^ _ , D : digits _ |- _ => destruct (fn_not_dec _ _ _ H D) end.
    all: try congruence.
    - exact (fn_not_dec _ a b (eq_sym H) H3).
    - exact (fn_not_dec f a b H Ha).
    - exact (eq_sym H). }
  intros ty v e1 e2 H1 H2. specialize (A ty v e1 e2 H1 H2).
  destruct e1 as [[x|]|x|], e2 as [[y|]|y|]; try contradiction; congruence.
Qed.

Lemma plain_value_some : forall ty v e, plain_value ty v e -> v <> "".
Proof.
  intros ty v e H E. destruct H as [f Hn Hc|v Ht Hv Hp Hf|v n T1 T2 Hd Hn|a b T1 T2 Ha Hb|v T1 T2 Hl]; subst; try discriminate.
  - congruence.
  - destruct a; [destruct Ha; congruence|discriminate].
Qed.

Lemma ct_plain : forall ty, plain_value ty "fn::CURRENT_TIMESTAMP" (EFunc "CURRENT_TIMESTAMP").
Proof.
  intros ty. apply (pv_now ty "CURRENT_TIMESTAMP").
  - unfold now_name. vm_compute. tauto.
  - apply all_chars_forallb. reflexivity.
Qed.

Lemma default_stored : forall c ds, default_means c ds -> stable_default c ->
  ds = [] /\ c_default c = "" \/ exists e, ds = [ODefault e] /\ stored e = c_default c /\ e <> EOther.
Proof.
  intros c ds [E|e He] S; [now left|right]. exists e. split; [reflexivity|].
  destruct S as [S|[S|S]].
  - rewrite S in He. now apply plain_value_some in He.
  - rewrite S in He. rewrite (plain_value_det _ _ _ _ He (ct_plain _)), S. split; [reflexivity|discriminate].
  - rewrite (plain_value_det _ _ _ _ He S). split; [reflexivity|discriminate].
Qed.

Lemma update_stored : forall c us, update_means c us -> stable_update c ->
  us = [] /\ c_onupdate c = "" \/ us = [OOnUpdate (EFunc "CURRENT_TIMESTAMP")] /\ c_onupdate c = "fn::CURRENT_TIMESTAMP".
Proof.
  intros c us [E|f E Hn Hf] S; [now left|right]. split; [reflexivity|]. destruct S as [S|S]; [|exact S].
  rewrite S in E. discriminate.
Qed.

(** ** Columns there and back *)

Lemma type_back : forall c ft, In (c_type c) col_types -> (c_size c < 65536)%N -> (c_scale c < 65536)%N ->
  type_survives c -> sql_type c = Some ft ->
  import_column_type ft = (c_type c, c_size c, c_scale c) /\ import_column_values (c_type c) ft = c_values c.
Proof.
  intros c ft HT Hn Hs TS E. apply (type_back_iff c HT Hn Hs) in TS. rewrite E in TS.
  destruct (import_column_type ft) as [[ty n] s]. inversion TS. subst. auto.
Qed.

Lemma column_back : forall reserved pk uq c cd, plain_column reserved c -> survives c -> column_means c cd ->
  ss_contains pk (c_name c) = c_pk c -> ss_contains uq (c_name c) = c_uq c ->
  import_column pk uq cd = without_ref c.
Proof.
  intros reserved pk uq c cd P [[Hn Hs] TS SD SU AI] [En [Et [ds [us [D [U Eo]]]]]] Hpk Huq.
  destruct (type_back c (cd_type cd) (pc_type _ _ P) Hn Hs TS Et) as [T1 T2].
  unfold import_column. rewrite T1, En, Hpk, Huq, T2, Eo. clear - D U SD SU AI.
  destruct (default_stored c ds D SD) as [[-> Ed]|[e [-> [Ed Hne]]]];
  destruct (update_stored c us U SU) as [[-> Eu]|[-> Eu]]; clear D U SD SU;
  destruct c as [name ty desc n s nn pk' uq' ai df ou vs rf];
  cbn [c_name c_type c_desc c_size c_scale c_notnull c_pk c_uq c_autoinc c_default c_onupdate c_values c_ref] in *;
  subst; unfold without_ref; cbn [c_name c_type c_desc c_size c_scale c_notnull c_pk c_uq c_autoinc c_default c_onupdate c_values c_ref].
  all: try (destruct e as [[v|]|f|]; [| | |congruence]).
  all: destruct nn, ai; try (specialize (AI eq_refl); discriminate).
  all: destruct (String.eqb_spec desc "") as [Ec|Ec]; try (subst desc).
  all: reflexivity.
Qed.
