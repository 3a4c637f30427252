(** Saving and asking octopus v1 schemas *)
From Coq Require Import String Ascii List NArith Bool Lia Sorting.Permutation Sorting.Sorted.
From Verif.Model Require Import GoString Util Octopus Common Json JsonText Ojson OjsonText OjsonApi.
From Verif.Spec Require Import Order Text OctopusSpec OjsonSpec FormatSpec JsonSpec V1Spec V1ApiSpec LocalSpec.
From Verif.Proofs Require Import ListLemmas StringLemmas TypeProofs OctopusProofs JsonProofs JsonTextProofs ReadUtf8 OjsonProofs V1Proofs LocalProofs.
Import ListNotations.
Local Open Scope string_scope.

(** ** Normalize *)
Lemma v1_normalize_eq : forall sortf s, v1_normalize sortf s =
  match res_map normalize_one (sortf (o_tables s)) with
  | Panic => Panic
  | Ok ts => Ok (mkV1Schema (o_author s) (o_sname s) (o_version s) ts)
  end.
Proof. reflexivity. Qed.
Lemma import_normalize : forall sortf s, import_v1 sortf s =
  match v1_normalize sortf s with
  | Panic => Panic
  | Ok s' => Ok (mkSchema (o_author s') (o_sname s') (o_version s') (map from_v1_table (o_tables s')))
  end.
Proof. intros sortf s. rewrite import_v1_eq, v1_normalize_eq. now destruct (res_map normalize_one _). Qed.

Lemma v1_col_repaired : forall c c1, v1_normalize_col c = Ok c1 -> v1_column_repaired c c1.
Proof.
  intros c c1. unfold v1_normalize_col. destruct (v1_normalize_type (o_type c)) as [t known] eqn:E.
  unfold v1_column_repaired. destruct known.
  - unfold v1_validate. destruct (String.eqb_spec (o_name c) "") as [|N]; [discriminate|].
    intros H. injection H as <-. cbn. repeat (split; [reflexivity|]). split.
    + intros t' K. apply v1_type_named in K. rewrite K in E. injection E as <-. split; [reflexivity|].
      rewrite andb_true_iff, orb_true_iff, !String.eqb_eq. reflexivity.
    + intros K. apply v1_type_unknown in K. rewrite E in K. discriminate.
  - intros H. injection H as <-. repeat (split; [reflexivity|]). split.
    + intros t' K. apply v1_type_named in K. rewrite K in E. discriminate.
    + intros _. split; reflexivity.
Qed.
Lemma v1_named_self : forall t t', v1_named t t' -> v1_named t' t'.
Proof.
  intros t t' (names & I & J). exists names. split; [exact I|]. cbn in I.
  repeat (destruct I as [I|I]; [injection I as <- <-; cbn; tauto|]). destruct I.
Qed.
Lemma v1_col_again : forall c c1, v1_normalize_col c = Ok c1 -> v1_normalize_col c1 = Ok c1.
Proof.
  intros c c1. unfold v1_normalize_col. destruct (v1_normalize_type (o_type c)) as [t known] eqn:E. destruct known.
  - unfold v1_validate at 1. destruct (String.eqb (o_name c) "") eqn:N; [discriminate|].
    intros H. injection H as <-. cbn [o_type]. apply v1_type_named, v1_named_self, v1_type_named in E. rewrite E.
    unfold v1_validate. cbn [o_name o_desc o_size o_scale o_notnull o_pk o_uq o_autoinc o_default o_ref]. rewrite N.
    do 2 f_equal. now destruct (o_autoinc c), (String.eqb t "int" || String.eqb t "long").
  - intros H. injection H as <-. now rewrite E.
Qed.
Lemma res_map_same : forall {A} (f : A -> res A) l, (forall x, In x l -> f x = Ok x) -> res_map f l = Ok l.
Proof.
  intros A f l. induction l as [|x l IH]; intros H; [reflexivity|]. cbn [res_map]. rewrite H by now left.
  rewrite IH; [reflexivity|]. intros y I. apply H. now right.
Qed.
Lemma one_again : forall t t1, normalize_one t = Ok t1 -> normalize_one t1 = Ok t1.
Proof.
  intros t t1. unfold normalize_one. destruct (res_map v1_normalize_col (o_cols t)) as [cs|] eqn:E; [|discriminate].
  intros H. injection H as <-. apply res_map_forall2 in E. unfold v1_with_cols. cbn [o_cols].
  rewrite res_map_same; [reflexivity|]. intros c I. destruct (forall2_in _ _ _ _ _ E c I) as (c0 & _ & N).
  exact (v1_col_again _ _ N).
Qed.
Lemma one_repaired : forall t t1, normalize_one t = Ok t1 -> v1_table_repaired t t1.
Proof.
  intros t t1. unfold normalize_one. destruct (res_map v1_normalize_col (o_cols t)) as [cs|] eqn:E; [|discriminate].
  intros H. injection H as <-. apply res_map_forall2 in E. repeat (split; [reflexivity|]). cbn.
  revert E. apply forall2_impl_in. exact v1_col_repaired.
Qed.

Notation v1_le := (fun a b => v1_table_less b a = false).
Definition v1_key (t : v1_table) := (o_group t, o_tname t).
Lemma sorted_keys : forall l l', map v1_key l = map v1_key l' -> Sorted v1_le l -> Sorted v1_le l'.
Proof.
  induction l as [|a l IH]; intros [|b l'] E S; try discriminate; [constructor|].
  injection E as E1 E2 E3. inversion S as [|? ? S' H]; subst. constructor; [now apply IH|].
  destruct l as [|c l], l' as [|d l']; try discriminate; [constructor|].
  injection E3 as F1 F2 F3. inversion H as [|? ? H']; subst. constructor. revert H'. unfold v1_table_less.
  now rewrite E1, E2, F1, F2.
Qed.
Lemma repaired_key : forall ts ts', Forall2 v1_table_repaired ts ts' -> map v1_key ts = map v1_key ts'.
Proof.
  induction 1 as [|t t' ts ts' (N & _ & G & _) F IH]; [reflexivity|]. cbn [map]. unfold v1_key at 1 3. now rewrite N, G, IH.
Qed.
Lemma v1_normalized : forall sortf s s', sorts_v1 sortf -> v1_normalize sortf s = Ok s' -> v1_repaired s s'.
Proof.
  intros sortf s s' Hs. rewrite v1_normalize_eq. destruct (res_map normalize_one _) as [ts|] eqn:E; [|discriminate].
  intros H. injection H as <-. apply res_map_forall2 in E. destruct (Hs (o_tables s)) as [P S].
  assert (F : Forall2 v1_table_repaired (sortf (o_tables s)) ts) by (revert E; apply forall2_impl_in; exact one_repaired).
  repeat (split; [reflexivity|]). cbn [o_tables]. split.
  - exists (sortf (o_tables s)). split; assumption.
  - exact (sorted_keys _ _ (repaired_key _ _ F) S).
Qed.

Lemma shape_sorted : forall l, Sorted v1_le l -> StronglySorted (fun a b => table_le (shape a) (shape b)) l.
Proof.
  intros l H. apply Sorted_StronglySorted.
  - intros a b c. apply table_le_trans.
  - induction H as [|a l S IH H]; constructor; auto. inversion H; constructor. now apply table_less_le.
Qed.
Lemma v1_sorted_unique : forall l1 l2, Permutation l1 l2 -> Sorted v1_le l1 -> Sorted v1_le l2 ->
  NoDup (map v1_key l1) -> l1 = l2.
Proof.
  intros l1 l2 P S1 S2. apply shape_sorted in S1, S2. revert l2 P S1 S2.
  induction l1 as [|a l1 IH]; intros l2 P S1 S2 Nd.
  - apply Permutation_nil in P. congruence.
  - destruct l2 as [|b l2]; [symmetry in P; apply Permutation_nil in P; discriminate|].
    apply StronglySorted_inv in S1. destruct S1 as [S1 F1].
    apply StronglySorted_inv in S2. destruct S2 as [S2 F2].
    rewrite Forall_forall in F1, F2. simpl in Nd. apply NoDup_cons_iff in Nd. destruct Nd as [Nn Nd].
    assert (a = b).
    { assert (Ha : In a (b :: l2)) by (eapply Permutation_in; [exact P|now left]).
      assert (Hb : In b (a :: l1)) by (eapply Permutation_in; [symmetry; exact P|now left]).
      destruct Ha as [|Ha]; auto. destruct Hb as [|Hb]; auto.
      exfalso. apply Nn. pose proof (table_le_antisym _ _ (F1 b Hb) (F2 a Ha)) as E. cbn in E.
      change (v1_key a = v1_key b) in E. rewrite E. now apply in_map. }
    subst. f_equal. apply IH; auto. now apply Permutation_cons_inv in P.
Qed.
Lemma v1_normalize_again : forall sortf sortf' s s', sorts_v1 sortf -> sorts_v1 sortf' -> v1_distinct s ->
  v1_normalize sortf s = Ok s' -> v1_normalize sortf' s' = Ok s'.
Proof.
  intros sortf sortf' s s' Hs Hs' D E. destruct (v1_normalized _ _ _ Hs E) as (_ & _ & _ & (ts & P & F) & S).
  destruct (Hs' (o_tables s')) as [P' S'].
  assert (X : sortf' (o_tables s') = o_tables s').
  { apply v1_sorted_unique; auto. eapply Permutation_NoDup; [apply Permutation_map; symmetry; exact P'|].
    rewrite <- (repaired_key _ _ F). eapply Permutation_NoDup; [apply Permutation_map; symmetry; exact P|]. exact D. }
  rewrite v1_normalize_eq in *. destruct (res_map normalize_one (sortf (o_tables s))) as [l|] eqn:R; [|discriminate].
  injection E as <-. cbn [o_tables o_author o_sname o_version] in *. rewrite X. apply res_map_forall2 in R.
  rewrite res_map_same; [reflexivity|]. intros t I. destruct (forall2_in _ _ _ _ _ R t I) as (t0 & _ & N). exact (one_again _ _ N).
Qed.

(** ** The text *)
Lemma om_str_keys : forall k s, sub (map fst (om_str k s)) [k].
Proof. intros k s. unfold om_str. destruct (String.eqb s ""); repeat constructor. Qed.
Lemma om_num_keys : forall k s, sub (map fst (om_num k s)) [k].
Proof. intros k s. unfold om_num. destruct (N.eqb s 0); repeat constructor. Qed.
Lemma om_bool_keys : forall k s, sub (map fst (om_bool k s)) [k].
Proof. intros k s. unfold om_bool. destruct s; repeat constructor. Qed.
Lemma om_arr_keys : forall k s, sub (map fst (om_arr k s)) [k].
Proof. intros k s. unfold om_arr. destruct s; repeat constructor. Qed.
Lemma sub_nodup : forall {A} (l l' : list A), sub l l' -> NoDup l' -> NoDup l.
Proof.
  induction 1 as [|x l l' S IH|x l l' S IH]; intros N; [exact N| |].
  - apply NoDup_cons_iff in N as [N1 N2]. constructor; [|auto]. intros I. apply N1. exact (sub_in _ _ _ S I).
  - apply NoDup_cons_iff in N as [N1 N2]. auto.
Qed.
Lemma sub_only : forall names l, sub (map fst l) names -> NoDup names -> has_only names l.
Proof. intros names l S N. split; [exact (sub_nodup _ _ S N)|]. intros x I. exact (sub_in _ _ _ S I). Qed.

(** a list of parts, one per member *)
Definition part_of (k : string) (l : list (string * json)) : Prop := sub (map fst l) [k].
Lemma parts_absent : forall k (ps : list (string * list (string * json))), Forall (fun p => part_of (fst p) (snd p)) ps ->
  (forall p, In p ps -> fst p = k -> snd p = []) -> absent (flat_map snd ps) k.
Proof.
  intros k ps F H I. apply in_map_iff in I as ([k' v] & <- & I). apply in_flat_map in I as (p & P & I). cbn [fst] in *.
  rewrite Forall_forall in F. pose proof (sub_in _ _ k' (F p P) (in_map fst _ _ I)) as [E|[]].
  rewrite (H p P E) in I. destruct I.
Qed.
Lemma parts_only : forall (ps : list (string * list (string * json))), Forall (fun p => part_of (fst p) (snd p)) ps ->
  sub (map fst (flat_map snd ps)) (map fst ps).
Proof.
  induction 1 as [|[k l] ps P F IH]; [constructor|]. cbn [flat_map snd map fst]. rewrite map_app.
  change (k :: map fst ps) with ([k] ++ map fst ps)%list. now apply sub_app.
Qed.
Lemma part_in : forall (ps : list (string * list (string * json))) k l x, In (k, l) ps -> In x l -> In x (flat_map snd ps).
Proof. intros. apply in_flat_map. eauto. Qed.
Lemma part_only : forall (ps : list (string * list (string * json))) k l, NoDup (map fst ps) -> In (k, l) ps ->
  forall p, In p ps -> fst p = k -> snd p = l.
Proof.
  induction ps as [|[k' l'] ps IH]; intros k l N I p J E; [destruct I|]. cbn [map fst] in N. apply NoDup_cons_iff in N as [N1 N2].
  destruct I as [I|I], J as [J|J].
  - subst p. now injection I as <- <-.
  - injection I as -> ->. subst k. exfalso. apply N1. now apply in_map.
  - subst p. cbn [fst] in E. subst k'. exfalso. apply N1. change k with (fst (k, l)). now apply in_map.
  - now apply (IH k l N2 I).
Qed.
Section Parts.
  Variable ps : list (string * list (string * json)).
  Hypothesis F : Forall (fun p => part_of (fst p) (snd p)) ps.
  Hypothesis D : NoDup (map fst ps).
  Lemma part_absent : forall k, In (k, []) ps -> absent (flat_map snd ps) k.
  Proof. intros k I. apply parts_absent; [exact F|]. exact (part_only _ _ _ D I). Qed.
  Lemma part_str : forall k s, In (k, om_str k s) ps -> str_member (flat_map snd ps) k s.
  Proof.
    intros k s I. unfold om_str in I. destruct (String.eqb_spec s "") as [E|N].
    - right. split; [now apply part_absent|exact E].
    - left. apply (part_in _ _ _ _ I). now left.
  Qed.
  Lemma part_str_always : forall k s, In (k, [(k, JStr s)]) ps -> str_member (flat_map snd ps) k s.
  Proof. intros k s I. left. apply (part_in _ _ _ _ I). now left. Qed.
  Lemma part_num : forall k n, In (k, om_num k n) ps -> int_member (flat_map snd ps) k n.
  Proof.
    intros k n I. unfold om_num in I. destruct (N.eqb_spec n 0) as [E|N].
    - right. split; [now apply part_absent|exact E].
    - left. apply (part_in _ _ _ _ I). now left.
  Qed.
  Lemma part_bool : forall k b, In (k, om_bool k b) ps -> bool_member (flat_map snd ps) k b.
  Proof.
    intros k s I. unfold om_bool in I. destruct s.
    - left. apply (part_in _ _ _ _ I). now left.
    - right. split; [now apply part_absent|reflexivity].
  Qed.
  Lemma part_arr : forall {A} (R : json -> A -> Prop) (enc : A -> json) k l, (forall x, In x l -> R (enc x) x) ->
    In (k, om_arr k (map enc l)) ps -> list_member R (flat_map snd ps) k l.
  Proof.
    intros A R enc k l H I. destruct l as [|x l].
    - right. split; [now apply part_absent|reflexivity].
    - left. exists (map enc (x :: l)). split; [apply (part_in _ _ _ _ I); now left|].
      clear I. induction (x :: l) as [|y m IH]; [constructor|]. cbn [map]. constructor; [apply H; now left|].
      apply IH. intros z Z. apply H. now right.
  Qed.
End Parts.

Ltac parts := repeat (apply Forall_cons; [cbn [fst snd]; unfold part_of;
  first [apply om_str_keys|apply om_num_keys|apply om_bool_keys|apply om_arr_keys|now repeat constructor]|]); try apply Forall_nil.
Ltac nodup := repeat constructor; cbn; intuition discriminate.
Ltac findp := cbn [In]; repeat (first [left; reflexivity|right]).

Lemma v1_ref_doc : forall r, v1_doc_reference (v1_enc_ref r) r.
Proof.
  intros r. set (ps := [("table", om_str "table" (o_ref_table r)); ("column", om_str "column" (o_ref_column r))]).
  assert (F : Forall (fun p => part_of (fst p) (snd p)) ps) by (unfold ps; parts).
  assert (D : NoDup (map fst ps)) by (unfold ps; nodup).
  exists (flat_map snd ps). split; [unfold v1_enc_ref, ps; cbn [flat_map snd]; now rewrite ?app_nil_r|].
  split; [exact (sub_only _ _ (parts_only _ F) D)|].
  split; apply (part_str ps F D); unfold ps; findp.
Qed.
Lemma v1_column_doc : forall c, v1_doc_column (v1_enc_column c) c.
Proof.
  intros c.
  set (ps := [("name", [("name", JStr (o_name c))]); ("type", [("type", JStr (o_type c))]);
    ("description", om_str "description" (o_desc c)); ("size", om_num "size" (o_size c)); ("scale", om_num "scale" (o_scale c));
    ("notnull", om_bool "notnull" (o_notnull c)); ("pk", om_bool "pk" (o_pk c)); ("unique", om_bool "unique" (o_uq c));
    ("autoinc", om_bool "autoinc" (o_autoinc c)); ("default", om_str "default" (o_default c));
    ("ref", match o_ref c with None => [] | Some r => [("ref", v1_enc_ref r)] end)]).
  assert (F : Forall (fun p => part_of (fst p) (snd p)) ps).
  { unfold ps. parts. apply Forall_cons; [|apply Forall_nil]. cbn [fst snd]. unfold part_of. destruct (o_ref c); repeat constructor. }
  assert (D : NoDup (map fst ps)) by (unfold ps; nodup).
  exists (flat_map snd ps). split; [unfold v1_enc_column, ps; cbn [flat_map snd app]; now rewrite ?app_nil_r|].
  split; [exact (sub_only _ _ (parts_only _ F) D)|].
  split; [apply (part_str_always ps); unfold ps; findp|].
  split; [apply (part_str_always ps); unfold ps; findp|].
  split; [apply (part_str ps F D); unfold ps; findp|].
  do 2 (split; [apply (part_num ps F D); unfold ps; findp|]).
  do 4 (split; [apply (part_bool ps F D); unfold ps; findp|]).
  split; [apply (part_str ps F D); unfold ps; findp|].
  assert (L : In ("ref", match o_ref c with None => [] | Some r => [("ref", v1_enc_ref r)] end) ps) by (unfold ps; findp).
  clearbody ps. destruct (o_ref c) as [r|].
  - left. exists (v1_enc_ref r), r. split; [apply (part_in _ _ _ _ L); now left|]. split; [reflexivity|apply v1_ref_doc].
  - right. split; [exact (part_absent ps F D _ L)|reflexivity].
Qed.
Lemma v1_table_doc : forall t, v1_doc_table (v1_enc_table t) t.
Proof.
  intros t.
  set (ps := [("name", om_str "name" (o_tname t)); ("columns", om_arr "columns" (map v1_enc_column (o_cols t)));
    ("desc", om_str "desc" (o_tdesc t)); ("group", om_str "group" (o_group t)); ("className", om_str "className" (o_class t))]).
  assert (F : Forall (fun p => part_of (fst p) (snd p)) ps) by (unfold ps; parts).
  assert (D : NoDup (map fst ps)) by (unfold ps; nodup).
  exists (flat_map snd ps). split; [unfold v1_enc_table, ps; cbn [flat_map snd]; now rewrite ?app_nil_r|].
  split; [exact (sub_only _ _ (parts_only _ F) D)|].
  split; [apply (part_str ps F D); unfold ps; findp|].
  split; [apply (part_arr ps F D _ v1_enc_column); [intros; apply v1_column_doc|unfold ps; findp]|].
  split; [apply (part_str ps F D); unfold ps; findp|]. split; apply (part_str ps F D); unfold ps; findp.
Qed.
Lemma v1_schema_doc : forall s, v1_doc (v1_enc_schema s) s.
Proof.
  intros s.
  set (ps := [("author", om_str "author" (o_author s)); ("name", om_str "name" (o_sname s));
    ("version", om_str "version" (o_version s)); ("tables", om_arr "tables" (map v1_enc_table (o_tables s)))]).
  assert (F : Forall (fun p => part_of (fst p) (snd p)) ps) by (unfold ps; parts).
  assert (D : NoDup (map fst ps)) by (unfold ps; nodup).
  exists (flat_map snd ps). split; [unfold v1_enc_schema, ps; cbn [flat_map snd]; now rewrite ?app_nil_r|].
  split; [exact (sub_only _ _ (parts_only _ F) D)|].
  do 3 (split; [apply (part_str ps F D); unfold ps; findp|]).
  apply (part_arr ps F D _ v1_enc_table); [intros; apply v1_table_doc|unfold ps; findp].
Qed.

Lemma v1_enc_nat : forall s, json_nat (v1_enc_schema s).
Proof.
  intros s. apply obj_nat. nats. intros j I. apply in_map_iff in I as (t & <- & _).
  apply obj_nat. nats. intros j I. apply in_map_iff in I as (c & <- & _). apply obj_nat. nats; try constructor.
  destruct (o_ref c); nats. apply obj_nat. nats.
Qed.
Lemma v1_enc_nesting : forall s, (nesting (v1_enc_schema s) <= max_nesting)%N.
Proof.
  intros s. transitivity 6%N; [|unfold max_nesting; lia]. apply (obj_nesting _ 5). intros k v I. nested.
  apply (om_arr_nesting 4) in I; [exact I|]. intros j J. apply in_map_iff in J as (t & <- & _).
  apply (obj_nesting _ 3). clear. intros k v I. nested.
  apply (om_arr_nesting 2) in I; [exact I|]. intros j J. apply in_map_iff in J as (c & <- & _).
  apply (obj_nesting _ 1). clear. intros k v I. nested.
  - destruct I as [I|[I|[]]]; injection I as _ <-; cbn; lia.
  - destruct (o_ref c) as [r|]; [|destruct I]. destruct I as [I|[]]. injection I as _ <-.
    apply (obj_nesting _ 0). clear. intros k v I. nested.
Qed.

(** a JSON value of UTF-8 strings is what is read *)
Lemma clean_om_str : forall k s, utf8 k -> utf8 s -> map clean_member (om_str k s) = om_str k s.
Proof. intros. now rewrite om_str_clean, !clean_utf8. Qed.
Lemma clean_om_num : forall k s, utf8 k -> map clean_member (om_num k s) = om_num k s.
Proof. intros. now rewrite om_num_clean, !clean_utf8. Qed.
Lemma clean_om_bool : forall k s, utf8 k -> map clean_member (om_bool k s) = om_bool k s.
Proof. intros. now rewrite om_bool_clean, !clean_utf8. Qed.
Lemma clean_om_arr : forall {A} (enc : A -> json) k l, utf8 k -> (forall x, In x l -> clean_json (enc x) = enc x) ->
  map clean_member (om_arr k (map enc l)) = om_arr k (map enc l).
Proof.
  intros A enc k l K H. rewrite om_arr_clean, clean_utf8 by exact K. rewrite map_map. f_equal. now apply map_ext_in.
Qed.
Ltac ascii := apply utf8_ascii; reflexivity.
Ltac member_clean := change (fun kv : string * json => let '(k, v) := kv in (clean k, clean_json v)) with clean_member.
Lemma v1_ref_clean : forall r, utf8 (o_ref_table r) -> utf8 (o_ref_column r) -> clean_json (v1_enc_ref r) = v1_enc_ref r.
Proof.
  intros r A B. unfold v1_enc_ref. cbn [clean_json]. f_equal. member_clean. rewrite map_app, !clean_om_str; try assumption; try reflexivity; ascii.
Qed.
Lemma v1_column_clean : forall c, (forall x, In x (v1_column_text c) -> utf8 x) -> clean_json (v1_enc_column c) = v1_enc_column c.
Proof.
  intros c U. unfold v1_enc_column. cbn [clean_json]. f_equal. member_clean.
  rewrite !map_app, !clean_om_str, !clean_om_num, !clean_om_bool; try ascii; try (apply U; cbn; tauto).
  f_equal; [cbn [map clean_member clean_json]; rewrite !clean_utf8; [reflexivity|..]; try ascii; apply U; cbn; tauto|].
  do 8 f_equal. destruct (o_ref c) as [r|] eqn:E; [|reflexivity]. cbn [map clean_member].
  unfold v1_column_text in U. rewrite E in U.
  rewrite v1_ref_clean by (apply U, in_or_app; right; cbn; tauto). now rewrite clean_utf8 by ascii.
Qed.
Lemma v1_table_clean : forall t, (forall x, In x (v1_table_text t) -> utf8 x) -> clean_json (v1_enc_table t) = v1_enc_table t.
Proof.
  intros t U. unfold v1_enc_table. cbn [clean_json]. f_equal. member_clean.
  rewrite !map_app, !clean_om_str, clean_om_arr; try ascii; try (apply U; cbn; tauto); [reflexivity|].
  intros c I. apply v1_column_clean. intros x X. apply U, in_or_app. right. apply in_flat_map. eauto.
Qed.
Lemma v1_schema_clean : forall s, v1_utf8 s -> clean_json (v1_enc_schema s) = v1_enc_schema s.
Proof.
  intros s U. unfold v1_utf8 in U. unfold v1_enc_schema. cbn [clean_json]. f_equal. member_clean.
  rewrite !map_app, !clean_om_str, clean_om_arr; try ascii; try (apply U; cbn; tauto); [reflexivity|].
  intros t I. apply v1_table_clean. intros x X. apply U, in_or_app. right. apply in_flat_map. eauto.
Qed.

Lemma repaired_utf8 : forall s s', v1_repaired s s' -> v1_utf8 s -> v1_utf8 s'.
Proof.
  intros s s' (E1 & E2 & E3 & (ts & P & F) & _) U. change (strings_utf8 ([o_author s'; o_sname s'; o_version s'] ++ flat_map v1_table_text (o_tables s'))%list).
  change (strings_utf8 ([o_author s; o_sname s; o_version s] ++ flat_map v1_table_text (o_tables s))%list) in U.
  rewrite E1, E2, E3. rewrite !utf8_app, utf8_flat in *. destruct U as [U1 U2]. split; [exact U1|].
  rewrite Forall_forall in *. intros t' T'. destruct (forall2_in _ _ _ _ _ F t' T') as (t & T & (N1 & N2 & N3 & N4 & FC)).
  specialize (U2 t (Permutation_in t P T)). unfold v1_table_text in *. rewrite utf8_app, utf8_flat in *. destruct U2 as [V1 V2].
  rewrite N1, N2, N3, N4. split; [exact V1|]. rewrite Forall_forall in *. intros c' C'.
  destruct (forall2_in _ _ _ _ _ FC c' C') as (c & C & (A1 & A2 & _ & _ & _ & _ & _ & A8 & A9 & K & NK)).
  specialize (V2 c C). unfold v1_column_text in *. rewrite utf8_app, !utf8_list_cons in *. rewrite A1, A2, A8, A9.
  destruct V2 as ((X1 & X2 & X3 & X4 & X5) & X6). split; [|exact X6]. split; [exact X1|]. split; [|now split; [|split]].
  destruct (v1_normalize_type (o_type c)) as [ty known] eqn:E. destruct known.
  - apply v1_type_named in E. destruct (K ty E) as [-> _]. exact (v1_named_ascii _ _ E).
  - destruct NK as [-> _]; [|exact X2]. apply v1_type_unknown. now rewrite E.
Qed.
Lemma repaired_fits_v1 : forall s s', v1_repaired s s' -> v1_fits_u16 s -> v1_fits_u16 s'.
Proof.
  intros s s' (_ & _ & _ & (ts & P & F) & _) U c' C'. unfold v1_columns in C'. apply in_flat_map in C' as (t' & T' & C').
  destruct (forall2_in _ _ _ _ _ F t' T') as (t & T & (_ & _ & _ & _ & FC)).
  destruct (forall2_in _ _ _ _ _ FC c' C') as (c & C & (_ & _ & -> & -> & _)). apply U. unfold v1_columns. apply in_flat_map.
  exists t. split; [exact (Permutation_in t P T)|exact C].
Qed.

Lemma v1_saved : forall sortf s text s', sorts_v1 sortf -> v1_fits_u16 s -> v1_utf8 s -> v1_to_text sortf s = Ok (text, s') ->
  v1_repaired s s' /\ exists j, read_text text = Some j /\ v1_doc j s' /\ v1_from_json j = Some s'.
Proof.
  intros sortf s text s' Hs Z U E. unfold v1_to_text in E. destruct (v1_normalize sortf s) as [s1|] eqn:N; [|discriminate].
  assert (text = put_value "" (v1_enc_schema s1) /\ s' = s1) as [-> ->] by (split; congruence). clear E. pose proof (v1_normalized _ _ _ Hs N) as R. split; [exact R|].
  exists (v1_enc_schema s1). split.
  - rewrite text_read by (apply v1_enc_nat || apply v1_enc_nesting). f_equal. exact (v1_schema_clean _ (repaired_utf8 _ _ R U)).
  - split; [apply v1_schema_doc|]. apply v1_from_document; [exact (repaired_fits_v1 _ _ R Z)|apply v1_schema_doc].
Qed.
Lemma v1_save_panics : forall sortf s, sorts_v1 sortf ->
  (v1_to_text sortf s = Panic <-> exists c, In c (v1_columns s) /\ v1_known (o_type c) /\ o_name c = "").
Proof.
  intros sortf s Hs. rewrite <- (import_v1_panics sortf s Hs), import_normalize. unfold v1_to_text.
  destruct (v1_normalize sortf s); [|tauto]. split; discriminate.
Qed.
Lemma v1_saved_again : forall sortf sortf' s text s', sorts_v1 sortf -> sorts_v1 sortf' -> v1_distinct s ->
  v1_to_text sortf s = Ok (text, s') -> v1_to_text sortf' s' = Ok (text, s') /\ import_v1 sortf' s' = import_v1 sortf s.
Proof.
  intros sortf sortf' s text s' Hs Hs' D E. unfold v1_to_text in E. destruct (v1_normalize sortf s) as [s1|] eqn:N; [|discriminate].
  assert (text = put_value "" (v1_enc_schema s1) /\ s' = s1) as [-> ->] by (split; congruence). clear E. pose proof (v1_normalize_again _ _ _ _ Hs Hs' D N) as A. split.
  - unfold v1_to_text. now rewrite A.
  - now rewrite !import_normalize, A, N.
Qed.

(** ** Questions *)
Lemma fold_map : forall {A B C} (f : A -> B) (g : C -> B -> C) l a, fold_left g (map f l) a = fold_left (fun a x => g a (f x)) l a.
Proof. induction l as [|x l IH]; intros a; cbn; auto. Qed.
Lemma v1_pk_same : forall t, v1_pk_name_set t = pk_name_set (from_v1_table t).
Proof. intros t. unfold pk_name_set. cbn [from_v1_table t_cols]. now rewrite fold_map. Qed.
Lemma v1_uq_same : forall t, v1_uq_name_set t = uq_name_set (from_v1_table t).
Proof. intros t. unfold uq_name_set. cbn [from_v1_table t_cols]. now rewrite fold_map. Qed.
Lemma v1_groups_same : forall a n v a' n' v' ts, v1_groups (mkV1Schema a n v ts) = groups (mkSchema a' n' v' (map from_v1_table ts)).
Proof. intros. unfold v1_groups, groups. cbn [o_tables s_tables]. rewrite map_map. reflexivity. Qed.

Lemma v1_pk_lists : forall t, lists (v1_pk_name_set t) (v1_keys t).
Proof.
  intros t. rewrite v1_pk_same. split; [apply pk_name_set_nodup|]. intros x. rewrite pk_name_set_in. cbn [from_v1_table t_cols].
  split.
  - intros (c & I & K & N). apply in_map_iff in I as (d & <- & I). exists d. split; [exact I|]. split; [exact K|exact N].
  - intros (c & I & K & N). exists (from_v1_column c). split; [now apply in_map|]. split; [exact K|exact N].
Qed.
Lemma v1_uq_lists : forall t, lists (v1_uq_name_set t) (v1_uniques t).
Proof.
  intros t. rewrite v1_uq_same. split; [apply uq_name_set_nodup|]. intros x. rewrite uq_name_set_in. cbn [from_v1_table t_cols].
  split.
  - intros (c & I & K & N). apply in_map_iff in I as (d & <- & I). exists d. split; [exact I|]. split; [exact K|exact N].
  - intros (c & I & K & N). exists (from_v1_column c). split; [now apply in_map|]. split; [exact K|exact N].
Qed.
Lemma v1_groups_list : forall s, strictly_increasing (v1_groups s) /\
  forall g, In g (v1_groups s) <-> exists t, In t (o_tables s) /\ o_group t = g.
Proof.
  intros [a n v ts]. rewrite (v1_groups_same a n v a n v ts). destruct (groups_spec (mkSchema a n v (map from_v1_table ts))) as [S I].
  split; [exact S|]. intros g. rewrite I. cbn [s_tables o_tables]. split.
  - intros (t & T & G). apply in_map_iff in T as (u & <- & T). exists u. now split.
  - intros (t & T & G). exists (from_v1_table t). split; [now apply in_map|exact G].
Qed.
Lemma v1_column_last : forall cs n, last_named o_name cs n (v1_column_by_name cs n).
Proof.
  induction cs as [|c cs IH]; intros n; [intros y []|]. cbn [v1_column_by_name]. specialize (IH n).
  destruct (v1_column_by_name cs n) as [d|]; cbn [last_named] in *.
  - destruct IH as (l1 & l2 & E & N & A). exists (c :: l1), l2. rewrite E. now split; [|split].
  - destruct (String.eqb_spec (o_name c) n) as [E|E].
    + exists [], cs. now split; [|split].
    + intros y [<-|I]; auto.
Qed.
Lemma v1_table_last : forall ts n, last_named o_tname ts n (v1_tables_by_name ts n).
Proof.
  induction ts as [|c cs IH]; intros n; [intros y []|]. cbn [v1_tables_by_name]. specialize (IH n).
  destruct (v1_tables_by_name cs n) as [d|]; cbn [last_named] in *.
  - destruct IH as (l1 & l2 & E & N & A). exists (c :: l1), l2. rewrite E. now split; [|split].
  - destruct (String.eqb_spec (o_tname c) n) as [E|E].
    + exists [], cs. now split; [|split].
    + intros y [<-|I]; auto.
Qed.
Lemma v1_table_first : forall ts n, first_named o_tname ts n (v1_table_by_name ts n).
Proof.
  induction ts as [|c cs IH]; intros n; [intros y []|]. cbn [v1_table_by_name]. specialize (IH n).
  destruct (String.eqb_spec (o_tname c) n) as [E|E].
  - exists [], cs. split; [reflexivity|]. split; [exact E|intros y []].
  - destruct (v1_table_by_name cs n) as [d|]; cbn [first_named] in *.
    + destruct IH as (l1 & l2 & F & N & A). exists (c :: l1), l2. rewrite F. split; [reflexivity|]. split; [exact N|].
      intros y [<-|I]; auto.
    + intros y [<-|I]; auto.
Qed.
Lemma v1_renamed_iff : forall c d ex, v1_is_renamed c d ex = true <-> v1_only_renamed ex c d.
Proof.
  intros c d ex. unfold v1_is_renamed, v1_only_renamed.
  rewrite !andb_true_iff, orb_true_iff, !String.eqb_eq, !N.eqb_eq, !Bool.eqb_true_iff. destruct ex; intuition discriminate.
Qed.
Lemma v1_answers : forall s t,
  (forall n, last_named o_tname (o_tables s) n (v1_tables_by_name (o_tables s) n)) /\
  (forall n, first_named o_tname (o_tables s) n (v1_table_by_name (o_tables s) n)) /\
  (forall n, last_named o_name (o_cols t) n (v1_column_by_name (o_cols t) n)) /\
  lists (v1_pk_name_set t) (v1_keys t) /\ lists (v1_uq_name_set t) (v1_uniques t) /\
  strictly_increasing (v1_groups s) /\ (forall g, In g (v1_groups s) <-> exists t, In t (o_tables s) /\ o_group t = g) /\
  (forall c d ex, v1_is_renamed c d ex = true <-> v1_only_renamed ex c d) /\
  (forall c, o_cols (v1_add_column t (Some c)) = (o_cols t ++ [c])%list) /\ v1_add_column t None = t.
Proof.
  intros s t. split; [apply v1_table_last|]. split; [apply v1_table_first|]. split; [apply v1_column_last|].
  split; [apply v1_pk_lists|]. split; [apply v1_uq_lists|]. split; [apply v1_groups_list|]. split; [apply v1_groups_list|].
  split; [apply v1_renamed_iff|]. split; reflexivity.
Qed.

(** ** ... and of the imported schema *)
Lemma imported_groups : forall sortf s s', sorts_v1 sortf -> import_v1 sortf s = Ok s' -> groups s' = v1_groups s.
Proof.
  intros sortf s s' Hs E. destruct (import_v1_keeps _ _ _ Hs E) as (_ & _ & _ & ts & P & F).
  destruct (v1_groups_list s) as [S I]. destruct (groups_spec s') as [S' I'].
  apply strictly_increasing_unique; auto. intros g. rewrite I, I'. split.
  - intros (t' & T' & <-). destruct (forall2_in _ _ _ _ _ F t' T') as (t & T & (_ & _ & G & _)). exists t.
    split; [exact (Permutation_in t P T)|now symmetry].
  - intros (t & T & <-). apply (Permutation_in t (Permutation_sym P)) in T.
    destruct (Forall2_in_l _ _ _ _ F T) as (t' & T' & (_ & _ & G & _)). now exists t'.
Qed.
Lemma same_sets : forall a b (P Q : string -> Prop), lists a P -> lists b Q -> (forall x, P x <-> Q x) -> Permutation a b.
Proof.
  intros a b P Q [A1 A2] [B1 B2] H. apply NoDup_Permutation; [exact A1|exact B1|]. intros x. now rewrite A2, B2, H.
Qed.
Lemma imported_named : forall sortf s s', sorts_v1 sortf -> import_v1 sortf s = Ok s' -> NoDup (map o_tname (o_tables s)) ->
  forall n, match v1_table_by_name (o_tables s) n with
            | None => table_by_name (s_tables s') n = None
            | Some t => exists t', table_by_name (s_tables s') n = Some t' /\ same_table t t' /\
                pk_name_set t' = v1_pk_name_set t /\ uq_name_set t' = v1_uq_name_set t /\
                forall m, match v1_column_by_name (o_cols t) m with
                          | None => column_name_map (t_cols t') m = None
                          | Some c => exists c', column_name_map (t_cols t') m = Some c' /\ same_column c c'
                          end
            end.
Proof.
  intros sortf s s' Hs E D n. destruct (import_v1_keeps _ _ _ Hs E) as (_ & _ & _ & ts & P & F).
  assert (N : map t_name (s_tables s') = map o_tname ts).
  { clear - F. induction F as [|t t' ts l (N & _) F IH]; [reflexivity|]. cbn [map]. now rewrite N, IH. }
  assert (D' : NoDup (map t_name (s_tables s'))).
  { rewrite N. apply (Permutation_NoDup (l := map o_tname (o_tables s))); [|exact D]. apply Permutation_map. now symmetry. }
  pose proof (v1_table_first (o_tables s) n) as T. destruct (v1_table_by_name (o_tables s) n) as [t|]; cbn [first_named] in T.
  - destruct T as (l1 & l2 & T & <- & _). assert (I : In t ts).
    { apply (Permutation_in t (Permutation_sym P)). rewrite T. apply in_or_app. right. now left. }
    destruct (Forall2_in_l _ _ _ _ F I) as (t' & T' & Q). exists t'. pose proof Q as (Q1 & _ & _ & Q4). split.
    + rewrite <- Q1. now apply table_by_name_nodup.
    + split; [exact Q|]. unfold pk_name_set, v1_pk_name_set, uq_name_set, v1_uq_name_set. generalize (ss_new []).
      clear - Q4. induction Q4 as [|c c' cs cs' [(A1 & A2 & A3 & A4 & A5 & A6 & A7 & A8) _] F IH]; intros z.
      * split; [reflexivity|]. split; reflexivity.
      * cbn [fold_left]. rewrite A1, A6, A7. split; [apply IH|]. split; [apply IH|]. intros m.
        cbn [v1_column_by_name column_name_map]. destruct (IH z) as (_ & _ & K). specialize (K m).
        destruct (v1_column_by_name cs m) as [d|].
        -- destruct K as (d' & -> & K). now exists d'.
        -- rewrite K, A1. destruct (String.eqb (o_name c) m); [|reflexivity]. exists c'. split; [reflexivity|].
           unfold same_column. repeat (split; [assumption|]). exact A8.
  - apply table_by_name_none. rewrite N. intros I. apply in_map_iff in I as (t & E1 & I). exact (T t (Permutation_in t P I) E1).
Qed.
Lemma imported_renamed : forall c d, v1_is_renamed c d false = true -> is_renamed (from_v1_column c) (from_v1_column d) false = true.
Proof.
  intros c d H. apply v1_renamed_iff in H as (A1 & A2 & A3 & A4 & A5 & A6 & A7 & A8 & _). specialize (A2 eq_refl).
  unfold is_renamed. cbn. now rewrite A1, A2, A3, A4, A5, A6, A7, A8, !String.eqb_refl, !N.eqb_refl, !Bool.eqb_reflx.
Qed.
Lemma imported_not_renamed :
  (exists c d, v1_normalize_col c = Ok c /\ v1_normalize_col d = Ok d /\ v1_is_renamed c d false = false /\
     is_renamed (from_v1_column c) (from_v1_column d) false = true) /\
  (exists c d, v1_normalize_col c = Ok c /\ v1_normalize_col d = Ok d /\ v1_is_renamed c d true = true /\
     is_renamed (from_v1_column c) (from_v1_column d) true = false).
Proof.
  split.
  - exists (mkV1Col "a" "int" "" 0 0 false false false false "1" None), (mkV1Col "b" "int" "" 0 0 false false false false "2" None).
    vm_compute. repeat split.
  - exists (mkV1Col "a" "int" "one" 0 0 false false false false "" None), (mkV1Col "b" "int" "two" 0 0 false false false false "" None).
    vm_compute. repeat split.
Qed.
