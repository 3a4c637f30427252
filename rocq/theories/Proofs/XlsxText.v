(** Trimming and attribute texts *)
From Coq Require Import String Ascii List NArith Bool Lia.
From Verif.Model Require Import GoString Util Octopus Common Xlsx.
From Verif.Spec Require Import Text OctopusSpec XlsxSpec.
From Verif.Proofs Require Import StringLemmas TypeProofs.
Import ListNotations.
Local Open Scope string_scope.

Lemma trim_left_id : forall s, ~ starts_blank s -> trim_left s = s.
Proof.
  destruct s as [|c s]; simpl; intros H; auto. destruct (is_space c) eqn:E; auto.
  destruct H. exists c, s. auto.
Qed.

Lemma ends_blank_cons : forall c s, ends_blank s -> ends_blank (String c s).
Proof. intros c s [r [d [-> H]]]. exists (String c r), d. auto. Qed.

Lemma trim_right_id : forall s, ~ ends_blank s -> trim_right s = s.
Proof.
  induction s as [|c s IH]; intros H; cbn [trim_right]; auto.
  assert (E : trim_right s = s) by (apply IH; intros B; apply H, ends_blank_cons, B).
  rewrite E. destruct s as [|d s].
  - simpl. destruct (is_space c) eqn:Ec; auto. destruct H. exists "", c. auto.
  - simpl. now rewrite andb_false_r.
Qed.

Lemma trim_id : forall s, trimmed s -> trim_space s = s.
Proof.
  intros s [H1 H2]. unfold trim_space. rewrite trim_left_id; auto. now apply trim_right_id.
Qed.

Lemma trim_left_blank : forall l s, blank l -> trim_left (l ++ s) = trim_left s.
Proof.
  induction l as [|c l IH]; intros s H; auto. cbn [append trim_left].
  rewrite (H c (or_introl eq_refl)). apply IH. intros d Hd. apply H. now right.
Qed.

Lemma trim_right_blank : forall s r, blank r -> trim_right (s ++ r) = trim_right s.
Proof.
  induction s as [|c s IH]; intros r H; cbn [append trim_right].
  - induction r as [|d r IHr]; auto. cbn [trim_right].
    rewrite IHr by (intros x Hx; apply H; now right).
    now rewrite (H d (or_introl eq_refl)).
  - now rewrite (IH r H).
Qed.

Lemma not_ends_app : forall a s, s <> "" -> ~ ends_blank s -> ~ ends_blank (a ++ s).
Proof.
  induction a as [|c a IH]; intros s N H; auto. intros [r [d [E B]]]. cbn [append] in E.
  destruct r as [|x r]; cbn [append] in E; injection E as -> E.
  - destruct a; [destruct s; [congruence|discriminate]|discriminate].
  - apply (IH s N H). exists r, d. auto.
Qed.

Lemma starts_app : forall c s, is_space c = false -> ~ starts_blank (String c s).
Proof. intros c s H [d [r [E B]]]. injection E as -> ->. congruence. Qed.

Lemma ends_snoc : forall s c, is_space c = false -> ~ ends_blank (s ++ String c "").
Proof.
  intros s c H. apply not_ends_app; [discriminate|]. intros [r [d [E B]]].
  destruct r as [|x r]; cbn [append] in E.
  - injection E as ->. congruence.
  - injection E as -> E. destruct r; discriminate.
Qed.

Lemma no_ends_nil : ~ ends_blank "".
Proof. intros [r [c [E _]]]. destruct r; discriminate. Qed.
Lemma no_starts_nil : ~ starts_blank "".
Proof. intros [c [r [E _]]]. discriminate. Qed.

(** ** Attributes *)

Lemma trim_attr : forall l a r, blank l -> blank r -> trimmed a -> trim_space (l ++ a ++ r) = a.
Proof.
  intros l a r Hl Hr [H1 H2]. unfold trim_space. rewrite trim_left_blank by exact Hl.
  destruct a as [|c a].
  - cbn [append]. assert (E : trim_left r = "").
    { rewrite <- (app_nil_r_s r). now rewrite trim_left_blank. }
    now rewrite E.
  - rewrite trim_left_id.
    + rewrite trim_right_blank by exact Hr. now apply trim_right_id.
    + intros [d [x [E B]]]. injection E as -> _. apply H1. exists d, a. auto.
Qed.

Lemma split_once_key : forall key v, ~ char_in "=" key ->
  split_once "=" (key ++ "=" ++ v) = (key, Some v).
Proof.
  intros key v H. apply split_once_some. split; auto.
Qed.

Lemma blank_no_comma : forall b, blank b -> ~ char_in "," b.
Proof. intros b H C. specialize (H _ C). discriminate. Qed.

(** the entry an attribute text makes *)
Definition attr_entry (attr : string) : string * string :=
  match split_once "=" (trim_space attr) with
  | (key, Some v) => (key, v)
  | (key, None) => (key, "true")
  end.

Lemma parse_attributes_entries : forall s,
  parse_attributes s = rev (map attr_entry (split_char "," s)).
Proof.
  intros s. unfold parse_attributes.
  assert (G : forall l m, fold_left (fun m attr =>
    match split_once "=" (trim_space attr) with
    | (key, Some v) => (key, v) :: m
    | (key, None) => (key, "true") :: m
    end) l m = (rev (map attr_entry l) ++ m)%list).
  { induction l as [|a l IH]; intros m; auto. cbn [fold_left map rev]. rewrite IH.
    rewrite <- app_assoc. cbn [app]. f_equal. unfold attr_entry.
    destruct (split_once "=" (trim_space a)) as [k [v|]]; reflexivity. }
  rewrite G. now rewrite app_nil_r.
Qed.

Lemma alist_find_app : forall {V} (a b : list (string * V)) k,
  alist_find (a ++ b)%list k = match alist_find a k with Some v => Some v | None => alist_find b k end.
Proof.
  induction a as [|[k' v] a IH]; intros b k; auto. cbn [app alist_find].
  destruct (String.eqb k k'); auto.
Qed.

Lemma alist_find_in : forall {V} (l : list (string * V)) k v, alist_find l k = Some v -> In (k, v) l.
Proof.
  induction l as [|[k' v'] l IH]; intros k v H; [discriminate|]. cbn [alist_find] in H.
  destruct (String.eqb_spec k k').
  - injection H as ->. subst. now left.
  - right. auto.
Qed.

Lemma alist_find_none : forall {V} (l : list (string * V)) k, alist_find l k = None -> forall v, ~ In (k, v) l.
Proof.
  induction l as [|[k' v'] l IH]; intros k H v I; [destruct I|]. cbn [alist_find] in H.
  destruct (String.eqb_spec k k') as [e|n]; [discriminate|].
  destruct I as [E|E]; [congruence|]. exact (IH k H v E).
Qed.

(** a key bound to one value only *)
Lemma attr_get_unique : forall m k v, In (k, v) m -> (forall w, In (k, w) m -> w = v) -> attr_get m k = v.
Proof.
  intros m k v I U. unfold attr_get. destruct (alist_find m k) as [w|] eqn:E.
  - apply U. now apply alist_find_in.
  - destruct (alist_find_none m k E v I).
Qed.

Lemma attr_get_absent : forall m k, (forall w, ~ In (k, w) m) -> attr_get m k = "".
Proof.
  intros m k U. unfold attr_get. destruct (alist_find m k) as [w|] eqn:E; auto.
  destruct (U w). now apply alist_find_in.
Qed.

Lemma in_parse : forall s e, In e (parse_attributes s) <-> In e (map attr_entry (split_char "," s)).
Proof. intros s e. rewrite parse_attributes_entries. symmetry. apply in_rev. Qed.

(** ** Documented cells *)

Definition doc_entry (w : string) (a : doc_attr) : string * string :=
  match a with
  | DAutoinc => (w, "true")
  | DDefault v => ("default", v)
  | DOnUpdate v => ("onUpdate", v)
  | DClass v => ("class", v)
  end.

Definition plain_word (w : string) : Prop := w <> "" /\ trimmed w /\ ~ char_in "," w /\ ~ char_in "=" w.

Ltac no_char := let H := fresh in intros H; cbn in H; repeat (destruct H as [H|H]; [discriminate|]); destruct H.

Lemma key_trimmed : forall c k v, is_space c = false -> attr_value v ->
  trimmed (String c k ++ "=" ++ v).
Proof.
  intros c k v Hc [Hv1 Hv2]. split.
  - cbn [append]. now apply starts_app.
  - destruct v as [|d v].
    + cbn [append]. exact (ends_snoc (String c k) "=" eq_refl).
    + replace (String c k ++ "=" ++ String d v) with ((String c k ++ "=") ++ String d v)
        by apply app_assoc_s.
      apply not_ends_app; [discriminate|exact Hv2].
Qed.

Lemma doc_text_trimmed : forall w a, plain_word w -> attr_value (doc_attr_value a) ->
  trimmed (doc_attr_text w a).
Proof.
  intros w a [W1 [W2 _]] H. destruct a as [|v|v|v]; cbn [doc_attr_text doc_attr_value] in *; auto.
  - exact (key_trimmed "d" "efault" v eq_refl H).
  - exact (key_trimmed "o" "nUpdate" v eq_refl H).
  - exact (key_trimmed "c" "lass" v eq_refl H).
Qed.

Lemma doc_text_entry : forall w a, plain_word w ->
  (match split_once "=" (doc_attr_text w a) with
   | (key, Some v) => (key, v)
   | (key, None) => (key, "true")
   end) = doc_entry w a.
Proof.
  intros w a [_ [_ [_ W]]]. destruct a as [|v|v|v]; cbn [doc_attr_text doc_entry].
  - assert (E : split_once "=" w = (w, None)) by now apply split_once_none.
    now rewrite E.
  - change ("default=" ++ v) with ("default" ++ "=" ++ v).
    now rewrite (split_once_key "default" v) by no_char.
  - change ("onUpdate=" ++ v) with ("onUpdate" ++ "=" ++ v).
    now rewrite (split_once_key "onUpdate" v) by no_char.
  - change ("class=" ++ v) with ("class" ++ "=" ++ v).
    now rewrite (split_once_key "class" v) by no_char.
Qed.

Lemma doc_text_no_comma : forall w a, plain_word w -> attr_value (doc_attr_value a) ->
  ~ char_in "," (doc_attr_text w a).
Proof.
  intros w a [_ [_ [W _]]] [H _]. destruct a as [|v|v|v]; cbn [doc_attr_text doc_attr_value] in *; auto.
  all: cbn [append char_in]; intuition discriminate.
Qed.

Lemma entry_of_doc : forall w a l r, plain_word w -> attr_value (doc_attr_value a) -> blank l -> blank r ->
  attr_entry (l ++ doc_attr_text w a ++ r) = doc_entry w a.
Proof.
  intros w a l r W H Hl Hr. unfold attr_entry.
  rewrite trim_attr; auto; [now apply doc_text_entry|now apply doc_text_trimmed].
Qed.

Lemma doc_cell_entries : forall w l cell, plain_word w -> doc_cell w l cell ->
  Forall (fun a => attr_value (doc_attr_value a)) l ->
  map attr_entry (split_char "," cell) = map (doc_entry w) l \/
  map attr_entry (split_char "," cell) = (map (doc_entry w) l ++ [("", "true")])%list.
Proof.
  intros w l cell W D. induction D as [b Hb|a x y Hx Hy|a x y rest cell Hx Hy D IH]; intros F.
  - right. rewrite split_char_nochar by now apply blank_no_comma.
    cbn [map app]. unfold attr_entry. rewrite <- (app_nil_r_s b). rewrite <- (app_nil_r_s (b ++ "")).
    rewrite app_assoc_s. rewrite trim_attr; auto.
    + intros c [].
    + split; [apply no_starts_nil|apply no_ends_nil].
  - left. inversion F; subst. rewrite split_char_nochar.
    + cbn [map]. now rewrite entry_of_doc.
    + rewrite !char_in_app. intros [C|[C|C]]; [now apply (blank_no_comma x)| |now apply (blank_no_comma y)].
      now apply (doc_text_no_comma w a).
  - inversion F as [|? ? F1 F2]; subst.
    replace (x ++ doc_attr_text w a ++ y ++ "," ++ cell) with
      ((x ++ doc_attr_text w a ++ y) ++ String "," cell) by (rewrite !app_assoc_s; reflexivity).
    rewrite split_char_app.
    + cbn [map app]. rewrite entry_of_doc by auto. destruct (IH F2) as [E|E]; rewrite E; auto.
    + rewrite !char_in_app. intros [C|[C|C]]; [now apply (blank_no_comma x)| |now apply (blank_no_comma y)].
      now apply (doc_text_no_comma w a).
Qed.

(** looking an attribute up in a documented cell *)
Lemma doc_cell_in : forall w l cell k v, plain_word w -> doc_cell w l cell ->
  Forall (fun a => attr_value (doc_attr_value a)) l -> k <> "" ->
  (In (k, v) (parse_attributes cell) <-> exists a, In a l /\ doc_entry w a = (k, v)).
Proof.
  intros w l cell k v W D F N. rewrite in_parse.
  assert (M : In (k, v) (map (doc_entry w) l) <-> exists a, In a l /\ doc_entry w a = (k, v)).
  { rewrite in_map_iff. split; intros [a [A B]]; exists a; auto. }
  destruct (doc_cell_entries w l cell W D F) as [E|E]; rewrite E; rewrite ?in_app_iff, M.
  - reflexivity.
  - split; auto. intros [H|[H|[]]]; auto. congruence.
Qed.
