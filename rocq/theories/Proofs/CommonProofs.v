(** Prefix and annotation mappers, file formats *)
From Coq Require Import String Ascii List NArith Bool Lia Arith.
From Verif.Model Require Import GoString Util Octopus Common.
From Verif.Spec Require Import Order Text CommonSpec.
From Verif.Proofs Require Import ListLemmas StringLemmas.
Import ListNotations.
Local Open Scope string_scope.

(** * Mappers *)
Lemma prefix_tokens_panic : forall toks m,
  prefix_tokens toks m = Panic <-> exists t, In t toks /\ ~ char_in ":" t.
Proof.
  induction toks as [|t toks IH]; simpl; intros.
  - split; [discriminate|]. intros [t [[] _]].
  - destruct (split_once ":" t) as [g [v|]] eqn:E.
    + rewrite IH. apply split_once_some in E. destruct E as [-> _]. split.
      * intros [t [H1 H2]]. eauto.
      * intros [t [[<-|H1] H2]]; eauto. exfalso. apply H2. apply char_in_app. simpl. auto.
    + apply split_once_none in E. destruct E as [-> E]. split; auto. intros _. eauto.
Qed.

Lemma anno_tokens_panic : forall toks m,
  anno_tokens toks m = Panic <-> exists t, In t toks /\ ~ char_in ":" t.
Proof.
  induction toks as [|t toks IH]; simpl; intros.
  - split; [discriminate|]. intros [t [[] _]].
  - destruct (split_once ":" t) as [g [v|]] eqn:E.
    + rewrite IH. apply split_once_some in E. destruct E as [-> _]. split.
      * intros [t [H1 H2]]. eauto.
      * intros [t [[<-|H1] H2]]; eauto. exfalso. apply H2. apply char_in_app. simpl. auto.
    + apply split_once_none in E. destruct E as [-> E]. split; auto. intros _. eauto.
Qed.

Lemma split_once_pair : forall g v, ~ char_in ":" g -> split_once ":" (g ++ ":" ++ v) = (g, Some v).
Proof. intros. apply split_once_some. split; auto. Qed.

Lemma prefix_tokens_pairs : forall (l : list (string * string)) m,
  (forall g v, In (g, v) l -> ~ char_in ":" g) ->
  prefix_tokens (map (fun p => fst p ++ ":" ++ snd p) l) m = Ok (rev l ++ m)%list.
Proof.
  induction l as [|[g v] l IH]; intros m H; [reflexivity|].
  cbn [map prefix_tokens fst snd]. rewrite split_once_pair by (eapply H; left; reflexivity).
  rewrite IH by (intros; eapply H; right; eauto). cbn [rev]. now rewrite <- app_assoc.
Qed.

Lemma anno_tokens_pairs : forall (l : list (string * string)) m,
  (forall g v, In (g, v) l -> ~ char_in ":" g) ->
  anno_tokens (map (fun p => fst p ++ ":" ++ snd p) l) m =
  Ok (rev (map (fun p => (fst p, split_char ";" (snd p))) l) ++ m)%list.
Proof.
  induction l as [|[g v] l IH]; intros m H; [reflexivity|].
  cbn [map anno_tokens fst snd]. rewrite split_once_pair by (eapply H; left; reflexivity).
  rewrite IH by (intros; eapply H; right; eauto). cbn [rev map fst snd]. now rewrite <- app_assoc.
Qed.

Lemma alist_find_app : forall {V} (a b : list (string * V)) k,
  alist_find (a ++ b)%list k = match alist_find a k with Some v => Some v | None => alist_find b k end.
Proof.
  induction a as [|[x v] a IH]; simpl; intros; auto. destruct (String.eqb k x); auto.
Qed.

Lemma alist_find_none : forall {V} (a : list (string * V)) k,
  alist_find a k = None <-> ~ In k (map fst a).
Proof.
  induction a as [|[x v] a IH]; simpl; intros; [tauto|].
  destruct (String.eqb_spec k x); [subst; split; [discriminate|tauto]|].
  rewrite IH. split; [|tauto]. intros H [->|H1]; tauto.
Qed.

Lemma alist_find_last : forall {V} (l1 l2 : list (string * V)) k v,
  ~ In k (map fst l2) -> alist_find (rev (l1 ++ (k, v) :: l2)) k = Some v.
Proof.
  intros. rewrite rev_app_distr. simpl. rewrite <- app_assoc. rewrite alist_find_app.
  rewrite (proj2 (alist_find_none (rev l2) k)).
  - simpl. now rewrite String.eqb_refl.
  - rewrite map_rev, <- in_rev. auto.
Qed.

Lemma pairs_text_split : forall l, l <> [] ->
  (forall g v, In (g, v) l -> ~ char_in "," g /\ ~ char_in "," v) ->
  split_char "," (pairs_text l) = map (fun p => fst p ++ ":" ++ snd p) l.
Proof.
  intros. apply split_char_of_join.
  - destruct l; [congruence|discriminate].
  - intros x Hx. apply in_map_iff in Hx. destruct Hx as [[g v] [<- Hx]]. apply H0 in Hx. simpl.
    intros Hc. apply char_in_app in Hc. destruct Hc as [Hc|[Hc|Hc]]; [tauto|discriminate|tauto].
Qed.

Lemma pairs_text_colon : forall l, l <> [] -> contains_char ":" (pairs_text l) = true.
Proof.
  intros l H. apply contains_char_iff. destruct l as [|[g v] l]; [congruence|].
  unfold pairs_text. simpl. destruct l; simpl.
  - apply char_in_app. simpl. auto.
  - apply char_in_app. left. apply char_in_app. simpl. auto.
Qed.

Lemma prefix_panic : forall opt,
  new_prefix_mapper opt = Panic <->
  char_in ":" opt /\ exists t, In t (split_char "," opt) /\ ~ char_in ":" t.
Proof.
  intros. unfold new_prefix_mapper. destruct (contains_char ":" opt) eqn:E.
  - apply contains_char_iff in E. pose proof (prefix_tokens_panic (split_char "," opt) []) as P.
    destruct (prefix_tokens (split_char "," opt) []).
    + split; [discriminate|]. intros [_ H]. apply P in H. discriminate.
    + split; auto. intros _. split; auto. now apply P.
  - apply contains_char_false in E. split; [discriminate|tauto].
Qed.

Lemma anno_panic : forall opt,
  new_anno_mapper opt = Panic <->
  char_in ":" opt /\ exists t, In t (split_char "," opt) /\ ~ char_in ":" t.
Proof.
  intros. unfold new_anno_mapper. destruct (contains_char ":" opt) eqn:E.
  - apply contains_char_iff in E. pose proof (anno_tokens_panic (split_char "," opt) []) as P.
    destruct (anno_tokens (split_char "," opt) []).
    + split; [discriminate|]. intros [_ H]. apply P in H. discriminate.
    + split; auto. intros _. split; auto. now apply P.
  - apply contains_char_false in E. split; [discriminate|tauto].
Qed.

Lemma prefix_plain : forall opt, ~ char_in ":" opt ->
  exists p, new_prefix_mapper opt = Ok p /\ forall g, get_prefix p g = opt.
Proof.
  intros. apply contains_char_false in H. unfold new_prefix_mapper. rewrite H.
  eexists. split; [reflexivity|]. reflexivity.
Qed.

Lemma anno_plain : forall opt, ~ char_in ":" opt ->
  exists p, new_anno_mapper opt = Ok p /\ forall g, get_annotations p g = [opt].
Proof.
  intros. apply contains_char_false in H. unfold new_anno_mapper. rewrite H.
  eexists. split; [reflexivity|]. reflexivity.
Qed.

Lemma prefix_pairs : forall l, l <> [] ->
  (forall g v, In (g, v) l -> ~ char_in "," g /\ ~ char_in "," v /\ ~ char_in ":" g) ->
  exists p, new_prefix_mapper (pairs_text l) = Ok p /\
    (forall l1 g v l2, l = (l1 ++ (g, v) :: l2)%list -> ~ In g (map fst l2) -> get_prefix p g = v) /\
    (forall g, ~ In g (map fst l) -> get_prefix p g = "").
Proof.
  intros l Hl H. unfold new_prefix_mapper. rewrite pairs_text_colon by auto.
  rewrite pairs_text_split by (auto; intros g v X; apply H in X; tauto).
  rewrite prefix_tokens_pairs by (intros g v X; apply H in X; tauto).
  rewrite app_nil_r. eexists. split; [reflexivity|].
  assert (L : negb (Nat.eqb (length (rev l)) 0) = true).
  { rewrite rev_length. destruct l; [congruence|reflexivity]. }
  unfold get_prefix. cbn [pm_use_map pm_map]. rewrite L. split.
  - intros l1 g v l2 -> N. now rewrite alist_find_last.
  - intros g N. rewrite (proj2 (alist_find_none (rev l) g)); auto. now rewrite map_rev, <- in_rev.
Qed.

Lemma anno_pairs : forall l, l <> [] ->
  (forall g v, In (g, v) l -> ~ char_in "," g /\ ~ char_in "," v /\ ~ char_in ":" g) ->
  exists p, new_anno_mapper (pairs_text l) = Ok p /\
    (forall l1 g annos l2, l = (l1 ++ (g, join ";" annos) :: l2)%list -> ~ In g (map fst l2) ->
       annos <> [] -> (forall a, In a annos -> ~ char_in ";" a) -> get_annotations p g = annos) /\
    (forall g, ~ In g (map fst l) -> get_annotations p g = []).
Proof.
  intros l Hl H. unfold new_anno_mapper. rewrite pairs_text_colon by auto.
  rewrite pairs_text_split by (auto; intros g v X; apply H in X; tauto).
  rewrite anno_tokens_pairs by (intros g v X; apply H in X; tauto).
  rewrite app_nil_r. eexists. split; [reflexivity|].
  assert (L : negb (Nat.eqb (length (rev (map (fun p : string * string => (fst p, split_char ";" (snd p))) l))) 0) = true).
  { rewrite rev_length, map_length. destruct l; [congruence|reflexivity]. }
  unfold get_annotations. cbn [am_use_map am_map]. rewrite L. split.
  - intros l1 g v l2 -> N A1 A2. rewrite map_app. simpl. rewrite alist_find_last.
    + now apply split_char_of_join.
    + rewrite map_map. simpl. exact N.
  - intros g N. rewrite (proj2 (alist_find_none _ g)); auto. rewrite map_rev, <- in_rev, map_map. exact N.
Qed.

(** * File formats *)
Lemma string_rev_app_acc : forall s acc, string_rev_app s acc = string_rev s ++ acc.
Proof.
  unfold string_rev. induction s; intros; simpl; auto.
  rewrite IHs, (IHs (String a "")), app_assoc_s. reflexivity.
Qed.
Lemma string_rev_cons : forall c s, string_rev (String c s) = string_rev s ++ String c "".
Proof. intros. unfold string_rev at 1. simpl. apply string_rev_app_acc. Qed.
Lemma string_rev_app_s : forall a b, string_rev (a ++ b) = string_rev b ++ string_rev a.
Proof.
  induction a; intros; simpl.
  - now rewrite app_nil_r_s.
  - rewrite !string_rev_cons, IHa, app_assoc_s. reflexivity.
Qed.
Lemma string_rev_invol : forall s, string_rev (string_rev s) = s.
Proof. induction s; auto. rewrite string_rev_cons, string_rev_app_s, IHs. reflexivity. Qed.

Lemma ext_scan_clean : forall r acc tail, clean_ext r ->
  ext_scan (r ++ tail) acc = ext_scan tail (string_rev r ++ acc).
Proof.
  induction r; intros acc tail [H1 H2]; auto. simpl in H1, H2.
  rewrite string_rev_cons, app_assoc_s. simpl.
  destruct (Ascii.eqb_spec a "/"); [subst; tauto|].
  destruct (Ascii.eqb_spec a "."); [subst; tauto|].
  rewrite IHr; [reflexivity|split; tauto].
Qed.

Lemma char_in_rev : forall c s, char_in c (string_rev s) <-> char_in c s.
Proof.
  induction s; [tauto|]. rewrite string_rev_cons, char_in_app. simpl. rewrite IHs. tauto.
Qed.

Lemma filepath_ext_dot : forall pre e, clean_ext e -> filepath_ext (pre ++ "." ++ e) = "." ++ e.
Proof.
  intros pre e [H1 H2]. unfold filepath_ext. rewrite string_rev_app_s.
  change ("." ++ e) with (String "." e). rewrite string_rev_cons, app_assoc_s.
  rewrite ext_scan_clean by (split; rewrite char_in_rev; auto).
  rewrite string_rev_invol, app_nil_r_s. reflexivity.
Qed.

(** every file name has the form handled above, or has no dot after its last slash *)
Lemma filepath_cases : forall f,
  (exists pre e, clean_ext e /\ f = pre ++ "." ++ e) \/
  (exists dir base, clean_ext base /\ (f = base \/ f = dir ++ "/" ++ base)).
Proof.
  intros f. rewrite <- (string_rev_invol f). generalize (string_rev f). clear f.
  intros r.
  assert (G : (exists a b, clean_ext a /\ (r = a \/ r = a ++ String "." b \/ r = a ++ String "/" b))).
  { induction r as [|c r IH].
    - exists "", "". split; [split; simpl; tauto|auto].
    - destruct (Ascii.eqb_spec c "/"); [subst; exists "", r; split; [split; simpl; tauto|auto]|].
      destruct (Ascii.eqb_spec c "."); [subst; exists "", r; split; [split; simpl; tauto|auto]|].
      destruct IH as [a [b [[H1 H2] H3]]]. exists (String c a), b.
      split; [split; simpl; intros [|]; congruence || tauto|].
      destruct H3 as [->|[->| ->]]; auto. }
  destruct G as [a [b [[H1 H2] H3]]].
  assert (C : clean_ext (string_rev a)) by (split; rewrite char_in_rev; auto).
  destruct H3 as [->|[->| ->]].
  - right. exists "", (string_rev a). auto.
  - left. exists (string_rev b), (string_rev a). split; auto.
    rewrite string_rev_app_s, string_rev_cons, app_assoc_s. reflexivity.
  - right. exists (string_rev b), (string_rev a). split; auto. right.
    rewrite string_rev_app_s, string_rev_cons, app_assoc_s. reflexivity.
Qed.

Lemma filepath_ext_none : forall f dir base, clean_ext base -> (f = base \/ f = dir ++ "/" ++ base) ->
  filepath_ext f = "".
Proof.
  intros f dir base [H1 H2] [->| ->]; unfold filepath_ext.
  - rewrite <- (app_nil_r_s (string_rev base)), ext_scan_clean; auto. split; rewrite char_in_rev; auto.
  - rewrite string_rev_app_s. change ("/" ++ base) with (String "/" base). rewrite string_rev_cons, app_assoc_s.
    rewrite ext_scan_clean; [reflexivity|]. split; rewrite char_in_rev; auto.
Qed.

Definition table_format (e : string) : string :=
  match alist_find format_table e with Some f => f | None => "" end.

Lemma table_format_spec : forall e, has_format e (table_format e).
Proof.
  intros. unfold has_format, table_format.
  destruct (in_dec string_dec e (map fst format_table)) as [H|H].
  - left. simpl in H.
    repeat (destruct H as [<-|H]; [simpl; tauto|]). destruct H.
  - right. split; auto. now rewrite (proj2 (alist_find_none format_table e)).
Qed.

Lemma lower_clean : forall e, to_lower ("." ++ e) = "." ++ to_lower e.
Proof. reflexivity. Qed.

Lemma file_format_dot : forall pre e, clean_ext e ->
  get_file_format (pre ++ "." ++ e) = table_format (to_lower e).
Proof.
  intros. unfold get_file_format. rewrite filepath_ext_dot by auto. rewrite lower_clean.
  generalize (to_lower e). intros x. unfold table_format. cbn [format_table alist_find].
  assert (E : forall y, String.eqb ("." ++ x) ("." ++ y) = String.eqb x y).
  { intros. simpl. reflexivity. }
  change ".graphql" with ("." ++ "graphql"). change ".graphqls" with ("." ++ "graphqls").
  change ".json" with ("." ++ "json"). change ".mdj" with ("." ++ "mdj").
  change ".ojson" with ("." ++ "ojson"). change ".plantuml" with ("." ++ "plantuml").
  change ".schema" with ("." ++ "schema"). change ".xlsx" with ("." ++ "xlsx").
  rewrite !E.
  repeat match goal with |- context [String.eqb x ?y] => destruct (String.eqb_spec x y) end; reflexivity.
Qed.

Lemma file_format_none : forall dir base, clean_ext base ->
  get_file_format base = "" /\ get_file_format (dir ++ "/" ++ base) = "".
Proof.
  intros. unfold get_file_format.
  rewrite (filepath_ext_none base dir base), (filepath_ext_none (dir ++ "/" ++ base) dir base) by auto.
  split; reflexivity.
Qed.

Lemma load_schema_accepts_iff : forall f,
  load_schema_accepts f = true <->
  exists pre e, f = pre ++ "." ++ e /\ clean_ext e /\ (to_lower e = "json" \/ to_lower e = "ojson").
Proof.
  intros f. unfold load_schema_accepts. destruct (filepath_cases f) as [[pre [e [C ->]]]|[dir [base [C H]]]].
  - rewrite file_format_dot by auto. split.
    + intros H. exists pre, e. split; auto. split; auto.
      unfold table_format in H. cbn [format_table alist_find] in H.
      repeat match type of H with context [String.eqb (to_lower e) ?y] =>
        destruct (String.eqb_spec (to_lower e) y); [try (exfalso; discriminate H); auto|] end.
      discriminate H.
    + intros [pre' [e' [E [C' H]]]].
      assert (X : filepath_ext (pre ++ "." ++ e) = filepath_ext (pre' ++ "." ++ e')) by now rewrite E.
      rewrite !filepath_ext_dot in X by auto. inversion X; subst.
      destruct H as [->| ->]; reflexivity.
  - destruct (file_format_none dir base C) as [F1 F2].
    assert (F : get_file_format f = "") by (destruct H as [->| ->]; auto).
    rewrite F. split; [discriminate|]. intros [pre [e [-> [Ce He]]]].
    rewrite file_format_dot in F by auto. destruct He as [X|X]; rewrite X in F; discriminate.
Qed.

Lemma file_format_spec : forall f,
  (forall pre e, clean_ext e -> f = pre ++ "." ++ e -> has_format (to_lower e) (get_file_format f)) /\
  ((forall pre e, clean_ext e -> f <> pre ++ "." ++ e) -> get_file_format f = "").
Proof.
  intros f. split.
  - intros pre e C ->. rewrite file_format_dot by auto. apply table_format_spec.
  - intros H. destruct (filepath_cases f) as [[pre [e [C ->]]]|[dir [base [C X]]]].
    + exfalso. eapply H; eauto.
    + destruct (file_format_none dir base C) as [F1 F2]. destruct X as [->| ->]; auto.
Qed.
