(** The reader for Python expressions reads back what is written in the obvious way *)
From Coq Require Import String Ascii List NArith Bool Lia Arith.
From Verif.Model Require Import GoString.
From Verif.Spec Require Import Text Reading SqlalchemySpec.
From Verif.Proofs Require Import StringLemmas ReadingProofs.
Import ListNotations.
Local Open Scope string_scope.

(** ** Characters *)

Lemma all_of_iff : forall p s, all_of p s = true <-> forall c, char_in c s -> p c = true.
Proof.
  induction s as [|d s IH]; cbn.
  - split; [intros _ c []|reflexivity].
  - rewrite andb_true_iff, IH. split.
    + intros [A B] c [->|I]; auto.
    + intros H. split; [apply H; now left|]. intros c I. apply H. now right.
Qed.
Lemma is_word_iff : forall s, is_word s = true <-> word s.
Proof.
  intros s. unfold is_word, word. rewrite andb_true_iff, negb_true_iff, all_of_iff.
  rewrite String.eqb_neq. reflexivity.
Qed.
Lemma is_word_no : forall s c, char_in c s -> word_char c = false -> is_word s = false.
Proof.
  intros s c I W. destruct (is_word s) eqn:E; [|reflexivity]. apply is_word_iff in E.
  exfalso. exact (word_no s c E W I).
Qed.

Lemma split_on_char : forall c d s, char_in d s -> d = c \/ exists p, In p (split_on c s) /\ char_in d p.
Proof.
  induction s as [|e s IH]; intros I; [destruct I|]. cbn [split_on].
  destruct (Ascii.eqb_spec e c) as [->|N].
  - destruct I as [->|I]; [now left|]. destruct (IH I) as [->|[p [A B]]]; [now left|]. right. exists p. split; [now right|exact B].
  - destruct (split_on c s) as [|l ls] eqn:E.
    + destruct I as [->|I]; [right; eexists; split; [now left|now left]|].
      destruct (IH I) as [->|[p [[] _]]]. now left.
    + destruct I as [->|I]; [right; eexists; split; [now left|now left]|].
      destruct (IH I) as [->|[p [[<-|A] B]]]; [now left| |].
      * right. eexists. split; [now left|now right].
      * right. exists p. split; [now right|exact B].
Qed.
Lemma dotted_no : forall s c, is_dotted s = true -> word_char c = false -> c <> "."%char -> ~ char_in c s.
Proof.
  intros s c D W N I. destruct (split_on_char "." c s I) as [->|[p [A B]]]; [congruence|].
  unfold is_dotted in D. rewrite forallb_forall in D. specialize (D p A). apply is_word_iff in D.
  exact (word_no p c D W B).
Qed.
Lemma dotted_cons : forall s, is_dotted s = true -> exists c r, s = String c r /\ word_char c = true.
Proof.
  intros [|c r] D; [discriminate|]. exists c, r. split; [reflexivity|].
  unfold is_dotted in D. cbn [split_on] in D. destruct (Ascii.eqb_spec c ".") as [->|N]; [discriminate|].
  destruct (split_on "." r) as [|l ls]; cbn [forallb] in D; apply andb_true_iff in D as [D _]; apply is_word_iff in D;
    destruct D as [_ D]; apply D; now left.
Qed.
Lemma word_dotted : forall s, word s -> is_dotted s = true.
Proof.
  intros s W. unfold is_dotted. rewrite split_on_one by now apply (word_no s "." W).
  cbn. now rewrite (proj2 (is_word_iff s) W).
Qed.

Lemma cut_prefix : forall c a b k v, ~ char_in c a -> cut c (a ++ b) = Some (k, v) -> exists k', k = a ++ k'.
Proof.
  induction a as [|d a IH]; intros b k v N H; cbn [append] in *; [now exists k|].
  cbn [cut] in H. destruct (Ascii.eqb_spec c d) as [->|E]; [exfalso; apply N; now left|].
  destruct (cut c (a ++ b)) as [[k' v']|] eqn:C; [|discriminate]. injection H as <- <-.
  assert (N' : ~ char_in c a) by (intros I; apply N; now right).
  destruct (IH b k' v' N' C) as [k'' ->]. now exists k''.
Qed.
Lemma last_char : forall a b c d, a ++ String c "" = b ++ String d "" -> c = d.
Proof.
  induction a as [|x a IH]; intros [|y b] c d H; cbn [append] in H.
  - now injection H.
  - injection H as _ H. destruct b; discriminate.
  - injection H as _ H. destruct a; discriminate.
  - injection H as _ H. eauto.
Qed.
Lemma strip_some : forall p s r, strip p s = Some r -> s = p ++ r.
Proof.
  induction p as [|c p IH]; intros s r H; [now destruct s; injection H as <-|].
  destruct s as [|d s]; [discriminate|]. cbn in H. destruct (Ascii.eqb_spec c d) as [->|N]; [|discriminate].
  cbn. f_equal. now apply IH.
Qed.
Lemma strip_end_some : forall p s r, strip_end p s = Some r -> s = r ++ p.
Proof.
  induction s as [|c s IH]; intros r H; cbn [strip_end] in H.
  - destruct (String.eqb_spec "" p) as [<-|N]; [now injection H as <-|discriminate].
  - destruct (String.eqb_spec (String c s) p) as [<-|N]; [now injection H as <-|].
    destruct (strip_end p s) as [a|] eqn:E; [|discriminate]. injection H as <-. cbn. f_equal. now apply IH.
Qed.
(** a text whose last character differs *)
Lemma between_last : forall p s c d, c <> d -> between p (String d "") (s ++ String c "") = None.
Proof.
  intros p s c d N. unfold between. destruct (strip p (s ++ String c "")) as [r|] eqn:E; [|reflexivity].
  destruct (strip_end (String d "") r) as [a|] eqn:F; [|reflexivity]. exfalso.
  apply strip_some in E. apply strip_end_some in F. subst r. rewrite <- app_assoc_s in E. apply last_char in E. congruence.
Qed.
Lemma strip_char_none : forall c d r, c <> d -> strip (String c "") (String d r) = None.
Proof. intros c d r N. cbn. destruct (Ascii.eqb_spec c d); congruence. Qed.

(** ** Writing *)

Fixpoint pr (e : pexpr) : string :=
  match e with
  | EStr s => "'" ++ s ++ "'"
  | EName s => s
  | ECall f args => f ++ "(" ++ join ", " (map (fun a => (if String.eqb (fst a) "" then "" else fst a ++ "=") ++ pr (snd a)) args) ++ ")"
  end.
Definition pr_arg (a : string * pexpr) : string := (if String.eqb (fst a) "" then "" else fst a ++ "=") ++ pr (snd a).
Lemma pr_call : forall f args, pr (ECall f args) = f ++ "(" ++ join ", " (map pr_arg args) ++ ")".
Proof. reflexivity. Qed.

Definition plain (s : string) : Prop := all_chars (fun c => word_char c = true) s.
Fixpoint wf (n : nat) (e : pexpr) : Prop :=
  match e with
  | EStr s => plain s
  | EName s => is_dotted s = true
  | ECall f args => match n with
                    | O => False
                    | S n' => is_dotted f = true /\ forall k e', In (k, e') args -> (k = "" \/ word k) /\ wf n' e'
                    end
  end.

(** ** Commas *)

Definition deep (s : string) : Prop :=
  forall d r x xs, split_args (S d) r = x :: xs -> split_args (S d) (s ++ r) = (s ++ x) :: xs.
Definition flat (s : string) : Prop :=
  forall d r x xs, split_args d r = x :: xs -> split_args d (s ++ r) = (s ++ x) :: xs.
Lemma flat_deep : forall s, flat s -> deep s.
Proof. intros s H d. apply H. Qed.
Lemma flat_app : forall a b, flat a -> flat b -> flat (a ++ b).
Proof. intros a b A B d r x xs H. rewrite !app_assoc_s. apply A. now apply B. Qed.
Lemma deep_app : forall a b, deep a -> deep b -> deep (a ++ b).
Proof. intros a b A B d r x xs H. rewrite !app_assoc_s. apply A. now apply B. Qed.
Lemma flat_nil : flat "".
Proof. intros d r x xs H. exact H. Qed.
Lemma flat_plain : forall s, ~ char_in "(" s -> ~ char_in ")" s -> ~ char_in "," s -> flat s.
Proof.
  induction s as [|c s IH]; intros A B C; [apply flat_nil|]. intros d r x xs H.
  assert (c <> "("%char) by (intros ->; apply A; now left).
  assert (c <> ")"%char) by (intros ->; apply B; now left).
  assert (c <> ","%char) by (intros ->; apply C; now left).
  cbn [append split_args].
  destruct (Ascii.eqb_spec c "("); [congruence|]. destruct (Ascii.eqb_spec c ")"); [congruence|].
  destruct (Ascii.eqb_spec c ","); [congruence|]. cbn [andb].
  rewrite (IH (fun Q => A (or_intror Q)) (fun Q => B (or_intror Q)) (fun Q => C (or_intror Q)) d r x xs H). reflexivity.
Qed.
Lemma deep_comma : deep ",".
Proof. intros d r x xs H. cbn [append split_args]. cbn. cbn in H. now rewrite H. Qed.
Lemma flat_parens : forall s, deep s -> flat ("(" ++ s ++ ")").
Proof.
  intros s D d r x xs H. cbn [append split_args].
  change (Ascii.eqb "(" "(") with true. change (Ascii.eqb "(" ",") with false. cbn [andb].
  rewrite app_assoc_s. rewrite (D d (")" ++ r) (")" ++ x) xs).
  - now rewrite app_assoc_s.
  - cbn [append split_args]. change (Ascii.eqb ")" "(") with false. change (Ascii.eqb ")" ")") with true.
    change (Ascii.eqb ")" ",") with false. cbn [andb pred]. now rewrite H.
Qed.
Lemma deep_join : forall l, (forall x, In x l -> flat x) -> deep (join ", " l).
Proof.
  induction l as [|x l IH]; intros H; [apply flat_deep, flat_nil|]. destruct l as [|y l].
  - apply flat_deep, H. now left.
  - change (join ", " (x :: y :: l)) with (x ++ "," ++ " " ++ join ", " (y :: l)).
    apply deep_app; [apply flat_deep, H; now left|]. apply deep_app; [apply deep_comma|].
    apply deep_app; [apply flat_deep, flat_plain; nochar|]. apply IH. intros z I. apply H. now right.
Qed.

Lemma plain_no : forall s c, plain s -> word_char c = false -> ~ char_in c s.
Proof. intros s c P W I. specialize (P c I). cbv beta in P. congruence. Qed.
Lemma plain_app : forall a b, plain a -> plain b -> plain (a ++ b).
Proof. intros a b A B c I. apply char_in_app in I as [I|I]; [now apply A|now apply B]. Qed.
Lemma word_plain : forall s, word s -> plain s.
Proof. intros s [_ H]. exact H. Qed.

Lemma pr_flat : forall n e, wf n e -> flat (pr e).
Proof.
  induction n as [|n IH]; intros [s|s|f args] W; cbn [wf] in W.
  1, 4: cbn [pr]; apply flat_plain; repeat apply no_app; (nochar || (apply (plain_no s _ W); reflexivity)).
  1, 3: cbn [pr]; apply flat_plain; apply (dotted_no s _ W); (reflexivity || discriminate).
  - destruct W.
  - destruct W as [F A]. rewrite pr_call.
    apply flat_app; [apply flat_plain; apply (dotted_no f _ F); (reflexivity || discriminate)|].
    apply flat_parens, deep_join. intros x I. apply in_map_iff in I as [[k e] [<- I]].
    destruct (A k e I) as [K W]. unfold pr_arg. cbn [fst snd]. apply flat_app; [|now apply IH].
    destruct (String.eqb_spec k "") as [->|N]; [apply flat_nil|]. destruct K as [K|K]; [congruence|].
    apply flat_plain; nochar.
Qed.
Lemma arg_flat : forall n k e, (k = "" \/ word k) -> wf n e -> flat (pr_arg (k, e)).
Proof.
  intros n k e K W. unfold pr_arg. cbn [fst snd]. apply flat_app; [|now apply (pr_flat n)].
  destruct (String.eqb_spec k "") as [->|N]; [apply flat_nil|]. destruct K as [K|K]; [congruence|].
  apply flat_plain; nochar.
Qed.

Lemma pr_cons : forall n e, wf n e -> exists c r, pr e = String c r /\
  (word_char c = true \/ (c = "'"%char /\ exists s, e = EStr s)).
Proof.
  intros n [s|s|f args] W.
  - exists "'"%char, (s ++ "'"). split; [reflexivity|]. right. split; [reflexivity|now exists s].
  - assert (D : is_dotted s = true) by (destruct n; exact W).
    destruct (dotted_cons s D) as [c [r [-> C]]]. exists c, r. split; [reflexivity|now left].
  - destruct n; [destruct W|]. destruct W as [F _]. destruct (dotted_cons f F) as [c [r [-> C]]].
    exists c, (r ++ "(" ++ join ", " (map pr_arg args) ++ ")"). split; [reflexivity|now left].
Qed.

Lemma split_args_join : forall l, l <> [] -> (forall x, In x l -> flat x) -> unspaced (split_args 0 (join ", " l)) = Some l.
Proof.
  assert (K : forall l x, (forall y, In y (x :: l) -> flat y) -> split_args 0 (join ", " (x :: l)) = x :: map (append " ") l).
  { induction l as [|y l IH]; intros x H.
    - change (join ", " [x]) with x. rewrite <- (app_nil_r_s x) at 1. rewrite (H x (or_introl eq_refl) 0 "" "" [] eq_refl).
      now rewrite app_nil_r_s.
    - change (join ", " (x :: y :: l)) with (x ++ "," ++ " " ++ join ", " (y :: l)).
      rewrite (H x (or_introl eq_refl) 0 _ "" ((" " ++ y) :: map (append " ") l)).
      + now rewrite app_nil_r_s.
      + transitivity ("" :: split_args 0 (" " ++ join ", " (y :: l))); [reflexivity|]. f_equal.
        rewrite (flat_plain " " ltac:(nochar) ltac:(nochar) ltac:(nochar) 0 _ y (map (append " ") l)); [reflexivity|].
        apply IH. intros z I. apply H. now right. }
  intros [|x l] N H; [congruence|]. rewrite (K l x H). cbn [unspaced].
  rewrite (read_all_map (strip " ") (append " ") (fun z => z)).
  - now rewrite map_id.
  - intros z _. apply strip_app.
Qed.

(** ** Reading what was written *)

Lemma join_empty : forall l, l <> [] -> (forall x, In x l -> x <> "") -> String.eqb (join ", " l) "" = false.
Proof.
  intros [|x l] N H; [congruence|]. apply String.eqb_neq. intros Q. destruct l as [|y l].
  - exact (H x (or_introl eq_refl) Q).
  - change (join ", " (x :: y :: l)) with (x ++ ", " ++ join ", " (y :: l)) in Q. destruct x; discriminate.
Qed.

Lemma read_pr : forall n e, wf n e -> read_expr n (pr e) = Some e.
Proof.
  induction n as [|n IH].
  - intros [s|s|f args] W; cbn [wf] in W; [| |destruct W].
    + cbn [pr read_expr]. rewrite between_app.
      rewrite (proj2 (all_of_iff _ s)); [reflexivity|]. intros c I. apply negb_true_iff.
      apply Ascii.eqb_neq. intros ->. exact (plain_no s "'" W eq_refl I).
    + destruct (dotted_cons s W) as [c [r [E C]]]. cbn [pr read_expr]. unfold between.
      rewrite E at 1. rewrite strip_char_none by (intros <-; discriminate).
      rewrite cut_none by (apply (dotted_no s _ W); [reflexivity|discriminate]). now rewrite W.
  - intros [s|s|f args] W; cbn [wf] in W.
    + cbn [pr read_expr]. rewrite between_app.
      rewrite (proj2 (all_of_iff _ s)); [reflexivity|]. intros c I. apply negb_true_iff.
      apply Ascii.eqb_neq. intros ->. exact (plain_no s "'" W eq_refl I).
    + destruct (dotted_cons s W) as [c [r [E C]]]. cbn [pr read_expr]. unfold between.
      rewrite E at 1. rewrite strip_char_none by (intros <-; discriminate).
      rewrite cut_none by (apply (dotted_no s _ W); [reflexivity|discriminate]). now rewrite W.
    + destruct W as [F A]. rewrite pr_call. cbn [read_expr]. unfold between.
      destruct (dotted_cons f F) as [c [r [E C]]].
      replace (strip "'" (f ++ "(" ++ join ", " (map pr_arg args) ++ ")")) with (@None string).
      2: { rewrite E. cbn [append]. symmetry. apply strip_char_none. intros <-. discriminate. }
      change (f ++ "(" ++ join ", " (map pr_arg args) ++ ")") with (f ++ String "(" (join ", " (map pr_arg args) ++ ")")).
      rewrite cut_app by (apply (dotted_no f _ F); [reflexivity|discriminate]).
      rewrite strip_end_app, F.
      destruct args as [|a args]; [reflexivity|].
      rewrite join_empty; [|discriminate|].
      2: { intros x I. apply in_map_iff in I as [[k e] [<- I]]. destruct (A k e I) as [_ W].
           destruct (pr_cons n e W) as [d [q [P _]]]. unfold pr_arg. cbn [fst snd]. rewrite P.
           destruct (String.eqb k ""); [discriminate|]. destruct k; discriminate. }
      rewrite split_args_join; [|discriminate|].
      2: { intros x I. apply in_map_iff in I as [[k e] [<- I]]. destruct (A k e I) as [K W]. now apply (arg_flat n). }
      rewrite (read_all_map _ pr_arg (fun a => a)); [now rewrite map_id|].
      intros [k e] I. destruct (A k e I) as [K W]. unfold pr_arg, read_arg. cbn [fst snd].
      destruct (String.eqb_spec k "") as [->|N].
      * cbn [append]. destruct (cut "=" (pr e)) as [[k v]|] eqn:Q; [|now rewrite (IH e W)].
        replace (is_word k) with false; [now rewrite (IH e W)|]. symmetry.
        destruct e as [s|s|g l].
        -- exfalso. assert (W' : plain s) by (destruct n; exact W). clear W. rename W' into W.
           cbn [pr] in Q. rewrite cut_none in Q; [discriminate|].
           assert (~ char_in "=" s) by (apply (plain_no s _ W); reflexivity). nochar.
        -- exfalso. assert (W' : is_dotted s = true) by (destruct n; exact W). clear W. rename W' into W.
           cbn [pr] in Q. rewrite cut_none in Q; [discriminate|].
           apply (dotted_no s _ W); [reflexivity|discriminate].
        -- destruct n; [destruct W|]. destruct W as [G _]. rewrite pr_call in Q.
           assert (N' : ~ char_in "=" (g ++ "(")).
           { apply no_app; [|nochar]. apply (dotted_no g _ G); [reflexivity|discriminate]. }
           change (g ++ "(" ++ join ", " (map pr_arg l) ++ ")") with (g ++ ("(" ++ (join ", " (map pr_arg l) ++ ")"))) in Q.
           rewrite <- app_assoc_s in Q. destruct (cut_prefix _ _ _ _ _ N' Q) as [k' ->].
           apply (is_word_no _ "("); [|reflexivity]. apply char_in_app. left. apply char_in_app. right. now left.
      * destruct K as [K|K]; [congruence|]. rewrite app_assoc_s.
        change (k ++ "=" ++ pr e) with (k ++ String "=" (pr e)). rewrite cut_app by nochar.
        rewrite (proj2 (is_word_iff k) K). now rewrite (IH e W).
Qed.

(** the characters of an expression *)
Definition marks : list ascii := ["'"; "("; ")"; ","; "="; "."; " "]%char.
Lemma join_chars : forall (P : ascii -> Prop) l, P ","%char -> P " "%char -> (forall x c, In x l -> char_in c x -> P c) ->
  forall c, char_in c (join ", " l) -> P c.
Proof.
  induction l as [|x l IH]; intros A B H c I; [destruct I|]. destruct l as [|y l].
  - exact (H x c (or_introl eq_refl) I).
  - change (join ", " (x :: y :: l)) with (x ++ ", " ++ join ", " (y :: l)) in I. apply char_in_app in I as [I|I].
    + exact (H x c (or_introl eq_refl) I).
    + destruct I as [->|[->|I]]; [exact A|exact B|]. apply IH; auto. intros z d J. apply H. now right.
Qed.
Lemma dotted_chars : forall s c, is_dotted s = true -> char_in c s -> word_char c = true \/ c = "."%char.
Proof.
  intros s c D I. destruct (word_char c) eqn:W; [now left|]. destruct (Ascii.eqb_spec c ".") as [->|N]; [now right|].
  exfalso. exact (dotted_no s c D W N I).
Qed.
Lemma pr_chars : forall n e c, wf n e -> char_in c (pr e) -> word_char c = true \/ In c marks.
Proof.
  induction n as [|n IH]; intros [s|s|f args] c W I; cbn [wf] in W.
  1, 4: (cbn [pr] in I; apply char_in_app in I as [[->|[]]|I]; [right; now left|];
    apply char_in_app in I as [I|[->|[]]]; [left; now apply W|right; now left]).
  1, 3: (cbn [pr] in I; destruct (dotted_chars s c W I) as [C| ->]; [now left|right; unfold marks; cbn; tauto]).
  - destruct W.
  - destruct W as [F A]. rewrite pr_call in I. apply char_in_app in I as [I|I].
    + destruct (dotted_chars f c F I) as [C| ->]; [now left|right; unfold marks; cbn; tauto].
    + destruct I as [->|I]; [right; unfold marks; cbn; tauto|]. cbn [append] in I. apply char_in_app in I as [I|[->|[]]].
      * revert c I. apply join_chars; [right; unfold marks; cbn; tauto|right; unfold marks; cbn; tauto|].
        intros x c J I. apply in_map_iff in J as [[k e] [<- J]]. destruct (A k e J) as [K W].
        unfold pr_arg in I. cbn [fst snd] in I. apply char_in_app in I as [I|I]; [|now apply (IH e)].
        destruct (String.eqb_spec k "") as [->|N]; [destruct I|]. destruct K as [K|K]; [congruence|].
        apply char_in_app in I as [I|[->|[]]]; [left; now apply K|right; unfold marks; cbn; tauto].
      * right. unfold marks. cbn. tauto.
Qed.
Lemma pr_one_line : forall n e, wf n e -> one_line (pr e).
Proof.
  intros n e W I. destruct (pr_chars n e newline W I) as [C|C]; [discriminate|].
  unfold marks in C. cbn in C. repeat (destruct C as [C|C]; [discriminate|]). exact C.
Qed.
