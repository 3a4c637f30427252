(** Proofs about command lines (C124, C125) *)
From Coq Require Import String Ascii List Bool Arith Lia.
From Verif.Model Require Import GoString Cli Args.
From Verif.Spec Require Import OptionsSpec ArgsSpec.
From Verif.Proofs Require Import StringLemmas CliOptions.
Import ListNotations.
Local Open Scope string_scope.

(** ** Arguments *)
Lemma cut_none : forall s n, cut_value s = (n, None) -> s = n.
Proof.
  induction s as [|c s IH]; intros n H; cbn in H; [injection H as <-; reflexivity|].
  destruct (Ascii.eqb c "="); [discriminate|]. destruct (cut_value s) as [m v]. injection H as <- ->. f_equal. now apply IH.
Qed.
Lemma cut_some : forall s n x, cut_value s = (n, Some x) -> s = n ++ "=" ++ x.
Proof.
  induction s as [|c s IH]; intros n x H; cbn in H; [discriminate|].
  destruct (Ascii.eqb c "=") eqn:E.
  - injection H as <- ->. apply Ascii.eqb_eq in E as ->. reflexivity.
  - destruct (cut_value s) as [m v]. injection H as <- ->. cbn. f_equal. now apply IH.
Qed.
Lemma cut_proper : forall s n v, cut_value s = (n, v) -> forall a b, n <> a ++ "=" ++ b.
Proof.
  induction s as [|c s IH]; intros n v H a b E; cbn in H.
  - injection H as <- <-. destruct a; discriminate.
  - destruct (Ascii.eqb c "=") eqn:Q; [injection H as <- <-; destruct a; discriminate|].
    destruct (cut_value s) as [m u]. injection H as <- <-. destruct a as [|d a].
    + cbn in E. injection E as -> _. discriminate.
    + cbn in E. injection E as -> E. exact (IH _ _ eq_refl a b E).
Qed.
Lemma cut_name : forall n, (forall a b, n <> a ++ "=" ++ b) -> cut_value n = (n, None) /\ forall x, cut_value (n ++ "=" ++ x) = (n, Some x).
Proof.
  induction n as [|c n IH]; intros H; [split; reflexivity|].
  assert (Q : Ascii.eqb c "=" = false).
  { destruct (Ascii.eqb c "=") eqn:E; [|reflexivity]. apply Ascii.eqb_eq in E as ->. exfalso. exact (H "" n eq_refl). }
  destruct IH as [A B]. { intros a b ->. exact (H (String c a) b eq_refl). }
  split; [|intro x]; cbn [cut_value String.append]; rewrite Q; [now rewrite A|].
  change (cut_value (n ++ String "=" x)) with (cut_value (n ++ "=" ++ x)). now rewrite B.
Qed.

Lemma proper_first : forall n, proper_name n -> exists c r, n = String c r /\ (Ascii.eqb c "-" || Ascii.eqb c "=") = false.
Proof.
  intros [|c r] (A & B & C); [now destruct A|]. exists c, r. split; [reflexivity|].
  destruct (Ascii.eqb c "-") eqn:E; [apply Ascii.eqb_eq in E as ->; now destruct (B r)|].
  destruct (Ascii.eqb c "=") eqn:F; [apply Ascii.eqb_eq in F as ->; now destruct (C "" r)|]. reflexivity.
Qed.
Lemma read_dashes : forall d c r, In d ["-"; "--"] -> (Ascii.eqb c "-" || Ascii.eqb c "=") = false ->
  read_argument (d ++ String c r) = let '(n, v) := cut_value (String c r) in Named n v.
Proof.
  intros d c r D Q. pose proof Q as Q'. apply orb_false_iff in Q' as [Q' _].
  destruct D as [<-|[<-|[]]]; cbn [String.append read_argument].
  - change (Ascii.eqb "-" "-") with true. cbn iota. rewrite Q'. unfold read_name. rewrite Q. reflexivity.
  - change (Ascii.eqb "-" "-") with true. cbn iota. unfold read_name. rewrite Q. reflexivity.
Qed.
Lemma read_bare : forall d n, In d ["-"; "--"] -> proper_name n -> read_argument (d ++ n) = Named n None.
Proof.
  intros d n D P. destruct (proper_first n P) as (c & r & -> & Q). rewrite (read_dashes d c r D Q).
  destruct P as (_ & _ & P). now rewrite (proj1 (cut_name _ P)).
Qed.
Lemma read_joined : forall d n x, In d ["-"; "--"] -> proper_name n -> read_argument (d ++ n ++ "=" ++ x) = Named n (Some x).
Proof.
  intros d n x D P. destruct (proper_first n P) as (c & r & E & Q). destruct P as (_ & _ & P).
  pose proof (proj2 (cut_name _ P) x) as K. subst n. cbn [String.append] in *. rewrite (read_dashes d c _ D Q), K. reflexivity.
Qed.
Lemma read_plain : forall a, no_option a -> read_argument a = Plain.
Proof.
  intros [|c r] H; [reflexivity|]. cbn. destruct (Ascii.eqb c "-") eqn:E; [|reflexivity].
  apply Ascii.eqb_eq in E as ->. now rewrite (H r eq_refl).
Qed.
Lemma read_named : forall s n v, read_name s = Named n v -> proper_name n /\
  s = match v with Some x => n ++ "=" ++ x | None => n end.
Proof.
  intros [|c r] n v H; [discriminate|]. unfold read_name in H. destruct (Ascii.eqb c "-" || Ascii.eqb c "=") eqn:Q; [discriminate|].
  destruct (cut_value (String c r)) as [m u] eqn:K. injection H as <- <-. apply orb_false_iff in Q as [Q1 Q2]. split.
  - split; [|split].
    + intros ->. cbn in K. rewrite Q2 in K. destruct (cut_value r). discriminate.
    + intros t ->. cbn in K. rewrite Q2 in K. destruct (cut_value r). injection K as -> _ _. discriminate.
    + exact (cut_proper _ _ _ K).
  - destruct u; [exact (cut_some _ _ _ K)|exact (cut_none _ _ K)].
Qed.
Lemma read_inv : forall a, match read_argument a with
  | Plain => no_option a
  | Stop => a = "--"
  | Malformed => True
  | Named n v => proper_name n /\ exists d, In d ["-"; "--"] /\ a = d ++ match v with Some x => n ++ "=" ++ x | None => n end
  end.
Proof.
  intros [|c r]; cbn [read_argument]; [intros r E; discriminate|].
  destruct (Ascii.eqb c "-") eqn:E; [|intros t T; injection T as -> ->; discriminate].
  apply Ascii.eqb_eq in E as ->. destruct r as [|d t]; [intros t T; now injection T as <-|].
  destruct (Ascii.eqb d "-") eqn:E.
  - apply Ascii.eqb_eq in E as ->. destruct t as [|e t]; [reflexivity|].
    destruct (read_name (String e t)) as [| | |n v] eqn:R; try exact I.
    + exfalso. unfold read_name in R. destruct (_ || _); [discriminate|]. destruct (cut_value _); discriminate.
    + exfalso. unfold read_name in R. destruct (_ || _); [discriminate|]. destruct (cut_value _); discriminate.
    + destruct (read_named _ _ _ R) as [P ->]. split; [exact P|]. exists "--". split; [right; now left|reflexivity].
  - destruct (read_name (String d t)) as [| | |n v] eqn:R; try exact I.
    + exfalso. unfold read_name in R. destruct (_ || _); [discriminate|]. destruct (cut_value _); discriminate.
    + exfalso. unfold read_name in R. destruct (_ || _); [discriminate|]. destruct (cut_value _); discriminate.
    + destruct (read_named _ _ _ R) as [P ->]. split; [exact P|]. exists "-". split; [now left|reflexivity].
Qed.

(** ** Booleans *)
Lemma bool_iff : forall x, (exists b, parse_bool x = Some b) <-> boolean x.
Proof.
  intro x. unfold parse_bool, boolean. split.
  - intros [b H]. destruct (str_in x ["1"; "t"; "T"; "TRUE"; "true"; "True"]) eqn:Y; [left; now apply str_in_iff|].
    destruct (str_in x ["0"; "f"; "F"; "FALSE"; "false"; "False"]) eqn:N; [right; now apply str_in_iff|discriminate].
  - intros [Y|N].
    + apply str_in_iff in Y. unfold yes_words in Y. rewrite Y. eauto.
    + destruct (str_in x ["1"; "t"; "T"; "TRUE"; "true"; "True"]); [eauto|]. apply str_in_iff in N. unfold no_words in N. rewrite N. eauto.
Qed.
Lemma bool_no : forall x, boolean x -> (In x no_words <-> parse_bool x = Some false).
Proof.
  intros x B. split.
  - intro N. cbn in N. repeat (destruct N as [<-|N]; [reflexivity|]). destruct N.
  - intro P. unfold parse_bool in P. destruct (str_in x ["1"; "t"; "T"; "TRUE"; "true"; "True"]); [discriminate|].
    destruct (str_in x ["0"; "f"; "F"; "FALSE"; "false"; "False"]) eqn:N; [now apply str_in_iff|discriminate].
Qed.

(** ** Tables of flags *)
Definition good (fl : list flag) : Prop :=
  NoDup (flat_map names fl) /\ forall f n, In f fl -> In n (names f) -> proper_name n.

Fixpoint no_equals (s : string) : bool :=
  match s with EmptyString => true | String c r => negb (Ascii.eqb c "=") && no_equals r end.
Definition proper_b (n : string) : bool :=
  match n with EmptyString => false | String c _ => negb (Ascii.eqb c "-") && no_equals n end.
Lemma no_equals_ok : forall a b, no_equals (a ++ "=" ++ b) = false.
Proof. induction a as [|c a IH]; intro b; [reflexivity|]. change (negb (Ascii.eqb c "=") && no_equals (a ++ "=" ++ b) = false). now rewrite IH, andb_false_r. Qed.
Lemma proper_b_ok : forall n, proper_b n = true -> proper_name n.
Proof.
  intros [|c r] H; [discriminate|]. unfold proper_b in H. apply andb_true_iff in H as [A B]. split; [discriminate|split].
  - intros t E. injection E as -> _. discriminate.
  - intros a b E. rewrite E, no_equals_ok in B. discriminate.
Qed.
Fixpoint distinct_b (l : list string) : bool :=
  match l with [] => true | x :: r => negb (str_in x r) && distinct_b r end.
Lemma distinct_b_ok : forall l, distinct_b l = true -> NoDup l.
Proof.
  induction l as [|x l IH]; cbn; intro H; [constructor|]. apply andb_true_iff in H as [A B]. constructor; [|now apply IH].
  intro I. apply str_in_iff in I. rewrite I in A. discriminate.
Qed.
Definition good_b (fl : list flag) : bool := distinct_b (flat_map names fl) && forallb proper_b (flat_map names fl).
Lemma good_b_ok : forall fl, good_b fl = true -> good fl.
Proof.
  intros fl H. apply andb_true_iff in H as [A B]. split; [now apply distinct_b_ok|]. intros f n F N.
  rewrite forallb_forall in B. apply proper_b_ok, B. apply in_flat_map. eauto.
Qed.
Lemma good_command : forall c, good (command_flags c ++ [help]).
Proof. intro c. apply good_b_ok. destruct c; vm_compute; reflexivity. Qed.
Lemma good_program : good [help; version].
Proof. apply good_b_ok. vm_compute. reflexivity. Qed.
Lemma good_help : good [help].
Proof. apply good_b_ok. vm_compute. reflexivity. Qed.

Lemma same_flag : forall fl f g n, NoDup (flat_map names fl) -> In f fl -> In g fl -> In n (names f) -> In n (names g) -> f = g.
Proof.
  induction fl as [|h fl IH]; intros f g n D F G Nf Ng; [destruct F|]. cbn [flat_map] in D.
  assert (X : forall k, In k fl -> In n (names k) -> In n (names h) -> False).
  { intros k K Nk Nh. clear - D K Nk Nh. induction (names h) as [|m l IHl]; [destruct Nh|].
    cbn in D. inversion D as [|? ? A B]; subst. destruct Nh as [->|Nh]; [|now apply IHl].
    apply A. apply in_or_app. right. apply in_flat_map. eauto. }
  assert (D' : NoDup (flat_map names fl)) by (clear - D; induction (names h); cbn in D; [exact D|inversion D; auto]).
  destruct F as [<-|F], G as [<-|G]; [reflexivity| | |now apply (IH f g n)].
  - exfalso. now apply (X g).
  - exfalso. now apply (X f).
Qed.
Lemma lookup_ok : forall fl f n, good fl -> In f fl -> In n (names f) -> lookup_flag fl n = Some f.
Proof.
  intros fl f n [D _] F N. unfold lookup_flag. destruct (find _ fl) as [g|] eqn:E.
  - apply find_some in E as [G S]. apply str_in_iff in S. f_equal. exact (same_flag fl g f n D G F S N).
  - exfalso. apply (find_none _ _ E) in F. cbn beta in F. assert (S : str_in n (flag_names f) = true) by now apply str_in_iff. congruence.
Qed.
Lemma lookup_inv : forall fl f n, lookup_flag fl n = Some f -> In f fl /\ In n (names f).
Proof. intros fl f n H. apply find_some in H as [F S]. split; [exact F|now apply str_in_iff]. Qed.
Lemma lookup_none : forall fl n, (forall f, In f fl -> ~ In n (names f)) -> lookup_flag fl n = None.
Proof.
  intros fl n H. destruct (lookup_flag fl n) as [f|] eqn:E; [|reflexivity]. destruct (lookup_inv _ _ _ E) as [F N]. now destruct (H f F).
Qed.

(** ** Parsing *)
Definition strip (e : flag * string * string) : string * string := let '(f, n, x) := e in (n, x).
Definition of_flags (fl : list flag) (es : list (flag * string * string)) : Prop :=
  forall f n x, In (f, n, x) es -> In f fl /\ In n (names f) /\ (fl_bool f = true -> boolean x).

Lemma spelled_of : forall fl es a, spelled_all fl es a -> of_flags fl es.
Proof.
  induction 1 as [|f n x es a b F S R IH]; intros g m y G; [destruct G|]. destruct G as [G|G]; [|now apply IH].
  injection G as <- <- <-. destruct S; repeat split; try assumption; try congruence. intros _. subst x. left. cbn. tauto.
Qed.

Lemma parse_one : forall fl f n x a r, good fl -> In f fl -> spelled f n x a ->
  parse_flags fl (a ++ r) = add_given (n, x) (parse_flags fl r).
Proof.
  intros fl f n x a r G F S. destruct S as [d D N B|d D N B|d D N B E]; pose proof (proj2 G f n F N) as P; cbn [app parse_flags].
  - rewrite (read_joined d n x D P), (lookup_ok _ _ _ G F N). destruct (fl_bool f) eqn:K; [|reflexivity].
    destruct (proj2 (bool_iff x) (B eq_refl)) as [b ->]. reflexivity.
  - now rewrite (read_bare d n D P), (lookup_ok _ _ _ G F N), B.
  - subst x. now rewrite (read_bare d n D P), (lookup_ok _ _ _ G F N), B.
Qed.
Definition add_all (es : list (flag * string * string)) (r : option (list (string * string) * list string)) :=
  fold_right (fun e => add_given (strip e)) r es.
Lemma parse_all : forall fl es a r, good fl -> spelled_all fl es a -> parse_flags fl (a ++ r) = add_all es (parse_flags fl r).
Proof.
  intros fl es a r G S. induction S as [|f n x es a b F S R IH]; [reflexivity|].
  rewrite <- app_assoc, (parse_one fl f n x a _ G F S), IH. reflexivity.
Qed.
Lemma add_all_some : forall es ges left, add_all es (Some (ges, left)) = Some ((map strip es ++ ges)%list, left).
Proof. induction es as [|e es IH]; intros; [reflexivity|]. change (add_given (strip e) (add_all es (Some (ges, left))) = Some ((strip e :: map strip es ++ ges)%list, left)). now rewrite IH. Qed.
Lemma add_all_none : forall es, add_all es None = None.
Proof. induction es as [|e es IH]; [reflexivity|]. change (add_given (strip e) (add_all es None) = None). now rewrite IH. Qed.
Lemma parse_end : forall fl r left, ends_with r left -> parse_flags fl r = Some ([], left).
Proof.
  intros fl r left [->|[-> H]]; [reflexivity|]. destruct left as [|a l]; [reflexivity|]. cbn.
  now rewrite (read_plain a (H a l eq_refl)).
Qed.
Lemma parse_spelled : forall fl es a r left, good fl -> spelled_all fl es a -> ends_with r left ->
  parse_flags fl (a ++ r) = Some (map strip es, left).
Proof. intros fl es a r left G S E. now rewrite (parse_all _ _ _ _ G S), (parse_end _ _ _ E), add_all_some, app_nil_r. Qed.

Lemma add_inv : forall e r ges left, add_given e r = Some (ges, left) -> exists g, r = Some (g, left) /\ ges = e :: g.
Proof. intros e [[g l]|] ges left H; [|discriminate]. injection H as <- <-. eauto. Qed.
Lemma parse_inv : forall fl k args ges left, length args <= k -> parse_flags fl args = Some (ges, left) ->
  exists es a r, args = (a ++ r)%list /\ spelled_all fl es a /\ ends_with r left /\ ges = map strip es.
Proof.
  intro fl. induction k as [|k IH]; intros args ges left L H.
  - destruct args; [|cbn in L; lia]. injection H as <- <-. exists [], [], []. repeat split; [constructor|]. right. split; [reflexivity|]. intros; discriminate.
  - destruct args as [|a rest]; [injection H as <- <-; exists [], [], []; repeat split; [constructor|]; right; split; [reflexivity|intros; discriminate]|].
    cbn [parse_flags] in H. pose proof (read_inv a) as Q. cbn in L. destruct (read_argument a) as [| | |n v].
    + injection H as <- <-. exists [], [], (a :: rest). repeat split; [constructor|]. right. split; [reflexivity|]. intros b l E. now injection E as <- _.
    + injection H as <- <-. subst a. exists [], [], ("--" :: rest). repeat split; [constructor|]. now left.
    + discriminate.
    + destruct Q as (P & d & D & ->). destruct (lookup_flag fl n) as [f|] eqn:K; [|discriminate]. apply lookup_inv in K as [F N].
      destruct (fl_bool f) eqn:B.
      * destruct (parse_bool _) as [b|] eqn:PB in H; [|discriminate]. apply add_inv in H as (g & H & ->).
        destruct (IH rest g left ltac:(lia) H) as (es & a & r & -> & S & E & ->).
        destruct v as [x|].
        -- exists ((f, n, x) :: es), (app [d ++ n ++ "=" ++ x] a), r. repeat split; try assumption. constructor; try assumption.
           constructor; try assumption. intros _. apply bool_iff. eauto.
        -- exists ((f, n, "true") :: es), (app [d ++ n] a), r. repeat split; try assumption. constructor; try assumption.
           now constructor.
      * destruct v as [x|].
        -- apply add_inv in H as (g & H & ->). destruct (IH rest g left ltac:(lia) H) as (es & a & r & -> & S & E & ->).
           exists ((f, n, x) :: es), (app [d ++ n ++ "=" ++ x] a), r. repeat split; try assumption. constructor; try assumption.
           constructor; try assumption. congruence.
        -- destruct rest as [|x rest]; [discriminate|]. apply add_inv in H as (g & H & ->). cbn in L.
           destruct (IH rest g left ltac:(lia) H) as (es & a & r & -> & S & E & ->).
           exists ((f, n, x) :: es), (app [d ++ n; x] a), r. repeat split; try assumption. constructor; try assumption.
           now constructor.
Qed.

(** ** Names and values given *)
Lemma in_strip : forall es n, In n (map fst (map strip es)) <-> exists f x, In (f, n, x) es.
Proof.
  intros es n. rewrite map_map, in_map_iff. split.
  - intros ([[f m] x] & E & I). cbn in E. subst m. eauto.
  - intros (f & x & I). exists (f, n, x). split; [reflexivity|exact I].
Qed.
Lemma two_in_filter : forall (p : string -> bool) l n m, In n l -> In m l -> n <> m -> p n = true -> p m = true ->
  Nat.ltb 1 (List.length (filter p l)) = true.
Proof.
  intros p l n m N M D Pn Pm. apply Nat.ltb_lt.
  assert (Fn : In n (filter p l)) by (apply filter_In; auto). assert (Fm : In m (filter p l)) by (apply filter_In; auto).
  destruct (filter p l) as [|a [|b t]]; cbn in *; [destruct Fn| |lia]. exfalso. apply D.
  destruct Fn as [<-|[]], Fm as [<-|[]]. reflexivity.
Qed.
Lemma two_from_filter : forall (p : string -> bool) l, NoDup l -> Nat.ltb 1 (List.length (filter p l)) = true ->
  exists n m, In n l /\ In m l /\ n <> m /\ p n = true /\ p m = true.
Proof.
  intros p l D H. apply Nat.ltb_lt in H. pose proof (NoDup_filter p D) as D'.
  destruct (filter p l) as [|a [|b t]] eqn:E; cbn in H; try lia. exists a, b.
  assert (A : In a (filter p l)) by (rewrite E; now left). assert (B : In b (filter p l)) by (rewrite E; right; now left).
  apply filter_In in A as [A1 A2], B as [B1 B2]. repeat split; try assumption. intros ->. inversion D' as [|? ? X]. apply X. now left.
Qed.
Lemma names_nodup : forall fl f, NoDup (flat_map names fl) -> In f fl -> NoDup (names f).
Proof.
  induction fl as [|g fl IH]; intros f D F; [destruct F|]. cbn [flat_map] in D. destruct F as [<-|F].
  - clear - D. induction (names g) as [|n l IHl]; [constructor|]. cbn in D. inversion D as [|? ? A B]; subst.
    constructor; [intro I; apply A, in_or_app; now left|now apply IHl].
  - apply IH; [|exact F]. clear - D. induction (names g); cbn in D; [exact D|inversion D; auto].
Qed.
Lemma two_forms_iff : forall fl es, good fl -> of_flags fl es -> (two_forms fl (map strip es) = false <-> one_name es).
Proof.
  intros fl es [D P] O. split.
  - intros T f n x n' x' I I'. destruct (string_dec n n') as [E|E]; [exact E|exfalso].
    destruct (O _ _ _ I) as (F & N & _), (O _ _ _ I') as (_ & N' & _).
    assert (X : two_forms fl (map strip es) = true); [|congruence]. apply existsb_exists. exists f. split; [exact F|].
    apply (two_in_filter _ _ n n'); try assumption; apply str_in_iff, in_strip; eauto.
  - intros O1. destruct (two_forms fl (map strip es)) eqn:T; [|reflexivity]. exfalso.
    apply existsb_exists in T as (f & F & T). apply two_from_filter in T; [|exact (names_nodup fl f D F)].
    destruct T as (n & m & N & M & X & A & B). apply str_in_iff, in_strip in A as (g & x & A). apply str_in_iff, in_strip in B as (h & y & B).
    destruct (O _ _ _ A) as (G & N' & _), (O _ _ _ B) as (H & M' & _).
    assert (g = f) as -> by exact (same_flag fl g f n D G F N' N). assert (h = f) as -> by exact (same_flag fl h f m D H F M' M).
    apply X. exact (O1 f n x m y A B).
Qed.

Lemma given_value_iff : forall fl f es, good fl -> of_flags fl es -> In f fl ->
  (forall x, given_value f (map strip es) = Some x <-> given f es x) /\ (given_value f (map strip es) = None <-> not_given f es).
Proof.
  intros fl f es [D P] O F.
  assert (K : (exists x, given_value f (map strip es) = Some x /\ given f es x) \/ (given_value f (map strip es) = None /\ not_given f es)).
  { unfold given_value. induction es as [|[[g n] x] es IH] using rev_ind.
    - right. split; [reflexivity|]. intros n x [].
    - rewrite map_app, fold_left_app. cbn [map fold_left strip].
      assert (O' : of_flags fl es). { intros h m y H. apply O, in_or_app. now left. }
      destruct (O g n x) as (G & N & _); [apply in_or_app; right; now left|].
      destruct (str_in n (flag_names f)) eqn:S.
      + apply str_in_iff in S. assert (g = f) as -> by exact (same_flag fl g f n D G F N S).
        left. exists x. split; [reflexivity|]. exists es, n, []. split; [reflexivity|]. intros ? ? [].
      + assert (g <> f). { intros ->. assert (str_in n (flag_names f) = true) by now apply str_in_iff. congruence. }
        destruct (IH O') as [(y & E & a & m & b & -> & B)|(E & B)].
        * left. exists y. split; [exact E|]. exists a, m, (b ++ [(g, n, x)])%list. split; [now rewrite <- app_assoc|].
          intros m' y' I. apply in_app_or in I as [I|[I|[]]]; [now apply (B m' y')|]. injection I as -> _ _. congruence.
        * right. split; [exact E|]. intros m' y' I. apply in_app_or in I as [I|[I|[]]]; [now apply (B m' y')|]. injection I as -> _ _. congruence. }
  assert (U : forall x y, given f es x -> given f es y -> x = y).
  { intros x y (a & n & b & E & B) (a' & n' & b' & E' & B'). rewrite E in E'. clear - E' B B'.
    revert a' E'. induction a as [|e a IH]; intros [|e' a'] E'; cbn in E'; injection E'; intros.
    - now subst.
    - subst. exfalso. apply (B n' y), in_or_app. right. now left.
    - subst. exfalso. apply (B' n x), in_or_app. right. now left.
    - now apply (IH a'). }
  assert (V : forall x, given f es x -> ~ not_given f es).
  { intros x (a & n & b & -> & B) Q. apply (Q n x), in_or_app. right. now left. }
  destruct K as [(y & E & G)|(E & G)]; rewrite E; split.
  - intro x. split; [intro H; injection H as <-; exact G|]. intro H. now rewrite (U x y H G).
  - split; [discriminate|]. intro H. now destruct (V y G).
  - intro x. split; [discriminate|]. intro H. now destruct (V x H).
  - tauto.
Qed.
Lemma given_in : forall f es x, given f es x -> exists n, In (f, n, x) es.
Proof. intros f es x (a & n & b & -> & _). exists n. apply in_or_app. right. now left. Qed.
Lemma switch_iff : forall fl f es, good fl -> of_flags fl es -> In f fl -> fl_bool f = true ->
  (switched_on f (map strip es) = false <-> off f es).
Proof.
  intros fl f es G O F B. destruct (given_value_iff fl f es G O F) as [A N]. unfold switched_on, off.
  destruct (given_value f (map strip es)) as [x|] eqn:E.
  - assert (X : given f es x) by now apply A. destruct (given_in _ _ _ X) as [n I]. destruct (O _ _ _ I) as (_ & _ & Q). specialize (Q B).
    destruct (proj2 (bool_iff x) Q) as [b Pb]. rewrite Pb. split.
    + intros -> y Y. apply A in Y. injection Y as <-. now apply bool_no.
    + intro H. apply H, bool_no in X; [|exact Q]. congruence.
  - split; [|reflexivity]. intros _ x X. apply A in X. discriminate.
Qed.

(** ** The beginning of the arguments *)
Lemma begins_parse : forall fl args es left, good fl -> begins fl args es left ->
  parse_flags fl args = Some (map strip es, left) /\ two_forms fl (map strip es) = false /\ of_flags fl es.
Proof.
  intros fl args es left G (a & r & -> & S & E & O). pose proof (spelled_of _ _ _ S) as OF.
  split; [exact (parse_spelled _ _ _ _ _ G S E)|]. split; [now apply two_forms_iff|exact OF].
Qed.
Lemma parse_begins : forall fl args ges left, good fl -> parse_flags fl args = Some (ges, left) -> two_forms fl ges = false ->
  exists es, ges = map strip es /\ begins fl args es left /\ of_flags fl es.
Proof.
  intros fl args ges left G H T. destruct (parse_inv fl (length args) args ges left (le_n _) H) as (es & a & r & -> & S & E & ->).
  pose proof (spelled_of _ _ _ S) as OF. exists es. split; [reflexivity|]. split; [|exact OF].
  exists a, r. repeat split; try assumption. now apply (two_forms_iff fl es G OF).
Qed.

(** ** Commands *)
Lemma find_command_iff : forall l c, find_command l = Some c <-> command_words c = l.
Proof.
  intros l c. split.
  - intro H. apply find_some in H as [_ H]. unfold words_are in H. destruct (list_eq_dec _ _ _); [assumption|discriminate].
  - intros <-. destruct c; vm_compute; reflexivity.
Qed.
Lemma words_shape : forall c, (exists w, command_words c = [w]) \/
  (exists w1 w2, command_words c = [w1; w2] /\ find_command [w1] = None /\ str_in w1 first_words = true).
Proof. destruct c; try (left; eexists; reflexivity); right; do 2 eexists; vm_compute; repeat split. Qed.

Lemma environment_iff : forall env c, existsb (environment_fails env) (command_flags c) = false <-> sensible env c.
Proof.
  intros env c. split.
  - intros H f x F B E. destruct (string_dec x "") as [->|N]; [now left|right]. apply bool_iff.
    assert (K : environment_fails env f = false).
    { destruct (environment_fails env f) eqn:K; [|reflexivity]. assert (existsb (environment_fails env) (command_flags c) = true) by (apply existsb_exists; eauto). congruence. }
    unfold environment_fails, environment_value in K. rewrite E, B in K. apply String.eqb_neq in N. rewrite N in K.
    destruct (parse_bool x); [eauto|discriminate].
  - intro H. destruct (existsb _ _) eqn:K; [|reflexivity]. apply existsb_exists in K as (f & F & K).
    unfold environment_fails, environment_value in K. destruct (env (fl_env f)) as [x|] eqn:E; [|discriminate].
    destruct (fl_bool f) eqn:B; [|discriminate]. destruct (H f x F B E) as [->|Q]; [discriminate|].
    destruct (String.eqb x ""); [discriminate|]. destruct (proj2 (bool_iff x) Q) as [b Pb]. rewrite Pb in K. discriminate.
Qed.
Lemma flag_by_name : forall c f, In f (command_flags c) -> find (fun g => String.eqb (fl_name g) (fl_name f)) (command_flags c) = Some f.
Proof.
  intros c f F. destruct (find _ _) as [g|] eqn:E.
  - apply find_some in E as [G E]. apply String.eqb_eq in E. f_equal. destruct (good_command c) as [D _].
    apply (same_flag (command_flags c ++ [help]) g f (fl_name f) D); [apply in_or_app; now left|apply in_or_app; now left|left; exact E|now left].
  - exfalso. apply (find_none _ _ E) in F. cbn beta in F. rewrite String.eqb_refl in F. discriminate.
Qed.
Lemma flag_values_none : forall env c ges n, ~ In n (map fl_name (command_flags c)) -> flag_values env c ges n = None.
Proof.
  intros env c ges n N. unfold flag_values. destruct (find _ _) as [g|] eqn:E; [|reflexivity]. exfalso. apply N.
  apply find_some in E as [G E]. apply String.eqb_eq in E as <-. now apply in_map.
Qed.
Lemma value_iff : forall env c es f r, of_flags (command_flags c ++ [help]) es -> sensible env c -> In f (command_flags c) ->
  (value_is env es f r <-> flag_values env c (map strip es) (fl_name f) = r).
Proof.
  intros env c es f r O S F. unfold flag_values. rewrite (flag_by_name c f F).
  destruct (given_value_iff _ f es (good_command c) O (in_or_app _ _ _ (or_introl F))) as [A N].
  unfold value_is. destruct (given_value f (map strip es)) as [x|] eqn:E.
  - assert (X : given f es x) by now apply A. split.
    + intros [H _]. symmetry. now apply H.
    + intros <-. split; [intros y Y; apply A in Y; congruence|]. intro Q. apply N in Q. discriminate.
  - assert (X : not_given f es) by now apply N. split.
    + intros [_ H]. destruct (H X) as [H1 H2]. unfold environment_value. destruct (env (fl_env f)) as [x|] eqn:Ex; [|symmetry; now apply H1].
      rewrite (H2 x eq_refl). destruct (fl_bool f) eqn:B; [|reflexivity]. destruct (string_dec x "") as [->|Nx]; [reflexivity|].
      destruct (S f x F B Ex) as [->|Q]; [congruence|]. apply String.eqb_neq in Nx. rewrite Nx. destruct (proj2 (bool_iff x) Q) as [b ->]. reflexivity.
    + intros <-. split; [intros y Y; apply A in Y; discriminate|]. intros _. unfold environment_value. split; [intros ->; reflexivity|].
      intros x Ex. rewrite Ex. destruct (fl_bool f) eqn:B; [|reflexivity]. destruct (string_dec x "") as [->|Nx]; [reflexivity|].
      destruct (S f x F B Ex) as [->|Q]; [congruence|]. apply String.eqb_neq in Nx. rewrite Nx. destruct (proj2 (bool_iff x) Q) as [b ->]. reflexivity.
Qed.

Lemma command_request_iff : forall env c args v,
  (exists v', command_request env c args = Runs c v' /\ forall n, v' n = v n) <-> asks_options env c args v.
Proof.
  intros env c args v. unfold command_request, asks_options. change help_flag with help. pose proof (good_command c) as G. split.
  - intros (v' & H & V). destruct (existsb (environment_fails env) (command_flags c)) eqn:EF; [discriminate|].
    apply environment_iff in EF. destruct (parse_flags _ args) as [[ges left]|] eqn:P; [|discriminate].
    destruct (two_forms _ ges) eqn:T; [discriminate|]. destruct (switched_on help ges) eqn:W; [discriminate|]. injection H as <-.
    destruct (parse_begins _ _ _ _ G P T) as (es & -> & B & O). exists es, left.
    split; [exact B|]. split; [apply (switch_iff _ help es G O); [apply in_or_app; right; now left|reflexivity|exact W]|].
    split; [exact EF|]. split.
    + intros f F. apply (value_iff env c es f _ O EF F). apply V.
    + intros n N. rewrite <- V. now apply flag_values_none.
  - intros (es & left & B & W & S & A & N). destruct (begins_parse _ _ _ _ G B) as (P & T & O). rewrite P, T.
    apply (switch_iff _ help es G O) in W; [|apply in_or_app; right; now left|reflexivity]. rewrite W.
    pose proof (proj2 (environment_iff env c) S) as EF. rewrite EF.
    exists (flag_values env c (map strip es)). split; [reflexivity|]. intro n.
    destruct (in_dec string_dec n (map fl_name (command_flags c))) as [I|I].
    + apply in_map_iff in I as (f & <- & F). apply (value_iff env c es f _ O S F). now apply A.
    + rewrite (N n I). now apply flag_values_none.
Qed.

Lemma command_request_same : forall env c args c' v, command_request env c args = Runs c' v -> c' = c.
Proof.
  intros env c args c' v H. unfold command_request in H. destruct (existsb _ _); [discriminate|]. destruct (parse_flags _ _) as [[g l]|]; [|discriminate].
  destruct (two_forms _ _); [discriminate|]. destruct (switched_on _ _); [discriminate|]. now injection H as <- _.
Qed.
Lemma help_never : forall k args c v, help_request k args <> Runs c v.
Proof.
  intros k args c v H. unfold help_request, show_help in H. destruct (parse_flags _ _) as [[g [|a l]]|]; [| |discriminate];
    destruct (two_forms _ _); try discriminate; destruct (switched_on _ _); try discriminate. destruct (_ || _); discriminate.
Qed.
Lemma show_never : forall k n c v, show_help k n <> Runs c v.
Proof. intros k n c v. unfold show_help. destruct (_ || _); discriminate. Qed.

Lemma no_version : forall es, (existsb (fun n => str_in n (flag_names version_flag)) (map fst (map strip es)) = false <->
  forall f n x, In (f, n, x) es -> ~ In n (names version)).
Proof.
  intro es. split.
  - intros H f n x I J. assert (X : existsb (fun n => str_in n (flag_names version_flag)) (map fst (map strip es)) = true); [|congruence].
    apply existsb_exists. exists n. split; [apply in_strip; eauto|now apply str_in_iff].
  - intro H. destruct (existsb _ _) eqn:E; [|reflexivity]. exfalso. apply existsb_exists in E as (n & N & S).
    apply in_strip in N as (f & x & I). apply str_in_iff in S. exact (H f n x I S).
Qed.
Lemma spelled_fewer : forall fl fl' es a, spelled_all fl es a -> (forall f n x, In (f, n, x) es -> In f fl') -> spelled_all fl' es a.
Proof.
  induction 1 as [|f n x es a b F S R IH]; intro H; [constructor|]. constructor; [apply (H f n x); now left|exact S|].
  apply IH. intros g m y I. apply (H g m y). now right.
Qed.
Lemma begins_fewer : forall fl fl' args es left, begins fl args es left -> (forall f n x, In (f, n, x) es -> In f fl') -> begins fl' args es left.
Proof. intros fl fl' args es left (a & r & E & S & L & O) H. exists a, r. repeat split; try assumption. exact (spelled_fewer _ _ _ _ S H). Qed.

Lemma group_iff : forall env w1 args c v,
  (exists v', group_request env w1 args = Runs c v' /\ forall n, v' n = v n) <->
  exists w2 es args2, command_words c = [w1; w2] /\ begins [help] args es (w2 :: args2) /\ off help es /\ asks_options env c args2 v.
Proof.
  intros env w1 args c v. unfold group_request. change help_flag with help. pose proof good_program as G. split.
  - intros (v' & H & V). destruct (parse_flags [help; version_flag] args) as [[ges left]|] eqn:P; [|discriminate].
    destruct (existsb _ (map fst ges)) eqn:NV; [discriminate|]. destruct (two_forms _ ges) eqn:T; [discriminate|].
    destruct (switched_on help ges) eqn:W; [discriminate|]. destruct left as [|w2 args2]; [discriminate|].
    destruct (parse_begins _ _ _ _ G P T) as (es & -> & B & O).
    assert (C : find_command [w1; w2] = Some c /\ command_request env c args2 = Runs c v').
    { destruct (find_command [w1; w2]) as [c'|] eqn:F.
      - pose proof (command_request_same _ _ _ _ _ H) as ->. split; [reflexivity|exact H].
      - destruct (str_in w2 help_words); [now apply help_never in H|now apply show_never in H]. }
    destruct C as [F R]. exists w2, es, args2. split; [now apply find_command_iff|]. split; [|split].
    + apply (begins_fewer _ [help] _ _ _ B). intros f n x I. destruct (O f n x I) as (K & N & _).
      destruct K as [<-|[<-|[]]]; [now left|]. exfalso. exact (proj1 (no_version es) NV version n x I N).
    + apply (switch_iff _ help es G O); [now left|reflexivity|exact W].
    + apply command_request_iff. eauto.
  - intros (w2 & es & args2 & C & B & W & A).
    assert (B' : begins [help; version] args es (w2 :: args2)).
    { destruct (begins_parse _ _ _ _ good_help B) as (_ & _ & O). apply (begins_fewer _ [help; version] _ _ _ B). intros f n x I.
      destruct (O f n x I) as ([<-|[]] & _). now left. }
    destruct (begins_parse _ _ _ _ G B') as (P & T & O). change [help; version_flag] with [help; version]. rewrite P.
    assert (NV : existsb (fun n => str_in n (flag_names version_flag)) (map fst (map strip es)) = false).
    { apply no_version. intros f n x I J. destruct (begins_parse _ _ _ _ good_help B) as (_ & _ & O1). destruct (O1 f n x I) as ([<-|[]] & N & _).
      cbn in N, J. destruct N as [<-|[<-|[]]]; destruct J as [J|[J|[]]]; discriminate. }
    rewrite NV, T. apply (switch_iff _ help es G O) in W; [|now left|reflexivity]. rewrite W.
    rewrite (proj2 (find_command_iff [w1; w2] c) C). now apply command_request_iff.
Qed.

Lemma completion_iff : forall args, completion_asked args = true <-> completion args.
Proof.
  intro args. unfold completion_asked, completion. split.
  - intro H. apply String.eqb_eq in H. destruct args as [|a args] using rev_ind; [discriminate|].
    rewrite last_last in H. subst a. eauto.
  - intros [a ->]. rewrite last_last. apply String.eqb_refl.
Qed.

Lemma line_iff : forall env args c v,
  (exists v', line_request env args = Runs c v' /\ forall n, v' n = v n) <-> asks env args c v.
Proof.
  intros env args c v. unfold line_request, asks. change help_flag with help. change version_flag with version. pose proof good_program as G. split.
  - intros (v' & H & V). destruct (completion_asked args) eqn:CA; [discriminate|].
    split. { intro Q. apply completion_iff in Q. congruence. }
    destruct (parse_flags [help; version] args) as [[ges left]|] eqn:P; [|discriminate].
    destruct (two_forms _ ges) eqn:T; [discriminate|]. destruct (switched_on help ges) eqn:W; [discriminate|].
    destruct (switched_on version ges) eqn:W'; [discriminate|]. destruct left as [|w1 args1]; [discriminate|].
    destruct (parse_begins _ _ _ _ G P T) as (es & -> & B & O). exists es, w1, args1.
    split; [exact B|]. split; [apply (switch_iff _ help es G O); [now left|reflexivity|exact W]|].
    split; [apply (switch_iff _ version es G O); [right; now left|reflexivity|exact W']|].
    destruct (find_command [w1]) as [c'|] eqn:F.
    + pose proof (command_request_same _ _ _ _ _ H) as ->. left. split; [now apply find_command_iff|]. apply command_request_iff. eauto.
    + right. destruct (str_in w1 first_words).
      * assert (X : exists v'0, group_request env w1 args1 = Runs c v'0 /\ (forall n, v'0 n = v n)) by eauto.
        apply group_iff in X as (w2 & es2 & args2 & X). eauto.
      * destruct (str_in w1 help_words); [now apply help_never in H|now apply show_never in H].
  - intros (NC & es & w1 & args1 & B & W & W' & D). destruct (begins_parse _ _ _ _ G B) as (P & T & O). rewrite P, T.
    destruct (completion_asked args) eqn:CA; [apply completion_iff in CA; contradiction|].
    apply (switch_iff _ help es G O) in W; [|now left|reflexivity]. apply (switch_iff _ version es G O) in W'; [|right; now left|reflexivity].
    rewrite W, W'. destruct D as [[C A]|(w2 & es2 & args2 & C & X)].
    + rewrite (proj2 (find_command_iff [w1] c) C). now apply command_request_iff.
    + destruct (words_shape c) as [[w E]|(a & b & E & N & S)]; [rewrite C in E; discriminate|].
      rewrite C in E. injection E as <- <-. rewrite N, S. apply group_iff. exists w2, es2, args2. tauto.
Qed.

(** ** Running *)
Lemma run_same : forall w fs c v v', (forall n, v n = v' n) -> run w fs c v = run w fs c v'.
Proof.
  intros w fs c v v' V. assert (H : differ_only_at "?" v v') by (intros n _; apply V). unfold run.
  assert (R : required_given c v = required_given c v').
  { unfold required_given. induction (command_flags c) as [|f l IH]; cbn [forallb]; [reflexivity|]. now rewrite IH, V. }
  rewrite R. destruct (required_given c v'); [|reflexivity].
  destruct c; cbn [action];
    unfold import_mysql, import_ojson, import_staruml_file, import_xlsx_file, export_dbml_file, export_quickdbd_file, export_mysql_file,
      export_xlsx_file, generate_gorm, generate_graphql, generate_kt, generate_liquibase, generate_plantuml, generate_pb,
      generate_sqlalchemy, diff_flyway, diff_liquibase, diff_md, with_schemas;
    same_flags H; reflexivity.
Qed.
Lemma line_runs : forall w fs env args c v, asks env args c v -> run_line w fs env args = run w fs c v.
Proof.
  intros w fs env args c v A. apply line_iff in A as (v' & E & V). unfold run_line. rewrite E. now apply run_same.
Qed.
Lemma command_ends : forall env c args, command_request env c args <> Completes /\ command_request env c args <> Unclear.
Proof.
  intros env c args. unfold command_request. destruct (existsb _ _); [split; discriminate|]. destruct (parse_flags _ _) as [[g l]|]; [|split; discriminate].
  destruct (two_forms _ _); [split; discriminate|]. destruct (switched_on _ _); split; discriminate.
Qed.
Lemma help_ends : forall k args, help_request k args = Shows \/ help_request k args = Refuses.
Proof.
  intros k args. unfold help_request, show_help. destruct (parse_flags _ _) as [[g [|a l]]|]; auto; destruct (two_forms _ _); auto; destruct (switched_on _ _); auto.
  destruct (_ || _); auto.
Qed.
Lemma show_ends : forall k n, show_help k n = Shows \/ show_help k n = Refuses.
Proof. intros k n. unfold show_help. destruct (_ || _); auto. Qed.
Lemma group_unclear : forall env w1 args, group_request env w1 args <> Completes /\
  (group_request env w1 args = Unclear -> exists es a r left, args = (a ++ r)%list /\ spelled_all [help; version] es a /\ ends_with r left /\
     exists n x, In (version, n, x) es).
Proof.
  intros env w1 args. unfold group_request. change help_flag with help. change [help; version_flag] with [help; version].
  destruct (parse_flags _ args) as [[ges left]|] eqn:P; [|split; discriminate].
  destruct (existsb _ (map fst ges)) eqn:NV.
  - split; [discriminate|]. intros _. destruct (parse_inv _ (length args) args ges left (le_n _) P) as (es & a & r & -> & S & E & ->).
    exists es, a, r, left. repeat split; try assumption. apply existsb_exists in NV as (n & N & K). apply in_strip in N as (f & x & I).
    apply str_in_iff in K. destruct (spelled_of _ _ _ S f n x I) as (F & N & _).
    assert (f = version) as -> by (exact (same_flag [help; version] f version n (proj1 good_program) F (or_intror (or_introl eq_refl)) N K)). eauto.
  - destruct (two_forms _ ges); [split; discriminate|]. destruct (switched_on help ges); [split; discriminate|]. destruct left as [|w2 rest]; [split; discriminate|].
    destruct (find_command _) as [c|].
    + destruct (command_ends env c rest). split; [assumption|]. intro; contradiction.
    + destruct (str_in w2 help_words).
      * destruct (help_ends (second_words w1 ++ help_words) rest) as [->| ->]; split; discriminate.
      * destruct (show_ends (second_words w1 ++ help_words) w2) as [->| ->]; split; discriminate.
Qed.
Lemma line_unclear : forall env args, (line_request env args = Completes -> completion args) /\ (line_request env args = Unclear -> version_between args).
Proof.
  intros env args. unfold line_request. change help_flag with help. change [help; version_flag] with [help; version].
  destruct (completion_asked args) eqn:CA; [split; [intros _; now apply completion_iff|discriminate]|].
  destruct (parse_flags _ args) as [[ges left]|] eqn:P; [|split; discriminate].
  destruct (two_forms _ ges) eqn:T; [split; discriminate|]. destruct (switched_on help ges); [split; discriminate|].
  destruct (switched_on _ ges); [split; discriminate|]. destruct left as [|w1 args1]; [split; discriminate|].
  destruct (find_command _) as [c|].
  - destruct (command_ends env c args1). split; intro; contradiction.
  - destruct (str_in w1 first_words).
    + destruct (group_unclear env w1 args1) as [A B]. split; [intro; contradiction|]. intro U. destruct (B U) as (es2 & a & r & left & X).
      destruct (parse_begins _ _ _ _ good_program P T) as (es & _ & Bg & _). exists es, w1, args1, es2, a, r, left. split; [exact Bg|exact X].
    + destruct (str_in w1 help_words).
      * destruct (help_ends (first_words ++ help_words) args1) as [->| ->]; split; discriminate.
      * destruct (show_ends (first_words ++ help_words) w1) as [->| ->]; split; discriminate.
Qed.
Lemma line_others : forall w fs env args, (forall c v, ~ asks env args c v) -> ~ completion args -> ~ version_between args ->
  run_line w fs env args = ([], Done) \/ run_line w fs env args = ([], Failed).
Proof.
  intros w fs env args N NC NV. unfold run_line. destruct (line_unclear env args) as [A B].
  destruct (line_request env args) as [c v| | | |] eqn:E; auto.
  - exfalso. apply (N c v), line_iff. eauto.
  - destruct (NC (A eq_refl)).
  - destruct (NV (B eq_refl)).
Qed.

(** ** Command lines that begin with the words of a command *)
Lemma line_words : forall env c args, ~ completion (command_words c ++ args) ->
  line_request env (command_words c ++ args) = command_request env c args.
Proof.
  intros env c args N. unfold line_request. destruct (completion_asked (command_words c ++ args)) eqn:CA; [apply completion_iff in CA; contradiction|].
  destruct c; reflexivity.
Qed.

Lemma in_all : forall fl es a, spelled_all fl es a -> forall f n x, In (f, n, x) es -> In f fl.
Proof. intros fl es a S f n x I. now destruct (spelled_of _ _ _ S f n x I). Qed.

Lemma mistake_parse : forall fl bad more, good fl -> mistake fl bad more -> parse_flags fl (bad ++ more) = None.
Proof.
  intros fl bad more G M. destruct M as [a n more (d & D & L) P U|f n d x more F N B D Q|f n d F N B D]; cbn [app parse_flags].
  - assert (R : exists v, read_argument a = Named n v).
    { destruct L as [->|[x ->]]; eexists; [now apply read_bare|now apply read_joined]. }
    destruct R as [v ->]. now rewrite (lookup_none fl n U).
  - rewrite (read_joined d n x D (proj2 G f n F N)), (lookup_ok _ _ _ G F N), B.
    destruct (parse_bool x) as [b|] eqn:E; [|reflexivity]. exfalso. apply Q, bool_iff. eauto.
  - now rewrite (read_bare d n D (proj2 G f n F N)), (lookup_ok _ _ _ G F N), B.
Qed.
Lemma mistakes_fail : forall w fs env c es a bad more, spelled_all (command_flags c ++ [help]) es a ->
  mistake (command_flags c ++ [help]) bad more -> ~ completion (command_words c ++ a ++ bad ++ more) ->
  run_line w fs env (command_words c ++ a ++ bad ++ more) = ([], Failed).
Proof.
  intros w fs env c es a bad more S M N. unfold run_line. rewrite (line_words _ _ _ N). unfold command_request. change help_flag with help.
  rewrite (parse_all _ _ _ _ (good_command c) S), (mistake_parse _ _ _ (good_command c) M), add_all_none.
  destruct (existsb _ _); reflexivity.
Qed.
Lemma two_names_fail : forall w fs env c es a r left, spelled_all (command_flags c ++ [help]) es a -> ends_with r left ->
  ~ one_name es -> ~ completion (command_words c ++ a ++ r) ->
  run_line w fs env (command_words c ++ a ++ r) = ([], Failed).
Proof.
  intros w fs env c es a r left S E O N. unfold run_line. rewrite (line_words _ _ _ N). unfold command_request. change help_flag with help.
  rewrite (parse_spelled _ _ _ _ _ (good_command c) S E).
  destruct (existsb _ _); [reflexivity|]. destruct (two_forms _ _) eqn:T; [reflexivity|]. exfalso.
  apply O, (two_forms_iff _ _ (good_command c) (spelled_of _ _ _ S) ), T.
Qed.
Lemma environment_fail : forall w fs env c args, ~ sensible env c -> ~ completion (command_words c ++ args) ->
  run_line w fs env (command_words c ++ args) = ([], Failed).
Proof.
  intros w fs env c args S N. unfold run_line. rewrite (line_words _ _ _ N). unfold command_request.
  destruct (existsb _ _) eqn:E; [reflexivity|]. apply environment_iff in E. contradiction.
Qed.

(** what follows an argument that is no option does not matter *)
Lemma stray_ignored : forall w fs env c es a stray more, spelled_all (command_flags c ++ [help]) es a -> no_option stray ->
  ~ completion (command_words c ++ a) -> ~ completion (command_words c ++ a ++ stray :: more) ->
  run_line w fs env (command_words c ++ a ++ stray :: more) = run_line w fs env (command_words c ++ a).
Proof.
  intros w fs env c es a stray more S NO N1 N2. unfold run_line. rewrite (line_words _ _ _ N1), (line_words _ _ _ N2). unfold command_request. change help_flag with help.
  rewrite (parse_spelled _ _ a (stray :: more) (stray :: more) (good_command c) S) by (right; split; [reflexivity|intros b l E; now injection E as <- _]).
  rewrite <- (app_nil_r a). rewrite (parse_spelled _ _ a [] [] (good_command c) S) by (right; split; [reflexivity|intros; discriminate]).
  reflexivity.
Qed.

(** ** The order and the spelling do not matter *)
Definition option_of (e : flag * string * string) : flag * string := let '(f, _, x) := e in (f, x).
Definition flag_of (e : flag * string * string) : flag := let '(f, _, _) := e in f.
Lemma once_one_name : forall es, NoDup (map flag_of es) -> one_name es.
Proof.
  induction es as [|[[g m] y] es IH]; intros D f n x n' x' I I'; [destruct I|]. cbn in D. inversion D as [|? ? A B]; subst.
  assert (X : forall k z, ~ In (g, k, z) es). { intros k z K. apply A. change g with (flag_of (g, k, z)). now apply in_map. }
  destruct I as [I|I], I' as [I'|I'].
  - congruence.
  - injection I as <- <- <-. now destruct (X n' x').
  - injection I' as <- <- <-. now destruct (X n x).
  - exact (IH B f n x n' x' I I').
Qed.
Lemma once_given : forall es f n x, NoDup (map flag_of es) -> In (f, n, x) es -> given f es x.
Proof.
  intros es f n x D I. apply in_split in I as (a & b & ->). exists a, n, b. split; [reflexivity|]. intros n' x' I'.
  rewrite map_app in D. apply NoDup_remove_2 in D. apply D, in_or_app. right. exact (in_map flag_of b (f, n', x') I').
Qed.
Lemma given_options : forall es f x, given f es x -> In (f, x) (map option_of es).
Proof. intros es f x G. destruct (given_in _ _ _ G) as [n I]. change (f, x) with (option_of (f, n, x)). now apply in_map. Qed.
Lemma options_given : forall es f x, NoDup (map flag_of es) -> In (f, x) (map option_of es) -> given f es x.
Proof.
  intros es f x D I. apply in_map_iff in I as ([[g n] y] & E & I). injection E as -> ->. exact (once_given es f n x D I).
Qed.
Lemma flags_of_options : forall es, map flag_of es = map fst (map option_of es).
Proof. intro es. rewrite map_map. apply map_ext. intros [[f n] x]. reflexivity. Qed.
Lemma same_given : forall fl es es' f, good fl -> of_flags fl es -> of_flags fl es' -> In f fl ->
  NoDup (map flag_of es) -> (forall f x, In (f, x) (map option_of es) <-> In (f, x) (map option_of es')) -> NoDup (map flag_of es') ->
  given_value f (map strip es) = given_value f (map strip es').
Proof.
  intros fl es es' f G O O' F D M D'. destruct (given_value_iff fl f es G O F) as [A N], (given_value_iff fl f es' G O' F) as [A' N'].
  destruct (given_value f (map strip es)) as [x|].
  - symmetry. apply A', options_given; [exact D'|]. apply M, given_options, A. reflexivity.
  - symmetry. apply N'. intros n x I. assert (X : None = Some x); [|discriminate]. apply A, options_given; [exact D|].
    apply M, given_options. exact (once_given es' f n x D' I).
Qed.
Lemma order_irrelevant : forall w fs env c es es' a a',
  spelled_all (command_flags c ++ [help]) es a -> spelled_all (command_flags c ++ [help]) es' a' ->
  NoDup (map flag_of es) -> Permutation.Permutation (map option_of es) (map option_of es') ->
  ~ completion (command_words c ++ a) -> ~ completion (command_words c ++ a') ->
  run_line w fs env (command_words c ++ a) = run_line w fs env (command_words c ++ a').
Proof.
  intros w fs env c es es' a a' S S' D P N N'. pose proof (good_command c) as G. pose proof (spelled_of _ _ _ S) as O. pose proof (spelled_of _ _ _ S') as O'.
  assert (D' : NoDup (map flag_of es')).
  { rewrite flags_of_options in *. exact (Permutation.Permutation_NoDup (Permutation.Permutation_map fst P) D). }
  assert (M : forall f x, In (f, x) (map option_of es) <-> In (f, x) (map option_of es')).
  { intros f x. split; apply Permutation.Permutation_in; [exact P|now apply Permutation.Permutation_sym]. }
  unfold run_line. rewrite (line_words _ _ _ N), (line_words _ _ _ N'). unfold command_request. change help_flag with help.
  assert (Q : forall es a, spelled_all (command_flags c ++ [help]) es a -> NoDup (map flag_of es) ->
    parse_flags (command_flags c ++ [help]) a = Some (map strip es, []) /\ two_forms (command_flags c ++ [help]) (map strip es) = false).
  { intros e b Se De. split; [|apply two_forms_iff; [exact G|exact (spelled_of _ _ _ Se)|now apply once_one_name]].
    rewrite <- (app_nil_r b). apply (parse_spelled _ _ b [] [] G Se). right. split; [reflexivity|intros; discriminate]. }
  destruct (Q es a S D) as [P1 T1], (Q es' a' S' D') as [P2 T2]. rewrite P1, T1, P2, T2. destruct (existsb _ _); [reflexivity|].
  assert (H : given_value help (map strip es) = given_value help (map strip es')) by (apply (same_given _ es es' help G O O'); try assumption; apply in_or_app; right; now left).
  unfold switched_on. rewrite H. destruct (match given_value help (map strip es') with Some _ => _ | None => _ end); [reflexivity|].
  apply run_same. intro n. unfold flag_values. destruct (find _ _) as [f|] eqn:F; [|reflexivity]. apply find_some in F as [F _].
  now rewrite (same_given _ es es' f G O O') by (try assumption; apply in_or_app; now left).
Qed.

(** if nothing but options follows the words, all of them count *)
Lemma all_count : forall env c es a, spelled_all (command_flags c ++ [help]) es a -> one_name es -> off help es -> sensible env c ->
  ~ completion (command_words c ++ a) ->
  exists v, asks env (command_words c ++ a) c v /\ forall f x, In f (command_flags c) -> given f es x -> v (fl_name f) = Some x.
Proof.
  intros env c es a S O W SE N. exists (flag_values env c (map strip es)).
  assert (B : begins (command_flags c ++ [help]) a es []).
  { exists a, []. rewrite app_nil_r. repeat split; try assumption. right. split; [reflexivity|intros; discriminate]. }
  pose proof (spelled_of _ _ _ S) as OF.
  assert (A : asks_options env c a (flag_values env c (map strip es))).
  { exists es, []. split; [exact B|]. split; [exact W|]. split; [exact SE|]. split.
    - intros f F. exact (proj2 (value_iff env c es f _ OF SE F) eq_refl).
    - intros n I. now apply flag_values_none. }
  split.
  - apply line_iff. rewrite (line_words _ _ _ N). now apply command_request_iff.
  - intros f x F X. unfold flag_values. rewrite (flag_by_name c f F).
    destruct (given_value_iff _ f es (good_command c) OF (in_or_app _ _ _ (or_introl F))) as [V _]. now rewrite (proj2 (V x) X).
Qed.

Lemma option_of_eq : forall es, map (fun e : flag * string * string => (fst (fst e), snd e)) es = map option_of es.
Proof. intro es. apply map_ext. intros [[f n] x]. reflexivity. Qed.
Lemma flag_of_eq : forall es, map (fun e : flag * string * string => fst (fst e)) es = map flag_of es.
Proof. intro es. apply map_ext. intros [[f n] x]. reflexivity. Qed.
Lemma order_free : forall w fs env c es es' a a',
  spelled_all (command_flags c ++ [help]) es a -> spelled_all (command_flags c ++ [help]) es' a' ->
  NoDup (map (fun e => fst (fst e)) es) ->
  Permutation.Permutation (map (fun e => (fst (fst e), snd e)) es) (map (fun e => (fst (fst e), snd e)) es') ->
  ~ completion (command_words c ++ a) -> ~ completion (command_words c ++ a') ->
  run_line w fs env (command_words c ++ a) = run_line w fs env (command_words c ++ a').
Proof. intros w fs env c es es' a a' S S'. rewrite flag_of_eq, !option_of_eq. now apply order_irrelevant. Qed.
