(** Decoding succeeds exactly for values that fit *)
From Coq Require Import String Ascii List NArith Bool Arith Lia DecimalString.
From Coq Require Import DecimalFacts DecimalN.
From Verif.Model Require Import GoString Util Octopus Common Json JsonText Ojson OjsonText Staruml StarumlText Cli.
From Verif.Spec Require Import Text OctopusSpec JsonSpec JsonGrammar CliSpec ShapeSpec.
From Verif.Proofs Require Import ListLemmas StringLemmas StarDocProofs.
Import ListNotations.
Local Open Scope string_scope.

(** ** Numbers *)
Lemma all_nil : forall P, all_chars P "".
Proof. intros P c []. Qed.
Lemma all_cons : forall P c s, all_chars P (String c s) <-> P c /\ all_chars P s.
Proof.
  intros P c s. split.
  - intros H. split; [apply H; now left|]. intros x I. apply H. now right.
  - intros [A B] x [->|I]; [assumption|now apply B].
Qed.
Lemma empty_string_of : forall d, exists z, all_chars (fun c => c = "0"%char) z /\
  NilEmpty.string_of_uint d = z ++ NilEmpty.string_of_uint (Decimal.nzhead d).
Proof.
  induction d as [|d IH|d IH|d IH|d IH|d IH|d IH|d IH|d IH|d IH|d IH]; try (exists ""; split; [apply all_nil|reflexivity]).
  destruct IH as (z & A & E). exists (String "0" z). split; [apply all_cons; auto|]. cbn. now rewrite E.
Qed.
Lemma digits_read : forall lit n, digits_to_N lit = Some n -> exists z, all_chars (fun c => c = "0"%char) z /\ lit = z ++ itoa n.
Proof.
  intros lit n H. unfold digits_to_N in H. destruct (NilZero.uint_of_string lit) as [d|] eqn:E; [|discriminate].
  cbn in H. injection H as <-.
  unfold itoa. rewrite Unsigned.to_of. unfold Decimal.unorm.
  assert (S : NilEmpty.string_of_uint d = lit).
  { unfold NilZero.uint_of_string in E. destruct lit; [discriminate|]. now apply NilEmpty.sus. }
  destruct (empty_string_of d) as (z & A & Z). rewrite S in Z.
  destruct (Decimal.nzhead d) eqn:N; try (exists z; split; [exact A|rewrite Z; reflexivity]).
  cbn [NilEmpty.string_of_uint] in Z. rewrite app_nil_r_s in Z. subst z.
  destruct lit as [|c r]; [discriminate E|].
  apply all_cons in A as [-> A]. exists r. split; [exact A|]. cbn. clear - A.
  induction r as [|c r IH]; [reflexivity|]. apply all_cons in A as [-> A]. cbn in *. f_equal. now apply IH.
Qed.
Lemma zeros_digits : forall z s, all_chars (fun c => c = "0"%char) z -> s <> "" -> digits_to_N (z ++ s) = digits_to_N s.
Proof.
  induction z as [|c z IH]; intros s A N; [reflexivity|]. apply all_cons in A as [-> A]. rewrite <- (IH s A N). unfold digits_to_N.
  cbn [append]. unfold NilZero.uint_of_string.
  destruct (z ++ s) as [|c r] eqn:E.
  { destruct z; [exfalso; now apply N|discriminate E]. }
  set (x := String c r) in *. cbn [NilEmpty.uint_of_string]. destruct (NilEmpty.uint_of_string x); reflexivity.
Qed.
Lemma small_iff : forall lit, (exists n, digits_to_N lit = Some n /\ (n < 65536)%N) <-> small lit.
Proof.
  intros lit. split.
  - intros (n & D & L). destruct (digits_read _ _ D) as (z & A & E). exists z, n. auto.
  - intros (z & n & A & -> & L). exists n. split; [|exact L]. rewrite zeros_digits; [apply digits_to_N_itoa|exact A|].
    intros X. pose proof (digits_to_N_itoa n) as D. rewrite X in D. discriminate D.
Qed.

(** ** Leaves *)
Section Fits.
Variables (decl : string -> list (string * kind)) (float : string -> bool).
Local Notation ok := (fits decl float).
Lemma fits_text_iff : forall old j, dec_str old j <> None <-> ok Text j.
Proof.
  intros old j. split.
  - destruct j; cbn; intros H; try (exfalso; now apply H); constructor.
  - intros H. inversion H; subst; discriminate.
Qed.
Lemma fits_flag_iff : forall old j, dec_bool old j <> None <-> ok Flag j.
Proof.
  intros old j. split.
  - destruct j; cbn; intros H; try (exfalso; now apply H); constructor.
  - intros H. inversion H; subst; discriminate.
Qed.
Lemma fits_small_iff : forall old j, dec_u16 old j <> None <-> ok Small j.
Proof.
  intros old j. split.
  - destruct j as [|b|lit|s|l|l]; cbn; intros H; try (exfalso; now apply H); constructor.
    apply small_iff. destruct (digits_to_N lit) as [n|]; [|exfalso; now apply H].
    exists n. split; [reflexivity|]. destruct (N.ltb_spec n 65536); [assumption|exfalso; now apply H].
  - intros H. inversion H; subst; [discriminate|]. apply small_iff in H0 as (n & D & L). cbn. rewrite D.
    apply N.ltb_lt in L. rewrite L. discriminate.
Qed.
Lemma fits_elem_iff : forall j, dec_string_elem j <> None <-> ok Text j.
Proof.
  intros j. split.
  - destruct j; cbn; intros H; try (exfalso; now apply H); constructor.
  - intros H. inversion H; subst; discriminate.
Qed.
Lemma dec_list_iff : forall A (d : json -> option A) k l, (forall x, In x l -> (d x <> None <-> ok k x)) ->
  (dec_list d l <> None <-> forall x, In x l -> ok k x).
Proof.
  intros A d k l H. induction l as [|x l IH]; cbn [dec_list]; [split; [intros _ x []|discriminate]|].
  assert (Hx := H x (or_introl eq_refl)). specialize (IH (fun y I => H y (or_intror I))).
  destruct (d x) as [a|].
  - destruct (dec_list d l) as [r|].
    + split; [|discriminate]. intros _ y [<-|I]; [now apply Hx|]. now apply IH.
    + split; [intros X; exfalso; now apply X|]. intros X. exfalso. apply (proj2 IH); [|reflexivity]. intros y I. apply X. now right.
  - split; [intros X; exfalso; now apply X|]. intros X. exfalso. apply (proj2 Hx); [|reflexivity]. apply X. now left.
Qed.
Lemma fits_list_iff : forall A (d : json -> option A) k j, (forall l x, j = JArr l -> In x l -> (d x <> None <-> ok k x)) ->
  (dec_arr d j <> None <-> ok (ListOf k) j).
Proof.
  intros A d k j H. split.
  - destruct j as [|b|lit|s|l|l]; cbn; intros X; try (exfalso; now apply X); constructor.
    exact (proj1 (dec_list_iff A d k l (fun x I => H l x eq_refl I)) X).
  - intros X. inversion X; subst; [discriminate|]. cbn. apply (dec_list_iff A d k l (fun x I => H l x eq_refl I)). assumption.
Qed.

(** ** Structs *)
Definition kind_of (fields : list (string * kind)) (name : string) : option kind :=
  option_map snd (find (fun f => key_is (fst f) name) fields).
Lemma kind_of_iff : forall fields, NoDup (map (fun f => to_lower (fst f)) fields) -> forall name j,
  match kind_of fields name with Some k => ok k j | None => True end <->
  (forall field k, In (field, k) fields -> to_lower field = to_lower name -> ok k j).
Proof.
  intros fields N name j. unfold kind_of. induction fields as [|[f k] fields IH]; cbn [find option_map].
  - split; [intros _ field k []|trivial].
  - inversion N as [|x y N1 N2]; subst. cbn [fst snd]. unfold key_is at 1. destruct (String.eqb_spec (to_lower f) (to_lower name)) as [E|E].
    + cbn [option_map snd]. split.
      * intros H field k' [I|I] E'; [now injection I as <- <-|]. exfalso. apply N1. cbn [fst]. rewrite E, <- E'.
        exact (in_map (fun f => to_lower (fst f)) _ _ I).
      * intros H. exact (H f k (or_introl eq_refl) E).
    + rewrite (IH N2). split.
      * intros H field k' [I|I] E'; [injection I as <- <-; contradiction|]. now apply (H field).
      * intros H field k' I E'. apply (H field); [now right|assumption].
Qed.
Lemma members_iff : forall A (f : A -> string -> json -> option A) fields l,
  NoDup (map (fun f => to_lower (fst f)) fields) ->
  (forall acc name j, In (name, j) l -> (f acc name j <> None <-> match kind_of fields name with Some k => ok k j | None => True end)) ->
  forall acc, dec_members f acc l <> None <->
    (forall name j field k, In (name, j) l -> In (field, k) fields -> to_lower field = to_lower name -> ok k j).
Proof.
  intros A f fields l N. induction l as [|[name j] l IH]; intros H acc; cbn [dec_members].
  - split; [intros _ name j field k []|discriminate].
  - assert (H0 := H acc name j (or_introl eq_refl)). rewrite (kind_of_iff fields N name j) in H0.
    destruct (f acc name j) as [acc'|].
    + rewrite (IH (fun a n x I => H a n x (or_intror I)) acc'). split.
      * intros X n x field k [I|I] F E; [|now apply (X n x field k)]. injection I as <- <-. apply (proj1 H0 ltac:(discriminate) field k F E).
      * intros X n x field k I. apply X. now right.
    + split; [intros X; exfalso; now apply X|]. intros X. exfalso. apply (proj2 H0); [|reflexivity].
      intros field k I E. exact (X name j field k (or_introl eq_refl) I E).
Qed.
Lemma struct_iff : forall A (f : A -> string -> json -> option A) r zero j, j <> JNull ->
  NoDup (map (fun f => to_lower (fst f)) (decl r)) ->
  (forall l acc name v, j = JObj l -> In (name, v) l ->
    (f acc name v <> None <-> match kind_of (decl r) name with Some k => ok k v | None => True end)) ->
  (dec_obj f zero j <> None <-> ok (Pointer r) j).
Proof.
  intros A f r zero j Z N H. split.
  - destruct j as [|b|lit|s|l|l]; cbn; intros X; try (exfalso; now apply X); try contradiction.
    constructor. exact (proj1 (members_iff A f (decl r) l N (fun a n x I => H l a n x eq_refl I) zero) X).
  - intros X. inversion X; subst; [contradiction|]. cbn. now apply (members_iff A f (decl r) l N (fun a n x I => H l a n x eq_refl I)).
Qed.
Lemma pointer_iff : forall A (d : json -> option A) r, (forall j, j <> JNull -> (d j <> None <-> ok (Pointer r) j)) -> forall j,
  match j with JNull => Some None | _ => option_map Some (d j) end <> None <-> ok (Pointer r) j.
Proof.
  intros A d r H j. assert (M : forall o : option A, option_map Some o <> None <-> o <> None) by (intros [a|]; split; intros X; cbn in *; congruence).
  destruct j; try (rewrite M; apply H; discriminate). split; [constructor|discriminate].
Qed.
Lemma map_some : forall A B (g : A -> B) o, option_map g o <> None <-> o <> None.
Proof. intros A B g [a|]; split; intros X; cbn in *; congruence. Qed.

(** ** Objects with members changed before *)
Definition changed {A} (name : string) (h : json -> json) (f : A -> string -> json -> option A) (acc : A) (k : string) (j : json) : option A :=
  f acc k (if key_is name k then h j else j).
Lemma changed_members : forall A name h (f : A -> string -> json -> option A) l acc,
  dec_members f acc (map (fun kv => let '(k, v) := kv in (k, if key_is name k then h v else v)) l) = dec_members (changed name h f) acc l.
Proof.
  intros A name h f l. induction l as [|[k j] l IH]; intros acc; [reflexivity|]. cbn [map dec_members]. unfold changed at 1.
  destruct (f acc k (if key_is name k then h j else j)); [apply IH|reflexivity].
Qed.
Lemma changed_obj : forall A name h (f : A -> string -> json -> option A) zero j,
  dec_obj f zero (map_member name h j) = dec_obj (changed name h f) zero j.
Proof. intros A name h f zero j. destruct j; try reflexivity. apply changed_members. Qed.
Lemma drop_iff : forall A (d : json -> option A) h k j, (forall x, x <> JNull -> (d (h x) <> None <-> ok k x)) ->
  (dec_arr d (drop_nulls h j) <> None <-> ok (ListOf k) j).
Proof.
  intros A d h k j H. destruct j as [|b|lit|s|l|l]; try (split; [intros X; exfalso; now apply X|intros X; inversion X; fail]).
  { split; [constructor|intros _; cbn; discriminate]. }
  cbn [drop_nulls dec_arr]. assert (E : ok (ListOf k) (JArr l) <-> forall x, In x l -> ok k x).
  { split; [intros X; inversion X; subst; assumption|apply fits_list]. }
  rewrite E. clear E. induction l as [|x l IH]; cbn [filter map dec_list]; [split; [intros _ x []|discriminate]|].
  destruct (is_null x) eqn:Z; cbn [negb].
  - rewrite IH. destruct x; try discriminate Z. split; [intros X y [<-|I]; [constructor|now apply X]|]. intros X y I. apply X. now right.
  - assert (Hx : d (h x) <> None <-> ok k x) by (apply H; intros ->; discriminate Z). cbn [map dec_list].
    destruct (d (h x)) as [a|].
    + destruct (dec_list d (map h (filter (fun x => negb (is_null x)) l))) as [q|].
      * split; [|discriminate]. intros _ y [<-|I]; [now apply Hx|]. apply IH; [discriminate|assumption].
      * split; [intros X; exfalso; now apply X|]. intros X. exfalso. apply (proj2 IH); [|reflexivity]. intros y I. apply X. now right.
    + split; [intros X; exfalso; now apply X|]. intros X. exfalso. apply (proj2 Hx); [|reflexivity]. apply X. now left.
Qed.
End Fits.
