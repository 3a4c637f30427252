(** Which types of the target languages hold the values of a column *)
From Coq Require Import String Ascii List NArith ZArith Bool Lia.
From Verif.Model Require Import GoString Octopus Mysql.
From Verif.Spec Require Import Text OctopusSpec MysqlGrammar MysqlSpec ServerSpec KotlinSpec GraphqlSpec ProtobufSpec ValuesSpec.
From Verif.Spec Require GormSpec SqlalchemySpec.
Import ListNotations.
Local Open Scope string_scope.

(** ** Sets of values *)
Lemma ints_mono : forall a b v, (1 <= a <= b)%Z -> ints a v -> ints b v.
Proof.
  intros a b [] H; cbn [ints]; auto. intro R.
  assert (M : (2 ^ (8 * a - 1) <= 2 ^ (8 * b - 1))%Z) by (apply Z.pow_le_mono_r; lia). lia.
Qed.
Lemma bits_mono : forall a b v, (a <= b)%N -> bits a v -> bits b v.
Proof.
  intros a b [] H; cbn [bits]; auto. intro R.
  assert (M : (2 ^ a <= 2 ^ b)%N) by (apply N.pow_le_mono_r; lia). lia.
Qed.
Lemma single_double : forall m e, single m e -> double m e.
Proof. unfold single, double. intros m e [A B]. split; [|lia]. assert (2 ^ 24 < 2 ^ 53)%Z by reflexivity. lia. Qed.
Lemma floats_mono : forall (P Q : Z -> Z -> Prop) v, (forall m e, P m e -> Q m e) -> floats P v -> floats Q v.
Proof. intros P Q [] H; cbn [floats]; auto. Qed.
Lemma texts_mono : forall (P Q : list N -> Prop) v, (forall l, P l -> Q l) -> texts P v -> texts Q v.
Proof. intros P Q [] H; cbn [texts]; auto. Qed.
Lemma bytes_mono : forall a b v, (a <= b)%N -> bytes a v -> bytes b v.
Proof. intros a b [] H; cbn [bytes]; auto. lia. Qed.

(** no value of a type is null *)
Lemma type_values_not_null : forall c, ~ type_values c VNull.
Proof.
  intros [n ty ds sz sc nn pk uq ai df ou vs rf]. unfold type_values. cbn [c_type c_size c_scale c_values].
  repeat (match goal with |- context [match ?s with EmptyString => _ | String _ _ => _ end] => destruct s
                        | |- context [match ?a with Ascii _ _ _ _ _ _ _ _ => _ end] => destruct a
                        | |- context [if ?b then _ else _] => destruct b end; try (intro H; exact H)).
Qed.

(** ** Looking up tables of types *)
Definition entry {A} (x : string) (l : list (list string * A)) : option A :=
  option_map snd (find (fun e => str_in x (fst e)) l).

Lemma str_in_true : forall x l, str_in x l = true <-> In x l.
Proof.
  intros x l. unfold str_in. rewrite existsb_exists. split.
  - intros [y [I E]]. apply String.eqb_eq in E. subst. exact I.
  - intro I. exists x. split; [exact I|apply String.eqb_refl].
Qed.
Lemma entry_in : forall A x (l : list (list string * A)) ts a,
  NoDup (concat (map fst l)) -> In (ts, a) l -> In x ts -> entry x l = Some a.
Proof.
  intros A x l ts a. unfold entry. induction l as [|[ts' a'] l IH]; intros N I X; [destruct I|].
  cbn [find fst]. cbn [map concat fst] in N. destruct I as [E|I].
  - injection E as -> ->. rewrite (proj2 (str_in_true x ts) X). reflexivity.
  - destruct (str_in x ts') eqn:E.
    + exfalso. apply str_in_true in E. revert N. clear -E I X. intro N.
      assert (C : In x (concat (map fst l))) by (apply in_concat; exists ts; split; [apply in_map_iff; exists (ts, a); auto|exact X]).
      induction ts' as [|y ts' IH]; [destruct E|]. cbn [app] in N. inversion N; subst.
      destruct E as [->|E]; [apply H1; apply in_or_app; right; exact C|exact (IH E H2)].
    + apply IH; auto. clear -N. induction ts' as [|y ts' IH]; [exact N|]. inversion N; auto.
Qed.
Lemma entry_out : forall A x (l : list (list string * A)), (forall ts a, In (ts, a) l -> ~ In x ts) -> entry x l = None.
Proof.
  intros A x l H. unfold entry. destruct (find _ l) as [[ts a]|] eqn:E; [|reflexivity].
  apply find_some in E. destruct E as [I X]. apply str_in_true in X. destruct (H _ _ I X).
Qed.
Fixpoint nodupb (l : list string) : bool :=
  match l with [] => true | x :: r => negb (str_in x r) && nodupb r end.
Lemma nodupb_ok : forall l, nodupb l = true -> NoDup l.
Proof.
  induction l as [|x r IH]; intro H; [constructor|]. apply andb_true_iff in H. destruct H as [A B]. constructor; [|auto].
  intro I. apply str_in_true in I. rewrite I in A. discriminate.
Qed.

(** one goal for each type *)
Ltac each_type c H :=
  destruct c as [nm ty ds sz sc nn pk uq ai df ou vs rf]; cbn [c_type] in H;
  let L := eval vm_compute in octopus_types in change octopus_types with L in H;
  cbn [In] in H;
  repeat match type of H with _ \/ _ => destruct H as [H|H] end; [subst ty..|destruct H].

(** ** Go *)
Definition go_table : list (list string * (string * string)) :=
  map (fun e => (fst (fst e), (snd (fst e), snd e))) GormSpec.go_types.
Lemma go_typed_entry : forall c ty, GormSpec.go_typed c ty ->
  ty = match entry (c_type c) go_table with Some (a, b) => if c_notnull c then a else b | None => "interface{}" end.
Proof.
  assert (N : NoDup (concat (map fst go_table))) by (apply nodupb_ok; vm_compute; reflexivity).
  intros c ty [[ts [a [b [I [X E]]]]]|[E H]].
  - rewrite (entry_in _ _ go_table ts (a, b) N); [exact E| |exact X].
    unfold go_table. apply in_map_iff. exists (ts, a, b). split; [reflexivity|exact I].
  - rewrite entry_out; [exact E|]. intros ts [a b] I. unfold go_table in I. apply in_map_iff in I.
    destruct I as [[[ts' a'] b'] [E' I]]. injection E' as -> -> ->. exact (H _ _ _ I).
Qed.

Lemma go_fits : forall c ty, In (c_type c) octopus_types -> GormSpec.go_typed c ty ->
  (holds_all (has_value c) (go_holds ty) <-> go_room c).
Proof.
  intros c ty HT H. apply go_typed_entry in H. subst ty.
  each_type c HT; unfold holds_all, has_value, go_room, type_values; cbn [c_type c_size c_scale c_notnull c_pk c_values].
  all: match goal with |- context [entry ?x go_table] =>
         let r := eval vm_compute in (entry x go_table) in change (entry x go_table) with r end.
  all: cbv iota.
  all: try (split; [intros _; split; intro; discriminate|intros _ v H];
    destruct nn; cbn [go_holds]; unfold either, null, anything;
    (destruct H as [[-> [A B]]|H]; [discriminate A || (left; reflexivity) || exact I|]);
    try (right); try exact I;
    first [ exact H | eapply ints_mono; [|exact H]; lia | eapply floats_mono; [|exact H]; intros m e [S _]; auto using single_double
          | destruct v; cbn in H |- *; tauto
          | (destruct (N.eqb sz 0); destruct v; cbn in H |- *; tauto)]).
  - split.
    + intro H. split; [intros _|discriminate]. destruct (N.leb_spec sz 8) as [L|L]; [exact L|exfalso].
      assert (Z : N.eqb sz 0 = false) by (apply N.eqb_neq; lia). rewrite Z in H.
      assert (B : bits sz (VBits 256)).
      { cbn [bits]. apply N.lt_le_trans with (2 ^ 9)%N; [reflexivity|apply N.pow_le_mono_r; lia]. }
      specialize (H _ (or_intror B)). destruct nn; cbn [go_holds] in H; [discriminate H|destruct H as [H|H]; discriminate H].
    + intros [R _] v [[-> [A B]]|H].
      * rewrite A. cbn [go_holds]. left. reflexivity.
      * assert (B : bits 8 v).
        { eapply bits_mono; [|exact H]. specialize (R eq_refl). destruct (N.eqb sz 0); lia. }
        destruct nn; cbn [go_holds]; [exact B|right; exact B].
  - split; [intros _; split; discriminate|]. intros _ v [[-> [A B]]|H]; [rewrite A; left; reflexivity|].
    destruct nn; cbn [go_holds]; [|right]; unfold go_time, either; tauto.
  - split; [intros _; split; discriminate|]. intros _ v [[-> [A B]]|H]; [rewrite A; left; reflexivity|].
    destruct nn; cbn [go_holds]; [|right]; unfold go_time, either; tauto.
  - split; [intros _; split; discriminate|]. intros _ v [[-> [A B]]|H]; [rewrite A; left; reflexivity|].
    destruct nn; cbn [go_holds]; [|right]; unfold go_time, either; tauto.
  - split.
    + intro H. split; [discriminate|intros _]. destruct nn; [left; reflexivity|]. destruct pk; [right; reflexivity|].
      destruct (H VNull (or_introl (conj eq_refl (conj eq_refl eq_refl)))).
    + intros [_ R] v [[-> [A B]]|H]; [destruct (R eq_refl); congruence|]. destruct nn; destruct v; cbn in H |- *; tauto.
Qed.

(** ** Kotlin *)
Lemma kt_default_entry : forall c ty value, kt_default c ty value -> entry (c_type c) kt_types = Some (ty, value).
Proof.
  assert (N : NoDup (concat (map fst kt_types))) by (apply nodupb_ok; vm_compute; reflexivity).
  intros c ty value [ts [I X]]. exact (entry_in _ _ kt_types ts (ty, value) N I X).
Qed.
Lemma kt_type_entry : forall c ty, kt_type_for c ty ->
  ty = match entry (c_type c) kt_types with
       | Some (k, _) => k
       | None => if str_in (c_type c) blob_types then "Blob" else "Any"
       end.
Proof.
  intros c ty [[value D]|[[B E]|[D [B E]]]].
  - rewrite (kt_default_entry _ _ _ D). reflexivity.
  - rewrite (proj2 (str_in_true _ _) B), E.
    cbn in B. repeat (destruct B as [B|B]; [rewrite <- B; reflexivity|]). destruct B.
  - rewrite entry_out.
    + destruct (str_in _ _) eqn:S; [apply str_in_true in S; destruct (B S)|exact E].
    + intros ts [k v] I X. apply D. exists k, v, ts. split; assumption.
Qed.

Lemma kt_fits : forall c ty, In (c_type c) octopus_types -> kt_property_type c ty ->
  holds_all (has_value c) (kt_holds ty).
Proof.
  intros c ty HT [k [K ->]]. apply kt_type_entry in K. subst k.
  each_type c HT; unfold holds_all, has_value, type_values; cbn [c_type c_size c_scale c_notnull c_pk c_values] in *.
  all: match goal with |- context [entry ?x kt_types] =>
         let r := eval vm_compute in (entry x kt_types) in change (entry x kt_types) with r end.
  all: cbv iota.
  all: try match goal with |- context [str_in ?x blob_types] =>
         let r := eval vm_compute in (str_in x blob_types) in change (str_in x blob_types) with r end.
  all: cbv iota; intros v H.
  all: destruct nn; cbn [kt_holds kt_holds_name]; unfold either, null;
    (destruct H as [[-> [A B]]|H]; [discriminate A || (left; reflexivity)|]);
    try right.
  all: try solve [ exact H | eapply ints_mono; [|exact H]; lia | eapply floats_mono; [|exact H]; intros m e [S _]; exact S
          | eapply texts_mono; [|exact H]; auto
          | destruct v; cbn in H |- *; tauto
          | (destruct (N.eqb sz 0); destruct v; cbn in H |- *; tauto)
          | (intro E; subst v; exact H) ].
Qed.

(** ** Decimal numbers and doubles *)
Lemma pow2_mod5 : forall k, (0 <= k)%Z -> (2 ^ k mod 5 <> 0)%Z.
Proof.
  intros k K. assert (H : (2 ^ k mod 5 = 1 \/ 2 ^ k mod 5 = 2 \/ 2 ^ k mod 5 = 3 \/ 2 ^ k mod 5 = 4)%Z); [|lia].
  revert k K. apply natlike_ind; [left; reflexivity|].
  intros k K IH. rewrite Z.pow_succ_r by exact K. rewrite Z.mul_mod by lia.
  destruct IH as [->|[->|[->| ->]]]; vm_compute; tauto.
Qed.

Definition decimal_of (c : column) : N * N := if N.eqb (c_size c) 0 then (10, 0)%N else (c_size c, c_scale c).
Lemma decimal_doubles_iff : forall c, c_type c = "decimal" ->
  (holds_all (type_values c) decimal_doubles <-> short_decimal c).
Proof.
  intros c T. unfold type_values, short_decimal, holds_all. rewrite T. split.
  - intros H _. destruct (N.eqb_spec (c_size c) 0) as [Z|Z]; [left; exact Z|right].
    destruct (N.eqb_spec (c_scale c) 0) as [S|S].
    + split; [exact S|]. destruct (N.leb_spec (c_size c) 15) as [L|L]; [exact L|exfalso].
      specialize (H (VDecimal (2 ^ 53 + 1) 0)). rewrite S in H. cbn [decimals decimal_doubles] in H.
      destruct H as [m [e [[M E] Q]]].
      { split; [lia|]. change (Z.of_N 0 - Z.of_N 0)%Z with 0%Z. rewrite Z.pow_0_r, Z.mul_1_r.
        apply Z.lt_le_trans with (10 ^ 16)%Z; [reflexivity|apply Z.pow_le_mono_r; lia]. }
      change (10 ^ Z.of_N 0)%Z with 1%Z in Q. rewrite Z.mul_1_r in Q.
      destruct (Z.ltb_spec e 0) as [N|P].
      * rewrite (Z.max_r e 0), (Z.max_l (- e) 0) in Q by lia. rewrite Z.pow_0_r, Z.mul_1_r in Q.
        assert (1 <= 2 ^ (- e))%Z by (apply (Z.pow_le_mono_r 2 0 (- e)); lia). nia.
      * rewrite (Z.max_l e 0), (Z.max_r (- e) 0) in Q by lia. rewrite Z.pow_0_r, Z.mul_1_r in Q.
        destruct (Z.eqb_spec e 0) as [E0|E0].
        -- subst e. rewrite Z.pow_0_r, Z.mul_1_r in Q. lia.
        -- replace e with (Z.succ (e - 1)) in Q by lia. rewrite Z.pow_succ_r in Q by lia.
           assert (X : ((m * (2 * 2 ^ (e - 1))) mod 2 = 0)%Z).
           { replace (m * (2 * 2 ^ (e - 1)))%Z with (m * 2 ^ (e - 1) * 2)%Z by ring. apply Z.mod_mul. lia. }
           rewrite Q in X. vm_compute in X. discriminate X.
    + exfalso. specialize (H (VDecimal 1 (c_scale c))). cbn [decimals decimal_doubles] in H.
      destruct H as [m [e [_ Q]]].
      { split; [lia|]. rewrite Z.sub_diag. change (Z.abs 1 * 10 ^ 0)%Z with 1%Z.
        apply Z.lt_le_trans with (10 ^ 1)%Z; [reflexivity|apply Z.pow_le_mono_r; lia]. }
      rewrite Z.mul_1_l in Q. apply (pow2_mod5 (Z.max (- e) 0)); [lia|]. rewrite <- Q.
      replace (Z.of_N (c_scale c)) with (Z.succ (Z.of_N (c_scale c) - 1)) by lia. rewrite Z.pow_succ_r by lia.
      replace (m * 2 ^ Z.max e 0 * (10 * 10 ^ (Z.of_N (c_scale c) - 1)))%Z
        with (m * 2 ^ Z.max e 0 * 2 * 10 ^ (Z.of_N (c_scale c) - 1) * 5)%Z by ring.
      apply Z.mod_mul. lia.
  - intros R v H.
    assert (K : exists p, (p <= 15)%N /\ decimals p 0 v).
    { destruct (R eq_refl) as [Z|[S L]].
      - rewrite Z in H. cbn in H. exists 10%N. split; [lia|exact H].
      - destruct (N.eqb (c_size c) 0); [exists 10%N; split; [lia|exact H]|]. rewrite S in H. exists (c_size c). split; assumption. }
    destruct K as [p [L K]]. destruct v; try (destruct K; fail). cbn [decimals decimal_doubles] in *. destruct K as [K1 K2].
    assert (s = 0%N) by lia. subst s. change (Z.of_N 0 - Z.of_N 0)%Z with 0%Z in K2. rewrite Z.pow_0_r, Z.mul_1_r in K2.
    exists d, 0%Z. split; [split; [|lia]|rewrite Z.max_r by lia; change (Z.max (- 0) 0) with 0%Z; rewrite Z.pow_0_r; change (10 ^ Z.of_N 0)%Z with 1%Z; lia].
    apply Z.lt_le_trans with (1 := K2). apply Z.le_trans with (10 ^ 15)%Z; [apply Z.pow_le_mono_r; lia|].
    vm_compute. discriminate.
Qed.

(** ** GraphQL *)
Definition scalar_table : list (list string * string) := map (fun e => (snd e, fst e)) scalars.
Lemma scalar_entry : forall t b, scalar_of t b -> b = match entry t scalar_table with Some b => b | None => "String" end.
Proof.
  assert (N : NoDup (concat (map fst scalar_table))) by (apply nodupb_ok; vm_compute; reflexivity).
  intros t b [[ts [I X]]|[E H]].
  - rewrite (entry_in _ _ scalar_table ts b N); [reflexivity| |exact X].
    unfold scalar_table. apply in_map_iff. exists (b, ts). split; [reflexivity|exact I].
  - rewrite entry_out; [exact E|]. intros ts a I. unfold scalar_table in I. apply in_map_iff in I.
    destruct I as [[a' ts'] [E' I]]. injection E' as -> ->. exact (H _ _ I).
Qed.

Lemma holds_null : forall c (B : vals), (forall v, type_values c v -> B v) ->
  holds_all (has_value c) (if c_notnull c then B else either null B).
Proof.
  intros c B H v [[-> [A _]]|T]; [rewrite A; left; reflexivity|]. destruct (c_notnull c); [|right]; auto.
Qed.
(** whether there is room does not depend on null *)
Lemma holds_some : forall c (B : vals), ~ B VNull ->
  (holds_all (has_value c) (if c_notnull c then B else either null B) <-> holds_all (type_values c) B).
Proof.
  intros c B N. split.
  - intros H v T. specialize (H v (or_intror T)). destruct (c_notnull c); [exact H|]. destruct H as [H|H]; [|exact H].
    red in H. subst v. destruct (type_values_not_null c T).
  - apply holds_null.
Qed.

Lemma scalar_not_null : forall b, ~ scalar_holds b VNull.
Proof.
  intro b. unfold scalar_holds.
  repeat (match goal with |- context [match ?s with EmptyString => _ | String _ _ => _ end] => destruct s
                        | |- context [match ?a with Ascii _ _ _ _ _ _ _ _ => _ end] => destruct a
                        | |- context [if ?b then _ else _] => destruct b end;
          try (intro H; exact H)).
  all: try (intro H; destruct H as [H|H]; exact H).
  all: try (intro H; apply H; reflexivity).
Qed.

Lemma scalar_fits : forall c b, In (c_type c) octopus_types -> scalar_of (c_type c) b ->
  (holds_all (type_values c) (scalar_holds b) <-> c_type c <> "int64" /\ short_decimal c).
Proof.
  intros c b HT H. apply scalar_entry in H. subst b.
  assert (D := decimal_doubles_iff c). assert (NN := type_values_not_null c).
  each_type c HT; cbn [c_type] in D |- *.
  all: match goal with |- context [entry ?x scalar_table] =>
         let r := eval vm_compute in (entry x scalar_table) in change (entry x scalar_table) with r end.
  all: cbv iota; cbn [scalar_holds].
  all: try (split; [intros _; split; [discriminate|discriminate]|]; intros _ v T; unfold type_values in T; cbn [c_type c_size c_scale c_values] in T;
    solve [exact T | eapply ints_mono; [|exact T]; lia | left; eapply floats_mono; [|exact T]; intros m e [S _]; auto using single_double
          | (intro E; subst v; apply NN; unfold type_values; cbn [c_type c_size c_scale c_values]; exact T)]).
  - split; [|intros [N _]; destruct (N eq_refl)]. intro H. exfalso.
    specialize (H (VInt 2147483648)). unfold type_values in H. cbn [c_type ints] in H.
    assert (X : (- 2 ^ (8 * 8 - 1) <= 2147483648 < 2 ^ (8 * 8 - 1))%Z) by (vm_compute; split; [discriminate|reflexivity]).
    apply H in X. destruct X as [_ X]. vm_compute in X. discriminate X.
  - specialize (D eq_refl). split.
    + intro H. split; [discriminate|]. apply D. intros v T. specialize (H v T). destruct H as [H|H]; [|exact H]. exfalso.
      unfold type_values in T. cbn [c_type c_size c_scale] in T. destruct (N.eqb sz 0); destruct v; cbn in T, H; tauto.
    + intros [_ R] v T. right. exact (proj2 D R v T).
Qed.

Lemma gql_fits : forall name t c x, In (c_type c) octopus_types -> In c (t_cols t) -> gfield_described name t c x ->
  (holds_all (has_value c) (gql_holds (snd x)) <-> gql_room t c).
Proof.
  intros name t c x HT I [_ [K N]]. unfold gql_room.
  assert (D : sole_key t c \/ ~ sole_key t c).
  { unfold sole_key. destruct (c_pk c) eqn:P; [|right; intros [E _]; discriminate E].
    destruct (Nat.eq_dec (length (filter c_pk (t_cols t))) 1) as [L|L].
    - left. split; [reflexivity|]. apply in_split in I. destruct I as [l [r E]]. exists l, r. split; [exact E|].
      rewrite E, filter_app in L. cbn [filter] in L. rewrite P, app_length in L. cbn [length] in L.
      assert (A : filter c_pk l = [] /\ filter c_pk r = []).
      { split; [destruct (filter c_pk l)|destruct (filter c_pk r)]; [reflexivity| |reflexivity|]; cbn [length] in L; lia. }
      intros d D. destruct (c_pk d) eqn:Pd; [exfalso|reflexivity]. destruct A as [A B].
      apply in_app_or in D. destruct D as [D|D].
      + assert (F : In d (filter c_pk l)) by (apply filter_In; auto). rewrite A in F. destruct F.
      + assert (F : In d (filter c_pk r)) by (apply filter_In; auto). rewrite B in F. destruct F.
    - right. intros [_ [l [r [E H]]]]. apply L. rewrite E, filter_app. cbn [filter]. rewrite P.
      assert (Z : forall k, (forall d, In d k -> c_pk d = false) -> filter c_pk k = []).
      { induction k as [|d k IH]; intro G; [reflexivity|]. cbn [filter]. rewrite (G d (or_introl eq_refl)). apply IH. intros e Ie. apply G. right. exact Ie. }
      rewrite (Z l), (Z r); [reflexivity| |]; intros d Id; apply H; apply in_or_app; auto. }
  destruct D as [S|S].
  - rewrite (K S). split; [intros _; left; exact S|]. intros _ v H. cbn [gql_holds scalar_holds]. intro E. subst v.
    destruct H as [[_ [_ P]]|H]; [destruct S as [S _]; congruence|exact (type_values_not_null c H)].
  - destruct (N S) as [b [B ->]].
    assert (E : forall v, gql_holds (if c_notnull c then GNonNull (GName b) else GName b) v <->
                  (if c_notnull c then scalar_holds b else either null (scalar_holds b)) v)
      by (intro v; destruct (c_notnull c); reflexivity).
    assert (F := holds_some c (scalar_holds b) (scalar_not_null b)). assert (G := scalar_fits c b HT B). split.
    + intro H. right. apply G, F. intros v V. apply E. exact (H v V).
    + intros [X|X]; [destruct (S X)|]. intros v V. apply E. apply (proj2 F (proj2 G X) v V).
Qed.

(** ** Protocol buffers *)
Definition proto_table : list (list string * string) := map (fun e => (snd e, fst e)) proto_types.
Lemma proto_entry : forall lc c x, column_field lc c x ->
  rf_type x = match entry (c_type c) proto_table with Some b => b | None => c_type c end.
Proof.
  assert (N : NoDup (concat (map fst proto_table))) by (apply nodupb_ok; vm_compute; reflexivity).
  intros lc c x [_ [_ [A B]]]. destruct (entry (c_type c) proto_table) as [b|] eqn:E.
  - apply A. unfold entry in E. destruct (find _ proto_table) as [[ts b']|] eqn:F; [|discriminate E]. injection E as ->.
    apply find_some in F. destruct F as [I X]. apply str_in_true in X. unfold proto_table in I. apply in_map_iff in I.
    destruct I as [[a' ts'] [E' I]]. injection E' as -> ->. exists ts. split; assumption.
  - apply B. intros b [ts [I X]]. rewrite (entry_in _ _ proto_table ts b N) in E; [discriminate E| |exact X].
    unfold proto_table. apply in_map_iff. exists (b, ts). split; [reflexivity|exact I].
Qed.

Lemma proto_fits : forall lc c x, In (c_type c) octopus_types -> (c_type c = "enum" -> c_values c <> []) -> column_field lc c x ->
  ((forall v, has_value c v -> v <> VNull -> proto_holds (rf_type x) v) <-> proto_room c).
Proof.
  intros lc c x HT HE H. rewrite (proto_entry _ _ _ H). clear H x.
  assert (D := decimal_doubles_iff c).
  assert (G : forall B : vals, (forall v, has_value c v -> v <> VNull -> B v) <-> holds_all (type_values c) B).
  { intro B. split; intros K v V.
    - apply K; [right; exact V|]. intro E. subst v. exact (type_values_not_null c V).
    - intro N. destruct V as [[V _]|V]; [destruct (N V)|exact (K v V)]. }
  rewrite (G (proto_holds _)). clear G. unfold proto_room.
  each_type c HT; cbn [c_type c_values] in D, HE |- *.
  all: match goal with |- context [entry ?x proto_table] =>
         let r := eval vm_compute in (entry x proto_table) in change (entry x proto_table) with r end.
  all: cbv iota; cbn [proto_holds].
  all: try (split; [intros _; split; [cbn [In]; tauto|discriminate]|]; intros _ v T; unfold type_values in T; cbn [c_type c_size c_scale c_values] in T;
    solve [exact T | eapply ints_mono; [|exact T]; lia | eapply texts_mono; [|exact T]; auto
          | eapply floats_mono; [|exact T]; intros m e [S _]; exact S
          | left; eapply floats_mono; [|exact T]; intros m e [S _]; auto using single_double]).
  all: try (split; [intro H; exfalso|intros [X _]; exfalso; cbn [In] in X; repeat (destruct X as [X|X]; [discriminate X|]); exact X];
    unfold holds_all, type_values in H; cbn [c_type c_size c_scale c_values] in H;
    solve [ apply (H (VBytes 0)); cbn; unfold top; lia | apply (H (VBits 0)); cbn [bits]; apply N.neq_0_lt_0; apply N.pow_nonzero; lia
          | exact (H (VDate 0 0 0) I) | apply (H (VTime 0)); reflexivity | exact (H (VYear 0) I)
          | apply (H (VMembers [])); intros s [] | exact (H (VJson "") I) | exact (H (VShape "") I)
          | (destruct vs as [|w vs]; [exact (HE eq_refl eq_refl)|apply (H (VMember w)); left; reflexivity]) ]).
  - specialize (D eq_refl). split.
    + intro H. split; [cbn [In]; tauto|]. apply D. intros v T. specialize (H v T). destruct H as [H|H]; [|exact H]. exfalso.
      unfold type_values in T. cbn [c_type c_size c_scale] in T. destruct (N.eqb sz 0); destruct v; cbn in T, H; tauto.
    + intros [_ R] v T. right. exact (proj2 D R v T).
Qed.

(** ** SQLAlchemy *)
Lemma sa_class_entry : forall c k, SqlalchemySpec.sa_class_for c k ->
  entry (c_type c) SqlalchemySpec.sa_types = Some k \/ (c_type c = "bit" /\ c_size c = 1%N /\ k = "Boolean").
Proof.
  assert (N : NoDup (concat (map fst SqlalchemySpec.sa_types))) by (apply nodupb_ok; vm_compute; reflexivity).
  intros c k [[ts [I X]]|H]; [left|right; exact H]. exact (entry_in _ _ SqlalchemySpec.sa_types ts k N I X).
Qed.

Lemma sa_type_fits : forall wide blob utc c ty, In (c_type c) octopus_types -> SqlalchemySpec.sa_type_arg utc c ty ->
  (c_size c = 0%N \/ (c_scale c <= c_size c)%N) ->
  (holds_all (type_values c) (sa_holds wide blob ty) <-> sa_room wide blob c).
Proof.
  intros wide blob utc c ty HT H Z. destruct H as [T S|k args T K A|U T N|k K T S U].
  - assert (B : blob_length (c_type c) = 0%N /\ c_type c <> "double")
      by (cbn [In] in T; destruct T as [T|[T|[]]]; rewrite <- T; split; [reflexivity|discriminate|reflexivity|discriminate]).
    destruct B as [B B']. unfold sa_room. rewrite B. split; [intros _; split; [tauto|lia]|]. intros _ v V. cbn [sa_holds].
    assert (E : N.eqb (c_size c) 0 = false) by (apply N.eqb_neq; lia).
    unfold type_values in V. cbn [In] in T. destruct T as [T|[T|[]]]; rewrite <- T in V.
    + rewrite E in V. eapply texts_mono; [|exact V]. intros l L. exists (c_size c). split; [reflexivity|exact L].
    + eapply texts_mono; [|exact V]. intros l [L|L]; [lia|]. exists (c_size c). split; [reflexivity|exact L].
  - apply sa_class_entry in K. cbn [In] in T. destruct T as [T|[T|[T|[]]]]; rewrite <- T in K; destruct K as [K|[K _]]; try discriminate K;
      vm_compute in K; injection K as <-; unfold sa_room; rewrite <- T; cbn [sa_holds].
    + split; [intros _; split; [discriminate|vm_compute; discriminate || (destruct blob; discriminate)]|]. intros _ v V. unfold type_values in V. rewrite <- T in V.
      eapply floats_mono; [|exact V]. intros m e [S _]. destruct wide; auto using single_double.
    + split.
      * intro H. split; [intros _|destruct blob; vm_compute; discriminate]. destruct wide; [reflexivity|exfalso].
        specialize (H (VFloat (2 ^ 24 + 1) (-30))). unfold type_values in H. rewrite <- T in H. cbn [floats] in H.
        destruct H as [H _]; [|vm_compute in H; discriminate H]. split; [split; [reflexivity|lia]|].
        destruct Z as [Z|Z]; [left; exact Z|right]. unfold below. change (Z.max (-30) 0) with 0%Z. change (Z.max (- -30) 0) with 30%Z.
        rewrite Z.pow_0_r, Z.mul_1_r. assert (P : (10 ^ Z.of_N (c_scale c) <= 10 ^ Z.of_N (c_size c))%Z) by (apply Z.pow_le_mono_r; lia).
        assert (Q : (0 < 10 ^ Z.of_N (c_scale c))%Z) by (apply Z.pow_pos_nonneg; lia).
        change (Z.abs (2 ^ 24 + 1)) with 16777217%Z. change (2 ^ 30)%Z with 1073741824%Z. lia.
      * intros [W _] v V. rewrite (W eq_refl). unfold type_values in V. rewrite <- T in V.
        eapply floats_mono; [|exact V]. intros m e [S _]. exact S.
    + split; [intros _; split; [discriminate|destruct blob; vm_compute; discriminate]|]. intros _ v V. unfold type_values in V. rewrite <- T in V.
      destruct (N.eqb_spec (c_size c) 0) as [E|E].
      * right. split; [|exact V]. intros k I. unfold sa_arg in I. apply A in I. destruct I as [[_ [I _]]|[I _]]; [lia|discriminate I].
      * left. exists (c_size c), (c_scale c). split; [apply A; left; split; [reflexivity|split; [lia|reflexivity]]|split; [|exact V]].
        destruct (N.eqb_spec (c_scale c) 0) as [F|F].
        -- right. split; [exact F|]. intros k I. unfold sa_arg in I. apply A in I. destruct I as [[I _]|[_ [I _]]]; [discriminate I|lia].
        -- left. apply A. right. split; [reflexivity|split; [lia|reflexivity]].
  - unfold sa_room. rewrite T. split; [intros _; split; [discriminate|destruct blob; vm_compute; discriminate]|]. intros _ v V. unfold type_values in V. rewrite T in V. exact V.
  - apply sa_class_entry in K. unfold sa_room. revert HT K T S. clear U.
    assert (BL : forall n, (0 <= n)%N) by (intro; lia).
    intros HT K T S. each_type c HT; cbn [c_type c_size] in K, T, S |- *.
    all: try (exfalso; apply T; cbn [In]; tauto).
    all: match type of K with context [entry ?x SqlalchemySpec.sa_types] =>
         let r := eval vm_compute in (entry x SqlalchemySpec.sa_types) in change (entry x SqlalchemySpec.sa_types) with r in K end.
    all: destruct K as [K|[K1 [K2 K3]]]; [try discriminate K; injection K as <-|try discriminate K1].
    all: unfold holds_all, type_values; cbn [c_type c_size c_scale c_values sa_holds blob_length].
    all: try (split; [intros _; split; [discriminate|apply BL]|]; intros _ v V;
      solve [exact V | eapply ints_mono; [|exact V]; lia | eapply texts_mono; [|exact V]; auto]).
    all: try (split; [intro H; split; [discriminate|]; match goal with |- (top ?k <= _)%N => exact (H (VBytes (top k)) (N.le_refl _)) end
                     |intros [_ R] v V; eapply bytes_mono; [exact R|exact V]]).
    subst k sz. split; [intros _; split; [discriminate|apply BL]|]. intros _ v V. exact V.
Qed.

Lemma sa_fits : forall wide blob utc c ty kws, In (c_type c) octopus_types -> SqlalchemySpec.sa_type_arg utc c ty ->
  (forall a, In a kws <-> SqlalchemySpec.sa_keyword utc c a) -> (c_size c = 0%N \/ (c_scale c <= c_size c)%N) ->
  (holds_all (has_value c) (sa_column_holds wide blob ty kws) <-> sa_room wide blob c).
Proof.
  intros wide blob utc c ty kws HT A K Z. rewrite <- (sa_type_fits wide blob utc c ty HT A Z). split; intros H v V.
  - destruct (H v (or_intror V)) as [[E _]|E]; [subst v; destruct (type_values_not_null c V)|exact E].
  - destruct V as [[-> [N P]]|V]; [left|right; exact (H v V)]. split; [reflexivity|].
    split; intro I; apply K in I; inversion I; congruence.
Qed.
