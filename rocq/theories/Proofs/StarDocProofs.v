(** StarUML projects are decoded as described *)
From Coq Require Import String Ascii List NArith ZArith Bool Arith Lia Sorting.Permutation.
From Verif.Model Require Import GoString Util Octopus Common Json JsonText Staruml StarumlText Cli.
From Verif.Spec Require Import Text OctopusSpec JsonSpec CommonSpec CliSpec FormatSpec XlsxSpec StarumlSpec StarDocSpec.
From Verif.Proofs Require Import StringLemmas OctopusProofs JsonProofs JsonTextProofs ReadUtf8 TypeProofs FormatProofs StarumlProofs XlsxText CliLoad CliFormat CliImports V1Proofs.
Import ListNotations.
Local Open Scope string_scope.

(** ** The decoder without local functions *)
Definition st_member (fo : string -> bool) (e : Staruml.element) (k : string) (v : json) : option Staruml.element :=
  let '(Elem ty id pa na le tp pk uq nu dc rt ow co) := e in
  if key_is "_type" k then option_map (fun x => Elem x id pa na le tp pk uq nu dc rt ow co) (dec_str ty v)
  else if key_is "_id" k then option_map (fun x => Elem ty x pa na le tp pk uq nu dc rt ow co) (dec_str id v)
  else if key_is "_parent" k then option_map (fun x => Elem ty id x na le tp pk uq nu dc rt ow co) (st_dec_ref v)
  else if key_is "name" k then option_map (fun x => Elem ty id pa x le tp pk uq nu dc rt ow co) (dec_str na v)
  else if key_is "length" k then (if numbers_ok fo v then Some (Elem ty id pa na v tp pk uq nu dc rt ow co) else None)
  else if key_is "type" k then option_map (fun x => Elem ty id pa na le x pk uq nu dc rt ow co) (dec_str tp v)
  else if key_is "primaryKey" k then option_map (fun x => Elem ty id pa na le tp x uq nu dc rt ow co) (dec_bool pk v)
  else if key_is "unique" k then option_map (fun x => Elem ty id pa na le tp pk x nu dc rt ow co) (dec_bool uq v)
  else if key_is "nullable" k then option_map (fun x => Elem ty id pa na le tp pk uq x dc rt ow co) (dec_bool nu v)
  else if key_is "documentation" k then option_map (fun x => Elem ty id pa na le tp pk uq nu x rt ow co) (dec_str dc v)
  else if key_is "referenceTo" k then option_map (fun x => Elem ty id pa na le tp pk uq nu dc x ow co) (st_dec_ref v)
  else if key_is "head" k || key_is "end1" k || key_is "end2" k || key_is "reference" k
       then option_map (fun _ => e) (st_dec_ref v)
  else if key_is "ownedElements" k then option_map (fun x => Elem ty id pa na le tp pk uq nu dc rt x co) (dec_arr (st_dec_element fo) v)
  else if key_is "columns" k then option_map (fun x => Elem ty id pa na le tp pk uq nu dc rt ow x) (dec_arr (st_dec_element fo) v)
  else Some e.
Lemma st_dec_object : forall fo l, st_dec_element fo (JObj l) = option_map Some (dec_members (st_member fo) st_zero l).
Proof.
  intros fo l. cbn [st_dec_element]. f_equal. generalize st_zero. induction l as [|[k v] l IH]; intros e; [reflexivity|].
  cbn [dec_members].
  assert (A : forall a, (fix elements (l : list json) : option (list (option Staruml.element)) :=
     match l with
     | [] => Some []
     | x :: l' => match st_dec_element fo x, (elements l') with
                  | Some e, Some r => Some (e :: r)
                  | _, _ => None
                  end
     end) a = dec_list (st_dec_element fo) a).
  { induction a as [|x a IHa]; [reflexivity|]. cbn [dec_list]. rewrite IHa. reflexivity. }
  assert (B : forall v, match v with JArr l => (fix elements (l : list json) : option (list (option Staruml.element)) :=
     match l with
     | [] => Some []
     | x :: l' => match st_dec_element fo x, (elements l') with
                  | Some e, Some r => Some (e :: r)
                  | _, _ => None
                  end
     end) l | JNull => Some [] | _ => None end = dec_arr (st_dec_element fo) v).
  { intros w. destruct w; try reflexivity. cbn [dec_arr]. apply A. }
  destruct e as [ty id pa na le tp pk uq nu dc rt ow co]. cbn [st_member]. rewrite <- !B.
  match goal with |- match ?X with _ => _ end = match ?Y with _ => _ end => change Y with X; destruct X as [e'|]; [|reflexivity] end.
  apply IH.
Qed.

(** ** Members with other names *)
Section Known.
Context {A : Type} (f : A -> string -> json -> option A) (view : A -> string -> val)
  (names : list string) (ok : string -> json -> val -> Prop).
Hypothesis step : forall acc k j v, In k names -> ok k j v ->
  exists acc', f acc k j = Some acc' /\ view acc' k = v /\ forall k', In k' names -> k' <> k -> view acc' k' = view acc k'.
Hypothesis skip : forall acc k j, (forall n, In n names -> to_lower n <> to_lower k) -> f acc k j = Some acc.
Lemma known_decode : forall l acc, NoDup (map fst l) ->
  (forall k j, In (k, j) l -> In k names /\ (exists v, ok k j v) \/ forall n, In n names -> to_lower n <> to_lower k) ->
  exists a, dec_members f acc l = Some a /\
    forall k, In k names -> (forall j v, In (k, j) l -> ok k j v -> view a k = v) /\
                            (~ In k (map fst l) -> view a k = view acc k).
Proof.
  induction l as [|[k0 j0] l IH]; intros acc N G; cbn [dec_members].
  - exists acc. split; [reflexivity|]. intros k K. split; [intros j v []|reflexivity].
  - cbn [map fst] in N. inversion N as [|x y N1 N2]; subst.
    destruct (G k0 j0 (or_introl eq_refl)) as [(K0 & v0 & O0)|Other].
    + destruct (step acc k0 j0 v0 K0 O0) as (acc' & E & V & U). rewrite E.
      destruct (IH acc' N2) as (a & D & W); [intros k j I; apply G; now right|].
      exists a. split; [exact D|]. intros k K. split.
      * intros j v [I|I] O.
        -- injection I as <- <-. rewrite (proj2 (W k0 K) N1).
           destruct (step acc k0 j0 v K0 O) as (acc2 & E2 & V2 & _). congruence.
        -- now apply (proj1 (W k K) j v).
      * intros NI. cbn [map fst] in NI. rewrite (proj2 (W k K)) by (intros X; apply NI; now right).
        apply U; [exact K|]. intros X. apply NI. now left.
    + rewrite skip by exact Other. destruct (IH acc N2) as (a & D & W); [intros k j I; apply G; now right|].
      exists a. split; [exact D|]. intros k K. split.
      * intros j v [I|I] O; [|now apply (proj1 (W k K) j v)]. injection I as -> _. exfalso. now apply (Other k K).
      * intros NI. apply (proj2 (W k K)). intros X. apply NI. now right.
Qed.
End Known.
Lemma known_record : forall {A} (f : A -> string -> json -> option A) (view : A -> string -> val) (names : list string)
  (ok : string -> json -> val -> Prop) (zero : A) l (a : A),
  (forall acc k j v, In k names -> ok k j v ->
     exists acc', f acc k j = Some acc' /\ view acc' k = v /\ forall k', In k' names -> k' <> k -> view acc' k' = view acc k') ->
  (forall acc k j, (forall n, In n names -> to_lower n <> to_lower k) -> f acc k j = Some acc) ->
  (forall x y, (forall k, In k names -> view x k = view y k) -> x = y) ->
  has_known names l -> (forall k, In k names -> member_is ok l k (view zero k) (view a k)) ->
  dec_members f zero l = Some a.
Proof.
  intros A f view names ok zero l a step skip ext (N & S) M.
  destruct (known_decode f view names ok step skip l zero N) as (b & D & W).
  - intros k j I. assert (K : In k (map fst l)) by (apply in_map_iff; exists (k, j); auto).
    destruct (S k K) as [K'|K']; [left|now right]. split; [exact K'|].
    destruct (M k K') as [(j' & J & O)|[J _]].
    + rewrite (lookup_unique _ _ _ _ N I J). eauto.
    + exfalso. now apply J.
  - rewrite D. f_equal. apply ext. intros k K. destruct (M k K) as [(j & J & O)|[J E]].
    + exact (proj1 (W k K) j _ J O).
    + rewrite (proj2 (W k K) J). now symmetry.
Qed.

(** ** References *)
Lemma star_ref_decoded : forall j id, star_ref j id -> st_dec_ref j = Some (Some id).
Proof.
  intros j id (l & -> & K & M). unfold st_dec_ref, dec_obj.
  rewrite (known_record st_ref_member (fun r _ => VS r) ["$ref"] (fun _ => ok_str) "" l id); [reflexivity| | | |exact K|].
  - intros acc k x v I (s & -> & ->). each_name I. exists s. split; [reflexivity|]. split; [reflexivity|].
    intros k' K' N. each_name K'; congruence.
  - intros acc k x H. unfold st_ref_member, key_is. destruct (String.eqb_spec (to_lower "$ref") (to_lower k)) as [E|_]; [|reflexivity].
    exfalso. exact (H "$ref" (or_introl eq_refl) E).
  - intros x y H. pose proof (H "$ref" (or_introl eq_refl)). congruence.
  - intros k I. each_name I. apply is_str; auto.
Qed.

(** ** Elements *)
Definition star_names := ["_type"; "_id"; "_parent"; "name"; "length"; "type"; "primaryKey"; "unique"; "nullable"; "documentation";
               "referenceTo"; "head"; "end1"; "end2"; "reference"; "ownedElements"; "columns"].
Definition star_view (e : Staruml.element) (k : string) : val :=
  if String.eqb k "_type" then VS (e_typ e) else if String.eqb k "_id" then VS (e_id e)
  else if String.eqb k "_parent" then VO (e_parent e) else if String.eqb k "name" then VS (e_name e)
  else if String.eqb k "length" then VJ (e_length e) else if String.eqb k "type" then VS (e_type e)
  else if String.eqb k "primaryKey" then VB (e_pk e) else if String.eqb k "unique" then VB (e_uq e)
  else if String.eqb k "nullable" then VB (e_nullable e) else if String.eqb k "documentation" then VS (e_doc e)
  else if String.eqb k "referenceTo" then VO (e_ref_to e) else if String.eqb k "ownedElements" then VE (e_owned e)
  else if String.eqb k "columns" then VE (e_cols e) else VO None.
Definition ok_star_ref (j : json) (v : val) : Prop := exists id, star_ref j id /\ v = VO (Some id).
Definition ok_unused (j : json) (v : val) : Prop := (exists id, star_ref j id) /\ v = VO None.
Definition ok_length (fo : string -> bool) (j : json) (v : val) : Prop := numbers_ok fo j = true /\ v = VJ j.
Definition ok_elements (fo : string -> bool) (j : json) (v : val) : Prop := exists l, dec_arr (st_dec_element fo) j = Some l /\ v = VE l.
Definition star_ok (fo : string -> bool) (k : string) : json -> val -> Prop :=
  if str_in k ["_type"; "_id"; "name"; "type"; "documentation"] then ok_str
  else if str_in k ["_parent"; "referenceTo"] then ok_star_ref
  else if String.eqb k "length" then ok_length fo
  else if str_in k ["primaryKey"; "unique"; "nullable"] then ok_bool
  else if str_in k ["ownedElements"; "columns"] then ok_elements fo
  else ok_unused.
Lemma star_step : forall fo acc k j v, In k star_names -> star_ok fo k j v ->
  exists acc', st_member fo acc k j = Some acc' /\ star_view acc' k = v /\
    forall k', In k' star_names -> k' <> k -> star_view acc' k' = star_view acc k'.
Proof.
  intros fo [ty id pa na le tp pk uq nu dc rt ow co] k j v K O. each_name K.
  - destruct O as (s & -> & ->). eexists; split; [reflexivity|finish_step].
  - destruct O as (s & -> & ->). eexists; split; [reflexivity|finish_step].
  - destruct O as (i & R & ->). exists (Elem ty id (Some i) na le tp pk uq nu dc rt ow co). split; [|finish_step].
    change (option_map (fun x => Elem ty id x na le tp pk uq nu dc rt ow co) (st_dec_ref j) = Some (Elem ty id (Some i) na le tp pk uq nu dc rt ow co)).
    now rewrite (star_ref_decoded _ _ R).
  - destruct O as (s & -> & ->). eexists; split; [reflexivity|finish_step].
  - destruct O as (B & ->). exists (Elem ty id pa na j tp pk uq nu dc rt ow co). split; [|finish_step].
    change ((if numbers_ok fo j then Some (Elem ty id pa na j tp pk uq nu dc rt ow co) else None) = Some (Elem ty id pa na j tp pk uq nu dc rt ow co)).
    now rewrite B.
  - destruct O as (s & -> & ->). eexists; split; [reflexivity|finish_step].
  - destruct O as (s & -> & ->). eexists; split; [reflexivity|finish_step].
  - destruct O as (s & -> & ->). eexists; split; [reflexivity|finish_step].
  - destruct O as (s & -> & ->). eexists; split; [reflexivity|finish_step].
  - destruct O as (s & -> & ->). eexists; split; [reflexivity|finish_step].
  - destruct O as (i & R & ->). exists (Elem ty id pa na le tp pk uq nu dc (Some i) ow co). split; [|finish_step].
    change (option_map (fun x => Elem ty id pa na le tp pk uq nu dc x ow co) (st_dec_ref j) = Some (Elem ty id pa na le tp pk uq nu dc (Some i) ow co)).
    now rewrite (star_ref_decoded _ _ R).
  - destruct O as ((i & R) & ->). exists (Elem ty id pa na le tp pk uq nu dc rt ow co). split; [|finish_step].
    change (option_map (fun _ => Elem ty id pa na le tp pk uq nu dc rt ow co) (st_dec_ref j) = Some (Elem ty id pa na le tp pk uq nu dc rt ow co)).
    now rewrite (star_ref_decoded _ _ R).
  - destruct O as ((i & R) & ->). exists (Elem ty id pa na le tp pk uq nu dc rt ow co). split; [|finish_step].
    change (option_map (fun _ => Elem ty id pa na le tp pk uq nu dc rt ow co) (st_dec_ref j) = Some (Elem ty id pa na le tp pk uq nu dc rt ow co)).
    now rewrite (star_ref_decoded _ _ R).
  - destruct O as ((i & R) & ->). exists (Elem ty id pa na le tp pk uq nu dc rt ow co). split; [|finish_step].
    change (option_map (fun _ => Elem ty id pa na le tp pk uq nu dc rt ow co) (st_dec_ref j) = Some (Elem ty id pa na le tp pk uq nu dc rt ow co)).
    now rewrite (star_ref_decoded _ _ R).
  - destruct O as ((i & R) & ->). exists (Elem ty id pa na le tp pk uq nu dc rt ow co). split; [|finish_step].
    change (option_map (fun _ => Elem ty id pa na le tp pk uq nu dc rt ow co) (st_dec_ref j) = Some (Elem ty id pa na le tp pk uq nu dc rt ow co)).
    now rewrite (star_ref_decoded _ _ R).
  - destruct O as (x & E & ->). exists (Elem ty id pa na le tp pk uq nu dc rt x co). split; [|finish_step].
    change (option_map (fun x => Elem ty id pa na le tp pk uq nu dc rt x co) (dec_arr (st_dec_element fo) j) = Some (Elem ty id pa na le tp pk uq nu dc rt x co)).
    now rewrite E.
  - destruct O as (x & E & ->). exists (Elem ty id pa na le tp pk uq nu dc rt ow x). split; [|finish_step].
    change (option_map (fun x => Elem ty id pa na le tp pk uq nu dc rt ow x) (dec_arr (st_dec_element fo) j) = Some (Elem ty id pa na le tp pk uq nu dc rt ow x)).
    now rewrite E.
Qed.
Lemma star_skip : forall fo acc k j, (forall n, In n star_names -> to_lower n <> to_lower k) -> st_member fo acc k j = Some acc.
Proof.
  intros fo acc k j H.
  assert (G : forall n, In n star_names -> key_is n k = false).
  { intros n N. unfold key_is. apply String.eqb_neq. exact (H n N). }
  destruct acc. unfold st_member.
  repeat match goal with |- context [key_is ?n k] => rewrite (G n) by (cbn; repeat (first [left; reflexivity|right])) end. reflexivity.
Qed.
Lemma star_ext : forall x y, (forall k, In k star_names -> star_view x k = star_view y k) -> x = y.
Proof.
  intros [a1 a2 a3 a4 a5 a6 a7 a8 a9 a10 a11 a12 a13] [b1 b2 b3 b4 b5 b6 b7 b8 b9 b10 b11 b12 b13] H.
  pose proof (H "_type" ltac:(in_names)). pose proof (H "_id" ltac:(in_names)). pose proof (H "_parent" ltac:(in_names)).
  pose proof (H "name" ltac:(in_names)). pose proof (H "length" ltac:(in_names)). pose proof (H "type" ltac:(in_names)).
  pose proof (H "primaryKey" ltac:(in_names)). pose proof (H "unique" ltac:(in_names)). pose proof (H "nullable" ltac:(in_names)).
  pose proof (H "documentation" ltac:(in_names)). pose proof (H "referenceTo" ltac:(in_names)).
  pose proof (H "ownedElements" ltac:(in_names)). pose proof (H "columns" ltac:(in_names)). clear H. cbv in *. congruence.
Qed.

Fixpoint json_size (j : json) : nat :=
  match j with
  | JArr l => S (list_sum (map json_size l))
  | JObj l => S (list_sum (map (fun kv => json_size (snd kv)) l))
  | _ => 1
  end.
Lemma sum_in : forall A (f : A -> nat) l x, In x l -> (f x <= list_sum (map f l))%nat.
Proof.
  intros A f l x. induction l as [|y l IH]; intros []; cbn [map list_sum fold_right].
  - subst. apply Nat.le_add_r.
  - specialize (IH H). unfold list_sum in IH. lia.
Qed.
Lemma size_member : forall l k j, In (k, j) l -> (json_size j < json_size (JObj l))%nat.
Proof. intros l k j I. cbn [json_size]. pose proof (sum_in _ (fun kv => json_size (snd kv)) l (k, j) I). cbn [snd] in H. lia. Qed.
Lemma size_element : forall l j, In j l -> (json_size j < json_size (JArr l))%nat.
Proof. intros l j I. cbn [json_size]. pose proof (sum_in _ json_size l j I). lia. Qed.

Lemma dec_all_in : forall {A} (dec : json -> option A) (m : json -> A -> Prop) a l, Forall2 m a l ->
  (forall j x, In j a -> m j x -> dec j = Some x) -> dec_list dec a = Some l.
Proof.
  intros A dec m a l H. induction H as [|j s a l E H IH]; intros G; cbn [dec_list]; [reflexivity|].
  rewrite (G j s (or_introl eq_refl) E). rewrite IH; [reflexivity|]. intros j' x X. apply G. now right.
Qed.
Section Star.
Variable fo : string -> bool.
Hypothesis fo_small : forall n, (n < 65536)%N -> fo (itoa n) = true.
Lemma star_decoded : forall n j e, (json_size j < n)%nat -> star_element j e -> st_dec_element fo j = Some (Some e).
Proof.
  induction n as [|n IH]; intros j e L D; [lia|]. destruct D as [l e K M1 M2 M3 M4 M5 M6 M7 M8 M9 M10 M11 M12 M13 M14].
  assert (LIST : forall k x, list_member star_entry l k x -> In k ["ownedElements"; "columns"] ->
    (exists j, In (k, j) l /\ ok_elements fo j (VE x)) \/ absent l k /\ x = []).
  { intros k x [(a & I & F)|[A ->]] _; [left|now right]. exists (JArr a). split; [exact I|]. exists x. split; [|reflexivity].
    cbn [dec_arr]. apply (dec_all_in _ star_entry); [exact F|]. intros y z Y S. destruct S as [y z S].
    apply (IH y z); [|exact S]. apply size_element in Y. apply size_member in I. lia. }
  assert (REF : forall k x, star_ref_member l k x -> (exists j, In (k, j) l /\ ok_star_ref j (VO x)) \/ absent l k /\ VO x = VO None).
  { intros k x [(y & i & I & R & ->)|[A ->]]; [left|now right]. exists y. split; [exact I|]. exists i. auto. }
  assert (UNUSED : forall k, In k ["head"; "end1"; "end2"; "reference"] -> member_is (star_ok fo) l k (VO None) (VO None)).
  { intros k I. destruct (M12 k I) as (x & [(y & i & J & R & _)|[A _]]); [left|right; auto].
    exists y. split; [exact J|]. cbn in I. repeat (destruct I as [<-|I]; [cbn; split; [eauto|reflexivity]|]). destruct I. }
  rewrite st_dec_object. rewrite (known_record (st_member fo) star_view star_names (star_ok fo) st_zero l e); [reflexivity|exact (star_step fo)|exact (star_skip fo)|exact star_ext|exact K|].
  intros k I. each_name I.
  - apply is_str; auto.
  - apply is_str; auto.
  - exact (REF _ _ M3).
  - apply is_str; auto.
  - destruct M5 as [[I [(s & E)|(m & B & E)]]|[A E]].
    + left. exists (JStr s). rewrite E in I. split; [exact I|]. split; [reflexivity|]. cbv [star_view]. cbn. now rewrite E.
    + left. exists (JNum (itoa m)). rewrite E in I. split; [exact I|]. split; [cbn [numbers_ok]; now apply fo_small|].
      cbv [star_view]. cbn. now rewrite E.
    + right. split; [exact A|]. cbv [star_view]. cbn. now rewrite E.
  - apply is_str; auto.
  - apply is_bool; auto.
  - apply is_bool; auto.
  - apply is_bool; auto.
  - apply is_str; auto.
  - exact (REF _ _ M11).
  - apply UNUSED; cbn; auto.
  - apply UNUSED; cbn; auto.
  - apply UNUSED; cbn; auto.
  - apply UNUSED; cbn; auto.
  - destruct (LIST _ _ M13 ltac:(cbn; auto)) as [X|[A E]]; [left; exact X|right; split; [exact A|]]. cbv [star_view]. cbn. now rewrite E.
  - destruct (LIST _ _ M14 ltac:(cbn; auto)) as [X|[A E]]; [left; exact X|right; split; [exact A|]]. cbv [star_view]. cbn. now rewrite E.
Qed.
End Star.

(** ** Trimmed text *)
Lemma trim_left_split : forall s, exists l, XlsxSpec.blank l /\ s = l ++ trim_left s /\ ~ starts_blank (trim_left s).
Proof.
  induction s as [|c s (l & B & E & N)].
  - exists "". split; [intros c []|]. split; [reflexivity|]. intros (c & r & X & _). discriminate.
  - cbn [trim_left]. destruct (is_space c) eqn:S.
    + exists (String c l). split; [intros d [->|D]; [exact S|exact (B d D)]|]. split; [cbn [append]; now rewrite <- E|exact N].
    + exists "". split; [intros d []|]. split; [reflexivity|]. intros (d & r & X & Y). injection X as -> ->. congruence.
Qed.
Lemma trim_right_split : forall s, exists r, XlsxSpec.blank r /\ s = trim_right s ++ r /\ ~ ends_blank (trim_right s).
Proof.
  induction s as [|c s (r & B & E & N)].
  - exists "". split; [intros c []|]. split; [reflexivity|]. intros (r & c & X & _). destruct r; discriminate.
  - cbn [trim_right]. destruct (is_space c && String.eqb (trim_right s) "") eqn:S.
    + apply andb_true_iff in S as [S1 S2]. apply String.eqb_eq in S2. exists (String c r).
      split; [intros d [->|D]; [exact S1|exact (B d D)]|]. split; [cbn [append]; rewrite S2 in E; cbn in E; now rewrite <- E|].
      intros (x & y & X & _). destruct x; discriminate.
    + exists r. split; [exact B|]. split; [cbn [append]; now rewrite <- E|]. intros (x & d & X & D).
      destruct x as [|y x]; cbn in X; injection X as -> X.
      * rewrite X, D in S. discriminate.
      * apply N. exists x, d. auto.
Qed.
Lemma trim_split : forall s, exists l r, XlsxSpec.blank l /\ XlsxSpec.blank r /\ trimmed (trim_space s) /\ s = l ++ trim_space s ++ r.
Proof.
  intros s. destruct (trim_left_split s) as (l & L & E & N). destruct (trim_right_split (trim_left s)) as (r & R & E2 & N2).
  exists l, r. split; [exact L|]. split; [exact R|]. unfold trim_space. rewrite <- E2. split; [|exact E]. split; [|exact N2].
  intros (c & x & X & C). apply N. rewrite X in E2. cbn in E2. exists c, (x ++ r). auto.
Qed.
Lemma space_ascii : forall c, is_space c = true -> byte_in 0 127 c = true.
Proof. intros [[|] [|] [|] [|] [|] [|] [|] [|]] H; solve [reflexivity|discriminate H]. Qed.
Lemma utf8_tail : forall c s, is_space c = true -> utf8 (String c s) -> utf8 s.
Proof.
  intros c s S U. inversion U as [|x r X R E]; [].
  destruct X; cbn in E; injection E as -> E; try (exfalso; apply space_ascii in S; unfold byte, byte_in in *; apply andb_true_iff in S as [_ S]; apply N.leb_le in S; lia).
  now subst.
Qed.
Lemma trim_left_utf8 : forall s, utf8 s -> utf8 (trim_left s).
Proof.
  induction s as [|c s IH]; intros U; [exact U|]. cbn [trim_left]. destruct (is_space c) eqn:S; [|exact U].
  apply IH. exact (utf8_tail c s S U).
Qed.
Lemma high_kept : forall c s, byte 128 255 c -> trim_right (String c s) = String c (trim_right s).
Proof.
  intros c s B. cbn [trim_right]. destruct (is_space c) eqn:S; [|reflexivity]. apply space_ascii in S. unfold byte, byte_in in *.
  apply andb_true_iff in S as [_ S]. apply N.leb_le in S. lia.
Qed.
Lemma byte_wide : forall lo hi c, byte lo hi c -> (128 <= lo)%N -> (hi <= 255)%N -> byte 128 255 c.
Proof. unfold byte. lia. Qed.
Lemma trim_right_utf8 : forall s, utf8 s -> utf8 (trim_right s).
Proof.
  induction 1 as [|x s C U IH]; [constructor|]. destruct C as [a A|a b A B|a b c A B C|a b c A B C|a b c A B C|a b c A B C|a b c d A B C D|a b c d A B C D|a b c d A B C D].
  1:{ cbn [append trim_right]. destruct (is_space a && String.eqb (trim_right s) ""); [constructor|]. now apply utf8_one. }
  all: cbn [append]; rewrite !high_kept by (eapply byte_wide; [eassumption|lia|lia]).
  - change (utf8 (String a (String b "") ++ trim_right s)). constructor; [now constructor|exact IH].
  - change (utf8 (String a (String b (String c "")) ++ trim_right s)). constructor; [now apply ch_3a|exact IH].
  - change (utf8 (String a (String b (String c "")) ++ trim_right s)). constructor; [now apply ch_3b|exact IH].
  - change (utf8 (String a (String b (String c "")) ++ trim_right s)). constructor; [now apply ch_3c|exact IH].
  - change (utf8 (String a (String b (String c "")) ++ trim_right s)). constructor; [now apply ch_3d|exact IH].
  - change (utf8 (String a (String b (String c (String d ""))) ++ trim_right s)). constructor; [now apply ch_4a|exact IH].
  - change (utf8 (String a (String b (String c (String d ""))) ++ trim_right s)). constructor; [now apply ch_4b|exact IH].
  - change (utf8 (String a (String b (String c (String d ""))) ++ trim_right s)). constructor; [now apply ch_4c|exact IH].
Qed.
Lemma lower_ascii_back : forall c, byte_in 0 127 (lower_ascii c) = true -> byte_in 0 127 c = true.
Proof. intros [[|] [|] [|] [|] [|] [|] [|] [|]] H; solve [reflexivity|discriminate H]. Qed.
Lemma lower_back : forall s, string_forallb (byte_in 0 127) (to_lower s) = true -> string_forallb (byte_in 0 127) s = true.
Proof.
  induction s as [|c s IH]; intros H; [reflexivity|]. cbn in H |- *. apply andb_true_iff in H as [A B].
  rewrite (lower_ascii_back _ A). now apply IH.
Qed.
Lemma canonical_ascii : forall t t', canonical t t' -> In t' octopus_types -> utf8 t.
Proof.
  intros t t' C I. apply utf8_ascii, lower_back. destruct C as [C|[_ <-]].
  - assert (F : forallb (fun p => string_forallb (byte_in 0 127) (fst p)) documented_aliases = true) by (vm_compute; reflexivity).
    rewrite forallb_forall in F. exact (F _ C).
  - assert (F : forallb (string_forallb (byte_in 0 127)) octopus_types = true) by (vm_compute; reflexivity).
    rewrite forallb_forall in F. auto.
Qed.

(** ** The elements of a document *)
Lemma star_str_utf8 : forall l k s, json_utf8 (JObj l) -> str_member l k s -> utf8 s.
Proof.
  intros l k s U [I|[_ ->]]; [|constructor]. pose proof (utf8_obj _ _ _ U I) as V. apply V. now left.
Qed.
Lemma star_utf8 : forall j e, json_utf8 j -> star_element j e -> utf8 (e_name e) /\ utf8 (e_doc e).
Proof. intros j e U D. destruct D. split; eapply star_str_utf8; eassumption. Qed.
Lemma star_list : forall l k x, json_utf8 (JObj l) -> list_member star_entry l k x ->
  forall y, In y x -> exists j e, y = Some e /\ json_utf8 j /\ star_element j e.
Proof.
  intros l k x U [(a & I & F)|[_ ->]] y Y; [|destruct Y]. pose proof (utf8_obj _ _ _ U I) as V.
  destruct (forall2_in _ _ _ _ _ F y Y) as (j & J & S). destruct S as [j e S]. exists j, e. split; [reflexivity|].
  split; [exact (utf8_arr _ _ V J)|exact S].
Qed.
Lemma star_tree : forall e root, in_tree e root -> forall j, json_utf8 j -> star_element j root ->
  exists j', json_utf8 j' /\ star_element j' e.
Proof.
  induction 1 as [e|e x r I T IH|e x r I T IH]; intros j U D; [eauto| |].
  - destruct D as [l r K M1 M2 M3 M4 M5 M6 M7 M8 M9 M10 M11 M12 M13 M14].
    destruct (star_list _ _ _ U M13 _ I) as (j & y & E & V & S). injection E as <-. exact (IH j V S).
  - destruct D as [l r K M1 M2 M3 M4 M5 M6 M7 M8 M9 M10 M11 M12 M13 M14].
    destruct (star_list _ _ _ U M14 _ I) as (j & y & E & V & S). injection E as <-. exact (IH j V S).
Qed.
Lemma star_no_null : forall j root, json_utf8 j -> star_element j root -> no_null root.
Proof.
  intros j root U D e T. destruct (star_tree e root T j U D) as (j' & U' & D').
  destruct D' as [l r K M1 M2 M3 M4 M5 M6 M7 M8 M9 M10 M11 M12 M13 M14].
  split; intros I; [destruct (star_list _ _ _ U' M13 _ I) as (? & ? & E & _)|destruct (star_list _ _ _ U' M14 _ I) as (? & ? & E & _)]; discriminate.
Qed.

(** ** The command *)
Definition star_columns (model : Staruml.element) : list Staruml.element :=
  flat_map (fun e => of_type "ERDColumn" (e_cols e)) (of_type "ERDEntity" (e_owned model)).
Lemma star_column_ok : forall root e c, st_column_described root e c -> star_usable e -> repairable c.
Proof.
  intros root e c (N & _ & _ & _ & A & _ & _ & _ & _ & S & _) (NE & k & t & NT & E & C & I & T1 & T2).
  destruct (S k NT E) as (TY & _).
  exists (mkCol (c_name c) t (c_desc c) (c_size c) (c_scale c) (c_notnull c) (c_pk c) (c_uq c) (c_autoinc c) (c_default c) (c_onupdate c) (c_values c) (c_ref c)).
  split.
  - unfold column_repaired. cbn [c_name c_type c_desc c_size c_scale c_notnull c_pk c_uq c_autoinc c_default c_onupdate c_values c_ref].
    rewrite TY. split; [exact C|]. rewrite A. split; [split; [discriminate|intros [X _]; exact X]|]. repeat split.
  - unfold valid_column. cbn [c_name c_type c_autoinc c_values]. rewrite N, A. repeat split; try congruence; try exact I; discriminate.
Qed.
Lemma star_column_utf8 : forall j root e c, json_utf8 j -> star_element j root -> in_tree e root -> st_column_described root e c ->
  star_usable e -> strings_utf8 (column_strings c).
Proof.
  intros j root e c U D T (N & _ & _ & _ & A & DF & OU & VA & DE & S & RF) (NE & k & t & NT & E & C & I & T1 & T2).
  destruct (S k NT E) as (TY & _). destruct (star_tree e root T j U D) as (je & Ue & De). destruct (star_utf8 _ _ Ue De) as [U1 U2].
  destruct (trim_split (e_doc e)) as (l & r & L & R & TR & SP).
  unfold column_strings. rewrite DF, OU, VA, N, TY, (DE l _ r L R TR SP). rewrite !utf8_app, !utf8_list_cons.
  split; [|split; [exact utf8_list_nil|]].
  - split; [exact U1|]. split; [exact (canonical_ascii _ _ C I)|].
    split; [unfold trim_space; now apply trim_right_utf8, trim_left_utf8|]. split; [constructor|]. split; [constructor|exact utf8_list_nil].
  - destruct (e_ref_to e) as [i|], (c_ref c) as [rf|]; try contradiction; [|exact utf8_list_nil].
    destruct RF as (tg & p & X1 & _ & X3 & _ & ->). cbn [ref_strings ref_table ref_column ref_rel]. rewrite !utf8_list_cons.
    destruct (star_tree tg root X1 j U D) as (j1 & V1 & D1). destruct (star_tree p root X3 j U D) as (j2 & V2 & D2).
    split; [exact (proj1 (star_utf8 _ _ V2 D2))|]. split; [exact (proj1 (star_utf8 _ _ V1 D1))|]. split; [constructor|exact utf8_list_nil].
Qed.
Lemma star_schema : forall j root model rest s, json_utf8 j -> star_element j root ->
  of_type "ERDDataModel" (e_owned root) = model :: rest ->
  (forall e, In e (star_columns model) -> star_usable e) ->
  NoDup (map e_name (of_type "ERDEntity" (e_owned model))) ->
  s_version s = e_name root -> s_name s = "" -> s_author s = "" ->
  Forall2 (entity_described root) (of_type "ERDEntity" (e_owned model)) (s_tables s) ->
  (forall c, In c (columns_of s) -> repairable c) /\ schema_utf8 s /\ distinct_table_keys s.
Proof.
  intros j root model rest s U D M K ND E1 E2 E3 F.
  assert (IM : in_tree model root).
  { apply (it_owned _ model); [|apply it_root]. apply (of_type_in "ERDDataModel"). rewrite M. now left. }
  assert (ROW : forall t c, In t (s_tables s) -> In c (t_cols t) -> exists e, in_tree e root /\ star_usable e /\ st_column_described root e c).
  { intros t c T C. destruct (forall2_in _ _ _ _ _ F t T) as (en & EN & (_ & _ & _ & _ & _ & FC)).
    destruct (forall2_in _ _ _ _ _ FC c C) as (e & EC & CD). exists e. split; [|split; [apply K; apply in_flat_map; eauto|exact CD]].
    apply (in_tree_trans _ en); [apply (it_column _ e); [now apply (of_type_in "ERDColumn")|apply it_root]|].
    apply (in_tree_trans _ model); [|exact IM]. apply (it_owned _ en); [now apply (of_type_in "ERDEntity")|apply it_root]. }
  split; [|split].
  - intros c C. unfold columns_of in C. apply in_flat_map in C as (t & T & C). destruct (ROW t c T C) as (e & _ & SU & CD).
    exact (star_column_ok _ _ _ CD SU).
  - change (strings_utf8 (schema_strings s)). unfold schema_strings. rewrite E1, E2, E3, utf8_app, utf8_flat, !utf8_list_cons.
    split; [split; [constructor|]; split; [constructor|]; split; [exact (proj1 (star_utf8 _ _ U D))|exact utf8_list_nil]|].
    apply Forall_forall. intros t T. destruct (forall2_in _ _ _ _ _ F t T) as (en & EN & (A1 & A2 & A3 & A4 & A5 & _)).
    unfold table_strings. rewrite A1, A2, A3, A4, A5. cbn [flat_map]. rewrite !utf8_app, !utf8_list_cons, utf8_flat.
    assert (TE : in_tree en root).
    { apply (in_tree_trans _ model); [|exact IM]. apply (it_owned _ en); [now apply (of_type_in "ERDEntity")|apply it_root]. }
    destruct (star_tree en root TE j U D) as (je & Ue & De).
    split; [split; [exact (proj1 (star_utf8 _ _ Ue De))|]; repeat (split; [constructor|]); exact utf8_list_nil|].
    split; [|exact utf8_list_nil]. apply Forall_forall. intros c C. destruct (ROW t c T C) as (e & TE' & SU & CD).
    exact (star_column_utf8 _ _ _ _ U D TE' CD SU).
  - unfold distinct_table_keys. replace (map (fun t => (t_group t, t_name t)) (s_tables s)) with (map (pair "") (map e_name (of_type "ERDEntity" (e_owned model)))).
    + apply FinFun.Injective_map_NoDup; [|exact ND]. intros a b. congruence.
    + clear -F. induction F as [|e t es ts (A1 & _ & A3 & _) F IH]; [reflexivity|]. cbn [map]. now rewrite IH, A1, A3.
Qed.
Lemma star_file_imported : forall w fs v text j root model rest, sorts_tables (w_sort w) ->
  (forall n, (n < 65536)%N -> w_float_ok w (itoa n) = true) ->
  v "input" <> None -> v "output" <> None -> fs (given v "input") = Some text -> read_text text = Some j ->
  star_element j root -> references_ok root -> of_type "ERDDataModel" (e_owned root) = model :: rest ->
  (forall entity e, In entity (of_type "ERDEntity" (e_owned model)) -> In e (of_type "ERDColumn" (e_cols entity)) -> star_usable e) ->
  NoDup (map e_name (of_type "ERDEntity" (e_owned model))) ->
  exists out, run w fs ImportStaruml v = ([(given v "output", out)], Done) /\
    forall fs' name, octopus_name name -> fs' name = Some out ->
      exists s' s, load_file w fs' name = Loaded s' /\ schema_repaired s s' /\
        s_version s = e_name root /\ s_name s = "" /\ s_author s = "" /\
        Forall2 (entity_described root) (of_type "ERDEntity" (e_owned model)) (s_tables s).
Proof.
  intros w fs v text j root model rest Hs FO I O F R D RO M K ND.
  pose proof (read_utf8 _ _ R) as U.
  pose proof (star_decoded (w_float_ok w) FO (S (json_size j)) j root (Nat.lt_succ_diag_r _) D) as J.
  destruct (proj2 (import_ok root (star_no_null _ _ U D) RO)) as (s & E); [rewrite M; discriminate|].
  destruct (import_described root s E) as (model' & rest' & M' & E1 & E2 & E3 & FT). rewrite M in M'. injection M' as <- <-.
  assert (K' : forall e, In e (star_columns model) -> star_usable e).
  { intros e X. unfold star_columns in X. apply in_flat_map in X as (en & A & B). exact (K en e A B). }
  destruct (star_schema j root model rest s U D M K' ND E1 E2 E3 FT) as (RE & US & DT).
  assert (N : exists s2, normalize (w_sort w) s = (s2, None)).
  { pose proof (proj2 (normalize_error (w_sort w) s Hs) RE) as X. destruct (normalize (w_sort w) s) as [s2 [er|]]; [discriminate|eauto]. }
  destruct N as (s2 & N).
  assert (T : to_text (w_sort w) s = Some (put_value "" (enc_schema s2))) by (unfold to_text, to_json; now rewrite N).
  exists (put_value "" (enc_schema s2)). split.
  - unfold run. assert (G : required_given ImportStaruml v = true).
    { unfold required_given. cbn. destruct (v "input"); [|congruence]. destruct (v "output"); [|congruence]. reflexivity. }
    rewrite G. cbn [action]. unfold import_staruml_file.
    change (flag_string ImportStaruml v "input") with (given v "input"). change (flag_string ImportStaruml v "output") with (given v "output").
    rewrite F. unfold st_from_text. rewrite R, J, E. cbn [with_res]. unfold save_schema. now rewrite T.
  - intros fs' name On Fn.
    destruct (saved_loads w fs' name s _ Hs (staruml_fits _ _ E) US DT On T Fn) as (s' & Rep & L).
    exists s', s. auto 10.
Qed.

(** ** A case *)
Definition star_sample_text : string :=
"{""_type"": ""Project"", ""_id"": ""p"", ""name"": ""1.0"", ""author"": ""me"", ""ownedElements"": [
  {""_type"": ""ERDDataModel"", ""_id"": ""m"", ""_parent"": {""$ref"": ""p""}, ""name"": ""shop"", ""ownedElements"": [
    {""_type"": ""ERDDiagram"", ""_id"": ""d"", ""_parent"": {""$ref"": ""m""}, ""ownedViews"": [{""left"": 1.5}]},
    {""_type"": ""ERDEntity"", ""_id"": ""u"", ""_parent"": {""$ref"": ""m""}, ""name"": ""user"",
     ""documentation"": ""who buys"", ""columns"": [
      {""_type"": ""ERDColumn"", ""_id"": ""u1"", ""_parent"": {""$ref"": ""u""}, ""name"": ""id"", ""type"": ""INTEGER"",
       ""length"": 0, ""primaryKey"": true},
      {""_type"": ""ERDColumn"", ""_id"": ""u2"", ""_parent"": {""$ref"": ""u""}, ""name"": ""mail"", ""type"": ""VarChar(20)"",
       ""length"": ""80"", ""unique"": true, ""nullable"": true, ""documentation"": "" login name ""}]},
    {""_type"": ""ERDEntity"", ""_id"": ""o"", ""_parent"": {""$ref"": ""m""}, ""name"": ""order"", ""ownedElements"": [
      {""_type"": ""ERDRelationship"", ""_id"": ""r"", ""_parent"": {""$ref"": ""o""}, ""end1"": {""$ref"": ""x""}}], ""columns"": [
      {""_type"": ""ERDColumn"", ""_id"": ""o1"", ""_parent"": {""$ref"": ""o""}, ""name"": ""user_id"", ""type"": ""integer"",
       ""referenceTo"": {""$ref"": ""u1""}}]}]}]}".
Definition ref_to (id : string) : json := JObj [("$ref", JStr id)].
Definition star_sample_json : json :=
  JObj [("_type", JStr "Project"); ("_id", JStr "p"); ("name", JStr "1.0"); ("author", JStr "me"); ("ownedElements", JArr [
    JObj [("_type", JStr "ERDDataModel"); ("_id", JStr "m"); ("_parent", ref_to "p"); ("name", JStr "shop"); ("ownedElements", JArr [
      JObj [("_type", JStr "ERDDiagram"); ("_id", JStr "d"); ("_parent", ref_to "m"); ("ownedViews", JArr [JObj [("left", JNum "1.5")]])];
      JObj [("_type", JStr "ERDEntity"); ("_id", JStr "u"); ("_parent", ref_to "m"); ("name", JStr "user");
            ("documentation", JStr "who buys"); ("columns", JArr [
        JObj [("_type", JStr "ERDColumn"); ("_id", JStr "u1"); ("_parent", ref_to "u"); ("name", JStr "id"); ("type", JStr "INTEGER");
              ("length", JNum "0"); ("primaryKey", JBool true)];
        JObj [("_type", JStr "ERDColumn"); ("_id", JStr "u2"); ("_parent", ref_to "u"); ("name", JStr "mail"); ("type", JStr "VarChar(20)");
              ("length", JStr "80"); ("unique", JBool true); ("nullable", JBool true); ("documentation", JStr " login name ")]])];
      JObj [("_type", JStr "ERDEntity"); ("_id", JStr "o"); ("_parent", ref_to "m"); ("name", JStr "order"); ("ownedElements", JArr [
          JObj [("_type", JStr "ERDRelationship"); ("_id", JStr "r"); ("_parent", ref_to "o"); ("end1", ref_to "x")]]); ("columns", JArr [
        JObj [("_type", JStr "ERDColumn"); ("_id", JStr "o1"); ("_parent", ref_to "o"); ("name", JStr "user_id"); ("type", JStr "integer");
              ("referenceTo", ref_to "u1")]])]])]])].
Definition star_sample_model : Staruml.element :=
  Elem "ERDDataModel" "m" (Some "p") "shop" JNull "" false false false "" None
   [Some (Elem "ERDDiagram" "d" (Some "m") "" JNull "" false false false "" None [] []);
    Some (Elem "ERDEntity" "u" (Some "m") "user" JNull "" false false false "who buys" None []
      [Some (Elem "ERDColumn" "u1" (Some "u") "id" (JNum "0") "INTEGER" true false false "" None [] []);
       Some (Elem "ERDColumn" "u2" (Some "u") "mail" (JStr "80") "VarChar(20)" false true true " login name " None [] [])]);
    Some (Elem "ERDEntity" "o" (Some "m") "order" JNull "" false false false "" None
      [Some (Elem "ERDRelationship" "r" (Some "o") "" JNull "" false false false "" None [] [])]
      [Some (Elem "ERDColumn" "o1" (Some "o") "user_id" JNull "integer" false false false "" (Some "u1") [] [])])] [].
Definition star_sample : Staruml.element :=
  Elem "Project" "p" None "1.0" JNull "" false false false "" None [Some star_sample_model] [].
Ltac other_names :=
  split; [repeat constructor; cbn; intuition discriminate|intros x X; cbn in X; repeat (destruct X as [<-|X];
    [first [left; cbn; repeat (first [left; reflexivity|right]); fail
           |right; intros n N; cbn in N; repeat (destruct N as [<-|N]; [discriminate|]); destruct N]|]); destruct X].
Ltac star_reference := eexists; split; [reflexivity|]; split; [other_names|]; left; here.
Ltac star_member := first [not_here|left; do 2 eexists; split; [here|]; split; [star_reference|reflexivity]].
Ltac star_one :=
  constructor; [other_names|member|member|star_member|member
    |first [not_here|left; split; [here|]; first [left; eexists; reflexivity|right; eexists; split; [|reflexivity]; reflexivity]]
    |member|member|member|member|member|star_member
    |let x := fresh in let X := fresh in intros x X; cbn in X;
     repeat (destruct X as [<-|X]; [eexists; star_member|]); destruct X| |].
Lemma star_sample_doc : star_element star_sample_json star_sample.
Proof.
  star_one; [|not_here]. left. eexists. split; [here|]. constructor; [|constructor]. constructor.
  star_one; [|not_here]. left. eexists. split; [here|]. constructor; [|constructor; [|constructor; [|constructor]]]; constructor.
  - star_one; not_here.
  - star_one; [not_here|]. left. eexists. split; [here|]. constructor; [|constructor; [|constructor]]; constructor; [|star_one; not_here].
    constructor; [other_names|member|member|star_member|member
    |left; split; [here|right; exists 0%N; split; reflexivity]
    |member|member|member|member|member|star_member
    |intros x X; cbn in X; repeat (destruct X as [<-|X]; [eexists; star_member|]); destruct X|not_here|not_here].
  - star_one.
    + left. eexists. split; [here|]. constructor; [|constructor]. constructor. star_one; not_here.
    + left. eexists. split; [here|]. constructor; [|constructor]. constructor. star_one; not_here.
Qed.
Lemma star_sample_ok : read_text star_sample_text = Some star_sample_json /\ star_element star_sample_json star_sample /\
  references_ok star_sample /\ of_type "ERDDataModel" (e_owned star_sample) = [star_sample_model] /\
  (forall entity e, In entity (of_type "ERDEntity" (e_owned star_sample_model)) -> In e (of_type "ERDColumn" (e_cols entity)) -> star_usable e) /\
  NoDup (map e_name (of_type "ERDEntity" (e_owned star_sample_model))).
Proof.
  split; [vm_compute; reflexivity|]. split; [exact star_sample_doc|].
  split; [apply st_good_ok; vm_compute; reflexivity|]. split; [reflexivity|]. split; [|repeat constructor; cbn; intuition discriminate].
  intros entity e EN EC. cbn in EN. destruct EN as [<-|[<-|[]]]; cbn in EC.
  - destruct EC as [<-|[<-|[]]]; (split; [discriminate|]).
    + exists (mkCol "" "INTEGER" "" 0 0 false false false false "" "" [] None), "int32". split; [|split; [reflexivity|]; split; [left; cbn; repeat (first [left; reflexivity|right])|]; split; [cbn; repeat (first [left; reflexivity|right])|split; discriminate]].
      split; [reflexivity|]. split; [reflexivity|]. left. split; [reflexivity|]. split; [reflexivity|].
      intros H. cbn in H. repeat (destruct H as [H|H]; [discriminate H|]). destruct H.
    + exists (mkCol "" "VarChar" "" 20 0 false false false false "" "" [] None), "varchar". split; [|split; [reflexivity|]; split; [right; split; [cbn; intuition discriminate|reflexivity]|]; split; [cbn; repeat (first [left; reflexivity|right])|split; discriminate]].
      split; [reflexivity|]. split; [reflexivity|]. right. split; [discriminate|]. split; [discriminate|].
      intros c C. cbn in C. repeat (destruct C as [->|C]; [reflexivity|]). destruct C.
  - destruct EC as [<-|[]]; (split; [discriminate|]).
    exists (mkCol "" "integer" "" 0 0 false false false false "" "" [] None), "int32". split; [|split; [reflexivity|]; split; [left; cbn; repeat (first [left; reflexivity|right])|]; split; [cbn; repeat (first [left; reflexivity|right])|split; discriminate]].
      split; [reflexivity|]. split; [reflexivity|]. left. split; [reflexivity|]. split; [reflexivity|].
      intros H. cbn in H. repeat (destruct H as [H|H]; [discriminate H|]). destruct H.
Qed.
