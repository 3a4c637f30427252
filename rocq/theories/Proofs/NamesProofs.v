(** Names in generated files (C95, C96) *)
From Coq Require Import String Ascii List NArith Bool Lia.
From Verif.Model Require Import GoString Util Octopus Common Gorm Graphql Protobuf.
From Verif.Model Require Sqlalchemy Jpa.
From Verif.Spec Require Import Text Reading OctopusSpec CommonSpec DiffSpec GraphqlSpec ProtobufSpec GormSpec NamesSpec.
From Verif.Spec Require SqlalchemySpec KotlinSpec.
From Verif.Proofs Require Import StringLemmas ListLemmas.
From Verif.Proofs Require GraphqlProofs ProtobufProofs GormText SqlalchemyProofs SqlalchemyText SqlalchemyNames SqlalchemyMain KotlinProofs JpaFile JpaMain.
Import ListNotations.
Local Open Scope string_scope.

Lemma apart_distinct : forall (f : string -> string) l, NoDup l -> apart f l -> NoDup (map f l).
Proof.
  intros f l. induction l as [|a l IH]; intros N A; cbn [map]; [constructor|]. inversion N as [|? ? NI ND]; subst. constructor.
  - intros I. apply in_map_iff in I as (b & E & I). apply NI. rewrite <- (A b a); [exact I|now right|now left|exact E].
  - apply IH; [exact ND|]. intros x y X Y. apply A; now right.
Qed.
Lemma distinct_apart : forall (f : string -> string) l, NoDup (map f l) -> apart f l.
Proof.
  intros f l. induction l as [|a l IH]; intros N x y X Y E; [destruct X|]. cbn [map] in N. inversion N as [|? ? NI ND]; subst.
  destruct X as [<-|X], Y as [<-|Y]; auto.
  - exfalso. apply NI. rewrite E. now apply in_map.
  - exfalso. apply NI. rewrite <- E. now apply in_map.
  - now apply IH.
Qed.
Lemma distinct_app : forall {A} (l m : list A), NoDup l -> NoDup m -> (forall x, In x l -> ~ In x m) -> NoDup (l ++ m).
Proof.
  intros A l m N M D. induction l as [|a l IH]; cbn [app]; [exact M|]. inversion N as [|? ? NI ND]; subst. constructor.
  - intros I. apply in_app_or in I as [I|I]; [now apply NI|]. exact (D a (or_introl eq_refl) I).
  - apply IH; [exact ND|]. intros x X. apply D. now right.
Qed.
(** names that are determined by distinct keys *)
Lemma keyed_distinct : forall {A} (key name : A -> string) l, NoDup (map key l) ->
  (forall x y, In x l -> In y l -> name x = name y -> key x = key y) -> NoDup (map name l).
Proof.
  intros A key name l. induction l as [|a l IH]; intros N D; cbn [map] in *; [constructor|]. inversion N as [|? ? NI ND]; subst. constructor.
  - intros I. apply in_map_iff in I as (b & E & I). apply NI. rewrite <- (D b a); [now apply in_map|now right|now left|exact E].
  - apply IH; [exact ND|]. intros x y X Y. apply D; now right.
Qed.
Lemma keyed_distinct2 : forall {A B} (key : A -> string) (name : B -> string) (P : A -> B -> Prop) l m, Forall2 P l m -> NoDup (map key l) ->
  (forall x y b d, In x l -> In y l -> P x b -> P y d -> name b = name d -> key x = key y) -> NoDup (map name m).
Proof.
  intros A B key name P l m F. induction F as [|a b l m H F IH]; intros N D; cbn [map] in *; [constructor|].
  inversion N as [|? ? NI ND]; subst. constructor.
  - intros I. apply in_map_iff in I as (d & E & I). destruct (Forall2_in_r _ _ _ _ F I) as (x & X & Q). apply NI.
    rewrite <- (D x a d b); [now apply in_map|now right|now left|exact Q|exact H|exact E].
  - apply IH; [exact ND|]. intros x y b' d X Y. apply D; now right.
Qed.

(** ** protobuf *)
Section Protobuf.
Variables camel lc : string -> string.
Variable o : pb_option.
Let named := message_named camel (get_prefix (po_prefix o)) (po_remove o).

Lemma pb_target_unique : forall ts n u v, target ts n u -> target ts n v -> u = v.
Proof.
  intros ts n u v (l & r & E & N & F) (l' & r' & E' & N' & F'). subst ts. revert l' E' F F'.
  induction l as [|a l IH]; intros [|b l'] E' F F'; cbn [app] in E'.
  - congruence.
  - injection E' as -> E'. exfalso. exact (F' b (or_introl eq_refl) N).
  - injection E' as <- E'. exfalso. exact (F a (or_introl eq_refl) N').
  - injection E' as -> E'. apply (IH l' E'); intros x X; [apply F|apply F']; now right.
Qed.

Lemma pb_message_distinct : forall ts t m n fs, message_described camel lc (get_prefix (po_prefix o)) (po_remove o) false ts t m ->
  m = ProtobufSpec.PMessage n fs -> pb_apart camel lc (get_prefix (po_prefix o)) (po_remove o) ts t -> NoDup (map rf_name fs).
Proof.
  intros ts t m n fs (cs & rs & E & C & R & _) E' (NC & AC & NR & AR & D). rewrite E in E'. injection E' as <- <-.
  rewrite map_app. apply distinct_app.
  - refine (keyed_distinct2 c_name _ _ _ _ C NC _). intros x y b d X Y (B & _) (B' & _) Q. apply AC; [now apply in_map|now apply in_map|congruence].
  - refine (keyed_distinct2 ref_table _ _ _ _ R NR _). intros x y b d X Y (u & U & _ & B & _) (u' & U' & _ & B' & _) Q.
    apply (AR x u y u'); auto; congruence.
  - intros x X Y. apply in_map_iff in X as (a & <- & X). apply in_map_iff in Y as (b & Q & Y).
    destruct (Forall2_in_r _ _ _ _ C X) as (c & C' & (Ca & _)). destruct (Forall2_in_r _ _ _ _ R Y) as (r & R' & (u & U & _ & B & _)).
    apply (D c r u C' R' U). congruence.
Qed.
Theorem pb_members : forall s text, one_line (po_package o) -> one_line (po_go_package o) ->
  pb_names_ok camel lc (get_prefix (po_prefix o)) (po_remove o) (s_tables s) (filter (passes (po_filter o)) (s_tables s)) ->
  (forall t, In t (s_tables s) -> fits (po_start o) (length (t_cols t))) ->
  (forall t, In t (filter (passes (po_filter o)) (s_tables s)) -> pb_apart camel lc (get_prefix (po_prefix o)) (po_remove o) (s_tables s) t) ->
  pb_generate camel lc o s = Ok text -> exists l, read_proto text = Some l /\ pb_members_distinct l.
Proof.
  intros s text P G N F A H. destruct (ProtobufProofs.generate_reads camel lc o s text P G N F H) as (l & R & (is & ms & E & I & M)).
  exists l. split; [exact R|]. intros n fs J. rewrite E in J. destruct J as [J|J]; [discriminate J|].
  apply in_app_or in J as [J|J]; [unfold optional in J; destruct (String.eqb _ ""); [destruct J|destruct J as [J|[]]; discriminate J]|].
  apply in_app_or in J as [J|J]; [unfold optional in J; destruct (String.eqb _ ""); [destruct J|destruct J as [J|[]]; discriminate J]|].
  apply in_app_or in J as [J|J].
  - destruct I as (I1 & I2). assert (X : is = [ProtobufSpec.PImport timestamp_file] \/ is = []).
    { destruct (existsb (fun t => existsb (fun c => String.eqb (c_type c) "datetime") (t_cols t)) (filter (passes (po_filter o)) (s_tables s))) eqn:B.
      - left. apply I1. apply existsb_exists in B as (t & T & B). apply existsb_exists in B as (c & C & B). exists t, c. apply String.eqb_eq in B. auto.
      - right. apply I2. intros t c T C Q. assert (X : existsb (fun t => existsb (fun c => String.eqb (c_type c) "datetime") (t_cols t)) (filter (passes (po_filter o)) (s_tables s)) = true).
        { apply existsb_exists. exists t. split; [exact T|]. apply existsb_exists. exists c. split; [exact C|]. now apply String.eqb_eq. }
        congruence. }
    destruct X as [->| ->]; [destruct J as [J|[]]; discriminate J|destruct J].
  - destruct (Forall2_in_r _ _ _ _ M J) as (t & T & D). exact (pb_message_distinct _ _ _ _ _ D eq_refl (A t T)).
Qed.

(** two references to one table *)
Lemma pb_names_twice : forall ts t n fs, message_described camel lc (get_prefix (po_prefix o)) (po_remove o) false ts t (ProtobufSpec.PMessage n fs) ->
  NoDup (map rf_name fs) -> NoDup (map ref_table (table_refs t)).
Proof.
  intros ts t n fs (cs & rs & E & C & R & _) N. injection E as -> ->. rewrite map_app in N. apply NoDup_app_r in N. clear C. revert N.
  induction R as [|r x refs rs H R IH]; intros N; cbn [map] in *; [constructor|]. inversion N as [|? ? NI ND]; subst. constructor; [|auto].
  intros I. apply in_map_iff in I as (r' & Q & I). destruct (Forall2_in_l _ _ _ _ R I) as (x' & X & (u' & U' & _ & B' & _)).
  destruct H as (u & U & _ & B & _). apply NI. rewrite Q in U'. rewrite <- (pb_target_unique _ _ _ _ U U') in B'. rewrite B, <- B'. now apply in_map.
Qed.
Theorem pb_two_references : forall s text l t, one_line (po_package o) -> one_line (po_go_package o) ->
  pb_names_ok camel lc (get_prefix (po_prefix o)) (po_remove o) (s_tables s) (filter (passes (po_filter o)) (s_tables s)) ->
  (forall t, In t (s_tables s) -> fits (po_start o) (length (t_cols t))) ->
  In t (filter (passes (po_filter o)) (s_tables s)) -> ~ NoDup (map ref_table (table_refs t)) ->
  pb_generate camel lc o s = Ok text -> read_proto text = Some l -> ~ pb_members_distinct l.
Proof.
  intros s text l t P G N F T D H R M. destruct (ProtobufProofs.generate_reads camel lc o s text P G N F H) as (l' & R' & (is & ms & E & I & Ms)).
  rewrite R in R'. injection R' as <-. destruct (Forall2_in_l _ _ _ _ Ms T) as (m & J & Q). assert (Q' := Q). destruct Q' as (cs & rs & Em & _). rewrite Em in J, Q.
  apply D. apply (pb_names_twice _ _ _ _ Q). apply (M (message_named camel (get_prefix (po_prefix o)) (po_remove o) t)). rewrite E.
  right. apply in_or_app. right. apply in_or_app. right. apply in_or_app. now right.
Qed.

Lemma pb_file_messages : forall ts sel l, proto_described camel lc (get_prefix (po_prefix o)) (po_remove o) false (po_package o) (po_go_package o) ts sel l ->
  pb_messages_named l = map (message_named camel (get_prefix (po_prefix o)) (po_remove o)) sel.
Proof.
  intros ts sel l (is & ms & E & (I1 & I2) & M). rewrite E. unfold pb_messages_named. cbn [flat_map app]. rewrite !flat_map_app.
  assert (O : forall p x, (forall n fs, x <> ProtobufSpec.PMessage n fs) ->
    flat_map (fun x => match x with ProtobufSpec.PMessage n _ => [n] | _ => [] end) (optional p x) = []).
  { intros p x X. unfold optional. destruct (String.eqb p ""); [reflexivity|]. cbn. destruct x; try reflexivity. exfalso. exact (X _ _ eq_refl). }
  rewrite !O by discriminate. cbn [app].
  assert (X : flat_map (fun x => match x with ProtobufSpec.PMessage n _ => [n] | _ => [] end) is = []).
  { assert (X : is = [ProtobufSpec.PImport timestamp_file] \/ is = []).
    { destruct (existsb (fun t => existsb (fun c => String.eqb (c_type c) "datetime") (t_cols t)) sel) eqn:B.
      - left. apply I1. apply existsb_exists in B as (t & T & B). apply existsb_exists in B as (c & C & B). exists t, c. apply String.eqb_eq in B. auto.
      - right. apply I2. intros t c T C Q. assert (X : existsb (fun t => existsb (fun c => String.eqb (c_type c) "datetime") (t_cols t)) sel = true).
        { apply existsb_exists. exists t. split; [exact T|]. apply existsb_exists. exists c. split; [exact C|]. now apply String.eqb_eq. }
        congruence. }
    destruct X as [->| ->]; reflexivity. }
  rewrite X. cbn [app]. clear -M. induction M as [|t m sel ms (cs & rs & E & _) M IH]; cbn [flat_map map]; [reflexivity|]. rewrite E. cbn [app]. now rewrite IH.
Qed.
Theorem pb_types : forall s text, one_line (po_package o) -> one_line (po_go_package o) ->
  pb_names_ok camel lc (get_prefix (po_prefix o)) (po_remove o) (s_tables s) (filter (passes (po_filter o)) (s_tables s)) ->
  (forall t, In t (s_tables s) -> fits (po_start o) (length (t_cols t))) ->
  pb_generate camel lc o s = Ok text -> exists l, read_proto text = Some l /\
    (NoDup (pb_messages_named l) <->
     NoDup (map (message_named camel (get_prefix (po_prefix o)) (po_remove o)) (filter (passes (po_filter o)) (s_tables s)))).
Proof.
  intros s text P G N F H. destruct (ProtobufProofs.generate_reads camel lc o s text P G N F H) as (l & R & D).
  exists l. split; [exact R|]. rewrite (pb_file_messages _ _ _ D). reflexivity.
Qed.
End Protobuf.

(** ** GORM *)
Lemma kept_in : forall {A} (P : A -> Prop) l l', kept P l l' -> forall x, In x l' -> In x l /\ P x.
Proof.
  intros A P l l' K. induction K as [|x l l' Px K IH|x l l' Px K IH]; intros y Y; [destruct Y| |].
  - destruct Y as [<-|Y]; [split; [now left|exact Px]|]. destruct (IH y Y). split; [now right|assumption].
  - destruct (IH y Y). split; [now right|assumption].
Qed.
Lemma kept_distinct : forall {A B} (f : A -> B) (P : A -> Prop) l l', kept P l l' -> NoDup (map f l) -> NoDup (map f l').
Proof.
  intros A B f P l l' K. induction K as [|x l l' Px K IH|x l l' Px K IH]; intros N; cbn [map] in *; [constructor| |].
  - inversion N as [|? ? NI ND]; subst. constructor; [|auto]. intros I. apply NI. apply in_map_iff in I as (y & <- & Y).
    apply in_map. exact (proj1 (kept_in _ _ _ K y Y)).
  - inversion N; subst. auto.
Qed.
Lemma prefix_distinct : forall p l, NoDup l -> NoDup (map (append p) l).
Proof. intros p l N. apply apart_distinct; [exact N|]. intros a b _ _. induction p as [|c p IH]; cbn [append]; [auto|]. intros E. injection E as E. auto. Qed.

Section Gorm.
Variables camel snake : string -> string.
Variables om on : nat -> list (string * list string) -> list (string * list string).
Variable m : list (string * list string).
Variable o : gorm_opt.
Notation pre := (get_prefix (go_prefix o)).
Notation ms := (embed_models m (go_embed o)).

Lemma go_decl_distinct : forall ts t d, decl_described camel snake pre (go_remove o) (go_pointer o) (go_suffix o) ms ts t d ->
  go_apart camel pre (go_remove o) ms ts t -> NoDup (go_member_names d).
Proof.
  intros ts t d (_ & _ & (NE & EE & _) & (cs & fs & rs & assocs & Ef & KC & FC & KR & FR)) (NC & A).
  set (keys := ("method" :: (map (append "model ") (gd_embedded d) ++ map (append "column ") (map c_name cs)
                 ++ map (append "reference of ") (map c_name rs)))%list).
  assert (F : Forall2 (go_named camel pre (go_remove o) ms ts t) keys (go_member_names d)).
  { unfold keys, go_member_names. rewrite Ef, map_app. constructor; [constructor|]. apply Forall2_app; [|apply Forall2_app].
    - clear -EE. induction (gd_embedded d) as [|n l IH]; cbn [map]; constructor.
      + destruct (EE n (or_introl eq_refl)) as (cols & I & F). exact (gn_model _ _ _ _ _ _ _ _ I F).
      + apply IH. intros x X. apply EE. now right.
    - rewrite map_map. assert (I : forall c, In c cs -> In c (t_cols t)) by (intros c C; exact (proj1 (kept_in _ _ _ KC c C))).
      clear -FC I. induction FC as [|c [[n ty] tags] cs fs H F IH]; cbn [map fst]; constructor.
      + destruct H as (H & _). apply gn_column; [apply I; now left|exact H].
      + apply IH. intros x X. apply I. now right.
    - rewrite map_map. assert (I : forall c, In c rs -> In c (t_cols t)) by (intros c C; exact (proj1 (kept_in _ _ _ KR c C))).
      clear -FR I. induction FR as [|c f rs fs H F IH]; cbn [map]; constructor.
      + destruct H as (r & u & e & fk & rf & L & _ & _ & ->). cbn [fst]. exact (gn_reference _ _ _ _ _ _ _ _ _ _ (I c (or_introl eq_refl)) L).
      + apply IH. intros x X. apply I. now right. }
  assert (N : NoDup keys).
  { unfold keys. constructor.
    - intros I. rewrite !in_app_iff in I. destruct I as [I|[I|I]]; apply in_map_iff in I as (x & E & _); discriminate E.
    - apply distinct_app; [now apply prefix_distinct| |].
      + apply distinct_app; [apply prefix_distinct; exact (kept_distinct _ _ _ _ KC NC)|apply prefix_distinct; exact (kept_distinct _ _ _ _ KR NC)|].
        intros x X Y. apply in_map_iff in X as (a & <- & _). apply in_map_iff in Y as (b & E & _). discriminate E.
      + intros x X Y. apply in_map_iff in X as (a & <- & _). rewrite in_app_iff in Y. destruct Y as [Y|Y]; apply in_map_iff in Y as (b & E & _); discriminate E. }
  rewrite <- (map_id (go_member_names d)). rewrite <- (map_id keys) in N.
  refine (keyed_distinct2 (fun x => x) (fun x => x) _ _ _ F N _). intros x y b e _ _ X Y E. subst e. exact (A x y b X Y).
Qed.

Hypothesis OM : forall k, iteration_order (om k).
Hypothesis ON : forall k, iteration_order (on k).
Theorem go_members : forall s, models_ok m ->
  go_names_ok camel pre (go_remove o) (go_suffix o) (s_tables s) (filter (passes (go_filter o)) (s_tables s)) -> one_line (go_package o) ->
  (forall t, In t (filter (passes (go_filter o)) (s_tables s)) -> go_apart camel pre (go_remove o) ms (s_tables s) t) ->
  exists f, read_go (fst (gorm_generate camel snake om on m o s)) = Some f /\ go_members_distinct f.
Proof.
  intros s M N P A. destruct (GormText.file_described camel snake om on OM ON m o s M N P) as (f & R & _ & F). exists f. split; [exact R|].
  intros d D. destruct (Forall2_in_r _ _ _ _ F D) as (t & T & Q). exact (go_decl_distinct _ _ _ Q (A t T)).
Qed.

Theorem go_two_references : forall s f t c c' r r' u d d', models_ok m ->
  go_names_ok camel pre (go_remove o) (go_suffix o) (s_tables s) (filter (passes (go_filter o)) (s_tables s)) -> one_line (go_package o) ->
  In t (filter (passes (go_filter o)) (s_tables s)) -> (exists a b e, t_cols t = (a ++ c :: b ++ c' :: e)%list) ->
  leads_to (s_tables s) c r u d -> leads_to (s_tables s) c' r' u d' ->
  read_go (fst (gorm_generate camel snake om on m o s)) = Some f -> ~ go_members_distinct f.
Proof.
  intros s f t c c' r r' u d d' M N P T (a & b & e & Ec) L L' R D. destruct (GormText.file_described camel snake om on OM ON m o s M N P) as (f' & R' & _ & F).
  rewrite R in R'. injection R' as <-. destruct (Forall2_in_l _ _ _ _ F T) as (x & X & (_ & _ & _ & (cs & fs & rs & assocs & Ef & KC & FC & KR & FR))).
  specialize (D x X). unfold go_member_names in D. rewrite Ef, map_app in D. apply NoDup_cons_iff in D as (_ & D). apply NoDup_app_r, NoDup_app_r in D.
  rewrite Ec in KR.
  assert (K : exists p q w, rs = (p ++ c :: q ++ c' :: w)%list).
  { clear -KR L L'. assert (Y : forall l1 y l2 l', kept (fun c => exists r u e, leads_to (s_tables s) c r u e) (l1 ++ y :: l2) l' ->
      (exists r u e, leads_to (s_tables s) y r u e) -> exists p q, l' = (p ++ y :: q)%list /\ kept (fun c => exists r u e, leads_to (s_tables s) c r u e) l2 q).
    { induction l1 as [|z l1 IH]; intros y l2 l' K Q; cbn [app] in K; inversion K as [|? ? l0 Pz K0|? ? ? Pz K0]; subst.
      - exists [], l0. split; [reflexivity|assumption].
      - contradiction.
      - destruct (IH _ _ _ K0 Q) as (p & q & -> & K1). exists (z :: p), q. split; [reflexivity|exact K1].
      - exact (IH _ _ _ K0 Q). }
    destruct (Y _ _ _ _ KR) as (p & q & -> & K1); [eauto|]. destruct (Y _ _ _ _ K1) as (p' & q' & -> & _); [eauto|]. eauto. }
  destruct K as (p & q & w & ->).
  apply Forall2_app_inv_l in FR as (as1 & as2 & _ & FR & ->). inversion FR as [|? y ? as3 H1 FR2]; subst.
  apply Forall2_app_inv_l in FR2 as (as4 & as5 & _ & FR2 & ->). inversion FR2 as [|? y' ? as6 H2 _]; subst.
  rewrite map_app in D. apply NoDup_app_r in D. cbn [map] in D. apply NoDup_cons_iff in D as (D & _). apply D. rewrite map_app. apply in_or_app. right. left.
  destruct H1 as (r1 & u1 & d1 & fk1 & rf1 & L1 & _ & _ & ->). destruct H2 as (r2 & u2 & d2 & fk2 & rf2 & L2 & _ & _ & ->). cbn [fst].
  destruct L as (E & U & _), L' as (E' & U' & _), L1 as (E1 & U1 & _), L2 as (E2 & U2 & _).
  assert (r1 = r) by congruence. assert (r2 = r') by congruence. subst r1 r2.
  rewrite (pb_target_unique _ _ _ _ U1 U), (pb_target_unique _ _ _ _ U2 U'). reflexivity.
Qed.
Theorem go_types_named : forall s, models_ok m ->
  go_names_ok camel pre (go_remove o) (go_suffix o) (s_tables s) (filter (passes (go_filter o)) (s_tables s)) -> one_line (go_package o) ->
  exists f, read_go (fst (gorm_generate camel snake om on m o s)) = Some f /\
    (NoDup (map gd_name (gf_decls f)) <-> NoDup (map (type_named camel pre (go_remove o)) (filter (passes (go_filter o)) (s_tables s)))).
Proof.
  intros s M N P. destruct (GormText.file_described camel snake om on OM ON m o s M N P) as (f & R & _ & F). exists f. split; [exact R|].
  assert (E : map gd_name (gf_decls f) = map (type_named camel pre (go_remove o)) (filter (passes (go_filter o)) (s_tables s))).
  { clear -F. induction F as [|t d ts ds (E & _) F IH]; cbn [map]; [reflexivity|]. now rewrite E, IH. }
  rewrite E. reflexivity.
Qed.
End Gorm.

(** ** GraphQL *)
Section Graphql.
Variables camel lc plural : string -> string.
Theorem gql_members : forall f remove pm s,
  gql_names_ok camel lc plural (get_prefix pm) remove (filter (passes f) (s_tables s)) ->
  (forall t, In t (filter (passes f) (s_tables s)) -> NoDup (column_names t) /\ apart lc (column_names t)) ->
  NoDup (map (fun t => plural (lc (type_named camel (get_prefix pm) remove t))) (filter (passes f) (s_tables s))) ->
  exists l, read_graphql (gql_text camel lc plural f remove pm s) = Some l /\ gql_members_distinct l.
Proof.
  intros f remove pm s N A Q. destruct (GraphqlProofs.graphql_reads camel lc plural f remove pm s N) as (query & types & R & F & E).
  eexists. split; [exact R|]. intros n fs [I|[I|I]]; [discriminate I| |].
  - assert (Z : fs = query) by congruence. rewrite Z, E, map_map. exact Q.
  - destruct (Forall2_in_r _ _ _ _ F I) as (t & T & (_ & D)). destruct (A t T) as (NC & AC).
    refine (keyed_distinct2 c_name _ _ _ _ D NC _). intros x y b d X Y (B & _) (B' & _) Z. apply AC; [now apply in_map|now apply in_map|congruence].
Qed.
Theorem gql_types : forall f remove pm s,
  gql_names_ok camel lc plural (get_prefix pm) remove (filter (passes f) (s_tables s)) ->
  exists l, read_graphql (gql_text camel lc plural f remove pm s) = Some l /\
    (NoDup (gql_types_named l) <-> NoDup ("Query" :: map (type_named camel (get_prefix pm) remove) (filter (passes f) (s_tables s)))).
Proof.
  intros f remove pm s N. destruct (GraphqlProofs.graphql_reads camel lc plural f remove pm s N) as (query & types & R & F & _).
  eexists. split; [exact R|]. unfold gql_types_named. cbn [flat_map app].
  assert (E : flat_map (fun x => match x with GType n _ => [n] | GSchema _ => [] end) types =
              map (type_named camel (get_prefix pm) remove) (filter (passes f) (s_tables s))).
  { clear -F. induction F as [|t d ts ds H F IH]; cbn [map flat_map]; [reflexivity|]. destruct d as [?|n fs]; [destruct H|]. destruct H as (-> & _). cbn [app]. now rewrite IH. }
  rewrite E. reflexivity.
Qed.
End Graphql.

(** ** SQLAlchemy *)
Section Python.
Import Sqlalchemy SqlalchemySpec SqlalchemyProofs SqlalchemyText SqlalchemyNames SqlalchemyMain.
Variables camel snake : string -> string.
Variable o : sa_opt.

Lemma append_last : forall a b, a ++ "_" = b ++ "_" -> a = b.
Proof.
  induction a as [|c a IH]; intros [|d b] E; cbn [append] in E; auto.
  - injection E as -> E. destruct b; discriminate E.
  - injection E as -> E. destruct a; discriminate E.
  - injection E as -> E. f_equal. now apply IH.
Qed.
Lemma attribute_is : forall c, sf_name (new_sa_field snake c) = lower_snake snake (c_name c) \/
  (In (lower_snake snake (c_name c)) python_keywords /\ sf_name (new_sa_field snake c) = lower_snake snake (c_name c) ++ "_").
Proof. intros c. destruct (attr_spec camel snake c) as [E|(E & K)]; [now left|right; now split]. Qed.
Lemma py_class_distinct : forall t, py_apart snake t -> NoDup (flat_map assigned (class_members snake o t)).
Proof.
  intros t (NC & A & K).
  assert (E : flat_map assigned (class_members snake o t) = ("__tablename__" :: map (fun c => sf_name (new_sa_field snake c)) (t_cols t))%list).
  { unfold class_members. cbn [flat_map assigned app]. f_equal. rewrite flat_map_app. unfold unique_members.
    replace (flat_map assigned (if Nat.ltb 1 (length (filter c_uq (t_cols t))) then [MExpr (ECall "UniqueConstraint" (unique_args snake o t))] else [])) with (@nil string)
      by (destruct (Nat.ltb _ _); reflexivity).
    cbn [app]. induction (t_cols t) as [|c cs IH]; [reflexivity|]. cbn [map flat_map]. rewrite IH. reflexivity. }
  rewrite E. constructor.
  - intros I. apply in_map_iff in I as (c & Q & C). assert (C' : In (c_name c) (column_names t)) by now apply in_map.
    destruct (attribute_is c) as [X|(Kw & X)]; rewrite X in Q.
    + exact (proj2 (K _ _ C' C') Q).
    + change "__tablename__" with ("__tablename_" ++ "_") in Q. apply append_last in Q. rewrite Q in Kw. cbn in Kw. intuition discriminate.
  - refine (keyed_distinct c_name _ _ NC _). intros x y X Y Q.
    assert (X' : In (c_name x) (column_names t)) by now apply in_map. assert (Y' : In (c_name y) (column_names t)) by now apply in_map.
    destruct (attribute_is x) as [Qx|(Kx & Qx)], (attribute_is y) as [Qy|(Ky & Qy)]; rewrite Qx, Qy in Q.
    + now apply A.
    + exfalso. exact (proj1 (K _ _ Y' X') Ky Q).
    + exfalso. apply (proj1 (K _ _ X' Y') Kx). now symmetry.
    + apply A; auto. now apply append_last.
Qed.
Theorem py_members : forall s output path text,
  py_names_ok camel snake (get_prefix (so_prefix o)) (so_remove o) (so_suffix o) (filter (passes (so_filter o)) (s_tables s)) ->
  (forall t, In t (filter (passes (so_filter o)) (s_tables s)) -> t_cols t <> [] /\ py_apart snake t) ->
  In (path, text) (sa_generate camel snake o s output) -> exists f, read_python text = Some f /\ py_members_distinct f.
Proof.
  intros s output path text N A I.
  destruct (files_are camel snake o s output path text N (fun t T => proj1 (A t T)) I) as (im & sa & tz & ts & R & S).
  eexists. split; [exact R|]. intros n body B. unfold file_stmts in B. rewrite !in_app_iff in B. destruct B as [B|[B|B]].
  - exfalso. unfold header_stmts in B. apply in_app_iff in B as [B|B].
    + apply in_map_iff in B as [x [Q _]]. unfold import_stmt in Q. destruct (String.eqb _ _); discriminate.
    + destruct B as [Q|[Q|[Q|[Q|[]]]]]; discriminate.
  - exfalso. destruct tz; [|destruct B]. destruct B as [Q|[]]. discriminate Q.
  - apply in_map_iff in B as (t & Q & T). unfold class_stmt in Q. injection Q as _ <-. apply py_class_distinct. apply A, S, T.
Qed.

Lemma bound_app : forall a b, py_bound (a ++ b) = (py_bound a ++ py_bound b)%list.
Proof. intros. apply flat_map_app. Qed.
Lemma split_classes : forall (l : list table) (h : list stmt) p n body q, (forall b, In b h -> forall m bd, b <> PClass m "Base" bd) ->
  (h ++ map (class_stmt camel snake o) l)%list = (p ++ PClass n "Base" body :: q)%list ->
  exists l1 t l2, l = (l1 ++ t :: l2)%list /\ p = (h ++ map (class_stmt camel snake o) l1)%list /\ q = map (class_stmt camel snake o) l2 /\
    n = sa_class_name camel (so_remove o) (so_prefix o) t.
Proof.
  intros l h. induction h as [|b h IH]; intros p n body q H E; cbn [app] in E.
  - clear H. revert p E. induction l as [|t l IL]; intros [|b p] E; cbn [map app] in E; try discriminate E.
    + injection E as E1 E2. unfold class_stmt in E1. exists [], t, l. split; [reflexivity|]. split; [reflexivity|]. split; [now symmetry|]. congruence.
    + injection E as <- E. destruct (IL p E) as (l1 & u & l2 & -> & -> & -> & ->). exists (t :: l1), u, l2. repeat split; reflexivity.
  - destruct p as [|b' p]; cbn [app] in E.
    + injection E as E _. exfalso. exact (H b (or_introl eq_refl) _ _ E).
    + injection E as <- E. destruct (IH p n body q (fun x X => H x (or_intror X)) E) as (l1 & t & l2 & -> & -> & -> & ->).
      exists l1, t, l2. repeat split; reflexivity.
Qed.
Theorem py_types : forall s output, python_path output ->
  py_names_ok camel snake (get_prefix (so_prefix o)) (so_remove o) (so_suffix o) (filter (passes (so_filter o)) (s_tables s)) ->
  NoDup (map (type_named camel (get_prefix (so_prefix o)) (so_remove o)) (filter (passes (so_filter o)) (s_tables s))) ->
  (forall t, In t (filter (passes (so_filter o)) (s_tables s)) -> ~ In (type_named camel (get_prefix (so_prefix o)) (so_remove o) t) py_taken) ->
  exists text f, sa_generate camel snake o s output = [(output, text)] /\ read_python text = Some f /\ py_types_distinct f.
Proof.
  intros s output P N D T. exists (sa_single camel snake o s), (single_file camel snake o s).
  split; [unfold sa_generate; now rewrite (ext_of output P)|]. split; [now apply single_reads|].
  set (sel := filter (passes (so_filter o)) (s_tables s)) in *.
  set (h := (header_stmts (single_im camel snake o s) (single_sa camel snake o s) ++ (if single_tz camel snake o s then [tz_stmt] else []))%list).
  assert (B : forall x, In x (py_bound h) -> In x py_taken).
  { intros x X. unfold h in X. rewrite bound_app in X. apply in_app_or in X as [X|X].
    - unfold header_stmts in X. rewrite bound_app in X. apply in_app_or in X as [X|X].
      + unfold py_bound in X. apply in_flat_map in X as (b & Q & X). apply in_map_iff in Q as (i & <- & _). unfold import_stmt in X.
        destruct (String.eqb _ _); destruct X as [<-|[]]; cbn; tauto.
      + unfold py_bound in X. cbn [flat_map app] in X. apply in_app_or in X as [X|[<-|[<-|[<-|[]]]]]; try (cbn; tauto).
        assert (Y : In x sa_names).
        { apply single_sa_in in X as [->|(t & I & J)]; [cbn; tauto|]. apply (class_sa_names camel snake o t); [exact (sel_ok camel snake o s N t I)|exact J]. }
        clear -Y. vm_compute in Y. vm_compute. tauto.
    - destruct (single_tz camel snake o s); [|destruct X]. destruct X as [<-|[]]. cbn. tauto. }
  intros p n body q E I.
  assert (H : forall b, In b h -> forall m bd, b <> PClass m "Base" bd).
  { intros b X m bd ->. unfold h in X. apply in_app_or in X as [X|X].
    - unfold header_stmts in X. apply in_app_iff in X as [X|X].
      + apply in_map_iff in X as [x [Q _]]. unfold import_stmt in Q. destruct (String.eqb _ _); discriminate.
      + destruct X as [Q|[Q|[Q|[Q|[]]]]]; discriminate.
    - destruct (single_tz camel snake o s); [|destruct X]. destruct X as [Q|[]]. discriminate Q. }
  unfold single_file, file_stmts in E. rewrite app_assoc in E. fold h in E. fold sel in E.
  destruct (split_classes sel h p n body q H E) as (l1 & t & l2 & El & -> & -> & ->). rewrite El in D, T.
  rewrite <- app_assoc in I. rewrite !bound_app in I.
  assert (M : forall l, py_bound (map (class_stmt camel snake o) l) = map (type_named camel (get_prefix (so_prefix o)) (so_remove o)) l).
  { clear. induction l as [|u l IH]; [reflexivity|]. cbn [map]. unfold py_bound in *. cbn [flat_map class_stmt app]. rewrite IH. f_equal. apply name_is_type. }
  rewrite !M in I. rewrite (name_is_type camel o t) in I. apply in_app_or in I as [I|I].
  - apply (T t); [apply in_or_app; right; now left|]. now apply B.
  - rewrite map_app in D. cbn [map] in D. apply NoDup_remove_2 in D. exact (D I).
Qed.
End Python.

(** ** Kotlin *)
Section Kotlin.
Import Jpa KotlinSpec JpaMain.
Variables camel lc snake : string -> string.
Variable path_join : list string -> string.
Variable o : kt_opt.
Notation sel s := (filter (passes (ko_filter o)) (s_tables s)).
Notation named := (type_named camel (get_prefix (ko_prefix o)) (ko_remove o)).

Lemma kt_params : forall t wanted identity relation suffix ts ds annos n params super,
  entity_described camel lc snake (get_prefix (ko_prefix o)) wanted (ko_remove o) identity relation suffix ts t ds ->
  NoDup (column_names t) -> apart lc (column_names t) -> In (DClass annos n params super) ds -> NoDup (map kp_name params).
Proof.
  intros t wanted identity relation suffix ts ds annos n params super (ta & ids & ps & su & more & -> & _ & _ & F & M) NC A I.
  destruct I as [I|I].
  - injection I as _ _ <- _. refine (keyed_distinct2 c_name _ _ _ _ F NC _). intros x y b d X Y (B & _) (B' & _) Z.
    apply A; [now apply in_map|now apply in_map|]. unfold property in *. congruence.
  - destruct M as [(_ & _ & ->)|(_ & _ & qs & -> & G)]; [destruct I|]. destruct I as [I|[]]. injection I as _ _ <- _.
    assert (NK : NoDup (map c_name (keys t))).
    { unfold keys. clear -NC. unfold column_names in NC. induction (t_cols t) as [|c cs IH]; [constructor|]. cbn [map filter] in *. inversion NC as [|? ? NI ND]; subst.
      destruct (c_pk c); [|auto]. cbn [map]. constructor; [|auto]. intros J. apply NI. apply in_map_iff in J as (d & <- & J). apply filter_In in J as (J & _). now apply in_map. }
    refine (keyed_distinct2 c_name _ _ _ _ G NK _). intros x y b d X Y (B & _) (B' & _) Z.
    unfold keys in X, Y. apply filter_In in X as (X & _). apply filter_In in Y as (Y & _).
    apply A; [now apply in_map|now apply in_map|]. unfold property in *. congruence.
Qed.
Theorem kt_members : forall s output wanted,
  kt_names_ok camel lc (get_prefix (ko_prefix o)) (ko_remove o) (ko_identity o) (ko_relation o) (ko_suffix o) (sel s) ->
  package_ok (ko_package o) ->
  (forall t, In t (sel s) -> annotations (get_annotations (ko_anno o) (t_group t)) (wanted (t_group t))) ->
  (ko_repos o = "" \/ package_ok (ko_repos o) /\ forall t, In t (sel s) -> keys t <> []) ->
  (forall t, In t (sel s) -> NoDup (column_names t) /\ apart lc (column_names t)) ->
  forall path text, In (path, text) (fst (kt_generate camel lc snake path_join o s output)) ->
    exists f, read_kotlin text = Some f /\ kt_members_distinct f.
Proof.
  intros s output wanted N P W R A path text I.
  destruct (files_described camel lc snake path_join o s output wanted N P W R) as (es & rs & E & F & G). rewrite E in I. cbn [fst] in I.
  apply in_app_or in I as [I|I].
  - destruct (Forall2_in_r _ _ _ _ F I) as (t & T & (_ & f & Rd & _ & D)). exists f. split; [exact Rd|]. destruct (A t T) as (NC & AC).
    intros annos n params super J. exact (kt_params _ _ _ _ _ _ _ _ _ _ _ D NC AC J).
  - destruct G as [(_ & ->)|(_ & G)]; [destruct I|]. destruct (Forall2_in_r _ _ _ _ G I) as (t & T & (_ & f & Rd & _ & (_ & id & D & _))).
    exists f. split; [exact Rd|]. intros annos n params super J. rewrite D in J. destruct J as [J|[]]. discriminate J.
Qed.
Theorem kt_files : forall s output wanted,
  kt_names_ok camel lc (get_prefix (ko_prefix o)) (ko_remove o) (ko_identity o) (ko_relation o) (ko_suffix o) (sel s) ->
  package_ok (ko_package o) ->
  (forall t, In t (sel s) -> annotations (get_annotations (ko_anno o) (t_group t)) (wanted (t_group t))) ->
  (ko_repos o = "" \/ package_ok (ko_repos o) /\ forall t, In t (sel s) -> keys t <> []) ->
  NoDup (map named (sel s)) ->
  (forall d a b, word a -> word b -> path_join [d; a ++ ".kt"] = path_join [d; b ++ ".kt"] -> a = b) ->
  (ko_repos o <> "" -> forall a b, word a -> word b ->
     path_join [path_join (output :: split_on "." (ko_package o)); a ++ ".kt"] <> path_join [path_join (output :: split_on "." (ko_repos o)); b ++ ".kt"]) ->
  NoDup (map fst (fst (kt_generate camel lc snake path_join o s output))).
Proof.
  intros s output wanted N P W R D J PR.
  destruct (files_described camel lc snake path_join o s output wanted N P W R) as (es & rs & E & F & G). rewrite E. cbn [fst]. rewrite map_app.
  assert (R' : forall n, n ++ "Repository.kt" = (n ++ "Repository") ++ ".kt") by (intros n; now rewrite app_assoc_s).
  destruct N as (_ & _ & N).
  assert (V : forall t, In t (sel s) -> word (named t)) by (intros t T; apply KotlinProofs.identifier_word; apply N, T).
  assert (V' : forall t, In t (sel s) -> word (named t ++ "Repository")).
  { intros t T. apply KotlinProofs.identifier_word. apply JpaFile.identifier_more; [apply N, T|reflexivity|reflexivity]. }
  apply distinct_app.
  - refine (keyed_distinct2 named _ _ _ _ F D _). intros x y b d X' Y' (X & _) (Y & _) Q. rewrite X, Y in Q. exact (J _ _ _ (V _ X') (V _ Y') Q).
  - destruct G as [(_ & ->)|(_ & G)]; [constructor|]. refine (keyed_distinct2 named _ _ _ _ G D _). intros x y b d X' Y' (X & _) (Y & _) Q.
    rewrite X, Y, !R' in Q. apply (J _ _ _ (V' _ X') (V' _ Y')) in Q. now apply app_inj_r_s in Q.
  - intros x X Y. destruct G as [(_ & ->)|(RN & G)]; [destruct Y|]. apply in_map_iff in X as (a & <- & X). apply in_map_iff in Y as (b & Q & Y).
    destruct (Forall2_in_r _ _ _ _ F X) as (t & T & (Ea & _)). destruct (Forall2_in_r _ _ _ _ G Y) as (u & U & (Eb & _)).
    rewrite Ea, Eb, R' in Q. symmetry in Q. exact (PR RN _ _ (V _ T) (V' _ U) Q).
Qed.
End Kotlin.

(** ** Tables in snake case without further names *)
Theorem plain_types_distinct : forall camel prefix ts,
  NoDup (map t_name ts) -> apart camel (map t_name ts) -> (forall t, In t ts -> prefix (t_group t) = "" /\ t_class t = "") ->
  NoDup (map (type_named camel prefix []) ts) /\ NoDup (map (message_named camel prefix []) ts).
Proof.
  intros camel prefix ts N A P.
  assert (E : forall t, In t ts -> type_named camel prefix [] t = camel (t_name t) /\ message_named camel prefix [] t = camel (t_name t)).
  { intros t T. destruct (P t T) as (Q & C). unfold type_named, message_named. rewrite Q, C. now split. }
  split; (refine (keyed_distinct t_name _ _ N _); intros x y X Y Q; apply A; [now apply in_map|now apply in_map|]).
  - now rewrite (proj1 (E x X)), (proj1 (E y Y)) in Q.
  - now rewrite (proj2 (E x X)), (proj2 (E y Y)) in Q.
Qed.
