(** The StarUML import *)
From Coq Require Import String Ascii List NArith ZArith Bool Lia.
From Verif.Model Require Import GoString Util Octopus Common Json Liquibase Staruml.
From Verif.Spec Require Import Text OctopusSpec XlsxSpec StarumlSpec.
From Verif.Proofs Require Import StringLemmas ListLemmas OjsonProofs XlsxText XlsxRound TypeProofs.
Import ListNotations.
Local Open Scope string_scope.

Fixpoint walk_elements (l : list (option element)) (m : list (string * element)) : res (list (string * element)) :=
  match l with
  | [] => Ok m
  | None :: _ => Panic
  | Some x :: l' => match walk_element x m with Panic => Panic | Ok m' => walk_elements l' m' end
  end.
Lemma walk_eq : forall e m, walk_element e m =
  match walk_elements (e_owned e) ((e_id e, e) :: m) with Panic => Panic | Ok m' => walk_elements (e_cols e) m' end.
Proof.
  intros e m. destruct e as [t i p n le ty pk uq nu d r owned cols]. cbn [walk_element e_owned e_cols e_id].
  assert (H : forall l m, (fix walks (l : list (option element)) (m : list (string * element)) {struct l} :
     res (list (string * element)) :=
        match l with
        | [] => Ok m
        | None :: _ => Panic
        | Some x :: l' => match walk_element x m with Panic => Panic | Ok m' => walks l' m' end
        end) l m = walk_elements l m).
  { induction l as [|[x|] l IH]; intros m0; cbn [walk_elements]; [reflexivity| |reflexivity].
    destruct (walk_element x m0); [apply IH|reflexivity]. }
  rewrite H. destruct (walk_elements owned _); [apply H|reflexivity].
Qed.

(** induction over trees *)
Lemma element_rect2 : forall P : element -> Prop,
  (forall e, (forall x, In (Some x) (e_owned e) -> P x) -> (forall x, In (Some x) (e_cols e) -> P x) -> P e) ->
  forall e, P e.
Proof.
  intros P H. fix IH 1. intros e. apply H.
  - destruct e as [t i p n le ty pk uq nu d r owned cols]. cbn [e_owned].
    induction owned as [|[y|] l IHl]; intros x I; [destruct I| |].
    + destruct I as [E|I]; [injection E as <-; apply IH|now apply IHl].
    + destruct I as [E|I]; [discriminate|now apply IHl].
  - destruct e as [t i p n le ty pk uq nu d r owned cols]. cbn [e_cols].
    induction cols as [|[y|] l IHl]; intros x I; [destruct I| |].
    + destruct I as [E|I]; [injection E as <-; apply IH|now apply IHl].
    + destruct I as [E|I]; [discriminate|now apply IHl].
Qed.

Lemma in_tree_trans : forall a b c, in_tree a b -> in_tree b c -> in_tree a c.
Proof.
  intros a b c H K. induction K as [e|e x r I K IH|e x r I K IH].
  - exact H.
  - apply (it_owned _ x); auto.
  - apply (it_column _ x); auto.
Qed.

(** what the walk leaves in the map: the entries of [m], and one entry per element of the tree *)
Definition walked (elems : element -> Prop) (m m' : list (string * element)) : Prop :=
  (forall k e, In (k, e) m' <-> In (k, e) m \/ (elems e /\ k = e_id e)).
Definition below (l : list (option element)) (e : element) : Prop := exists x, In (Some x) l /\ in_tree e x.

Lemma walk_ok : forall e m, (forall x, in_tree x e -> ~ In None (e_owned x) /\ ~ In None (e_cols x)) ->
  exists m', walk_element e m = Ok m' /\ walked (fun x => in_tree x e) m m'.
Proof.
  induction e as [e IH1 IH2] using element_rect2. intros m H. rewrite walk_eq.
  assert (L : forall l, ~ In None l -> (forall x, In (Some x) l -> forall m, exists m', walk_element x m = Ok m' /\ walked (fun y => in_tree y x) m m') ->
    forall m, exists m', walk_elements l m = Ok m' /\ walked (below l) m m').
  { induction l as [|[x|] l IHl]; intros N K m0; cbn [walk_elements].
    - exists m0. split; [reflexivity|]. intros k y. split; [now left|]. intros [I|[[z [[] _]] _]]. exact I.
    - destruct (K x (or_introl eq_refl) m0) as [m1 [-> W1]].
      destruct (IHl) with (m := m1) as [m2 [-> W2]]; [intros I; apply N; now right|intros y I; apply K; now right|].
      exists m2. split; [reflexivity|]. intros k y. rewrite (W2 k y), (W1 k y). split.
      + intros [[I|[I E]]|[[z [I J]] E]]; [now left| |].
        * right. split; [|exact E]. exists x. split; [now left|exact I].
        * right. split; [|exact E]. exists z. split; [now right|exact J].
      + intros [I|[[z [[E'|I] J]] E]]; [now left; left| |].
        * injection E' as <-. left. right. split; assumption.
        * right. split; [|exact E]. exists z. split; assumption.
    - exfalso. apply N. now left. }
  destruct (H e (it_root e)) as [N1 N2].
  destruct (L (e_owned e) N1) with (m := (e_id e, e) :: m) as [m1 [-> W1]].
  { intros x I m0. apply IH1; [exact I|]. intros y J. apply H. apply (it_owned _ x); assumption. }
  destruct (L (e_cols e) N2) with (m := m1) as [m2 [-> W2]].
  { intros x I m0. apply IH2; [exact I|]. intros y J. apply H. apply (it_column _ x); assumption. }
  exists m2. split; [reflexivity|]. intros k y. rewrite (W2 k y), (W1 k y). cbn [In]. split.
  - intros [[[E|I]|[[z [I J]] E]]|[[z [I J]] E]].
    + injection E as <- <-. right. split; [apply it_root|reflexivity].
    + now left.
    + right. split; [now apply (it_owned _ z)|exact E].
    + right. split; [now apply (it_column _ z)|exact E].
  - intros [I|[I E]].
    + left. left. now right.
    + inversion I as [? Q|? x ? I' J|? x ? I' J]; subst.
      * left. left. left. reflexivity.
      * left. right. split; [now exists x|reflexivity].
      * right. split; [now exists x|reflexivity].
Qed.
Lemma walk_only : forall e m m', walk_element e m = Ok m' -> forall x, in_tree x e -> ~ In None (e_owned x) /\ ~ In None (e_cols x).
Proof.
  induction e as [e IH1 IH2] using element_rect2. intros m m' H. rewrite walk_eq in H.
  assert (L : forall l, (forall x, In (Some x) l -> forall m m', walk_element x m = Ok m' -> forall y, in_tree y x -> ~ In None (e_owned y) /\ ~ In None (e_cols y)) ->
    forall m m', walk_elements l m = Ok m' -> ~ In None l /\ forall y, below l y -> ~ In None (e_owned y) /\ ~ In None (e_cols y)).
  { induction l as [|[x|] l IHl]; intros K m0 m0' W; cbn [walk_elements] in W.
    - split; [intros []|]. intros y [z [[] _]].
    - destruct (walk_element x m0) as [m1|] eqn:E; [|discriminate].
      destruct (IHl (fun y I => K y (or_intror I)) _ _ W) as [A B]. split.
      + intros [Q|Q]; [discriminate|auto].
      + intros y [z [[Q|I] J]]; [injection Q as <-; apply (K x (or_introl eq_refl) _ _ E), J|]. apply B. now exists z.
    - discriminate. }
  destruct (walk_elements (e_owned e) _) as [m1|] eqn:E1; [|discriminate].
  destruct (L _ IH1 _ _ E1) as [A1 B1]. destruct (L _ IH2 _ _ H) as [A2 B2].
  intros x I. inversion I as [? Q|? z ? I' J|? z ? I' J]; subst.
  - split; assumption.
  - apply B1. now exists z.
  - apply B2. now exists z.
Qed.

Lemma find_some : forall {V} (m : list (string * V)) k v, alist_find m k = Some v -> In (k, v) m.
Proof.
  induction m as [|[k' v'] m IH]; intros k v H; cbn in H; [discriminate|].
  destruct (String.eqb_spec k k') as [->|N]; [injection H as ->; now left|right; now apply IH].
Qed.
Lemma find_exists : forall {V} (m : list (string * V)) k v, In (k, v) m -> exists v', alist_find m k = Some v'.
Proof.
  induction m as [|[k' v'] m IH]; intros k v H; [destruct H|]. cbn.
  destruct (String.eqb_spec k k') as [->|N]; [now eexists|]. destruct H as [H|H]; [congruence|]. now apply (IH k v).
Qed.

Lemma find_by_type_ok : forall typ l, ~ In None l -> find_by_type typ l = Ok (of_type typ l).
Proof.
  induction l as [|[x|] l IH]; intros N; cbn [find_by_type of_type flat_map]; [reflexivity| |exfalso; apply N; now left].
  fold (of_type typ l). rewrite IH by (intros I; apply N; now right).
  destruct (String.eqb_spec (e_typ x) typ); destruct (string_dec (e_typ x) typ); congruence || reflexivity.
Qed.
Lemma of_type_in : forall typ l e, In e (of_type typ l) -> In (Some e) l.
Proof.
  intros typ l e I. apply in_flat_map in I as [[x|] [I J]]; [|destruct J].
  destruct (string_dec (e_typ x) typ); [|destruct J]. destruct J as [<-|[]]. exact I.
Qed.

(** ** Columns *)

Lemma go_atoi_itoa : forall n, (n < 65536)%N -> go_atoi (itoa n) = Some (Z.of_N n).
Proof.
  intros n H. destruct (head_digit n) as [d [r [E D]]]. pose proof (itoa_digits n) as DD.
  pose proof (digits_to_N_itoa n) as DN. unfold go_atoi. rewrite E in *. rewrite DD, DN. cbn [option_map].
  assert (B : (-9223372036854775808 <=? Z.of_N n)%Z && (Z.of_N n <=? 9223372036854775807)%Z = true).
  { apply andb_true_iff. split; apply Z.leb_le; lia. }
  destruct d as [[] [] [] [] [] [] [] []]; try discriminate D; cbn; now rewrite B.
Qed.

Lemma named_parse : forall k, named_type k -> parse_type (col_format k) = (c_type k, c_size k, c_scale k).
Proof.
  intros k (A & B & [(Z & Y & N)|(Z & N & L)]).
  - rewrite parse_format_plain by assumption. now rewrite Z, Y.
  - apply parse_format_letters; try assumption. now apply all_letters_iff.
Qed.
Lemma column_sizes : forall m e c, st_column m e = Ok c -> size_described e c.
Proof.
  intros m e c H k R E. unfold st_column in H. rewrite E, named_parse in H by exact R.
  assert (P : c_type c = c_type k /\ c_scale c = c_scale k /\
    c_size c = let size := Z.to_N (to_int (e_length e) mod 65536) in if N.eqb size 0 then c_size k else size).
  { cbv zeta in H. destruct (e_ref_to e) as [id|].
    - destruct (alist_find m id) as [t|]; [|discriminate]. destruct (e_parent t) as [p|]; [|discriminate].
      destruct (alist_find m p); [|discriminate]. injection H as <-. repeat split; reflexivity.
    - injection H as <-. repeat split; reflexivity. }
  destruct P as [P1 [P2 P3]]. cbv zeta in P3. split; [exact P1|]. split; [exact P2|]. split.
  - intros [L|L]; rewrite L in P3; exact P3.
  - intros n B L. rewrite L in P3. cbn [to_int] in P3. rewrite go_atoi_itoa in P3 by lia.
    rewrite Z.mod_small in P3 by lia. rewrite N2Z.id in P3. destruct (N.eqb_spec n 0); [lia|exact P3].
Qed.

Lemma column_described : forall root m e c,
  (forall k x, In (k, x) m -> in_tree x root /\ k = e_id x) ->
  st_column m e = Ok c -> st_column_described root e c.
Proof.
  intros root m e c M H. pose proof (column_sizes m e c H) as S. unfold st_column in H.
  destruct (parse_type (e_type e)) as [[ty sz] sc]. cbv zeta in H.
  destruct (e_ref_to e) as [id|] eqn:R.
  - destruct (alist_find m id) as [t|] eqn:F1; [|discriminate]. destruct (e_parent t) as [p|] eqn:P; [|discriminate].
    destruct (alist_find m p) as [q|] eqn:F2; [|discriminate].
    apply find_some in F1, F2. apply M in F1 as [F1 ->], F2 as [F2 ->].
    injection H as <-. unfold st_column_described. rewrite R. cbn [c_name c_pk c_uq c_notnull c_autoinc c_default c_onupdate c_values c_desc c_ref].
    repeat (split; [reflexivity|]). split; [intros l d r A B C D; rewrite D; now apply trim_attr|]. split; [exact S|].
    exists t, q. repeat split; assumption.
  - injection H as <-. unfold st_column_described. rewrite R. cbn [c_name c_pk c_uq c_notnull c_autoinc c_default c_onupdate c_values c_desc c_ref].
    repeat (split; [reflexivity|]). split; [intros l d r A B C D; rewrite D; now apply trim_attr|]. split; [exact S|]. exact I.
Qed.

Lemma column_ok : forall root m e, in_tree e root -> references_ok root ->
  (forall k x, In (k, x) m <-> in_tree x root /\ k = e_id x) ->
  exists c, st_column m e = Ok c.
Proof.
  intros root m e I R M. unfold st_column. destruct (parse_type (e_type e)) as [[ty sz] sc]. cbv zeta.
  destruct (e_ref_to e) as [id|] eqn:Q; [|now eexists]. destruct (R e id I Q) as [[t [T E]] K].
  destruct (find_exists m id t) as [t' F]; [apply M; split; [exact T|now rewrite E]|]. rewrite F.
  apply find_some, M in F as [F1 F2]. destruct (K t' F1 (eq_sym F2)) as [p [q [P [A B]]]]. rewrite P.
  destruct (find_exists m p q) as [q' ->]; [apply M; split; [exact A|now rewrite B]|]. now eexists.
Qed.

Lemma forall2_in_l : forall {A B} (P Q : A -> B -> Prop) l l',
  (forall x y, In x l -> P x y -> Q x y) -> Forall2 P l l' -> Forall2 Q l l'.
Proof.
  intros A B P Q l l' H F. induction F as [|x y l l' E F IH]; constructor.
  - apply H; [now left|exact E].
  - apply IH. intros a b I. apply H. now right.
Qed.

Lemma import_described : forall root s, import_staruml root = Ok (Some s) ->
  exists model rest, of_type "ERDDataModel" (e_owned root) = model :: rest /\
    s_version s = e_name root /\ s_name s = "" /\ s_author s = "" /\
    Forall2 (entity_described root) (of_type "ERDEntity" (e_owned model)) (s_tables s).
Proof.
  intros root s H. unfold import_staruml in H. destruct (walk_element root []) as [m|] eqn:W; [|discriminate].
  pose proof (walk_only root [] m W) as N. destruct (walk_ok root [] N) as [m' [E M]].
  rewrite W in E. injection E as <-.
  assert (M' : forall k x, In (k, x) m -> in_tree x root /\ k = e_id x).
  { intros k x I. apply M in I as [[]|I]. exact I. }
  unfold st_schema in H. rewrite find_by_type_ok in H by apply N, it_root.
  destruct (of_type "ERDDataModel" (e_owned root)) as [|model rest] eqn:D; [discriminate|].
  assert (IM : in_tree model root).
  { apply (it_owned _ model); [|apply it_root]. apply (of_type_in "ERDDataModel"). rewrite D. now left. }
  rewrite find_by_type_ok in H by apply N, IM.
  destruct (res_map (st_table m) _) as [ts|] eqn:T; [|discriminate]. injection H as <-.
  exists model, rest. split; [reflexivity|]. repeat (split; [reflexivity|]). cbn [s_tables].
  apply res_map_forall2 in T. revert T. apply forall2_in_l. intros e t I ET.
  assert (IE : in_tree e root).
  { apply (in_tree_trans _ model); [|exact IM]. apply (it_owned _ e); [|apply it_root]. now apply (of_type_in "ERDEntity"). }
  unfold st_table in ET. rewrite find_by_type_ok in ET by apply N, IE.
  destruct (res_map (st_column m) _) as [cs|] eqn:C; [|discriminate]. injection ET as <-.
  unfold entity_described. repeat (split; [reflexivity|]). cbn [t_cols].
  apply res_map_forall2 in C. revert C. apply forall2_in_l. intros x c _. now apply column_described.
Qed.

Lemma import_ok : forall root, no_null root -> references_ok root ->
  (of_type "ERDDataModel" (e_owned root) = [] -> import_staruml root = Ok None) /\
  (of_type "ERDDataModel" (e_owned root) <> [] -> exists s, import_staruml root = Ok (Some s)).
Proof.
  intros root N R. destruct (walk_ok root [] N) as [m [W M]]. unfold import_staruml. rewrite W.
  assert (M' : forall k x, In (k, x) m <-> in_tree x root /\ k = e_id x).
  { intros k x. rewrite (M k x). split; [intros [[]|I]; exact I|now right]. }
  unfold st_schema. rewrite find_by_type_ok by apply N, it_root.
  destruct (of_type "ERDDataModel" (e_owned root)) as [|model rest] eqn:D.
  { split; [reflexivity|congruence]. }
  split; [discriminate|]. intros _. assert (IM : in_tree model root).
  { apply (it_owned _ model); [|apply it_root]. apply (of_type_in "ERDDataModel"). rewrite D. now left. }
  rewrite find_by_type_ok by apply N, IM.
  destruct (res_map_ok (st_table m) (of_type "ERDEntity" (e_owned model))) as [ts [-> _]]; [|now eexists].
  intros e I. assert (IE : in_tree e root).
  { apply (in_tree_trans _ model); [|exact IM]. apply (it_owned _ e); [|apply it_root]. now apply (of_type_in "ERDEntity"). }
  unfold st_table. rewrite find_by_type_ok by apply N, IE.
  destruct (res_map_ok (st_column m) (of_type "ERDColumn" (e_cols e))) as [cs [-> _]]; [|now eexists].
  intros c J. apply (column_ok root); [|exact R|exact M'].
  apply (in_tree_trans _ e); [|exact IE]. apply (it_column _ c); [|apply it_root]. now apply (of_type_in "ERDColumn").
Qed.
Lemma null_panics : forall root, ~ no_null root -> import_staruml root = Panic.
Proof.
  intros root H. unfold import_staruml. destruct (walk_element root []) as [m|] eqn:W; [|reflexivity].
  exfalso. apply H. exact (walk_only root [] m W).
Qed.

(** ** Cases *)

Definition st_col (id name ty : string) (len : json) (pk : bool) (ref : option string) (parent : string) : element :=
  Elem "ERDColumn" id (Some parent) name len ty pk false (negb pk) " the column " ref [] [].
Definition st_project (ref : string) (len : json) : element :=
  Elem "Project" "p" None "1.0" JNull "" false false false "" None
    [Some (Elem "ERDDataModel" "m" (Some "p") "Model" JNull "" false false false "" None
       [Some (Elem "ERDDiagram" "d" (Some "m") "Diagram" JNull "" false false false "" None [] []);
        Some (Elem "ERDEntity" "g" (Some "m") "group" JNull "" false false false "" None []
          [Some (st_col "g1" "id" "int64" JNull true None "g"); Some (st_col "g2" "name" "varchar" len false None "g")]);
        Some (Elem "ERDEntity" "u" (Some "m") "user" JNull "" false false false "" None []
          [Some (st_col "u1" "gid" "int64" JNull false (Some ref) "u")])] [])] [].

Fixpoint all_elements (e : element) : list element :=
  match e with
  | Elem _ _ _ _ _ _ _ _ _ _ _ owned cols =>
      (e :: flat_map (fun x => match x with Some y => all_elements y | None => [] end) owned
         ++ flat_map (fun x => match x with Some y => all_elements y | None => [] end) cols)%list
  end.
Lemma all_elements_eq : forall e, all_elements e =
  (e :: flat_map (fun x => match x with Some y => all_elements y | None => [] end) (e_owned e)
     ++ flat_map (fun x => match x with Some y => all_elements y | None => [] end) (e_cols e))%list.
Proof. destruct e. reflexivity. Qed.
Lemma all_elements_iff : forall e x, In x (all_elements e) <-> in_tree x e.
Proof.
  induction e as [e IH1 IH2] using element_rect2. intros x. rewrite all_elements_eq. cbn [In]. rewrite in_app_iff, !in_flat_map. split.
  - intros [<-|[[[y|] [I J]]|[[y|] [I J]]]]; [apply it_root| |destruct J| |destruct J].
    + apply (it_owned _ y); [exact I|]. now apply (IH1 y I).
    + apply (it_column _ y); [exact I|]. now apply (IH2 y I).
  - intros I. inversion I as [? Q|? y ? J K|? y ? J K]; subst; [now left| |].
    + right. left. exists (Some y). split; [exact J|]. now apply (IH1 y J).
    + right. right. exists (Some y). split; [exact J|]. now apply (IH2 y J).
Qed.

Definition st_good (root : element) : bool :=
  let all := all_elements root in
  forallb (fun e => negb (existsb (fun x => match x with None => true | _ => false end) (e_owned e)) &&
                    negb (existsb (fun x => match x with None => true | _ => false end) (e_cols e))) all &&
  forallb (fun c => match e_ref_to c with
                    | None => true
                    | Some id => existsb (fun t => String.eqb (e_id t) id) all &&
                        forallb (fun t => negb (String.eqb (e_id t) id) ||
                                 match e_parent t with Some p => existsb (fun q => String.eqb (e_id q) p) all | None => false end) all
                    end) all.
Lemma st_good_ok : forall root, st_good root = true -> no_null root /\ references_ok root.
Proof.
  intros root H. apply andb_true_iff in H as [A B]. rewrite forallb_forall in A, B. split.
  - intros e I. apply all_elements_iff, A, andb_true_iff in I as [X Y]. apply negb_true_iff in X, Y.
    split; intros Q.
    + assert (E : existsb (fun x : option element => match x with None => true | _ => false end) (e_owned e) = true)
        by (apply existsb_exists; exists None; split; [exact Q|reflexivity]). congruence.
    + assert (E : existsb (fun x : option element => match x with None => true | _ => false end) (e_cols e) = true)
        by (apply existsb_exists; exists None; split; [exact Q|reflexivity]). congruence.
  - intros c id I E. apply all_elements_iff, B in I. rewrite E in I. apply andb_true_iff in I as [X Y]. split.
    + apply existsb_exists in X as [t [T Q]]. exists t. split; [now apply all_elements_iff|now apply String.eqb_eq].
    + intros t T Q. rewrite forallb_forall in Y. apply all_elements_iff, Y, orb_true_iff in T as [T|T].
      * apply negb_true_iff, String.eqb_neq in T. contradiction.
      * destruct (e_parent t) as [p|]; [|discriminate]. apply existsb_exists in T as [q [T1 T2]].
        exists p, q. split; [reflexivity|]. split; [now apply all_elements_iff|now apply String.eqb_eq].
Qed.
Lemma st_case_ok : no_null (st_project "g1" (JStr "40")) /\ references_ok (st_project "g1" (JStr "40")).
Proof. apply st_good_ok. vm_compute. reflexivity. Qed.

Lemma dangling_panics : exists root, no_null root /\ import_staruml root = Panic.
Proof.
  exists (st_project "x" JNull). split; [|vm_compute; reflexivity].
  intros e I. apply all_elements_iff in I. vm_compute in I.
  repeat (destruct I as [<-|I]; [split; intros Q; cbn in Q; repeat (destruct Q as [Q|Q]; [discriminate|]); destruct Q|]).
  destruct I.
Qed.
Lemma number_ignored : exists root s t c e, no_null root /\ references_ok root /\ import_staruml root = Ok (Some s) /\
  In t (s_tables s) /\ In c (t_cols t) /\ in_tree e root /\ st_column_described root e c /\ ~ number_described e c.
Proof.
  exists (st_project "g1" (JNum "40")). do 4 eexists.
  destruct (st_good_ok (st_project "g1" (JNum "40"))) as [A B]; [vm_compute; reflexivity|].
  split; [exact A|]. split; [exact B|].
  assert (E : import_staruml (st_project "g1" (JNum "40")) = Ok (Some (mkSchema "" "" "1.0"
    [mkTable "group" [mkCol "id" "int64" "the column" 0 0 true true false false "" "" [] None;
                      mkCol "name" "varchar" "the column" 0 0 false false false false "" "" [] None] "" "" "" [];
     mkTable "user" [mkCol "gid" "int64" "the column" 0 0 false false false false "" "" [] (Some (mkRef "group" "id" ""))] "" "" "" []])))
    by (vm_compute; reflexivity).
  split; [exact E|]. split; [left; reflexivity|]. split; [right; left; reflexivity|].
  destruct (import_described _ _ E) as [model [rest [D [_ [_ [_ F]]]]]]. vm_compute in D. injection D as <- <-.
  split; [|split].
  - apply all_elements_iff. vm_compute. do 5 right. left. reflexivity.
  - inversion F as [|? ? ? ? [_ [_ [_ [_ [_ G]]]]] _]; subst. inversion G as [|? ? ? ? _ G1]; subst.
    inversion G1 as [|? ? ? ? G2 _]; subst. exact G2.
  - intros H. specialize (H 40%N ltac:(lia) eq_refl). discriminate H.
Qed.
