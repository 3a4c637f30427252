(** The three texts for drawing tools show the same *)
From Coq Require Import String Ascii List NArith Bool Permutation.
From Verif.Model Require Import GoString Octopus Dbml Plantuml Quickdbd.
From Verif.Spec Require Import Text Reading OctopusSpec DbmlSpec PlantumlSpec QuickdbdSpec DiagramSpec.
From Verif.Proofs Require Import DbmlProofs PlantumlProofs QuickdbdProofs.
Import ListNotations.
Local Open Scope string_scope.

Definition col_shown (c : column) : shown := mkShown (c_name c) (c_type c) (c_pk c) (c_uq c) (c_notnull c).
Definition true_picture (ts : list table) : picture := map (fun t => (t_name t, map col_shown (t_cols t))) ts.

(** *** QuickDBD *)
Lemma qdbd_shows : forall ts, qdbd_picture (map qtable_of ts) = true_picture ts.
Proof.
  intros ts. unfold qdbd_picture, true_picture. rewrite map_map. apply map_ext. intros t. unfold qtable_of. cbn [q_tname q_cols].
  f_equal. rewrite map_map. apply map_ext. intros c. unfold qdbd_shown, col_shown, qcolumn_of. cbn. rewrite negb_involutive. reflexivity.
Qed.

Lemma flat_map_map : forall A B C (f : A -> B) (g : B -> list C) l, flat_map g (map f l) = flat_map (fun x => g (f x)) l.
Proof. intros A B C f g l. induction l as [|x l IH]; [reflexivity|]. cbn. rewrite IH. reflexivity. Qed.
Lemma flat_map_same : forall A B (f g : A -> list B) l, (forall x, f x = g x) -> flat_map f l = flat_map g l.
Proof. intros A B f g l H. induction l as [|x l IH]; [reflexivity|]. cbn. rewrite H, IH. reflexivity. Qed.

Lemma qdbd_links_of : forall s, qdbd_links (map qtable_of (s_tables s)) = schema_links s.
Proof.
  intros s. unfold qdbd_links, schema_links. rewrite flat_map_map. apply flat_map_same. intros t.
  unfold qtable_of, table_links. cbn [q_tname q_cols]. rewrite flat_map_map. apply flat_map_same. intros c.
  unfold qcolumn_of, column_links. cbn [q_fk q_name]. destruct (c_ref c); reflexivity.
Qed.

(** *** PlantUML *)
Lemma mark_iff : forall m marks b, (In m marks <-> b = true) -> has_mark m marks = b.
Proof.
  intros m marks b H. unfold has_mark. destruct b.
  - apply existsb_exists. exists m. split; [apply H; reflexivity | apply String.eqb_refl].
  - destruct (existsb (String.eqb m) marks) eqn:E; [|reflexivity]. apply existsb_exists in E as [x [I E]].
    apply String.eqb_eq in E. subst x. apply H in I. discriminate.
Qed.
Lemma attr_shows : forall c r, attr_described c r -> puml_shown r = [col_shown c].
Proof.
  intros c [|mand n ty marks] D; [destruct D|]. destruct D as (-> & -> & -> & _ & K & U & _). cbn.
  rewrite (mark_iff _ _ _ K), (mark_iff _ _ _ U). reflexivity.
Qed.
Lemma attrs_show : forall cs rs, Forall2 attr_described cs rs -> flat_map puml_shown rs = map col_shown cs.
Proof.
  intros cs rs F. induction F as [|c r cs rs D F IH]; [reflexivity|]. cbn [flat_map map]. rewrite (attr_shows c r D), IH. reflexivity.
Qed.
Lemma entity_shows : forall t e, entity_described t e -> (p_name e, flat_map puml_shown (p_rows e)) = (t_name t, map col_shown (t_cols t)).
Proof.
  intros t e [N (keys & rest & krows & rrows & E & _ & FK & FR & M)]. rewrite N, E, map_app. f_equal.
  destruct rest as [|c rest].
  - rewrite M, (attrs_show _ _ FK), app_nil_r. reflexivity.
  - destruct M as [_ ->]. rewrite flat_map_app. cbn [flat_map puml_shown app]. rewrite (attrs_show _ _ FK), (attrs_show _ _ FR). reflexivity.
Qed.
Lemma puml_shows : forall ts es, Forall2 entity_described ts es -> puml_picture es = true_picture ts.
Proof.
  intros ts es F. induction F as [|t e ts es D F IH]; [reflexivity|]. unfold puml_picture, true_picture in *. cbn [map].
  rewrite (entity_shows t e D), IH. reflexivity.
Qed.

Definition fk_of (e : string) (r : prow) : list (string * string) :=
  match r with PAttr _ n _ marks => if has_mark "<<FK>>" marks then [(e, n)] else [] | PLine => [] end.
Lemma fk_shows : forall t c r, attr_described c r -> fk_of (t_name t) r = map (fun l => (l_table l, l_column l)) (column_links t c).
Proof.
  intros t c [|mand n ty marks] D; [destruct D|]. destruct D as (_ & -> & _ & _ & _ & _ & F). cbn [fk_of]. unfold column_links.
  destruct (c_ref c) as [r|].
  - rewrite (mark_iff _ _ true). + reflexivity. + split; [reflexivity|]. intros _. apply F. discriminate.
  - rewrite (mark_iff _ _ false). + reflexivity. + split; [|discriminate]. intros I. apply F in I. elim I. reflexivity.
Qed.
Lemma map_flat_map : forall A B C (f : A -> list B) (g : B -> C) l, map g (flat_map f l) = flat_map (fun x => map g (f x)) l.
Proof. intros A B C f g l. induction l as [|x l IH]; [reflexivity|]. cbn. rewrite map_app, IH. reflexivity. Qed.
Lemma fks_show : forall t cs rs, Forall2 attr_described cs rs ->
  flat_map (fk_of (t_name t)) rs = map (fun l => (l_table l, l_column l)) (flat_map (column_links t) cs).
Proof.
  intros t cs rs F. induction F as [|c r cs rs D F IH]; [reflexivity|]. cbn [flat_map]. rewrite map_app, <- IH, (fk_shows t c r D). reflexivity.
Qed.
Lemma entity_fks : forall t e, entity_described t e ->
  flat_map (fk_of (p_name e)) (p_rows e) = map (fun l => (l_table l, l_column l)) (table_links t).
Proof.
  intros t e [N (keys & rest & krows & rrows & E & _ & FK & FR & M)]. rewrite N. unfold table_links. rewrite E, flat_map_app, map_app.
  destruct rest as [|c rest].
  - rewrite M, (fks_show t _ _ FK). cbn. rewrite app_nil_r. reflexivity.
  - destruct M as [_ ->]. rewrite flat_map_app. change (flat_map (fk_of (t_name t)) (PLine :: rrows)) with (flat_map (fk_of (t_name t)) rrows).
    rewrite (fks_show t _ _ FK), (fks_show t _ _ FR). reflexivity.
Qed.
Lemma puml_marks : forall ts es, Forall2 entity_described ts es ->
  puml_marked es = map (fun l => (l_table l, l_column l)) (flat_map table_links ts).
Proof.
  intros ts es F. induction F as [|t e ts es D F IH]; [reflexivity|].
  change (puml_marked (e :: es)) with (flat_map (fk_of (p_name e)) (p_rows e) ++ puml_marked es)%list.
  cbn [flat_map]. rewrite map_app, IH, (entity_fks t e D). reflexivity.
Qed.

(** *** DBML *)
Lemma setting_iff : forall (p : setting -> bool) x l b, (forall y, p y = true <-> y = x) -> (In x l <-> b = true) -> existsb p l = b.
Proof.
  intros p x l b P H. destruct b.
  - apply existsb_exists. exists x. split; [apply H | apply P]; reflexivity.
  - destruct (existsb p l) eqn:E; [|reflexivity]. apply existsb_exists in E as [y [I E]]. apply P in E. subst y. apply H in I. discriminate.
Qed.
Lemma bare_app : forall s x, bare_type s = s -> bare_type (s ++ "(" ++ x) = s.
Proof.
  induction s as [|c s IH]; intros x B; [reflexivity|]. cbn [bare_type append] in *. destruct (Ascii.eqb c "("); [discriminate|].
  injection B as B. change ("(" ++ x) with (String "(" x) in IH. rewrite IH; [reflexivity | exact B].
Qed.
Lemma bare_octopus : forall ty, In ty octopus_types -> bare_type ty = ty.
Proof.
  intros ty I. assert (F : forallb (fun x => String.eqb (bare_type x) x) octopus_types = true) by (vm_compute; reflexivity).
  rewrite forallb_forall in F. apply String.eqb_eq. apply F. exact I.
Qed.
Lemma dcolumn_shows : forall c d, In (c_type c) octopus_types -> column_described c d -> dbml_shown d = col_shown c.
Proof.
  intros c d I (N & T & K & U & NN & _). unfold dbml_shown, col_shown. rewrite N.
  rewrite (setting_iff is_pk SPk _ (c_pk c)), (setting_iff is_unique SUnique _ (c_uq c)), (setting_iff is_not_null SNotNull _ (c_notnull c));
    try assumption; try (intros []; cbn; split; congruence).
  assert (B : bare_type (d_type d) = c_type c).
  { pose proof (bare_octopus _ I) as B. rewrite T. destruct (c_size c); [exact B|]. destruct (c_scale c); apply bare_app; exact B. }
  rewrite B. reflexivity.
Qed.
Lemma dtables_show : forall above ts ds, (forall t c, In t ts -> In c (t_cols t) -> In (c_type c) octopus_types) ->
  tables_described above ts ds -> map (fun t => (d_tname t, map dbml_shown (d_cols t))) ds = true_picture ts.
Proof.
  intros above ts ds H D. induction D as [above | above t ts d ds N F _ D IH]; [reflexivity|].
  unfold true_picture in *. cbn [map]. rewrite IH; [|intros t' c I; apply H; right; exact I]. rewrite N. f_equal. f_equal.
  assert (G : forall c, In c (t_cols t) -> In (c_type c) octopus_types) by (intros c; apply H; left; reflexivity).
  clear - F G. induction F as [|c x cs xs D F IH]; [reflexivity|]. cbn [map].
  rewrite (dcolumn_shows c x); [|apply G; left; reflexivity | exact D]. rewrite IH; [reflexivity|]. intros y I. apply G. right. exact I.
Qed.

Lemma dbml_tables_of : forall ds ls, dbml_tables (map ITable ds ++ map IRef ls) = ds.
Proof.
  intros ds ls. unfold dbml_tables. rewrite flat_map_app, !flat_map_map.
  replace (flat_map (fun x : link => []) ls) with (@nil dtable) by (induction ls; [reflexivity | assumption]).
  rewrite app_nil_r. induction ds as [|d ds IH]; [reflexivity|]. cbn [flat_map app]. rewrite IH. reflexivity.
Qed.
Lemma dbml_refs_of : forall ds ls, flat_map (fun i => match i with ITable _ => [] | IRef x => [x] end) (map ITable ds ++ map IRef ls) = ls.
Proof.
  intros ds ls. rewrite flat_map_app, !flat_map_map.
  replace (flat_map (fun x : dtable => []) ds) with (@nil link) by (induction ds; [reflexivity | assumption]).
  cbn [app]. induction ls as [|d ls IH]; [reflexivity|]. cbn [flat_map app]. rewrite IH. reflexivity.
Qed.

Lemma columns_types : forall s, dbml_ok s -> forall t c, In t (s_tables s) -> In c (t_cols t) -> In (c_type c) octopus_types.
Proof.
  intros s [_ H] t c I J. assert (K : In c (columns_of s)) by (unfold columns_of; apply in_flat_map; exists t; split; assumption).
  destruct (H c K) as [[_ [T _]] _]. exact T.
Qed.

(** remarks *)
Lemma find_flat : forall (A : Type) (f : A -> list string) l x (b : bool),
  (forall a v, In a l -> In v (f a) -> b = true /\ v = x) -> (b = true -> exists a, In a l /\ In x (f a)) ->
  find (fun _ => true) (flat_map f l) = if b then Some x else None.
Proof.
  intros A f l x b H E. destruct (flat_map f l) as [|v vs] eqn:F; cbn.
  - destruct b; [|reflexivity]. destruct (E eq_refl) as [a [I J]]. assert (K : In x (flat_map f l)) by (apply in_flat_map; exists a; split; assumption).
    rewrite F in K. destruct K.
  - assert (K : In v (flat_map f l)) by (rewrite F; left; reflexivity). apply in_flat_map in K as [a [I J]].
    destruct (H a v I J) as [-> ->]. reflexivity.
Qed.
Definition col_remarks (c : column) := (if_set (c_default c), if_set (c_desc c)).
Lemma if_set_dec : forall s, if_set s = if negb (String.eqb s "") then Some s else None.
Proof. intros []; reflexivity. Qed.
Lemma nonempty_iff : forall s, negb (String.eqb s "") = true <-> s <> "".
Proof. intros s. rewrite negb_true_iff, String.eqb_neq. reflexivity. Qed.
Lemma dremarks : forall c d, column_described c d -> dbml_remarks d = col_remarks c.
Proof.
  intros c d (_ & _ & _ & _ & _ & D & N & _). unfold dbml_remarks, col_remarks. rewrite !if_set_dec. f_equal; apply find_flat.
  - intros x v I J. destruct x; cbn in J; try contradiction. destruct J as [<-|[]]. apply D in I as [S [[_ ->]|[_ ->]]]; split; cbn; try reflexivity; apply nonempty_iff; exact S.
  - intros B. apply nonempty_iff in B.
    assert (T : text_type (c_type c) \/ ~ text_type (c_type c)).
    { unfold text_type. destruct (string_dec (c_type c) "char") as [E|E]; [left; left; exact E|].
      destruct (string_dec (c_type c) "varchar") as [G|G]; [left; right; exact G | right; intros [X|X]; contradiction]. }
    destruct T as [T|T].
    + exists (SDefault (DText (c_default c))). split; [apply D; split; [exact B | left; split; [exact T | reflexivity]] | left; reflexivity].
    + exists (SDefault (DLiteral (c_default c))). split; [apply D; split; [exact B | right; split; [exact T | reflexivity]] | left; reflexivity].
  - intros x v I J. destruct x; cbn in J; try contradiction. destruct J as [<-|[]]. apply N in I as [S ->]. split; [apply nonempty_iff; exact S | reflexivity].
  - intros B. apply nonempty_iff in B. exists (SNote (c_desc c)). split; [apply N; split; [exact B | reflexivity] | left; reflexivity].
Qed.
Lemma remarks_of : forall above ts ds, tables_described above ts ds ->
  map (fun t => map dbml_remarks (d_cols t)) ds = map (fun t => map col_remarks (t_cols t)) ts.
Proof.
  intros above ts ds D. induction D as [above | above t ts d ds N F _ D IH]; [reflexivity|]. cbn [map]. rewrite IH. f_equal.
  clear - F. induction F as [|c x cs xs D F IH]; [reflexivity|]. cbn [map]. rewrite (dremarks c x D), IH. reflexivity.
Qed.
Lemma qremarks_of : forall ts, map (fun t => map qdbd_remarks (q_cols t)) (map qtable_of ts) = map (fun t => map col_remarks (t_cols t)) ts.
Proof. intros ts. rewrite map_map. apply map_ext. intros t. cbn [qtable_of q_cols]. rewrite map_map. apply map_ext. reflexivity. Qed.

Lemma diagrams_agree : forall f s, drawable s -> exists d e r q,
  read_dbml (export_dbml f s) = Some d /\ read_puml (puml_text s) = Some (e, r) /\ read_qdbd (qdbd_text s) = Some q /\
  dbml_picture d = puml_picture e /\ puml_picture e = qdbd_picture q /\
  Permutation (dbml_links d) (qdbd_links q) /\ r = map relation_described (qdbd_links q) /\
  puml_marked e = map (fun l => (l_table l, l_column l)) (qdbd_links q) /\
  map (fun t => map dbml_remarks (d_cols t)) (dbml_tables d) = map (fun t => map qdbd_remarks (q_cols t)) q.
Proof.
  intros f s (D & P & Q). destruct (dbml_reads f s D) as (ds & ls & RD & TD & L). destruct (puml_reads s P) as (es & RP & FE).
  exists (map ITable ds ++ map IRef ls)%list, es, (map relation_described (schema_links s)), (map qtable_of (s_tables s)).
  split; [exact RD|]. split; [exact RP|]. split; [exact (qdbd_reads s Q)|].
  rewrite (puml_shows _ _ FE), qdbd_shows, qdbd_links_of, (puml_marks _ _ FE).
  unfold dbml_picture, dbml_links. rewrite dbml_tables_of, dbml_refs_of.
  split; [exact (dtables_show _ _ _ (columns_types s D) TD)|]. split; [reflexivity|]. split; [exact L|]. split; [reflexivity|]. split; [reflexivity|].
  rewrite (remarks_of _ _ _ TD), qremarks_of. reflexivity.
Qed.
