(** Adding columns to the tables of a schema (C131) *)
From Coq Require Import String Ascii List NArith Bool Lia.
From Verif.Model Require Import GoString Util Octopus Common Mysql Quickdbd Plantuml Dbml Graphql.
From Verif.Spec Require Import Text Reading LocalSpec WidenSpec.
From Verif.Proofs Require Import StringLemmas ListLemmas LocalProofs.
Import ListNotations.
Local Open Scope string_scope.

Lemma sub_flats : forall {A B} (R : A -> A -> Prop) (f : A -> list B) l l', (forall x y, R x y -> sub (f x) (f y)) ->
  Forall2 R l l' -> sub (flat_map f l) (flat_map f l').
Proof. intros A B R f l l' H F. induction F as [|x y l l' X F IH]; cbn [flat_map]; [constructor|]. apply sub_app; auto. Qed.
Lemma filter_both : forall {A} (R : A -> A -> Prop) (p : A -> bool) l l', (forall x y, R x y -> p y = p x) ->
  Forall2 R l l' -> Forall2 R (filter p l) (filter p l').
Proof.
  intros A R p l l' H F. induction F as [|x y l l' X F IH]; cbn [filter]; [constructor|]. rewrite (H x y X).
  destruct (p x); [constructor|]; assumption.
Qed.
Lemma passes_group : forall g t t', t_group t' = t_group t -> passes (get_table_filter g) t' = passes (get_table_filter g) t.
Proof. intros g t t' E. unfold passes, get_table_filter. destruct (String.eqb g ""); [reflexivity|]. now rewrite E. Qed.
Lemma Forall2_both : forall {A B} (P Q : A -> B -> Prop) l l', Forall2 P l l' -> Forall2 Q l l' -> Forall2 (fun x y => P x y /\ Q x y) l l'.
Proof. intros A B P Q l l' H. induction H; intros K; inversion K; subst; constructor; auto. Qed.

(** ** QuickDBD *)

Lemma quickdbd_widens : forall s s', widened s s' -> only_adds (qdbd_text s) (qdbd_text s').
Proof.
  intros s s' [_ [_ [_ F]]]. unfold qdbd_text. fold newline nl. destruct (s_tables s) as [|t ts] eqn:T.
  - apply sub_none.
  - apply joined_grows; [discriminate|]. eapply sub_flats; [|exact F]. intros x y [N [_ [_ [D [_ S]]]]].
    unfold qdbd_block, qdbd_table. rewrite N, D. do 2 constructor. apply sub_app; [now apply sub_map|apply sub_refl].
Qed.

(** ** DBML *)

Lemma dbml_tables_widen : forall ts ts', Forall2 widened_table ts ts' -> forall d,
  sub (fst (dbml_tables d ts)) (fst (dbml_tables d ts')) /\ sub (snd (dbml_tables d ts)) (snd (dbml_tables d ts')).
Proof.
  intros ts ts' F. induction F as [|t t' ts ts' [N [_ [_ [_ [_ S]]]]] F IH]; intros d; cbn [dbml_tables]; [split; constructor|].
  rewrite N. destruct (IH (t_name t :: d)) as [A B].
  destruct (dbml_tables (t_name t :: d) ts) as [ls rs]. destruct (dbml_tables (t_name t :: d) ts') as [ls' rs']. cbn [fst snd] in *.
  split.
  - constructor. apply sub_app; [now apply sub_map|]. apply sub_app; [apply sub_refl|exact A].
  - apply sub_app; [|exact B]. apply sub_flat2; [|exact S]. intros c _. unfold dbml_deferred. now rewrite N.
Qed.
Lemma dbml_widens : forall f s s', widened s s' -> only_adds (export_dbml f s) (export_dbml f s').
Proof.
  intros f s s' [_ [_ [_ F]]]. unfold export_dbml. fold newline nl.
  destruct (dbml_tables_widen _ _ F []) as [A B].
  destruct (dbml_tables [] (s_tables s)) as [ls rs]. destruct (dbml_tables [] (s_tables s')) as [ls' rs']. cbn [fst snd] in *.
  set (x := join nl (ls ++ [join nl rs])). set (y := join nl (ls' ++ [join nl rs'])).
  assert (X : lines x = (flat_map lines ls ++ lines (join nl rs))%list).
  { unfold x. rewrite lines_joined, flat_map_app by (destruct ls; discriminate). cbn [flat_map]. now rewrite app_nil_r. }
  assert (Y : lines y = (flat_map lines ls' ++ lines (join nl rs'))%list).
  { unfold y. rewrite lines_joined, flat_map_app by (destruct ls'; discriminate). cbn [flat_map]. now rewrite app_nil_r. }
  assert (S : sub (flat_map lines ls) (flat_map lines ls')) by now apply sub_flat.
  destruct rs as [|r rs].
  - assert (Fx : file_lines x = flat_map lines ls).
    { destruct (file_lines_cases x) as [E|[_ N]]; [|exfalso; exact (N _ X)]. rewrite X in E. apply app_inj_tail in E as [E _]. now symmetry. }
    unfold only_adds. rewrite Fx.
    destruct (file_lines_cases y) as [E|[E _]]; rewrite Y in E.
    + destruct (exists_last (lines_not_nil (join nl rs'))) as [z [w Q]]. rewrite Q, app_assoc in E. apply app_inj_tail in E as [<- _].
      rewrite <- (app_nil_r (flat_map lines ls)). apply sub_app; [exact S|apply sub_none].
    + rewrite <- E. rewrite <- (app_nil_r (flat_map lines ls)). apply sub_app; [exact S|apply sub_none].
  - apply lines_adds. rewrite X, Y. apply sub_app; [exact S|].
    rewrite !lines_joined; [now apply sub_flat| |discriminate]. intros ->. inversion B.
Qed.

(** ** PlantUML *)

Definition puml_line (c : column) : string := "    " ++ puml_column c.
Lemma puml_after : forall cs, puml_columns true cs = map puml_line cs.
Proof. induction cs as [|c cs IH]; [reflexivity|]. cbn [puml_columns map]. rewrite andb_false_r. now rewrite IH. Qed.
Lemma puml_keys : forall ks cs, (forall c, In c ks -> c_pk c = true) ->
  puml_columns false (ks ++ cs) = (map puml_line ks ++ puml_columns false cs)%list.
Proof.
  induction ks as [|k ks IH]; intros cs H; [reflexivity|]. cbn [app puml_columns map]. rewrite (H k (or_introl eq_refl)). cbn [negb andb].
  rewrite IH; [reflexivity|]. intros c I. apply H. now right.
Qed.
Definition puml_rest (cs : list column) : list string := match cs with [] => [] | _ => "    --" :: map puml_line cs end.
Lemma puml_plain : forall cs, (forall c, In c cs -> c_pk c = false) -> puml_columns false cs = puml_rest cs.
Proof.
  intros [|c cs] H; [reflexivity|]. cbn [puml_columns puml_rest map]. rewrite (H c (or_introl eq_refl)). cbn [negb andb]. now rewrite puml_after.
Qed.
Lemma parted : forall {A} (p : A -> bool) ks cs, (forall c, In c ks -> p c = true) -> (forall c, In c cs -> p c = false) ->
  filter p (ks ++ cs) = ks /\ filter (fun c => negb (p c)) (ks ++ cs) = cs.
Proof.
  intros A p ks cs K C. induction ks as [|k ks IH]; cbn [app filter].
  - induction cs as [|c cs IH]; [split; reflexivity|]. cbn [filter]. rewrite (C c (or_introl eq_refl)). cbn [negb].
    destruct IH as [X Y]; [intros x I; apply C; now right|]. now rewrite X, Y.
  - rewrite (K k (or_introl eq_refl)). cbn [negb]. destruct IH as [X Y]; [intros x I; apply K; now right|]. now rewrite X, Y.
Qed.
Lemma sub_parts : forall {A} (p : A -> bool) l ks cs, sub l (ks ++ cs) -> (forall c, In c ks -> p c = true) -> (forall c, In c cs -> p c = false) ->
  exists k c, l = (k ++ c)%list /\ sub k ks /\ sub c cs.
Proof.
  intros A p l ks. revert l. induction ks as [|k ks IH]; intros l cs S K C; cbn [app] in S.
  - exists [], l. split; [reflexivity|]. split; [constructor|exact S].
  - inversion S as [|x a b S' E1 E2|x a b S' E1 E2]; subst.
    + destruct (IH a cs S' (fun c I => K c (or_intror I)) C) as [k' [c' [-> [X Y]]]]. exists (k :: k'), c'.
      split; [reflexivity|]. split; [now constructor|exact Y].
    + destruct (IH l cs S' (fun c I => K c (or_intror I)) C) as [k' [c' [-> [X Y]]]]. exists k', c'.
      split; [reflexivity|]. split; [now constructor|exact Y].
Qed.
Lemma puml_columns_widen : forall cs cs' ks' ps', sub cs cs' -> cs' = (ks' ++ ps')%list -> (forall c, In c ks' -> c_pk c = true) ->
  (forall c, In c ps' -> c_pk c = false) -> sub (puml_columns false cs) (puml_columns false cs').
Proof.
  intros cs cs' ks' ps' S -> K P. destruct (sub_parts c_pk cs ks' ps' S K P) as [ks [ps [-> [X Y]]]].
  rewrite !puml_keys, !puml_plain.
  - apply sub_app; [now apply sub_map|]. destruct Y as [|x l l' Y|x l l' Y]; [constructor| |].
    + cbn [puml_rest map]. do 2 constructor. now apply sub_map.
    + destruct l as [|y l]; [apply sub_none|]. cbn [puml_rest]. constructor. cbn [map]. constructor.
      change (sub (map puml_line (y :: l)) (map puml_line l')). now apply sub_map.
  - exact P.
  - intros c I. apply P. now apply (sub_in _ _ c Y).
  - exact K.
  - intros c I. apply K. now apply (sub_in _ _ c X).
Qed.
Lemma plantuml_widens : forall s s', widened s s' -> (forall t, In t (s_tables s') -> key_first t) ->
  only_adds (puml_text s) (puml_text s').
Proof.
  intros s s' [_ [_ [_ F]]] K. unfold puml_text. fold newline nl. apply joined_grows; [discriminate|].
  constructor. apply sub_app; [|apply sub_app; [|apply sub_refl]].
  - assert (G : Forall2 (fun t t' => widened_table t t' /\ key_first t') (s_tables s) (s_tables s')).
    { clear -F K. induction F as [|t t' ts ts' W F IH]; constructor.
      - split; [exact W|]. apply K. now left.
      - apply IH. intros u I. apply K. now right. }
    eapply sub_flats; [|exact G]. intros t t' [[N [_ [_ [_ [_ S]]]]] [ks [ps [E [P Q]]]]]. unfold puml_entity. rewrite N. constructor.
    apply sub_app; [|apply sub_refl]. now apply (puml_columns_widen _ _ ks ps).
  - eapply sub_flats; [|exact F]. intros t t' [N [_ [_ [_ [_ S]]]]]. unfold puml_refs. rewrite N. now apply sub_flat.
Qed.

(** ** GraphQL *)

Lemma graphql_widens : forall camel lower_camel plural g remove pm s s', widened s s' ->
  Forall2 key_kept (s_tables s) (s_tables s') ->
  only_adds (gql_text camel lower_camel plural (get_table_filter g) remove pm s)
    (gql_text camel lower_camel plural (get_table_filter g) remove pm s').
Proof.
  intros camel lower_camel plural g remove pm s s' [_ [_ [_ F]]] K. unfold gql_text. cbv zeta. fold newline nl.
  pose proof (Forall2_both _ _ _ _ F K) as G. clear F K.
  apply (filter_both _ (passes (get_table_filter g))) in G; [|intros x y [[_ [E _]] _]; now apply passes_group].
  unfold gql_classes.
  set (ts := filter (passes (get_table_filter g)) (s_tables s)) in *. set (ts' := filter (passes (get_table_filter g)) (s_tables s')) in *.
  clearbody ts ts'.
  assert (C : forall t t', widened_table t t' /\ key_kept t t' ->
    gc_name (gql_class camel lower_camel remove pm t') = gc_name (gql_class camel lower_camel remove pm t) /\
    sub (gc_fields (gql_class camel lower_camel remove pm t)) (gc_fields (gql_class camel lower_camel remove pm t'))).
  { intros t t' [[N [P [L [_ [_ S]]]]] K]. unfold gql_class. cbn [gc_name gc_fields]. split.
    - unfold gql_class_name. now rewrite N, P, L.
    - unfold key_kept, key_of in K. rewrite K. now apply sub_map. }
  apply joined_grows; [discriminate|]. do 2 apply sub_keep. apply sub_app; [|apply sub_app; [apply sub_refl|]].
  - replace (map (gql_query_line lower_camel plural) (map (gql_class camel lower_camel remove pm) ts'))
      with (map (gql_query_line lower_camel plural) (map (gql_class camel lower_camel remove pm) ts)); [apply sub_refl|].
    induction G as [|t t' ts ts' R G IH]; [reflexivity|]. cbn [map]. rewrite IH. f_equal. unfold gql_query_line.
    now rewrite (proj1 (C t t' R)).
  - induction G as [|t t' ts ts' R G IH]; [constructor|]. cbn [map flat_map]. apply sub_app; [|exact IH].
    destruct (C t t' R) as [N S]. unfold gql_class_lines. rewrite N. constructor. apply sub_app; [now apply sub_map|apply sub_refl].
Qed.

(** ** MySQL *)

Lemma comma_app : forall a b, b <> [] -> comma_except_last (app a b) = app (map (fun d => (d ++ ",")%string) a) (comma_except_last b).
Proof.
  induction a as [|x a IH]; intros b N; [reflexivity|]. cbn [app map]. rewrite <- (IH b N).
  destruct (a ++ b)%list eqn:E; [|reflexivity]. apply app_eq_nil in E as [_ E]. congruence.
Qed.
Lemma mysql_widens : forall g suffix s s', widened s s' -> Forall2 keys_kept (s_tables s) (s_tables s') ->
  only_adds (my_export (get_table_filter g) suffix s) (my_export (get_table_filter g) suffix s').
Proof.
  intros g suffix s s' [_ [_ [_ F]]] K. apply lines_adds.
  pose proof (Forall2_both _ _ _ _ F K) as G. clear F K.
  apply (filter_both _ (passes (get_table_filter g))) in G; [|intros x y [[_ [E _]] _]; now apply passes_group].
  set (body := fun t : table => "CREATE TABLE IF NOT EXISTS " ++ t_name t ++ " (" ++ nl ++
    String.concat "" (map (fun d => "  " ++ d ++ nl) (comma_except_last (table_definitions suffix t))) ++ ");").
  assert (E : forall u, my_export (get_table_filter g) suffix u = String.concat "" (map (fun t => body t ++ nl) (filter (passes (get_table_filter g)) (s_tables u))) ++ "").
  { intros u. unfold my_export. rewrite app_nil_r_s. f_equal. apply map_ext. intros t. unfold export_table, body.
    rewrite !app_assoc_s. reflexivity. }
  assert (B : forall t, lines (body t) = (lines ("CREATE TABLE IF NOT EXISTS " ++ t_name t ++ " (") ++
    flat_map (fun d => lines ("  " ++ d)) (comma_except_last (table_definitions suffix t)) ++ [");"])%list).
  { intros t. unfold body.
    replace (map (fun d => "  " ++ d ++ nl) (comma_except_last (table_definitions suffix t)))
      with (map (fun d => ("  " ++ d) ++ nl) (comma_except_last (table_definitions suffix t))) by (apply map_ext; intros d; now rewrite app_assoc_s).
    set (ds := comma_except_last (table_definitions suffix t)).
    replace ("CREATE TABLE IF NOT EXISTS " ++ t_name t ++ " (" ++ nl ++ String.concat "" (map (fun d => ("  " ++ d) ++ nl) ds) ++ ");")
      with (("CREATE TABLE IF NOT EXISTS " ++ t_name t ++ " (") ++ nl ++ String.concat "" (map (fun d => ("  " ++ d) ++ nl) ds) ++ ");")
      by (now rewrite !app_assoc_s).
    rewrite lines_nl, lines_pieces. reflexivity. }
  rewrite !E, !lines_pieces. apply sub_app; [|apply sub_refl]. eapply sub_flats; [|exact G].
  intros t t' [[N [_ [_ [_ [X S]]]]] [K [U L]]]. rewrite !B, N. apply sub_app; [apply sub_refl|]. apply sub_app; [|apply sub_refl].
  apply sub_flat. unfold table_definitions. unfold key_of, unique_of in *. rewrite K, U, N, X. cbv zeta.
  assert (A : forall z, z <> [] -> sub (comma_except_last (app (map column_definition (t_cols t)) z))
    (comma_except_last (app (map column_definition (t_cols t')) z))).
  { intros z Z. rewrite !comma_app by exact Z. apply sub_app; [|apply sub_refl]. apply sub_map. now apply sub_map. }
  apply A. destruct (filter c_pk (t_cols t)); [|discriminate]. destruct (filter c_uq (t_cols t)); [|discriminate].
  destruct (t_indices t); [|discriminate]. destruct L as [L|[L|L]]; congruence.
Qed.
