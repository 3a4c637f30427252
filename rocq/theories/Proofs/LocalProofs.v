(** Adding tables to a schema (C97, C98) *)
From Coq Require Import String Ascii List NArith ZArith Bool Lia Arith Sorting.Permutation Sorting.Sorted.
From Verif.Model Require Import GoString Util Octopus Common Mysql Quickdbd Plantuml Dbml Graphql Protobuf Gorm Xlsx.
From Verif.Model Require Sqlalchemy Jpa DiffCore Liquibase.
From Verif.Spec Require Import Text Reading Order OctopusSpec CommonSpec DiffSpec GormSpec LocalSpec.
From Verif.Proofs Require Import StringLemmas ListLemmas UtilProofs ReadingProofs.
From Verif.Proofs Require GormProofs OctopusProofs DiffCoreProofs.
Import ListNotations.
Local Open Scope string_scope.

(** ** Lists *)

Lemma sub_refl : forall {A} (l : list A), sub l l.
Proof. induction l; constructor; assumption. Qed.
Lemma sub_none : forall {A} (l : list A), sub [] l.
Proof. induction l; constructor; assumption. Qed.
Lemma sub_app : forall {A} (a a' b b' : list A), sub a a' -> sub b b' -> sub (a ++ b)%list (a' ++ b')%list.
Proof. intros A a a' b b' H K. induction H; cbn [app]; [exact K| |]; constructor; assumption. Qed.
Lemma sub_left : forall {A} (a a' b : list A), sub a a' -> sub a (b ++ a')%list.
Proof. intros A a a' b H. induction b; cbn [app]; [exact H|]. now constructor. Qed.
Lemma sub_in : forall {A} (l l' : list A) x, sub l l' -> In x l -> In x l'.
Proof. intros A l l' x H. induction H; cbn; tauto. Qed.
Lemma sub_filter : forall {A} (f : A -> bool) l l', sub l l' -> sub (filter f l) (filter f l').
Proof. intros A f l l' H. induction H; cbn [filter]; [constructor| |]; destruct (f x); try constructor; assumption. Qed.
Lemma sub_map2 : forall {A B} (f g : A -> B) l l', (forall x, In x l -> f x = g x) -> sub l l' -> sub (map f l) (map g l').
Proof.
  intros A B f g l l' E H. induction H as [|x l l' H IH|x l l' H IH]; cbn [map]; [constructor| |].
  - rewrite (E x) by now left. constructor. apply IH. intros y I. apply E. now right.
  - constructor. now apply IH.
Qed.
Lemma sub_map : forall {A B} (f : A -> B) l l', sub l l' -> sub (map f l) (map f l').
Proof. intros. now apply sub_map2. Qed.
Lemma sub_flat2 : forall {A B} (f g : A -> list B) l l', (forall x, In x l -> f x = g x) -> sub l l' ->
  sub (flat_map f l) (flat_map g l').
Proof.
  intros A B f g l l' E H. induction H as [|x l l' H IH|x l l' H IH]; cbn [flat_map]; [constructor| |].
  - rewrite (E x) by now left. apply sub_app; [apply sub_refl|]. apply IH. intros y I. apply E. now right.
  - apply sub_left. now apply IH.
Qed.
Lemma sub_flat : forall {A B} (f : A -> list B) l l', sub l l' -> sub (flat_map f l) (flat_map f l').
Proof. intros. now apply sub_flat2. Qed.
Lemma sub_length : forall {A} (l l' : list A), sub l l' -> (length l <= length l')%nat.
Proof. intros A l l' H. induction H; cbn; lia. Qed.

(** sorted lists without repetition *)
Lemma strict_sub : forall l l', strictly_increasing l -> strictly_increasing l' -> incl l l' -> sub l l'.
Proof.
  intros l l'. revert l. induction l' as [|y l' IH]; intros l H K I.
  - destruct l as [|x l]; [constructor|]. destruct (I x (or_introl eq_refl)).
  - destruct l as [|x l]; [apply sub_none|]. unfold strictly_increasing in *.
    apply StronglySorted_inv in H as [H F]. pose proof K as K0. apply StronglySorted_inv in K as [K G].
    destruct (string_dec x y) as [->|N].
    + constructor. apply IH; try assumption. intros z J. destruct (I z (or_intror J)) as [<-|L]; [|exact L].
      rewrite Forall_forall in F. specialize (F _ J). exfalso. revert F. apply bytes_lt_irrefl.
    + constructor. apply IH; [now constructor|assumption|]. intros z [<-|J].
      * destruct (I x (or_introl eq_refl)) as [E|L]; [congruence|exact L].
      * destruct (I z (or_intror J)) as [<-|L]; [|exact L]. exfalso.
        destruct (I x (or_introl eq_refl)) as [E|L]; [congruence|].
        rewrite Forall_forall in F, G. specialize (F _ J). specialize (G _ L). apply (bytes_lt_irrefl x). eapply bytes_lt_trans; eassumption.
Qed.

Lemma add_nodup : forall s v, NoDup s -> NoDup (ss_add s v).
Proof.
  intros s v D. unfold ss_add, ss_contains. destruct (str_in v s) eqn:E; [exact D|].
  apply (Permutation_NoDup (Permutation_cons_append s v)). constructor; [|exact D]. intros I.
  apply str_in_iff in I. congruence.
Qed.
Lemma add_all_nodup : forall vs s, NoDup s -> NoDup (ss_add_all s vs).
Proof. unfold ss_add_all. induction vs as [|v vs IH]; intros s D; cbn [fold_left]; [exact D|]. apply IH. now apply add_nodup. Qed.
Lemma slice_sub : forall s s', NoDup s -> NoDup s' -> incl s s' -> sub (ss_slice s) (ss_slice s').
Proof.
  intros s s' D D' I.
  destruct (ss_slice_ord_spec (fun l => l) s (fun l => Permutation_refl l) D) as [A B].
  destruct (ss_slice_ord_spec (fun l => l) s' (fun l => Permutation_refl l) D') as [A' B'].
  apply strict_sub; [exact A|exact A'|]. intros x J. apply B'. apply B in J. rewrite ss_contains_iff in *. now apply I.
Qed.

(** ** Lines *)

Definition nl : string := String newline "".
Lemma lines_not_nil : forall s, lines s <> [].
Proof. destruct s as [|c s]; cbn [lines]; [discriminate|]. destruct (Ascii.eqb c newline); [discriminate|]. destruct (lines s); discriminate. Qed.
Lemma lines_nl : forall a b, lines (a ++ nl ++ b) = (lines a ++ lines b)%list.
Proof.
  intros a b. induction a as [|c a IH]; [reflexivity|]. cbn [append lines]. destruct (Ascii.eqb c newline).
  - cbn [app]. now rewrite IH.
  - rewrite IH. pose proof (lines_not_nil a). destruct (lines a); [congruence|reflexivity].
Qed.
Lemma lines_joined : forall l, l <> [] -> lines (join nl l) = flat_map lines l.
Proof.
  induction l as [|x [|y l] IH]; intros N; [congruence| |].
  - cbn [join flat_map]. now rewrite app_nil_r.
  - change (join nl (x :: y :: l)) with (x ++ nl ++ join nl (y :: l)). rewrite lines_nl, IH by discriminate. reflexivity.
Qed.
(** pieces that end with the end of a line *)
Lemma lines_pieces : forall {A} (f : A -> string) l r, lines (String.concat "" (map (fun x => f x ++ nl) l) ++ r) =
  (flat_map (fun x => lines (f x)) l ++ lines r)%list.
Proof.
  intros A f l r. induction l as [|x l IH]; [reflexivity|]. cbn [map flat_map]. rewrite <- app_assoc, <- IH.
  assert (E : String.concat "" ((f x ++ nl) :: map (fun x => f x ++ nl) l) = (f x ++ nl) ++ String.concat "" (map (fun x => f x ++ nl) l)).
  { cbn [String.concat]. destruct (map (fun x => f x ++ nl) l); [now rewrite app_nil_r_s|reflexivity]. }
  rewrite E, !app_assoc_s, lines_nl. reflexivity.
Qed.
(** pieces that begin with one *)
Lemma lines_more : forall {A} (f : A -> string) l a r, lines (a ++ String.concat "" (map (fun x => nl ++ f x) l) ++ nl ++ r) =
  (lines a ++ flat_map (fun x => lines (f x)) l ++ lines r)%list.
Proof.
  intros A f l. induction l as [|x l IH]; intros a r; [apply lines_nl|]. cbn [map flat_map].
  assert (E : String.concat "" ((nl ++ f x) :: map (fun x => nl ++ f x) l) = nl ++ f x ++ String.concat "" (map (fun x => nl ++ f x) l)).
  { cbn [String.concat]. destruct (map (fun x => nl ++ f x) l); [now rewrite app_nil_r_s|now rewrite app_assoc_s]. }
  rewrite E, !app_assoc_s, lines_nl, IH, !app_assoc. reflexivity.
Qed.

Lemma sub_snoc : forall {A} (l l' : list A), sub l l' -> forall b z, l' = (b ++ [z])%list ->
  (exists a, l = (a ++ [z])%list /\ sub a b) \/ sub l b.
Proof.
  intros A l l' H. induction H as [|x l l' H IH|x l l' H IH]; intros b z E.
  - destruct b; discriminate.
  - destruct b as [|y b]; cbn [app] in E.
    + injection E as -> ->. inversion H. left. exists []. split; [reflexivity|constructor].
    + injection E as -> ->. destruct (IH b z eq_refl) as [[a [-> S]]|S].
      * left. exists (y :: a). split; [reflexivity|now constructor].
      * right. now constructor.
  - destruct b as [|y b]; cbn [app] in E.
    + injection E as -> ->. right. exact H.
    + injection E as -> ->. destruct (IH b z eq_refl) as [[a [-> S]]|S].
      * left. exists a. split; [reflexivity|now constructor].
      * right. now constructor.
Qed.
Lemma file_lines_cases : forall x, lines x = (file_lines x ++ [""])%list \/ lines x = file_lines x /\ (forall a, lines x <> (a ++ [""])%list).
Proof.
  intros x. unfold file_lines. destruct (rev (lines x)) as [|l r] eqn:E.
  - right. split; [reflexivity|]. intros a Q. rewrite Q, rev_app_distr in E. discriminate.
  - apply (f_equal (@rev string)) in E. rewrite rev_involutive in E. cbn [rev] in E. destruct l as [|c l].
    + left. exact E.
    + right. split; [reflexivity|]. intros a Q. rewrite E in Q. apply app_inj_tail in Q as [_ Q]. discriminate.
Qed.
Lemma file_lines_sub : forall x, sub (file_lines x) (lines x).
Proof.
  intros x. destruct (file_lines_cases x) as [E|[E _]]; rewrite E at 1; [|apply sub_refl].
  rewrite <- (app_nil_r (file_lines x)) at 1. apply sub_app; [apply sub_refl|apply sub_none].
Qed.
Lemma sub_trans : forall {A} (a b c : list A), sub a b -> sub b c -> sub a c.
Proof.
  intros A a b c H K. revert a H. induction K as [|x b c K IH|x b c K IH]; intros a H; [exact H| |].
  - inversion H; subst; constructor; now apply IH.
  - constructor. now apply IH.
Qed.
Lemma lines_adds : forall x y, sub (lines x) (lines y) -> only_adds x y.
Proof.
  intros x y H. unfold only_adds. destruct (file_lines_cases y) as [E|[E N]].
  - destruct (sub_snoc _ _ H _ _ E) as [[a [F S]]|S].
    + destruct (file_lines_cases x) as [G|[_ G]]; [|destruct (G _ F)]. rewrite F in G. apply app_inj_tail in G as [<- _]. exact S.
    + exact (sub_trans _ _ _ (file_lines_sub x) S).
  - rewrite <- E. exact (sub_trans _ _ _ (file_lines_sub x) H).
Qed.

(** ** MySQL, QuickDBD, PlantUML, DBML, GraphQL *)

Lemma mysql_grows : forall f suffix s s', grown s s' -> only_adds (my_export f suffix s) (my_export f suffix s').
Proof.
  intros f suffix s s' [_ [_ [_ G]]]. apply lines_adds.
  set (body := fun t : table => "CREATE TABLE IF NOT EXISTS " ++ t_name t ++ " (" ++ nl ++
    String.concat "" (map (fun d => "  " ++ d ++ nl) (comma_except_last (table_definitions suffix t))) ++ ");").
  assert (E : forall u, my_export f suffix u = String.concat "" (map (fun t => body t ++ nl) (filter (passes f) (s_tables u))) ++ "").
  { intros u. unfold my_export. rewrite app_nil_r_s. f_equal. apply map_ext. intros t. unfold export_table, body.
    rewrite !app_assoc_s. reflexivity. }
  rewrite !E, !lines_pieces. apply sub_app; [|apply sub_refl]. apply sub_flat. now apply sub_filter.
Qed.

Lemma joined_grows : forall l l', l <> [] -> sub l l' -> only_adds (join nl l) (join nl l').
Proof.
  intros l l' N H. apply lines_adds. rewrite !lines_joined; [now apply sub_flat| |exact N].
  intros ->. inversion H. congruence.
Qed.

Lemma quickdbd_grows : forall s s', grown s s' -> only_adds (qdbd_text s) (qdbd_text s').
Proof.
  intros s s' [_ [_ [_ G]]]. unfold qdbd_text. fold newline nl. destruct (s_tables s) as [|t ts].
  - apply sub_none.
  - apply joined_grows; [discriminate|]. now apply sub_flat.
Qed.

Lemma plantuml_grows : forall s s', grown s s' -> only_adds (puml_text s) (puml_text s').
Proof.
  intros s s' [_ [_ [_ G]]]. unfold puml_text. fold newline nl. apply joined_grows; [discriminate|].
  apply sub_keep. apply sub_app; [now apply sub_flat|]. apply sub_app; [now apply sub_flat|apply sub_refl].
Qed.

Lemma graphql_grows : forall camel lower_camel plural f remove pm s s', grown s s' ->
  only_adds (gql_text camel lower_camel plural f remove pm s) (gql_text camel lower_camel plural f remove pm s').
Proof.
  intros camel lower_camel plural f remove pm s s' [_ [_ [_ G]]]. unfold gql_text. cbv zeta. fold newline nl.
  assert (C : sub (gql_classes camel lower_camel f remove pm s) (gql_classes camel lower_camel f remove pm s')).
  { unfold gql_classes. apply sub_map. now apply sub_filter. }
  apply joined_grows; [discriminate|]. do 2 apply sub_keep. apply sub_app; [now apply sub_map|].
  apply sub_app; [apply sub_refl|now apply sub_flat].
Qed.

(** what DBML inlines depends on the names above a table *)
Definition count (n : string) (l : list string) : nat := length (filter (String.eqb n) l).
Lemma count_named : forall n ts, count n (map t_name ts) = length (named n ts).
Proof.
  intros n ts. unfold count, named. induction ts as [|t ts IH]; [reflexivity|]. cbn [map filter].
  rewrite (String.eqb_sym n). destruct (String.eqb (t_name t) n); cbn [length]; now rewrite IH.
Qed.
Lemma count_in : forall n l, str_in n l = negb (Nat.eqb (count n l) 0).
Proof.
  intros n l. unfold count. induction l as [|x l IH]; [reflexivity|]. cbn [str_in existsb filter]. unfold str_in in IH.
  destruct (String.eqb n x); [reflexivity|]. exact IH.
Qed.
Lemma dbml_column_same : forall d d' c, (forall r, c_ref c = Some r -> str_in (ref_table r) d = str_in (ref_table r) d') ->
  dbml_column d c = dbml_column d' c /\ forall t, dbml_deferred d t c = dbml_deferred d' t c.
Proof.
  intros d d' c H. unfold dbml_column, dbml_params, dbml_inline, dbml_deferred. destruct (c_ref c) as [r|]; [|split; reflexivity].
  rewrite (H r eq_refl). split; reflexivity.
Qed.
Lemma dbml_tables_grow : forall ts ts', sub ts ts' -> forall d d',
  (forall n, (count n d <= count n d')%nat) ->
  (forall t c r, In t ts -> In c (t_cols t) -> c_ref c = Some r ->
     count (ref_table r) d' + count (ref_table r) (map t_name ts') = count (ref_table r) d + count (ref_table r) (map t_name ts))%nat ->
  sub (fst (dbml_tables d ts)) (fst (dbml_tables d' ts')) /\ sub (snd (dbml_tables d ts)) (snd (dbml_tables d' ts')).
Proof.
  assert (C : forall n x l, count n (x :: l) = ((if String.eqb n x then 1 else 0) + count n l)%nat).
  { intros n x l. unfold count. cbn [filter]. destruct (String.eqb n x); reflexivity. }
  assert (M : forall n (ts ts' : list table), sub ts ts' -> (count n (map t_name ts) <= count n (map t_name ts'))%nat).
  { intros n ts ts' H. unfold count. apply sub_length. apply sub_filter. now apply sub_map. }
  intros ts ts' H. induction H as [|t ts ts' H IH|t ts ts' H IH]; intros d d' L E.
  - split; apply sub_nil.
  - cbn [dbml_tables].
    assert (K : forall c r, In c (t_cols t) -> c_ref c = Some r -> str_in (ref_table r) d = str_in (ref_table r) d').
    { intros c r I R. rewrite !count_in. specialize (E t c r (or_introl eq_refl) I R). cbn [map] in E. rewrite !C in E.
      pose proof (M (ref_table r) _ _ H). specialize (L (ref_table r)). f_equal. f_equal. lia. }
    destruct (IH (t_name t :: d) (t_name t :: d')) as [A B].
    + intros n. rewrite !C. specialize (L n). lia.
    + intros u c r I J R. specialize (E u c r (or_intror I) J R). cbn [map] in E. rewrite !C in *. lia.
    + destruct (dbml_tables (t_name t :: d) ts) as [ls rs]. destruct (dbml_tables (t_name t :: d') ts') as [ls' rs']. cbn [fst snd] in *.
      assert (X : map (dbml_column d) (t_cols t) = map (dbml_column d') (t_cols t)).
      { apply map_ext_in. intros c I. apply dbml_column_same. intros r R. now apply (K c). }
      assert (Y : flat_map (dbml_deferred d t) (t_cols t) = flat_map (dbml_deferred d' t) (t_cols t)).
      { clear -K. induction (t_cols t) as [|c cs IH]; [reflexivity|]. cbn [flat_map]. f_equal.
        - apply dbml_column_same. intros r R. apply (K c r); [now left|exact R].
        - apply IH. intros c' r I. apply K. now right. }
      rewrite X, Y. split.
      * constructor. apply sub_app; [apply sub_refl|]. apply sub_app; [apply sub_refl|exact A].
      * apply sub_app; [apply sub_refl|exact B].
  - cbn [dbml_tables]. destruct (IH d (t_name t :: d')) as [A B].
    + intros n. rewrite C. specialize (L n). lia.
    + intros u c r I J R. specialize (E u c r I J R). cbn [map] in E. rewrite !C in *. lia.
    + destruct (dbml_tables d ts) as [ls rs]. destruct (dbml_tables (t_name t :: d') ts') as [ls' rs']. cbn [fst snd] in *.
      split; [constructor; apply sub_left; apply sub_left; exact A|now apply sub_left].
Qed.
Lemma dbml_grows : forall f s s', grown s s' -> same_targets s s' -> only_adds (export_dbml f s) (export_dbml f s').
Proof.
  intros f s s' [_ [_ [_ G]]] T. unfold export_dbml. fold newline nl.
  destruct (dbml_tables_grow (s_tables s) (s_tables s') G [] []) as [A B]; [reflexivity| |].
  - intros t c r I J R. rewrite !count_named. now rewrite (T t c r I J R).
  - destruct (dbml_tables [] (s_tables s)) as [ls rs]. destruct (dbml_tables [] (s_tables s')) as [ls' rs']. cbn [fst snd] in *.
    set (x := join nl (ls ++ [join nl rs])). set (y := join nl (ls' ++ [join nl rs'])).
    assert (X : lines x = (flat_map lines ls ++ lines (join nl rs))%list).
    { unfold x. rewrite lines_joined, flat_map_app by (destruct ls; discriminate). cbn [flat_map]. now rewrite app_nil_r. }
    assert (Y : lines y = (flat_map lines ls' ++ lines (join nl rs'))%list).
    { unfold y. rewrite lines_joined, flat_map_app by (destruct ls'; discriminate). cbn [flat_map]. now rewrite app_nil_r. }
    assert (S : sub (flat_map lines ls) (flat_map lines ls')) by now apply sub_flat.
    destruct rs as [|r rs].
    + assert (Fx : file_lines x = flat_map lines ls).
      { destruct (file_lines_cases x) as [E|[_ N]]; [|exfalso; exact (N _ X)]. rewrite X in E. apply app_inj_tail in E as [E _]. now symmetry. }
      unfold only_adds. rewrite Fx.
      destruct (file_lines_cases y) as [E|[E _]]; rewrite Y in E.
      * destruct (exists_last (lines_not_nil (join nl rs'))) as [z [w Q]]. rewrite Q, app_assoc in E. apply app_inj_tail in E as [<- _].
        rewrite <- (app_nil_r (flat_map lines ls)). apply sub_app; [exact S|apply sub_none].
      * rewrite <- E. rewrite <- (app_nil_r (flat_map lines ls)). apply sub_app; [exact S|apply sub_none].
    + apply lines_adds. rewrite X, Y. apply sub_app; [exact S|].
      rewrite !lines_joined; [now apply sub_flat| |discriminate]. intros ->. inversion B.
Qed.

(** ** Protobuf, GORM *)

Lemma table_by_name_named : forall ts n, table_by_name ts n = hd_error (named n ts).
Proof.
  induction ts as [|t ts IH]; intros n; [reflexivity|]. cbn [table_by_name named filter]. destruct (String.eqb (t_name t) n); [reflexivity|apply IH].
Qed.
Lemma target_kept : forall s s' t c r, same_targets s s' -> In t (s_tables s) -> In c (t_cols t) -> c_ref c = Some r ->
  table_by_name (s_tables s') (ref_table r) = table_by_name (s_tables s) (ref_table r).
Proof. intros s s' t c r T I J R. rewrite !table_by_name_named. now rewrite (T t c r I J R). Qed.

Lemma pb_message_kept : forall camel lc o s s' t, same_targets s s' -> In t (s_tables s) ->
  pb_new_message camel lc o s' t = pb_new_message camel lc o s t.
Proof.
  intros camel lc o s s' t T I. unfold pb_new_message. cbv zeta.
  assert (E : forall cs, incl cs (t_cols t) -> pb_relations camel o s' cs = pb_relations camel o s cs).
  { induction cs as [|c cs IH]; intros J; [reflexivity|]. cbn [pb_relations].
    rewrite IH by (intros x X; apply J; now right).
    destruct (c_ref c) as [r|] eqn:R; [|reflexivity]. rewrite (target_kept s s' t c r T I (J c (or_introl eq_refl)) R). reflexivity. }
  now rewrite E by apply incl_refl.
Qed.
Lemma res_map_sub : forall {A B} (f g : A -> res B) l l', (forall x, In x l -> g x = f x) -> sub l l' ->
  forall r', res_map g l' = Ok r' -> exists r, res_map f l = Ok r /\ sub r r'.
Proof.
  intros A B f g l l' E H. induction H as [|x l l' H IH|x l l' H IH]; intros r' R; cbn [res_map] in *.
  - exists []. injection R as <-. split; [reflexivity|constructor].
  - rewrite (E x (or_introl eq_refl)) in R. destruct (f x) as [y|]; [|discriminate].
    destruct (res_map g l') as [q'|]; [|discriminate]. destruct (IH (fun z I => E z (or_intror I)) q' eq_refl) as [q [-> S]].
    injection R as <-. exists (y :: q). split; [reflexivity|now constructor].
  - destruct (g x) as [y|]; [|discriminate]. destruct (res_map g l') as [q'|]; [|discriminate].
    destruct (IH E q' eq_refl) as [q [-> S]]. injection R as <-. exists q. split; [reflexivity|now constructor].
Qed.

Lemma fold_imports_in : forall ms acc x, In x (fold_left (fun acc m => ss_add_all acc (pm_imports m)) ms acc) <->
  In x acc \/ exists m, In m ms /\ In x (pm_imports m).
Proof.
  induction ms as [|m ms IH]; intros acc x; cbn [fold_left]; [firstorder|]. rewrite IH, GormProofs.add_all_in. cbn [In]. firstorder.
  subst. tauto.
Qed.
Lemma fold_imports_nodup : forall ms acc, NoDup acc -> NoDup (fold_left (fun acc m => ss_add_all acc (pm_imports m)) ms acc).
Proof. induction ms as [|m ms IH]; intros acc D; cbn [fold_left]; [exact D|]. apply IH. now apply add_all_nodup. Qed.

Lemma pb_text_grows : forall pkg go ms ms', sub ms ms' -> only_adds (pb_text pkg go ms) (pb_text pkg go ms').
Proof.
  intros pkg go ms ms' S. apply lines_adds.
  set (imps := fun ms => ss_slice (fold_left (fun acc m => ss_add_all acc (pm_imports m)) ms (ss_new []))).
  set (opt := fun x : string => pb_nl ++ "option " ++ x ++ ";").
  set (imp := fun x : string => pb_nl ++ "import """ ++ x ++ """;").
  set (msg := fun m => pb_nl ++ "message " ++ pm_name m ++ " {"
    ++ String.concat "" (map (fun x => pb_field_text (pf_type x) (pf_name x) (pf_tag x)) (pm_fields m))
    ++ String.concat "" (map (fun x => pb_field_text (pr_type x) (pr_name x) (pr_tag x)) (pm_relations m)) ++ pb_nl ++ "}").
  assert (E : forall ms, pb_text pkg go ms =
    ("syntax = ""proto3"";" ++ pb_nl ++ pb_nl ++ (if String.eqb pkg "" then "" else "package " ++ pkg ++ ";")) ++ nl ++
    (String.concat "" (map (fun x => opt x ++ nl) (if String.eqb go "" then [] else ["go_package = """ ++ go ++ """"])) ++
    (String.concat "" (map (fun x => imp x ++ nl) (imps ms)) ++
    (String.concat "" (map (fun x => msg x ++ nl) ms) ++ "")))).
  { intros l. unfold pb_text. cbv zeta. rewrite app_nil_r_s, !app_assoc_s.
    assert (O : forall x, opt x ++ nl = pb_nl ++ "option " ++ x ++ ";" ++ pb_nl) by (intros x; unfold opt; rewrite !app_assoc_s; reflexivity).
    assert (I : forall x, imp x ++ nl = pb_nl ++ "import """ ++ x ++ """;" ++ pb_nl) by (intros x; unfold imp; rewrite !app_assoc_s; reflexivity).
    assert (M : forall m, msg m ++ nl = pb_message_text m) by (intros m; unfold msg, pb_message_text; rewrite !app_assoc_s; reflexivity).
    rewrite (map_ext _ _ O), (map_ext _ _ I), (map_ext _ _ M). reflexivity. }
  rewrite !E, !lines_nl, !lines_pieces. repeat (apply sub_app; [apply sub_refl|]).
  apply sub_app.
  - apply sub_flat. apply slice_sub; try (apply fold_imports_nodup; constructor).
    intros x I. apply fold_imports_in in I as [[]|[m [I J]]]. apply fold_imports_in. right. exists m. split; [|exact J]. now apply (sub_in ms).
  - apply sub_app; [now apply sub_flat|apply sub_refl].
Qed.

Lemma protobuf_grows : forall camel lc o s s' text', grown s s' -> same_targets s s' -> pb_generate camel lc o s' = Ok text' ->
  exists text, pb_generate camel lc o s = Ok text /\ only_adds text text'.
Proof.
  intros camel lc o s s' text' [_ [_ [_ G]]] T H. unfold pb_generate, pb_messages in *.
  destruct (res_map (pb_new_message camel lc o s') (filter (passes (po_filter o)) (s_tables s'))) as [ms'|] eqn:E; [|discriminate].
  destruct (res_map_sub (pb_new_message camel lc o s) _ _ _ (fun t I => pb_message_kept camel lc o s s' t T (proj1 (proj1 (filter_In _ _ _) I)))
    (sub_filter (passes (po_filter o)) _ _ G) ms' E) as [ms [-> S]].
  eexists. split; [reflexivity|]. injection H as <-. now apply pb_text_grows.
Qed.

Lemma go_struct_kept : forall camel snake om on m s s' remove pm t, same_targets s s' -> In t (s_tables s) ->
  new_go_struct camel snake om on m s' remove pm t = new_go_struct camel snake om on m s remove pm t.
Proof.
  intros camel snake om on m s s' remove pm t T I. unfold new_go_struct. cbv zeta. f_equal.
  assert (E : forall cs, incl cs (t_cols t) -> flat_map (go_assoc_of camel s' remove pm) cs = flat_map (go_assoc_of camel s remove pm) cs).
  { induction cs as [|c cs IH]; intros J; [reflexivity|]. cbn [flat_map].
    rewrite IH by (intros x X; apply J; now right). f_equal. unfold go_assoc_of, find_reference.
    destruct (c_ref c) as [r|] eqn:R; [|reflexivity]. now rewrite (target_kept s s' t c r T I (J c (or_introl eq_refl)) R). }
  apply E. apply incl_refl.
Qed.

Section Gorm.
Variables camel snake : string -> string.
Variables om on om' on' : nat -> models -> models.
Hypothesis OM : forall k, iteration_order (om k).
Hypothesis ON : forall k, iteration_order (on k).
Hypothesis OM' : forall k, iteration_order (om' k).
Hypothesis ON' : forall k, iteration_order (on' k).

Lemma go_structs_grow : forall m s s' remove pm, NoDup (map fst m) -> same_targets s s' ->
  forall ts ts', sub ts ts' -> (forall t, In t ts -> In t (s_tables s) /\ one_fits m t) -> forall k k',
  sub (go_structs_from camel snake k om on m s remove pm ts) (go_structs_from camel snake k' om' on' m s' remove pm ts').
Proof.
  intros m s s' remove pm D T ts ts' H. induction H as [|t ts ts' H IH|t ts ts' H IH]; intros F k k'; cbn [go_structs_from].
  - constructor.
  - destruct (F t (or_introl eq_refl)) as [I O].
    rewrite (go_struct_kept camel snake (om' k') (on' k') m s s' remove pm t T I).
    rewrite (GormProofs.struct_same camel snake (om k) (on k) (om' k') (on' k') m s remove pm t (OM k) (ON k) (OM' k') (ON' k') D O).
    constructor. apply IH. intros u J. apply F. now right.
  - constructor. now apply IH.
Qed.

Lemma gorm_grows : forall m o s s', NoDup (map fst m) -> grown s s' -> same_targets s s' ->
  (forall t, In t (s_tables s) -> selected (go_filter o) t -> one_fits (embed_models m (go_embed o)) t) ->
  only_adds (fst (gorm_generate camel snake om on m o s)) (fst (gorm_generate camel snake om' on' m o s')).
Proof.
  intros m o s s' D [_ [_ [_ G]]] T U. apply lines_adds. unfold gorm_generate. cbv zeta. cbn [fst]. unfold go_structs.
  set (m' := embed_models m (go_embed o)) in *.
  assert (D' : NoDup (map fst m')).
  { unfold m', embed_models. destruct (String.eqb (go_embed o) ""); [exact D|].
    destruct (parse_embed (go_embed o)) as [[n c]|]; [now apply GormProofs.register_nodup|exact D]. }
  assert (S : sub (go_structs_from camel snake 0 om on m' s (go_remove o) (go_prefix o) (filter (passes (go_filter o)) (s_tables s)))
                  (go_structs_from camel snake 0 om' on' m' s' (go_remove o) (go_prefix o) (filter (passes (go_filter o)) (s_tables s')))).
  { apply go_structs_grow; [exact D'|exact T|now apply sub_filter|]. intros t I. apply filter_In in I as [I P].
    split; [exact I|]. apply U; [exact I|]. unfold selected, passes in *. now destruct (go_filter o). }
  set (gs := go_structs_from camel snake 0 om on m' s (go_remove o) (go_prefix o) (filter (passes (go_filter o)) (s_tables s))) in *.
  set (gs' := go_structs_from camel snake 0 om' on' m' s' (go_remove o) (go_prefix o) (filter (passes (go_filter o)) (s_tables s'))) in *.
  clearbody gs gs'. set (pkg := if String.eqb (go_package o) "" then "main" else go_package o).
  set (imp := fun i : string => String "009" "" ++ quote_mark ++ i ++ quote_mark).
  set (body := fun g => "type " ++ gs_name g ++ " struct {" ++ String.concat "" (map (fun l => nl_tab ++ l)
    (gs_models g ++ map (fun f => field_line (go_name f) (go_type f) (field_tags (unique_name (go_suffix o) g) (gs_table g) f)) (gs_fields g)
     ++ map (assoc_line (go_pointer o)) (gs_assocs g))%list) ++ nl1 ++ "}" ++ nl1 ++ nl1
    ++ "func (c *" ++ gs_name g ++ ") TableName() string { return " ++ quote_mark ++ t_name (gs_table g)
    ++ quote_mark ++ " }" ++ nl1).
  assert (E : forall l, header_text pkg (gorm_imports l) ++ String.concat "" (map (struct_text o) l) =
    ("package " ++ pkg ++ nl1 ++ nl1 ++ "import (") ++ String.concat "" (map (fun i => nl ++ imp i) (gorm_imports l)) ++ nl
    ++ ")" ++ nl ++ "" ++ nl ++ String.concat "" (map (fun g => body g ++ nl) l) ++ "").
  { intros l. unfold header_text. rewrite app_nil_r_s, !app_assoc_s.
    assert (M : forall g, body g ++ nl = struct_text o g) by (intros g; unfold body, struct_text; cbv zeta; rewrite !app_assoc_s; reflexivity).
    rewrite (map_ext _ _ M). reflexivity. }
  rewrite !E, !lines_more, !lines_nl, !lines_pieces. apply sub_app; [apply sub_refl|]. apply sub_app.
  - apply sub_flat. unfold gorm_imports. apply slice_sub; try (apply add_all_nodup; constructor).
    intros x I. apply GormProofs.add_all_in in I as [[]|I]. apply GormProofs.add_all_in. right.
    apply in_flat_map in I as [g [I J]]. apply in_flat_map. exists g. split; [now apply (sub_in gs)|exact J].
  - repeat (apply sub_app; [apply sub_refl|]). apply sub_app; [now apply sub_flat|apply sub_refl].
Qed.
End Gorm.

(** ** Kotlin *)

Lemma class_of_named : forall camel lc snake o ts n,
  Jpa.class_of_table (map (Jpa.new_kt_class camel lc snake o) ts) n =
  match named n ts with [] => "" | t :: _ => Jpa.kt_class_name camel o t end.
Proof.
  intros camel lc snake o ts n. induction ts as [|t ts IH]; [reflexivity|]. cbn [map Jpa.class_of_table named filter].
  unfold Jpa.new_kt_class at 1 2. cbn [Jpa.kc_table Jpa.kc_name]. destruct (String.eqb (t_name t) n); [reflexivity|exact IH].
Qed.
Lemma named_filter : forall f n ts, named n (filter f ts) = filter f (named n ts).
Proof.
  intros f n ts. unfold named. induction ts as [|t ts IH]; [reflexivity|]. cbn [filter].
  destruct (f t) eqn:E, (String.eqb (t_name t) n) eqn:N; cbn [filter]; rewrite ?E, ?N, IH; reflexivity.
Qed.

Section Kotlin.
Variables camel lc snake : string -> string.
Variable path_join : list string -> string.
Variable o : Jpa.kt_opt.
Variables s s' : schema.
Hypothesis T : same_targets s s'.
Let classes u := Jpa.kt_classes camel lc snake o u.

Lemma entity_kept : forall t, In t (s_tables s) -> let k := Jpa.new_kt_class camel lc snake o t in
  Jpa.entity_text lc o (classes s') k = Jpa.entity_text lc o (classes s) k.
Proof.
  intros t I k. unfold Jpa.entity_text.
  assert (R : forall c, In c (t_cols t) -> Jpa.relation_annos lc o (classes s') c = Jpa.relation_annos lc o (classes s) c).
  { intros c J. unfold Jpa.relation_annos. destruct (String.eqb (Jpa.ko_relation o) "VRelation"); [|reflexivity].
    destruct (c_ref c) as [r|] eqn:R; [|reflexivity].
    assert (E : Jpa.class_of_table (classes s') (ref_table r) = Jpa.class_of_table (classes s) (ref_table r)).
    { unfold classes, Jpa.kt_classes. rewrite !class_of_named, !named_filter. now rewrite (T t c r I J R). }
    now rewrite E. }
  assert (F : forall b fs, (forall f, In f fs -> In (Jpa.kf_col f) (t_cols t)) ->
    Jpa.fields_lines lc o (classes s') b fs = Jpa.fields_lines lc o (classes s) b fs).
  { intros b. induction fs as [|f fs IH]; intros H; [reflexivity|]. cbn [Jpa.fields_lines]. unfold Jpa.field_annos.
    rewrite (R _ (H f (or_introl eq_refl))), IH; [reflexivity|]. intros g J. apply H. now right. }
  cbv zeta. rewrite F; [reflexivity|]. intros f J. unfold k, Jpa.new_kt_class in J. cbn [Jpa.kc_fields] in J.
  apply in_map_iff in J as [c [<- J]]. unfold Jpa.new_kt_field. now destruct (Jpa.kt_type_of (c_type c)) as [[? ?] ?].
Qed.

Lemma entities_grow : forall dir ks ks', sub ks ks' -> (forall k, In k ks -> exists t, In t (s_tables s) /\ k = Jpa.new_kt_class camel lc snake o t) ->
  forall l', Jpa.kt_entities lc path_join o (classes s') dir ks' = (l', Jpa.KtDone) ->
  exists l, Jpa.kt_entities lc path_join o (classes s) dir ks = (l, Jpa.KtDone) /\ sub l l'.
Proof.
  intros dir ks ks' H. induction H as [|k ks ks' H IH|k ks ks' H IH]; intros F l' E; cbn [Jpa.kt_entities] in *.
  - exists []. injection E as <-. split; [reflexivity|constructor].
  - destruct (F k (or_introl eq_refl)) as [t [I K]]. assert (X : Jpa.entity_text lc o (classes s') k = Jpa.entity_text lc o (classes s) k) by (rewrite K; now apply entity_kept).
    rewrite X in E. destruct (Jpa.entity_text lc o (classes s) k) as [text|]; [|discriminate].
    destruct (Jpa.kt_entities lc path_join o (classes s') dir ks') as [q' e'].
    assert (e' = Jpa.KtDone) by congruence. subst e'.
    destruct (IH (fun x J => F x (or_intror J)) q' eq_refl) as [q [-> S]].
    eexists. split; [reflexivity|]. injection E as <-. now constructor.
  - destruct (Jpa.entity_text lc o (classes s') k) as [text|]; [|discriminate].
    destruct (Jpa.kt_entities lc path_join o (classes s') dir ks') as [q' e'].
    assert (e' = Jpa.KtDone) by congruence. subst e'.
    destruct (IH F q' eq_refl) as [q [-> S]]. eexists. split; [reflexivity|]. injection E as <-. now constructor.
Qed.
Lemma repositories_grow : forall dir ks ks', sub ks ks' -> forall l', Jpa.kt_repositories path_join o dir ks' = (l', Jpa.KtDone) ->
  exists l, Jpa.kt_repositories path_join o dir ks = (l, Jpa.KtDone) /\ sub l l'.
Proof.
  intros dir ks ks' H. induction H as [|k ks ks' H IH|k ks ks' H IH]; intros l' E; cbn [Jpa.kt_repositories] in *.
  - exists []. injection E as <-. split; [reflexivity|constructor].
  - destruct (Jpa.repository_text o k) as [text|]; [|discriminate]. destruct (Jpa.kt_repositories path_join o dir ks') as [q' e'].
    assert (e' = Jpa.KtDone) by congruence. subst e'. destruct (IH q' eq_refl) as [q [-> S]].
    eexists. split; [reflexivity|]. injection E as <-. now constructor.
  - destruct (Jpa.repository_text o k) as [text|]; [|discriminate]. destruct (Jpa.kt_repositories path_join o dir ks') as [q' e'].
    assert (e' = Jpa.KtDone) by congruence. subst e'. destruct (IH q' eq_refl) as [q [-> S]].
    eexists. split; [reflexivity|]. injection E as <-. now constructor.
Qed.
Lemma kotlin_grows : forall output files', grown s s' ->
  Jpa.kt_generate camel lc snake path_join o s' output = (files', Jpa.KtDone) ->
  exists files, Jpa.kt_generate camel lc snake path_join o s output = (files, Jpa.KtDone) /\ sub files files'.
Proof.
  intros output files' [_ [_ [_ G]]] H. unfold Jpa.kt_generate in *. cbv zeta in *. fold (classes s) (classes s') in *.
  assert (S : sub (classes s) (classes s')) by (apply sub_map; now apply sub_filter).
  assert (F : forall k, In k (classes s) -> exists t, In t (s_tables s) /\ k = Jpa.new_kt_class camel lc snake o t).
  { intros k I. apply in_map_iff in I as [t [<- I]]. apply filter_In in I as [I _]. now exists t. }
  destruct (Jpa.kt_entities lc path_join o (classes s') (Jpa.package_dir path_join output (Jpa.ko_package o)) (classes s')) as [e' x'] eqn:E.
  destruct x'; try discriminate. destruct (entities_grow _ _ _ S F e' E) as [e [-> A]].
  destruct (String.eqb (Jpa.ko_repos o) ""); [eexists; split; [reflexivity|]; injection H as <-; exact A|].
  destruct (Jpa.kt_repositories path_join o (Jpa.package_dir path_join output (Jpa.ko_repos o)) (classes s')) as [r' y'] eqn:R.
  assert (y' = Jpa.KtDone) by congruence. subst y'. destruct (repositories_grow _ _ _ S r' R) as [r [-> B]].
  eexists. split; [reflexivity|]. injection H as <-. now apply sub_app.
Qed.
End Kotlin.

(** ** Excel *)

Lemma tables_rows_grow : forall un g ts ts', sub ts ts' -> forall n i n' i',
  (i + length ts = n)%nat -> (i' + length ts' = n')%nat ->
  sub (tables_rows un g n i ts) (tables_rows un g n' i' ts').
Proof.
  intros un g ts ts' H. induction H as [|t ts ts' H IH|t ts ts' H IH]; intros n i n' i' E E'; cbn [tables_rows length] in *.
  - constructor.
  - apply sub_app; [|apply IH; lia]. destruct (String.eqb (t_group t) g); [|constructor]. constructor.
    apply sub_app; [apply sub_refl|]. apply sub_app; [apply sub_refl|].
    destruct (Nat.ltb i (n - 1)) eqn:A; [|apply sub_none]. apply Nat.ltb_lt in A. pose proof (sub_length _ _ H).
    assert (B : Nat.ltb i' (n' - 1) = true) by (apply Nat.ltb_lt; lia). rewrite B. apply sub_refl.
  - apply sub_left. apply IH; lia.
Qed.
Lemma groups_grow : forall s s', sub (s_tables s) (s_tables s') -> sub (groups s) (groups s').
Proof.
  intros s s' S. destruct (OctopusProofs.groups_spec s) as [A B]. destruct (OctopusProofs.groups_spec s') as [A' B'].
  apply strict_sub; [exact A|exact A'|]. intros g I. apply B in I as [t [I E]]. apply B'. exists t. split; [now apply (sub_in (s_tables s))|exact E].
Qed.

Lemma sheets_grow : forall name_ok un s s' gs gs', sub gs gs' -> forall wb wb', incl (map fst wb) (map fst wb') ->
  forall r', add_group_sheets name_ok un s' gs' wb' = Some r' ->
  r' = (wb' ++ map (fun g => (sheet_name g, group_rows un s' g)) gs')%list /\
  add_group_sheets name_ok un s gs wb = Some (wb ++ map (fun g => (sheet_name g, group_rows un s g)) gs)%list.
Proof.
  intros name_ok un s s' gs gs' H. induction H as [|g gs gs' H IH|g gs gs' H IH]; intros wb wb' I r' R; cbn [add_group_sheets map] in *.
  - injection R as <-. now rewrite !app_nil_r.
  - unfold add_sheet in *. cbn [fst] in *. destruct (str_in (sheet_name g) (map fst wb') || negb (name_ok (sheet_name g))) eqn:E; [discriminate|].
    apply orb_false_iff in E as [E1 E2].
    assert (E3 : str_in (sheet_name g) (map fst wb) = false).
    { destruct (str_in (sheet_name g) (map fst wb)) eqn:Q; [|reflexivity]. apply str_in_iff in Q. apply I in Q. apply str_in_iff in Q. congruence. }
    rewrite E2, E3. cbn [orb].
    apply (IH (wb ++ [(sheet_name g, group_rows un s g)])%list) in R as [-> ->].
    + rewrite <- !app_assoc. split; reflexivity.
    + rewrite !map_app. cbn [map fst]. intros x X. apply in_app_iff in X as [X|X]; apply in_app_iff; [left; now apply I|now right].
  - unfold add_sheet in *. cbn [fst] in *. destruct (str_in (sheet_name g) (map fst wb') || negb (name_ok (sheet_name g))) eqn:E; [discriminate|].
    apply (IH wb) in R as [-> ->].
    + rewrite <- app_assoc. split; reflexivity.
    + rewrite map_app. intros x X. apply in_app_iff. left. now apply I.
Qed.

Lemma xlsx_grows : forall name_ok un s s' wb', grown s s' -> export_xlsx name_ok un s' = Some wb' ->
  exists wb, export_xlsx name_ok un s = Some wb /\ sub (map fst wb) (map fst wb') /\
    forall name rows, In (name, rows) wb -> exists rows', In (name, rows') wb' /\ sub rows rows'.
Proof.
  intros name_ok un s s' wb' [EA [EN [EV G]]] H. unfold export_xlsx in *.
  assert (M : meta_rows s' = meta_rows s) by (unfold meta_rows; now rewrite EA, EN, EV). rewrite M in H.
  destruct (add_sheet name_ok [] ("Meta", meta_rows s)) as [w|] eqn:E; [|discriminate].
  destruct (sheets_grow name_ok un s s' (groups s) (groups s') (groups_grow s s' G) w w (incl_refl _) wb' H) as [-> ->].
  eexists. split; [reflexivity|]. split.
  - rewrite !map_app, !map_map. cbn [fst]. apply sub_app; [apply sub_refl|]. apply sub_map. now apply groups_grow.
  - intros name rows I. apply in_app_iff in I as [I|I].
    + exists rows. split; [apply in_app_iff; now left|apply sub_refl].
    + apply in_map_iff in I as [g [I J]]. assert (name = sheet_name g) by congruence. assert (rows = group_rows un s g) by congruence. subst name rows.
      exists (group_rows un s' g). split.
      * apply in_app_iff. right. apply in_map_iff. exists g. split; [reflexivity|]. apply (sub_in (groups s)); [now apply groups_grow|exact J].
      * unfold group_rows. constructor. apply tables_rows_grow; [exact G|reflexivity|reflexivity].
Qed.

(** ** SQLAlchemy *)

Section Python.
Import Sqlalchemy.
Variables camel snake : string -> string.
Variable o : sa_opt.
Let class_of := new_sa_class camel snake o.

Lemma imports_from : forall t x, In x (class_imports o (class_of t)) -> starts_with "from " x = true /\ one_line x.
Proof.
  intros t x I. unfold class_imports in I. apply in_flat_map in I as [f [_ I]]. unfold field_imports in I.
  apply in_app_iff in I as [I|I].
  - destruct (uses_tz (so_utc o) f); [|destruct I]. destruct I as [<-|[]]. split; [reflexivity|]. oneline.
  - destruct (String.eqb (to_lower (c_type (sf_col f))) "datetime"); [|destruct I]. destruct I as [<-|[]]. split; [reflexivity|]. oneline.
Qed.
Lemma type_line : forall c, one_line (sa_type_of c).
Proof.
  intros c. unfold sa_type_of. cbv zeta.
  repeat match goal with |- one_line (if ?b then _ else _) => destruct b; [oneline|] end. oneline.
Qed.
Lemma sa_line : forall t x, In x (class_sa o (class_of t)) -> one_line x.
Proof.
  intros t x I. unfold class_sa in I. apply in_app_iff in I as [I|I].
  - destruct (has_constraint (class_of t)); [|destruct I]. destruct I as [<-|[]]. oneline.
  - apply in_flat_map in I as [f [J I]]. unfold class_of, new_sa_class in J. cbn [sc_fields] in J. apply in_map_iff in J as [c [<- _]].
    unfold field_sa in I. apply in_app_iff in I as [I|I].
    + destruct (uses_tz (so_utc o) (new_sa_field snake c)); [|destruct I]. destruct I as [<-|[]]. oneline.
    + unfold new_sa_field in I. cbn [sf_imports] in I. destruct (String.eqb (sa_type_of c) ""); [destruct I|].
      destruct I as [<-|[]]. apply type_line.
Qed.
Lemma join_line : forall l, (forall x, In x l -> one_line x) -> one_line (join ", " l).
Proof.
  induction l as [|x [|y l] IH]; intros H; [oneline|now apply H; left|]. change (join ", " (x :: y :: l)) with (x ++ ", " ++ join ", " (y :: l)).
  apply one_line_app; [apply H; now left|]. apply one_line_app; [oneline|]. apply IH. intros z J. apply H. now right.
Qed.

(** what is left of a header *)
Definition short_header (im : list string) : list string :=
  ((match im with [] => [] | _ => [""] end) ++ [""; "Base = declarative_base(cls=RepresentableBase)"])%list.
Definition besides (l : list string) : list string := filter (fun x => negb (starts_with "from " x)) l.
Lemma besides_app : forall a b, besides (a ++ b) = (besides a ++ besides b)%list.
Proof. intros. apply filter_app. Qed.
Lemma besides_from : forall l, (forall x, In x l -> starts_with "from " x = true) -> besides l = [].
Proof.
  induction l as [|x l IH]; intros H; [reflexivity|]. unfold besides in *. cbn [filter]. rewrite (H x (or_introl eq_refl)). apply IH.
  intros y J. apply H. now right.
Qed.
Lemma header_besides : forall im sa, (forall x, In x im -> starts_with "from " x = true /\ one_line x) -> (forall x, In x sa -> one_line x) ->
  besides (flat_map lines (header_lines im sa)) = short_header im.
Proof.
  intros im sa I S. unfold header_lines, short_header. cbv zeta. rewrite flat_map_app, besides_app. f_equal.
  - destruct im as [|x im]; [reflexivity|]. rewrite flat_map_app, besides_app.
    assert (E : forall l, (forall x, In x l -> starts_with "from " x = true /\ one_line x) -> flat_map lines l = l).
    { induction l as [|y l IH]; intros H; [reflexivity|]. cbn [flat_map]. rewrite lines_one by (apply H; now left).
      cbn [app]. f_equal. apply IH. intros z J. apply H. now right. }
    rewrite E by exact I. rewrite besides_from by (intros y J; now apply I). reflexivity.
  - cbn [flat_map].
    rewrite (lines_one ("from sqlalchemy import " ++ join ", " sa)) by (apply one_line_app; [oneline|now apply join_line]).
    reflexivity.
Qed.

Lemma file_lines_text : forall l, file_lines (lines_text (l ++ [""])%list) = flat_map lines l.
Proof.
  intros l. unfold lines_text. fold newline nl. set (x := join nl (l ++ [""])).
  assert (X : lines x = (flat_map lines l ++ [""])%list).
  { unfold x. rewrite lines_joined by (destruct l; discriminate). rewrite flat_map_app. reflexivity. }
  destruct (file_lines_cases x) as [E|[_ N]]; [|destruct (N _ X)]. rewrite X in E. apply app_inj_tail in E as [E _]. now symmetry.
Qed.

Lemma single_grows : forall s s', grown s s' ->
  sub (besides_imports (sa_single camel snake o s)) (besides_imports (sa_single camel snake o s')).
Proof.
  intros s s' [_ [_ [_ G]]]. unfold besides_imports, sa_single. cbv zeta.
  set (ks := sa_classes camel snake o s). set (ks' := sa_classes camel snake o s').
  assert (S : sub ks ks') by (apply sub_map; now apply sub_filter).
  assert (K : forall u k, In k (sa_classes camel snake o u) -> exists t, k = class_of t).
  { intros u k I. apply in_map_iff in I as [t [<- _]]. now exists t. }
  set (im := fun ks => ss_slice (ss_add_all (ss_new []) (flat_map (class_imports o) ks))).
  set (sa := fun ks => ss_slice (ss_add_all first_sa (flat_map (class_sa o) ks))).
  set (tz := fun ks => existsb (fun k => existsb (uses_tz (so_utc o)) (sc_fields k)) ks).
  assert (IM : forall u x, In x (im (sa_classes camel snake o u)) -> starts_with "from " x = true /\ one_line x).
  { intros u x I. unfold im in I. apply (proj1 (DiffCoreProofs.ss_slice_in _ _)) in I. apply GormProofs.add_all_in in I as [[]|I].
    apply in_flat_map in I as [k [I J]]. destruct (K u k I) as [t ->]. exact (imports_from t x J). }
  assert (SA : forall u x, In x (sa (sa_classes camel snake o u)) -> one_line x).
  { intros u x I. unfold sa in I. apply (proj1 (DiffCoreProofs.ss_slice_in _ _)) in I. apply GormProofs.add_all_in in I as [[<-|[]]|I]; [oneline|].
    apply in_flat_map in I as [k [I J]]. destruct (K u k I) as [t ->]. exact (sa_line t x J). }
  assert (E : forall u, file_lines (lines_text (header_lines (im (sa_classes camel snake o u)) (sa (sa_classes camel snake o u)) ++
      (if tz (sa_classes camel snake o u) then tz_lines else []) ++ flat_map (class_lines o) (sa_classes camel snake o u) ++ [""])%list) =
      (flat_map lines (header_lines (im (sa_classes camel snake o u)) (sa (sa_classes camel snake o u))) ++
       flat_map lines (if tz (sa_classes camel snake o u) then tz_lines else []) ++
       flat_map lines (flat_map (class_lines o) (sa_classes camel snake o u)))%list).
  { intros u. rewrite !app_assoc. rewrite file_lines_text. rewrite !flat_map_app. reflexivity. }
  fold (im ks) (im ks') (sa ks) (sa ks') (tz ks) (tz ks'). unfold ks, ks'. rewrite !E.
  fold (besides (flat_map lines (header_lines (im ks) (sa ks)) ++ flat_map lines (if tz ks then tz_lines else []) ++ flat_map lines (flat_map (class_lines o) ks))%list).
  fold (besides (flat_map lines (header_lines (im ks') (sa ks')) ++ flat_map lines (if tz ks' then tz_lines else []) ++ flat_map lines (flat_map (class_lines o) ks'))%list).
  rewrite !besides_app. apply sub_app; [|apply sub_app].
  - unfold ks, ks'. rewrite !header_besides by (apply IM || apply SA). fold ks ks'. unfold short_header. apply sub_app; [|apply sub_refl].
    destruct (im ks) as [|x l] eqn:Q; [apply sub_none|].
    assert (I : In x (im ks')).
    { assert (J : In x (im ks)) by (rewrite Q; now left). unfold im in *. apply (proj1 (DiffCoreProofs.ss_slice_in _ _)) in J. apply DiffCoreProofs.ss_slice_in.
      apply GormProofs.add_all_in in J as [[]|J]. apply GormProofs.add_all_in. right. apply in_flat_map in J as [k [J L]].
      apply in_flat_map. exists k. split; [now apply (sub_in ks)|exact L]. }
    destruct (im ks'); [destruct I|apply sub_refl].
  - fold ks ks'. destruct (tz ks) eqn:Q; [|apply sub_none].
    assert (Q' : tz ks' = true).
    { unfold tz in *. apply existsb_exists in Q as [k [I J]]. apply existsb_exists. exists k. split; [now apply (sub_in ks)|exact J]. }
    rewrite Q'. apply sub_refl.
  - apply sub_filter. apply sub_flat. now apply sub_flat.
Qed.

(** one file for each table *)
Lemma each_grows : forall ts ts', sub ts ts' -> forall sa sa', NoDup sa -> NoDup sa' -> (forall x, In x sa -> one_line x) -> (forall x, In x sa' -> one_line x) ->
  sub (map (fun f => (fst f, besides_imports (snd f))) (sa_each o sa [] (map class_of ts)))
      (map (fun f => (fst f, besides_imports (snd f))) (sa_each o sa' [] (map class_of ts'))).
Proof.
  assert (B : forall t sa, (forall x, In x sa -> one_line x) ->
    besides_imports (lines_text (header_lines (ss_slice (ss_add_all [] (class_imports o (class_of t)))) (ss_slice (ss_add_all sa (class_sa o (class_of t))))
      ++ class_lines o (class_of t) ++ [""])%list) =
    (short_header (ss_slice (ss_add_all [] (class_imports o (class_of t)))) ++ besides (flat_map lines (class_lines o (class_of t))))%list).
  { intros t sa S. unfold besides_imports. rewrite app_assoc, file_lines_text, flat_map_app.
    fold (besides (flat_map lines (header_lines (ss_slice (ss_add_all [] (class_imports o (class_of t)))) (ss_slice (ss_add_all sa (class_sa o (class_of t)))))
      ++ flat_map lines (class_lines o (class_of t)))%list). rewrite besides_app, header_besides; [reflexivity| |].
    - intros x I. apply (proj1 (DiffCoreProofs.ss_slice_in _ _)) in I. apply GormProofs.add_all_in in I as [[]|I]. exact (imports_from t x I).
    - intros x I. apply (proj1 (DiffCoreProofs.ss_slice_in _ _)) in I. apply GormProofs.add_all_in in I as [I|I]; [now apply S|exact (sa_line t x I)]. }
  intros ts ts' H. induction H as [|t ts ts' H IH|t ts ts' H IH]; intros sa sa' D D' S S'; cbn [map sa_each fst snd].
  - constructor.
  - rewrite (B t sa S), (B t sa' S'). constructor. apply IH; try (constructor); intros x [].
  - constructor. apply IH; try assumption; [constructor|intros x []].
Qed.
Lemma separate_grows : forall s s', grown s s' ->
  sub (map (fun f => (fst f, besides_imports (snd f))) (sa_separate camel snake o s))
      (map (fun f => (fst f, besides_imports (snd f))) (sa_separate camel snake o s')).
Proof.
  intros s s' [_ [_ [_ G]]]. unfold sa_separate, sa_classes. apply each_grows.
  - now apply sub_filter.
  - constructor; [intros []|constructor].
  - constructor; [intros []|constructor].
  - intros x [<-|[]]. oneline.
  - intros x [<-|[]]. oneline.
Qed.
Lemma each_exact : forall ts ts', sub ts ts' -> sub (sa_each o [] [] (map class_of ts)) (sa_each o [] [] (map class_of ts')).
Proof. intros ts ts' H. induction H as [|t ts ts' H IH|t ts ts' H IH]; cbn [map sa_each]; [constructor|constructor; exact IH|constructor; exact IH]. Qed.
Lemma separate_exact : forall s s' t ts ts', filter (passes (so_filter o)) (s_tables s) = t :: ts ->
  filter (passes (so_filter o)) (s_tables s') = t :: ts' -> sub ts ts' ->
  sub (sa_separate camel snake o s) (sa_separate camel snake o s').
Proof.
  intros s s' t ts ts' E E' S. unfold sa_separate, sa_classes. rewrite E, E'. cbn [map sa_each]. constructor. now apply each_exact.
Qed.
End Python.

(** ** Liquibase *)

Section Changes.
Import DiffCore Liquibase.
Variable float : string -> bool.

Lemma create_ids : forall author suffix comments id id' t css i,
  new_create_table_cs float author suffix comments id t = Some (css, i) ->
  exists css' i', new_create_table_cs float author suffix comments id' t = Some (css', i') /\ map what_changes css' = map what_changes css.
Proof.
  intros author suffix comments id id' t css i H. unfold new_create_table_cs in *. cbv zeta in *.
  destruct (map_lq_columns float comments _ _ (t_cols t)) as [l|]; [|discriminate]. unfold lq_emit in *.
  destruct (Nat.leb 2 (ss_size (pk_name_set t))), (Nat.leb 1 (ss_size (uq_name_set t))); cbn [fst snd app] in *;
    injection H as <- <-; eexists; eexists; (split; [reflexivity|reflexivity]).
Qed.
Lemma generate_grows : forall author suffix comments f ts ts', sub ts ts' -> forall id id' r',
  generate_tables float author suffix comments f ts' id' = Some r' ->
  exists r, generate_tables float author suffix comments f ts id = Some r /\ sub (map what_changes r) (map what_changes r').
Proof.
  intros author suffix comments f ts ts' H. induction H as [|t ts ts' H IH|t ts ts' H IH]; intros id id' r' R; cbn [generate_tables] in *.
  - exists []. injection R as <-. split; [reflexivity|constructor].
  - destruct (passes f t); cbn [negb] in *; [|exact (IH id id' r' R)].
    destruct (new_create_table_cs float author suffix comments (bump_major id') t) as [[css' i']|] eqn:E; [|discriminate].
    destruct (create_ids _ _ _ _ (bump_major id) _ _ _ E) as [css [i [-> M]]].
    destruct (generate_tables float author suffix comments f ts' i') as [q'|] eqn:Q; [|discriminate].
    destruct (IH i i' q' Q) as [q [-> S]]. eexists. split; [reflexivity|]. injection R as <-. rewrite !map_app, M. apply sub_app; [apply sub_refl|exact S].
  - destruct (passes f t); cbn [negb] in *; [|exact (IH id id' r' R)].
    destruct (new_create_table_cs float author suffix comments (bump_major id') t) as [[css' i']|] eqn:E; [|discriminate].
    destruct (generate_tables float author suffix comments f ts' i') as [q'|] eqn:Q; [|discriminate].
    destruct (IH id i' q' Q) as [q [-> S]]. eexists. split; [reflexivity|]. injection R as <-. rewrite map_app. apply sub_left. exact S.
Qed.
Lemma liquibase_grows : forall o s s' r', grown s s' -> lq_generate float o s' = Some r' ->
  exists r, lq_generate float o s = Some r /\ sub (map what_changes r) (map what_changes r').
Proof.
  intros o s s' r' [EA [_ [_ G]]] H. unfold lq_generate in *. rewrite EA in H. exact (generate_grows _ _ _ _ _ _ G _ _ _ H).
Qed.
Lemma generate_app : forall author suffix comments f ts more id r',
  generate_tables float author suffix comments f (ts ++ more) id = Some r' ->
  exists r rest, generate_tables float author suffix comments f ts id = Some r /\ r' = (r ++ rest)%list.
Proof.
  intros author suffix comments f ts more. induction ts as [|t ts IH]; intros id r' R; cbn [generate_tables app] in *.
  - exists [], r'. split; reflexivity.
  - destruct (passes f t); cbn [negb] in *; [|exact (IH id r' R)].
    destruct (new_create_table_cs float author suffix comments (bump_major id) t) as [[css i]|] eqn:E; [|discriminate].
    destruct (generate_tables float author suffix comments f (ts ++ more) i) as [q'|] eqn:Q; [|discriminate].
    destruct (IH i q' Q) as [q [rest [-> ->]]]. exists (css ++ q)%list, rest. split; [reflexivity|]. injection R as <-. now rewrite app_assoc.
Qed.
Lemma liquibase_appends : forall o s s' more r', s_author s' = s_author s -> s_tables s' = (s_tables s ++ more)%list ->
  lq_generate float o s' = Some r' -> exists r rest, lq_generate float o s = Some r /\ r' = (r ++ rest)%list.
Proof.
  intros o s s' more r' EA ET H. unfold lq_generate in *. rewrite EA, ET in H. exact (generate_app _ _ _ _ _ _ _ _ H).
Qed.
End Changes.
