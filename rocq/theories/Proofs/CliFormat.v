(** Files that follow the description of the format *)
From Coq Require Import String Ascii List NArith Bool Lia.
From Verif.Model Require Import GoString Util Octopus Common Json JsonText Mysql Cli.
From Verif.Spec Require Import Text OctopusSpec JsonSpec CommonSpec CliSpec FormatSpec.
From Verif.Proofs Require Import StringLemmas OctopusProofs JsonProofs FormatProofs CliLoad CliCases.
Import ListNotations.
Local Open Scope string_scope.

Lemma only_names : forall names l k v, has_only names l -> In (k, v) l -> In k names.
Proof. intros names l k v [_ S] I. apply S. apply in_map_iff. exists (k, v). auto. Qed.
Lemma list_full : forall A (P : json -> A -> Prop) l k v x n, NoDup (map fst l) ->
  list_member P l n x -> In (k, v) l -> k = n -> forall a, v = JArr a -> forall y, In y a -> exists z, P y z.
Proof.
  intros A P l k v x n N M I -> a -> y Y. destruct M as [(a' & J & F)|[B _]].
  - assert (E : JArr a = JArr a') by exact (lookup_unique _ _ _ _ N I J). injection E as <-.
    clear -F Y. induction F as [|j0 z0 a l0 P0 F IH]; [destruct Y|]. destruct Y as [<-|Y]; [eauto|exact (IH Y)].
  - exfalso. apply B. apply in_map_iff. exists (n, JArr a). auto.
Qed.
Lemma doc_full : forall al j s, doc_schema al j s -> full_doc j.
Proof.
  intros al j s (l & -> & O & _ & _ & _ & M) l' k v a t E I K V A. injection E as <-.
  assert (k = "tables") as -> by (pose proof (only_names _ _ _ _ O I) as X; destruct X as [<-|[<-|[<-|[<-|[]]]]]; [discriminate K..|reflexivity]).
  destruct O as [N _].
  destruct (list_full _ _ _ _ _ _ _ N M I eq_refl a V t A) as (z & lt & -> & Ot & _ & Mc & _ & _ & _ & Mi).
  split; [discriminate|]. intros l2 k2 v2 E I2 K2. injection E as <-. intros a2 -> B. pose proof (only_names _ _ _ _ Ot I2) as X. destruct Ot as [Nt _].
  assert (D : k2 = "columns" \/ k2 = "indices").
  { destruct X as [<-|[<-|[<-|[<-|[<-|[<-|[]]]]]]]; auto; destruct K2 as [K2|K2]; discriminate K2. }
  destruct D as [->| ->].
  - destruct (list_full _ _ _ _ _ _ _ Nt Mc I2 eq_refl a2 eq_refl JNull B) as (c & ? & X' & _). discriminate X'.
  - destruct (list_full _ _ _ _ _ _ _ Nt Mi I2 eq_refl a2 eq_refl JNull B) as (c & ? & X' & _). discriminate X'.
Qed.

Lemma document_loads : forall w fs name text j s, sorts_tables (w_sort w) -> octopus_name name ->
  fs name = Some text -> read_text text = Some j -> doc_schema false j s -> fits_u16 s ->
  exists s', load_file w fs name = Loaded s' /\ ((forall c, In c (columns_of s) -> repairable c) -> schema_repaired s s').
Proof.
  intros w fs name text j s Hs O F R D Fit. exists (load_schema_decoded (w_sort w) s).
  unfold load_file. rewrite (accepts_octopus _ O), F, R. destruct (full_kept _ (doc_full _ _ _ D)) as (E1 & E2 & E3 & E4).
  rewrite E1, (from_document _ _ Fit D), E2, E3, E4. split; [reflexivity|].
  intros Rep. apply (normalize_error (w_sort w) s Hs) in Rep. unfold load_schema_decoded.
  destruct (normalize (w_sort w) s) as [s' e] eqn:N. cbn [snd fst] in *. subst e. now apply (normalize_repaired (w_sort w)).
Qed.

(** "ref" as a list, and a large size *)
Definition listed_text : string :=
  "{""tables"": [{""name"": ""a"", ""columns"": [{""name"": ""b"", ""type"": ""int32"", ""ref"": [{""table"": ""c"", ""column"": ""d""}]}]}]}".
Definition listed_json : json :=
  JObj [("tables", JArr [JObj [("name", JStr "a"); ("columns", JArr [JObj [("name", JStr "b"); ("type", JStr "int32");
    ("ref", JArr [JObj [("table", JStr "c"); ("column", JStr "d")]])]])]])].
Definition listed_schema : schema :=
  mkSchema "" "" "" [mkTable "a" [mkCol "b" "int32" "" 0 0 false false false false "" "" [] (Some (mkRef "c" "d" ""))] "" "" "" []].
Ltac here := cbn; repeat (first [left; reflexivity|right]).
Ltac not_here := right; split; [intros X; cbn in X; repeat (destruct X as [X|X]; [discriminate X|]); exact X|reflexivity].
Ltac known := split; [repeat constructor; cbn; intuition discriminate|intros x X; cbn in X; repeat (destruct X as [<-|X]; [here|]); destruct X].
Lemma list_refused : exists text j s, read_text text = Some j /\ doc_schema true j s /\ valid_schema s /\
  forall w fs name, fs name = Some text -> load_file w fs name = LoadFailed.
Proof.
  exists listed_text, listed_json, listed_schema. split; [vm_compute; reflexivity|]. split; [|split].
  - eexists. split; [reflexivity|]. split; [known|]. split; [not_here|]. split; [not_here|]. split; [not_here|].
    left. eexists. split; [here|]. constructor; [|constructor].
    eexists. split; [reflexivity|]. split; [known|]. split; [left; here|]. split.
    + left. eexists. split; [here|]. constructor; [|constructor].
      eexists. split; [reflexivity|]. split; [known|]. split; [left; here|]. split; [left; here|].
      do 10 (split; [not_here|]). left. eexists. split; [here|]. cbn [ref_meaning c_ref]. eexists. split; [reflexivity|].
      eexists. split; [reflexivity|]. eexists. split; [reflexivity|]. split; [known|].
      split; [left; here|]. split; [left; here|]. not_here.
    + split; [not_here|]. split; [not_here|]. split; [not_here|]. not_here.
  - intros c [<-|[]]. split; [discriminate|]. split; [here|]. split; [discriminate|]. split; discriminate.
  - intros w fs name F. unfold load_file. destruct (load_schema_accepts name); [|reflexivity]. rewrite F.
    replace (read_text listed_text) with (Some listed_json) by (vm_compute; reflexivity). reflexivity.
Qed.

Definition large_text : string :=
  "{""tables"": [{""columns"": [{""name"": ""b"", ""type"": ""varchar"", ""size"": 70000}]}]}".
Definition large_json : json :=
  JObj [("tables", JArr [JObj [("columns", JArr [JObj [("name", JStr "b"); ("type", JStr "varchar"); ("size", JNum "70000")]])]])].
Definition large_schema : schema :=
  mkSchema "" "" "" [mkTable "" [mkCol "b" "varchar" "" 70000 0 false false false false "" "" [] None] "" "" "" []].
Lemma large_refused : exists text j s, read_text text = Some j /\ doc_schema false j s /\ valid_schema s /\
  forall w fs name, fs name = Some text -> load_file w fs name = LoadFailed.
Proof.
  exists large_text, large_json, large_schema. split; [vm_compute; reflexivity|]. split; [|split].
  - eexists. split; [reflexivity|]. split; [known|]. split; [not_here|]. split; [not_here|]. split; [not_here|].
    left. eexists. split; [here|]. constructor; [|constructor].
    eexists. split; [reflexivity|]. split; [known|]. split; [not_here|]. split.
    + left. eexists. split; [here|]. constructor; [|constructor].
      eexists. split; [reflexivity|]. split; [known|]. split; [left; here|]. split; [left; here|].
      split; [not_here|]. split; [left; here|]. do 8 (split; [not_here|]). not_here.
    + split; [not_here|]. split; [not_here|]. split; [not_here|]. not_here.
  - intros c [<-|[]]. split; [discriminate|]. split; [here|]. split; [discriminate|]. split; discriminate.
  - intros w fs name F. unfold load_file. destruct (load_schema_accepts name); [|reflexivity]. rewrite F.
    replace (read_text large_text) with (Some large_json) by (vm_compute; reflexivity). reflexivity.
Qed.

(** ** Documented MySQL types *)
Lemma mysql_types : forall c c' my, column_repaired c c' -> In (to_lower (c_type c), my) documented_mysql ->
  to_mysql_column_type c' = my ++
    (if str_in my sized_mysql && N.ltb 0 (c_size c)
     then if N.ltb 0 (c_scale c) then "(" ++ itoa (c_size c) ++ "," ++ itoa (c_scale c) ++ ")" else "(" ++ itoa (c_size c) ++ ")"
     else "").
Proof.
  intros c c' my (K & _ & _ & _ & Z & S & _) D.
  assert (E : exists t', In (to_lower (c_type c), t') documented_aliases /\ c_type c' = t').
  { destruct K as [K|[K _]]; [eauto|]. exfalso. apply K.
    cbn in D. repeat (destruct D as [D|D]; [injection D as D _; rewrite <- D; here|]). destruct D. }
  destruct E as (t' & A & T). rewrite <- Z, <- S.
  remember (to_lower (c_type c)) as n eqn:N. clear N K.
  unfold to_mysql_column_type, format_column_type. rewrite T. clear T Z S.
  cbn in D. repeat (destruct D as [D|D]; [injection D as <- <-|]); [..|destruct D];
    cbn in A; repeat (destruct A as [A|A]; [try discriminate A; injection A as <-|]); try destruct A;
    cbn [String.eqb Ascii.eqb Bool.eqb str_in sized_mysql existsb orb andb negb]; cbn;
    destruct (N.ltb 0 (c_size c')), (N.ltb 0 (c_scale c')); reflexivity.
Qed.

(** ** Null tables *)
Definition null_text : string := "{""tables"": [null]}".
Lemma null_crashes : exists text, forall w fs name, octopus_name name -> fs name = Some text -> load_file w fs name = LoadCrashed.
Proof.
  exists null_text. intros w fs name O F. unfold load_file. rewrite (accepts_octopus _ O), F.
  replace (read_text null_text) with (Some (JObj [("tables", JArr [JNull])])) by (vm_compute; reflexivity). reflexivity.
Qed.
Lemma last_member_true : forall n p j, last_member n p j = true -> exists v, member j (to_lower n) v /\ p v = true.
Proof.
  intros n p j H. destruct j as [| | | | |l]; try discriminate. unfold last_member in H.
  assert (G : forall l b, fold_left (fun (b : bool) (kv : string * json) => let '(k, v) := kv in if key_is n k then p v else b) l b = true ->
      b = true \/ exists k v, In (k, v) l /\ to_lower k = to_lower n /\ p v = true).
  { clear. induction l as [|[k v] l IH]; intros b B; cbn [fold_left] in B; [now left|].
    apply IH in B as [B|(k' & v' & I & K & A)]; [|right; exists k', v'; split; [now right|auto]].
    destruct (key_is n k) eqn:K; [|now left]. right. exists k, v. split; [now left|]. split; [|exact B].
    unfold key_is in K. now apply String.eqb_eq in K. }
  apply G in H as [H|(k & v & I & K & V)]; [discriminate|]. exists v. split; [|exact V]. exists l, k. auto.
Qed.
Lemma some_element_true : forall p j, some_element p j = true -> exists x, element j x /\ p x = true.
Proof.
  intros p j H. destruct j as [| | | |a|]; try discriminate. apply existsb_exists in H as (x & I & X).
  exists x. split; [|exact X]. exists a. auto.
Qed.
Lemma null_element : forall j, some_element is_null j = true -> element j JNull.
Proof. intros j H. apply some_element_true in H as (x & E & X). destruct x; try discriminate. exact E. Qed.
Lemma null_part_true : forall n j, last_member "tables" (some_element (last_member n (some_element is_null))) j = true ->
  null_part (to_lower n) j.
Proof.
  intros n j H. apply last_member_true in H as (ts & T & H). apply some_element_true in H as (t & E & H).
  apply last_member_true in H as (cs & C & H). exists ts, t, cs. apply null_element in H. auto.
Qed.
Lemma null_table_true : forall j, has_null_table j = true -> null_table j.
Proof. intros j N. apply last_member_true in N as (ts & T & N). exists ts. split; [exact T|]. now apply null_element. Qed.

(** what each ending means *)
Definition null_meaning (r : loaded) (j : json) : Prop :=
  match r with
  | LoadCrashed => null_table j \/ null_part "columns" j
  | LoadNil => null_part "indices" j
  | LoadUnknown => null_part "columns" j
  | _ => True
  end.
Lemma crash_null : forall w fs name, (load_file w fs name = LoadCrashed -> exists text j, fs name = Some text /\
    read_text text = Some j /\ (null_table j \/ null_part "columns" j)) /\
  (load_file w fs name = LoadNil -> exists text j, fs name = Some text /\ read_text text = Some j /\ null_part "indices" j) /\
  (load_file w fs name = LoadUnknown -> exists text j, fs name = Some text /\ read_text text = Some j /\ null_part "columns" j).
Proof.
  intros w fs name.
  assert (G : forall r, load_file w fs name = r -> r = LoadCrashed \/ r = LoadNil \/ r = LoadUnknown ->
    exists text j, fs name = Some text /\ read_text text = Some j /\ null_meaning r j).
  { intros r <-. unfold load_file. destruct (load_schema_accepts name); [|now intros [H|[H|H]]].
    destruct (fs name) as [text|]; [|now intros [H|[H|H]]]. destruct (read_text text) as [j|] eqn:R; [|now intros [H|[H|H]]].
    intros H. exists text, j. split; [reflexivity|]. split; [exact R|]. revert H.
    destruct (from_json (without_nulls j)); [|now intros [H|[H|H]]]. destruct (has_null_table j) eqn:N.
    { intros _. left. now apply null_table_true. }
    destruct (has_null_column j) eqn:N1.
    { intros _. apply (null_part_true "columns") in N1. destruct (existsb _ _); [exact N1|now right]. }
    destruct (has_null_index j) eqn:N2; [|now intros [H|[H|H]]]. intros _. exact (null_part_true "indices" _ N2). }
  split; [|split]; intros E; apply (G _ E); auto.
Qed.

(** ** Documents with null elements *)
Definition plain (x : json) : Prop := x <> JNull.
Lemma drop_padded : forall (f : json -> json) a a', padded a a' -> Forall plain a ->
  map f (filter (fun x => negb (is_null x)) a') = map f a.
Proof.
  intros f a a' P. induction P as [|l l' P IH|x l l' P IH]; intros F; [reflexivity|exact (IH F)|]. inversion F; subst.
  cbn [filter]. destruct (is_null x) eqn:E; [destruct x; try discriminate; now destruct H1|]. cbn [negb map]. f_equal. auto.
Qed.
Lemma meaning_plain : forall A (P : json -> A -> Prop) a x, (forall j y, P j y -> j <> JNull) -> Forall2 P a x -> Forall plain a.
Proof. intros A P a x H. induction 1; constructor; eauto. exact (H _ _ H0). Qed.
Lemma column_plain : forall j c, doc_column false j c -> j <> JNull. Proof. intros j c (l & -> & _). discriminate. Qed.
Lemma index_plain : forall j c, doc_index j c -> j <> JNull. Proof. intros j c (l & -> & _). discriminate. Qed.
Lemma table_plain : forall j c, padded_table j c -> j <> JNull. Proof. intros j c (l & -> & _). discriminate. Qed.

(** members by name, once the list has only known names *)
Definition changed (n : string) (f : json -> json) (l : list (string * json)) : list (string * json) :=
  map (fun kv => let '(k, v) := kv in (k, if key_is n k then f v else v)) l.
Lemma changed_names : forall n f l, map fst (changed n f l) = map fst l.
Proof. intros n f l. unfold changed. rewrite map_map. apply map_ext. now intros [k v]. Qed.
Lemma changed_only : forall n f names l, has_only names l -> has_only names (changed n f l).
Proof. intros n f names l [N I]. split; rewrite changed_names; auto. Qed.
Lemma changed_absent : forall n f l k, absent l k -> absent (changed n f l) k.
Proof. intros n f l k A. unfold absent. now rewrite changed_names. Qed.
Lemma changed_other : forall n f l k v, key_is n k = false -> In (k, v) l -> In (k, v) (changed n f l).
Proof. intros n f l k v K I. unfold changed. apply in_map_iff. exists (k, v). rewrite K. auto. Qed.
Lemma changed_this : forall n f l k v, key_is n k = true -> In (k, v) l -> In (k, f v) (changed n f l).
Proof. intros n f l k v K I. unfold changed. apply in_map_iff. exists (k, v). rewrite K. auto. Qed.
Lemma changed_str : forall n f l k x, key_is n k = false -> str_member l k x -> str_member (changed n f l) k x.
Proof. intros n f l k x K [I|[A E]]; [left; now apply changed_other|right; split; [now apply changed_absent|exact E]]. Qed.
Lemma changed_padded : forall n f A (P : json -> A -> Prop) l k x, key_is n k = false ->
  padded_member P l k x -> padded_member P (changed n f l) k x.
Proof.
  intros n f A P l k x K [(a & a' & I & R)|[B E]]; [left; exists a, a'; split; [now apply changed_other|exact R]|].
  right. split; [now apply changed_absent|exact E].
Qed.
Lemma changed_list : forall n f A (P : json -> A -> Prop) l k x, key_is n k = false ->
  list_member P l k x -> list_member P (changed n f l) k x.
Proof.
  intros n f A P l k x K [(a & I & R)|[B E]]; [left; exists a; split; [now apply changed_other|exact R]|].
  right. split; [now apply changed_absent|exact E].
Qed.
Lemma dropped_list : forall f A (P Q : json -> A -> Prop) l k x, key_is k k = true -> (forall j y, P j y -> j <> JNull) ->
  (forall j y, P j y -> Q (f j) y) -> padded_member P l k x -> list_member Q (changed k (drop_nulls f) l) k x.
Proof.
  intros f A P Q l k x K N H [(a & a' & I & R & F)|[B E]]; [|right; split; [now apply changed_absent|exact E]].
  left. exists (map f a). split.
  - apply (changed_this k (drop_nulls f)) in I; [|exact K]. cbn [drop_nulls] in I.
    now rewrite (drop_padded f a a' R (meaning_plain _ _ _ _ N F)) in I.
  - clear I R. induction F as [|j y a x M F IH]; cbn [map]; constructor; auto.
Qed.
Lemma cleared_table : forall j t, padded_table j t ->
  doc_table false (map_member "indices" (drop_nulls same) (map_member "columns" (drop_nulls same) j)) t.
Proof.
  intros j t (l & -> & O & A & B & C & D & E & F). exists (changed "indices" (drop_nulls same) (changed "columns" (drop_nulls same) l)).
  split; [reflexivity|]. split; [apply changed_only, changed_only, O|].
  split; [apply changed_str, changed_str; [reflexivity..|exact A]|].
  split; [apply changed_list; [reflexivity|]; apply (dropped_list same _ (doc_column false)); [reflexivity|exact column_plain|auto|exact B]|].
  split; [apply changed_str, changed_str; [reflexivity..|exact C]|]. split; [apply changed_str, changed_str; [reflexivity..|exact D]|].
  split; [apply changed_str, changed_str; [reflexivity..|exact E]|].
  apply (dropped_list same _ doc_index); [reflexivity|exact index_plain|auto|]. now apply changed_padded.
Qed.
Lemma cleared_schema : forall j s, padded_schema j s -> doc_schema false (without_nulls j) s.
Proof.
  intros j s (l & -> & O & A & B & C & D). eexists. split; [reflexivity|].
  change (map (fun kv : string * json => let '(k, v) := kv in (k, if key_is "tables" k then _ else v)) l)
    with (changed "tables" (drop_nulls (fun t => map_member "indices" (drop_nulls same) (map_member "columns" (drop_nulls same) t))) l).
  split; [apply changed_only, O|]. split; [apply changed_str; [reflexivity|exact A]|]. split; [apply changed_str; [reflexivity|exact B]|].
  split; [apply changed_str; [reflexivity|exact C]|]. apply (dropped_list _ _ padded_table); [reflexivity|exact table_plain|exact cleared_table|exact D].
Qed.

(** the only member of its name is the last one *)
Lemma last_of : forall n p names l v, has_only names l -> (forall k, In k names -> key_is n k = true -> k = n) ->
  key_is n n = true -> In (n, v) l -> last_member n p (JObj l) = p v.
Proof.
  intros n p names l v [N S] U K I. unfold last_member. revert N S I.
  assert (G : forall l b, ~ In n (map fst l) -> incl (map fst l) names ->
    fold_left (fun (b : bool) (kv : string * json) => let '(k, v) := kv in if key_is n k then p v else b) l b = b).
  { clear l. induction l as [|[k x] l IH]; intros b N S; [reflexivity|]. cbn [fold_left]. cbn in N.
    destruct (key_is n k) eqn:E; [|apply IH; [tauto|intros z Z; apply S; now right]].
    exfalso. apply N. left. apply U; [apply S; now left|exact E]. }
  generalize false. induction l as [|[k x] l IH]; intros b N S I; [destruct I|]. cbn [fold_left]. cbn in N. apply NoDup_cons_iff in N as [N1 N2].
  destruct I as [E|I].
  - injection E as -> ->. rewrite K. apply G; [exact N1|intros z Z; apply S; now right].
  - apply IH; [exact N2|intros z Z; apply S; now right|exact I].
Qed.
Lemma element_some : forall p j x, element j x -> p x = true -> some_element p j = true.
Proof. intros p j x (a & -> & I) H. cbn. apply existsb_exists. eauto. Qed.
Ltac by_names := let k := fresh in let X := fresh in intros k X; cbn in X; repeat (destruct X as [<-|X]; [intros; first [reflexivity|discriminate]|]); destruct X.
Lemma member_name : forall names l k n, has_only names l -> In k (map fst l) ->
  (forall k, In k names -> to_lower k = n -> k = n) -> to_lower k = n -> k = n.
Proof. intros names l k n [_ S] I U E. apply U; auto. Qed.
Lemma found_last : forall n p names l v, has_only names l -> (forall k, In k names -> to_lower k = n -> k = n) ->
  to_lower n = n -> member (JObj l) n v -> last_member n p (JObj l) = p v.
Proof.
  intros n p names l v O U L (l' & k & E & I & K). injection E as <-.
  assert (k = n) as ->. { apply U; [|exact K]. apply (proj2 O). apply in_map_iff. exists (k, v). auto. }
  apply (last_of n p names); auto.
  - intros k J H. unfold key_is in H. apply String.eqb_eq in H. apply U; congruence.
  - unfold key_is. apply String.eqb_refl.
Qed.
Lemma table_names : forall k, In k ["name"; "columns"; "desc"; "group"; "className"; "indices"] ->
  forall n, In n ["columns"; "indices"] -> to_lower k = n -> k = n.
Proof.
  intros k X n N. cbn in X, N. destruct N as [<-|[<-|[]]]; repeat (destruct X as [<-|X]; [intros; first [reflexivity|discriminate]|]); destruct X.
Qed.
Lemma null_found : forall j s, padded_schema j s ->
  (null_table j -> has_null_table j = true) /\ (null_part "columns" j -> has_null_column j = true) /\
  (null_part "indices" j -> has_null_index j = true).
Proof.
  intros j s (l & -> & O & _ & _ & _ & D).
  assert (U : forall k, In k ["author"; "name"; "version"; "tables"] -> to_lower k = "tables" -> k = "tables") by by_names.
  assert (T : forall p ts, member (JObj l) "tables" ts -> last_member "tables" p (JObj l) = p ts)
    by (intros p ts M; exact (found_last _ p _ _ _ O U eq_refl M)).
  assert (Q : forall n, In n ["columns"; "indices"] -> null_part n (JObj l) ->
    last_member "tables" (some_element (last_member n (some_element is_null))) (JObj l) = true).
  { intros n N (ts & t & cs & M & (a' & -> & I) & C & E). rewrite (T _ _ M). apply (element_some _ _ t); [eexists; eauto|].
    destruct C as (lt & k & -> & C & K).
    assert (H : exists z, padded_table (JObj lt) z).
    { destruct M as (l2 & k2 & E2 & M & K2). injection E2 as <-.
      assert (k2 = "tables") as ->. { apply U; [|exact K2]. apply (proj2 O), in_map_iff. eexists. split; [|exact M]. reflexivity. }
      destruct D as [(a & a2 & D & P & F)|[B _]]; [|exfalso; apply B, in_map_iff; eexists; split; [|exact M]; reflexivity].
      assert (X : JArr a' = JArr a2) by exact (lookup_unique _ _ _ _ (proj1 O) M D). injection X as <-.
      assert (Ia : In (JObj lt) a).
      { clear -P I. induction P as [|l0 l' P IH|x l0 l' P IH]; [exact I|destruct I as [I|I]; [discriminate I|auto]|].
        destruct I as [I|I]; [now left|right; auto]. }
      clear -F Ia. induction F as [|x y a r F1 F IH]; [destruct Ia|]. destruct Ia as [->|Ia]; [eauto|auto]. }
    destruct H as (z & l3 & X & Ot & _). injection X as <-.
    rewrite (found_last n _ _ _ cs Ot); [now apply (element_some _ _ JNull)| | |].
    - intros k' J. now apply table_names.
    - destruct N as [<-|[<-|[]]]; reflexivity.
    - exists lt, k. auto. }
  split; [|split]; [|apply Q; cbn; auto..].
  intros (ts & M & E). unfold has_null_table. rewrite (T _ _ M). now apply (element_some _ _ JNull).
Qed.
Lemma invalid_none : forall s, (forall c, In c (columns_of s) -> repairable c) ->
  existsb invalid_column (flat_map t_cols (s_tables s)) = false.
Proof.
  intros s H. destruct (existsb _ _) eqn:E; [|reflexivity]. apply existsb_exists in E as (c & I & X). apply H in I.
  apply repairable_iff in I. unfold invalid_column in X. now rewrite I in X.
Qed.
Lemma nulls_load : forall w fs name text j s, octopus_name name -> fs name = Some text -> read_text text = Some j ->
  padded_schema j s -> fits_u16 s -> (forall c, In c (columns_of s) -> repairable c) ->
  (null_table j \/ null_part "columns" j -> load_file w fs name = LoadCrashed) /\
  (~ null_table j -> ~ null_part "columns" j -> null_part "indices" j -> load_file w fs name = LoadNil) /\
  (~ null_table j -> ~ null_part "columns" j -> ~ null_part "indices" j ->
     exists s', load_file w fs name = Loaded s').
Proof.
  intros w fs name text j s O F R P Fit Rep. destruct (null_found _ _ P) as (T & C & I).
  unfold load_file. rewrite (accepts_octopus _ O), F, R, (from_document _ _ Fit (cleared_schema _ _ P)), (invalid_none _ Rep).
  assert (T' : ~ null_table j -> has_null_table j = false).
  { intros N. destruct (has_null_table j) eqn:E; [|reflexivity]. destruct N. now apply null_table_true. }
  assert (C' : ~ null_part "columns" j -> has_null_column j = false).
  { intros N. destruct (has_null_column j) eqn:E; [|reflexivity]. destruct N. exact (null_part_true "columns" _ E). }
  assert (I' : ~ null_part "indices" j -> has_null_index j = false).
  { intros N. destruct (has_null_index j) eqn:E; [|reflexivity]. destruct N. exact (null_part_true "indices" _ E). }
  split; [|split].
  - intros [N|N]; [now rewrite (T N)|]. rewrite (C N). now destruct (has_null_table j).
  - intros N1 N2 N3. now rewrite (T' N1), (C' N2), (I N3).
  - intros N1 N2 N3. rewrite (T' N1), (C' N2), (I' N3). eauto.
Qed.

(** ** The example at the end of octopus-format.md *)
Definition example_text : string :=
"{
  ""version"": ""1.0.0"",
  ""tables"": [
    {
      ""name"": ""group"",
      ""columns"": [
        {
          ""name"": ""id"",
          ""type"": ""long"",
          ""desc"": ""unique id"",
          ""pk"": true,
          ""autoinc"": true
        },
        {
          ""name"": ""name"",
          ""type"": ""string"",
          ""desc"": ""group name"",
          ""size"": 40,
          ""unique"": true
        }
      ],
      ""desc"": ""Group table""
    },
    {
      ""name"": ""user"",
      ""columns"": [
        {
          ""name"": ""id"",
          ""type"": ""long"",
          ""desc"": ""unique id"",
          ""pk"": true,
          ""autoinc"": true
        },
        {
          ""name"": ""name"",
          ""type"": ""string"",
          ""desc"": ""user login name"",
          ""size"": 40,
          ""unique"": true
        },
        {
          ""name"": ""group_id"",
          ""type"": ""long"",
          ""desc"": ""group ID"",
          ""ref"": {
            ""table"": ""group"",
            ""column"": ""id""
          }
        }
      ],
      ""desc"": ""User table"",
      ""indices"": [
        {
          ""name"": ""group_id_index"",
          ""columns"": [""group_id""]
        }
      ]
    }
  ]
}".
Definition example_json : json :=
  JObj [("version", JStr "1.0.0"); ("tables", JArr [JObj [("name", JStr "group"); ("columns", JArr [JObj [("name", JStr "id"); ("type", JStr "long"); ("desc", JStr "unique id"); ("pk", JBool true); ("autoinc", JBool true)]; JObj [("name", JStr "name"); ("type", JStr "string"); ("desc", JStr "group name"); ("size", JNum "40"); ("unique", JBool true)]]); ("desc", JStr "Group table")]; JObj [("name", JStr "user"); ("columns", JArr [JObj [("name", JStr "id"); ("type", JStr "long"); ("desc", JStr "unique id"); ("pk", JBool true); ("autoinc", JBool true)]; JObj [("name", JStr "name"); ("type", JStr "string"); ("desc", JStr "user login name"); ("size", JNum "40"); ("unique", JBool true)]; JObj [("name", JStr "group_id"); ("type", JStr "long"); ("desc", JStr "group ID"); ("ref", JObj [("table", JStr "group"); ("column", JStr "id")])]]); ("desc", JStr "User table"); ("indices", JArr [JObj [("name", JStr "group_id_index"); ("columns", JArr [JStr "group_id"])]])]])].
Definition example_schema : schema :=
  mkSchema "" "" "1.0.0" [mkTable "group" [mkCol "id" "long" "unique id" 0 0 false true false true "" "" [] None;
    mkCol "name" "string" "group name" 40 0 false false true false "" "" [] None] "Group table" "" "" [];
   mkTable "user" [mkCol "id" "long" "unique id" 0 0 false true false true "" "" [] None;
    mkCol "name" "string" "user login name" 40 0 false false true false "" "" [] None;
    mkCol "group_id" "long" "group ID" 0 0 false false false false "" "" [] (Some (mkRef "group" "id" ""))] "User table" "" "" [mkIdx "group_id_index" ["group_id"]]].
Ltac member := first [not_here|left; here].
Ltac strs := first [not_here|left; eexists; split; [here|]; repeat constructor].
Ltac reference := eexists; split; [reflexivity|]; split; [known|]; split; [member|]; split; member.
Ltac column :=
  eexists; split; [reflexivity|]; split; [known|]; do 11 (split; [member|]); split; [strs|];
  first [not_here|left; eexists; split; [here|]; cbn [ref_meaning c_ref]; eexists; split; [reflexivity|]; reference].
Ltac indices := first [not_here|left; eexists; split; [here|]; repeat (constructor; [eexists; split; [reflexivity|]; split; [known|]; split; [member|strs]|]); constructor].
Ltac one_table :=
  eexists; split; [reflexivity|]; split; [known|]; split; [member|]; split;
  [left; eexists; split; [here|]; repeat (constructor; [column|]); constructor|]; do 3 (split; [member|]); indices.
Lemma example_ok : read_text example_text = Some example_json /\ doc_schema false example_json example_schema /\
  fits_u16 example_schema /\ (forall c, In c (columns_of example_schema) -> repairable c) /\
  exists s', load_file sample_world (fun _ => Some example_text) "db.json" = Loaded s' /\ map t_name (s_tables s') = ["group"; "user"].
Proof.
  split; [vm_compute; reflexivity|]. split; [|split; [apply fits_checked; reflexivity|split]].
  - eexists. split; [reflexivity|]. split; [known|]. do 3 (split; [member|]).
    left. eexists. split; [here|]. repeat (constructor; [one_table|]). constructor.
  - apply (normalize_error isort_tables example_schema isort_sorts). vm_compute. reflexivity.
  - exists (schema_of (load_file sample_world (fun _ => Some example_text) "db.json")). split; vm_compute; reflexivity.
Qed.
Lemma mysql_case :
  to_mysql_column_type (mkCol "price" "decimal" "" 12 2 false false false false "" "" [] None) = "decimal(12,2)" /\
  In (to_lower "Numeric", "decimal") documented_mysql /\
  column_repaired (mkCol "price" "Numeric" "" 12 2 false false false false "" "" [] None)
                  (mkCol "price" "decimal" "" 12 2 false false false false "" "" [] None).
Proof.
  split; [vm_compute; reflexivity|]. split; [here|]. split.
  - left. here.
  - split; [split; [discriminate|intros [X _]; discriminate X]|]. repeat split.
Qed.

(** ** Null elements in an otherwise good file *)
Definition nulls_text (table column index : string) : string :=
  "{""tables"": [" ++ table ++ "{""name"": ""a"", ""columns"": [{""name"": ""b"", ""type"": ""int32""}" ++ column
  ++ "], ""indices"": [" ++ index ++ "{""name"": ""i"", ""columns"": [""b""]}]}]}".
Definition nulls_json (table column index : list json) : json :=
  JObj [("tables", JArr (table ++ [JObj [("name", JStr "a"); ("columns", JArr (JObj [("name", JStr "b"); ("type", JStr "int32")] :: column));
    ("indices", JArr (index ++ [JObj [("name", JStr "i"); ("columns", JArr [JStr "b"])]]))]]))]%list.
Definition nulls_schema : schema :=
  mkSchema "" "" "" [mkTable "a" [mkCol "b" "int32" "" 0 0 false false false false "" "" [] None] "" "" "" [mkIdx "i" ["b"]]].
Lemma nulls_padded : forall a b c, Forall (eq JNull) a -> Forall (eq JNull) b -> Forall (eq JNull) c ->
  padded_schema (nulls_json a b c) nulls_schema.
Proof.
  assert (P : forall n a x, Forall (eq JNull) n -> padded a x -> padded a (n ++ x)%list).
  { induction 1 as [|y n <- F IH]; intros H; [exact H|]. apply padded_null, IH, H. }
  assert (Z : forall n, Forall (eq JNull) n -> padded [] n). { induction 1 as [|y n <- F IH]; constructor; exact IH. }
  intros a b c A B C. eexists. split; [reflexivity|]. split; [known|]. split; [not_here|]. split; [not_here|]. split; [not_here|].
  left. do 2 eexists. split; [left; reflexivity|]. split; [apply P; [exact A|constructor; constructor]|]. constructor; [|constructor].
  eexists. split; [reflexivity|]. split; [known|]. split; [left; here|]. split.
  { left. do 2 eexists. split; [right; left; reflexivity|]. split; [constructor; apply Z, B|]. constructor; [|constructor].
    eexists. split; [reflexivity|]. split; [known|]. repeat split; try not_here; left; here. }
  split; [not_here|]. split; [not_here|]. split; [not_here|].
  left. do 2 eexists. split; [right; right; left; reflexivity|]. split; [apply P; [exact C|constructor; constructor]|]. constructor; [|constructor].
  eexists. split; [reflexivity|]. split; [known|]. split; [left; here|]. left. eexists. split; [here|]. repeat constructor.
Qed.
Lemma nulls_case : (forall c, In c (columns_of nulls_schema) -> repairable c) /\ fits_u16 nulls_schema /\
  (read_text (nulls_text "null, " "" "") = Some (nulls_json [JNull] [] []) /\
   padded_schema (nulls_json [JNull] [] []) nulls_schema /\ null_table (nulls_json [JNull] [] [])) /\
  (read_text (nulls_text "" ", null, null" "") = Some (nulls_json [] [JNull; JNull] []) /\
   padded_schema (nulls_json [] [JNull; JNull] []) nulls_schema /\ null_part "columns" (nulls_json [] [JNull; JNull] [])) /\
  (read_text (nulls_text "" "" "null, ") = Some (nulls_json [] [] [JNull]) /\
   padded_schema (nulls_json [] [] [JNull]) nulls_schema /\ null_part "indices" (nulls_json [] [] [JNull]) /\
   ~ null_table (nulls_json [] [] [JNull]) /\ ~ null_part "columns" (nulls_json [] [] [JNull])).
Proof.
  assert (M : forall l k v, member (JObj l) k v -> exists k', In (k', v) l /\ to_lower k' = k).
  { intros l k v (l' & k' & E & I & K). injection E as <-. eauto. }
  assert (X : forall a x, element (JArr a) x -> In x a). { intros a x (a' & E & I). now injection E as <-. }
  split; [|split; [|split; [|split]]].
  - intros c [<-|[]]. apply repairable_iff. reflexivity.
  - intros c [<-|[]]. split; reflexivity.
  - split; [vm_compute; reflexivity|]. split; [apply nulls_padded; repeat constructor|]. eexists. split; [do 2 eexists; split; [reflexivity|]; split; [left; reflexivity|reflexivity]|].
    eexists. split; [reflexivity|]. now left.
  - split; [vm_compute; reflexivity|]. split; [apply nulls_padded; repeat constructor|]. do 3 eexists.
    split; [do 2 eexists; split; [reflexivity|]; split; [left; reflexivity|reflexivity]|].
    split; [eexists; split; [reflexivity|now left]|].
    split; [do 2 eexists; split; [reflexivity|]; split; [right; left; reflexivity|reflexivity]|].
    eexists. split; [reflexivity|]. right. now left.
  - split; [vm_compute; reflexivity|]. split; [apply nulls_padded; repeat constructor|]. split; [|split].
    + do 3 eexists. split; [do 2 eexists; split; [reflexivity|]; split; [left; reflexivity|reflexivity]|].
      split; [eexists; split; [reflexivity|now left]|].
      split; [do 2 eexists; split; [reflexivity|]; split; [right; right; left; reflexivity|reflexivity]|].
      eexists. split; [reflexivity|]. now left.
    + intros (ts & T & E). apply M in T as (k & [T|[]] & _). injection T as _ <-. apply X in E as [E|[]]. discriminate E.
    + intros (ts & t & cs & T & E & C & N). apply M in T as (k & [T|[]] & _). injection T as _ <-. apply X in E as [<-|[]].
      apply M in C as (k' & [C|[C|[C|[]]]] & K'); injection C as <- <-; try discriminate K'. apply X in N as [N|[]]. discriminate N.
Qed.
