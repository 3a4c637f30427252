(** Messages about schemas (C143) *)
From Coq Require Import String Ascii List NArith ZArith Bool Lia Arith Sorting.Permutation Sorting.Sorted.
From Verif.Model Require Import GoString Octopus Messages.
From Verif.Spec Require Import Text Reading OctopusSpec MarkdownReading MessageSpec.
From Verif.Proofs Require Import StringLemmas ListLemmas TypeProofs MarkdownWriterProofs OctopusProofs ReadingProofs.
Import ListNotations.
Local Open Scope string_scope.

Lemma message_none : forall sortf s, sorts_tables sortf -> (normalize_message sortf s = None <-> snd (normalize sortf s) = None).
Proof.
  intros sortf s _. unfold normalize_message, normalize. generalize (sortf (s_tables s)) as ts. clear.
  assert (C : forall cs, cols_message cs = None <-> snd (normalize_cols cs) = None).
  { induction cs as [|c cs IH]; [tauto|]. cbn [cols_message normalize_cols]. destruct (validate true (normalize_type c)) as [c' [e|]]; [split; discriminate|].
    destruct (normalize_cols cs). exact IH. }
  assert (T : forall ts, tables_message ts = None <-> snd (normalize_tables ts) = None).
  { induction ts as [|t ts IH]; [tauto|]. cbn [tables_message normalize_tables]. specialize (C (t_cols t)).
    destruct (cols_message (t_cols t)), (normalize_cols (t_cols t)) as [cs [e|]]; cbn [snd] in *; try (split; discriminate); try (destruct C as [A B]; (specialize (A eq_refl) || specialize (B eq_refl)); discriminate).
    destruct (normalize_tables ts). exact IH. }
  intros ts. specialize (T ts). destruct (normalize_tables ts). exact T.
Qed.

Lemma strip_app : forall p s, strip p (p ++ s) = Some s.
Proof. induction p as [|a p IH]; intros s; [reflexivity|]. cbn [append strip]. now rewrite Ascii.eqb_refl, IH. Qed.
Lemma strip_end_app : forall p s, strip_end p (s ++ p) = Some s.
Proof.
  intros p. induction s as [|a s IH]; cbn [append].
  - destruct p; cbn [strip_end]; now rewrite String.eqb_refl.
  - cbn [strip_end]. destruct (String.eqb_spec (String a (s ++ p)) p) as [E|_]; [|now rewrite IH].
    exfalso. apply (f_equal String.length) in E. cbn [String.length] in E. rewrite StringLemmas.length_app_s in E. lia.
Qed.
Lemma strip_eval : forall p q s, strip (p ++ q) (p ++ s) = strip q s.
Proof. induction p as [|a p IH]; intros q s; [reflexivity|]. cbn [append strip]. now rewrite Ascii.eqb_refl, IH. Qed.
Lemma quoted_app : forall b n r, ~ char_in "'" n -> read_quoted b (b ++ "'" ++ n ++ "'" ++ r) = Some (n, r).
Proof.
  intros b n r N. unfold read_quoted. rewrite <- (app_assoc_s b "'"). rewrite strip_app. exact (cut_app "'" n r N).
Qed.
Lemma decimal_itoa : forall n, decimal (itoa n) = Some n.
Proof.
  intros n. pose proof (MarkdownWriterProofs.unsigned_decimal (itoa n)) as D. unfold MarkdownWriterProofs.unsigned in D.
  rewrite StringLemmas.itoa_digits, digits_to_N_itoa in D. destruct (itoa n) eqn:E; [now destruct (itoa_nonempty n)|].
  destruct (decimal (String a s)) as [k|]; [|discriminate]. cbn [option_map] in D. f_equal. assert (Z.of_N n = Z.of_N k) by congruence. lia.
Qed.

(** a column that cannot be repaired *)
Lemma fault_read : forall c c' e, ~ char_in "'" (c_name c) -> validate true (normalize_type c) = (c', Some e) ->
  exists f, read_fault (error_text c' e) = Some f /\ has_fault c f.
Proof.
  intros c c' e Q. assert (K : canonical (c_type c) (norm (c_type c))) by now apply canonical_norm.
  unfold validate, normalize_type. cbn [c_name with_type c_autoinc c_type c_values].
  fold (norm (c_type c)). rewrite andb_false_r. cbv iota.
  destruct (String.eqb_spec (c_name c) "") as [E|E].
  - intros H. injection H as <- <-. exists (NoName (norm (c_type c))). split; [|split; assumption].
    unfold read_fault, error_text. now rewrite strip_app.
  - set (c0 := if c_autoinc c && negb (is_col_type_autoinc (norm (c_type c))) then with_autoinc (with_type c (norm (c_type c))) false else with_type c (norm (c_type c))).
    assert (V : c_values c0 = c_values c) by (unfold c0; now destruct (c_autoinc c && _)).
    assert (T : c_type c0 = norm (c_type c)) by (unfold c0; now destruct (c_autoinc c && _)).
    assert (N : c_name c0 = c_name c) by (unfold c0; now destruct (c_autoinc c && _)).
    rewrite V, T.
    assert (NN : forall r, strip "column name is empty. type: " ("column '" ++ c_name c ++ "'" ++ r) = None) by reflexivity.
    assert (QQ : forall r, read_quoted "column " ("column '" ++ c_name c ++ "'" ++ r) = Some (c_name c, r)).
    { intros r. exact (quoted_app "column " (c_name c) r Q). }
    destruct (String.eqb_spec (norm (c_type c)) "set") as [S|S]; cbn [andb].
    + destruct (Nat.leb (length (c_values c)) 0 || Nat.ltb 64 (length (c_values c))) eqn:B.
      * intros H. injection H as <- <-. exists (SetMembers (c_name c) (N.of_nat (length (c_values c)))). split.
        -- unfold error_text, values_message. rewrite N, T, V, S. change (String.eqb "set" "set") with true. cbv iota.
           unfold read_fault. change ("' has invalid values: " ++ ?x) with ("'" ++ " has invalid values: " ++ x).
           rewrite NN, QQ. unfold between. change (strip " type '" (" has invalid values: " ++ _)) with (@None string). cbv iota.
           rewrite strip_app. set (w := itoa (N.of_nat (length (c_values c)))).
           replace (String.eqb ("invalud set member count: " ++ w ++ " (0 < count < 64)") "empty enum values") with false by reflexivity.
           rewrite strip_app. change (" (0 < count < 64)") with (String " " "(0 < count < 64)").
           rewrite (cut_app " " w) by (apply itoa_no; reflexivity). unfold w. now rewrite decimal_itoa.
        -- split; [reflexivity|]. rewrite S in K. split; [exact K|]. split; [reflexivity|].
           apply orb_true_iff in B as [B|B]; [apply Nat.leb_le in B; left; lia|apply Nat.ltb_lt in B; right; lia].
      * rewrite S. discriminate.
    + destruct (String.eqb_spec (norm (c_type c)) "enum") as [U|U]; cbn [andb].
      * destruct (Nat.leb (length (c_values c)) 0) eqn:B; [|rewrite U; discriminate].
        intros H. injection H as <- <-. exists (NoEnumValues (c_name c)). split.
        -- unfold error_text, values_message. rewrite N, T, U. reflexivity || (change (String.eqb "enum" "set") with false; cbv iota;
           unfold read_fault; change ("' has invalid values: " ++ ?x) with ("'" ++ " has invalid values: " ++ x); rewrite NN, QQ; reflexivity).
        -- split; [reflexivity|]. rewrite U in K. split; [exact K|]. destruct (c_values c); [reflexivity|discriminate].
      * destruct (negb (is_valid_col_type (norm (c_type c)))) eqn:B; [|discriminate].
        intros H. injection H as <- <-. exists (WrongType (c_name c) (norm (c_type c))). split.
        -- unfold error_text. rewrite N, T. unfold read_fault.
           change ("' type '" ++ ?x) with ("'" ++ " type '" ++ x). rewrite NN, QQ. unfold between. rewrite strip_app, strip_end_app. reflexivity.
        -- split; [reflexivity|]. split; [exact K|]. rewrite <- octopus_types_valid. apply negb_true_iff in B. congruence.
Qed.
Lemma col_found : forall cs m, (forall c, In c cs -> ~ char_in "'" (c_name c)) -> cols_message cs = Some m ->
  exists a c b f, cs = (a ++ c :: b)%list /\ (forall d, In d a -> repairable d) /\ read_fault m = Some f /\ has_fault c f.
Proof.
  induction cs as [|c cs IH]; intros m Q H; [discriminate|]. cbn [cols_message] in H.
  destruct (validate true (normalize_type c)) as [c' [e|]] eqn:E.
  - injection H as <-. destruct (fault_read c c' e (Q c (or_introl eq_refl)) E) as [f [R F]].
    exists [], c, cs, f. split; [reflexivity|]. split; [intros d []|]. split; assumption.
  - destruct (IH m (fun d I => Q d (or_intror I)) H) as [a [d [b [f [-> [A [R F]]]]]]].
    exists (c :: a), d, b, f. split; [reflexivity|]. split; [|split; assumption]. intros x [<-|I]; [|auto].
    apply repairable_iff. now rewrite E.
Qed.
Lemma cols_all : forall cs, cols_message cs = None -> forall c, In c cs -> repairable c.
Proof.
  induction cs as [|c cs IH]; intros H d I; [destruct I|]. cbn [cols_message] in H.
  destruct (validate true (normalize_type c)) as [c' [e|]] eqn:E; [discriminate|]. destruct I as [<-|I]; [apply repairable_iff; now rewrite E|auto].
Qed.
Lemma message_read : forall sortf s m, sorts_tables sortf -> no_quotes s -> normalize_message sortf s = Some m ->
  exists before t after cs c cs' f, Permutation (before ++ t :: after) (s_tables s) /\ StronglySorted table_le (before ++ t :: after) /\
    t_cols t = (cs ++ c :: cs')%list /\ (forall d, In d (flat_map t_cols before ++ cs) -> repairable d) /\
    read_message m = Some (t_name t, f) /\ has_fault c f.
Proof.
  intros sortf s m O Q H. destruct (O (s_tables s)) as [P L]. apply sorted_strong in L. unfold normalize_message in H.
  assert (X : forall t, In t (sortf (s_tables s)) -> ~ char_in "'" (t_name t) /\ forall c, In c (t_cols t) -> ~ char_in "'" (c_name c)).
  { intros t I. apply Q. now apply (Permutation_in t P). }
  assert (G : forall ts, (forall t, In t ts -> ~ char_in "'" (t_name t) /\ forall c, In c (t_cols t) -> ~ char_in "'" (c_name c)) -> tables_message ts = Some m ->
    exists before t after cs c cs' f, ts = (before ++ t :: after)%list /\ t_cols t = (cs ++ c :: cs')%list /\
      (forall d, In d (flat_map t_cols before ++ cs) -> repairable d) /\ read_message m = Some (t_name t, f) /\ has_fault c f).
  { clear. induction ts as [|t ts IH]; intros X H; [discriminate|]. cbn [tables_message] in H. destruct (X t (or_introl eq_refl)) as [N C].
    destruct (cols_message (t_cols t)) as [w|] eqn:E.
    - assert (W : m = "table: " ++ "'" ++ t_name t ++ "'" ++ ": " ++ w) by (injection H as H; symmetry; exact H).
      destruct (col_found _ _ C E) as [a [c [b [f [D [A [R F]]]]]]]. exists [], t, ts, a, c, b, f.
      split; [reflexivity|]. split; [exact D|]. split; [exact A|]. split; [|exact F].
      unfold read_message. rewrite W. rewrite (quoted_app "table: " _ _ N), strip_app, R. reflexivity.
    - destruct (IH (fun u I => X u (or_intror I)) H) as [before [u [after [cs [c [cs' [f [-> [D [A R]]]]]]]]]].
      exists (t :: before), u, after, cs, c, cs', f. split; [reflexivity|]. split; [exact D|]. split; [|exact R].
      intros d I. cbn [flat_map] in I. rewrite <- app_assoc in I. apply in_app_iff in I as [I|I]; [now apply (cols_all _ E)|auto]. }
  destruct (G _ X H) as [before [t [after [cs [c [cs' [f [E [D [A R]]]]]]]]]]. rewrite E in P, L.
  exists before, t, after, cs, c, cs', f. split; [exact P|]. split; [exact L|]. split; [exact D|]. split; [exact A|exact R].
Qed.

(** ** Messages that say something else *)

Definition mg_col (n ty : string) (vs : list string) : column := mkCol n ty "" 0 0 true false false false "" "" vs None.
Definition mg_schema (cs : list column) : schema := mkSchema "me" "store" "1" [mkTable "user" cs "" "" "" []].
Definition mg_values (n : nat) : list string := map (fun k => itoa (N.of_nat k)) (seq 0 n).

(** two columns, one message *)
Lemma message_shared : exists s s' m, s <> s' /\ normalize_message isort_tables s = Some m /\ normalize_message isort_tables s' = Some m.
Proof.
  exists (mg_schema [mg_col "x" "y' type 'z" []]), (mg_schema [mg_col "x' type 'y" "z" []]). eexists. split; [discriminate|].
  split; vm_compute; reflexivity.
Qed.
(** 64 members are accepted, although the message says that there have to be less *)
Lemma message_limit : exists s m s', normalize_message isort_tables s = Some m /\ read_message m = Some ("user", SetMembers "x" 65) /\
  (exists a, m = a ++ "(0 < count < 64)") /\ s' = mg_schema [mg_col "x" "set" (mg_values 64)] /\ normalize_message isort_tables s' = None.
Proof.
  exists (mg_schema [mg_col "x" "set" (mg_values 65)]), "table: 'user': column 'x' has invalid values: invalud set member count: 65 (0 < count < 64)". eexists.
  split; [vm_compute; reflexivity|]. split; [vm_compute; reflexivity|].
  split; [exists "table: 'user': column 'x' has invalid values: invalud set member count: 65 "; reflexivity|]. split; [reflexivity|vm_compute; reflexivity].
Qed.
