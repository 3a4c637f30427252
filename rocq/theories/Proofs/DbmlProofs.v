(** The DBML text, read back *)
From Coq Require Import String Ascii List NArith Bool Lia Sorting.Permutation.
From Verif.Model Require Import GoString Util Octopus Dbml.
From Verif.Spec Require Import Text Reading OctopusSpec DbmlSpec.
From Verif.Proofs Require Import StringLemmas ReadingProofs ListLemmas.
Import ListNotations.
Local Open Scope string_scope.

(** ** Settings *)

Definition piece (p : string) : Prop :=
  forall acc rest, split_settings None acc (p ++ rest) = split_settings None (acc ++ p) rest.

Definition quiet (p : string) : Prop := ~ char_in "," p /\ ~ char_in """" p /\ ~ char_in "'" p.

Lemma acc_snoc : forall a c b, (a ++ String c "") ++ b = a ++ String c b.
Proof. intros. now rewrite app_assoc_s. Qed.

Lemma piece_app : forall p q, piece p -> piece q -> piece (p ++ q).
Proof. intros p q P Q acc rest. rewrite app_assoc_s, P, Q. now rewrite app_assoc_s. Qed.
Lemma piece_quiet : forall p, quiet p -> piece p.
Proof.
  induction p as [|c p IH]; intros [A [B C]] acc rest; cbn [append].
  - now rewrite app_nil_r_s.
  - cbn [split_settings]. destruct (Ascii.eqb_spec c ",") as [->|N1]; [exfalso; apply A; now left|].
    destruct (Ascii.eqb_spec c """") as [->|N2]; [exfalso; apply B; now left|].
    destruct (Ascii.eqb_spec c "'") as [->|N3]; [exfalso; apply C; now left|].
    cbn [orb]. rewrite IH, acc_snoc; [reflexivity|].
    split; [intros Q; apply A; now right|]. split; [intros Q; apply B; now right|intros Q; apply C; now right].
Qed.
Lemma split_quoted : forall q body acc rest, ~ char_in q body ->
  split_settings (Some q) acc (body ++ String q rest) = split_settings None (acc ++ body ++ String q "") rest.
Proof.
  induction body as [|c body IH]; intros acc rest H; cbn [append split_settings].
  - now rewrite Ascii.eqb_refl.
  - destruct (Ascii.eqb_spec c q) as [->|N]; [exfalso; apply H; now left|].
    rewrite IH; [now rewrite acc_snoc|]. intros Q. apply H. now right.
Qed.
Lemma piece_quoted : forall q body, q = """"%char \/ q = "'"%char -> ~ char_in q body ->
  piece (String q (body ++ String q "")).
Proof.
  intros q body Q H acc rest. cbn [append split_settings].
  assert (E : Ascii.eqb q "," = false) by (destruct Q as [->| ->]; reflexivity). rewrite E.
  assert (E2 : (Ascii.eqb q """" || Ascii.eqb q "'") = true) by (destruct Q as [->| ->]; reflexivity).
  rewrite E2, app_assoc_s. cbn [append]. rewrite split_quoted by exact H. now rewrite acc_snoc.
Qed.

Lemma split_join : forall ps, ps <> [] -> Forall piece ps -> forall acc,
  split_settings None acc (join ", " ps) =
  match ps with p :: l => (acc ++ p) :: l | [] => [] end.
Proof.
  induction ps as [|p l IH]; intros N F acc; [congruence|]. inversion F as [|? ? P F']; subst.
  destruct l as [|p2 l].
  - cbn [join]. rewrite <- (app_nil_r_s p) at 1. rewrite P. reflexivity.
  - change (join ", " (p :: p2 :: l)) with (p ++ String "," (String " " (join ", " (p2 :: l)))).
    rewrite P. cbn [split_settings]. rewrite Ascii.eqb_refl.
    rewrite (IH ltac:(discriminate) F' ""). reflexivity.
Qed.

(** ** Types *)

Definition word_b (s : string) : bool := negb (String.eqb s "") && string_forallb word_char s.
Lemma word_b_ok : forall s, word_b s = true -> word s.
Proof.
  intros s H. apply andb_true_iff in H as [A B]. split.
  - intros ->. discriminate.
  - intros c I. exact (forallb_char_in _ _ _ B I).
Qed.
Lemma type_word : forall t, In t octopus_types -> word t.
Proof.
  intros t H. apply word_b_ok.
  assert (A : forallb word_b octopus_types = true) by (vm_compute; reflexivity).
  rewrite forallb_forall in A. now apply A.
Qed.
Lemma type_text : forall t, In t octopus_types -> (is_string_type t = true <-> text_type t).
Proof.
  intros t H. unfold text_type. vm_compute in H.
  repeat (destruct H as [<-|H]; [split; [intros H; vm_compute in H; first [discriminate|tauto]|
          intros [E|E]; vm_compute in E; first [discriminate|reflexivity]]|]).
  destruct H.
Qed.
Lemma type_text_false : forall t, In t octopus_types -> (is_string_type t = false <-> ~ text_type t).
Proof. intros t H. rewrite <- (type_text t H). destruct (is_string_type t); split; congruence. Qed.

Lemma dbml_type_no : forall c x, In (c_type c) octopus_types -> word_char x = false ->
  x <> "("%char -> x <> ")"%char -> x <> ","%char -> ~ char_in x (dbml_type c).
Proof.
  intros c x H W A B C. pose proof (type_word _ H) as TW.
  assert (T : ~ char_in x (c_type c)) by now apply (word_no _ _ TW).
  assert (D : is_digit x = false).
  { destruct (is_digit x) eqn:E; [|reflexivity]. exfalso. clear - W E.
    destruct x as [[] [] [] [] [] [] [] []]; vm_compute in W, E; congruence. }
  unfold dbml_type. destruct (N.ltb 0 (c_size c)); [|exact T].
  destruct (N.ltb 0 (c_scale c));
  repeat first [exact T | apply no_app | apply no_cons; [assumption|] | apply no_nil | now apply itoa_no].
Qed.

(** ** What the settings of a column read as *)

Definition default_settings (c : column) : list setting :=
  if String.eqb (c_default c) "" then []
  else [SDefault (if is_string_type (c_type c) then DText (c_default c) else DLiteral (c_default c))].
Definition ref_settings (defined : list string) (c : column) : list setting :=
  match c_ref c with
  | Some r => if str_in (ref_table r) defined then [SRef (relation_of r) (ref_table r) (ref_column r)] else []
  | None => []
  end.
Definition note_settings (c : column) : list setting :=
  if String.eqb (c_desc c) "" then [] else [SNote (c_desc c)].
Definition settings_of (defined : list string) (c : column) : list setting :=
  ((if c_pk c then [SPk] else []) ++ (if c_uq c then [SUnique] else []) ++
   (if c_notnull c then [SNotNull] else []) ++ default_settings c ++ ref_settings defined c ++
   note_settings c)%list.

Lemma read_default : forall v, read_setting ("default: " ++ v) = option_map SDefault (read_value v).
Proof. reflexivity. Qed.
Lemma read_refs : forall v, read_setting ("ref: " ++ v) =
  option_map (fun x => SRef (fst (fst x)) (snd (fst x)) (snd x)) (read_target v).
Proof. reflexivity. Qed.
Lemma read_note : forall v, ~ char_in """" v -> read_setting ("note: """ ++ v ++ """") = Some (SNote v).
Proof.
  intros v H.
  transitivity (match between "note: """ """" ("note: """ ++ v ++ """") with
    | Some v => if contains_char """" v then None else Some (SNote v) | None => None end).
  - reflexivity.
  - rewrite between_app. now rewrite (proj2 (contains_char_false _ _) H).
Qed.
Lemma read_text_value : forall v, ~ char_in "'" v -> read_value ("'" ++ v ++ "'") = Some (DText v).
Proof. intros v H. unfold read_value. rewrite between_app. now rewrite (proj2 (contains_char_false _ _) H). Qed.

Definition lit_char (c : ascii) : Prop := word_char c = true \/ c = "."%char \/ c = "-"%char.
Lemma literal_chars : forall v, literal v = true -> v <> "" /\ all_chars lit_char v.
Proof.
  intros v H. unfold literal in H. apply orb_true_iff in H as [H|H].
  - apply andb_true_iff in H as [A B]. split; [intros ->; discriminate|].
    intros c I. pose proof (forallb_char_in _ _ _ B I) as N. unfold number_char in N.
    apply orb_true_iff in N as [N|N]; [apply orb_true_iff in N as [N|N]|].
    + left. destruct c as [[] [] [] [] [] [] [] []]; vm_compute in N; try discriminate; reflexivity.
    + right. left. now apply Ascii.eqb_eq in N.
    + right. right. now apply Ascii.eqb_eq in N.
  - apply existsb_exists in H as [w [I E]]. apply String.eqb_eq in E as ->.
    assert (W : word w).
    { cbn in I. destruct I as [<-|[<-|[<-|[]]]]; apply word_b_ok; reflexivity. }
    split; [apply W|]. intros c J. left. now apply W.
Qed.
Lemma literal_no : forall v c, literal v = true -> word_char c = false -> c <> "."%char -> c <> "-"%char ->
  ~ char_in c v.
Proof.
  intros v c H A B C I. destruct (literal_chars v H) as [_ L]. destruct (L c I) as [K|[K|K]]; congruence.
Qed.
Lemma read_literal_value : forall v, literal v = true -> read_value v = Some (DLiteral v).
Proof.
  intros v H. unfold read_value. assert (S : strip "'" v = None).
  { destruct v as [|c v]; [reflexivity|]. cbn [strip].
    destruct (Ascii.eqb_spec "'" c) as [<-|N]; [|reflexivity].
    exfalso. apply (literal_no _ "'"%char H); [reflexivity|discriminate|discriminate|now left]. }
  unfold between. rewrite S. now rewrite H.
Qed.

Lemma read_target_ok : forall r, word (ref_table r) -> word (ref_column r) ->
  read_target (dbml_rel r ++ " " ++ ref_table r ++ "." ++ ref_column r)
  = Some (relation_of r, ref_table r, ref_column r).
Proof.
  intros r A B. unfold read_target.
  change (dbml_rel r ++ " " ++ ref_table r ++ "." ++ ref_column r)
    with (dbml_rel r ++ String " " (ref_table r ++ String "." (ref_column r))).
  assert (X : (dbml_rel r = ">" /\ relation_of r = Many_to_one) \/ (dbml_rel r = "<" /\ relation_of r = One_to_many) \/
    (dbml_rel r = "-" /\ relation_of r = One_to_one)).
  { unfold dbml_rel, relation_of.
    destruct (String.eqb_spec (ref_rel r) "n:1") as [E1|N1]; [left; rewrite E1; split; reflexivity|].
    destruct (String.eqb_spec (ref_rel r) "1:n") as [E2|N2]; [right; left; split; reflexivity|].
    destruct (String.eqb_spec (ref_rel r) "1:1") as [E3|N3]; [right; right; split; reflexivity|].
    left. split; reflexivity. }
  rewrite cut_app by (destruct X as [[-> _]|[[-> _]|[-> _]]]; nochar).
  rewrite cut_app by nochar.
  destruct X as [[-> ->]|[[-> ->]|[-> ->]]]; reflexivity.
Qed.

Lemma quiet_word : forall s, word s -> quiet s.
Proof. intros s H. repeat split; apply (word_no s _ H); reflexivity. Qed.
Lemma quiet_app : forall a b, quiet a -> quiet b -> quiet (a ++ b).
Proof. intros a b [A1 [A2 A3]] [B1 [B2 B3]]. repeat split; now apply no_app. Qed.
Definition quiet_b (s : string) : bool :=
  negb (contains_char "," s) && negb (contains_char """" s) && negb (contains_char "'" s).
Lemma quiet_b_ok : forall s, quiet_b s = true -> quiet s.
Proof.
  intros s H. unfold quiet_b in H. rewrite !andb_true_iff, !negb_true_iff in H. destruct H as [[A B] C].
  repeat split; now apply contains_char_false.
Qed.

Lemma params_read : forall defined c, dbml_column_ok c -> dbml_default_ok c ->
  read_all read_setting (dbml_params defined c) = Some (settings_of defined c) /\
  Forall piece (dbml_params defined c).
Proof.
  intros defined c [NW [TY [DQ [DL RW]]]] DO.
  assert (Rd : read_all read_setting (dbml_default c) = Some (default_settings c) /\ Forall piece (dbml_default c)).
  { unfold dbml_default, default_settings. destruct (String.eqb_spec (c_default c) "") as [E|N]; [split; [reflexivity|constructor]|].
    destruct DO as [E|[[T [Q L]]|[T L]]]; [contradiction| |].
    - rewrite (proj2 (type_text _ TY) T). split.
      + cbn [read_all]. rewrite read_default, read_text_value by exact Q. reflexivity.
      + constructor; [|constructor]. apply (piece_app "default: " ("'" ++ c_default c ++ "'")).
        * apply piece_quiet, quiet_b_ok. reflexivity.
        * apply (piece_quoted "'" (c_default c)); [now right|exact Q].
    - rewrite (proj2 (type_text_false _ TY) T). split.
      + cbn [read_all]. rewrite read_default, read_literal_value by exact L. reflexivity.
      + constructor; [|constructor]. apply piece_quiet, quiet_app; [apply quiet_b_ok; reflexivity|].
        repeat split; apply (literal_no _ _ L); first [reflexivity|discriminate]. }
  assert (Rr : read_all read_setting (dbml_inline defined c) = Some (ref_settings defined c) /\ Forall piece (dbml_inline defined c)).
  { unfold dbml_inline, ref_settings. destruct (c_ref c) as [r|]; [|split; [reflexivity|constructor]].
    destruct RW as [A B]. destruct (str_in (ref_table r) defined); [|split; [reflexivity|constructor]]. split.
    - cbn [read_all]. rewrite read_refs, read_target_ok by assumption. reflexivity.
    - constructor; [|constructor]. apply piece_quiet. apply quiet_app; [apply quiet_b_ok; reflexivity|].
      apply quiet_app.
      + apply quiet_b_ok. unfold dbml_rel. destruct (String.eqb (ref_rel r) "n:1"); [reflexivity|].
        destruct (String.eqb (ref_rel r) "1:n"); [reflexivity|]. destruct (String.eqb (ref_rel r) "1:1"); reflexivity.
      + apply quiet_app; [apply quiet_b_ok; reflexivity|]. apply quiet_app; [now apply quiet_word|].
        apply quiet_app; [apply quiet_b_ok; reflexivity|]. now apply quiet_word. }
  assert (Rn : read_all read_setting (dbml_note c) = Some (note_settings c) /\ Forall piece (dbml_note c)).
  { unfold dbml_note, note_settings. destruct (String.eqb (c_desc c) ""); [split; [reflexivity|constructor]|]. split.
    - cbn [read_all]. rewrite read_note by exact DQ. reflexivity.
    - constructor; [|constructor].
      apply (piece_app "note: " ("""" ++ c_desc c ++ """")).
      + apply piece_quiet, quiet_b_ok. reflexivity.
      + apply (piece_quoted """" (c_desc c)); [now left|exact DQ]. }
  assert (F : forall (b : bool) (w : string) (x : setting), read_setting w = Some x -> quiet_b w = true ->
    read_all read_setting (if b then [w] else []) = Some (if b then [x] else []) /\
    Forall piece (if b then [w] else [])).
  { intros b w x R Q. destruct b; [|split; [reflexivity|constructor]]. cbn [read_all]. rewrite R.
    split; [reflexivity|]. constructor; [|constructor]. apply piece_quiet. now apply quiet_b_ok. }
  destruct (F (c_pk c) "pk" SPk eq_refl eq_refl) as [F1 G1].
  destruct (F (c_uq c) "unique" SUnique eq_refl eq_refl) as [F2 G2].
  destruct (F (c_notnull c) "not null" SNotNull eq_refl eq_refl) as [F3 G3].
  destruct Rd as [F4 G4]. destruct Rr as [F5 G5]. destruct Rn as [F6 G6].
  unfold dbml_params, settings_of. split.
  - repeat (apply read_all_app; [assumption|]). assumption.
  - repeat (apply Forall_app; split; [assumption|]). assumption.
Qed.

(** ** Column lines *)

Definition dcol_of (defined : list string) (c : column) : dcolumn :=
  mkDCol (c_name c) (dbml_type c) (settings_of defined c).

Lemma column_reads : forall defined c, dbml_column_ok c -> dbml_default_ok c ->
  read_dcolumn (dbml_column defined c) = Some (dcol_of defined c).
Proof.
  intros defined c OK DO. destruct (params_read defined c OK DO) as [R P].
  destruct OK as [NW [TY _]].
  assert (NS : ~ char_in " " (dbml_type c)) by (apply dbml_type_no; [exact TY|reflexivity|discriminate..]).
  unfold dbml_column, dcol_of. destruct (dbml_params defined c) as [|p ps] eqn:E.
  - change ("  " ++ c_name c ++ " " ++ dbml_type c) with ("  " ++ (c_name c ++ String " " (dbml_type c))).
    unfold read_dcolumn. rewrite strip_app, cut_app by nochar. rewrite cut_none by exact NS.
    cbn in R. injection R as <-. reflexivity.
  - replace (("  " ++ c_name c ++ " " ++ dbml_type c) ++ " [" ++ join ", " (p :: ps) ++ "]")
      with ("  " ++ (c_name c ++ String " " (dbml_type c ++ String " " ("[" ++ join ", " (p :: ps) ++ "]")))).
    2: { cbn [append]. rewrite app_assoc_s. reflexivity. }
    unfold read_dcolumn. rewrite strip_app, cut_app by nochar. rewrite cut_app by exact NS.
    rewrite between_app, split_join; [|discriminate|exact P]. cbn [append]. now rewrite R.
Qed.

Lemma column_line : forall defined c, exists x, dbml_column defined c = String " " x.
Proof. intros. unfold dbml_column. destruct (dbml_params defined c); eexists; reflexivity. Qed.

Lemma literal_one_line : forall v, literal v = true -> one_line v.
Proof. intros v H. apply (literal_no v newline H); [reflexivity|discriminate|discriminate]. Qed.

Lemma join_one_line : forall sep l, one_line sep -> Forall one_line l -> one_line (join sep l).
Proof.
  induction l as [|x l IH]; intros S F; [apply one_line_nil|]. inversion F; subst.
  destruct l as [|y l]; [assumption|].
  change (join sep (x :: y :: l)) with (x ++ sep ++ join sep (y :: l)).
  apply one_line_app; [assumption|]. apply one_line_app; auto.
Qed.

Lemma rel_one_line : forall r, one_line (dbml_rel r).
Proof.
  intros r. unfold dbml_rel. destruct (String.eqb (ref_rel r) "n:1"); [oneline|].
  destruct (String.eqb (ref_rel r) "1:n"); [oneline|]. destruct (String.eqb (ref_rel r) "1:1"); oneline.
Qed.

Lemma column_one_line : forall defined c, dbml_column_ok c -> dbml_default_ok c -> one_line (dbml_column defined c).
Proof.
  intros defined c [NW [TY [DQ [DL RW]]]] DO.
  assert (T : one_line (dbml_type c)) by (apply dbml_type_no; [exact TY|reflexivity|discriminate..]).
  assert (P : Forall one_line (dbml_params defined c)).
  { unfold dbml_params. repeat (apply Forall_app; split).
    - destruct (c_pk c); repeat constructor. oneline.
    - destruct (c_uq c); repeat constructor. oneline.
    - destruct (c_notnull c); repeat constructor. oneline.
    - unfold dbml_default. destruct (String.eqb_spec (c_default c) "") as [E|N]; [constructor|].
      constructor; [|constructor]. apply one_line_app; [oneline|].
      assert (O : one_line (c_default c)).
      { destruct DO as [E|[[_ [_ L]]|[_ L]]]; [contradiction|exact L|now apply literal_one_line]. }
      destruct (is_string_type (c_type c)); [|exact O]. oneline.
    - unfold dbml_inline. destruct (c_ref c) as [r|]; [|constructor]. destruct RW as [A B].
      destruct (str_in (ref_table r) defined); [|constructor]. constructor; [|constructor].
      pose proof (rel_one_line r). oneline.
    - unfold dbml_note. destruct (String.eqb (c_desc c) ""); [constructor|]. constructor; [|constructor]. oneline. }
  unfold dbml_column. destruct (dbml_params defined c) as [|p ps] eqn:E.
  - oneline.
  - apply one_line_app; [oneline|]. apply one_line_app; [oneline|]. apply one_line_app; [|oneline].
    apply join_one_line; [oneline|exact P].
Qed.

(** ** Tables *)

Definition table_ok (t : table) : Prop :=
  word (t_name t) /\ Forall (fun c => dbml_column_ok c /\ dbml_default_ok c) (t_cols t).

Lemma read_columns : forall defined n cs acc rest,
  Forall (fun c => dbml_column_ok c /\ dbml_default_ok c) cs ->
  read_items (Some (n, acc)) (map (dbml_column defined) cs ++ "}" :: "" :: rest) =
  option_map (cons (ITable (mkDTable n (acc ++ map (dcol_of defined) cs)%list))) (read_items None rest).
Proof.
  induction cs as [|c cs IH]; intros acc rest F; cbn [map app].
  - rewrite app_nil_r. reflexivity.
  - inversion F as [|? ? [OK DO] F']; subst. cbn [read_items].
    destruct (column_line defined c) as [x E].
    assert (NE : String.eqb (dbml_column defined c) "}" = false) by now rewrite E.
    rewrite NE, column_reads by assumption. rewrite IH by exact F'. now rewrite <- app_assoc.
Qed.

Definition deferred_links (defined : list string) (t : table) : list link :=
  flat_map (fun c => match c_ref c with
    | Some r => if str_in (ref_table r) defined then [] else column_links t c
    | None => [] end) (t_cols t).

Fixpoint dtables_of (defined : list string) (ts : list table) : list dtable :=
  match ts with
  | [] => []
  | t :: ts' => mkDTable (t_name t) (map (dcol_of defined) (t_cols t)) :: dtables_of (t_name t :: defined) ts'
  end.
Fixpoint dlinks_of (defined : list string) (ts : list table) : list link :=
  match ts with
  | [] => []
  | t :: ts' => (deferred_links defined t ++ dlinks_of (t_name t :: defined) ts')%list
  end.

Lemma tables_read : forall ts defined rest, Forall table_ok ts ->
  read_items None (fst (dbml_tables defined ts) ++ rest) =
  option_map (fun l => (map ITable (dtables_of defined ts) ++ l)%list) (read_items None rest).
Proof.
  induction ts as [|t ts IH]; intros defined rest F.
  - cbn. destruct (read_items None rest); reflexivity.
  - inversion F as [|? ? [W C] F']; subst. cbn [dbml_tables dtables_of].
    specialize (IH (t_name t :: defined) rest F').
    destruct (dbml_tables (t_name t :: defined) ts) as [ls rs] eqn:E. cbn [fst] in *.
    rewrite <- app_comm_cons, <- app_assoc. cbn [app].
    set (head := "Table " ++ t_name t ++ " {"). cbn [read_items].
    assert (NE : String.eqb head "" = false) by reflexivity. rewrite NE.
    unfold head. rewrite between_app.
    rewrite (read_columns defined (t_name t) (t_cols t) [] _ C). rewrite IH.
    cbn [app]. destruct (read_items None rest); reflexivity.
Qed.

Lemma link_reads : forall t c r, word (t_name t) -> word (c_name c) -> word (ref_table r) -> word (ref_column r) ->
  read_ref ("Ref: " ++ t_name t ++ "." ++ c_name c ++ " " ++ dbml_rel r ++ " " ++ ref_table r ++ "." ++ ref_column r)
  = Some (mkLink (t_name t) (c_name c) (relation_of r) (ref_table r) (ref_column r)).
Proof.
  intros t c r A B C D. unfold read_ref. rewrite strip_app.
  cbn [append]. rewrite (cut_app "." (t_name t)) by nochar. rewrite (cut_app " " (c_name c)) by nochar.
  pose proof (read_target_ok r C D) as R. cbn [append] in R. now rewrite R.
Qed.

Lemma read_links : forall rs ls, read_all read_ref rs = Some ls -> Forall (fun s => exists x, s = "Ref: " ++ x) rs ->
  read_items None rs = Some (map IRef ls).
Proof.
  induction rs as [|s rs IH]; intros ls R F; cbn in R; [now injection R as <-|].
  inversion F as [|? ? [x X] F']; subst. destruct (read_ref ("Ref: " ++ x)) as [l|] eqn:E; [|discriminate].
  destruct (read_all read_ref rs) as [ls'|] eqn:E'; [|discriminate]. injection R as <-.
  cbn [read_items].
  assert (NE : String.eqb ("Ref: " ++ x) "" = false) by reflexivity. rewrite NE.
  assert (NT : between "Table " " {" ("Ref: " ++ x) = None) by reflexivity. rewrite NT, E.
  now rewrite (IH ls' eq_refl F').
Qed.

Lemma links_read : forall ts defined, Forall table_ok ts ->
  read_all read_ref (snd (dbml_tables defined ts)) = Some (dlinks_of defined ts) /\
  Forall (fun s => exists x, s = "Ref: " ++ x) (snd (dbml_tables defined ts)) /\
  Forall one_line (snd (dbml_tables defined ts)) /\ Forall one_line (fst (dbml_tables defined ts)).
Proof.
  induction ts as [|t ts IH]; intros defined F.
  - cbn. repeat split; constructor.
  - inversion F as [|? ? [W C] F']; subst. cbn [dbml_tables dlinks_of].
    destruct (IH (t_name t :: defined) F') as [R [G [O1 O2]]].
    destruct (dbml_tables (t_name t :: defined) ts) as [ls rs] eqn:E. cbn [fst snd] in *.
    assert (D : read_all read_ref (flat_map (dbml_deferred defined t) (t_cols t)) = Some (deferred_links defined t) /\
      Forall (fun s => exists x, s = "Ref: " ++ x) (flat_map (dbml_deferred defined t) (t_cols t)) /\
      Forall one_line (flat_map (dbml_deferred defined t) (t_cols t))).
    { unfold deferred_links. clear E R G O1 O2 F F' IH. induction C as [|c cs [[NW [_ [_ [_ RW]]]] _] C IHC]; [repeat split; constructor|].
      cbn [flat_map]. destruct IHC as [D1 [D2 D3]].
      assert (Q : read_all read_ref (dbml_deferred defined t c) = Some (match c_ref c with
        | Some r => if str_in (ref_table r) defined then [] else column_links t c
        | None => [] end) /\ Forall (fun s => exists x, s = "Ref: " ++ x) (dbml_deferred defined t c) /\
        Forall one_line (dbml_deferred defined t c)).
      { unfold dbml_deferred, column_links. destruct (c_ref c) as [r|]; [|repeat split; constructor].
        destruct RW as [A B]. destruct (str_in (ref_table r) defined); [repeat split; constructor|].
        cbn [read_all]. rewrite link_reads by assumption.
        split; [reflexivity|]. split; (constructor; [|constructor]).
        - eexists. reflexivity.
        - pose proof (rel_one_line r). oneline. }
      destruct Q as [Q1 [Q2 Q3]]. split; [now apply read_all_app|]. split; apply Forall_app; split; assumption. }
    destruct D as [D1 [D2 D3]].
    split; [now apply read_all_app|]. split; [apply Forall_app; split; assumption|].
    split; [apply Forall_app; split; assumption|].
    apply Forall_cons; [oneline|]. apply Forall_app. split.
    + apply Forall_forall. intros x I. apply in_map_iff in I as [c [<- I]].
      rewrite Forall_forall in C. destruct (C c I). now apply column_one_line.
    + apply Forall_cons; [oneline|]. apply Forall_cons; [oneline|]. exact O2.
Qed.

Lemma join_last : forall sep ls rs, rs <> [] -> join sep (ls ++ [join sep rs]) = join sep (ls ++ rs).
Proof.
  induction ls as [|x ls IH]; intros rs N; cbn [app]; [reflexivity|].
  specialize (IH rs N). destruct ls as [|y ls].
  - cbn [app] in *. destruct rs as [|r rs]; [congruence|]. reflexivity.
  - cbn [app] in *.
    change (join sep (x :: y :: ls ++ [join sep rs])) with (x ++ sep ++ join sep (y :: ls ++ [join sep rs])).
    rewrite IH. reflexivity.
Qed.

Lemma read_export : forall f s, Forall table_ok (s_tables s) ->
  read_dbml (export_dbml f s) = Some (map ITable (dtables_of [] (s_tables s)) ++ map IRef (dlinks_of [] (s_tables s)))%list.
Proof.
  intros f s F. unfold export_dbml, read_dbml. fold newline.
  pose proof (fun rest => tables_read (s_tables s) [] rest F) as T.
  destruct (links_read (s_tables s) [] F) as [R [G [O1 O2]]].
  destruct (dbml_tables [] (s_tables s)) as [ls rs]. cbn [fst snd] in *.
  destruct rs as [|r rs].
  - cbn in R. injection R as <-. cbn [join].
    rewrite lines_join; [|destruct ls; discriminate|].
    + now rewrite T.
    + apply Forall_app. split; [exact O2|]. constructor; [oneline|constructor].
  - rewrite join_last by discriminate. rewrite lines_join.
    + rewrite T, (read_links _ _ R G). reflexivity.
    + destruct ls; discriminate.
    + apply Forall_app. split; assumption.
Qed.

(** ** What was read *)

Lemma dbml_type_spec : forall c, dbml_type c = match c_size c, c_scale c with
              | 0%N, _ => c_type c
              | n, 0%N => c_type c ++ "(" ++ itoa n ++ ")"
              | n, m => c_type c ++ "(" ++ itoa n ++ "," ++ itoa m ++ ")"
              end.
Proof. intros c. unfold dbml_type. destruct (c_size c); [reflexivity|]. destruct (c_scale c); reflexivity. Qed.

Lemma in_settings : forall defined c x, In x (settings_of defined c) <->
  (c_pk c = true /\ x = SPk) \/ (c_uq c = true /\ x = SUnique) \/ (c_notnull c = true /\ x = SNotNull) \/
  In x (default_settings c) \/ In x (ref_settings defined c) \/ In x (note_settings c).
Proof.
  intros. unfold settings_of. rewrite !in_app_iff.
  assert (H : forall (b : bool) y, In x (if b then [y] else []) <-> b = true /\ x = y).
  { intros [] y; cbn; split; intros Q; [destruct Q as [<-|[]]; auto|destruct Q as [_ ->]; now left|destruct Q|destruct Q; discriminate]. }
  rewrite !H. tauto.
Qed.

Lemma described : forall defined c, dbml_column_ok c -> dbml_default_ok c -> column_described c (dcol_of defined c).
Proof.
  intros defined c [NW [TY _]] DO. unfold column_described, dcol_of. cbn [d_name d_type d_settings].
  split; [reflexivity|]. split; [apply dbml_type_spec|].
  assert (D : forall x, In x (default_settings c) <-> c_default c <> "" /\
     x = SDefault (if is_string_type (c_type c) then DText (c_default c) else DLiteral (c_default c))).
  { intros x. unfold default_settings. destruct (String.eqb_spec (c_default c) "") as [E|N]; cbn; split; try tauto.
    - intros [Q|[]]. auto.
    - intros [_ ->]. now left. }
  assert (R : forall x, In x (ref_settings defined c) -> exists r t k, x = SRef r t k).
  { intros x. unfold ref_settings. destruct (c_ref c) as [r|]; [|intros []].
    destruct (str_in (ref_table r) defined); intros []; [subst; eauto|contradiction]. }
  assert (N : forall x, In x (note_settings c) <-> c_desc c <> "" /\ x = SNote (c_desc c)).
  { intros x. unfold note_settings. destruct (String.eqb_spec (c_desc c) "") as [E|M]; cbn; split; try tauto.
    - intros [Q|[]]. auto.
    - intros [_ ->]. now left. }
  assert (K : forall x, (forall r t k, x <> SRef r t k) -> In x (settings_of defined c) <->
    (c_pk c = true /\ x = SPk) \/ (c_uq c = true /\ x = SUnique) \/ (c_notnull c = true /\ x = SNotNull) \/
    (c_default c <> "" /\ x = SDefault (if is_string_type (c_type c) then DText (c_default c) else DLiteral (c_default c))) \/
    (c_desc c <> "" /\ x = SNote (c_desc c))).
  { intros x NR. rewrite in_settings, D, N. split.
    - intros [H|[H|[H|[H|[H|H]]]]]; try tauto. destruct (R x H) as [r [t [k E]]]. destruct (NR _ _ _ E).
    - tauto. }
  split; [rewrite K by discriminate; intuition discriminate|].
  split; [rewrite K by discriminate; intuition discriminate|].
  split; [rewrite K by discriminate; intuition discriminate|].
  split.
  { intros v. rewrite K by discriminate. split.
    - intros [[_ H]|[[_ H]|[[_ H]|[[A H]|[_ H]]]]]; try discriminate. injection H as ->. split; [exact A|].
      destruct (is_string_type (c_type c)) eqn:E.
      + left. split; [now apply type_text|reflexivity].
      + right. split; [now apply type_text_false|reflexivity].
    - intros [A [[T ->]|[T ->]]]; right; right; right; left; (split; [exact A|]).
      + now rewrite (proj2 (type_text _ TY) T).
      + now rewrite (proj2 (type_text_false _ TY) T). }
  split; [intros v; rewrite K by discriminate; split; [intros [[_ H]|[[_ H]|[[_ H]|[[_ H]|[A H]]]]]; try discriminate; injection H as ->; auto|intros [A ->]; tauto]|].
  (* no setting twice *)
  unfold settings_of, default_settings, ref_settings, note_settings.
  assert (B : forall (b : bool) (l1 l2 : list setting), NoDup (if b then l1 else l2) <-> (b = true -> NoDup l1) /\ (b = false -> NoDup l2)).
  { intros [] l1 l2; split; intros H; try tauto; try (split; intros; [assumption|discriminate]); try (split; intros; [discriminate|assumption]); destruct H; auto. }
  destruct (c_pk c), (c_uq c), (c_notnull c), (String.eqb (c_default c) ""), (String.eqb (c_desc c) "");
  destruct (c_ref c) as [r|]; try destruct (str_in (ref_table r) defined); cbn [app];
  repeat (apply NoDup_cons; [cbn; intuition discriminate|]); apply NoDup_nil.
Qed.

Lemma inline_of : forall defined above t, (forall x, In x defined <-> In x above) ->
  inline_links (mkDTable (t_name t) (map (dcol_of defined) (t_cols t))) =
  filter (fun l => if in_dec string_dec (l_to l) above then true else false) (table_links t).
Proof.
  intros defined above t H. unfold inline_links, table_links. cbn [d_tname d_cols].
  induction (t_cols t) as [|c cs IH]; [reflexivity|]. cbn [map flat_map]. rewrite filter_app, <- IH. f_equal. clear IH.
  unfold dcol_of. cbn [d_name d_settings].
  assert (A : forall l : list setting, (forall x, In x l -> forall r t k, x <> SRef r t k) ->
    flat_map (fun x => match x with SRef r t' c' => [mkLink (t_name t) (c_name c) r t' c'] | _ => [] end) l = []).
  { induction l as [|x l IHl]; intros Q; [reflexivity|]. cbn [flat_map]. rewrite IHl by (intros; apply Q; now right).
    destruct x; try reflexivity. destruct (Q _ (or_introl eq_refl) r t0 c0 eq_refl). }
  unfold settings_of. rewrite !flat_map_app.
  rewrite (A (if c_pk c then _ else _)) by (destruct (c_pk c); cbn; intuition (subst; discriminate)).
  rewrite (A (if c_uq c then _ else _)) by (destruct (c_uq c); cbn; intuition (subst; discriminate)).
  rewrite (A (if c_notnull c then _ else _)) by (destruct (c_notnull c); cbn; intuition (subst; discriminate)).
  rewrite (A (default_settings c)) by (unfold default_settings; destruct (String.eqb (c_default c) ""); cbn; intuition (subst; discriminate)).
  rewrite (A (note_settings c)) by (unfold note_settings; destruct (String.eqb (c_desc c) ""); cbn; intuition (subst; discriminate)).
  rewrite app_nil_r. cbn [app]. unfold ref_settings, column_links. destruct (c_ref c) as [r|]; [|reflexivity].
  cbn [filter l_to]. destruct (in_dec string_dec (ref_table r) above) as [I|I].
  - apply H in I. rewrite (proj2 (str_in_iff _ _) I). reflexivity.
  - rewrite (proj2 (str_in_false _ _)); [reflexivity|]. now rewrite H.
Qed.

Lemma deferred_of : forall defined above t, (forall x, In x defined <-> In x above) ->
  deferred_links defined t =
  filter (fun l => if in_dec string_dec (l_to l) above then false else true) (table_links t).
Proof.
  intros defined above t H. unfold deferred_links, table_links.
  induction (t_cols t) as [|c cs IH]; [reflexivity|]. cbn [flat_map]. rewrite filter_app, <- IH. f_equal. clear IH.
  unfold column_links. destruct (c_ref c) as [r|]; [|reflexivity].
  cbn [filter l_to]. destruct (in_dec string_dec (ref_table r) above) as [I|I].
  - apply H in I. rewrite (proj2 (str_in_iff _ _) I). reflexivity.
  - rewrite (proj2 (str_in_false _ _)); [reflexivity|]. now rewrite H.
Qed.

Lemma tables_described_of : forall ts defined above, Forall table_ok ts ->
  (forall x, In x defined <-> In x above) -> tables_described above ts (dtables_of defined ts).
Proof.
  induction ts as [|t ts IH]; intros defined above F H; [constructor|].
  inversion F as [|? ? [W C] F']; subst. cbn [dtables_of]. constructor.
  - reflexivity.
  - cbn [d_cols]. clear - C. induction C as [|c cs [A B] C IHC]; cbn [map]; constructor; [now apply described|exact IHC].
  - now apply inline_of.
  - apply IH; [exact F'|]. intros x. rewrite in_app_iff. cbn. rewrite H. tauto.
Qed.

Lemma filter_split : forall {A} (p : A -> bool) (q : A -> bool) l, (forall x, q x = negb (p x)) ->
  Permutation (filter p l ++ filter q l) l.
Proof.
  intros A p q l H. induction l as [|x l IH]; [constructor|]. cbn. rewrite H. destruct (p x); cbn.
  - now constructor.
  - apply Permutation_sym. apply Permutation_cons_app. now apply Permutation_sym.
Qed.

Lemma links_once : forall ts defined,
  Permutation (flat_map inline_links (dtables_of defined ts) ++ dlinks_of defined ts) (flat_map table_links ts).
Proof.
  induction ts as [|t ts IH]; intros defined; [constructor|]. cbn [dtables_of dlinks_of flat_map].
  specialize (IH (t_name t :: defined)).
  rewrite (inline_of defined defined t) by (intros; reflexivity).
  rewrite (deferred_of defined defined t) by (intros; reflexivity).
  set (p := fun l => if in_dec string_dec (l_to l) defined then true else false).
  set (q := fun l => if in_dec string_dec (l_to l) defined then false else true).
  assert (E : Permutation (filter p (table_links t) ++ filter q (table_links t)) (table_links t)).
  { apply filter_split. intros l. unfold p, q. destruct (in_dec string_dec (l_to l) defined); reflexivity. }
  transitivity ((filter p (table_links t) ++ filter q (table_links t)) ++ flat_map table_links ts)%list;
    [|now apply Permutation_app_tail].
  rewrite <- IH, <- !app_assoc. apply Permutation_app_head.
  rewrite !app_assoc. apply Permutation_app_tail. apply Permutation_app_comm.
Qed.

Lemma ok_tables : forall s, dbml_ok s -> Forall table_ok (s_tables s).
Proof.
  intros s [W C]. apply Forall_forall. intros t I. split; [now apply W|]. apply Forall_forall.
  intros c J. apply C. apply in_flat_map. now exists t.
Qed.

Lemma dbml_reads : forall f s, dbml_ok s -> exists ds ls,
  read_dbml (export_dbml f s) = Some (map ITable ds ++ map IRef ls)%list /\
  tables_described [] (s_tables s) ds /\
  Permutation (flat_map inline_links ds ++ ls) (schema_links s).
Proof.
  intros f s OK. apply ok_tables in OK. exists (dtables_of [] (s_tables s)), (dlinks_of [] (s_tables s)).
  split; [now apply read_export|]. split; [apply tables_described_of; [exact OK|reflexivity]|]. apply links_once.
Qed.

Lemma defines_all : forall ds ls, defines (map ITable ds ++ map IRef ls) = map d_tname ds.
Proof.
  intros. unfold defines. rewrite flat_map_app. induction ds as [|d ds IH]; cbn.
  - induction ls; cbn; auto.
  - cbn in IH. now rewrite IH.
Qed.
Lemma dtables_names : forall ts defined, map d_tname (dtables_of defined ts) = map t_name ts.
Proof. induction ts as [|t ts IH]; intros; cbn; [reflexivity|]. now rewrite IH. Qed.

Lemma dbml_defines : forall f s, dbml_ok s -> exists items,
  read_dbml (export_dbml f s) = Some items /\ defines items = map t_name (s_tables s).
Proof.
  intros f s OK. apply ok_tables in OK. eexists. split; [now apply read_export|].
  now rewrite defines_all, dtables_names.
Qed.

(** the filter changes nothing *)
Lemma dbml_filter_ignored : forall f g s, export_dbml f s = export_dbml g s.
Proof. reflexivity. Qed.

Lemma filter_length_all : forall {A} (p : A -> bool) l, length (filter p l) = length l -> forall x, In x l -> p x = true.
Proof.
  intros A p. induction l as [|y l IH]; intros H x I; [destruct I|]. cbn in H.
  assert (L : length (filter p l) <= length l).
  { clear. induction l as [|z l IH]; cbn; [lia|]. destruct (p z); cbn; lia. }
  destruct (p y) eqn:E; cbn in H; [|lia]. destruct I as [<-|I]; [exact E|]. apply IH; [lia|exact I].
Qed.
Lemma filter_all_id : forall {A} (p : A -> bool) l, (forall x, In x l -> p x = true) -> filter p l = l.
Proof.
  induction l as [|y l IH]; intros H; [reflexivity|]. cbn. rewrite (H y (or_introl eq_refl)), IH; [reflexivity|].
  intros x I. apply H. now right.
Qed.

Lemma dbml_filter_exact : forall f s, dbml_ok s -> exists items,
  read_dbml (export_dbml f s) = Some items /\
  defines items = map t_name (s_tables s) /\
  (defines items = map t_name (filter (passes f) (s_tables s)) <->
   forall t, In t (s_tables s) -> passes f t = true).
Proof.
  intros f s OK. destruct (dbml_defines f s OK) as [items [R D]]. exists items. split; [exact R|].
  split; [exact D|]. rewrite D. split.
  - intros E. apply filter_length_all. apply (f_equal (@length _)) in E. now rewrite !map_length in E.
  - intros H. now rewrite filter_all_id.
Qed.

(** ** Witnesses *)

Definition dbml_plain : schema :=
  mkSchema "" "db" "1"
    [mkTable "group" [mkCol "id" "int64" "unique, id" 0 0 true true false true "" "" [] None;
                      mkCol "owner" "int64" "" 0 0 false false false false "0" "" []
                        (Some (mkRef "user" "id" "n:1"))] "" "a" "" [];
     mkTable "user" [mkCol "name" "varchar" "" 40 0 true false true false "it, no" "" [] None;
                     mkCol "group_id" "int64" "" 0 0 false false false false "" "" []
                        (Some (mkRef "group" "id" "1:1"));
                     mkCol "boss" "int64" "" 0 0 false false false false "" "" []
                        (Some (mkRef "user" "id" ""))] "" "b" "" []].

Lemma dbml_plain_ok : dbml_ok dbml_plain.
Proof.
  assert (NC : forall c s, contains_char c s = false -> ~ char_in c s) by (intros; now apply contains_char_false).
  split.
  - intros t I. cbn in I. destruct I as [<-|[<-|[]]]; apply word_b_ok; reflexivity.
  - intros c I. vm_compute in I.
    destruct I as [<-|[<-|[<-|[<-|[<-|[]]]]]]; (split;
    [split; [apply word_b_ok; reflexivity|]; split; [vm_compute; tauto|]; split; [apply NC; reflexivity|];
     split; [apply NC; reflexivity|]; cbn; try exact I; split; apply word_b_ok; reflexivity|]).
    + now left.
    + right. right. split; [intros [H|H]; discriminate|reflexivity].
    + right. left. split; [now right|]. split; apply NC; reflexivity.
    + now left.
    + now left.
Qed.

Lemma dbml_filter_witness : exists groups s items, dbml_ok s /\
  read_dbml (export_dbml (get_table_filter groups) s) = Some items /\
  defines items <> map t_name (filter (passes (get_table_filter groups)) (s_tables s)).
Proof.
  exists "a", dbml_plain.
  destruct (dbml_filter_exact (get_table_filter "a") dbml_plain dbml_plain_ok) as [items [R [D _]]].
  exists items. split; [exact dbml_plain_ok|]. split; [exact R|]. rewrite D. vm_compute. discriminate.
Qed.

Definition dbml_created : column :=
  mkCol "created_at" "datetime" "" 0 0 true false false false "fn::CURRENT_TIMESTAMP" "" [] None.
Definition dbml_kind : column := mkCol "kind" "enum" "" 0 0 true false false false "a" "" ["a"; "b"] None.
Definition dbml_stamped (c : column) : schema := mkSchema "" "db" "1" [mkTable "t" [c] "" "" "" []].

Lemma dbml_default_witness :
  (forall c, In c [dbml_created; dbml_kind] ->
     valid_column c /\ dbml_column_ok c /\ read_dbml (export_dbml None (dbml_stamped c)) = None).
Proof.
  assert (NC : forall c s, contains_char c s = false -> ~ char_in c s) by (intros; now apply contains_char_false).
  intros c [<-|[<-|[]]].
  - split.
    + split; [discriminate|]. split; [vm_compute; tauto|]. split; [discriminate|]. split; discriminate.
    + split; [|vm_compute; reflexivity].
      split; [apply word_b_ok; reflexivity|]. split; [vm_compute; tauto|].
      split; [apply NC; reflexivity|]. split; [apply NC; reflexivity|exact I].
  - split.
    + split; [discriminate|]. split; [vm_compute; tauto|]. split; [discriminate|]. split; discriminate.
    + split; [|vm_compute; reflexivity].
      split; [apply word_b_ok; reflexivity|]. split; [vm_compute; tauto|].
      split; [apply NC; reflexivity|]. split; [apply NC; reflexivity|exact I].
Qed.

(** what is read for a default *)
Lemma dbml_default_reads : forall above c, dbml_column_ok c -> dbml_default_ok c -> exists d,
  read_dcolumn (dbml_column above c) = Some d /\
  (text_type (c_type c) -> forall v, In (SDefault v) (d_settings d) <-> c_default c <> "" /\ v = DText (c_default c)) /\
  (~ text_type (c_type c) -> forall v, In (SDefault v) (d_settings d) <-> c_default c <> "" /\ v = DLiteral (c_default c)).
Proof.
  intros above c OK DO. exists (dcol_of above c). split; [now apply column_reads|].
  destruct (described above c OK DO) as [_ [_ [_ [_ [_ [D _]]]]]].
  split; intros T v; rewrite D; tauto.
Qed.

(** double quotes and a line break in a description: two schemas, one text *)
Definition target_table : table :=
  mkTable "g" [mkCol "id" "int32" "" 0 0 false false false false "" "" [] None] "" "" "" [].
Definition quoted_note : schema :=
  mkSchema "" "" "" [target_table;
    mkTable "t" [mkCol "a" "int32" "x""]
  b int32 [ref: > g.id, note: ""y" 0 0 false false false false "" "" [] None] "" "" "" []].
Definition noted_reference : schema :=
  mkSchema "" "" "" [target_table;
    mkTable "t" [mkCol "a" "int32" "x" 0 0 false false false false "" "" [] None;
                 mkCol "b" "int32" "y" 0 0 false false false false "" "" [] (Some (mkRef "g" "id" ""))] "" "" "" []].
Lemma dbml_ambiguous : exists s1 s2, valid_schema s1 /\ valid_schema s2 /\
  (forall f, export_dbml f s1 = export_dbml f s2) /\ length (schema_links s1) <> length (schema_links s2).
Proof.
  exists quoted_note, noted_reference. split; [|split; [|split; [intros f; vm_compute; reflexivity|vm_compute; discriminate]]].
  - intros c [<-|[<-|[]]]; (split; [discriminate|]; split; [vm_compute; tauto|]; split; [discriminate|]; split; discriminate).
  - intros c [<-|[<-|[<-|[]]]]; (split; [discriminate|]; split; [vm_compute; tauto|]; split; [discriminate|]; split; discriminate).
Qed.
