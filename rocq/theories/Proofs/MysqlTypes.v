(** The type part of a column definition *)
From Coq Require Import String Ascii List NArith ZArith Bool Lia.
From Verif.Model Require Import GoString Util Octopus Mysql.
From Verif.Spec Require Import Text MysqlGrammar MysqlSpec.
From Verif.Proofs Require Import StringLemmas MysqlLex.
Import ListNotations.
Local Open Scope string_scope.
Local Open Scope list_scope.

Definition no_sym (r : list tok) : Prop := match r with TSym _ :: _ => False | _ => True end.

(** ** Tokens that stay together when a list of definitions is split *)
Definition prep (ts : list tok) (r : option (list (list tok) * list tok)) : option (list (list tok) * list tok) :=
  match r with Some (x :: xs, rest) => Some ((ts ++ x) :: xs, rest) | _ => None end.

Definition together (ts : list tok) : Prop :=
  (forall d r, split_parts d (ts ++ r) = prep ts (split_parts d r)) /\ ~ In (TSym ";") ts.

Lemma split_parts_shape : forall ts d p, split_parts d ts = Some p -> fst p <> [].
Proof.
  induction ts as [|t ts IH]; intros d p H; [discriminate|].
  assert (A : forall x y q, (match y with Some (z :: zs, rest) => Some ((x :: z) :: zs, rest) | _ => None end) = Some q ->
    @fst (list (list tok)) (list tok) q <> []).
  { intros x [[[|z zs] rest]|] q E; try discriminate. injection E as <-. discriminate. }
  cbn [split_parts] in H. destruct t; try (now apply A in H).
  destruct (Ascii.eqb c ")"). { destruct d; [injection H as <-; discriminate|now apply A in H]. }
  destruct (Ascii.eqb c "("); [now apply A in H|]. destruct (Ascii.eqb c "," && Nat.eqb d 0); [|now apply A in H].
  destruct (split_parts d ts); [injection H as <-; discriminate|discriminate].
Qed.

Lemma prep_nil : forall d r, prep [] (split_parts d r) = split_parts d r.
Proof.
  intros d r. destruct (split_parts d r) as [[[|x xs] rest]|] eqn:E; simpl; auto.
  apply split_parts_shape in E. now simpl in E.
Qed.

Lemma prep_prep : forall a b r, prep a (prep b r) = prep (a ++ b) r.
Proof. intros a b [[[|x xs] rest]|]; simpl; auto. now rewrite app_assoc. Qed.

Lemma together_nil : together [].
Proof. split; [|intros []]. intros. simpl. now rewrite prep_nil. Qed.

Lemma together_app : forall a b, together a -> together b -> together (a ++ b).
Proof.
  intros a b [A1 A2] [B1 B2]. split.
  - intros. rewrite <- app_assoc, A1, B1. apply prep_prep.
  - rewrite in_app_iff. tauto.
Qed.

Lemma together_plain : forall t, (forall c, t <> TSym c) -> together [t].
Proof.
  intros t H. split.
  - intros d r. destruct t; try reflexivity. exfalso. now apply (H c).
  - intros [X|[]]. now apply (H ";"%char).
Qed.

Definition no_paren (ts : list tok) : Prop :=
  forall c, In (TSym c) ts -> c <> "("%char /\ c <> ")"%char /\ c <> ";"%char.

Lemma inside_paren : forall ts d r, no_paren ts -> split_parts (S d) (ts ++ r) = prep ts (split_parts (S d) r).
Proof.
  induction ts as [|t ts IH]; intros d r H; [simpl; now rewrite prep_nil|].
  assert (E : forall x, split_parts (S d) (ts ++ r) = x ->
    (match x with Some (z :: zs, rest) => Some ((t :: z) :: zs, rest) | _ => None end) = prep (t :: ts) (split_parts (S d) r)).
  { intros x <-. rewrite IH by (intros c Hc; apply H; now right). destruct (split_parts (S d) r) as [[[|z zs] rest]|]; reflexivity. }
  cbn [app split_parts]. destruct t; try (now apply E).
  destruct (H c (or_introl eq_refl)) as [H1 [H2 _]].
  destruct (Ascii.eqb_spec c ")"); [congruence|]. destruct (Ascii.eqb_spec c "("); [congruence|].
  rewrite andb_false_r. now apply E.
Qed.

Lemma together_paren : forall ts, no_paren ts -> together (TSym "(" :: ts ++ [TSym ")"]).
Proof.
  intros ts H. split.
  - intros d r. cbn [app]. rewrite <- app_assoc. cbn [split_parts Ascii.eqb app]. cbn.
    rewrite inside_paren by exact H. cbn. destruct (split_parts d r) as [[[|z zs] rest]|]; cbn; try reflexivity.
    do 2 f_equal. f_equal. f_equal. now rewrite <- app_assoc.
  - intros [X|X]; [discriminate|]. apply in_app_iff in X. destruct X as [X|[X|[]]]; [|discriminate].
    apply H in X. tauto.
Qed.

Lemma no_paren_sep : forall {A} (f : A -> list tok) l,
  (forall x, In x l -> no_paren (f x)) -> no_paren (comma_sep f l).
Proof.
  intros A f. induction l as [|x l IH]; intros H; [intros c []|].
  destruct l as [|y l]; [apply H; now left|].
  cbn [comma_sep]. intros c Hc. apply in_app_iff in Hc. destruct Hc as [Hc|[Hc|Hc]].
  - now apply (H x (or_introl eq_refl)) in Hc.
  - injection Hc as <-. repeat split; discriminate.
  - apply IH in Hc; auto. intros z Hz. apply H. now right.
Qed.

(** ** Types *)

Definition num_args (c : column) : list arg :=
  if N.eqb (c_size c) 0 then [] else if N.eqb (c_scale c) 0 then [ANum (c_size c)] else [ANum (c_size c); ANum (c_scale c)].

Definition num_toks (c : column) : list tok :=
  if N.eqb (c_size c) 0 then []
  else if N.eqb (c_scale c) 0 then TSym "(" :: [TWord (itoa (c_size c))] ++ [TSym ")"]
  else TSym "(" :: [TWord (itoa (c_size c)); TSym ","; TWord (itoa (c_scale c))] ++ [TSym ")"].

Lemma ltb0_eqb : forall n, N.ltb 0 n = negb (N.eqb n 0).
Proof. intros [|p]; reflexivity. Qed.

Lemma format_lexes : forall w c, lexes w [TWord w] -> lexes (format_column_type w c) (TWord w :: num_toks c).
Proof.
  intros w c H. unfold format_column_type, num_toks. rewrite !ltb0_eqb.
  destruct (N.eqb (c_size c) 0); [exact H|]. cbn [negb].
  change (TWord w :: ?x) with ([TWord w] ++ x).
  destruct (N.eqb (c_scale c) 0); cbn [negb].
  - change ("(" ^ itoa (c_size c) ^ ")") with ("(" ^ (itoa (c_size c)) ^ ")").
    apply lexes_app; [exact H|discriminate|reflexivity|]. apply any_lexes, paren_lexes, itoa_token.
  - apply lexes_app; [exact H|discriminate|reflexivity|].
    replace ("(" ^ itoa (c_size c) ^ "," ^ itoa (c_scale c) ^ ")")
      with ("(" ^ (itoa (c_size c) ^ chr "," ^ itoa (c_scale c)) ^ ")") by now rewrite !app_assoc_s.
    apply any_lexes, paren_lexes. change [TWord (itoa (c_size c)); TSym ","; TWord (itoa (c_scale c))]
      with ([TWord (itoa (c_size c))] ++ [TSym ","] ++ [TWord (itoa (c_scale c))]).
    apply lexes_app; [apply itoa_token|discriminate|reflexivity|]. apply lexes_any_app; [now apply sym_token|apply itoa_token].
Qed.

Lemma read_arg_num : forall n, read_arg (TWord (itoa n)) = Some (ANum n).
Proof. intros n. unfold read_arg. now rewrite is_digits_itoa, digits_to_N_itoa. Qed.

Lemma read_type_bare : forall w r, no_sym r ->
  read_type_toks (TWord w :: r) = option_map (fun f => (f, r)) (read_type w []).
Proof. intros w [|[]] H; simpl in H; try reflexivity. destruct H. Qed.

Lemma read_format : forall w c r, no_sym r ->
  read_type_toks ((TWord w :: num_toks c) ++ r) = option_map (fun f => (f, r)) (read_type w (num_args c)).
Proof.
  intros w c r H. unfold num_toks, num_args. destruct (N.eqb (c_size c) 0); [now apply read_type_bare|].
  destruct (N.eqb (c_scale c) 0); cbn [app read_type_toks Ascii.eqb Bool.eqb]; cbn [read_args]; rewrite !read_arg_num; reflexivity.
Qed.

Lemma read_args_texts : forall vs r, vs <> [] ->
  read_args (comma_sep (fun v => [TText v]) vs ++ TSym ")" :: r) = Some (map AText vs, r).
Proof.
  induction vs as [|v vs IH]; intros r H; [congruence|]. destruct vs as [|v2 vs]; [reflexivity|].
  change (comma_sep (fun v => [TText v]) (v :: v2 :: vs)) with (TText v :: TSym "," :: comma_sep (fun v => [TText v]) (v2 :: vs)).
  cbn [app]. change (read_args (TText v :: TSym "," :: ?x)) with (option_map (fun p : list arg * list tok => (AText v :: fst p, snd p)) (read_args x)).
  rewrite IH by discriminate. reflexivity.
Qed.

Lemma texts_map : forall vs, texts (map AText vs) = Some vs.
Proof. induction vs as [|v vs IH]; simpl; [reflexivity|now rewrite IH]. Qed.

Lemma elems_lexes : forall w vs, lexes w [TWord w] -> Forall plain_text vs ->
  lexes (w ^ "(" ^ quote_and_join vs "'" ", " ^ ")")
        (TWord w :: TSym "(" :: comma_sep (fun v => [TText v]) vs ++ [TSym ")"]).
Proof.
  intros w vs H F. change (TWord w :: ?x) with ([TWord w] ++ x).
  apply lexes_app; [exact H|discriminate|reflexivity|]. apply any_lexes, paren_lexes.
  destruct vs as [|v vs]; [apply any_lexes, lexes_nil|]. unfold quote_and_join. apply join_lexes; [|discriminate].
  intros x Hx. unfold quote. apply text_token. rewrite Forall_forall in F. auto.
Qed.

Lemma read_elems : forall w vs r, no_sym r ->
  read_type_toks ((TWord w :: TSym "(" :: comma_sep (fun v => [TText v]) vs ++ [TSym ")"]) ++ r) =
  match vs with [] => None | _ => option_map (fun f => (f, r)) (read_type w (map AText vs)) end.
Proof.
  intros w vs r H. cbn [app]. change (read_type_toks (TWord w :: TSym "(" :: ?x)) with
    (match read_args x with Some (args, rest) => option_map (fun f => (f, rest)) (read_type w args) | None => None end).
  rewrite <- app_assoc. destruct vs as [|v vs].
  - cbn [comma_sep app]. destruct r as [|[] r]; reflexivity.
  - change ([TSym ")"] ++ r) with (TSym ")" :: r). rewrite (read_args_texts (v :: vs) r) by discriminate. reflexivity.
Qed.

Definition sep_toks (w : string) (vs : list string) := TWord w :: TSym "(" :: comma_sep (fun v => [TText v]) vs ++ [TSym ")"].

(** every type *)
Lemma type_reads : forall c, In (c_type c) col_types -> Forall plain_text (c_values c) ->
  exists ts, lexes (to_mysql_column_type c) ts /\ together ts /\
    forall r, no_sym r -> read_type_toks (ts ++ r) = option_map (fun f => (f, r)) (sql_type c).
Proof.
  intros c HT HV.
  assert (NUM : forall w, lexes w [TWord w] -> to_mysql_column_type c = format_column_type w c ->
    read_type w (num_args c) = sql_type c -> exists ts, lexes (to_mysql_column_type c) ts /\ together ts /\
    forall r, no_sym r -> read_type_toks (ts ++ r) = option_map (fun f => (f, r)) (sql_type c)).
  { intros w Hw Et Er. exists (TWord w :: num_toks c). rewrite Et. split; [now apply format_lexes|]. split.
    - apply (together_app [TWord w]); [apply together_plain; discriminate|]. unfold num_toks.
      destruct (N.eqb (c_size c) 0); [apply together_nil|].
      destruct (N.eqb (c_scale c) 0); apply together_paren; intros a Ha; simpl in Ha;
        repeat (destruct Ha as [Ha|Ha]; [try discriminate; injection Ha as <-; repeat split; discriminate|]); destruct Ha.
    - intros r Hr. rewrite read_format by exact Hr. now rewrite Er. }
  assert (BARE : forall w, lexes w [TWord w] -> to_mysql_column_type c = w ->
    read_type w [] = sql_type c -> exists ts, lexes (to_mysql_column_type c) ts /\ together ts /\
    forall r, no_sym r -> read_type_toks (ts ++ r) = option_map (fun f => (f, r)) (sql_type c)).
  { intros w Hw Et Er. exists [TWord w]. rewrite Et. split; [exact Hw|]. split; [apply together_plain; discriminate|].
    intros r Hr. cbn [app]. rewrite read_type_bare by exact Hr. now rewrite Er. }
  assert (ELEM : forall w, lexes w [TWord w] -> to_mysql_column_type c = w ^ "(" ^ quote_and_join (c_values c) "'" ", " ^ ")" ->
    (match c_values c with [] => None | _ => read_type w (map AText (c_values c)) end) = sql_type c ->
    exists ts, lexes (to_mysql_column_type c) ts /\ together ts /\
    forall r, no_sym r -> read_type_toks (ts ++ r) = option_map (fun f => (f, r)) (sql_type c)).
  { intros w Hw Et Er. exists (sep_toks w (c_values c)). rewrite Et. split; [now apply elems_lexes|]. split.
    - apply (together_app [TWord w]); [apply together_plain; discriminate|]. apply together_paren.
      apply no_paren_sep. intros x _ a [Ha|[]]. discriminate.
    - intros r Hr. unfold sep_toks. rewrite read_elems by exact Hr. rewrite <- Er. now destruct (c_values c). }
  assert (BIT1 : c_type c = "boolean" -> exists ts, lexes (to_mysql_column_type c) ts /\ together ts /\
    forall r, no_sym r -> read_type_toks (ts ++ r) = option_map (fun f => (f, r)) (sql_type c)).
  { intros E. exists (TWord "bit" :: TSym "(" :: [TWord (itoa 1)] ++ [TSym ")"]).
    unfold to_mysql_column_type, sql_type. rewrite E. cbn [String.eqb Ascii.eqb Bool.eqb]. cbv iota. split; [|split].
    - change "bit(1)" with ("bit" ^ ("(" ^ itoa 1 ^ ")")). change (TWord "bit" :: ?x) with ([TWord "bit"] ++ x).
      apply lexes_app; [fixed_word|discriminate|reflexivity|]. apply any_lexes, paren_lexes, itoa_token.
    - apply (together_app [TWord "bit"]); [apply together_plain; discriminate|]. apply together_paren.
      intros a [Ha|[]]. discriminate.
    - intros r Hr. destruct r as [|[] r]; try reflexivity. }
  unfold col_types in HT. cbn [In] in HT.
  repeat match goal with H : _ \/ _ |- _ => destruct H as [E|H]; [symmetry in E|] end; [..|destruct HT];
    try (exact (BIT1 E));
    first
    [ eapply BARE; [|unfold to_mysql_column_type; rewrite E; reflexivity|unfold sql_type; rewrite E; reflexivity]; fixed_word
    | apply (ELEM (c_type c)); rewrite ?E; [fixed_word|unfold to_mysql_column_type; rewrite E; reflexivity|
        unfold sql_type; rewrite E; destruct (c_values c) as [|v vs]; [reflexivity|];
        unfold read_type; cbn -[texts]; change (AText v :: map AText vs) with (map AText (v :: vs));
        rewrite texts_map; reflexivity]
    | eapply NUM; [|unfold to_mysql_column_type; rewrite E; reflexivity|
        unfold sql_type; rewrite E; unfold num_args;
        destruct (N.eqb (c_size c) 0), (N.eqb (c_scale c) 0); reflexivity]; fixed_word ].
Qed.
