(** The reader for Kotlin, on text that is put together *)
From Coq Require Import String Ascii List NArith Bool Lia Arith.
From Verif.Model Require Import GoString.
From Verif.Spec Require Import Text Reading KotlinSpec.
From Verif.Proofs Require Import StringLemmas ReadingProofs.
Import ListNotations.
Local Open Scope string_scope.

(** ** Tokens *)

Definition done (st : mode * list tok) : list tok :=
  match fst st with InWord w => TWord w :: snd st | _ => snd st end.
Definition fine (st : mode * list tok) : Prop :=
  match fst st with Between | InWord _ => True | _ => False end.
(** [a], on its own, consists of the tokens [ts] *)
Definition lexes (a : string) (ts : list tok) : Prop :=
  forall acc, fine (scan (Between, acc) a) /\ done (scan (Between, acc) a) = (rev ts ++ acc)%list.

Lemma scan_app : forall a b st, scan st (a ++ b) = scan (scan st a) b.
Proof. induction a as [|c a IH]; intros b st; cbn; [reflexivity|apply IH]. Qed.
Lemma begin_acc : forall c acc, begin c acc = (fst (begin c []), (snd (begin c []) ++ acc)%list).
Proof.
  intros c acc. unfold begin. destruct (word_char c); [reflexivity|]. destruct (Ascii.eqb c double_quote); [reflexivity|].
  now destruct (blank c).
Qed.
Lemma scan_bad : forall a acc, fst (scan (Bad, acc) a) = Bad.
Proof. induction a as [|c a IH]; intros acc; cbn; [reflexivity|apply IH]. Qed.
Lemma scan_acc : forall a m acc more, fst (scan (m, acc) a) <> Bad ->
  scan (m, (acc ++ more)%list) a = (fst (scan (m, acc) a), (snd (scan (m, acc) a) ++ more)%list).
Proof.
  induction a as [|c a IH]; intros m acc more H; [reflexivity|].
  assert (B : forall acc', fst (scan (begin c acc') a) <> Bad ->
    scan (begin c (acc' ++ more)%list) a = (fst (scan (begin c acc') a), (snd (scan (begin c acc') a) ++ more)%list)).
  { intros acc' N. rewrite (begin_acc c acc') in *. rewrite (begin_acc c (acc' ++ more)%list). rewrite app_assoc. now apply IH. }
  cbn [scan] in *. destruct m as [|w|t|]; unfold step in *; cbn [fst snd] in *.
  - now apply B.
  - destruct (word_char c); [now apply IH|]. exact (B (TWord w :: acc) H).
  - destruct (Ascii.eqb c double_quote); [exact (IH Between (TText t :: acc) more H)|].
    destruct (_ || _ || _); [|now apply IH]. exfalso. apply H. apply scan_bad.
  - exfalso. apply H. apply scan_bad.
Qed.

(** for text that is given *)
Lemma lexes_given : forall a ts, tokens a = Some ts -> lexes a ts.
Proof.
  intros a ts H acc. unfold tokens in H. destruct (scan (Between, []) a) as [m l] eqn:E.
  assert (N : fst (scan (Between, []) a) <> Bad) by (rewrite E; cbn; destruct m; discriminate).
  pose proof (scan_acc a Between [] acc N) as S. cbn [app] in S. rewrite S, E. cbn [fst snd].
  destruct m as [|w|t|]; try discriminate; injection H as <-; (split; [exact I|]); unfold done; cbn [fst snd].
  - now rewrite rev_involutive.
  - cbn [rev]. now rewrite rev_app_distr, rev_involutive.
Qed.
Lemma lexes_tokens : forall a ts, lexes a ts -> tokens a = Some ts.
Proof.
  intros a ts H. destruct (H []) as [F D]. unfold tokens. destruct (scan (Between, []) a) as [m l]. rewrite app_nil_r in D.
  destruct m; cbn in F, D |- *; try contradiction; f_equal; rewrite <- (rev_involutive ts), <- D; reflexivity.
Qed.

(** [b] does not begin with a letter, or [a] does not end with one *)
Definition plain_start (b : string) : bool := match b with EmptyString => true | String c _ => negb (word_char c) end.
Definition plain_end (a : string) : bool := match fst (scan (Between, []) a) with Between => true | _ => false end.
Lemma plain_start_scan : forall b st, fine st -> plain_start b = true -> b <> "" -> scan st b = scan (Between, done st) b.
Proof.
  intros [|c b] [m acc] F P N; [congruence|]. cbn [plain_start] in P. apply negb_true_iff in P. cbn [scan].
  destruct m; cbn in F; try contradiction; [reflexivity|]. unfold step, done. cbn [fst snd]. now rewrite P.
Qed.
Lemma lexes_before : forall a b ts us, lexes a ts -> lexes b us -> plain_start b = true -> lexes (a ++ b) (ts ++ us).
Proof.
  intros a b ts us A B P acc. destruct (A acc) as [F D]. rewrite scan_app.
  destruct (String.eqb_spec b "") as [E|N].
  - subst b. cbn [scan]. split; [exact F|]. rewrite D. destruct (B []) as [_ Q]. cbn in Q. rewrite app_nil_r in Q.
    destruct us as [|u us]; [now rewrite app_nil_r|]. exfalso. cbn in Q. now apply app_cons_not_nil in Q.
  - rewrite (plain_start_scan b _ F P N), D. destruct (B (rev ts ++ acc)%list) as [F' D']. split; [exact F'|].
    rewrite D', rev_app_distr. now rewrite app_assoc.
Qed.
Lemma lexes_after : forall a b ts us, lexes a ts -> plain_end a = true -> lexes b us -> lexes (a ++ b) (ts ++ us).
Proof.
  intros a b ts us A P B acc. destruct (A acc) as [F D]. rewrite scan_app. unfold plain_end in P.
  destruct (scan (Between, []) a) as [m l] eqn:E. cbn [fst] in P. destruct m; try discriminate.
  assert (N : fst (scan (Between, []) a) <> Bad) by now rewrite E.
  pose proof (scan_acc a Between [] acc N) as S. cbn [app] in S. rewrite E in S. cbn [fst snd] in S. rewrite S in *.
  unfold done in D. cbn [fst snd] in D. rewrite D. destruct (B (rev ts ++ acc)%list) as [F' D']. split; [exact F'|].
  rewrite D', rev_app_distr. now rewrite app_assoc.
Qed.
Lemma lexes_nil : lexes "" [].
Proof. now apply lexes_given. Qed.

Lemma scan_word : forall s w acc, all_chars (fun c => word_char c = true) s -> scan (InWord w, acc) s = (InWord (w ++ s), acc).
Proof.
  induction s as [|c s IH]; intros w acc H; [now rewrite app_nil_r_s|]. cbn [scan]. unfold step. cbn [fst snd].
  rewrite (H c (or_introl eq_refl)). rewrite IH; [now rewrite app_assoc_s|]. intros d I. apply H. now right.
Qed.
Lemma lexes_word : forall s, word s -> lexes s [TWord s].
Proof.
  intros s [N H] acc. destruct s as [|c s]; [congruence|]. cbn [scan]. unfold step, begin. cbn [fst snd].
  rewrite (H c (or_introl eq_refl)). rewrite scan_word by (intros d I; apply H; now right). split; [exact I|reflexivity].
Qed.
Lemma scan_text : forall s t acc, all_chars (fun c => word_char c = true) s -> scan (InText t, acc) s = (InText (t ++ s), acc).
Proof.
  induction s as [|c s IH]; intros w acc H; [now rewrite app_nil_r_s|]. cbn [scan]. unfold step. cbn [fst snd].
  assert (C := H c (or_introl eq_refl)).
  assert (K : forall d, word_char d = false -> Ascii.eqb c d = false).
  { intros d D. apply Ascii.eqb_neq. congruence. }
  rewrite !K by reflexivity. cbn [orb]. rewrite IH; [now rewrite app_assoc_s|]. intros d I. apply H. now right.
Qed.
Lemma lexes_text : forall s, all_chars (fun c => word_char c = true) s -> lexes (String double_quote (s ++ String double_quote "")) [TText s].
Proof.
  intros s H acc. cbn [scan]. unfold step at 1 2. unfold begin. cbn [fst snd word_char]. change (word_char double_quote) with false.
  cbn match. change (Ascii.eqb double_quote double_quote) with true. cbn match. rewrite scan_app, scan_text by exact H.
  cbn [scan]. unfold step. cbn [fst snd]. change (Ascii.eqb double_quote double_quote) with true. split; [exact I|reflexivity].
Qed.

(** lines *)
Lemma lexes_lines : forall ls tss, Forall2 lexes ls tss -> lexes (join (String newline "") ls) (concat tss).
Proof.
  induction 1 as [|l ts ls tss L H IH]; [exact lexes_nil|]. destruct ls as [|m ls].
  - inversion H. subst. cbn [concat]. rewrite app_nil_r. exact L.
  - change (join (String newline "") (l :: m :: ls)) with (l ++ (String newline "" ++ join (String newline "") (m :: ls))).
    cbn [concat]. apply lexes_before; [exact L| |reflexivity].
    change (concat tss) with ([] ++ concat tss)%list. now apply lexes_after; [apply lexes_given|..].
Qed.
(** lists *)
Lemma lexes_joined : forall sep us, tokens sep = Some us -> plain_start sep = true -> plain_end sep = true -> sep <> "" ->
  forall l tss, Forall2 lexes l tss ->
  lexes (join sep l) (match tss with [] => [] | ts :: tss => ts ++ flat_map (fun x => us ++ x) tss end)%list.
Proof.
  intros sep us T P Q N. induction 1 as [|x ts l tss L H IH]; [exact lexes_nil|]. destruct H as [|y us' l tss M H].
  - cbn. rewrite app_nil_r. exact L.
  - change (join sep (x :: y :: l)) with (x ++ (sep ++ join sep (y :: l))). apply lexes_before; [exact L| |].
    + cbn [flat_map]. rewrite <- app_assoc. apply lexes_after; [now apply lexes_given|exact Q|exact IH].
    + destruct sep; [congruence|exact P].
Qed.

(** ** Brackets *)

Definition closer (o : ascii) : ascii := if Ascii.eqb o "(" then ")"%char else "]"%char.
Fixpoint flat (t : tree) : list tok :=
  match t with
  | Leaf t => [t]
  | Group o ts => TMark o :: flat_map flat ts ++ [TMark (closer o)]
  end.
Definition flats (ts : list tree) : list tok := flat_map flat ts.
Fixpoint sound (t : tree) : bool :=
  match t with
  | Leaf (TMark c) => negb (opening c) && negb (closing c)
  | Leaf _ => true
  | Group o ts => opening o && forallb sound ts
  end.

Lemma closes_closer : forall o, opening o = true -> closes o (closer o) = true /\ opening (closer o) = false /\ closing (closer o) = true.
Proof.
  intros o H. unfold opening in H. apply orb_true_iff in H as [H|H]; apply Ascii.eqb_eq in H; subst; vm_compute; auto.
Qed.
Section TreeInd.
Variable P : tree -> Prop.
Hypothesis H1 : forall t, P (Leaf t).
Hypothesis H2 : forall o ts, Forall P ts -> P (Group o ts).
Fixpoint tree_induct (t : tree) : P t :=
  match t with
  | Leaf t => H1 t
  | Group o ts => H2 o ts ((fix go (l : list tree) : Forall P l :=
      match l with [] => Forall_nil P | x :: l' => Forall_cons x (tree_induct x) (go l') end) ts)
  end.
End TreeInd.
Lemma build_flats : forall ts, forallb sound ts = true -> forall st cur l,
  build st cur (flats ts ++ l)%list = build st (rev ts ++ cur) l.
Proof.
  assert (K : forall t, sound t = true -> forall st cur l, build st cur (flat t ++ l)%list = build st (t :: cur) l).
  { induction t as [t|o ts IH] using tree_induct; intros S st cur l.
    - cbn [flat app]. destruct t as [w|x|c]; [reflexivity|reflexivity|]. cbn [sound] in S. apply andb_true_iff in S as [A B].
      cbn [build]. apply negb_true_iff in A, B. now rewrite A, B.
    - cbn [sound] in S. apply andb_true_iff in S as [O S]. destruct (closes_closer o O) as [C1 [C2 C3]].
      cbn [flat app]. cbn [build]. rewrite O.
      assert (M : forall us, Forall (fun t => sound t = true -> forall st cur l, build st cur (flat t ++ l)%list = build st (t :: cur) l) us ->
        forallb sound us = true -> forall st cur l, build st cur (flat_map flat us ++ l)%list = build st (rev us ++ cur) l).
      { induction 1 as [|u us U H IHu]; intros F st' cur' l'; [reflexivity|]. cbn in F. apply andb_true_iff in F as [F G].
        cbn [flat_map]. rewrite <- app_assoc, (U F), (IHu G). cbn [rev]. now rewrite <- app_assoc. }
      rewrite <- app_assoc, (M ts IH S). cbn [app build]. rewrite C2, C3, C1. now rewrite app_nil_r, rev_involutive. }
  induction ts as [|t ts IH]; intros S st cur l; [reflexivity|]. cbn in S. apply andb_true_iff in S as [A B].
  unfold flats in *. cbn [flat_map]. rewrite <- app_assoc, (K t A), (IH B). cbn [rev]. now rewrite <- app_assoc.
Qed.
Lemma flats_app : forall a b, flats (a ++ b) = (flats a ++ flats b)%list.
Proof. intros. apply flat_map_app. Qed.
Lemma lexes_trees : forall a ts, lexes a (flats ts) -> forallb sound ts = true -> read_trees a = Some ts.
Proof.
  intros a ts H S. unfold read_trees. rewrite (lexes_tokens _ _ H). rewrite <- (app_nil_r (flats ts)), (build_flats ts S).
  cbn [build]. rewrite app_nil_r. now rewrite rev_involutive.
Qed.

(** ** Identifiers and paths *)

Lemma identifier_word : forall s, identifier s = true -> word s.
Proof.
  intros [|c s] H; [discriminate|]. cbn [identifier] in H. apply andb_true_iff in H as [H _]. apply andb_true_iff in H as [_ H].
  split; [discriminate|]. intros d I. exact (forallb_char_in _ _ _ H I).
Qed.
Lemma name_identifier : forall s, identifier s = true -> name_of (Leaf (TWord s)) = Some s.
Proof. intros s H. unfold name_of. now rewrite H. Qed.
Lemma not_keyword : forall s k, identifier s = true -> In k kotlin_keywords -> String.eqb k s = false.
Proof.
  intros [|c s] k H I; [discriminate|]. cbn [identifier] in H. apply andb_true_iff in H as [_ H]. apply negb_true_iff in H.
  apply String.eqb_neq. intros ->. apply str_in_false in H. contradiction.
Qed.

(** [a.b.c], as trees; the last part may be a star *)
Definition part (s : string) : tree := if String.eqb s "*" then Leaf (TMark "*") else Leaf (TWord s).
Definition dotted (ps : list string) : list tree :=
  match ps with [] => [] | p :: ps => part p :: flat_map (fun x => [Leaf (TMark "."); part x]) ps end.
Definition undotted (l : list tree) : bool := match l with t :: _ => negb (is_mark "." t) | [] => true end.
Lemma part_name : forall s, identifier s = true -> part s = Leaf (TWord s).
Proof. intros s H. unfold part. destruct (String.eqb_spec s "*") as [->|N]; [discriminate|reflexivity]. Qed.
Lemma read_dotted : forall ps p, forallb identifier (p :: ps) = true -> forall l, undotted l = true ->
  read_path (dotted (p :: ps) ++ l)%list = Some (p :: ps, l).
Proof.
  induction ps as [|x ps IH]; intros p H l U; cbn in H; apply andb_true_iff in H as [H I].
  - cbn [dotted flat_map app]. rewrite (part_name p H). cbn [read_path]. rewrite name_identifier by exact H.
    destruct l as [|t l]; [reflexivity|]. cbn in U. apply negb_true_iff in U. now rewrite U.
  - assert (J := I). apply andb_true_iff in J as [J _]. specialize (IH x I l U). cbn [dotted flat_map app] in *.
    rewrite (part_name p H). rewrite (part_name x J) in *. cbn [read_path]. rewrite name_identifier by exact H.
    change (is_mark "." (Leaf (TMark "."))) with true. change (is_mark "*" (Leaf (TWord x))) with false. cbn match.
    cbn [read_path] in IH. rewrite IH. reflexivity.
Qed.
Lemma read_starred : forall ps p, forallb identifier (p :: ps) = true -> forall l,
  read_path (dotted ((p :: ps) ++ ["*"]) ++ l)%list = Some (((p :: ps) ++ ["*"])%list, l).
Proof.
  induction ps as [|x ps IH]; intros p H l; cbn in H; apply andb_true_iff in H as [H I].
  - cbn [dotted flat_map app]. rewrite (part_name p H). cbn [read_path]. rewrite name_identifier by exact H. reflexivity.
  - assert (J := I). apply andb_true_iff in J as [J _]. specialize (IH x I l). cbn [dotted flat_map app] in *.
    rewrite (part_name p H). rewrite (part_name x J) in *. cbn [read_path]. rewrite name_identifier by exact H.
    change (is_mark "." (Leaf (TMark "."))) with true. change (is_mark "*" (Leaf (TWord x))) with false. cbn match.
    cbn [read_path] in IH. rewrite IH. reflexivity.
Qed.
Lemma lexes_dotted : forall ps, (forall p, In p ps -> identifier p = true \/ p = "*") -> lexes (join "." ps) (flats (dotted ps)).
Proof.
  intros ps H.
  assert (L : Forall2 lexes ps (map (fun p => flat (part p)) ps)).
  { induction ps as [|p ps IH]; [constructor|]. cbn [map]. constructor; [|apply IH; intros x I; apply H; now right].
    destruct (H p (or_introl eq_refl)) as [Q| ->].
    - rewrite (part_name p Q). now apply lexes_word, identifier_word.
    - now apply lexes_given. }
  assert (J := lexes_joined "." [TMark "."] eq_refl eq_refl eq_refl ltac:(discriminate) _ _ L).
  destruct ps as [|p ps]; [exact J|]. cbn [map] in J. cbn [dotted]. unfold flats. cbn [flat_map].
  replace (flat_map flat (flat_map (fun x => [Leaf (TMark "."); part x]) ps))
    with (flat_map (fun x => ([TMark "."] ++ x)%list) (map (fun p => flat (part p)) ps)); [exact J|].
  clear. induction ps as [|x ps IH]; [reflexivity|]. change (flat_map (fun x0 => ([TMark "."] ++ x0)%list) (map (fun p => flat (part p)) (x :: ps)))
    with (TMark "." :: flat (part x) ++ flat_map (fun x0 => ([TMark "."] ++ x0)%list) (map (fun p => flat (part p)) ps))%list.
  rewrite IH. reflexivity.
Qed.
Lemma dotted_sound : forall ps, (forall p, In p ps -> identifier p = true \/ p = "*") -> forallb sound (dotted ps) = true.
Proof.
  assert (K : forall p, identifier p = true \/ p = "*" -> sound (part p) = true).
  { intros p [Q| ->]; [now rewrite part_name|reflexivity]. }
  intros [|p ps] H; [reflexivity|]. cbn [dotted forallb]. rewrite (K p (H p (or_introl eq_refl))). cbn [andb].
  assert (H' : forall x, In x ps -> identifier x = true \/ x = "*") by (intros x I; apply H; now right). clear H.
  induction ps as [|x ps IH]; [reflexivity|]. cbn [flat_map app forallb]. rewrite (K x (H' x (or_introl eq_refl))).
  cbn [andb]. apply IH. intros y I. apply H'. now right.
Qed.

(** ** Lists *)

Definition comma : tree := Leaf (TMark ",").
Definition uncomma (l : list tree) : bool := forallb (fun t => negb (is_mark "," t)) l.
Fixpoint joined (l : list (list tree)) : list tree :=
  match l with
  | [] => []
  | [x] => x
  | x :: l' => x ++ comma :: joined l'
  end.
Lemma commas_one : forall x, uncomma x = true -> commas x = [x].
Proof.
  induction x as [|t x IH]; intros H; [reflexivity|]. cbn in H. apply andb_true_iff in H as [A B]. apply negb_true_iff in A.
  cbn [commas]. now rewrite A, (IH B).
Qed.
Lemma commas_app : forall x l, uncomma x = true -> commas (x ++ comma :: l) = x :: commas l.
Proof.
  induction x as [|t x IH]; intros l H; [reflexivity|]. cbn in H. apply andb_true_iff in H as [A B]. apply negb_true_iff in A.
  cbn [app commas]. now rewrite A, (IH l B).
Qed.
Lemma commas_some : forall l, commas l <> [].
Proof. intros [|t l]; cbn; [discriminate|]. destruct (is_mark "," t); [discriminate|]. now destruct (commas l). Qed.
Lemma drop_cons : forall x l, l <> [] -> drop_last_empty (x :: l) = x :: drop_last_empty l.
Proof. intros x [|y l] H; [congruence|reflexivity]. Qed.
Lemma items_joined : forall l, (forall x, In x l -> uncomma x = true /\ x <> []) -> items (joined l) = l.
Proof.
  intros l H. destruct l as [|x l]; [reflexivity|]. unfold items. revert x H. induction l as [|y l IH]; intros x H.
  - destruct (H x (or_introl eq_refl)) as [A B]. cbn [joined]. rewrite (commas_one x A). destruct x; [congruence|reflexivity].
  - destruct (H x (or_introl eq_refl)) as [A B]. cbn [joined]. rewrite (commas_app x _ A), drop_cons by apply commas_some.
    f_equal. apply IH. intros z I. apply H. now right.
Qed.
(** with a comma behind the last one *)
Lemma items_trailing : forall l, (forall x, In x l -> uncomma x = true /\ x <> []) -> l <> [] -> items (joined l ++ [comma]) = l.
Proof.
  intros l H N. destruct l as [|x l]; [congruence|]. clear N. unfold items. revert x H. induction l as [|y l IH]; intros x H.
  - destruct (H x (or_introl eq_refl)) as [A B]. cbn [joined]. rewrite (commas_app x _ A). reflexivity.
  - destruct (H x (or_introl eq_refl)) as [A B]. cbn [joined]. rewrite <- app_assoc. cbn [app].
    rewrite (commas_app x _ A), drop_cons by apply commas_some.
    f_equal. apply IH. intros z I. apply H. now right.
Qed.

(** ** Annotations *)

Definition arg_trees (a : arg) : list tree :=
  if String.eqb (fst a) "" then snd a else Leaf (TWord (fst a)) :: Leaf (TMark "=") :: snd a.
Definition anno_trees (a : anno) : list tree :=
  Leaf (TMark "@") :: Leaf (TWord (an_name a)) ::
  match an_args a with [] => [] | l => [Group "(" (joined (map arg_trees l))] end.
Definition arg_ok (a : arg) : Prop := read_arg (arg_trees a) = a /\ uncomma (arg_trees a) = true /\ arg_trees a <> [].
Definition anno_ok (a : anno) : Prop := identifier (an_name a) = true /\ forall x, In x (an_args a) -> arg_ok x.
Definition ungrouped (l : list tree) : bool := match l with Group _ _ :: _ => false | t :: _ => negb (is_mark "@" t) | [] => true end.

Lemma keyed_ok : forall k v, identifier k = true -> uncomma v = true -> arg_ok (k, v).
Proof.
  intros k v K V. unfold arg_ok, arg_trees. cbn [fst snd]. destruct (String.eqb_spec k "") as [->|N]; [discriminate|].
  split; [|split].
  - unfold read_arg. now rewrite name_identifier.
  - cbn. exact V.
  - discriminate.
Qed.
Lemma args_read : forall l, (forall x, In x l -> arg_ok x) -> map read_arg (items (joined (map arg_trees l))) = l.
Proof.
  intros l H. rewrite items_joined.
  - rewrite map_map. rewrite <- (map_id l) at 2. apply map_ext_in. intros x I. apply (H x I).
  - intros x I. apply in_map_iff in I as [a [<- I]]. destruct (H a I) as [_ [A B]]. auto.
Qed.
Lemma annos_read : forall l rest, (forall a, In a l -> anno_ok a) -> ungrouped rest = true ->
  read_annos (flat_map anno_trees l ++ rest) = (l, rest).
Proof.
  induction l as [|a l IH]; intros rest H U.
  - cbn [flat_map app]. destruct rest as [|t [|u r]]; [reflexivity|reflexivity|]. cbn [read_annos].
    destruct t as [t|o ts]; [|discriminate]. cbn [ungrouped] in U. apply negb_true_iff in U. now rewrite U.
  - destruct (H a (or_introl eq_refl)) as [N A]. specialize (IH rest (fun x I => H x (or_intror I)) U).
    destruct a as [n args]. cbn [an_name an_args] in *. cbn [flat_map]. unfold anno_trees at 1. cbn [an_name an_args].
    destruct args as [|x args].
    + cbn [app]. assert (G : forall o ts r, (flat_map anno_trees l ++ rest)%list <> Group o ts :: r).
      { intros o ts r Q. destruct l as [|b l]; [|discriminate]. cbn in Q. rewrite Q in U. discriminate. }
      revert IH G. generalize (flat_map anno_trees l ++ rest)%list as more. intros more IH G.
      cbn [read_annos]. change (is_mark "@" (Leaf (TMark "@"))) with true. rewrite name_identifier by exact N. cbn match.
      destruct more as [|[t|o ts] r]; [rewrite IH; reflexivity|rewrite IH; reflexivity|]. exfalso. now apply (G o ts r).
    + cbn [app]. cbn [read_annos]. change (is_mark "@" (Leaf (TMark "@"))) with true. rewrite name_identifier by exact N. cbn match.
      rewrite IH. now rewrite (args_read (x :: args) A).
Qed.
