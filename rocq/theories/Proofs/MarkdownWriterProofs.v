(** What the Markdown writers write, read again; the values of SQL literals *)
From Coq Require Import String Ascii List NArith ZArith Bool Lia.
From Coq Require Import Decimal DecimalString DecimalN.
From Verif.Model Require Import GoString Liquibase MarkdownWriter.
From Verif.Spec Require Import Text Reading MarkdownReading MarkdownCalls.
From Verif.Proofs Require Import StringLemmas ReadingProofs.
Import ListNotations.
Local Open Scope string_scope.

(** *** Lines *)
Lemma lines_some : forall s, exists l ls, lines s = l :: ls.
Proof.
  induction s as [|c s [l [ls E]]]; [exists "", []; reflexivity|]. cbn [lines]. destruct (Ascii.eqb c newline).
  - exists "", (lines s). reflexivity.
  - rewrite E. exists (String c l), ls. reflexivity.
Qed.
Lemma nl_lines : forall s r, lines (s ++ md_nl ++ r) = (lines s ++ lines r)%list.
Proof.
  induction s as [|c s IH]; intros r; [reflexivity|]. cbn [append lines]. rewrite IH.
  destruct (Ascii.eqb c newline); [reflexivity|]. destruct (lines_some s) as [l [ls ->]]. reflexivity.
Qed.
Lemma one_lines : forall s, one_line s -> lines s = [s].
Proof.
  induction s as [|c s IH]; intros O; [reflexivity|]. cbn [lines].
  assert (Ascii.eqb c newline = false) as ->.
  { apply Ascii.eqb_neq. intros ->. apply O. left. reflexivity. }
  rewrite IH; [reflexivity|]. intros I. apply O. right. exact I.
Qed.
Lemma put_lines : forall s r, one_line s -> lines (md_put_line s ++ r) = s :: lines r.
Proof. intros s r O. unfold md_put_line. rewrite app_assoc_s, nl_lines, (one_lines s O). reflexivity. Qed.
Lemma fold_lines : forall ls r, Forall one_line ls -> lines (fold_right (fun l r => md_put_line l ++ r) "" ls ++ r) = (ls ++ lines r)%list.
Proof.
  intros ls r F. induction F as [|l ls O F IH]; [reflexivity|]. cbn [fold_right]. rewrite app_assoc_s, put_lines; [|exact O].
  rewrite IH. reflexivity.
Qed.
Lemma one_line_app : forall p s, one_line p -> one_line s -> one_line (p ++ s).
Proof.
  unfold one_line. induction p as [|c p IH]; intros s P S; [exact S|]. cbn. intros [E|I]; [apply P; left; exact E|].
  revert I. apply IH; [|exact S]. intros X. apply P. right. exact X.
Qed.
Lemma plain_one : forall p, contains_char newline p = false -> one_line p.
Proof. intros p H. apply contains_char_false. exact H. Qed.

(** the lines of a call *)
Definition call_lines (c : call) : list string :=
  match c with
  | CLine s => [s] | CH1 s => ["# " ++ s] | CH2 s => ["## " ++ s] | CH3 s => ["### " ++ s]
  | CCodes lang ls => (("```" ++ lang)%string :: ls ++ ["```"])%list
  | CCode lang data => (("```" ++ lang)%string :: lines data ++ ["```"])%list
  | CSqls ls => ("```sql" :: ls ++ ["```"])%list
  | CSql data => ("```sql" :: lines data ++ ["```"])%list
  end.
Lemma codes_lines : forall lang ls r, one_line lang -> Forall (fun l => one_line l /\ no_fence l) ls ->
  lines (md_codes lang ls ++ r) = ((("```" ++ lang)%string :: ls ++ ["```"]) ++ lines r)%list.
Proof.
  intros lang ls r L F. unfold md_codes. rewrite !app_assoc_s, put_lines; [|apply one_line_app; [apply plain_one; reflexivity | exact L]].
  rewrite fold_lines; [|apply Forall_forall; intros l I; rewrite Forall_forall in F; exact (proj1 (F l I))].
  rewrite put_lines; [|apply plain_one; reflexivity]. rewrite <- app_comm_cons, <- app_assoc. reflexivity.
Qed.
Lemma code_lines : forall lang data r, one_line lang ->
  lines (md_code lang data ++ r) = ((("```" ++ lang)%string :: lines data ++ ["```"]) ++ lines r)%list.
Proof.
  intros lang data r L. unfold md_code. rewrite !app_assoc_s, put_lines; [|apply one_line_app; [apply plain_one; reflexivity | exact L]].
  change (md_put_line "") with md_nl. rewrite nl_lines, put_lines; [|apply plain_one; reflexivity].
  rewrite <- app_comm_cons, <- app_assoc. reflexivity.
Qed.
Lemma written_lines : forall c r, call_ok c -> lines (written c ++ r) = (call_lines c ++ lines r)%list.
Proof.
  intros c r K. destruct c; cbn [written call_lines call_ok app] in *.
  - apply put_lines. apply K.
  - apply put_lines, one_line_app; [apply plain_one; reflexivity | exact K].
  - apply put_lines, one_line_app; [apply plain_one; reflexivity | exact K].
  - apply put_lines, one_line_app; [apply plain_one; reflexivity | exact K].
  - apply codes_lines; [apply K | apply K].
  - apply code_lines. apply K.
  - apply (codes_lines "sql"); [apply plain_one; reflexivity | exact K].
  - apply (code_lines "sql"). apply plain_one. reflexivity.
Qed.
Lemma document_lines : forall cs, Forall call_ok cs -> lines (document cs) = (flat_map call_lines cs ++ [""])%list.
Proof.
  intros cs F. induction F as [|c cs K F IH]; [reflexivity|]. cbn [document fold_right flat_map] in *.
  rewrite (written_lines c _ K). unfold document in IH. rewrite IH, app_assoc. reflexivity.
Qed.

(** *** Blocks *)
Lemma backticks_none : forall s, has_backtick s = false -> backticks s = (0, s).
Proof.
  intros [|c s] H; [reflexivity|]. cbn [has_backtick] in H. apply orb_false_iff in H as [N _]. cbn [backticks].
  destruct c as [[] [] [] [] [] [] [] []]; try reflexivity. cbn in N. discriminate.
Qed.
Lemma opens_fence : forall lang, has_backtick lang = false -> opens ("```" ++ lang) = Some (3, lang).
Proof. intros lang H. unfold opens. cbn [append unindent backticks]. rewrite (backticks_none lang H). cbn. rewrite H. reflexivity. Qed.
Lemma step_code : forall n lang code l ls, closes n l = false ->
  read_blocks (Some (n, lang, code)) (l :: ls) = read_blocks (Some (n, lang, (code ++ [l])%list)) ls.
Proof. intros n lang code l ls N. cbn [read_blocks]. rewrite N. reflexivity. Qed.
Lemma inside : forall lang code ls r, Forall no_fence ls ->
  read_blocks (Some (3, lang, code)) (ls ++ "```" :: r) = Fenced lang (code ++ ls) :: read_blocks None r.
Proof.
  intros lang code ls r F. revert code. induction F as [|l ls N F IH]; intros code.
  - cbn. rewrite app_nil_r. reflexivity.
  - rewrite <- app_comm_cons, (step_code _ _ _ _ _ N), IH, <- app_assoc. reflexivity.
Qed.
Lemma fence : forall lang ls r, has_backtick lang = false -> Forall no_fence ls ->
  read_blocks None ((("```" ++ lang)%string :: ls ++ ["```"]) ++ r)%list = Fenced lang ls :: read_blocks None r.
Proof.
  intros lang ls r H F. rewrite <- app_comm_cons, <- app_assoc.
  replace (read_blocks None (("```" ++ lang)%string :: (ls ++ ["```"] ++ r)%list)) with (read_blocks (Some (3, lang, [])) (ls ++ "```" :: r)%list).
  - apply inside. exact F.
  - cbn [read_blocks]. rewrite (opens_fence lang H). reflexivity.
Qed.
Lemma fences : forall ls, Forall (fun l => one_line l /\ no_fence l) ls -> Forall no_fence ls.
Proof. intros ls F. apply Forall_forall. intros l I. rewrite Forall_forall in F. exact (proj2 (F l I)). Qed.

Lemma call_blocks : forall c r, call_ok c -> read_blocks None (call_lines c ++ r)%list = meant c :: read_blocks None r.
Proof.
  intros c r K. destruct c; cbn [call_lines meant call_ok] in *.
  - destruct K as [_ [O H]]. change ([s] ++ r)%list with (s :: r). cbn [read_blocks]. rewrite O, H. reflexivity.
  - reflexivity.
  - reflexivity.
  - reflexivity.
  - apply fence; [apply K | apply fences, K].
  - apply fence; [apply K | apply K].
  - apply (fence "sql"); [reflexivity | apply fences, K].
  - apply (fence "sql"); [reflexivity | apply K].
Qed.
Lemma document_reads : forall cs, Forall call_ok cs -> read_markdown (document cs) = map meant cs.
Proof.
  intros cs F. unfold read_markdown, whole_lines. rewrite (document_lines cs F), removelast_last.
  induction F as [|c cs K F IH]; [reflexivity|]. cbn [flat_map map]. rewrite (call_blocks c _ K), IH. reflexivity.
Qed.

(** *** Numbers *)
Definition digit_value (c : ascii) : N := (N_of_ascii c - 48)%N.
Lemma digit_iff : forall c, is_digit c = (N.leb 48 (N_of_ascii c) && N.leb (N_of_ascii c) 57)%bool.
Proof. intros c. destruct c as [[] [] [] [] [] [] [] []]; reflexivity. Qed.

Lemma acc_decimal : forall s u p, NilEmpty.uint_of_string s = Some u -> decimal_from (Npos p) s = Some (Npos (Pos.of_uint_acc u p)).
Proof.
  induction s as [|c s IH]; intros u p H.
  - cbn in H. injection H as <-. reflexivity.
  - cbn [NilEmpty.uint_of_string] in H. unfold uint_of_char in H. cbn [decimal_from].
    destruct (NilEmpty.uint_of_string s) as [v|]; [|destruct c as [[] [] [] [] [] [] [] []]; discriminate].
    destruct c as [[] [] [] [] [] [] [] []]; try discriminate; injection H as <-; cbn [Pos.of_uint_acc];
      rewrite <- (IH v _ eq_refl);
      (match goal with |- context [N_of_ascii ?c] => let x := eval vm_compute in (N_of_ascii c) in change (N_of_ascii c) with x end);
      (match goal with |- (if ?b then ?x else _) = _ => change (x = decimal_from (N.pos _) s) || idtac end);
      cbv beta zeta; (match goal with |- (if _ then ?x else _) = ?y => change (x = y) end);
      f_equal; lia.
Qed.
Lemma from_zero : forall s u, NilEmpty.uint_of_string s = Some u -> decimal_from 0 s = Some (N.of_uint u).
Proof.
  induction s as [|c s IH]; intros u H.
  - cbn in H. injection H as <-. reflexivity.
  - cbn [NilEmpty.uint_of_string] in H. unfold uint_of_char in H. cbn [decimal_from].
    destruct (NilEmpty.uint_of_string s) as [v|] eqn:E; [|destruct c as [[] [] [] [] [] [] [] []]; discriminate].
    destruct c as [[] [] [] [] [] [] [] []]; try discriminate; injection H as <-;
      first [exact (IH v eq_refl) | exact (acc_decimal s v 1 E) | exact (acc_decimal s v 2 E) | exact (acc_decimal s v 3 E)
            | exact (acc_decimal s v 4 E) | exact (acc_decimal s v 5 E) | exact (acc_decimal s v 6 E) | exact (acc_decimal s v 7 E)
            | exact (acc_decimal s v 8 E) | exact (acc_decimal s v 9 E)].
Qed.
Lemma digits_string : forall s, string_forallb is_digit s = true -> exists u, NilEmpty.uint_of_string s = Some u.
Proof.
  induction s as [|c s IH]; intros H; [exists Nil; reflexivity|]. cbn [string_forallb] in H. apply andb_true_iff in H as [D H].
  destruct (IH H) as [u E]. cbn [NilEmpty.uint_of_string]. rewrite E. unfold uint_of_char.
  destruct c as [[] [] [] [] [] [] [] []]; try discriminate; eexists; reflexivity.
Qed.
Lemma from_digits : forall s acc n, decimal_from acc s = Some n -> string_forallb is_digit s = true.
Proof.
  induction s as [|c s IH]; intros acc n H; [reflexivity|]. cbn [decimal_from] in H. cbn [string_forallb]. rewrite digit_iff.
  destruct (N.leb 48 (N_of_ascii c) && N.leb (N_of_ascii c) 57)%bool; [|discriminate]. exact (IH _ _ H).
Qed.
Definition unsigned (r : string) : option Z :=
  match r with
  | EmptyString => None
  | _ => if string_forallb is_digit r then option_map Z.of_N (digits_to_N r) else None
  end.
Lemma unsigned_decimal : forall r, unsigned r = option_map Z.of_N (decimal r).
Proof.
  intros [|c s]; [reflexivity|]. unfold unsigned, decimal. destruct (string_forallb is_digit (String c s)) eqn:D.
  - destruct (digits_string _ D) as [u E]. rewrite (from_zero _ _ E). unfold digits_to_N.
    change (NilZero.uint_of_string (String c s)) with (NilEmpty.uint_of_string (String c s)). rewrite E. reflexivity.
  - destruct (decimal_from 0 (String c s)) as [n|] eqn:F; [|reflexivity]. rewrite (from_digits _ _ _ F) in D. discriminate.
Qed.
Definition signed (s : string) : option Z :=
  match s with
  | String "-" r => option_map Z.opp (unsigned r)
  | String "+" r => unsigned r
  | _ => unsigned s
  end.
Lemma signed_denotes : forall s z, signed s = Some z <-> denotes s z.
Proof.
  intros s z. split.
  - intros H. assert (P : unsigned s = Some z -> denotes s z).
    { intros U. rewrite unsigned_decimal in U. destruct (decimal s) as [n|] eqn:D; [|discriminate]. injection U as <-. apply den_plain. exact D. }
    unfold signed in H. destruct s as [|c r]; [exact (P H)|].
    destruct c as [[] [] [] [] [] [] [] []]; try exact (P H); rewrite unsigned_decimal in H; destruct (decimal r) as [n|] eqn:D; try discriminate;
      injection H as <-; [apply (den_plus r n D) | apply (den_minus r n D)].
  - intros [s' n D | s' n D | s' n D].
    + assert (U : unsigned s' = Some (Z.of_N n)) by (rewrite unsigned_decimal, D; reflexivity).
      unfold signed. destruct s' as [|c r]; [exact U|].
      destruct c as [[] [] [] [] [] [] [] []]; try exact U; cbn in D; discriminate.
    + change (signed ("+" ++ s')) with (unsigned s'). rewrite unsigned_decimal, D. reflexivity.
    + change (signed ("-" ++ s')) with (option_map Z.opp (unsigned s')). rewrite unsigned_decimal, D. reflexivity.
Qed.
Lemma atoi_denotes : forall s z, go_atoi s = Some z <-> denotes s z /\ int64 z.
Proof.
  intros s z. change (go_atoi s) with
    (match signed s with
     | Some v => if (Z.leb (-9223372036854775808) v && Z.leb v 9223372036854775807)%bool then Some v else None
     | None => None end).
  rewrite <- signed_denotes. unfold int64. destruct (signed s) as [v|].
  - destruct (Z.leb (-9223372036854775808) v && Z.leb v 9223372036854775807)%bool eqn:B.
    + apply andb_true_iff in B as [B1 B2]. apply Z.leb_le in B1, B2. split.
      * intros E. injection E as <-. split; [reflexivity|]. cbn. lia.
      * intros [E _]. exact E.
    + split; [discriminate|]. intros [E R]. injection E as ->. apply andb_false_iff in B. cbn in R.
      destruct B as [B|B]; apply Z.leb_gt in B; lia.
  - split; [discriminate|]. intros [E _]. discriminate.
Qed.
Lemma sql_int : forall v d z, sql_val_to_int v d = z <->
  (exists s, v = Some s /\ denotes s z /\ int64 z) \/ (z = d /\ forall s x, v = Some s -> denotes s x -> ~ int64 x).
Proof.
  intros v d z. unfold sql_val_to_int. destruct v as [s|].
  - destruct (go_atoi s) as [x|] eqn:G.
    + apply atoi_denotes in G as [D I]. split.
      * intros <-. left. exists s. split; [reflexivity|]. split; assumption.
      * intros [[s' [E [D' I']]] | [_ N]].
        -- injection E as <-. assert (A : go_atoi s = Some x) by (apply atoi_denotes; split; assumption).
           assert (B : go_atoi s = Some z) by (apply atoi_denotes; split; assumption). congruence.
        -- elim (N s x eq_refl D I).
    + split.
      * intros <-. right. split; [reflexivity|]. intros s' x E D I. injection E as <-.
        assert (A : go_atoi s = Some x) by (apply atoi_denotes; split; assumption). congruence.
      * intros [[s' [E [D I]]] | [-> _]]; [|reflexivity]. injection E as <-.
        assert (A : go_atoi s = Some z) by (apply atoi_denotes; split; assumption). congruence.
  - split.
    + intros <-. right. split; [reflexivity|]. intros s x E. discriminate.
    + intros [[s [E _]] | [-> _]]; [discriminate | reflexivity].
Qed.

(** code that has a fence in it *)
Lemma fence_inside : exists c, read_markdown (document [c]) <> [meant c] /\ exists ls, c = CSqls ls /\ Forall one_line ls.
Proof.
  exists (CSqls ["select '"; "```"; "# x';"]). split; [vm_compute; discriminate|]. exists ["select '"; "```"; "# x';"]. split; [reflexivity|].
  repeat (apply Forall_cons; [apply plain_one; reflexivity|]). apply Forall_nil.
Qed.
