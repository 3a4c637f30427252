(** The protobuf definitions, read back *)
From Coq Require Import String Ascii List NArith ZArith Bool Lia Arith.
From Verif.Model Require Import GoString Util Octopus Common Protobuf.
From Verif.Spec Require Import Text Reading OctopusSpec GraphqlSpec ProtobufSpec.
From Verif.Proofs Require Import StringLemmas ReadingProofs ListLemmas OjsonProofs GraphqlProofs.
Import ListNotations.
Local Open Scope string_scope.

(** ** Tags *)

Lemma int64_id : forall z, (-9223372036854775808 <= z < 9223372036854775808)%Z -> int64 z = z.
Proof. intros z H. unfold int64. rewrite Z.mod_small by lia. lia. Qed.

Lemma field_tags : forall lc cs k,
  map pf_tag (pb_fields lc (Z.of_nat k) cs) = map Z.of_nat (seq k (length cs)).
Proof.
  induction cs as [|c cs IH]; intros k; [reflexivity|]. cbn [pb_fields map length seq]. f_equal.
  - unfold pb_new_field. destruct (pb_type (c_type c)). reflexivity.
  - replace (Z.of_nat k + 1)%Z with (Z.of_nat (S k)) by lia. apply IH.
Qed.
Lemma rel_tags : forall lc l start i,
  map pr_tag (pb_tag_relations lc start i l) = map (fun j => int64 (start + (i + Z.of_nat j))) (seq 0 (length l)).
Proof.
  induction l as [|[ty rep] l IH]; intros start i; [reflexivity|].
  cbn [pb_tag_relations map length seq pr_tag]. f_equal.
  - f_equal. lia.
  - rewrite IH. rewrite <- seq_shift, map_map. apply map_ext. intros j. f_equal. lia.
Qed.
Lemma rels_length : forall camel o s cs l, pb_relations camel o s cs = Ok l -> length l <= length cs.
Proof.
  induction cs as [|c cs IH]; intros l H; cbn [pb_relations] in H; [injection H as <-; auto|].
  destruct (c_ref c) as [r|].
  - destruct (table_by_name _ _); [|discriminate].
    destruct (pb_relations camel o s cs) as [l'|] eqn:E; [|discriminate]. injection H as <-. cbn.
    apply le_n_S, IH. reflexivity.
  - cbn. apply le_S, IH, H.
Qed.

Lemma start_above : forall start decr n c, fits start n -> c <= n ->
  let st := pb_rel_start start decr (Z.of_nat n) (Z.of_nat c) in
  c = 0 \/ (Z.of_nat n < st /\ st + Z.of_nat c <= 9223372036854775808)%Z.
Proof.
  intros start decr n c [A [B C]] L st. destruct (Nat.eq_dec c 0) as [Z|Z]; [now left|right].
  unfold st, pb_rel_start. destruct decr.
  - rewrite (int64_id (start - Z.of_nat c)) by lia. rewrite (int64_id (start - Z.of_nat c + 1)) by lia.
    destruct (Z.leb_spec (start - Z.of_nat c + 1) (Z.of_nat n)); [rewrite int64_id by lia|]; lia.
  - destruct (Z.ltb_spec start 0); [|destruct (Z.leb_spec start (Z.of_nat n))]; cbn [orb];
      [rewrite int64_id by lia|rewrite int64_id by lia|]; lia.
Qed.

Lemma tags_correct : forall camel lc o s t m, fits (po_start o) (length (t_cols t)) ->
  pb_new_message camel lc o s t = Ok m ->
  tags_ok (length (t_cols t)) (map pf_tag (pm_fields m)) (map pr_tag (pm_relations m)).
Proof.
  intros camel lc o s t m F H. unfold pb_new_message in H. cbv zeta in H.
  destruct (pb_relations camel o s (t_cols t)) as [l|] eqn:R; [|discriminate]. injection H as <-.
  cbn [pm_fields pm_relations]. change 1%Z with (Z.of_nat 1). rewrite field_tags, rel_tags.
  pose proof (rels_length _ _ _ _ _ R) as L.
  pose proof (start_above (po_start o) (po_decr o) _ _ F L) as S. cbv zeta in S.
  set (st := pb_rel_start _ _ _ _) in *. destruct F as [FA [FB FC]].
  split; [reflexivity|].
  assert (E : map (fun j => int64 (st + (0 + Z.of_nat j))) (seq 0 (length l)) = map (fun j => st + Z.of_nat j)%Z (seq 0 (length l))).
  { apply map_ext_in. intros j J. apply in_seq in J. rewrite int64_id; lia. }
  rewrite E. split.
  - apply FinFun.Injective_map_NoDup; [intros a b Q; lia|apply seq_NoDup].
  - intros x I. apply in_map_iff in I as [j [<- J]]. apply in_seq in J. split; [lia|].
    intros I. apply in_map_iff in I as [k [Q K]]. apply in_seq in K. lia.
Qed.

(** going up from the start tag *)
Lemma tags_up : forall camel lc o s t m, fits (po_start o) (length (t_cols t)) ->
  po_decr o = false -> (Z.of_nat (length (t_cols t)) < po_start o)%Z ->
  pb_new_message camel lc o s t = Ok m ->
  map pr_tag (pm_relations m) = map (fun j => po_start o + Z.of_nat j)%Z (seq 0 (length (pm_relations m))).
Proof.
  intros camel lc o s t m F D G H. unfold pb_new_message in H. cbv zeta in H.
  destruct (pb_relations camel o s (t_cols t)) as [l|] eqn:R; [|discriminate]. injection H as <-.
  cbn [pm_relations]. assert (LL : forall st i, length (pb_tag_relations lc st i l) = length l).
  { clear. induction l as [|[a b] l IH]; intros; [reflexivity|]. cbn. now rewrite IH. }
  rewrite LL, rel_tags. unfold pb_rel_start. rewrite D.
  pose proof (rels_length _ _ _ _ _ R) as L. destruct F as [FA [FB FC]].
  destruct (Z.ltb_spec (po_start o) 0); [lia|]. destruct (Z.leb_spec (po_start o) (Z.of_nat (length (t_cols t)))); [lia|].
  cbn [orb]. apply map_ext_in. intros j J. apply in_seq in J. rewrite int64_id; lia.
Qed.

(** ** Panics *)

Lemma table_by_name_target : forall ts n u, table_by_name ts n = Some u -> target ts n u.
Proof.
  induction ts as [|t ts IH]; intros n u H; cbn in H; [discriminate|].
  destruct (String.eqb_spec (t_name t) n) as [E|N].
  - injection H as <-. exists [], ts. split; [reflexivity|]. split; [exact E|]. intros x [].
  - destruct (IH n u H) as [l [r [-> [E K]]]]. exists (t :: l), r. split; [reflexivity|]. split; [exact E|].
    intros x [<-|I]; auto.
Qed.
Lemma target_in : forall ts n u, target ts n u -> In u ts /\ t_name u = n.
Proof. intros ts n u [l [r [-> [E _]]]]. split; [apply in_app_iff; right; now left|exact E]. Qed.
Lemma table_by_name_found : forall ts n, (exists u, In u ts /\ t_name u = n) -> exists u, table_by_name ts n = Some u.
Proof.
  induction ts as [|t ts IH]; intros n [u [I E]]; [destruct I|]. cbn.
  destruct (String.eqb_spec (t_name t) n) as [E'|N]; [now exists t|].
  destruct I as [<-|I]; [congruence|]. apply IH. now exists u.
Qed.

Lemma relations_ok : forall camel o s cs,
  (forall r, In r (flat_map (fun c => match c_ref c with Some r => [r] | None => [] end) cs) ->
     exists u, In u (s_tables s) /\ t_name u = ref_table r) <->
  exists l, pb_relations camel o s cs = Ok l.
Proof.
  induction cs as [|c cs IH]; cbn [flat_map pb_relations].
  - split; [intros _; now exists []|intros _ r []].
  - destruct (c_ref c) as [r|].
    + cbn [app]. split.
      * intros H. destruct (table_by_name_found (s_tables s) (ref_table r)) as [u ->]; [apply H; now left|].
        destruct IH as [IH _]. destruct IH as [l ->]; [intros x I; apply H; now right|]. now eexists.
      * intros [l H]. destruct (table_by_name (s_tables s) (ref_table r)) as [u|] eqn:E; [|discriminate].
        destruct (pb_relations camel o s cs) as [l'|] eqn:E'; [|discriminate].
        intros x [<-|I].
        -- exists u. apply target_in. now apply table_by_name_target.
        -- apply IH; [now exists l'|exact I].
    + cbn [app]. exact IH.
Qed.

Lemma message_ok : forall camel lc o s t,
  refs_resolve (s_tables s) t <-> exists m, pb_new_message camel lc o s t = Ok m.
Proof.
  intros camel lc o s t. unfold refs_resolve, table_refs, pb_new_message. cbv zeta.
  rewrite (relations_ok camel o s (t_cols t)). split.
  - intros [l ->]. now eexists.
  - intros [m H]. destruct (pb_relations camel o s (t_cols t)) as [l|]; [now exists l|discriminate].
Qed.
Lemma res_map_all : forall {A B} (f : A -> res B) l, (exists l', res_map f l = Ok l') <-> (forall x, In x l -> exists y, f x = Ok y).
Proof.
  intros A B f l. split.
  - intros [l' H] x I. destruct (f x) as [y|] eqn:E; [now exists y|]. rewrite (res_map_panic f l x I E) in H. discriminate.
  - intros H. destruct (res_map_ok f l H) as [l' [E _]]. now exists l'.
Qed.
Lemma generate_ok : forall camel lc o s,
  (forall t, In t (filter (passes (po_filter o)) (s_tables s)) -> refs_resolve (s_tables s) t) <->
  exists text, pb_generate camel lc o s = Ok text.
Proof.
  intros camel lc o s. unfold pb_generate, pb_messages. split.
  - intros H. destruct (res_map_all (pb_new_message camel lc o s) (filter (passes (po_filter o)) (s_tables s))) as [_ K].
    destruct K as [l ->]; [|now eexists]. intros t I. now apply message_ok, H.
  - intros [x H] t I. destruct (res_map _ _) as [ms|] eqn:E; [|discriminate].
    apply (message_ok camel lc o s t). now apply (proj1 (res_map_all _ _) (ex_intro _ ms E)).
Qed.

(** ** Lines of the text *)

Lemma lines_nl : forall s r, one_line s -> lines (s ++ pb_nl ++ r) = s :: lines r.
Proof. intros s r H. change (pb_nl ++ r) with (String newline r). now apply lines_cons. Qed.
Lemma concat_cons_s : forall x l, String.concat "" (x :: l) = x ++ String.concat "" l.
Proof. intros x [|y l]; cbn; [now rewrite app_nil_r_s|reflexivity]. Qed.
Lemma lines_fields : forall {A} (f : A -> string) l h r, one_line h -> (forall x, In x l -> one_line (f x)) ->
  lines (h ++ String.concat "" (map (fun x => pb_nl ++ f x) l) ++ pb_nl ++ r) = (h :: map f l ++ lines r)%list.
Proof.
  induction l as [|x l IH]; intros h r H K.
  - cbn [map String.concat app append]. now apply lines_nl.
  - cbn [map app]. rewrite concat_cons_s, !app_assoc_s. rewrite lines_nl by exact H. f_equal.
    apply IH; [apply K; now left|]. intros y I. apply K. now right.
Qed.

Definition field_line (ty n : string) (tag : Z) : string := "  " ++ ty ++ " " ++ n ++ " = " ++ itoa_z tag ++ ";".
Definition message_lines (m : pb_message) : list string :=
  ("message " ++ pm_name m ++ " {") ::
  (map (fun x => field_line (pf_type x) (pf_name x) (pf_tag x)) (pm_fields m)
   ++ map (fun x => field_line (pr_type x) (pr_name x) (pr_tag x)) (pm_relations m) ++ ["}"])%list.

Definition no_space_line (s : string) : Prop := ~ char_in " " s /\ one_line s.
Definition printable (m : pb_message) : Prop :=
  word (pm_name m) /\
  (forall x, In x (pm_fields m) -> no_space_line (pf_type x) /\ word (pf_name x)) /\
  (forall x, In x (pm_relations m) -> no_space_line (pr_type x) /\ word (pr_name x)).

Lemma itoa_z_no : forall z c, is_digit c = false -> c <> "-"%char -> ~ char_in c (itoa_z z).
Proof.
  intros z c D N. unfold itoa_z. destruct (Z.ltb z 0); [|now apply itoa_no].
  apply no_cons; [exact N|]. cbn [append]. now apply itoa_no.
Qed.
Lemma field_line_one : forall ty n tag, one_line ty -> word n -> one_line (field_line ty n tag).
Proof.
  intros ty n tag T W. unfold field_line. pose proof (itoa_z_no tag newline eq_refl ltac:(discriminate)) as Z. oneline.
Qed.

Lemma lines_message : forall m r, printable m ->
  lines (pb_message_text m ++ r) = ("" :: message_lines m ++ lines r)%list.
Proof.
  intros m r [W [F R]]. unfold pb_message_text.
  change ((pb_nl ++ "message " ++ pm_name m ++ " {"
    ++ String.concat "" (map (fun x => pb_field_text (pf_type x) (pf_name x) (pf_tag x)) (pm_fields m))
    ++ String.concat "" (map (fun x => pb_field_text (pr_type x) (pr_name x) (pr_tag x)) (pm_relations m))
    ++ pb_nl ++ "}" ++ pb_nl) ++ r)
  with ("" ++ pb_nl ++ ("message " ++ pm_name m ++ " {"
    ++ String.concat "" (map (fun x => pb_field_text (pf_type x) (pf_name x) (pf_tag x)) (pm_fields m))
    ++ String.concat "" (map (fun x => pb_field_text (pr_type x) (pr_name x) (pr_tag x)) (pm_relations m))
    ++ pb_nl ++ "}" ++ pb_nl) ++ r).
  rewrite lines_nl by apply one_line_nil. f_equal.
  set (all := (map (fun x => field_line (pf_type x) (pf_name x) (pf_tag x)) (pm_fields m)
   ++ map (fun x => field_line (pr_type x) (pr_name x) (pr_tag x)) (pm_relations m))%list).
  assert (E : String.concat "" (map (fun x => pb_field_text (pf_type x) (pf_name x) (pf_tag x)) (pm_fields m))
    ++ String.concat "" (map (fun x => pb_field_text (pr_type x) (pr_name x) (pr_tag x)) (pm_relations m))
    = String.concat "" (map (fun x => pb_nl ++ x) all)).
  { unfold all. rewrite map_app, !map_map. unfold pb_field_text, field_line.
    induction (pm_fields m) as [|x xs IH]; [reflexivity|]. cbn [map app]. rewrite !concat_cons_s, app_assoc_s.
    rewrite IH; [reflexivity|]. intros y I. apply F. now right. }
  assert (O : forall x, In x all -> one_line x).
  { intros x I. apply in_app_iff in I as [I|I]; apply in_map_iff in I as [y [<- I]].
    - destruct (F y I) as [[_ A] B]. now apply field_line_one.
    - destruct (R y I) as [[_ A] B]. now apply field_line_one. }
  transitivity (lines (("message " ++ pm_name m ++ " {") ++ String.concat "" (map (fun x => pb_nl ++ x) all) ++ pb_nl ++ "}" ++ pb_nl ++ r)).
  - rewrite <- E. f_equal. rewrite !app_assoc_s. reflexivity.
  - rewrite (lines_fields (fun x => x)); [|oneline|exact O]. rewrite map_id.
    rewrite lines_nl by oneline. unfold message_lines. fold all. rewrite (app_assoc _ _ ["}"]). fold all.
    cbn [app]. now rewrite <- app_assoc.
Qed.
Lemma lines_messages : forall ms, Forall printable ms ->
  lines (String.concat "" (map pb_message_text ms)) = (flat_map (fun m => "" :: message_lines m) ms ++ [""])%list.
Proof.
  induction ms as [|m ms IH]; intros F; [reflexivity|]. inversion F as [|? ? P F']; subst.
  cbn [map flat_map]. rewrite concat_cons_s, lines_message by exact P. rewrite IH by exact F'.
  cbn [app]. now rewrite <- app_assoc.
Qed.
Lemma lines_blocks : forall l r, (forall x, In x l -> one_line x) ->
  lines (String.concat "" (map (fun x => pb_nl ++ x ++ pb_nl) l) ++ r) = (flat_map (fun x => ["" ; x]) l ++ lines r)%list.
Proof.
  induction l as [|x l IH]; intros r H; [reflexivity|]. cbn [map flat_map app]. rewrite concat_cons_s, !app_assoc_s.
  change (pb_nl ++ x ++ pb_nl ++ String.concat "" (map (fun x0 => pb_nl ++ x0 ++ pb_nl) l) ++ r)
    with ("" ++ pb_nl ++ x ++ pb_nl ++ String.concat "" (map (fun x0 => pb_nl ++ x0 ++ pb_nl) l) ++ r).
  rewrite lines_nl by apply one_line_nil. rewrite lines_nl by (apply H; now left).
  rewrite IH; [reflexivity|]. intros y I. apply H. now right.
Qed.

(** ** Reading *)

Lemma read_int_itoa : forall z, read_int (itoa_z z) = Some z.
Proof.
  intros z. unfold itoa_z, read_int. destruct (Z.ltb_spec z 0).
  - rewrite strip_app. rewrite digits_to_N_itoa. cbn [option_map]. f_equal. lia.
  - destruct (strip "-" (itoa (Z.to_N z))) as [r|] eqn:E.
    + exfalso. pose proof (itoa_digits (Z.to_N z)) as D. destruct (itoa (Z.to_N z)) as [|c s]; [discriminate|].
      cbn [strip] in E. destruct (Ascii.eqb_spec "-" c) as [<-|N]; [|discriminate]. discriminate D.
    + rewrite digits_to_N_itoa. cbn [option_map]. f_equal. lia.
Qed.
Lemma read_field_line : forall ty n tag, no_space_line ty -> word n ->
  read_rfield (field_line ty n tag) = Some (mkRField false ty n tag).
Proof.
  intros ty n tag [T _] W. unfold read_rfield, field_line.
  replace ("  " ++ ty ++ " " ++ n ++ " = " ++ itoa_z tag ++ ";")
    with ("  " ++ (ty ++ String " " (n ++ String " " ("=" ++ String " " (itoa_z tag)))) ++ ";").
  - rewrite between_app.
    pose proof (itoa_z_no tag " " eq_refl ltac:(discriminate)) as Z.
    rewrite split_on_cons by exact T. rewrite split_on_cons by nochar.
    rewrite split_on_cons by nochar. rewrite split_on_one by exact Z. rewrite read_int_itoa. reflexivity.
  - rewrite !app_assoc_s. cbn [append]. rewrite !app_assoc_s. reflexivity.
Qed.

Definition fields_of (m : pb_message) : list rfield :=
  (map (fun x => mkRField false (pf_type x) (pf_name x) (pf_tag x)) (pm_fields m)
   ++ map (fun x => mkRField false (pr_type x) (pr_name x) (pr_tag x)) (pm_relations m))%list.

Lemma read_field_lines : forall {A} (ty n : A -> string) (tag : A -> Z) l name acc rest,
  (forall x, In x l -> no_space_line (ty x) /\ word (n x)) ->
  read_pitems (Some (name, acc)) (map (fun x => field_line (ty x) (n x) (tag x)) l ++ rest) =
  read_pitems (Some (name, (acc ++ map (fun x => mkRField false (ty x) (n x) (tag x)) l)%list)) rest.
Proof.
  induction l as [|x l IH]; intros name acc rest H; cbn [map app].
  - now rewrite app_nil_r.
  - cbn [read_pitems]. assert (NE : String.eqb (field_line (ty x) (n x) (tag x)) "}" = false) by reflexivity.
    rewrite NE. destruct (H x (or_introl eq_refl)) as [T W]. rewrite read_field_line by assumption.
    rewrite IH by (intros y I; apply H; now right). now rewrite <- app_assoc.
Qed.
Lemma read_message_lines : forall m rest, printable m ->
  read_pitems None (message_lines m ++ rest) = option_map (cons (PMessage (pm_name m) (fields_of m))) (read_pitems None rest).
Proof.
  intros m rest [W [F R]]. unfold message_lines. cbn [app read_pitems].
  assert (NE : String.eqb ("message " ++ pm_name m ++ " {") "" = false) by reflexivity. rewrite NE, between_app.
  rewrite <- app_assoc. rewrite read_field_lines by exact F.
  rewrite <- app_assoc. rewrite read_field_lines by exact R. reflexivity.
Qed.
Lemma read_messages : forall ms, Forall printable ms ->
  read_pitems None (flat_map (fun m => "" :: message_lines m) ms ++ [""]) =
  Some (map (fun m => PMessage (pm_name m) (fields_of m)) ms).
Proof.
  induction ms as [|m ms IH]; intros F; [reflexivity|]. inversion F as [|? ? P F']; subst.
  cbn [flat_map map]. rewrite <- app_assoc. cbn [app].
  change (read_pitems None ("" :: message_lines m ++ flat_map (fun m0 => "" :: message_lines m0) ms ++ [""]))
    with (read_pitems None (message_lines m ++ flat_map (fun m0 => "" :: message_lines m0) ms ++ [""])).
  rewrite read_message_lines by exact P. rewrite IH by exact F'. reflexivity.
Qed.

Lemma read_one : forall l it rest, String.eqb l "" = false -> between "message " " {" l = None ->
  read_statement l = Some it -> read_pitems None (l :: rest) = option_map (cons it) (read_pitems None rest).
Proof. intros l it rest A B C. cbn [read_pitems]. now rewrite A, B, C. Qed.

Definition import_line (x : string) : string := "import """ ++ x ++ """;".
Lemma read_imports : forall l rest,
  read_pitems None (flat_map (fun x => ["" ; x]) (map import_line l) ++ rest) =
  option_map (app (map PImport l)) (read_pitems None rest).
Proof.
  induction l as [|x l IH]; intros rest; cbn [map flat_map app].
  - destruct (read_pitems None rest); reflexivity.
  - change (read_pitems None ("" :: import_line x :: flat_map (fun x0 => [""; x0]) (map import_line l) ++ rest))
      with (read_pitems None (import_line x :: flat_map (fun x0 => [""; x0]) (map import_line l) ++ rest)).
    rewrite (read_one _ (PImport x)); [|reflexivity|reflexivity|].
    2: { transitivity (match between "import """ """;" (import_line x) with Some v => Some (PImport v) | None => None end);
         [reflexivity|]. unfold import_line. now rewrite between_app. }
    rewrite IH.
    destruct (read_pitems None rest); reflexivity.
Qed.

Definition all_imports (ms : list pb_message) : list string :=
  ss_slice (fold_left (fun acc m => ss_add_all acc (pm_imports m)) ms (ss_new [])).

Lemma text_reads : forall pkg go ms, one_line pkg -> one_line go -> Forall printable ms ->
  (forall x, In x (all_imports ms) -> one_line x) ->
  read_proto (pb_text pkg go ms) =
  Some (PSyntax "proto3" :: optional pkg (PPackage pkg) ++ optional go (POption "go_package" go)
        ++ map PImport (all_imports ms) ++ map (fun m => PMessage (pm_name m) (fields_of m)) ms)%list.
Proof.
  intros pkg go ms P G F I. unfold pb_text. cbv zeta. fold (all_imports ms). unfold read_proto.
  rewrite lines_nl by oneline.
  match goal with |- context [pb_nl ++ ?x ++ pb_nl ++ ?y] => change (pb_nl ++ x ++ pb_nl ++ y) with ("" ++ pb_nl ++ x ++ pb_nl ++ y) end.
  rewrite lines_nl by apply one_line_nil.
  set (pl := if String.eqb pkg "" then "" else "package " ++ pkg ++ ";").
  assert (PL : one_line pl) by (unfold pl; destruct (String.eqb pkg ""); oneline).
  rewrite lines_nl by exact PL.
  set (ol := if String.eqb go "" then [] else ["option go_package = """ ++ go ++ """;"]).
  assert (OE : String.concat "" (map (fun x => pb_nl ++ "option " ++ x ++ ";" ++ pb_nl)
                 (if String.eqb go "" then [] else ["go_package = """ ++ go ++ """"])) =
               String.concat "" (map (fun x => pb_nl ++ x ++ pb_nl) ol)).
  { unfold ol. destruct (String.eqb go ""); [reflexivity|]. cbn [map String.concat]. f_equal.
    cbn [append]. rewrite !app_assoc_s. reflexivity. }
  rewrite OE. rewrite lines_blocks.
  2: { unfold ol. intros x J. destruct (String.eqb go ""); [destruct J|]. destruct J as [<-|[]]. oneline. }
  assert (IE : map (fun x => pb_nl ++ "import """ ++ x ++ """;" ++ pb_nl) (all_imports ms) =
               map (fun x => pb_nl ++ x ++ pb_nl) (map import_line (all_imports ms))).
  { rewrite map_map. apply map_ext. intros x. unfold import_line. cbn [append]. rewrite !app_assoc_s. reflexivity. }
  rewrite IE. rewrite lines_blocks.
  2: { intros x J. apply in_map_iff in J as [y [<- J]]. apply I in J. unfold import_line. oneline. }
  rewrite lines_messages by exact F.
  set (rest1 := (flat_map (fun x => [""; x]) (map import_line (all_imports ms)) ++ flat_map (fun m => "" :: message_lines m) ms ++ [""])%list).
  assert (R1 : read_pitems None rest1 = Some (map PImport (all_imports ms) ++ map (fun m => PMessage (pm_name m) (fields_of m)) ms)%list).
  { unfold rest1. rewrite read_imports, read_messages by exact F. reflexivity. }
  set (rest2 := (flat_map (fun x => [""; x]) ol ++ rest1)%list).
  assert (R2 : read_pitems None rest2 = Some (optional go (POption "go_package" go) ++ map PImport (all_imports ms)
     ++ map (fun m => PMessage (pm_name m) (fields_of m)) ms)%list).
  { unfold rest2, ol, optional. destruct (String.eqb go ""); [exact R1|]. cbn [flat_map app].
    set (l := "option go_package = """ ++ go ++ """;").
    change (read_pitems None ("" :: l :: rest1)) with (read_pitems None (l :: rest1)).
    rewrite (read_one _ (POption "go_package" go)); [|reflexivity|reflexivity|].
    2: { transitivity (match between "option go_package = """ """;" l with Some v => Some (POption "go_package" v)
           | None => match between "import """ """;" l with Some v => Some (PImport v) | None => None end end);
         [reflexivity|]. unfold l. now rewrite between_app. }
    now rewrite R1. }
  change (read_pitems None ("syntax = ""proto3"";" :: "" :: pl :: rest2))
    with (option_map (cons (PSyntax "proto3")) (read_pitems None (pl :: rest2))).
  assert (R3 : read_pitems None (pl :: rest2) = Some (optional pkg (PPackage pkg) ++ optional go (POption "go_package" go)
     ++ map PImport (all_imports ms) ++ map (fun m => PMessage (pm_name m) (fields_of m)) ms)%list).
  { unfold pl, optional at 1. destruct (String.eqb pkg ""); [exact R2|].
    set (l := "package " ++ pkg ++ ";").
    rewrite (read_one _ (PPackage pkg)); [now rewrite R2|reflexivity|reflexivity|].
    transitivity (match between "package " ";" l with Some v => Some (PPackage v)
      | None => match between "option go_package = """ """;" l with Some v => Some (POption "go_package" v)
           | None => match between "import """ """;" l with Some v => Some (PImport v) | None => None end end end);
         [reflexivity|]. unfold l. now rewrite between_app. }
  rewrite R3. reflexivity.
Qed.

(** ** Meaning *)

Lemma type_meaning : forall t, In t octopus_types ->
  (forall b, proto_type t b -> fst (pb_type t) = b) /\
  ((forall b, ~ proto_type t b) -> fst (pb_type t) = t) /\
  no_space_line (fst (pb_type t)) /\
  snd (pb_type t) = if String.eqb t "datetime" then timestamp_file else "".
Proof.
  intros t H. vm_compute in H.
  assert (D : forall t', (forallb (fun e => if str_in t' (snd e) then String.eqb (fst e) (fst (pb_type t')) else true) proto_types = true) ->
    (existsb (fun e => str_in t' (snd e)) proto_types = true \/ fst (pb_type t') = t') ->
    (negb (contains_char " " (fst (pb_type t'))) && negb (contains_char newline (fst (pb_type t'))) = true) ->
    (forall b, proto_type t' b -> fst (pb_type t') = b) /\
    ((forall b, ~ proto_type t' b) -> fst (pb_type t') = t') /\ no_space_line (fst (pb_type t'))).
  { intros t' A B C. split; [|split].
    - intros b [ts [I J]]. rewrite forallb_forall in A. specialize (A _ I). cbn [fst snd] in A.
      apply str_in_iff in J. rewrite J in A. symmetry. now apply String.eqb_eq.
    - intros N. destruct B as [B|B]; [|exact B]. exfalso. apply existsb_exists in B as [[b ts] [I J]].
      apply (N b). exists ts. split; [exact I|]. now apply str_in_iff.
    - apply andb_true_iff in C as [C1 C2]. apply negb_true_iff in C1, C2. split.
      + intros I. apply contains_char_iff in I. congruence.
      + intros I. apply contains_char_iff in I. congruence. }
  repeat (destruct H as [<-|H];
    [match goal with |- context [pb_type ?x] => destruct (D x) as [D1 [D2 D3]];
      [vm_compute; reflexivity|first [left; vm_compute; reflexivity|right; vm_compute; reflexivity]|vm_compute; reflexivity|] end;
     split; [exact D1|split; [exact D2|split; [exact D3|vm_compute; reflexivity]]]|]).
  destruct H.
Qed.

Section Names.
Variables camel lc : string -> string.
Variable o : pb_option.
Notation named := (message_named camel (get_prefix (po_prefix o)) (po_remove o)).

Lemma name_is : forall t, pb_message_name camel o t = named t.
Proof.
  intros t. unfold pb_message_name, message_named, without. cbv zeta.
  assert (E : forall n, fold_left (fun n p => trim_prefix p n) (po_remove o) n =
    fold_left (fun n p => match strip p n with Some r => r | None => n end) (po_remove o) n).
  { induction (po_remove o) as [|p l IH]; intros n; [reflexivity|]. cbn [fold_left]. now rewrite strip_trim, IH. }
  rewrite E. destruct (String.eqb_spec (get_prefix (po_prefix o) (t_group t)) "") as [->|N]; reflexivity.
Qed.

Lemma fields_meaning : forall cs k, (forall c, In c cs -> word (lc (c_name c)) /\ In (c_type c) octopus_types) ->
  Forall2 (column_field lc) cs (map (fun x => mkRField false (pf_type x) (pf_name x) (pf_tag x)) (pb_fields lc k cs)) /\
  (forall x, In x (pb_fields lc k cs) -> no_space_line (pf_type x) /\ word (pf_name x)).
Proof.
  induction cs as [|c cs IH]; intros k H; [split; [constructor|intros x []]|].
  destruct (IH (k + 1)%Z) as [A B]; [intros d I; apply H; now right|].
  destruct (H c (or_introl eq_refl)) as [W T]. destruct (type_meaning _ T) as [M1 [M2 [M3 _]]].
  assert (E : pb_new_field lc k c = mkPbField (fst (pb_type (c_type c))) (lc (c_name c)) k (snd (pb_type (c_type c)))).
  { unfold pb_new_field. now destruct (pb_type (c_type c)). }
  cbn [pb_fields map]. rewrite E. split.
  - constructor; [|exact A]. cbn [pf_type pf_name pf_tag]. repeat split; cbn [rf_type]; assumption.
  - intros x [<-|I]; [|now apply B]. cbn [pf_type pf_name]. split; assumption.
Qed.

Lemma relations_meaning : forall s cs l start i, pb_relations camel o s cs = Ok l ->
  Forall2 (reference_field camel lc (get_prefix (po_prefix o)) (po_remove o) false (s_tables s))
    (flat_map (fun c => match c_ref c with Some r => [r] | None => [] end) cs)
    (map (fun x => mkRField false (pr_type x) (pr_name x) (pr_tag x)) (pb_tag_relations lc start i l)) /\
  (forall x, In x (pb_tag_relations lc start i l) -> exists r u,
     In r (flat_map (fun c => match c_ref c with Some r => [r] | None => [] end) cs) /\
     target (s_tables s) (ref_table r) u /\ pr_type x = named u /\ pr_name x = lc (named u)).
Proof.
  induction cs as [|c cs IH]; intros l start i H; cbn [pb_relations] in H.
  - injection H as <-. split; [constructor|intros x []].
  - cbn [flat_map]. destruct (c_ref c) as [r|]; [|apply IH, H].
    destruct (table_by_name (s_tables s) (ref_table r)) as [u|] eqn:T; [|discriminate].
    destruct (pb_relations camel o s cs) as [l'|] eqn:E; [|discriminate]. injection H as <-.
    apply table_by_name_target in T. destruct (IH l' start (i + 1)%Z eq_refl) as [A B].
    cbn [app pb_tag_relations map pr_type pr_name pr_tag]. rewrite name_is. split.
    + constructor; [|exact A]. exists u. split; [exact T|]. split; [reflexivity|]. split; [reflexivity|discriminate].
    + intros x [<-|I].
      * exists r, u. split; [now left|]. split; [exact T|]. split; reflexivity.
      * destruct (B x I) as [r' [u' [J K]]]. exists r', u'. split; [now right|exact K].
Qed.

(** imports *)
Definition imp (b : bool) : list string := if b then [timestamp_file] else [].
Lemma fields_imports : forall cs k b, (forall c, In c cs -> In (c_type c) octopus_types) ->
  fold_left (fun acc x => if String.eqb (pf_import x) "" then acc else ss_add acc (pf_import x)) (pb_fields lc k cs) (imp b) =
  imp (b || existsb (fun c => String.eqb (c_type c) "datetime") cs).
Proof.
  induction cs as [|c cs IH]; intros k b H; cbn [pb_fields fold_left existsb]; [now rewrite orb_false_r|].
  assert (E : pf_import (pb_new_field lc k c) = snd (pb_type (c_type c))).
  { unfold pb_new_field. now destruct (pb_type (c_type c)). }
  rewrite E. destruct (type_meaning _ (H c (or_introl eq_refl))) as [_ [_ [_ ->]]].
  rewrite orb_assoc. rewrite <- (IH (k + 1)%Z) by (intros d I; apply H; now right). f_equal.
  destruct (String.eqb (c_type c) "datetime"), b; reflexivity.
Qed.
Lemma slice_imp : forall b, ss_slice (imp b) = imp b.
Proof. intros []; reflexivity. Qed.
Lemma add_imp : forall a b, ss_add_all (imp a) (imp b) = imp (a || b).
Proof. intros [] []; reflexivity. Qed.

Definition has_date (t : table) : bool := existsb (fun c => String.eqb (c_type c) "datetime") (t_cols t).
Lemma message_imports : forall s t m, (forall c, In c (t_cols t) -> In (c_type c) octopus_types) ->
  pb_new_message camel lc o s t = Ok m -> pm_imports m = imp (has_date t).
Proof.
  intros s t m H E. unfold pb_new_message in E. cbv zeta in E. destruct (pb_relations _ _ _ _); [|discriminate].
  injection E as <-. cbn [pm_imports]. change (ss_new []) with (imp false). rewrite fields_imports by exact H.
  cbn [orb]. apply slice_imp.
Qed.
Lemma messages_imports : forall s ts ms b, (forall t c, In t ts -> In c (t_cols t) -> In (c_type c) octopus_types) ->
  Forall2 (fun t m => pb_new_message camel lc o s t = Ok m) ts ms ->
  fold_left (fun acc m => ss_add_all acc (pm_imports m)) ms (imp b) = imp (b || existsb has_date ts).
Proof.
  intros s ts ms b H F. revert b H. induction F as [|t m ts ms E F IH]; intros b H; cbn [fold_left existsb].
  - now rewrite orb_false_r.
  - rewrite (message_imports s t m) by (first [exact E|intros c I; apply (H t c); [now left|exact I]]).
    rewrite add_imp, IH; [now rewrite orb_assoc|]. intros u c I. apply H. now right.
Qed.
Lemma imports_meaning : forall ts,
  imports_described ts (map PImport (imp (existsb has_date ts))).
Proof.
  intros ts. unfold imports_described. destruct (existsb has_date ts) eqn:E.
  - apply existsb_exists in E as [t [I E]]. apply existsb_exists in E as [c [J E]]. apply String.eqb_eq in E.
    split; [reflexivity|]. intros N. exfalso. now apply (N t c I J).
  - split; [|reflexivity]. intros [t [c [I [J K]]]]. exfalso.
    assert (existsb has_date ts = true); [|congruence]. apply existsb_exists. exists t. split; [exact I|].
    apply existsb_exists. exists c. split; [exact J|]. now apply String.eqb_eq.
Qed.

Lemma fields_length : forall cs k, length (pb_fields lc k cs) = length cs.
Proof. induction cs as [|c cs IH]; intros k; [reflexivity|]. cbn [pb_fields length]. now rewrite IH. Qed.
Lemma message_meaning : forall s t m, fits (po_start o) (length (t_cols t)) ->
  pb_names_ok camel lc (get_prefix (po_prefix o)) (po_remove o) (s_tables s) [t] ->
  pb_new_message camel lc o s t = Ok m ->
  message_described camel lc (get_prefix (po_prefix o)) (po_remove o) false (s_tables s) t
    (PMessage (pm_name m) (fields_of m)) /\ printable m.
Proof.
  intros s t m F N E. pose proof (tags_correct camel lc o s t m F E) as G.
  destruct (N t (or_introl eq_refl)) as [N1 [N2 N3]].
  unfold pb_new_message in E. cbv zeta in E. destruct (pb_relations camel o s (t_cols t)) as [l|] eqn:R; [|discriminate].
  injection E as <-. cbn [pm_fields pm_relations] in G.
  destruct (fields_meaning (t_cols t) 1 N2) as [A1 A2].
  match goal with H : context [pb_tag_relations lc ?st 0 l] |- _ => destruct (relations_meaning s (t_cols t) l st 0 R) as [B1 B2] end.
  split.
  - eexists. eexists. cbn [pm_name]. rewrite name_is. split; [unfold fields_of; cbn [pm_fields pm_relations]; reflexivity|].
    split; [exact A1|]. split; [exact B1|].
    rewrite !map_map. cbn [rf_tag]. rewrite map_length.
    now rewrite fields_length.
  - split; [cbn [pm_name]; rewrite name_is; exact N1|]. split; [exact A2|].
    intros x I. destruct (B2 x I) as [r [u [J [K [-> ->]]]]]. destruct (N3 r u J K) as [W1 W2].
    split; [|exact W2]. split; [now apply (word_no _ " " W1)|now apply word_one_line].
Qed.

Lemma forall2_in : forall {A B} (P Q : A -> B -> Prop) l l',
  (forall x y, In x l -> P x y -> Q x y) -> Forall2 P l l' -> Forall2 Q l l'.
Proof.
  intros A B P Q l l' H F. induction F as [|x y l l' E F IH]; constructor.
  - apply H; [now left|exact E].
  - apply IH. intros a b I. apply H. now right.
Qed.
Lemma generate_reads : forall s text,
  one_line (po_package o) -> one_line (po_go_package o) ->
  pb_names_ok camel lc (get_prefix (po_prefix o)) (po_remove o) (s_tables s) (filter (passes (po_filter o)) (s_tables s)) ->
  (forall t, In t (s_tables s) -> fits (po_start o) (length (t_cols t))) ->
  pb_generate camel lc o s = Ok text ->
  exists l, read_proto text = Some l /\
    proto_described camel lc (get_prefix (po_prefix o)) (po_remove o) false (po_package o) (po_go_package o)
      (s_tables s) (filter (passes (po_filter o)) (s_tables s)) l.
Proof.
  intros s text P G N F H. unfold pb_generate in H. destruct (pb_messages camel lc o s) as [ms|] eqn:E; [|discriminate].
  injection H as <-. unfold pb_messages in E. apply res_map_forall2 in E.
  set (sel := filter (passes (po_filter o)) (s_tables s)) in *.
  assert (S : forall t, In t sel -> In t (s_tables s)) by (intros t I; now apply filter_In in I).
  assert (V : forall t c, In t sel -> In c (t_cols t) -> In (c_type c) octopus_types).
  { intros t c I J. destruct (N t I) as [_ [K _]]. now apply K. }
  assert (IM : all_imports ms = imp (existsb has_date sel)).
  { unfold all_imports. change (ss_new []) with (imp false). rewrite (messages_imports s sel ms false V E). apply slice_imp. }
  assert (M : Forall2 (fun t m => message_described camel lc (get_prefix (po_prefix o)) (po_remove o) false (s_tables s) t
    (PMessage (pm_name m) (fields_of m)) /\ printable m) sel ms).
  { revert E. apply forall2_in. intros t m I E. apply message_meaning; [apply F, S, I| |exact E].
    intros u [<-|[]]. now apply N. }
  eexists. split.
  - apply text_reads; [exact P|exact G| |].
    + clear -M. induction M as [|t m ts ms [_ A] M IH]; constructor; assumption.
    + rewrite IM. intros x. destruct (existsb has_date sel); [intros [<-|[]]; vm_compute; intuition discriminate|intros []].
  - do 2 eexists. split; [reflexivity|]. split; [rewrite IM; apply imports_meaning|].
    clear -M. induction M as [|t m ts ms [A _] M IH]; cbn [map]; constructor; assumption.
Qed.

Lemma described_contained : forall multiple pkg go ts sel l,
  (forall t c, In t sel -> In c (t_cols t) -> exists b, proto_type (c_type c) b) ->
  (forall t r u, In t sel -> In r (table_refs t) -> target ts (ref_table r) u -> In u sel) ->
  proto_described camel lc (get_prefix (po_prefix o)) (po_remove o) multiple pkg go ts sel l ->
  self_contained l.
Proof.
  intros multiple pkg go ts sel l C R [is [ms [-> [I M]]]].
  assert (IO : forall n x, x <> n -> forall k, In x (optional k n) -> False).
  { intros n x NE k J. unfold optional in J. destruct (String.eqb k ""); [destruct J|]. destruct J as [J|[]]. congruence. }
  intros n fs x H K.
  assert (H' : In (PMessage n fs) ms).
  { destruct H as [H|H]; [discriminate|]. apply in_app_iff in H as [H|H]; [exfalso; eapply IO; [|exact H]; discriminate|].
    apply in_app_iff in H as [H|H]; [exfalso; eapply IO; [|exact H]; discriminate|].
    apply in_app_iff in H as [H|H]; [|exact H]. exfalso. destruct I as [I1 I2].
    destruct (existsb has_date sel) eqn:E.
    - apply existsb_exists in E as [t [A B]]. apply existsb_exists in B as [c [B D]]. apply String.eqb_eq in D.
      rewrite I1 in H by (exists t, c; auto). destruct H as [H|[]]. discriminate.
    - rewrite I2 in H; [destruct H|]. intros t c A B D. assert (existsb has_date sel = true); [|congruence].
      apply existsb_exists. exists t. split; [exact A|]. apply existsb_exists. exists c. split; [exact B|]. now apply String.eqb_eq. }
  clear H. assert (Q : exists t, In t sel /\ message_described camel lc (get_prefix (po_prefix o)) (po_remove o) multiple ts t (PMessage n fs)).
  { clear -M H'. induction M as [|t m sel ms D M IH]; [destruct H'|]. destruct H' as [<-|H'].
    - exists t. split; [now left|exact D].
    - destruct (IH H') as [u [A B]]. exists u. split; [now right|exact B]. }
  destruct Q as [t [T [cs [rs [E [F1 [F2 _]]]]]]]. injection E as -> ->.
  apply in_app_iff in K as [K|K].
  - assert (Q : exists c, In c (t_cols t) /\ column_field lc c x).
    { clear -F1 K. induction F1 as [|c y cs' ys D F1 IH]; [destruct K|]. destruct K as [<-|K].
      - exists c. split; [now left|exact D].
      - destruct (IH K) as [d [A B]]. exists d. split; [now right|exact B]. }
    destruct Q as [c [J [_ [_ [Q _]]]]]. destruct (C t c T J) as [b B]. rewrite (Q b B).
    destruct B as [us [B1 B2]]. cbn in B1.
    repeat (destruct B1 as [B1|B1]; [injection B1 as <- <-; first [left; vm_compute; tauto|idtac]|]); [|destruct B1].
    right. right. split; [reflexivity|]. destruct B2 as [B2|[]].
    destruct I as [I1 _]. rewrite I1; [|exists t, c; auto].
    right. apply in_app_iff. right. apply in_app_iff. right. apply in_app_iff. left. now left.
  - assert (Q : exists r, In r (table_refs t) /\ reference_field camel lc (get_prefix (po_prefix o)) (po_remove o) multiple ts r x).
    { clear -F2 K. induction F2 as [|c y cs' ys D F2 IH]; [destruct K|]. destruct K as [<-|K].
      - exists c. split; [now left|exact D].
      - destruct (IH K) as [d [A B]]. exists d. split; [now right|exact B]. }
    destruct Q as [r [J [u [U [-> _]]]]]. pose proof (R t r u T J U) as S. right. left.
    assert (Q : exists gs, In (PMessage (named u) gs) ms).
    { clear -M S. induction M as [|t m sel ms D M IH]; [destruct S|]. destruct S as [<-|S].
      - destruct D as [cs [rs [-> _]]]. eexists. left. reflexivity.
      - destruct (IH S) as [gs A]. exists gs. now right. }
    destruct Q as [gs Q]. exists gs. right. apply in_app_iff. right. apply in_app_iff. right. apply in_app_iff. now right.
Qed.
End Names.

Definition pb_user : schema :=
  mkSchema "" "db" "1"
    [mkTable "group" [mkCol "id" "int64" "" 0 0 true true false true "" "" [] None;
                      mkCol "name" "varchar" "" 40 0 true false true false "" "" [] None] "" "common" "" [];
     mkTable "user" [mkCol "id" "int64" "" 0 0 true true false false "" "" [] None;
                     mkCol "group_id" "int64" "" 0 0 true false false false "" "" [] (Some (mkRef "group" "id" "n:1"));
                     mkCol "friend" "int64" "" 0 0 false false false false "" "" [] (Some (mkRef "user" "id" "1:n"));
                     mkCol "created" "datetime" "" 0 0 true false false false "" "" [] None] "" "" "" []].
Definition pb_opt (start : Z) (decr : bool) (f : option (table -> bool)) : pb_option :=
  mkPbOpt (mkPM "" [] false) f [] "octopus" "model" start decr.
Definition pb_same (s : string) : string := s.

Lemma pb_user_ok : forall start decr,
  pb_names_ok pb_same pb_same (get_prefix (po_prefix (pb_opt start decr None))) [] (s_tables pb_user)
    (filter (passes None) (s_tables pb_user)).
Proof.
  intros start decr t I. cbn in I. destruct I as [<-|[<-|[]]].
  - split; [apply wordy_ok; reflexivity|]. split; [|intros r u []].
    intros c J. cbn in J. repeat (destruct J as [<-|J]; [split; [apply wordy_ok; reflexivity|vm_compute; tauto]|]). destruct J.
  - split; [apply wordy_ok; reflexivity|]. split.
    + intros c J. cbn in J. repeat (destruct J as [<-|J]; [split; [apply wordy_ok; reflexivity|vm_compute; tauto]|]). destruct J.
    + intros r u J T. apply target_in in T as [T _]. cbn in T.
      destruct T as [<-|[<-|[]]]; split; apply wordy_ok; reflexivity.
Qed.

Lemma not_repeated : exists s text l,
  pb_names_ok pb_same pb_same (get_prefix (mkPM "" [] false)) [] (s_tables s) (s_tables s) /\
  pb_generate pb_same pb_same (pb_opt (-1) false None) s = Ok text /\ read_proto text = Some l /\
  ~ proto_described pb_same pb_same (get_prefix (mkPM "" [] false)) [] true "octopus" "model" (s_tables s) (s_tables s) l.
Proof.
  exists pb_user. do 2 eexists. split; [exact (pb_user_ok (-1) false)|]. split; [vm_compute; reflexivity|].
  split; [vm_compute; reflexivity|]. intros [is [ms [E [[I _] M]]]]. rewrite I in E.
  - injection E as <-. inversion M as [|? ? ? ? _ M1]; subst. inversion M1 as [|? ? ? ? D M2]; subst.
    destruct D as [cs [rs [Q [F1 [F2 _]]]]]. injection Q as Q.
    inversion F1 as [|? ? ? ? _ G1]; subst. inversion G1 as [|? ? ? ? _ G2]; subst.
    inversion G2 as [|? ? ? ? _ G3]; subst. inversion G3 as [|? ? ? ? _ G4]; subst. inversion G4; subst.
    cbn in Q. injection Q as <- <- <- <- <-. inversion F2 as [|? ? ? ? _ H2]; subst.
    inversion H2 as [|? ? ? ? [u [_ [_ [_ H]]]] _]; subst. destruct (H eq_refl) as [_ K].
    specialize (K eq_refl). discriminate K.
  - eexists. eexists. split; [right; left; reflexivity|]. split; [right; right; right; left; reflexivity|reflexivity].
Qed.

Lemma filter_breaks : exists f s text l,
  (forall t, In t (s_tables s) -> refs_resolve (s_tables s) t) /\
  (forall t c, In t (s_tables s) -> In c (t_cols t) -> exists b, proto_type (c_type c) b) /\
  pb_generate pb_same pb_same (pb_opt (-1) false f) s = Ok text /\ read_proto text = Some l /\ ~ self_contained l.
Proof.
  exists (Some (fun t => String.eqb (t_group t) "")), pb_user. do 2 eexists.
  split; [|split; [|split; [vm_compute; reflexivity|split; [vm_compute; reflexivity|]]]].
  - intros t I r J. cbn in I. destruct I as [<-|[<-|[]]]; cbn in J; [destruct J|].
    destruct J as [<-|[<-|[]]]; eexists; [split; [left; reflexivity|reflexivity]|split; [right; left; reflexivity|reflexivity]].
  - assert (P : forall b ts t, In (b, ts) proto_types -> In t ts -> exists b, proto_type t b).
    { intros b ts t A B. exists b, ts. split; assumption. }
    intros t c I J. cbn in I. destruct I as [<-|[<-|[]]]; cbn in J;
    repeat (destruct J as [<-|J];
      [first [apply (P "int64" ["int64"]); vm_compute; tauto
             |apply (P timestamp ["datetime"]); vm_compute; tauto
             |apply (P "string" ["char"; "varchar"; "text8"; "text16"; "text24"; "text32"]); vm_compute; tauto]|]); destruct J.
  - intros H. specialize (H "user" _ (mkRField false "group" "group" 5%Z) ltac:(cbn; tauto) ltac:(cbn; tauto)).
    destruct H as [H|[[gs H]|[H _]]].
    + vm_compute in H. intuition discriminate.
    + cbn in H. repeat (destruct H as [H|H]; [discriminate|]). destruct H.
    + discriminate H.
Qed.

Lemma tags_overflow : exists camel lc o s t m, pb_new_message camel lc o s t = Ok m /\
  ~ tags_ok (length (t_cols t)) (map pf_tag (pm_fields m)) (map pr_tag (pm_relations m)).
Proof.
  exists pb_same, pb_same, (pb_opt 9223372036854775807 false None), pb_user, (nth 1 (s_tables pb_user) (mkTable "" [] "" "" "" [])).
  eexists. split; [vm_compute; reflexivity|]. intros [_ [_ H]].
  destruct (H (-9223372036854775808)%Z) as [A _]; [cbn; tauto|]. discriminate A.
Qed.
Lemma dangling_panics : exists camel lc o s, pb_generate camel lc o s = Panic.
Proof.
  exists pb_same, pb_same, (pb_opt (-1) false None),
    (mkSchema "" "" "" [mkTable "user" [mkCol "group_id" "int64" "" 0 0 true false false false "" "" [] (Some (mkRef "group" "id" "n:1"))] "" "" "" []]).
  vm_compute. reflexivity.
Qed.
Lemma pb_user_resolves : refs_resolve (s_tables pb_user) (nth 1 (s_tables pb_user) (mkTable "" [] "" "" "" [])).
Proof.
  intros r J. cbn in J.
  destruct J as [<-|[<-|[]]]; eexists; [split; [left; reflexivity|reflexivity]|split; [right; left; reflexivity|reflexivity]].
Qed.
Lemma direction_ignored : exists camel lc o s t m, fits (po_start o) (length (t_cols t)) /\
  pb_new_message camel lc o s t = Ok m /\ po_decr o = true /\
  (Z.of_nat (length (t_cols t)) + Z.of_nat (length (pm_relations m)) < po_start o)%Z /\
  map pr_tag (pm_relations m) <> map (fun j => po_start o - Z.of_nat j)%Z (seq 0 (length (pm_relations m))).
Proof.
  exists pb_same, pb_same, (pb_opt 100 true None), pb_user, (nth 1 (s_tables pb_user) (mkTable "" [] "" "" "" [])).
  eexists. split; [vm_compute; repeat split; discriminate|]. split; [vm_compute; reflexivity|]. split; [reflexivity|].
  split; [vm_compute; reflexivity|]. vm_compute. discriminate.
Qed.
Lemma flags_ignored : forall prefix groups remove pkg go_pkg start decr o,
  pb_cli_option prefix groups remove pkg go_pkg start decr = Ok o -> po_start o = (-1)%Z /\ po_decr o = false.
Proof.
  intros prefix groups remove pkg go_pkg start decr o H. unfold pb_cli_option in H.
  destruct (new_prefix_mapper prefix); [|discriminate]. injection H as <-. split; reflexivity.
Qed.
Lemma generate_contained : forall camel lc o s text,
  one_line (po_package o) -> one_line (po_go_package o) ->
  pb_names_ok camel lc (get_prefix (po_prefix o)) (po_remove o) (s_tables s) (filter (passes (po_filter o)) (s_tables s)) ->
  (forall t, In t (s_tables s) -> fits (po_start o) (length (t_cols t))) ->
  (forall t c, In t (filter (passes (po_filter o)) (s_tables s)) -> In c (t_cols t) -> exists b, proto_type (c_type c) b) ->
  (forall t r u, In t (filter (passes (po_filter o)) (s_tables s)) -> In r (table_refs t) ->
     target (s_tables s) (ref_table r) u -> In u (filter (passes (po_filter o)) (s_tables s))) ->
  pb_generate camel lc o s = Ok text ->
  exists l, read_proto text = Some l /\ self_contained l.
Proof.
  intros camel lc o s text A B C D E F G. destruct (generate_reads camel lc o s text A B C D G) as [l [R P]].
  exists l. split; [exact R|]. revert P. now apply described_contained.
Qed.
