(** The text of the Kotlin files, read *)
From Coq Require Import String Ascii List NArith Bool Lia Arith.
From Verif.Model Require Import GoString Util Octopus Common Jpa.
From Verif.Spec Require Import Text Reading OctopusSpec GraphqlSpec KotlinSpec.
From Verif.Proofs Require Import StringLemmas UtilProofs ReadingProofs OctopusProofs GormProofs GormText SqlalchemyProofs KotlinProofs JpaProofs.
From Verif.Spec Require Import KotlinSpec.
Import ListNotations.
Local Open Scope string_scope.

(** ** Lines *)

Definition block (ls : list string) (ts : list tok) : Prop := exists tss, Forall2 lexes ls tss /\ concat tss = ts.
Lemma block_nil : block [] [].
Proof. exists []. split; [constructor|reflexivity]. Qed.
Lemma block_app : forall a b x y, block a x -> block b y -> block (a ++ b) (x ++ y).
Proof.
  intros a b x y [s [A <-]] [t [B <-]]. exists (s ++ t)%list. split; [now apply Forall2_app|apply concat_app].
Qed.
Lemma block_one : forall l t, lexes l t -> block [l] t.
Proof. intros l t L. exists [t]. split; [constructor; [exact L|constructor]|apply app_nil_r]. Qed.
Lemma block_cons : forall l ls t ts, lexes l t -> block ls ts -> block (l :: ls) (t ++ ts).
Proof. intros l ls t ts L B. apply (block_app [l]); [now apply block_one|exact B]. Qed.
Lemma block_empty : forall ls ts, block ls ts -> block ("" :: ls) ts.
Proof. intros ls ts B. apply (block_cons "" ls []); [apply lexes_nil|exact B]. Qed.
Lemma block_if : forall (b : bool) l ts, (b = true -> block l ts) -> block (if b then l else []) (if b then ts else []).
Proof. intros [] l ts H; [now apply H|apply block_nil]. Qed.
Lemma block_lexes : forall ls ts, block ls ts -> lexes (kt_text ls) ts.
Proof. intros ls ts [tss [L <-]]. exact (lexes_lines ls tss L). Qed.
Lemma concat_flats : forall l, concat (map flats l) = flats (concat l).
Proof. induction l as [|x l IH]; [reflexivity|]. cbn [map concat]. now rewrite IH, flats_app. Qed.
Lemma concat_annos : forall l, concat (map flats (map anno_trees l)) = flats (flat_map anno_trees l).
Proof. intros l. now rewrite concat_flats, flat_map_concat_map. Qed.
Lemma indent_lexes : forall a ts, lexes a ts -> lexes (kt_indent ++ a) ts.
Proof. intros a ts L. apply (lexes_after _ _ [] ts); [now apply lexes_given|reflexivity|exact L]. Qed.
Lemma flats_group : forall ts r, flats (Group "(" ts :: r) = (TMark "(" :: flats ts ++ TMark ")" :: flats r)%list.
Proof. intros ts r. unfold flats. cbn [flat_map flat]. fold (flats ts). fold (flats r). cbn [app]. now rewrite <- app_assoc. Qed.

Section Texts.
Variables camel lower_camel snake : string -> string.
Variable o : kt_opt.
Variable ks : list kt_class.
Notation field := (new_kt_field lower_camel snake).
Notation prop c := (lower_camel (c_name c)).
Notation col_ok := (col_ok lower_camel).
Notation ref_ok := (ref_ok lower_camel o ks).
Notation annos := (annos lower_camel snake o ks).
Notation param_trees := (param_trees lower_camel snake o ks).
Notation rest_trees := (rest_trees lower_camel).

(** ** Fields *)

Definition overrides (ident : bool) (c : column) : bool := ident && c_pk c && c_notnull c.
Fixpoint body (ident : bool) (cs : list column) : list tree :=
  match cs with
  | [] => []
  | c :: cs' =>
      (param_trees (overrides ident c) c
       ++ (match cs' with [] => if overrides ident c then [comma] else [] | _ => [comma] end)
       ++ body ident cs')%list
  end.
Lemma body_items : forall ident cs, Forall col_ok cs -> items (body ident cs) = map (fun c => param_trees (overrides ident c) c) cs.
Proof.
  intros ident cs H. unfold items. induction cs as [|c cs IH]; [reflexivity|]. inversion H as [|? ? C H']; subst.
  destruct (param_item lower_camel snake o ks (overrides ident c) c C) as [U N]. cbn [body map]. destruct cs as [|d cs].
  - cbn [body map]. rewrite app_nil_r. destruct (overrides ident c).
    + change [comma] with (comma :: []). rewrite (commas_app _ [] U). reflexivity.
    + rewrite app_nil_r, (commas_one _ U). cbn [drop_last_empty]. destruct (param_trees false c); [congruence|reflexivity].
  - cbn [app]. rewrite (commas_app _ _ U). rewrite drop_cons by apply commas_some. f_equal. exact (IH H').
Qed.
Lemma param_sound : forall ov c, col_ok c -> forallb sound (param_trees ov c) = true.
Proof.
  intros ov c C. unfold JpaProofs.param_trees. rewrite forallb_app, annos_sound. now apply rest_sound.
Qed.
Lemma body_sound : forall ident cs, Forall col_ok cs -> forallb sound (body ident cs) = true.
Proof.
  intros ident cs H. induction H as [|c cs C H IH]; [reflexivity|]. cbn [body]. rewrite !forallb_app, IH, param_sound by exact C.
  destruct cs; [now destruct (overrides ident c)|reflexivity].
Qed.
Lemma line_lexes : forall (last idf : bool) c, col_ok c ->
  let ov := idf && c_notnull c in
  lexes (if c_notnull c then
      if idf then kt_indent ++ "override var " ++ kf_name (field c) ++ ": " ++ kf_type (field c) ++ " = " ++ kf_default (field c) ++ ","
      else kt_indent ++ "var " ++ kf_name (field c) ++ ": " ++ kf_type (field c) ++ " = " ++ kf_default (field c) ++ (if last then "" else ",")
    else kt_indent ++ "var " ++ kf_name (field c) ++ ": " ++ kf_type (field c) ++ (if last then "" else ","))
   (flats (rest_trees ov c) ++ flats (if last && negb ov then [] else [comma])).
Proof.
  intros last idf c C. cbv zeta.
  pose proof (fun ov tail ts => rest_lexes lower_camel snake ov c tail ts C) as R.
  assert (K : forall b : bool, lexes (if b then "" else ",") (flats (if b then [] else [comma]))) by (intros []; now apply lexes_given).
  assert (L : forall b : bool, plain_start (if b then "" else ",") = true) by (now intros []).
  destruct (c_notnull c) eqn:N.
  - destruct idf; cbn [andb negb]; rewrite ?andb_false_r, ?andb_true_r.
    + apply indent_lexes. apply (R true "," [TMark ","]); [now apply lexes_given|reflexivity].
    + apply indent_lexes. apply (R false); [apply K|apply L].
  - rewrite andb_false_r. cbn [negb]. rewrite andb_true_r. apply indent_lexes. apply (R false); [apply K|apply L].
Qed.
Lemma fields_block : forall ident cs, Forall col_ok cs -> Forall ref_ok cs ->
  exists ls, fields_lines lower_camel o ks ident (map field cs) = Some ls /\ block ls (flats (body ident cs)).
Proof.
  intros ident cs H R. induction cs as [|c cs IH]; [exists []; split; [reflexivity|apply block_nil]|].
  inversion H as [|? ? C H']; subst. inversion R as [|? ? D R']; subst. destruct (IH H' R') as [ls [E B]]. clear IH.
  destruct (annos_lex lower_camel snake o ks c C D) as [strs [A L]].
  assert (KC : kf_col (field c) = c) by apply (field_is lower_camel snake c), C.
  cbn [map fields_lines]. rewrite A, E. eexists. split; [reflexivity|]. cbn [body].
  replace (match map field cs with [] => true | _ => false end) with (match cs with [] => true | _ => false end) by now destruct cs.
  set (last := match cs with [] => true | _ => false end).
  replace (match cs with [] => if overrides ident c then [comma] else [] | _ => [comma] end)
    with (if last && negb (overrides ident c) then [] else [comma])
    by (subst last; destruct cs; destruct (overrides ident c); reflexivity).
  rewrite KC. unfold field_lines. rewrite KC. unfold JpaProofs.param_trees. rewrite !flats_app, <- !app_assoc.
  apply block_app; [exists (map flats (map anno_trees (annos c))); split; [|apply concat_annos]|].
  { clear -L. induction L; [constructor|]. cbn [map]. constructor; [now apply indent_lexes|exact IHL]. }
  rewrite (app_assoc (flats (rest_trees _ _))). apply block_cons; [|apply block_empty; exact B].
  exact (line_lexes last (ident && c_pk c) c C).
Qed.

(** ** Classes *)

Definition class_trees (annos : list anno) (name : string) (params : list tree) (super : list tree) : list tree :=
  (flat_map anno_trees annos ++ [Leaf (TWord "data"); Leaf (TWord "class"); Leaf (TWord name); Group "(" params]
   ++ (match super with [] => [] | _ => Leaf (TMark ":") :: super end))%list.
Lemma class_block : forall name params super close ls, identifier name = true -> block ls (flats params) ->
  lexes close (flats (match super with [] => [] | _ => Leaf (TMark ":") :: super end)) ->
  block ((("data class " ++ name ++ "(") :: ls) ++ [")" ++ close]) (flats (class_trees [] name params super)).
Proof.
  intros name params super close ls N B C. unfold class_trees. cbn [flat_map app].
  replace (flats _) with (([TWord "data"; TWord "class"] ++ [TWord name] ++ [TMark "("]) ++ flats params ++ ([TMark ")"] ++
    flats (match super with [] => [] | _ => Leaf (TMark ":") :: super end)))%list.
  2: { set (sup := match super with [] => [] | _ => Leaf (TMark ":") :: super end). clearbody sup.
       change (flats (?a :: ?b :: ?c :: ?d)) with (flats [a; b; c] ++ flats d)%list. rewrite flats_group. reflexivity. }
  apply (block_cons _ (ls ++ [_])).
  - apply lexes_after; [now apply lexes_given|reflexivity|]. apply lexes_before; [now apply lexes_word, identifier_word| |reflexivity].
    now apply lexes_given.
  - apply block_app; [exact B|]. apply block_one. apply lexes_after; [now apply lexes_given|reflexivity|exact C].
Qed.

(** what stands behind a class *)
Definition begins (l : list tree) : bool :=
  match l with [] => true | t :: l' => starts_decl t l' && negb (is_mark ":" t) end.
Fixpoint plain_super (l : list tree) : bool :=
  match l with
  | [] => true
  | t :: l' => negb (is_mark "@" t) && negb (is_word "interface" t) && negb (is_word "data" t && match l' with u :: _ => is_word "class" u | [] => false end)
               && negb (is_word "class" t) && plain_super l'
  end.
Lemma until_plain : forall l rest, plain_super l = true -> begins rest = true -> until_decl (l ++ rest) = (l, rest).
Proof.
  induction l as [|t l IH]; intros rest P B.
  - cbn [app]. destruct rest as [|t rest]; [reflexivity|]. cbn [begins] in B. apply andb_true_iff in B as [B _]. cbn [until_decl]. now rewrite B.
  - cbn [plain_super] in P. rewrite !andb_true_iff, !negb_true_iff in P. destruct P as [[[[A1 A2] A3] A4] A5]. cbn [app until_decl].
    assert (S : starts_decl t (l ++ rest) = false).
    { unfold starts_decl. rewrite A1, A2. cbn [orb]. destruct l as [|u l]; cbn [app]; [|exact A3].
      destruct rest as [|u rest]; [apply andb_false_r|]. cbn [begins] in B. apply andb_true_iff in B as [B _].
      destruct (is_word "class" u) eqn:U; [|apply andb_false_r]. exfalso. destruct u as [[w|w|m]|]; try discriminate. unfold is_word in U.
      apply String.eqb_eq in U. subst w. discriminate. }
    rewrite S, (IH rest A5 B). reflexivity.
Qed.
Lemma class_reads : forall l name params ps super rest, (forall a, In a l -> anno_ok a) -> identifier name = true ->
  read_all read_param (items params) = Some ps -> plain_super super = true -> begins rest = true ->
  read_decl (class_trees l name params super ++ rest) = Some (DClass l name ps super, rest).
Proof.
  intros l name params ps super rest L N P S B. unfold class_trees. rewrite <- !app_assoc. unfold read_decl.
  rewrite (annos_read l _ L) by reflexivity. cbn [app].
  change (is_word "interface" (Leaf (TWord "data"))) with false.
  change (is_word "data" (Leaf (TWord "data")) && is_word "class" (Leaf (TWord "class"))) with true. cbn match.
  rewrite (name_identifier _ N), P. destruct super as [|t super].
  - cbn [app]. unfold read_super. destruct rest as [|t rest]; [reflexivity|]. cbn [begins] in B. apply andb_true_iff in B as [_ B].
    apply negb_true_iff in B. now rewrite B.
  - cbn [app]. unfold read_super. change (is_mark ":" (Leaf (TMark ":"))) with true. cbn match.
    rewrite app_comm_cons. now rewrite (until_plain (t :: super) rest S B).
Qed.

(** ** Imports *)

Definition known_imports : list string :=
  map (fun p => join "." p)
    (filter (fun p => negb (str_in "springframework" p)) (map snd kt_homes)).
Definition import_trees (i : string) : list tree := Leaf (TWord "import") :: dotted (split_on "." i).
Definition path_reads (ps : list string) : Prop := forall l, undotted l = true -> read_path (dotted ps ++ l) = Some (ps, l).
Lemma known_lexes : forall i, In i known_imports -> lexes ("import " ++ i) (flats (import_trees i)) /\
  forallb sound (import_trees i) = true /\ path_reads (split_on "." i).
Proof.
  intros i I. split; [|split].
  - apply lexes_given.
    unfold known_imports in I. cbn in I. repeat (destruct I as [<-|I]; [vm_compute; reflexivity|]). destruct I.
  - unfold known_imports in I. cbn in I. repeat (destruct I as [<-|I]; [vm_compute; reflexivity|]). destruct I.
  - unfold known_imports in I. cbn in I.
    repeat (destruct I as [<-|I]; [match goal with |- path_reads ?x => let v := eval vm_compute in x in change x with v end;
      match goal with |- path_reads (?p :: ?ps) =>
        first [exact (read_dotted ps p eq_refl) | exact (fun l U => read_starred ["persistence"] "javax" eq_refl l)] end|]).
    destruct I.
Qed.
Lemma imports_block : forall l, (forall i, In i l -> In i known_imports) ->
  block (map (fun i => "import " ++ i) l) (flats (flat_map import_trees l)).
Proof.
  induction l as [|i l IH]; intros H; [apply block_nil|]. cbn [map flat_map]. rewrite flats_app.
  apply block_cons; [apply known_lexes, H; now left|]. apply IH. intros x J. apply H. now right.
Qed.
Lemma imports_sound : forall l, (forall i, In i l -> In i known_imports) -> forallb sound (flat_map import_trees l) = true.
Proof.
  induction l as [|i l IH]; intros H; [reflexivity|]. cbn [flat_map]. rewrite forallb_app.
  destruct (known_lexes i (H i (or_introl eq_refl))) as [_ [-> _]]. apply IH. intros x J. apply H. now right.
Qed.
Definition no_import (l : list tree) : bool := match l with t :: _ => negb (is_word "import" t) && negb (is_mark "." t) | [] => true end.
Lemma imports_read : forall l rest n, (forall i, In i l -> path_reads (split_on "." i)) -> no_import rest = true -> length l <= n ->
  read_imports n (flat_map import_trees l ++ rest) = Some (map (split_on ".") l, rest).
Proof.
  induction l as [|i l IH]; intros rest n H R N.
  - cbn [flat_map app map]. destruct rest as [|t rest]; destruct n; try reflexivity. cbn [no_import] in R. apply andb_true_iff in R as [R _].
    apply negb_true_iff in R. cbn [read_imports]. now rewrite R.
  - destruct n as [|n]; [cbn in N; lia|]. cbn [flat_map map]. rewrite <- app_assoc. unfold import_trees at 1. cbn [app read_imports].
    change (is_word "import" (Leaf (TWord "import"))) with true. cbn match. rewrite (H i (or_introl eq_refl)).
    + rewrite IH; [reflexivity|intros x J; apply H; now right|exact R|cbn in N; lia].
    + destruct l as [|j l]; [|reflexivity]. cbn [flat_map app]. destruct rest as [|t rest]; [reflexivity|]. cbn [no_import] in R.
      apply andb_true_iff in R. apply R.
Qed.
End Texts.
