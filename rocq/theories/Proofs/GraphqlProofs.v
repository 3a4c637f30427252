(** The GraphQL text, read back *)
From Coq Require Import String Ascii List NArith Bool Lia Arith.
From Verif.Model Require Import GoString Octopus Common Graphql.
From Verif.Spec Require Import Text Reading OctopusSpec GraphqlSpec.
From Verif.Proofs Require Import StringLemmas ReadingProofs ListLemmas.
Import ListNotations.
Local Open Scope string_scope.

Definition wordy (s : string) : bool := negb (String.eqb s "") && string_forallb word_char s.
Lemma wordy_ok : forall s, wordy s = true -> word s.
Proof.
  intros s H. apply andb_true_iff in H as [A B]. split.
  - intros ->. discriminate.
  - intros c I. exact (forallb_char_in _ _ _ B I).
Qed.

Lemma base_cases : forall t, In (gql_base t) ["String"; "Boolean"; "Int"; "Float"].
Proof.
  intros t. unfold gql_base. cbv zeta. destruct (str_in (to_lower t) ["datetime"; "date"; "time"; "char"; "varchar"]); [cbn; tauto|].
  destruct (String.eqb (to_lower t) "boolean"); [cbn; tauto|].
  destruct (str_in (to_lower t) ["int8"; "int16"; "int24"; "int32"; "int64"]); [cbn; tauto|].
  destruct (str_in (to_lower t) ["decimal"; "float"; "double"]); cbn; tauto.
Qed.

Lemma base_scalar : forall t, In t octopus_types -> scalar_of t (gql_base t).
Proof.
  intros t H. vm_compute in H. unfold scalar_of.
  repeat (destruct H as [<-|H];
    [first [left; eexists; split; [vm_compute; first [left; reflexivity|right; left; reflexivity|right; right; left; reflexivity]|vm_compute; tauto]
           |right; split; [reflexivity|intros b' ts I J; vm_compute in I;
             repeat (destruct I as [I|I]; [injection I as <- <-; vm_compute in J; intuition discriminate|]); destruct I]]|]).
  destruct H.
Qed.

Lemma strip_end_word : forall s, ~ char_in "!" s -> strip_end "!" s = None.
Proof.
  intros s H. destruct (strip_end "!" s) as [r|] eqn:E; [|reflexivity]. exfalso. apply H. clear H.
  revert r E. induction s as [|c s IH]; intros r E; cbn [strip_end] in E.
  - discriminate.
  - destruct (String.eqb_spec (String c s) "!") as [Q|N]; [injection Q as -> ->; now left|].
    destruct (strip_end "!" s) as [r'|]; [|discriminate]. right. now apply (IH r').
Qed.
Lemma nullable_word : forall s, word s -> read_nullable s = GName s.
Proof.
  intros s W. unfold read_nullable, between. destruct (word_cons s W) as [c [r [-> E]]]. cbn [strip].
  destruct (Ascii.eqb_spec "[" c) as [<-|N]; [discriminate|reflexivity].
Qed.
Lemma gtype_word : forall s, word s -> read_gtype s = GName s.
Proof. intros s W. unfold read_gtype. rewrite strip_end_word by nochar. now apply nullable_word. Qed.
Lemma gtype_bang : forall s, word s -> read_gtype (s ++ "!") = GNonNull (GName s).
Proof. intros s W. unfold read_gtype. rewrite strip_end_app. now rewrite nullable_word. Qed.
Lemma gtype_list : forall s, word s -> read_gtype ("[" ++ s ++ "]") = GList s.
Proof.
  intros s W. unfold read_gtype. rewrite strip_end_word by nochar. unfold read_nullable. now rewrite between_app.
Qed.

Lemma skip_word : forall s r, word s -> skip_spaces (s ++ r) = s ++ r.
Proof.
  intros s r W. destruct (word_cons s W) as [c [x [-> E]]]. cbn [append].
  destruct c as [[] [] [] [] [] [] [] []]; try reflexivity. discriminate.
Qed.
Lemma skip_bracket : forall r, skip_spaces ("[" ++ r) = "[" ++ r.
Proof. reflexivity. Qed.

Lemma field_reads : forall n ty, word n -> skip_spaces ty = ty ->
  read_gfield ("  " ++ n ++ ": " ++ ty) = Some (n, read_gtype ty).
Proof.
  intros n ty W S. unfold read_gfield.
  change (skip_spaces ("  " ++ n ++ ": " ++ ty)) with (skip_spaces (n ++ ": " ++ ty)).
  rewrite skip_word by exact W. change (n ++ ": " ++ ty) with (n ++ String ":" (String " " ty)).
  rewrite cut_app by nochar. change (skip_spaces (String " " ty)) with (skip_spaces ty). now rewrite S.
Qed.

Section Names.
Variables to_camel to_lower_camel plural : string -> string.
Notation class_of := (gql_class to_camel to_lower_camel).

Definition tyword (s : string) : Prop := word s \/ exists w, word w /\ s = w ++ "!".
Lemma tyword_skip : forall s, tyword s -> skip_spaces s = s.
Proof.
  intros s [W|[w [W ->]]].
  - rewrite <- (app_nil_r_s s). now apply skip_word.
  - now apply skip_word.
Qed.
Lemma base_word : forall t, word (gql_base t).
Proof.
  intros t. pose proof (base_cases t) as H. cbn in H.
  destruct H as [<-|[<-|[<-|[<-|[]]]]]; apply wordy_ok; reflexivity.
Qed.
Lemma type_tyword : forall (b : bool) c, tyword (if b && c_pk c then "ID!" else gql_type c).
Proof.
  intros b c. destruct (b && c_pk c).
  - right. exists "ID". split; [apply wordy_ok; reflexivity|reflexivity].
  - unfold gql_type. destruct (c_notnull c).
    + right. eexists. split; [apply base_word|reflexivity].
    + left. apply base_word.
Qed.

Definition field_ok (x : gfield) : Prop := word (gf_name x) /\ tyword (gf_type x).
Definition class_ok (c : gclass) : Prop :=
  word (gc_name c) /\ word (plural (to_lower_camel (gc_name c))) /\ Forall field_ok (gc_fields c).

Lemma fields_read : forall fs n acc rest, Forall field_ok fs ->
  read_defs (GInType n acc) (map gql_field_line fs ++ "}" :: "" :: rest) =
  option_map (cons (GType n (acc ++ map (fun x => (gf_name x, read_gtype (gf_type x))) fs)%list)) (read_defs GTop rest).
Proof.
  induction fs as [|x fs IH]; intros n acc rest F; cbn [map app].
  - rewrite app_nil_r. reflexivity.
  - inversion F as [|? ? [W T] F']; subst. cbn [read_defs]. unfold gql_field_line at 1.
    set (line := "  " ++ gf_name x ++ ": " ++ gf_type x).
    assert (NE : String.eqb line "}" = false) by reflexivity. rewrite NE. unfold gql_field_line at 1. fold line. unfold line.
    rewrite field_reads by (try exact W; now apply tyword_skip). rewrite IH by exact F'. now rewrite <- app_assoc.
Qed.

Definition def_of (c : gclass) : gdef := GType (gc_name c) (map (fun x => (gf_name x, read_gtype (gf_type x))) (gc_fields c)).

Lemma classes_read : forall cs, Forall class_ok cs ->
  read_defs GTop (flat_map gql_class_lines cs) = Some (map def_of cs).
Proof.
  induction cs as [|c cs IH]; intros F; [reflexivity|]. inversion F as [|? ? [W [_ C]] F']; subst.
  cbn [flat_map map]. unfold gql_class_lines at 1. cbv zeta. set (head := "type " ++ gc_name c ++ " {").
  rewrite <- app_comm_cons, <- app_assoc. cbn [app read_defs].
  assert (N1 : String.eqb head "" = false) by reflexivity.
  assert (N2 : String.eqb head "schema {" = false) by reflexivity. rewrite N1, N2. unfold head. rewrite between_app.
  rewrite fields_read by exact C. rewrite IH by exact F'. reflexivity.
Qed.

Lemma queries_read : forall cs acc rest, Forall class_ok cs ->
  read_defs (GInType "Query" acc) (map (gql_query_line to_lower_camel plural) cs ++ "}" :: "" :: rest) =
  option_map (cons (GType "Query" (acc ++ map (fun c => (plural (to_lower_camel (gc_name c)), GList (gc_name c))) cs)%list))
    (read_defs GTop rest).
Proof.
  induction cs as [|c cs IH]; intros acc rest F; cbn [map app].
  - rewrite app_nil_r. reflexivity.
  - inversion F as [|? ? [W [P _]] F']; subst. cbn [read_defs]. unfold gql_query_line at 1.
    set (line := "  " ++ plural (to_lower_camel (gc_name c)) ++ ": [" ++ gc_name c ++ "]").
    assert (NE : String.eqb line "}" = false) by reflexivity. rewrite NE.
    assert (L : gql_query_line to_lower_camel plural c =
      "  " ++ plural (to_lower_camel (gc_name c)) ++ ": " ++ ("[" ++ gc_name c ++ "]")) by reflexivity.
    rewrite L, field_reads by (try exact P; reflexivity). rewrite gtype_list by exact W.
    rewrite IH by exact F'. now rewrite <- app_assoc.
Qed.

Lemma tyword_line : forall s, tyword s -> one_line s.
Proof. intros s [W|[w [W ->]]]; [now apply word_one_line|]. oneline. Qed.

Lemma gql_lines_ok : forall cs, Forall class_ok cs ->
  Forall one_line ("type Query {" :: map (gql_query_line to_lower_camel plural) cs ++ ["}"; ""] ++ flat_map gql_class_lines cs)%list.
Proof.
  intros cs F. rewrite Forall_forall in F. apply Forall_cons; [oneline|]. apply Forall_app. split; [|apply Forall_app; split].
  - apply Forall_forall. intros x I. apply in_map_iff in I as [c [<- I]]. destruct (F c I) as [W [P _]].
    unfold gql_query_line. oneline.
  - apply Forall_cons; [oneline|]. apply Forall_cons; [oneline|constructor].
  - apply Forall_forall. intros x I. apply in_flat_map in I as [c [I J]]. destruct (F c I) as [W [_ C]].
    unfold gql_class_lines in J. cbv zeta in J. destruct J as [<-|J]; [oneline|].
    apply in_app_iff in J as [J|[<-|[<-|[]]]]; [|oneline|oneline].
    apply in_map_iff in J as [y [<- J]]. rewrite Forall_forall in C. destruct (C y J) as [A B].
    apply tyword_line in B. unfold gql_field_line. oneline.
Qed.

Lemma text_reads : forall f remove pm s,
  Forall class_ok (gql_classes to_camel to_lower_camel f remove pm s) ->
  read_graphql (gql_text to_camel to_lower_camel plural f remove pm s) =
  Some (GSchema [("query", GName "Query")] ::
        GType "Query" (map (fun c => (plural (to_lower_camel (gc_name c)), GList (gc_name c)))
                           (gql_classes to_camel to_lower_camel f remove pm s)) ::
        map def_of (gql_classes to_camel to_lower_camel f remove pm s)).
Proof.
  intros f remove pm s F. unfold gql_text. cbv zeta. fold newline.
  set (cs := gql_classes to_camel to_lower_camel f remove pm s) in *.
  set (tail := (map (gql_query_line to_lower_camel plural) cs ++ ["}"; ""] ++ flat_map gql_class_lines cs)%list).
  change (join (String newline "") (("schema {" ++ String newline "" ++ "    query: Query" ++ String newline "" ++ "}" ++ String newline "") :: "type Query {" :: tail))
    with ("schema {" ++ String newline ("    query: Query" ++ String newline ("}" ++ String newline ("" ++ String newline
          (join (String newline "") ("type Query {" :: tail)))))).
  unfold read_graphql. rewrite !lines_cons by oneline.
  rewrite lines_join by (try discriminate; now apply gql_lines_ok).
  transitivity (option_map (cons (GSchema [("query", GName "Query")])) (read_defs (GInType "Query" []) tail)).
  - reflexivity.
  - unfold tail. cbn [app]. rewrite queries_read by exact F. rewrite classes_read by exact F. reflexivity.
Qed.

(** ** Meaning *)

Lemma count_one : forall t c, In c (t_cols t) -> c_pk c = true ->
  (length (filter c_pk (t_cols t)) = 1 <-> sole_key t c).
Proof.
  intros t c I P. unfold sole_key. split.
  - intros H. split; [exact P|]. apply in_split in I as [l [r E]]. exists l, r. split; [exact E|].
    rewrite E in H. intros d D. destruct (c_pk d) eqn:Q; [|reflexivity]. exfalso.
    rewrite filter_app in H. cbn in H. rewrite P in H. rewrite app_length in H. cbn in H.
    apply in_app_iff in D as [D|D].
    + assert (In d (filter c_pk l)) as K by now apply filter_In. destruct (filter c_pk l); [destruct K|cbn in H; lia].
    + assert (In d (filter c_pk r)) as K by now apply filter_In. destruct (filter c_pk r); [destruct K|cbn in H; lia].
  - intros [_ [l [r [E H]]]]. rewrite E, filter_app. cbn. rewrite P.
    assert (Z : forall k, (forall d, In d k -> c_pk d = false) -> filter c_pk k = []).
    { induction k as [|d k IH]; intros K; [reflexivity|]. cbn. rewrite (K d (or_introl eq_refl)). apply IH. intros. apply K. now right. }
    rewrite !Z; [reflexivity| |]; intros d D; apply H, in_app_iff; tauto.
Qed.

Lemma fields_described : forall remove pm t, (forall c, In c (t_cols t) -> In (c_type c) octopus_types) ->
  Forall2 (gfield_described to_lower_camel t) (t_cols t)
    (map (fun x => (gf_name x, read_gtype (gf_type x))) (gc_fields (class_of remove pm t))).
Proof.
  intros remove pm t V. unfold gql_class. cbv zeta. cbn [gc_fields]. rewrite map_map. cbn [gf_name gf_type].
  set (single := Nat.eqb (length (filter c_pk (t_cols t))) 1).
  assert (H : forall c, In c (t_cols t) -> gfield_described to_lower_camel t c
    (to_lower_camel (c_name c), read_gtype (if single && c_pk c then "ID!" else gql_type c))).
  { intros c I. split; [reflexivity|]. cbn [snd]. destruct (c_pk c) eqn:P.
    - pose proof (count_one t c I P) as K. unfold single. rewrite andb_true_r.
      destruct (Nat.eqb_spec (length (filter c_pk (t_cols t))) 1) as [E|N].
      + split; [intros _; reflexivity|]. intros Q. exfalso. apply Q, K, E.
      + split; [intros Q; apply K in Q; contradiction|]. intros _.
        exists (gql_base (c_type c)). split; [now apply base_scalar, V|]. unfold gql_type.
        destruct (c_notnull c); [now rewrite gtype_bang by apply base_word|now rewrite gtype_word by apply base_word].
    - rewrite andb_false_r. split; [intros [Q _]; congruence|]. intros _.
      exists (gql_base (c_type c)). split; [now apply base_scalar, V|]. unfold gql_type.
      destruct (c_notnull c); [now rewrite gtype_bang by apply base_word|now rewrite gtype_word by apply base_word]. }
  clearbody single. clear V. induction (t_cols t) as [|c cs IH]; cbn [map]; constructor.
  - apply H. now left.
  - apply IH; intros d D; apply H; now right.
Qed.

Lemma strip_trim : forall p n, trim_prefix p n = match strip p n with Some r => r | None => n end.
Proof.
  intros p n. unfold trim_prefix, has_prefix. revert n.
  assert (H : forall p n, (String.prefix p n = true /\ strip p n = Some (string_drop (String.length p) n)) \/
                          (String.prefix p n = false /\ strip p n = None)).
  { induction p0 as [|a p0 IH]; intros n; [left; split; [destruct n; reflexivity|destruct n; reflexivity]|].
    destruct n as [|b n]; [right; split; reflexivity|]. cbn [String.prefix strip String.length string_drop].
    destruct (Ascii.ascii_dec a b) as [->|N].
    - rewrite Ascii.eqb_refl. apply IH.
    - right. split; [reflexivity|]. destruct (Ascii.eqb_spec a b); [contradiction|reflexivity]. }
  intros n. destruct (H p n) as [[-> ->]|[-> ->]]; reflexivity.
Qed.
Lemma name_is : forall remove pm t, gql_class_name to_camel remove pm t = type_named to_camel (get_prefix pm) remove t.
Proof.
  intros remove pm t. unfold gql_class_name, type_named, without.
  assert (E : forall n, fold_left (fun n p => trim_prefix p n) remove n =
    fold_left (fun n p => match strip p n with Some r => r | None => n end) remove n).
  { induction remove as [|p remove IH]; intros n; [reflexivity|]. cbn [fold_left]. now rewrite strip_trim, IH. }
  rewrite E. destruct (t_class t); reflexivity.
Qed.

Lemma graphql_reads : forall f remove pm s,
  gql_names_ok to_camel to_lower_camel plural (get_prefix pm) remove (filter (passes f) (s_tables s)) ->
  exists query types,
    read_graphql (gql_text to_camel to_lower_camel plural f remove pm s) =
      Some (GSchema [("query", GName "Query")] :: GType "Query" query :: types) /\
    Forall2 (type_described to_camel to_lower_camel (get_prefix pm) remove) (filter (passes f) (s_tables s)) types /\
    query = map (fun t => (plural (to_lower_camel (type_named to_camel (get_prefix pm) remove t)),
                           GList (type_named to_camel (get_prefix pm) remove t))) (filter (passes f) (s_tables s)).
Proof.
  intros f remove pm s H'.
  do 2 eexists. split; [apply text_reads|].
  - unfold gql_classes. apply Forall_forall. intros c I. apply in_map_iff in I as [t [<- I]].
    destruct (H' t I) as [A [B C]]. rewrite <- name_is in A, B. split; [exact A|]. split; [exact B|].
    unfold gql_class. cbv zeta. cbn [gc_fields].
    apply Forall_forall. intros x J. apply in_map_iff in J as [c [<- J]]. split; [now apply C|]. apply type_tyword.
  - unfold gql_classes. rewrite !map_map. split.
    + induction (filter (passes f) (s_tables s)) as [|t ts IH]; cbn [map]; constructor.
      * split; [apply name_is|]. apply fields_described. intros c I. apply (H' t (or_introl eq_refl)), I.
      * apply IH. intros u I. apply H'. now right.
    + apply map_ext. intros t. cbn [gql_class gc_name]. now rewrite name_is.
Qed.
End Names.

Definition gql_user : schema :=
  mkSchema "" "db" "1"
    [mkTable "group" [mkCol "id" "int64" "" 0 0 true true false true "" "" [] None;
                      mkCol "name" "varchar" "" 40 0 true false true false "" "" [] None;
                      mkCol "rate" "double" "" 0 0 false false false false "" "" [] None] "" "" "UserGroup" [];
     mkTable "member" [mkCol "uid" "int64" "" 0 0 true true false false "" "" [] None;
                       mkCol "gid" "int64" "" 0 0 false true false false "" "" [] None] "" "" "" []].
Lemma gql_user_ok : gql_names_ok (fun x => x) (fun x => x) (fun x => x ++ "s") (get_prefix (mkPM "" [] false)) []
  (filter (passes None) (s_tables gql_user)).
Proof.
  intros t I. cbn in I. destruct I as [<-|[<-|[]]];
  (split; [apply wordy_ok; reflexivity|]; split; [apply wordy_ok; reflexivity|]);
  intros c J; cbn in J; repeat (destruct J as [<-|J]; [split; [apply wordy_ok; reflexivity|vm_compute; tauto]|]); destruct J.
Qed.
