(** The PlantUML text, read back *)
From Coq Require Import String Ascii List NArith Bool Lia.
From Verif.Model Require Import GoString Octopus Plantuml.
From Verif.Spec Require Import Text Reading OctopusSpec DbmlSpec PlantumlSpec.
From Verif.Proofs Require Import StringLemmas ReadingProofs ListLemmas.
Import ListNotations.
Local Open Scope string_scope.

Definition pcolumn_ok (c : column) : Prop :=
  word (c_name c) /\ word (c_type c) /\ match c_ref c with Some r => word (ref_table r) | None => True end.
Definition marks_of (c : column) : list string :=
  ((if c_pk c then ["<<PK>>"] else []) ++ (if c_uq c then ["<<UQ>>"] else []) ++
   match c_ref c with Some _ => ["<<FK>>"] | None => [] end)%list.
Definition row_of (c : column) : prow := PAttr (c_notnull c) (c_name c) (c_type c) (marks_of c).

Lemma accept_word : forall s r, word s -> accept "* " (s ++ r) = (false, s ++ r).
Proof.
  intros s r H. destruct (word_cons s H) as [c [x [-> W]]]. unfold accept. cbn [append strip].
  destruct (Ascii.eqb_spec "*" c) as [<-|N]; [discriminate|reflexivity].
Qed.

Lemma attr_reads : forall c, pcolumn_ok c -> read_attr (puml_column c) = Some (row_of c).
Proof.
  intros c [A [B _]].
  assert (E : read_attr ((if c_notnull c then "* " else "") ++ c_name c ++ ": " ++ c_type c ++
    (if c_pk c then " <<PK>>" else "") ++ (if c_uq c then " <<UQ>>" else "") ++
    match c_ref c with Some _ => " <<FK>>" | None => "" end) =
    match cut ":" (c_name c ++ String ":" (String " " (c_type c ++
    (if c_pk c then " <<PK>>" else "") ++ (if c_uq c then " <<UQ>>" else "") ++
    match c_ref c with Some _ => " <<FK>>" | None => "" end))) with
    | None => None
    | Some (n, rest) => match split_on " " rest with
      | "" :: ty :: marks =>
          if forallb (fun m => existsb (String.eqb m) ["<<PK>>"; "<<UQ>>"; "<<FK>>"]) marks
          then Some (PAttr (c_notnull c) n ty marks) else None
      | _ => None
      end
    end).
  { unfold read_attr. destruct (c_notnull c).
    - rewrite (accept_yes "* "). reflexivity.
    - cbn [append]. rewrite accept_word by exact A. reflexivity. }
  unfold puml_column. rewrite E. rewrite cut_app by nochar.
  change (String " " (c_type c ++
    (if c_pk c then " <<PK>>" else "") ++ (if c_uq c then " <<UQ>>" else "") ++
    match c_ref c with Some _ => " <<FK>>" | None => "" end)) with ("" ++ String " " (c_type c ++
    (if c_pk c then " <<PK>>" else "") ++ (if c_uq c then " <<UQ>>" else "") ++
    match c_ref c with Some _ => " <<FK>>" | None => "" end)).
  rewrite split_on_cons by nochar. unfold row_of, marks_of.
  assert (N : ~ char_in " " (c_type c)) by nochar.
  destruct (c_pk c), (c_uq c), (c_ref c); cbn [append];
    first [rewrite split_on_cons by exact N|rewrite app_nil_r_s, split_on_one by exact N]; reflexivity.
Qed.

Lemma column_text_head : forall c, pcolumn_ok c -> String.eqb (puml_column c) "--" = false.
Proof.
  intros c [A _]. unfold puml_column. destruct (c_notnull c); [reflexivity|]. cbn [append].
  destruct (word_cons _ A) as [x [y [E W]]]. rewrite E. cbn [append String.eqb].
  destruct (Ascii.eqb_spec x "-") as [->|N]; [discriminate|reflexivity].
Qed.

Lemma row_reads : forall c, pcolumn_ok c -> read_row ("    " ++ puml_column c) = Some (row_of c).
Proof.
  intros c H. unfold read_row. rewrite strip_app, column_text_head by exact H. now apply attr_reads.
Qed.

(** rows of an entity *)
Fixpoint rows_of (sep : bool) (cs : list column) : list prow :=
  match cs with
  | [] => []
  | c :: cs' => if negb (c_pk c) && negb sep then PLine :: row_of c :: rows_of true cs'
                else row_of c :: rows_of sep cs'
  end.

Lemma body_step_row : forall n rows s ls r, read_row s = Some r -> String.eqb s "}" = false ->
  read_body (Some (n, rows)) (s :: ls) = read_body (Some (n, (rows ++ [r])%list)) ls.
Proof. intros n rows s ls r R E. cbn [read_body]. now rewrite E, R. Qed.

Lemma columns_read : forall cs sep n acc rest, Forall pcolumn_ok cs ->
  read_body (Some (n, acc)) (puml_columns sep cs ++ rest) = read_body (Some (n, (acc ++ rows_of sep cs)%list)) rest.
Proof.
  induction cs as [|c cs IH]; intros sep n acc rest F; cbn [puml_columns rows_of].
  - now rewrite app_nil_r.
  - inversion F as [|? ? P F']; subst. destruct (negb (c_pk c) && negb sep).
    + cbn [app]. rewrite (body_step_row n acc "    --" _ PLine eq_refl eq_refl).
      rewrite (body_step_row n _ _ _ (row_of c) (row_reads c P) eq_refl).
      rewrite IH by exact F'. now rewrite <- !app_assoc.
    + cbn [app]. rewrite (body_step_row n _ _ _ (row_of c) (row_reads c P) eq_refl).
      rewrite IH by exact F'. now rewrite <- !app_assoc.
Qed.

Definition ptable_ok (t : table) : Prop := word (t_name t) /\ Forall pcolumn_ok (t_cols t).
Definition entity_of (t : table) : pentity := mkPEnt (t_name t) (rows_of false (t_cols t)).

Lemma entities_read : forall ts rest, Forall ptable_ok ts ->
  read_body None (flat_map puml_entity ts ++ rest) =
  match read_body None rest with Some (es, rs) => Some ((map entity_of ts ++ es)%list, rs) | None => None end.
Proof.
  induction ts as [|t ts IH]; intros rest F; cbn [flat_map map app].
  - destruct (read_body None rest) as [[es rs]|]; reflexivity.
  - inversion F as [|? ? [W C] F']; subst. unfold puml_entity at 1. cbv zeta.
    set (head := "entity " ++ t_name t ++ " {"). rewrite <- app_assoc, <- app_comm_cons, <- app_assoc.
    cbn [read_body]. assert (NE : String.eqb head "@enduml" = false) by reflexivity. rewrite NE.
    unfold head. rewrite between_app. rewrite columns_read by exact C. cbn [app read_body].
    assert (Q : String.eqb "}" "}" = true) by reflexivity. rewrite Q. rewrite IH by exact F'.
    destruct (read_body None rest) as [[es rs]|]; reflexivity.
Qed.

Definition prel_of (t : table) (c : column) : list prelation :=
  match c_ref c with Some r => [mkPRel (t_name t) (relation_of r) (ref_table r)] | None => [] end.
Definition prels_of (t : table) : list prelation := flat_map (prel_of t) (t_cols t).

Lemma relation_reads : forall t r, word (t_name t) -> word (ref_table r) ->
  read_relation (t_name t ++ " " ++ puml_rel r ++ " " ++ ref_table r)
  = Some (mkPRel (t_name t) (relation_of r) (ref_table r)).
Proof.
  intros t r A B. unfold read_relation. cbn [append]. rewrite split_on_cons by nochar.
  assert (X : (puml_rel r = "}o-||" /\ relation_of r = Many_to_one) \/ (puml_rel r = "||-o{" /\ relation_of r = One_to_many) \/
    (puml_rel r = "||-||" /\ relation_of r = One_to_one)).
  { unfold puml_rel, relation_of.
    destruct (String.eqb_spec (ref_rel r) "n:1") as [E1|N1]; [left; rewrite E1; split; reflexivity|].
    destruct (String.eqb_spec (ref_rel r) "1:n") as [E2|N2]; [right; left; split; reflexivity|].
    destruct (String.eqb_spec (ref_rel r) "1:1") as [E3|N3]; [right; right; split; reflexivity|].
    left. split; reflexivity. }
  rewrite split_on_cons by (destruct X as [[-> _]|[[-> _]|[-> _]]]; nochar).
  rewrite split_on_one by nochar.
  destruct X as [[-> ->]|[[-> ->]|[-> ->]]]; reflexivity.
Qed.

Lemma starts_not : forall w rest c x, word w -> word_char c = false ->
  String.eqb (w ++ rest) (String c x) = false.
Proof.
  intros w rest c x W E. destruct (word_cons w W) as [d [r [-> D]]]. cbn.
  destruct (Ascii.eqb_spec d c) as [->|N]; [congruence|reflexivity].
Qed.

(** a word followed by a space and a brace-free text is no entity header *)
Lemma not_header : forall s, ~ (exists x, s = x ++ " {") -> between "entity " " {" s = None.
Proof.
  intros s H. unfold between. destruct (strip "entity " s) as [r|] eqn:E; [|reflexivity].
  destruct (strip_end " {" r) as [y|] eqn:E2; [|reflexivity]. exfalso. apply H.
  assert (S1 : forall p q x, strip p q = Some x -> q = p ++ x).
  { induction p as [|a p IH]; intros q x Q; cbn in Q; [now injection Q as ->|].
    destruct q as [|b q]; [discriminate|]. destruct (Ascii.eqb_spec a b) as [->|]; [|discriminate].
    cbn. f_equal. now apply IH. }
  assert (S2 : forall p q x, strip_end p q = Some x -> q = x ++ p).
  { induction q as [|a q IH]; intros x Q; cbn [strip_end] in Q.
    - destruct (String.eqb_spec "" p) as [<-|]; [injection Q as <-; reflexivity|discriminate].
    - destruct (String.eqb_spec (String a q) p) as [<-|]; [injection Q as <-; reflexivity|].
      destruct (strip_end p q) as [y'|]; [|discriminate]. injection Q as <-. cbn. f_equal. now apply IH. }
  apply S1 in E. apply S2 in E2. exists ("entity " ++ y). now rewrite E, E2, app_assoc_s.
Qed.

Lemma ends_brace : forall a b x, b <> "" -> a ++ b = x ++ " {" -> char_in "{" b.
Proof.
  induction a as [|c a IH]; intros b x N E; cbn in E.
  - rewrite E. apply char_in_app. right. right. now left.
  - destruct x as [|d x]; cbn in E.
    + injection E as _ E. destruct a as [|e a]; cbn in E; [rewrite E; now left|].
      injection E as _ E. destruct a; [cbn in E; congruence|discriminate].
    + injection E as _ E. now apply (IH b x).
Qed.

Lemma relations_read : forall ts rest, Forall ptable_ok ts ->
  read_body None (flat_map puml_refs ts ++ rest) =
  match read_body None rest with Some (es, rs) => Some (es, (flat_map prels_of ts ++ rs)%list) | None => None end.
Proof.
  induction ts as [|t ts IH]; intros rest F; cbn [flat_map app].
  - destruct (read_body None rest) as [[es rs]|]; reflexivity.
  - inversion F as [|? ? [W C] F']; subst. rewrite <- app_assoc.
    unfold puml_refs at 1. unfold prels_of at 1.
    induction C as [|c cs P C IHC]; [cbn [flat_map app]; apply IH; exact F'|].
    cbn [flat_map]. unfold prel_of at 1. destruct P as [A [B R]]. destruct (c_ref c) as [r|]; [|exact IHC].
    cbn [app read_body].
    pose proof (starts_not (t_name t) (" " ++ puml_rel r ++ " " ++ ref_table r) "@" "enduml" W eq_refl) as NE.
    rewrite NE. rewrite not_header.
    + rewrite relation_reads by assumption. fold (prels_of t) in *. rewrite IHC.
      destruct (read_body None rest) as [[es rs]|]; reflexivity.
    + intros [x E]. replace (t_name t ++ " " ++ puml_rel r ++ " " ++ ref_table r)
        with ((t_name t ++ " " ++ puml_rel r ++ " ") ++ ref_table r) in E.
      * apply ends_brace in E; [|apply R]. revert E. now apply (word_no _ _ R).
      * now rewrite !app_assoc_s.
Qed.

Lemma rel_line : forall r, one_line (puml_rel r).
Proof.
  intros r. unfold puml_rel. destruct (String.eqb (ref_rel r) "n:1"); [oneline|].
  destruct (String.eqb (ref_rel r) "1:n"); [oneline|]. destruct (String.eqb (ref_rel r) "1:1"); oneline.
Qed.

Lemma text_lines : forall ts, Forall ptable_ok ts ->
  Forall one_line ("@startuml" :: flat_map puml_entity ts ++ flat_map puml_refs ts ++ ["@enduml"])%list.
Proof.
  intros ts F. apply Forall_cons; [oneline|]. apply Forall_app. split; [|apply Forall_app; split].
  - apply Forall_forall. intros x I. apply in_flat_map in I as [t [I J]]. rewrite Forall_forall in F.
    destruct (F t I) as [W C]. unfold puml_entity in J. cbv zeta in J. destruct J as [<-|J]; [oneline|].
    apply in_app_iff in J as [J|[<-|[]]]; [|oneline].
    assert (G : forall sep, Forall one_line (puml_columns sep (t_cols t))).
    { clear J. induction C as [|c cs P C IHC]; intros sep; cbn [puml_columns]; [constructor|].
      assert (L : one_line ("    " ++ puml_column c)).
      { destruct P as [A [B _]]. unfold puml_column. destruct (c_notnull c), (c_pk c), (c_uq c), (c_ref c); oneline. }
      destruct (negb (c_pk c) && negb sep); repeat (apply Forall_cons; [first [exact L|oneline]|]); apply IHC. }
    specialize (G false). rewrite Forall_forall in G. now apply G.
  - apply Forall_forall. intros x I. apply in_flat_map in I as [t [I J]]. rewrite Forall_forall in F.
    destruct (F t I) as [W C]. unfold puml_refs in J. apply in_flat_map in J as [c [Jc J]].
    rewrite Forall_forall in C. destruct (C c Jc) as [A [B R]]. destruct (c_ref c) as [r|]; [|destruct J].
    destruct J as [<-|[]]. pose proof (rel_line r). oneline.
  - constructor; [oneline|constructor].
Qed.

Lemma read_text : forall s, Forall ptable_ok (s_tables s) ->
  read_puml (puml_text s) = Some (map entity_of (s_tables s), flat_map prels_of (s_tables s)).
Proof.
  intros s F. unfold read_puml, puml_text. fold newline. rewrite lines_join by (try discriminate; now apply text_lines).
  rewrite entities_read, relations_read by exact F. cbn [read_body].
  assert (Q : String.eqb "@enduml" "@enduml" = true) by reflexivity. rewrite Q. now rewrite !app_nil_r.
Qed.

(** ** Meaning *)

Lemma row_described : forall c, attr_described c (row_of c).
Proof.
  intros c. unfold attr_described, row_of, marks_of. split; [reflexivity|]. split; [reflexivity|]. split; [reflexivity|].
  destruct (c_pk c), (c_uq c), (c_ref c) as [r|]; cbn [app];
  (split; [repeat (apply NoDup_cons; [cbn; intuition discriminate|]); apply NoDup_nil|]);
  cbn; intuition (first [discriminate|congruence]).
Qed.
Lemma rows_sep : forall cs, rows_of true cs = map row_of cs.
Proof. induction cs as [|c cs IH]; cbn; [reflexivity|]. rewrite andb_false_r. now rewrite IH. Qed.
Lemma rows_described : forall cs, Forall2 attr_described cs (map row_of cs).
Proof. induction cs; cbn; constructor; [apply row_described|assumption]. Qed.

Lemma entity_ok : forall t, entity_described t (entity_of t).
Proof.
  intros t. split; [reflexivity|]. cbn [p_rows entity_of].
  induction (t_cols t) as [|c cs IH].
  - exists [], [], [], []. repeat split; try constructor. intros c [].
  - cbn [rows_of]. destruct (c_pk c) eqn:E; cbn [negb andb].
    + destruct IH as [keys [rest [kr [rr [H1 [H2 [H3 [H4 H5]]]]]]]].
      exists (c :: keys), rest, (row_of c :: kr), rr. split; [cbn; congruence|].
      split; [intros x [<-|I]; auto|]. split; [constructor; [apply row_described|assumption]|]. split; [assumption|].
      destruct rest as [|d rest]; [congruence|]. destruct H5 as [H5 H6]. split; [exact H5|]. cbn. congruence.
    + exists [], (c :: cs), [], (map row_of (c :: cs)). split; [reflexivity|]. split; [intros x []|].
      split; [apply Forall2_nil|]. split; [apply rows_described|]. split; [exact E|]. cbn. now rewrite rows_sep.
Qed.

Lemma prels_links : forall s, flat_map prels_of (s_tables s) = map relation_described (schema_links s).
Proof.
  intros s. unfold schema_links. induction (s_tables s) as [|t ts IH]; [reflexivity|].
  cbn [flat_map]. rewrite map_app, <- IH. f_equal. unfold prels_of, table_links.
  induction (t_cols t) as [|c cs IHc]; [reflexivity|]. cbn [flat_map]. rewrite map_app, <- IHc. f_equal.
  unfold prel_of, column_links. destruct (c_ref c); reflexivity.
Qed.

Lemma puml_reads : forall s, puml_ok s -> exists es,
  read_puml (puml_text s) = Some (es, map relation_described (schema_links s)) /\
  Forall2 entity_described (s_tables s) es.
Proof.
  intros s [W C]. exists (map entity_of (s_tables s)). rewrite <- prels_links. split.
  - apply read_text. apply Forall_forall. intros t I. split; [now apply W|]. apply Forall_forall.
    intros c J. apply C. apply in_flat_map. now exists t.
  - clear W C. induction (s_tables s) as [|t ts IH]; cbn; constructor; [apply entity_ok|exact IH].
Qed.

Definition puml_user : schema :=
  mkSchema "" "db" "1"
    [mkTable "group" [mkCol "id" "int64" "" 0 0 true true false true "" "" [] None;
                      mkCol "name" "varchar" "" 40 0 false false true false "" "" [] None] "" "" "" [];
     mkTable "user" [mkCol "group_id" "int64" "" 0 0 true true false false "" "" []
                        (Some (mkRef "group" "id" "n:1"));
                     mkCol "no" "int32" "" 0 0 true true false false "" "" [] None] "" "" "" []].
Definition word_check (s : string) : bool := negb (String.eqb s "") && string_forallb word_char s.
Lemma word_check_ok : forall s, word_check s = true -> word s.
Proof.
  intros s H. apply andb_true_iff in H as [A B]. split.
  - intros ->. discriminate.
  - intros c I. exact (forallb_char_in _ _ _ B I).
Qed.
Lemma puml_user_ok : puml_ok puml_user.
Proof.
  split.
  - intros t I. cbn in I. destruct I as [<-|[<-|[]]]; apply word_check_ok; reflexivity.
  - intros c J. vm_compute in J.
    repeat (destruct J as [<-|J]; [split; [apply word_check_ok; reflexivity|]; split; [apply word_check_ok; reflexivity|];
      cbn; first [exact I|apply word_check_ok; reflexivity]|]). destruct J.
Qed.

(** a line break in a column name: two schemas, one text *)
Definition broken_line : schema :=
  mkSchema "" "" "" [mkTable "t" [mkCol "a: int32
    b" "int32" "" 0 0 false false false false "" "" [] None] "" "" "" []].
Definition two_lines : schema :=
  mkSchema "" "" "" [mkTable "t" [mkCol "a" "int32" "" 0 0 false false false false "" "" [] None;
                                  mkCol "b" "int32" "" 0 0 false false false false "" "" [] None] "" "" "" []].
Lemma puml_ambiguous : exists s1 s2, valid_schema s1 /\ valid_schema s2 /\ puml_text s1 = puml_text s2 /\
  length (columns_of s1) <> length (columns_of s2).
Proof.
  exists broken_line, two_lines. split; [|split; [|split; [vm_compute; reflexivity|vm_compute; discriminate]]].
  - intros c [<-|[]]. split; [discriminate|]. split; [vm_compute; tauto|]. split; [discriminate|]. split; discriminate.
  - intros c [<-|[<-|[]]]; (split; [discriminate|]; split; [vm_compute; tauto|]; split; [discriminate|]; split; discriminate).
Qed.
