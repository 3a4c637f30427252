(** The text of the GORM generator, read back *)
From Coq Require Import String Ascii List NArith Bool Lia Arith Sorting.Permutation.
From Verif.Model Require Import GoString Util Octopus Common Protobuf.
From Verif.Spec Require Import Text DiffSpec Reading OctopusSpec GraphqlSpec ProtobufSpec GormSpec.
From Verif.Proofs Require Import ListLemmas StringLemmas UtilProofs ReadingProofs GraphqlProofs ProtobufProofs GormProofs.
From Verif.Model Require Import Gorm.
Import ListNotations.
Local Open Scope string_scope.

(** a piece of a line without spaces *)
Definition token (s : string) : Prop := ~ char_in " " s /\ one_line s.
Definition tag_text (s : string) : Prop := ~ char_in ";" s /\ one_line s.

Lemma split_on_join : forall l, l <> [] -> (forall x, In x l -> ~ char_in ";" x) -> split_on ";" (join ";" l) = l.
Proof.
  induction l as [|x l IH]; intros N H; [congruence|]. destruct l as [|y l].
  - cbn [join]. apply split_on_one. apply H. now left.
  - change (join ";" (x :: y :: l)) with (x ++ String ";" (join ";" (y :: l))).
    rewrite split_on_cons by (apply H; now left). rewrite IH; [reflexivity|discriminate|]. intros z I. apply H. now right.
Qed.
Lemma join_no : forall c l, c <> ";"%char -> (forall x, In x l -> ~ char_in c x) -> ~ char_in c (join ";" l).
Proof.
  induction l as [|x l IH]; intros N H; [apply no_nil|]. destruct l as [|y l]; [apply H; now left|].
  change (join ";" (x :: y :: l)) with (x ++ String ";" (join ";" (y :: l))).
  apply no_app; [apply H; now left|]. apply no_cons; [exact N|]. apply IH; [exact N|]. intros z I. apply H. now right.
Qed.

Definition tab : string := String "009" "".

Lemma member_field : forall n ty tags, word n -> token ty -> (forall x, In x tags -> tag_text x) ->
  read_member (tab ++ field_line n ty tags) = Some (Field (n, ty, tags)).
Proof.
  intros n ty tags W [S _] T. unfold read_member. rewrite strip_app. destruct tags as [|x tags].
  - cbn [field_line]. change (n ++ " " ++ ty) with (n ++ String " " ty). rewrite cut_app by nochar. now rewrite cut_none.
  - set (ts := x :: tags) in *. unfold field_line. unfold ts at 1. fold ts.
    change (n ++ " " ++ ty ++ " `gorm:" ++ quote_mark ++ join ";" ts ++ quote_mark ++ "`")
      with (n ++ String " " (ty ++ String " " ("`gorm:""" ++ join ";" ts ++ """`"))).
    rewrite cut_app by nochar. rewrite cut_app by exact S. rewrite between_app.
    rewrite split_on_join; [reflexivity|discriminate|]. intros y I. now apply T.
Qed.
Lemma member_model : forall n, token n -> read_member (tab ++ n) = Some (Embedded n).
Proof. intros n [S _]. unfold read_member. rewrite strip_app. now rewrite cut_none. Qed.

Lemma field_line_one : forall n ty tags, word n -> token ty -> (forall x, In x tags -> tag_text x) ->
  one_line (field_line n ty tags).
Proof.
  intros n ty tags W [_ L] T. destruct tags as [|x tags]; cbn [field_line]; [oneline|].
  assert (J : ~ char_in newline (join ";" (x :: tags))) by (apply join_no; [discriminate|]; intros y I; now apply T).
  unfold quote_mark. oneline.
Qed.

(** ** Lines *)

Definition body_lines (models : list string) (fields : list gofield) : list string :=
  (models ++ map (fun f => let '(n, ty, tags) := f in field_line n ty tags) fields)%list.
Definition struct_lines (name table : string) models fields : list string :=
  let head := "type " ++ name ++ " struct {" in
  let method := "func (c *" ++ name ++ ") TableName() string { return " ++ quote_mark ++ table ++ quote_mark ++ " }" in
  (head :: map (append tab) (body_lines models fields) ++ ["}"; ""; method; ""])%list.
Definition decl_ok (name table : string) (models : list string) (fields : list gofield) : Prop :=
  word name /\ one_line table /\ (forall n, In n models -> token n) /\
  (forall n ty tags, In (n, ty, tags) fields -> word n /\ token ty /\ forall x, In x tags -> tag_text x).

Lemma body_one : forall name table models fields x, decl_ok name table models fields ->
  In x (body_lines models fields) -> one_line (tab ++ x).
Proof.
  intros name table models fields x [_ [_ [M F]]] I.
  assert (O : one_line x).
  { apply in_app_iff in I as [I|I]; [now apply M|]. apply in_map_iff in I as [[[n ty] tags] [<- I]].
    destruct (F _ _ _ I) as [A [B C]]. now apply field_line_one. }
  unfold tab. oneline.
Qed.

Lemma lines_struct : forall name table models fields r, decl_ok name table models fields ->
  lines (("type " ++ name ++ " struct {" ++ String.concat "" (map (fun l => nl_tab ++ l) (body_lines models fields)) ++ nl1
  ++ "}" ++ nl1 ++ nl1
  ++ "func (c *" ++ name ++ ") TableName() string { return " ++ quote_mark ++ table
  ++ quote_mark ++ " }" ++ nl1 ++ nl1) ++ r) = (struct_lines name table models fields ++ lines r)%list.
Proof.
  intros name table models fields r H.
  assert (B : forall x, In x (body_lines models fields) -> one_line (tab ++ x)) by (intros x I; eapply body_one; eauto).
  destruct H as [W [T _]].
  set (body := body_lines models fields) in *.
  set (method := "func (c *" ++ name ++ ") TableName() string { return " ++ quote_mark ++ table ++ quote_mark ++ " }").
  transitivity (lines (("type " ++ name ++ " struct {") ++ String.concat "" (map (fun x => pb_nl ++ (tab ++ x)) body) ++ pb_nl
     ++ "}" ++ pb_nl ++ "" ++ pb_nl ++ method ++ pb_nl ++ "" ++ pb_nl ++ r)).
  - f_equal. unfold method. rewrite !app_assoc_s. reflexivity.
  - rewrite (lines_fields (append tab)); [|oneline|exact B].
    rewrite lines_nl by oneline. rewrite lines_nl by apply one_line_nil.
    rewrite lines_nl by (unfold method, quote_mark; oneline). rewrite lines_nl by apply one_line_nil.
    unfold struct_lines; cbv zeta. fold body. fold method. cbn [app]. rewrite <- app_assoc. reflexivity.
Qed.

(** ** Reading *)

Lemma read_models : forall models n es rest, (forall x, In x models -> token x) ->
  read_decls (Some (n, es, [])) (app (map (append tab) models) rest) = read_decls (Some (n, (es ++ models)%list, [])) rest.
Proof.
  induction models as [|x models IH]; intros n es rest H; cbn [map app]; [now rewrite app_nil_r|].
  assert (E : read_decls (Some (n, es, [])) ((tab ++ x) :: map (append tab) models ++ rest) =
    match read_member (tab ++ x) with
    | Some (Embedded e) => read_decls (Some (n, (es ++ [e])%list, [])) (map (append tab) models ++ rest)
    | Some (Field f) => read_decls (Some (n, es, [f])) (map (append tab) models ++ rest)
    | None => None
    end) by reflexivity.
  rewrite E, member_model by (apply H; now left). rewrite IH by (intros; apply H; now right). now rewrite <- app_assoc.
Qed.
Lemma read_fields : forall fields n es fs rest,
  (forall m ty tags, In (m, ty, tags) fields -> word m /\ token ty /\ forall x, In x tags -> tag_text x) ->
  read_decls (Some (n, es, fs)) (map (append tab) (map (fun f => let '(n, ty, tags) := f in field_line n ty tags) fields) ++ rest)
  = read_decls (Some (n, es, (fs ++ fields)%list)) rest.
Proof.
  induction fields as [|[[m ty] tags] fields IH]; intros n es fs rest H; cbn [map app]; [now rewrite app_nil_r|].
  destruct (H m ty tags (or_introl eq_refl)) as [A [B C]].
  set (rest' := (map (append tab) (map (fun f => let '(n, ty, tags) := f in field_line n ty tags) fields) ++ rest)%list).
  assert (E : read_decls (Some (n, es, fs)) ((tab ++ field_line m ty tags) :: rest') =
    match read_member (tab ++ field_line m ty tags) with
    | Some (Embedded e) => match fs with [] => read_decls (Some (n, (es ++ [e])%list, [])) rest' | _ => None end
    | Some (Field f) => read_decls (Some (n, es, (fs ++ [f])%list)) rest'
    | None => None
    end) by reflexivity.
  rewrite E, member_field by assumption. unfold rest'. rewrite IH; [now rewrite <- app_assoc|]. intros; eapply H; right; eassumption.
Qed.
Lemma read_struct : forall name table models fields rest, decl_ok name table models fields ->
  read_decls None (struct_lines name table models fields ++ rest) =
  option_map (cons (mkDecl name models fields table)) (read_decls None rest).
Proof.
  intros name table models fields rest [W [T [M F]]]. unfold struct_lines; cbv zeta.
  set (head := "type " ++ name ++ " struct {").
  set (method := "func (c *" ++ name ++ ") TableName() string { return " ++ quote_mark ++ table ++ quote_mark ++ " }").
  rewrite <- app_comm_cons, <- app_assoc. cbn [app].
  transitivity (read_decls (Some (name, [], [])) (map (append tab) (body_lines models fields) ++ "}" :: "" :: method :: "" :: rest)).
  - transitivity (match between "type " " struct {" head with
      | Some n => read_decls (Some (n, [], [])) (map (append tab) (body_lines models fields) ++ "}" :: "" :: method :: "" :: rest)
      | None => None end); [reflexivity|]. unfold head. now rewrite between_app.
  - unfold body_lines. rewrite map_app, <- app_assoc. rewrite read_models by exact M. rewrite read_fields by exact F.
    cbn [app].
    transitivity (match read_method name method, read_decls None rest with
              | Some t, Some ds => Some (mkDecl name models fields t :: ds)
              | _, _ => None
              end); [reflexivity|].
    assert (E : read_method name method = Some table).
    { unfold read_method, method.
      assert (Q : "func (c *" ++ name ++ ") TableName() string { return " ++ quote_mark ++ table ++ quote_mark ++ " }" =
        ("func (c *" ++ name ++ ") TableName() string { return ") ++ (quote_mark ++ table ++ quote_mark) ++ " }")
        by (rewrite !app_assoc_s; reflexivity).
      rewrite Q, between_app. unfold quote_mark. apply between_app. }
    rewrite E. now destruct (read_decls None rest).
Qed.

Definition import_line (i : string) : string := tab ++ quote_mark ++ i ++ quote_mark.
Lemma lines_header : forall pkg imports r, one_line pkg -> (forall i, In i imports -> one_line i) ->
  lines (header_text pkg imports ++ r) =
  ("package " ++ pkg) :: "" :: "import (" :: app (map import_line imports) (")" :: "" :: lines r).
Proof.
  intros pkg imports r P I. unfold header_text.
  transitivity (lines (("package " ++ pkg) ++ pb_nl ++ "" ++ pb_nl ++ "import ("
    ++ String.concat "" (map (fun i => pb_nl ++ import_line i) imports) ++ pb_nl ++ ")" ++ pb_nl ++ "" ++ pb_nl ++ r)).
  - f_equal. rewrite !app_assoc_s. reflexivity.
  - rewrite lines_nl by oneline. rewrite lines_nl by apply one_line_nil.
    rewrite (lines_fields import_line).
    + rewrite lines_nl by oneline. now rewrite lines_nl by apply one_line_nil.
    + oneline.
    + intros i K. pose proof (I i K). unfold import_line, tab, quote_mark. oneline.
Qed.
Lemma read_imports_lines : forall imports rest,
  read_go_imports (map import_line imports ++ ")" :: rest) = Some (imports, rest).
Proof.
  induction imports as [|i imports IH]; intros rest; [reflexivity|]. cbn [map app].
  set (rest' := (map import_line imports ++ ")" :: rest)%list) in *.
  transitivity (match between (String "009" """") """" (import_line i), read_go_imports rest' with
           | Some i, Some (is, rest) => Some (i :: is, rest)
           | _, _ => None
           end); [reflexivity|].
  change (import_line i) with (String "009" """" ++ i ++ """"). rewrite between_app. unfold rest'.
  now rewrite IH.
Qed.

(** ** Names and types *)

Lemma id_suffix_spec : forall s, (exists r, s = r ++ "Id" /\ id_suffix s = r ++ "ID") \/ ((forall r, s <> r ++ "Id") /\ id_suffix s = s).
Proof.
  induction s as [|c s IH]; [right; split; [intros [|? ?]; discriminate|reflexivity]|].
  change (id_suffix (String c s)) with (if String.eqb (String c s) "Id" then "ID" else String c (id_suffix s)).
  destruct (String.eqb_spec (String c s) "Id") as [E|N]; [left; exists ""; split; [exact E|reflexivity]|].
  destruct IH as [[r [E F]]|[A B]].
  - left. exists (String c r). split; [now rewrite E|now rewrite F].
  - right. split; [|now rewrite B]. intros [|d r] E; [now apply N|]. cbn in E. injection E as _ E. now apply (A r).
Qed.
Lemma is_digit_iff : forall c, is_digit c = true <-> digit c.
Proof.
  intros c. split.
  - intros H. destruct c as [[] [] [] [] [] [] [] []]; vm_compute in H; try discriminate; vm_compute; tauto.
  - intros H. vm_compute in H. repeat (destruct H as [<-|H]; [reflexivity|]). destruct H.
Qed.

Section Names.
Variables camel snake : string -> string.

Lemma camel_id_spec : forall x, camel_id camel x (id_suffix (camel x)).
Proof.
  intros x. destruct (id_suffix_spec (camel x)) as [[r [A B]]|[A B]]; [left; now exists r|right; now split].
Qed.
Lemma camel_id_fun : forall x b, camel_id camel x b -> b = id_suffix (camel x).
Proof.
  intros x b H. destruct (id_suffix_spec (camel x)) as [[r [A B]]|[A B]], H as [[q [C D]]|[C D]].
  - rewrite B, D. f_equal. rewrite A in C. symmetry. now apply app_inj_r_s in C.
  - exfalso. now apply (C r).
  - exfalso. now apply (A q).
  - congruence.
Qed.

(** what the hypothesis on names says about a column name *)
Definition name_fine (x : string) : Prop := forall n, field_named camel x n -> word n.
Lemma number_iff : forall x, name_fine x -> (number_name (id_suffix (camel x)) = true <-> starts_with_digit (id_suffix (camel x))).
Proof.
  intros x H. split.
  - intros N. unfold number_name in N. destruct (id_suffix (camel x)) as [|c r]; [discriminate|].
    apply andb_true_iff in N as [N _]. exists c, r. split; [reflexivity|now apply is_digit_iff].
  - intros S. assert (W : word ("_" ++ id_suffix (camel x))).
    { apply H. exists (id_suffix (camel x)). split; [apply camel_id_spec|]. split; [reflexivity|]. intros N. now exfalso. }
    destruct S as [c [r [E D]]]. unfold number_name. rewrite E. apply andb_true_iff. split; [now apply is_digit_iff|].
    rewrite E in W. apply negb_true_iff. apply contains_char_false. intros I. apply (word_no _ newline W eq_refl). right. exact I.
Qed.
Lemma name_spec : forall x, name_fine x -> field_named camel x (go_field_name camel x).
Proof.
  intros x H. exists (id_suffix (camel x)). split; [apply camel_id_spec|]. pose proof (number_iff x H) as K.
  unfold go_field_name. cbv zeta. destruct (number_name (id_suffix (camel x))).
  - split; [reflexivity|]. intros N. exfalso. apply N, K. reflexivity.
  - split; [|reflexivity]. intros S. apply K in S. discriminate.
Qed.
Lemma name_word : forall x, name_fine x -> word (go_field_name camel x).
Proof. intros x H. apply H. now apply name_spec. Qed.
Lemma override_iff : forall c, name_fine (c_name c) ->
  (go_override (new_go_field camel snake c) = true <->
   exists b, camel_id camel (c_name c) b /\ (snake (camel (c_name c)) <> c_name c \/ starts_with_digit b)).
Proof.
  intros c H. cbn [go_override new_go_field]. rewrite orb_true_iff, negb_true_iff. rewrite (number_iff _ H). unfold symmetric.
  rewrite String.eqb_neq. split.
  - intros K. exists (id_suffix (camel (c_name c))). split; [apply camel_id_spec|]. destruct K as [K|K]; [left; congruence|now right].
  - intros [b [B K]]. rewrite <- (camel_id_fun _ _ B). destruct K as [K|K]; [left; congruence|now right].
Qed.
End Names.

Lemma type_spec : forall c, In (c_type c) octopus_types ->
  go_typed c (go_type_of (c_type c) (negb (c_notnull c))) /\ token (go_type_of (c_type c) (negb (c_notnull c))).
Proof.
  intros c H. set (ty := c_type c) in *.
  assert (D : forall nn ty',
    (existsb (fun e => str_in ty' (fst (fst e)) && String.eqb (go_type_of ty' (negb nn)) (if nn then snd (fst e) else snd e)) go_types = true \/
     (go_type_of ty' (negb nn) = "interface{}" /\ forallb (fun e => negb (str_in ty' (fst (fst e)))) go_types = true)) ->
    (negb (contains_char " " (go_type_of ty' (negb nn))) && negb (contains_char newline (go_type_of ty' (negb nn))) = true) ->
    ty = ty' -> c_notnull c = nn -> go_typed c (go_type_of ty (negb nn)) /\ token (go_type_of ty (negb nn))).
  { intros nn ty' A C E F. rewrite E. split.
    - unfold go_typed. fold ty. rewrite E, F. destruct A as [A|[A B]].
      + left. apply existsb_exists in A as [[[ts a] b] [I J]]. cbn [fst snd] in J. apply andb_true_iff in J as [J K].
        exists ts, a, b. split; [exact I|]. split; [now apply str_in_iff|now apply String.eqb_eq].
      + right. split; [exact A|]. intros ts a b I J. rewrite forallb_forall in B. specialize (B _ I). cbn [fst] in B.
        apply str_in_iff in J. rewrite J in B. discriminate.
    - apply andb_true_iff in C as [C1 C2]. apply negb_true_iff in C1, C2. split; now apply contains_char_false. }
  destruct (c_notnull c) eqn:N; vm_compute in H;
  repeat (destruct H as [E|H];
    [match type of E with ?x = _ => apply (D _ x) end;
      [first [left; vm_compute; reflexivity|right; split; vm_compute; reflexivity]|vm_compute; reflexivity|symmetry; exact E|first [exact N|reflexivity]]|]);
  destruct H.
Qed.

(** ** Tags *)

Lemma position_spec : forall cols x k p, index_position k cols x = Some p <->
  exists a b, cols = (a ++ x :: b)%list /\ ~ In x a /\ p = (k + N.of_nat (S (length a)))%N.
Proof.
  induction cols as [|c cols IH]; intros x k p; cbn [index_position].
  - split; [discriminate|]. intros [[|? ?] [b [E _]]]; discriminate.
  - destruct (String.eqb_spec x c) as [->|N].
    + split.
      * intros E. injection E as <-. exists [], cols. split; [reflexivity|]. split; [intros []|]. reflexivity.
      * intros [[|d a] [b [E [M P]]]]; [subst p; reflexivity|]. cbn in E. injection E as <- _. exfalso. apply M. now left.
    + rewrite IH. split.
      * intros [a [b [-> [M ->]]]]. exists (c :: a), b. split; [reflexivity|]. split; [intros [Q|Q]; [congruence|contradiction]|].
        cbn [length]. lia.
      * intros [[|d a] [b [E [M P]]]]; [cbn in E; injection E as -> _; congruence|]. cbn in E. injection E as <- ->.
        exists a, b. split; [reflexivity|]. split; [intros Q; apply M; now right|]. rewrite P. cbn [length]. lia.
Qed.
Lemma position_first : forall cols x p, index_position 0 cols x = Some p <-> first_at cols x p.
Proof. intros cols x p. rewrite position_spec. unfold first_at. split; intros [a [b H]]; exists a, b; now rewrite N.add_0_l in *. Qed.

Lemma type_tag_spec : forall c x, type_tag c <> "" /\ x = type_tag c <->
  (In (c_type c) ["bit"; "char"; "varchar"] /\ (c_size c > 0)%N /\ x = "type:" ++ c_type c ++ "(" ++ itoa (c_size c) ++ ")") \/
  (In (c_type c) ["double"; "float"; "decimal"] /\ (c_size c > 0)%N /\ (c_scale c > 0)%N /\
   x = "type:" ++ c_type c ++ "(" ++ itoa (c_size c) ++ "," ++ itoa (c_scale c) ++ ")").
Proof.
  intros c x. unfold type_tag.
  assert (DJ : In (c_type c) ["bit"; "char"; "varchar"] -> In (c_type c) ["double"; "float"; "decimal"] -> False).
  { cbn. intuition congruence. }
  destruct (str_in (c_type c) ["bit"; "char"; "varchar"]) eqn:A.
  - apply str_in_iff in A. destruct (N.ltb_spec 0 (c_size c)).
    + split.
      * intros [_ ->]. left. repeat split; [exact A|lia].
      * intros [[_ [_ ->]]|[B _]]; [split; [discriminate|reflexivity]|destruct (DJ A B)].
    + split; [intros [Q _]; congruence|]. intros [[_ [Q _]]|[_ [Q _]]]; lia.
  - destruct (str_in (c_type c) ["double"; "float"; "decimal"]) eqn:B.
    + apply str_in_iff in B. apply str_in_false in A. destruct (N.ltb_spec 0 (c_size c)), (N.ltb_spec 0 (c_scale c)); cbn [andb].
      * split.
        -- intros [_ ->]. right. repeat split; [exact B|lia|lia].
        -- intros [[Q _]|[_ [_ [_ ->]]]]; [contradiction|split; [discriminate|reflexivity]].
      * split; [intros [Q _]; congruence|]. intros [[Q _]|[_ [_ [Q _]]]]; [contradiction|lia].
      * split; [intros [Q _]; congruence|]. intros [[Q _]|[_ [Q _]]]; [contradiction|lia].
      * split; [intros [Q _]; congruence|]. intros [[Q _]|[_ [Q _]]]; [contradiction|lia].
    + apply str_in_false in A, B. split; [intros [Q _]; congruence|]. intros [[Q _]|[Q _]]; contradiction.
Qed.

Lemma index_tag_spec : forall n ix x, In x (index_tag n ix) <->
  (ix_cols ix = [n] /\ x = "index:" ++ ix_name ix) \/
  (exists k, (length (ix_cols ix) > 1)%nat /\ first_at (ix_cols ix) n k /\ x = "index:" ++ ix_name ix ++ ",priority:" ++ itoa k).
Proof.
  intros n ix x. unfold index_tag. destruct (index_position 0 (ix_cols ix) n) as [p|] eqn:E.
  - apply position_first in E. pose proof E as [a [b [L [M P]]]].
    destruct (Nat.eqb_spec (length (ix_cols ix)) 1) as [O|O].
    + cbn [In]. split.
      * intros [<-|[]]. left. split; [|reflexivity]. rewrite L in *. rewrite app_length in O. cbn in O.
        destruct a as [|? ?]; [|cbn in O; lia]. destruct b; [reflexivity|cbn in O; lia].
      * intros [[_ ->]|[k [Q _]]]; [now left|lia].
    + cbn [In]. split.
      * intros [<-|[]]. right. exists p. split; [|split; [exact E|reflexivity]]. rewrite L in *. rewrite app_length in *. cbn in *. lia.
      * intros [[Q _]|[k [_ [K ->]]]]; [rewrite Q in O; cbn in O; lia|]. left. apply position_first in K, E. congruence.
  - cbn [In]. split; [intros []|]. intros [[Q _]|[k [_ [K _]]]].
    + rewrite Q in E. cbn in E. rewrite String.eqb_refl in E. discriminate.
    + apply position_first in K. congruence.
Qed.

Lemma in_if : forall (b : bool) (x y : string), In x (if b then [y] else []) <-> b = true /\ x = y.
Proof. intros [] x y; cbn; intuition congruence. Qed.

Section Tags.
Variables camel snake : string -> string.
Variable suffix : string.

Lemma length_filter_map : forall cs, length (filter (fun f => c_uq (go_col f)) (map (new_go_field camel snake) cs)) = length (filter c_uq cs).
Proof. intros cs. rewrite filter_map_comm, map_length. reflexivity. Qed.

Lemma tags_spec : forall t c uname, name_fine camel (c_name c) -> In c (t_cols t) -> t_name t <> "" ->
  uname = (if Nat.ltb 1 (length (filter c_uq (t_cols t))) then t_name t ++ suffix else "") ->
  forall x, In x (field_tags uname t (new_go_field camel snake c)) <-> tag_for camel snake suffix t c x.
Proof.
  intros t c uname NF IC NE U x.
  assert (UN : String.eqb uname "" = negb (Nat.ltb 1 (length (filter c_uq (t_cols t))))).
  { subst uname. destruct (Nat.ltb 1 _); [|reflexivity]. destruct (t_name t); [congruence|reflexivity]. }
  assert (SP : c_uq c = true -> (length (filter c_uq (t_cols t)) >= 1)%nat).
  { intros Q. assert (I : In c (filter c_uq (t_cols t))) by now apply filter_In. destruct (filter c_uq (t_cols t)); [destruct I|cbn; lia]. }
  unfold field_tags. cbv zeta. change (go_col (new_go_field camel snake c)) with c.
  rewrite !in_app_iff, !in_if, in_flat_map.
  assert (TT : In x (if String.eqb (type_tag c) "" then [] else [type_tag c]) <-> type_tag c <> "" /\ x = type_tag c).
  { destruct (String.eqb_spec (type_tag c) ""); cbn; intuition congruence. }
  assert (UU : In x (if c_uq c then if String.eqb uname "" then ["unique"] else ["unique_index:" ++ uname] else []) <->
    (c_uq c = true /\ length (filter c_uq (t_cols t)) = 1 /\ x = "unique") \/
    (c_uq c = true /\ (length (filter c_uq (t_cols t)) > 1)%nat /\ x = "unique_index:" ++ t_name t ++ suffix)).
  { rewrite UN. destruct (c_uq c); [|cbn; intuition congruence]. specialize (SP eq_refl). rewrite U.
    destruct (Nat.ltb_spec 1 (length (filter c_uq (t_cols t)))); cbn [negb In].
    - split; [intros [<-|[]]; right; split; [reflexivity|split; [lia|reflexivity]]|].
      intros [[_ [Q _]]|[_ [_ ->]]]; [lia|now left].
    - split; [intros [<-|[]]; left; split; [reflexivity|split; [lia|reflexivity]]|].
      intros [[_ [_ ->]]|[_ [Q _]]]; [now left|lia]. }
  rewrite TT, UU, type_tag_spec, (override_iff camel snake c NF). clear TT UU UN.
  split.
  - intros [[[b [B K]] ->]|[[[A [B ->]]|[A [B [C ->]]]]|[[A ->]|[[[A [B ->]]|[A [B ->]]]|[[ix [I J]]|[[A ->]|[A ->]]]]]]].
    + now apply tag_column with b.
    + now apply tag_size.
    + now apply tag_scale.
    + now apply tag_pk.
    + now apply tag_unique.
    + now apply tag_uniques.
    + apply index_tag_spec in J as [[J ->]|[k [J [K ->]]]]; [now apply tag_index|now apply tag_indices].
    + now apply tag_autoinc.
    + apply andb_true_iff in A as [A B]. apply negb_true_iff in B. now apply tag_notnull.
  - intros H. destruct H as [b B K|A B|A B C|A|A B|A B|ix I E|ix k I L F|A|A B].
    + left. split; [now exists b|reflexivity].
    + right; left. left. auto.
    + right; left. right. auto.
    + right; right; left. auto.
    + right; right; right; left. left. auto.
    + right; right; right; left. right. auto.
    + right; right; right; right; left. exists ix. split; [exact I|]. apply index_tag_spec. left. auto.
    + right; right; right; right; left. exists ix. split; [exact I|]. apply index_tag_spec. right. now exists k.
    + right; right; right; right; right; left. auto.
    + right; right; right; right; right; right. split; [|reflexivity]. rewrite A, B. reflexivity.
Qed.

Lemma listed_word : forall l x, In x l -> forallb wordy l = true -> word x.
Proof. intros l x I H. apply wordy_ok. rewrite forallb_forall in H. auto. Qed.

Lemma tag_clean : forall t c x, tag_for camel snake suffix t c x ->
  word (t_name t) -> word (c_name c) -> (forall ix, In ix (t_indices t) -> word (ix_name ix)) ->
  one_line suffix -> ~ char_in ";" suffix -> tag_text x.
Proof.
  intros t c x H T C I S1 S2. unfold tag_text.
  destruct H as [b B K|A B|A B D|A|A B|A B|ix J E|ix k J L F|A|A B];
    try (pose proof (I _ J) as WI);
    try (pose proof (listed_word _ _ A eq_refl) as WT); split; unfold one_line in *; nochar.
Qed.
End Tags.

(** ** References *)

Lemma target_find : forall ts n u, target ts n u -> table_by_name ts n = Some u.
Proof.
  intros ts n u [l [r [-> [E N]]]]. induction l as [|t l IH]; cbn [app table_by_name].
  - now rewrite E, String.eqb_refl.
  - destruct (String.eqb_spec (t_name t) n) as [Q|_]; [exfalso; apply (N t); [now left|exact Q]|]. apply IH. intros v I. apply N. now right.
Qed.
Lemma column_found : forall cs n d, column_by_name cs n = Some d <-> column_target cs n d.
Proof.
  intros cs n d. split.
  - induction cs as [|c cs IH]; cbn; [discriminate|]. destruct (String.eqb_spec (c_name c) n) as [E|N].
    + intros Q. injection Q as <-. exists [], cs. split; [reflexivity|]. split; [exact E|intros e []].
    + intros Q. apply IH in Q as [l [r [-> [E M]]]]. exists (c :: l), r. split; [reflexivity|]. split; [exact E|].
      intros e [<-|I]; [exact N|now apply M].
  - intros [l [r [-> [E M]]]]. induction l as [|c l IH]; cbn [app column_by_name].
    + now rewrite E, String.eqb_refl.
    + destruct (String.eqb_spec (c_name c) n) as [Q|_]; [exfalso; apply (M c); [now left|exact Q]|]. apply IH. intros e I. apply M. now right.
Qed.
Lemma leads_iff : forall s c r u d, c_ref c = Some r -> (find_reference s r = Some (u, d) <-> leads_to (s_tables s) c r u d).
Proof.
  intros s c r u d R. unfold find_reference, leads_to. split.
  - destruct (table_by_name (s_tables s) (ref_table r)) as [u'|] eqn:T; [|discriminate].
    destruct (column_by_name (t_cols u') (ref_column r)) as [d'|] eqn:C; [|discriminate]. intros E. injection E as <- <-.
    split; [exact R|]. split; [now apply table_by_name_target|now apply column_found].
  - intros [_ [T C]]. rewrite (target_find _ _ _ T). apply column_found in C. now rewrite C.
Qed.

Lemma struct_name_is : forall camel remove pm t, struct_name camel remove pm t = type_named camel (get_prefix pm) remove t.
Proof. intros. apply GraphqlProofs.name_is. Qed.

Section Reads.
Variables camel snake : string -> string.
Variable o : gorm_opt.
Variable s : schema.
Notation named := (type_named camel (get_prefix (go_prefix o)) (go_remove o)).
Notation suffix := (go_suffix o).
Notation pointer := (go_pointer o).
Let sel := filter (passes (go_filter o)) (s_tables s).
Hypothesis OK : go_names_ok camel (get_prefix (go_prefix o)) (go_remove o) suffix (s_tables s) sel.

Definition assoc3 (a : go_assoc) : gofield :=
  let ty := if as_array a then "[]" ++ as_type a else as_type a in
  (as_name a, if pointer then "*" ++ ty else ty, ["foreignKey:" ++ as_fk a; "references:" ++ as_ref a]).
Definition field3 (g : go_struct) (f : go_field) : gofield :=
  (go_name f, go_type f, field_tags (unique_name suffix g) (gs_table g) f).
Definition fields3 (g : go_struct) : list gofield := (map (field3 g) (gs_fields g) ++ map assoc3 (gs_assocs g))%list.
Definition decl_of (g : go_struct) : go_decl := mkDecl (gs_name g) (gs_models g) (fields3 g) (t_name (gs_table g)).

Lemma struct_text_lines : forall g r, decl_ok (gs_name g) (t_name (gs_table g)) (gs_models g) (fields3 g) ->
  lines (struct_text o g ++ r) = app (struct_lines (gs_name g) (t_name (gs_table g)) (gs_models g) (fields3 g)) (lines r).
Proof.
  intros g r H. rewrite <- lines_struct by exact H. f_equal. f_equal. unfold struct_text. cbv zeta.
  assert (E : (gs_models g ++ map (fun f => field_line (go_name f) (go_type f) (field_tags (unique_name suffix g) (gs_table g) f)) (gs_fields g)
    ++ map (assoc_line pointer) (gs_assocs g))%list = body_lines (gs_models g) (fields3 g)).
  { unfold body_lines, fields3. rewrite map_app, !map_map. reflexivity. }
  now rewrite E.
Qed.

Definition fine (g : go_struct) : Prop := decl_ok (gs_name g) (t_name (gs_table g)) (gs_models g) (fields3 g).
Lemma structs_read : forall gs, Forall fine gs ->
  read_decls None (lines (String.concat "" (map (struct_text o) gs))) = Some (map decl_of gs).
Proof.
  induction gs as [|g gs IH]; intros F; [reflexivity|]. inversion F as [|? ? P F']; subst.
  cbn [map]. rewrite concat_cons_s, struct_text_lines by exact P. rewrite read_struct by exact P. rewrite IH by exact F'. reflexivity.
Qed.
Lemma file_reads : forall pkg imports gs, one_line pkg -> (forall i, In i imports -> one_line i) -> Forall fine gs ->
  read_go (header_text pkg imports ++ String.concat "" (map (struct_text o) gs)) = Some (mkGoFile pkg imports (map decl_of gs)).
Proof.
  intros pkg imports gs P I F. unfold read_go. rewrite lines_header by assumption.
  set (tail := app (map import_line imports) (")" :: "" :: lines (String.concat "" (map (struct_text o) gs)))).
  transitivity (match strip "package " ("package " ++ pkg), read_go_imports tail with
        | Some p, Some (is, rest) => option_map (mkGoFile p is) (read_decls None rest)
        | _, _ => None
        end); [reflexivity|].
  rewrite strip_app. unfold tail. rewrite read_imports_lines.
  transitivity (option_map (mkGoFile pkg imports) (read_decls None (lines (String.concat "" (map (struct_text o) gs))))); [reflexivity|].
  now rewrite structs_read.
Qed.

Lemma sel_in : forall t, In t sel -> In t (s_tables s).
Proof. intros t I. now apply filter_In in I as [I _]. Qed.
Lemma col_fine : forall t c, In t (s_tables s) -> In c (t_cols t) -> name_fine camel (c_name c).
Proof. intros t c I J n N. destruct OK as [_ [_ [H _]]]. exact (proj2 (H t I) c n J N). Qed.

Definition resolved (c : column) : bool :=
  match c_ref c with
  | Some r => match find_reference s r with Some _ => true | None => false end
  | None => false
  end.
Lemma resolved_iff : forall c, (exists r u e, leads_to (s_tables s) c r u e) <-> resolved c = true.
Proof.
  intros c. unfold resolved. split.
  - intros [r [u [e L]]]. pose proof L as [R _]. rewrite R. apply (leads_iff s c r u e R) in L. now rewrite L.
  - destruct (c_ref c) as [r|] eqn:R; [|discriminate]. destruct (find_reference s r) as [[u e]|] eqn:F; [|discriminate].
    intros _. exists r, u, e. now apply leads_iff.
Qed.

Lemma leads_in : forall c r u d, leads_to (s_tables s) c r u d -> In u (s_tables s) /\ In d (t_cols u).
Proof.
  intros c r u d [_ [[l [q [E _]]] [l' [q' [E' _]]]]]. split.
  - rewrite E. apply in_app_iff. right. now left.
  - rewrite E'. apply in_app_iff. right. now left.
Qed.

Lemma assocs_spec : forall t, In t (s_tables s) ->
  Forall2 (association camel (get_prefix (go_prefix o)) (go_remove o) pointer (s_tables s)) (filter resolved (t_cols t))
    (map assoc3 (flat_map (go_assoc_of camel s (go_remove o) (go_prefix o)) (t_cols t))).
Proof.
  intros t I. assert (H : forall c, In c (t_cols t) -> name_fine camel (c_name c)) by (intros c; now apply col_fine).
  induction (t_cols t) as [|c cs IH]; [constructor|]. cbn [filter flat_map].
  assert (IH' : forall d, In d cs -> name_fine camel (c_name d)) by (intros d D; apply H; now right). specialize (IH IH').
  unfold resolved at 1, go_assoc_of at 1. destruct (c_ref c) as [r|] eqn:R; [|exact IH].
  destruct (find_reference s r) as [[u d]|] eqn:F; [|exact IH]. cbn [app map]. constructor; [|exact IH].
  apply (leads_iff s c r u d R) in F. destruct (leads_in _ _ _ _ F) as [U D].
  exists r, u, d, (go_field_name camel (c_name c)), (go_field_name camel (c_name d)).
  split; [exact F|]. split; [apply name_spec; apply H; now left|]. split; [apply name_spec; now apply (col_fine u d)|].
  unfold assoc3. cbn [as_name as_type as_array as_fk as_ref]. rewrite struct_name_is.
  destruct pointer, (String.eqb (ref_rel r) "1:n"); reflexivity.
Qed.
Lemma assocs_fine : forall t n ty tags, In t (s_tables s) ->
  In (n, ty, tags) (map assoc3 (flat_map (go_assoc_of camel s (go_remove o) (go_prefix o)) (t_cols t))) ->
  word n /\ token ty /\ forall x, In x tags -> tag_text x.
Proof.
  intros t n ty tags I J. apply in_map_iff in J as [a [E J]]. apply in_flat_map in J as [c [C J]].
  unfold go_assoc_of in J. destruct (c_ref c) as [r|] eqn:R; [|destruct J].
  destruct (find_reference s r) as [[u d]|] eqn:F; [|destruct J]. destruct J as [<-|[]].
  apply (leads_iff s c r u d R) in F. destruct (leads_in _ _ _ _ F) as [U D].
  pose proof (name_word camel _ (col_fine t c I C)) as W1. pose proof (name_word camel _ (col_fine u d U D)) as W2.
  assert (W : word (named u)) by (destruct OK as [_ [_ [H _]]]; exact (proj1 (H u U))).
  unfold assoc3 in E. cbn [as_name as_type as_array as_fk as_ref] in E. rewrite struct_name_is in E. injection E as <- <- <-.
  split; [exact W|]. split.
  - unfold token, one_line. destruct pointer, (String.eqb (ref_rel r) "1:n"); split; nochar.
  - unfold tag_text, one_line. intros x [<-|[<-|[]]]; split; nochar.
Qed.

Section Tables.
Variable m : list (string * list string).
Hypothesis M : models_ok m.
Variables om on : list (string * list string) -> list (string * list string).
Hypothesis OM : iteration_order om.
Hypothesis ON : iteration_order on.
Notation struct_of := (new_go_struct camel snake om on m s (go_remove o) (go_prefix o)).

Lemma unique_is : forall t, unique_name suffix (struct_of t) =
  if Nat.ltb 1 (length (filter c_uq (t_cols t))) then t_name t ++ suffix else "".
Proof.
  intros t. unfold unique_name. unfold new_go_struct. cbv zeta. cbn [gs_unique gs_table]. now rewrite length_filter_map.
Qed.

Lemma field_spec : forall t c, In t sel -> In c (t_cols t) ->
  let f := field3 (struct_of t) (new_go_field camel snake c) in
  gorm_field camel snake suffix t c f /\ word (fst (fst f)) /\ token (snd (fst f)) /\ forall x, In x (snd f) -> tag_text x.
Proof.
  intros t c T C. cbv zeta. unfold field3. rewrite unique_is. change (gs_table (struct_of t)) with t.
  change (go_name (new_go_field camel snake c)) with (go_field_name camel (c_name c)).
  change (go_type (new_go_field camel snake c)) with (go_type_of (c_type c) (negb (c_notnull c))).
  pose proof (col_fine t c (sel_in t T) C) as NF. destruct OK as [S1 [S2 [_ H]]]. destruct (H t T) as [W [K IX]]. destruct (K c C) as [WC TY].
  destruct (type_spec c TY) as [TS TK].
  assert (E : forall x, In x (field_tags (if Nat.ltb 1 (length (filter c_uq (t_cols t))) then t_name t ++ suffix else "") t (new_go_field camel snake c))
    <-> tag_for camel snake suffix t c x).
  { apply tags_spec; try assumption; [|reflexivity]. destruct W as [W _]. exact W. }
  split; [split; [now apply name_spec|split; [exact TS|exact E]]|]. cbn [fst snd]. split; [now apply name_word|]. split; [exact TK|].
  intros x X. apply E in X. eapply tag_clean; eauto.
Qed.

Lemma model_token : forall n cols, In (n, cols) m -> token n.
Proof.
  intros n cols I. destruct M as [_ H]. destruct (H n cols I) as [_ K].
  split; intros J; apply K in J as [J|J]; discriminate.
Qed.

Lemma struct_fine : forall t, In t sel -> fine (struct_of t).
Proof.
  intros t T. pose proof OK as [_ [_ [H1 H2]]]. split; [|split; [|split]].
  - change (gs_name (struct_of t)) with (struct_name camel (go_remove o) (go_prefix o) t). rewrite struct_name_is.
    apply (H1 t (sel_in t T)).
  - apply word_one_line. apply (H2 t T).
  - intros n I. destruct (embeds_once camel snake om on m s (go_remove o) (go_prefix o) t OM ON (proj1 M)) as [[_ [E _]] _].
    destruct (E n I) as [cols [J _]]. now apply (model_token n cols).
  - intros n ty tags I. apply in_app_iff in I as [I|I].
    + rewrite struct_fields in I. rewrite map_map in I. apply in_map_iff in I as [c [E I]]. apply filter_In in I as [I _].
      destruct (field_spec t c T I) as [_ F]. rewrite E in F. exact F.
    + exact (assocs_fine t n ty tags (sel_in t T) I).
Qed.

Lemma struct_described : forall t, In t sel ->
  decl_described camel snake (get_prefix (go_prefix o)) (go_remove o) pointer suffix m (s_tables s) t (decl_of (struct_of t)).
Proof.
  intros t T. destruct (embeds_once camel snake om on m s (go_remove o) (go_prefix o) t OM ON (proj1 M)) as [E K].
  split; [apply struct_name_is|]. split; [reflexivity|]. split; [exact E|].
  change (gd_embedded (decl_of (struct_of t))) with (gs_models (struct_of t)).
  exists (map go_col (gs_fields (struct_of t))), (map (field3 (struct_of t)) (gs_fields (struct_of t))), (filter resolved (t_cols t)),
    (map assoc3 (gs_assocs (struct_of t))).
  split; [reflexivity|]. split; [exact K|]. split; [|split].
  - clear K E. rewrite struct_fields. rewrite !map_map.
    set (g := filter _ (t_cols t)). assert (G : forall c, In c g -> In c (t_cols t)) by (intros c I; now apply filter_In in I as [I _]).
    clearbody g. induction g as [|c g IH]; cbn [map]; constructor.
    + apply (field_spec t c T). apply G. now left.
    + apply IH. intros d D. apply G. now right.
  - apply kept_filter. intros c _. apply resolved_iff.
  - apply assocs_spec. now apply sel_in.
Qed.
End Tables.

Lemma structs_described : forall m om on, models_ok m -> (forall k, iteration_order (om k)) -> (forall k, iteration_order (on k)) ->
  forall ts k, (forall t, In t ts -> In t sel) ->
  Forall fine (go_structs_from camel snake k om on m s (go_remove o) (go_prefix o) ts) /\
  Forall2 (decl_described camel snake (get_prefix (go_prefix o)) (go_remove o) pointer suffix m (s_tables s)) ts
    (map decl_of (go_structs_from camel snake k om on m s (go_remove o) (go_prefix o) ts)).
Proof.
  intros m om on M OM ON. induction ts as [|t ts IH]; intros k H; cbn [go_structs_from map]; [split; constructor|].
  destruct (IH (S k)) as [A B]; [intros; apply H; now right|].
  split; constructor; try assumption.
  - apply struct_fine; auto. apply H. now left.
  - apply struct_described; auto. apply H. now left.
Qed.
End Reads.

(** ** Imports *)

Lemma slice_in : forall x l, In x (ss_slice l) <-> In x l.
Proof.
  intros x l. unfold ss_slice, ss_slice_ord. split; intros H.
  - exact (Permutation_in _ (sort_strings_perm l) H).
  - exact (Permutation_in _ (Permutation_sym (sort_strings_perm l)) H).
Qed.
Lemma imports_in : forall gs i, In i (gorm_imports gs) <-> exists g, In g gs /\ In i (struct_imports g).
Proof. intros gs i. unfold gorm_imports. rewrite slice_in, add_all_in, in_flat_map. cbn. tauto. Qed.
Lemma struct_imports_in : forall g i, In i (struct_imports g) <->
  (i = "github.com/jinzhu/gorm" /\ In "gorm.Model" (gs_models g)) \/ exists f, In f (gs_fields g) /\ In i (go_imports f).
Proof.
  intros g i. unfold struct_imports. rewrite in_app_iff, !in_flat_map. split.
  - intros [[n [I J]]|H]; [|now right]. left. destruct (String.eqb_spec n "gorm.Model") as [->|N]; [|destruct J].
    destruct J as [<-|[]]. now split.
  - intros [[-> I]|H]; [|now right]. left. exists "gorm.Model". split; [exact I|]. now left.
Qed.
Lemma field_imports_in : forall ty nl i, In i (go_imports_of ty nl) -> In i (map snd packages).
Proof.
  intros ty nl i H. unfold go_imports_of in H. cbv zeta in H.
  destruct nl, (String.eqb (to_lower ty) "decimal"), (str_in (to_lower ty) ["datetime"; "date"; "time"]); vm_compute in H; vm_compute; tauto.
Qed.
Lemma package_line : forall i, In i (map snd packages) -> one_line i.
Proof. intros i H. vm_compute in H. repeat (destruct H as [<-|H]; [apply contains_char_false; reflexivity|]). destruct H. Qed.

Lemma strip_some : forall p s r, strip p s = Some r -> s = p ++ r.
Proof.
  induction p as [|c p IH]; intros s r H.
  - destruct s; cbn in H; injection H as <-; reflexivity.
  - destruct s as [|d s]; [discriminate|]. cbn in H. destruct (Ascii.eqb_spec c d) as [->|]; [|discriminate]. cbn. f_equal. now apply IH.
Qed.
Definition qualified (q ty : string) : bool := match strip (q ++ ".") ty with Some _ => true | None => false end.
Lemma qualified_iff : forall q ty, qualified q ty = true <-> exists r, ty = q ++ "." ++ r.
Proof.
  intros q ty. unfold qualified. split.
  - destruct (strip (q ++ ".") ty) as [r|] eqn:E; [|discriminate]. intros _. exists r. apply strip_some in E. now rewrite E, app_assoc_s.
  - intros [r ->]. rewrite <- app_assoc_s. now rewrite strip_app.
Qed.

Lemma type_imports : forall ty nl, In ty octopus_types ->
  (forall q path, In (q, path) packages -> qualified q (go_type_of ty nl) = true -> In path (go_imports_of ty nl)) /\
  (nl = false \/ In ty null_types -> forall path, In path (go_imports_of ty nl) ->
     exists q, In (q, path) packages /\ qualified q (go_type_of ty nl) = true).
Proof.
  intros ty nl H.
  assert (D : forall ty',
    (forallb (fun e => if qualified (fst e) (go_type_of ty' nl) then str_in (snd e) (go_imports_of ty' nl) else true) packages = true) ->
    (nl = true /\ str_in ty' null_types = false \/
     forallb (fun p => existsb (fun e => String.eqb (snd e) p && qualified (fst e) (go_type_of ty' nl)) packages) (go_imports_of ty' nl) = true) ->
    (forall q path, In (q, path) packages -> qualified q (go_type_of ty' nl) = true -> In path (go_imports_of ty' nl)) /\
    (nl = false \/ In ty' null_types -> forall path, In path (go_imports_of ty' nl) ->
     exists q, In (q, path) packages /\ qualified q (go_type_of ty' nl) = true)).
  { intros ty' A B. split.
    - intros q path I Q. rewrite forallb_forall in A. specialize (A _ I). cbn [fst snd] in A. rewrite Q in A. now apply str_in_iff.
    - intros N path I. destruct B as [[B1 B2]|B].
      + exfalso. destruct N as [N|N]; [congruence|]. apply str_in_iff in N. congruence.
      + rewrite forallb_forall in B. specialize (B _ I). apply existsb_exists in B as [[q p] [J K]]. cbn [fst snd] in K.
        apply andb_true_iff in K as [K1 K2]. apply String.eqb_eq in K1. subst p. now exists q. }
  destruct nl; vm_compute in H;
  repeat (destruct H as [<-|H];
    [apply D; [vm_compute; reflexivity|first [right; vm_compute; reflexivity|left; split; [reflexivity|vm_compute; reflexivity]]]|]);
  destruct H.
Qed.

Section File.
Variables camel snake : string -> string.
Variables om on : nat -> list (string * list string) -> list (string * list string).
Hypothesis OM : forall k, iteration_order (om k).
Hypothesis ON : forall k, iteration_order (on k).
Variable m : list (string * list string).
Variable o : gorm_opt.
Variable s : schema.
Let m' := embed_models m (go_embed o).
Let sel := filter (passes (go_filter o)) (s_tables s).
Hypothesis M : models_ok m.
Hypothesis OK : go_names_ok camel (get_prefix (go_prefix o)) (go_remove o) (go_suffix o) (s_tables s) sel.
Hypothesis P : one_line (go_package o).
Let gs := go_structs camel snake om on m' o s.
Definition the_file : go_file :=
  mkGoFile (if String.eqb (go_package o) "" then "main" else go_package o) (gorm_imports gs) (map (decl_of o) gs).

Lemma in_gs : forall g, In g gs -> exists j t, In t sel /\ g = new_go_struct camel snake (om j) (on j) m' s (go_remove o) (go_prefix o) t.
Proof. intros g H. now apply structs_in in H. Qed.
Lemma field_in : forall g f, In g gs -> In f (gs_fields g) ->
  exists t c, In t sel /\ In c (t_cols t) /\ f = new_go_field camel snake c /\ In (c_type c) octopus_types.
Proof.
  intros g f G F. apply in_gs in G as [j [t [T ->]]]. rewrite struct_fields in F. apply in_map_iff in F as [c [<- F]].
  apply filter_In in F as [F _]. exists t, c. split; [exact T|]. split; [exact F|]. split; [reflexivity|].
  destruct OK as [_ [_ [_ H]]]. destruct (H t T) as [_ [K _]]. now apply K.
Qed.

Lemma gorm_reads : read_go (fst (gorm_generate camel snake om on m o s)) = Some the_file /\
  Forall2 (decl_described camel snake (get_prefix (go_prefix o)) (go_remove o) (go_pointer o) (go_suffix o) m' (s_tables s))
    sel (gf_decls the_file).
Proof.
  assert (M' : models_ok m') by now apply embed_ok.
  destruct (structs_described camel snake o s OK m' om on M' OM ON sel 0) as [A B]; [auto|].
  split; [|exact B]. unfold gorm_generate. cbv zeta. cbn [fst]. fold m'. fold gs. apply file_reads.
  - destruct (String.eqb (go_package o) ""); [oneline|exact P].
  - intros i I. apply imports_in in I as [g [G I]]. apply package_line. apply struct_imports_in in I as [[-> _]|[f [F I]]].
    + vm_compute. tauto.
    + destruct (field_in g f G F) as [t [c [_ [_ [-> _]]]]]. now apply (field_imports_in _ _ _ I).
  - exact A.
Qed.

Lemma fields_in : forall g n ty tags, In g gs -> In (n, ty, tags) (fields3 o g) ->
  (exists f, In f (gs_fields g) /\ ty = go_type f) \/ ~ char_in "." ty.
Proof.
  intros g n ty tags G I. apply in_app_iff in I as [I|I].
  - apply in_map_iff in I as [f [E I]]. left. exists f. split; [exact I|]. unfold field3 in E. congruence.
  - right. apply in_gs in G as [j [t [T ->]]].
    assert (TS : In t (s_tables s)) by (now apply filter_In in T as [T _]).
    change (gs_assocs (new_go_struct camel snake (om j) (on j) m' s (go_remove o) (go_prefix o) t))
      with (flat_map (go_assoc_of camel s (go_remove o) (go_prefix o)) (t_cols t)) in I.
    apply in_map_iff in I as [a [E I]]. apply in_flat_map in I as [c [C J]].
    unfold go_assoc_of in J. destruct (c_ref c) as [r|] eqn:R; [|destruct J].
    destruct (find_reference s r) as [[u d]|] eqn:F; [|destruct J]. destruct J as [<-|[]].
    apply (leads_iff s c r u d R) in F. destruct (leads_in s _ _ _ _ F) as [U D].
    assert (W : word (type_named camel (get_prefix (go_prefix o)) (go_remove o) u)) by (destruct OK as [_ [_ [H _]]]; exact (proj1 (H u U))).
    unfold assoc3 in E. cbn [as_name as_type as_array as_fk as_ref] in E. rewrite struct_name_is in E. injection E as _ <- _.
    destruct (go_pointer o), (String.eqb (ref_rel r) "1:n"); nochar.
Qed.

Lemma enough : models_known m' -> imports_enough the_file.
Proof.
  intros K q path Q [ty [r [[d [D H]] E]]]. cbn [gf_decls gf_imports the_file] in *. apply in_map_iff in D as [g [<- G]].
  apply imports_in. exists g. split; [exact G|]. apply struct_imports_in. destruct H as [H|[n [tags H]]].
  - left. cbn [gd_embedded decl_of] in H. pose proof (in_gs g G) as [j [t [T ->]]].
    destruct (embeds_once camel snake (om j) (on j) m' s (go_remove o) (go_prefix o) t (OM j) (ON j) (proj1 (embed_ok m (go_embed o) M))) as [[_ [X _]] _].
    destruct (X ty H) as [cols [J _]]. pose proof (K ty cols q path r J Q E) as TY. rewrite TY in H. split; [|exact H].
    rewrite TY in E. clear - Q E. cbn in Q. repeat (destruct Q as [Q|Q]; [injection Q as <- <-; first [reflexivity|discriminate]|]). destruct Q.
  - cbn [gd_fields decl_of] in H. destruct (fields_in g n ty tags G H) as [[f [F ->]]|N].
    + right. exists f. split; [exact F|]. destruct (field_in g f G F) as [t [c [_ [_ [-> T]]]]].
      apply (proj1 (type_imports (c_type c) (negb (c_notnull c)) T) q path Q). apply qualified_iff. now exists r.
    + exfalso. apply N. rewrite E. apply char_in_app. right. now left.
Qed.
Lemma used : (forall t c, In t sel -> In c (t_cols t) -> c_notnull c = true \/ In (c_type c) null_types) -> imports_used the_file.
Proof.
  intros K path I. cbn [gf_imports the_file] in I. apply imports_in in I as [g [G I]]. apply struct_imports_in in I as [[-> I]|[f [F I]]].
  - exists "gorm". split; [vm_compute; tauto|]. exists "gorm.Model", "Model". split; [|reflexivity].
    exists (decl_of o g). split; [apply in_map_iff; now exists g|]. now left.
  - destruct (field_in g f G F) as [t [c [T [C [-> TY]]]]].
    destruct (proj2 (type_imports (c_type c) (negb (c_notnull c)) TY)) with path as [q [Q R]].
    + destruct (K t c T C) as [->|N]; [now left|now right].
    + exact I.
    + exists q. split; [exact Q|]. apply qualified_iff in R as [r R]. exists (go_type_of (c_type c) (negb (c_notnull c))), r. split; [|exact R].
      exists (decl_of o g). split; [apply in_map_iff; now exists g|]. right. cbn [gd_fields decl_of].
      exists (go_name (new_go_field camel snake c)), (field_tags (unique_name (go_suffix o) g) (gs_table g) (new_go_field camel snake c)).
      apply in_app_iff. left. apply in_map_iff. exists (new_go_field camel snake c). now split.
Qed.

Lemma file_described : exists f, read_go (fst (gorm_generate camel snake om on m o s)) = Some f /\
  gf_package f = (if String.eqb (go_package o) "" then "main" else go_package o) /\
  Forall2 (decl_described camel snake (get_prefix (go_prefix o)) (go_remove o) (go_pointer o) (go_suffix o) m' (s_tables s)) sel (gf_decls f).
Proof. exists the_file. destruct gorm_reads as [A B]. split; [exact A|]. split; [reflexivity|exact B]. Qed.
Lemma file_enough : models_known m' -> forall f, read_go (fst (gorm_generate camel snake om on m o s)) = Some f -> imports_enough f.
Proof. intros K f E. rewrite (proj1 gorm_reads) in E. injection E as <-. now apply enough. Qed.
Lemma file_used : (forall t c, In t sel -> In c (t_cols t) -> c_notnull c = true \/ In (c_type c) null_types) ->
  forall f, read_go (fst (gorm_generate camel snake om on m o s)) = Some f -> imports_used f.
Proof. intros K f E. rewrite (proj1 gorm_reads) in E. injection E as <-. now apply used. Qed.
End File.

(** ** Cases *)

Definition plain_name (b : string) : string :=
  match b with String c _ => if is_digit c then "_" ++ b else b | EmptyString => b end.
Lemma field_named_fun : forall camel x n, field_named camel x n -> n = plain_name (id_suffix (camel x)).
Proof.
  intros camel x n [b [B [Y N]]]. rewrite <- (camel_id_fun camel x b B). unfold plain_name. destruct b as [|c r].
  - apply N. intros [c [r [E _]]]. discriminate.
  - destruct (is_digit c) eqn:D.
    + apply Y. exists c, r. split; [reflexivity|now apply is_digit_iff].
    + apply N. intros [c' [r' [E D']]]. injection E as <- <-. apply is_digit_iff in D'. congruence.
Qed.

Definition table_check (camel prefix : string -> string) unwanted (t : table) : bool :=
  wordy (type_named camel prefix unwanted t) && wordy (t_name t)
  && forallb (fun c => wordy (plain_name (id_suffix (camel (c_name c)))) && wordy (c_name c) && str_in (c_type c) octopus_types) (t_cols t)
  && forallb (fun ix => wordy (ix_name ix)) (t_indices t).
Lemma names_check : forall camel prefix unwanted suffix ts sel, wordy suffix = true \/ suffix = "" ->
  (forall t, In t sel -> In t ts) -> forallb (table_check camel prefix unwanted) ts = true ->
  go_names_ok camel prefix unwanted suffix ts sel.
Proof.
  intros camel prefix unwanted suffix ts sel S I H. rewrite forallb_forall in H.
  assert (K : forall t, In t ts -> wordy (type_named camel prefix unwanted t) = true /\ wordy (t_name t) = true /\
    (forall c, In c (t_cols t) -> wordy (plain_name (id_suffix (camel (c_name c)))) = true /\ wordy (c_name c) = true /\ str_in (c_type c) octopus_types = true) /\
    (forall ix, In ix (t_indices t) -> wordy (ix_name ix) = true)).
  { intros t T. specialize (H t T). apply andb_true_iff in H as [H D]. apply andb_true_iff in H as [H C]. apply andb_true_iff in H as [A B].
    rewrite forallb_forall in C, D. split; [exact A|]. split; [exact B|]. split; [|exact D].
    intros c J. specialize (C c J). apply andb_true_iff in C as [C1 C3]. apply andb_true_iff in C1 as [C1 C2]. auto. }
  split; [|split; [|split]].
  - destruct S as [S|S]; [now apply word_one_line, wordy_ok|rewrite S; apply one_line_nil].
  - destruct S as [S|S]; [apply wordy_ok in S; nochar|rewrite S; nochar].
  - intros t T. destruct (K t T) as [A [_ [C _]]]. split; [now apply wordy_ok|]. intros c n J N.
    rewrite (field_named_fun _ _ _ N). apply wordy_ok. now apply C.
  - intros t T. destruct (K t (I t T)) as [_ [B [C D]]]. split; [now apply wordy_ok|]. split.
    + intros c J. destruct (C c J) as [_ [C2 C3]]. split; [now apply wordy_ok|now apply str_in_iff].
    + intros ix J. now apply wordy_ok, D.
Qed.

(** the names of the example in docs/gorm.md *)
Definition doc_camel (s : string) : string :=
  match alist_find [("id", "Id"); ("name", "Name"); ("group_id", "GroupId"); ("user", "User"); ("group", "Group"); ("price", "Price");
                    ("2nd", "2nd"); ("made_at", "MadeAt"); ("eMail", "EMail")] s with
  | Some x => x | None => s end.
Definition doc_snake (s : string) : string :=
  match alist_find [("Id", "id"); ("Name", "name"); ("GroupId", "group_id"); ("User", "user"); ("Group", "group"); ("Price", "price");
                    ("MadeAt", "made_at"); ("EMail", "e_mail"); ("2nd", "2_nd")] s with
  | Some x => x | None => s end.
Definition gorm_user : schema := mkSchema "" "" ""
  [mkTable "group" [mkCol "id" "int64" "" 0 0 true true false true "" "" [] None;
                    mkCol "name" "varchar" "" 40 0 true false true false "" "" [] None] "" "" "UserGroup" [];
   mkTable "user" [mkCol "id" "int64" "" 0 0 true true false true "" "" [] None;
                   mkCol "name" "varchar" "" 40 0 true false true false "" "" [] None;
                   mkCol "eMail" "varchar" "" 80 0 true false true false "" "" [] None;
                   mkCol "2nd" "boolean" "" 0 0 true false false false "" "" [] None;
                   mkCol "made_at" "datetime" "" 0 0 true false false false "" "" [] None;
                   mkCol "group_id" "int64" "" 0 0 false false false false "" "" [] (Some (mkRef "group" "id" "n:1"))]
     "" "" "" [mkIdx "by_name" ["group_id"; "name"]; mkIdx "by_day" ["made_at"]]].
Definition user_opt (embed : string) : gorm_opt := mkGormOpt embed None "model" false (mkPM "" [] false) [] "_uq".
Lemma gorm_user_ok : forall e, go_names_ok doc_camel (get_prefix (go_prefix (user_opt e))) (go_remove (user_opt e)) (go_suffix (user_opt e))
  (s_tables gorm_user) (filter (passes (go_filter (user_opt e))) (s_tables gorm_user)).
Proof.
  intros e. apply names_check.
  - left. vm_compute. reflexivity.
  - intros t I. now apply filter_In in I as [I _].
  - vm_compute. reflexivity.
Qed.

Definition gorm_price : schema := mkSchema "" "" ""
  [mkTable "item" [mkCol "id" "int64" "" 0 0 true true false true "" "" [] None;
                   mkCol "price" "decimal" "" 10 2 false false false false "" "" [] None] "" "" "Item" []].
Lemma unused_import : exists camel snake om on o s f,
  (forall k, iteration_order (om k)) /\ (forall k, iteration_order (on k)) /\ one_line (go_package o) /\
  go_names_ok camel (get_prefix (go_prefix o)) (go_remove o) (go_suffix o) (s_tables s) (filter (passes (go_filter o)) (s_tables s)) /\
  read_go (fst (gorm_generate camel snake om on default_models o s)) = Some f /\ ~ imports_used f.
Proof.
  exists doc_camel, doc_snake, (fun _ l => l), (fun _ l => l), (user_opt ""), gorm_price.
  eexists. split; [intros; apply id_order|]. split; [intros; apply id_order|]. split; [apply contains_char_false; reflexivity|].
  split; [apply names_check; [left; vm_compute; reflexivity|intros t I; now apply filter_In in I as [I _]|vm_compute; reflexivity]|].
  split; [vm_compute; reflexivity|]. intros H.
  destruct (H "gopkg.in/guregu/null.v4") as [q [Q [ty [r [[d [D T]] E]]]]]; [vm_compute; tauto|].
  cbn in Q. destruct Q as [Q|[Q|[Q|[Q|[]]]]]; try discriminate Q. injection Q as <-.
  cbn in D. destruct D as [<-|[]]. cbn in T. destruct T as [[]|[n [tags T]]].
  destruct T as [T|[T|[]]]; injection T as <- <- <-; discriminate.
Qed.
