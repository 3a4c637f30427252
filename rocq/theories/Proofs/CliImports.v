(** The files written by the import commands can be loaded *)
From Coq Require Import String Ascii List NArith ZArith Bool Sorting.Permutation.
From Verif.Model Require Import GoString Util Octopus Common Json JsonText Ojson OjsonText Staruml StarumlText Mysql Xlsx Liquibase Cli.
From Verif.Proofs Require MysqlTables.
From Verif.Proofs Require Import StringLemmas OctopusProofs CliLoad.
From Verif.Spec Require Import Text OctopusSpec CommonSpec JsonSpec OjsonSpec CliSpec.
Import ListNotations.
Local Open Scope string_scope.

Definition small (c : column) : Prop := (c_size c < 65536)%N /\ (c_scale c < 65536)%N.
Lemma fits_small : forall s, (forall t, In t (s_tables s) -> Forall small (t_cols t)) -> fits_u16 s.
Proof.
  intros s H c C. unfold columns_of in C. apply in_flat_map in C as (t & T & C). specialize (H t T).
  rewrite Forall_forall in H. exact (H c C).
Qed.
Lemma u16_small : forall n, (u16 n < 65536)%N.
Proof. intros n. unfold u16. now apply N.mod_lt. Qed.
Lemma parse_type_small : forall s ty a b, parse_type s = (ty, a, b) -> (a < 65536)%N /\ (b < 65536)%N.
Proof.
  intros s ty a b. unfold parse_type. destruct (match_type s) as [[[n x] y]|]; intros E; inversion E; subst.
  - split; apply u16_small.
  - now split.
Qed.

(** ** MySQL *)

Lemma pos_u16_small : forall z, (pos_u16 z < 65536)%N.
Proof. intros z. unfold pos_u16. destruct (Z.ltb 0 z); [apply u16_small|reflexivity]. Qed.
Lemma column_type_small : forall ft ty a b, import_column_type ft = (ty, a, b) -> (a < 65536)%N /\ (b < 65536)%N.
Proof.
  intros ft ty a b. unfold import_column_type.
  destruct (ft_tp ft); try (destruct (Z.eqb (ft_flen ft) 1)); intros E; inversion E; subst;
    split; first [apply pos_u16_small|reflexivity].
Qed.
Lemma option_sizes : forall o c, c_size (import_option c o) = c_size c /\ c_scale (import_option c o) = c_scale c.
Proof.
  intros o c. destruct o; try (now split); destruct e; now split.
Qed.
Lemma options_small : forall os c, small c -> small (fold_left import_option os c).
Proof.
  induction os as [|o os IH]; intros c H; [exact H|]. cbn [fold_left]. apply IH. unfold small.
  destruct (option_sizes o c) as [-> ->]. exact H.
Qed.
Lemma mysql_fits : forall ex a v stmts, fits_u16 (import_stmts ex a v stmts).
Proof.
  intros ex a v stmts. apply fits_small. intros t T. unfold import_stmts in T. cbn [s_tables] in T.
  apply in_flat_map in T as (st & _ & T). destruct st as [name cols ks|]; [|destruct T]. cbn [import_stmt] in T.
  destruct (ss_contains _ name); [destruct T|]. destruct (fold_left import_constraint ks _) as [[pk uq] ixs].
  destruct T as [<-|[]]. cbn [t_cols]. apply Forall_forall. intros c C. apply in_map_iff in C as (cd & <- & _).
  unfold import_column. destruct (import_column_type (cd_type cd)) as [[ty x] y] eqn:E. apply options_small.
  exact (column_type_small _ _ _ _ E).
Qed.

(** ** StarUML *)

Lemma st_column_small : forall m e c, st_column m e = Ok c -> small c.
Proof.
  intros m e c. unfold st_column. destruct (parse_type (e_type e)) as [[ty cs] sc] eqn:P.
  destruct (parse_type_small _ _ _ _ P) as [A B].
  set (z := Z.to_N (to_int (e_length e) mod 65536)).
  assert (Z : (z < 65536)%N).
  { unfold z. pose proof (Z.mod_pos_bound (to_int (e_length e)) 65536 eq_refl) as [L U].
    change 65536%N with (Z.to_N 65536). apply Z2N.inj_lt; [exact L|discriminate|exact U]. }
  assert (S : ((if N.eqb z 0 then cs else z) < 65536)%N) by (destruct (N.eqb z 0); assumption).
  intros E.
  repeat match type of E with context [match ?x with _ => _ end] => destruct x eqn:? end; inversion E; subst; split; assumption.
Qed.
Lemma res_map_in : forall A B (f : A -> res B) l r, res_map f l = Ok r -> forall b, In b r -> exists a, In a l /\ f a = Ok b.
Proof.
  intros A B f l. induction l as [|a l IH]; intros r E b I; cbn in E.
  - inversion E; subst. destruct I.
  - destruct (f a) as [x|] eqn:F; [|discriminate]. destruct (res_map f l) as [r'|]; [|discriminate]. inversion E; subst.
    destruct I as [<-|I]; [exists a; split; [now left|exact F]|]. destruct (IH r' eq_refl b I) as (a' & I' & F').
    exists a'. split; [now right|exact F'].
Qed.
Lemma staruml_fits : forall root s, import_staruml root = Ok (Some s) -> fits_u16 s.
Proof.
  intros root s. unfold import_staruml, st_schema. intros E.
  destruct (walk_element root []) as [m|]; [|discriminate].
  destruct (find_by_type "ERDDataModel" _) as [[|x l]|]; try discriminate.
  destruct (find_by_type "ERDEntity" _) as [es|]; [|discriminate].
  destruct (res_map (st_table m) es) as [ts|] eqn:R; [|discriminate]. inversion E; subst.
  apply fits_small. intros t T. cbn [s_tables] in T. destruct (res_map_in _ _ _ _ _ R t T) as (e & _ & H).
  unfold st_table in H. destruct (find_by_type "ERDColumn" _) as [cols|]; [|discriminate].
  destruct (res_map (st_column m) cols) as [cs|] eqn:RC; [|discriminate]. inversion H; subst. cbn [t_cols].
  apply Forall_forall. intros c C. destruct (res_map_in _ _ _ _ _ RC c C) as (e' & _ & H'). exact (st_column_small _ _ _ H').
Qed.

(** ** Excel *)

Lemma read_column_small : forall b r, small (read_column b r).
Proof.
  intros b r. unfold read_column. destruct (parse_type _) as [[ty x] y] eqn:P. exact (parse_type_small _ _ _ _ P).
Qed.
Definition small_table (t : table) : Prop := Forall small (t_cols t).
Lemma rows_small : forall g b rows i ts last r,
  read_rows g b i rows ts last = inl r -> Forall small_table ts ->
  match last with Some t => small_table t | None => True end -> Forall small_table r.
Proof.
  intros g b rows. induction rows as [|x rows IH]; intros i ts last r E A L.
  - cbn in E. inversion E; subst. apply Forall_app. split; [exact A|]. destruct last; [now constructor|constructor].
  - cbn [read_rows] in E. destruct (String.eqb (trim_space (get_cell_value x 2)) "table").
    + destruct (String.eqb _ ""); [discriminate|]. refine (IH _ _ _ _ E _ _).
      * apply Forall_app. split; [exact A|]. destruct last; [now constructor|constructor].
      * constructor.
    + destruct last as [t|]; [|exact (IH _ _ _ _ E A I)].
      destruct (String.eqb (trim_space (get_cell_value x 1)) ""); [exact (IH _ _ _ _ E A L)|].
      destruct (String.eqb (trim_space (get_cell_value x 3)) "I").
      * refine (IH _ _ _ _ E A _). unfold add_index_column. destruct (index_by_name _ _); exact L.
      * refine (IH _ _ _ _ E A _). unfold small_table, add_column. cbn [t_cols with_cols]. apply Forall_app. split; [exact L|].
        constructor; [apply read_column_small|constructor].
Qed.
Lemma sheets_small : forall wb gs acc r, read_sheets wb gs acc = inl r -> Forall small_table acc -> Forall small_table r.
Proof.
  intros wb gs. induction gs as [|g gs IH]; intros acc r E A; cbn [read_sheets] in E; [inversion E; now subst|].
  destruct (read_group_sheet g (group_sheet wb g)) as [ts|] eqn:G; [|discriminate].
  apply (IH _ _ E). apply Forall_app. split; [exact A|]. unfold read_group_sheet in G.
  destruct (group_sheet wb g) as [|h rows]; [inversion G; constructor|]. exact (rows_small _ _ _ _ _ _ _ G (Forall_nil _) I).
Qed.
Lemma xlsx_fits : forall ord wb s, import_xlsx ord wb = inl s -> fits_u16 s.
Proof.
  intros ord wb s. unfold import_xlsx. destruct (read_sheets wb (ord (group_names wb)) []) as [ts|] eqn:R; [|discriminate].
  intros E. inversion E; subst. apply fits_small. intros t T. cbn [s_tables] in T.
  pose proof (sheets_small _ _ _ _ R (Forall_nil _)) as F. rewrite Forall_forall in F. exact (F t T).
Qed.

(** ** Octopus v1 *)

Definition small_v1 (c : v1_column) : Prop := (o_size c < 65536)%N /\ (o_scale c < 65536)%N.
Definition small_v1_table (t : v1_table) : Prop := Forall small_v1 (o_cols t).
Lemma dec_u16_small : forall old j n, dec_u16 old j = Some n -> (old < 65536)%N -> (n < 65536)%N.
Proof.
  intros old j n E O. destruct j; try discriminate; cbn in E; [congruence|].
  destruct (digits_to_N lit) as [k|]; [|discriminate]. destruct (N.ltb_spec k 65536); [|discriminate]. now inversion E; subst.
Qed.
Lemma dec_members_all : forall A (P : A -> Prop) (f : A -> string -> json -> option A),
  (forall a k j a', P a -> f a k j = Some a' -> P a') ->
  forall l a a', P a -> dec_members f a l = Some a' -> P a'.
Proof.
  intros A P f H l. induction l as [|[k j] l IH]; intros a a' Pa E; cbn in E; [now inversion E; subst|].
  destruct (f a k j) as [b|] eqn:F; [|discriminate]. exact (IH b a' (H _ _ _ _ Pa F) E).
Qed.
Lemma dec_list_all : forall A (P : A -> Prop) (f : json -> option A), (forall j a, f j = Some a -> P a) ->
  forall l r, dec_list f l = Some r -> Forall P r.
Proof.
  intros A P f H l. induction l as [|j l IH]; intros r E; cbn in E; [inversion E; constructor|].
  destruct (f j) as [a|] eqn:F; [|discriminate]. destruct (dec_list f l) as [r'|]; [|discriminate]. inversion E; subst.
  constructor; [exact (H j a F)|now apply IH].
Qed.
Lemma dec_arr_all : forall A (P : A -> Prop) (f : json -> option A), (forall j a, f j = Some a -> P a) ->
  forall j r, dec_arr f j = Some r -> Forall P r.
Proof. intros A P f H j r E. destruct j; try discriminate; [inversion E; constructor|]. exact (dec_list_all A P f H l r E). Qed.

Lemma v1_member_small : forall c k j c', small_v1 c -> v1_col_member c k j = Some c' -> small_v1 c'.
Proof.
  intros [n t d sz sc nn pk uq ai df rf] k j c' [A B]. cbn [o_size o_scale] in A, B. unfold v1_col_member.
  repeat match goal with |- context [if key_is ?a k then _ else _] => destruct (key_is a k) end; intros E;
    try (match type of E with option_map _ ?x = _ => destruct x eqn:? end; [|discriminate]);
    injection E as <-; split; cbn [o_size o_scale]; try assumption; eapply dec_u16_small; eassumption.
Qed.
Lemma v1_column_small : forall j c, v1_dec_column j = Some c -> small_v1 c.
Proof.
  intros j c E. unfold v1_dec_column, dec_obj in E. destruct j; try discriminate.
  apply (dec_members_all _ small_v1 _ v1_member_small l _ c) in E; [exact E|]. now split.
Qed.
Lemma v1_table_small : forall j t, v1_dec_table j = Some t -> small_v1_table t.
Proof.
  intros j c E. unfold v1_dec_table, dec_obj in E. destruct j; try discriminate.
  refine (dec_members_all _ small_v1_table _ _ l _ c _ E); [|constructor].
  intros [n cs d g cl] k j t' H. unfold v1_tbl_member.
  repeat match goal with |- context [if key_is ?a k then _ else _] => destruct (key_is a k) end; intros X;
    try (match type of X with option_map _ ?x = _ => destruct x eqn:? end; [|discriminate]);
    injection X as <-; try exact H.
  eapply dec_arr_all; [exact v1_column_small|eassumption].
Qed.
Lemma v1_schema_small : forall j s, v1_from_json j = Some s -> Forall small_v1_table (o_tables s).
Proof.
  intros j s. unfold v1_from_json, dec_obj. destruct j; try discriminate; intros E; [injection E as <-; constructor|].
  refine (dec_members_all _ (fun s => Forall small_v1_table (o_tables s)) _ _ l _ s _ E); [|constructor].
  intros [a n v ts] k j t' H. unfold v1_sch_member.
  repeat match goal with |- context [if key_is ?a k then _ else _] => destruct (key_is a k) end; intros X;
    try (match type of X with option_map _ ?x = _ => destruct x eqn:? end; [|discriminate]);
    injection X as <-; try exact H.
  eapply dec_arr_all; [exact v1_table_small|eassumption].
Qed.
Lemma v1_normalized_small : forall c c', v1_normalize_col c = Ok c' -> small_v1 c -> small_v1 c'.
Proof.
  intros c c' E H. unfold v1_normalize_col in E. destruct (v1_normalize_type (o_type c)) as [t [|]]; [|inversion E; now subst].
  unfold v1_validate in E. destruct (String.eqb (o_name c) ""); [discriminate|]. inversion E; subst. exact H.
Qed.
Lemma v1_fits : forall sortf j s1 s, (forall l, Permutation (sortf l) l) -> v1_from_json j = Some s1 ->
  import_v1 sortf s1 = Ok s -> fits_u16 s.
Proof.
  intros sortf text s1 s Hs T E. apply v1_schema_small in T. unfold import_v1 in E.
  destruct (res_map _ (sortf (o_tables s1))) as [ts|] eqn:R; [|discriminate]. inversion E; subst.
  apply fits_small. intros t I. cbn [s_tables] in I. apply in_map_iff in I as (t1 & <- & I).
  destruct (res_map_in _ _ _ _ _ R t1 I) as (t0 & I0 & F0).
  destruct (res_map v1_normalize_col (o_cols t0)) as [cs|] eqn:RC; [|discriminate]. inversion F0; subst.
  apply (Permutation_in _ (Hs _)) in I0. rewrite Forall_forall in T. specialize (T t0 I0).
  unfold from_v1_table. cbn [t_cols o_cols v1_with_cols]. apply Forall_forall. intros c C.
  apply in_map_iff in C as (c1 & <- & C). destruct (res_map_in _ _ _ _ _ RC c1 C) as (c0 & C0 & N).
  unfold small_v1_table in T. rewrite Forall_forall in T. exact (v1_normalized_small _ _ N (T c0 C0)).
Qed.

(** ** The commands *)

Lemma import_saves : forall w fs c v ws, (forall l, Permutation (w_sort_v1 w l) l) ->
  import_command c -> run w fs c v = (ws, Done) ->
  exists s text, fits_u16 s /\ to_text (w_sort w) s = Some text /\ ws = [(given v "output", text)].
Proof.
  intros w fs c v ws Hv I R.
  assert (SAVE : forall s, fits_u16 s -> save_schema w (given v "output") s = (ws, Done) ->
    exists s text, fits_u16 s /\ to_text (w_sort w) s = Some text /\ ws = [(given v "output", text)]).
  { intros s F S. unfold save_schema, failed in S. destruct (to_text (w_sort w) s) as [text|] eqn:T; [|congruence].
    exists s, text. split; [exact F|]. split; [exact T|congruence]. }
  unfold run in R. destruct (required_given c v); [|discriminate]. unfold import_command in I.
  repeat (destruct I as [<-|I]; [unfold action in R|]); [| | | | |destruct I].
  - apply (SAVE init_schema); [|exact R]. apply fits_small. intros t T. cbn in T.
    repeat (destruct T as [<-|T]; [repeat constructor|]). destruct T.
  - unfold import_mysql in R. destruct (fs _) as [x|]; [|discriminate]. destruct (w_sql w x) as [st|]; [|discriminate].
    unfold with_res in R. destruct (import_sql _ _ _ st) as [s|] eqn:E; [|discriminate].
    apply MysqlTables.import_sql_ok in E. subst s. exact (SAVE _ (mysql_fits _ _ _ _) R).
  - unfold import_ojson, with_res in R. destruct (fs _) as [x|]; [|discriminate].
    destruct (read_text x) as [j|]; [|discriminate]. destruct (v1_from_json (without_nulls j)) as [s1|] eqn:V; [|discriminate].
    destruct (has_null_table j || has_null_column j); [discriminate|]. destruct (import_v1 (w_sort_v1 w) s1) as [s|] eqn:E; [|discriminate].
    exact (SAVE s (v1_fits _ _ _ _ Hv V E) R).
  - unfold import_staruml_file, with_res in R. destruct (fs _) as [x|]; [|discriminate].
    destruct (st_from_text _ x) as [root|]; [|discriminate]. destruct (import_staruml root) as [[s|]|] eqn:E; try discriminate.
    exact (SAVE s (staruml_fits _ _ E) R).
  - unfold import_xlsx_file in R. destruct (fs _) as [x|]; [|discriminate].
    destruct (w_open_xlsx w x) as [wb|]; [|discriminate]. destruct (import_xlsx (w_ord_keys w) wb) as [s|] eqn:E; [|discriminate].
    exact (SAVE s (xlsx_fits _ _ _ E) R).
Qed.

Lemma import_loads : forall w fs fs' c v path text, sorts_tables (w_sort w) -> (forall l, Permutation (w_sort_v1 w l) l) ->
  import_command c -> run w fs c v = ([(path, text)], Done) -> octopus_name path -> fs' path = Some text ->
  exists s, load_file w fs' path = Loaded s /\ valid_schema s.
Proof.
  intros w fs fs' c v path text Hs Hv I R O F. destruct (import_saves _ _ _ _ _ Hv I R) as (s & text' & Fit & T & E).
  injection E as Ep Et. subst text'. destruct (saved_loads_any _ _ _ _ _ Hs Fit O T F) as (s1 & s2 & s3 & _ & _ & L & _ & _ & _ & _ & V).
  exists s3. auto.
Qed.

