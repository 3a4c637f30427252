(** Which types of MySQL and of change logs hold the values of a column *)
From Coq Require Import String Ascii List NArith ZArith Bool Lia.
From Verif.Model Require Import GoString Octopus Mysql Liquibase.
From Verif.Spec Require Import Text OctopusSpec MysqlGrammar MysqlSpec ServerSpec ValuesSpec.
From Verif.Proofs Require Import MysqlLex MysqlTypes MysqlFacts ValuesProofs.
Import ListNotations.
Local Open Scope string_scope.

(** ** MySQL *)
Lemma sql_type_known : forall c ft, sql_type c = Some ft -> In (c_type c) octopus_types.
Proof.
  intros [nm ty ds sz sc nn pk uq ai df ou vs rf] ft H. unfold sql_type in H. cbn [c_type] in *.
  assert (X : str_in ty octopus_types = true); [|apply str_in_true; exact X].
  repeat (match type of H with
          | context [match ?s with EmptyString => _ | String _ _ => _ end] => is_var s; destruct s
          | context [match ?a with Ascii _ _ _ _ _ _ _ _ => _ end] => is_var a; destruct a
          | context [if ?b then _ else _] => is_var b; destruct b end; try discriminate H; try (vm_compute; reflexivity)).
Qed.

Lemma my_fits : forall c ft, sql_type c = Some ft -> (holds_all (type_values c) (my_holds ft) <-> my_room c).
Proof.
  intros c ft H. assert (HT := sql_type_known c ft H).
  each_type c HT; unfold sql_type in H; cbn [c_type c_size c_scale c_values] in H; unfold my_room, holds_all, type_values;
    cbn [c_type c_size c_scale c_values].
  all: try discriminate H.
  all: repeat match type of H with
       | context [N.eqb ?n 0] => destruct (N.eqb_spec n 0); cbn [andb negb] in H
       | context [N.leb ?n ?k] => destruct (N.leb n k)
       | context [match ?l with [] => _ | _ => _ end] => destruct l
       end; try discriminate H.
  all: injection H as <-; cbn [my_holds ft_tp ft_flen ft_dec ft_binary ft_elems ft_info].
  all: try rewrite !N2Z.id.
  all: try match goal with |- context [Z.ltb (Z.of_N ?n) 0] => replace (Z.ltb (Z.of_N n) 0) with false by (symmetry; apply Z.ltb_ge; lia) end.
  all: try match goal with |- context [Z.ltb (Z.of_N ?n) 0] => replace (Z.ltb (Z.of_N n) 0) with false by (symmetry; apply Z.ltb_ge; lia) end.
  all: cbn [Z.ltb Z.compare Z.to_N Z.eqb].
  all: try match goal with |- context [N.eqb ?n 0] => destruct (N.eqb_spec n 0); try lia end.
  all: try (split; [intros _; discriminate|]; intros _ v V; subst;
     solve [exact V | eapply texts_mono; [|exact V]; intros l [L|L]; [lia|exact L]
           | eapply floats_mono; [|exact V]; intros m e [S [B|B]]; split; auto using single_double; lia ]).
  - subst. split; [intros _ _; lia|intros _ v V; exact V].
  - split; [|intros R v V; eapply bytes_mono; [exact (R eq_refl)|exact V]].
    intros H _. exact (H (VBytes sz) (N.le_refl _)).
Qed.

Lemma my_only : forall c ft, sql_type c = Some ft -> (c_type c = "float" -> (c_size c = 0%N <-> c_scale c = 0%N)) ->
  holds_all (my_holds ft) (type_values c).
Proof.
  intros c ft H F. assert (HT := sql_type_known c ft H).
  each_type c HT; unfold sql_type in H; cbn [c_type c_size c_scale c_values] in H, F; unfold holds_all, type_values;
    cbn [c_type c_size c_scale c_values].
  all: try discriminate H.
  all: repeat match type of H with
       | context [N.eqb ?n 0] => destruct (N.eqb_spec n 0); cbn [andb negb] in H
       | context [N.leb ?n ?k] => destruct (N.leb n k)
       | context [match ?l with [] => _ | _ => _ end] => destruct l
       end; try discriminate H.
  all: injection H as <-; cbn [my_holds ft_tp ft_flen ft_dec ft_binary ft_elems ft_info].
  all: try rewrite !N2Z.id.
  all: try match goal with |- context [Z.ltb (Z.of_N ?n) 0] => replace (Z.ltb (Z.of_N n) 0) with false by (symmetry; apply Z.ltb_ge; lia) end.
  all: try match goal with |- context [Z.ltb (Z.of_N ?n) 0] => replace (Z.ltb (Z.of_N n) 0) with false by (symmetry; apply Z.ltb_ge; lia) end.
  all: cbn [Z.ltb Z.compare Z.to_N Z.eqb].
  all: try match goal with |- context [N.eqb ?n 0] => destruct (N.eqb_spec n 0); try lia end.
  all: intros v V; subst;
     try solve [exact V | eapply texts_mono; [|exact V]; intros l L; right; exact L
           | eapply floats_mono; [|exact V]; intros m e [S B]; split; [exact S|]; (left; reflexivity) || (right; exact B)
           | eapply bytes_mono; [|exact V]; lia
           | exfalso; specialize (F eq_refl); lia ].

Qed.

(** ** Change logs *)
Lemma formatted_reads : forall w c, lexes w [TWord w] ->
  read_type_text (format_column_type w c) = read_type w (num_args c).
Proof.
  intros w c H. unfold read_type_text. rewrite (lex_all _ _ (format_lexes w c H)).
  assert (R := read_format w c [] I). rewrite app_nil_r in R. rewrite R. destruct (read_type w (num_args c)); reflexivity.
Qed.

(** the type has the name [w] of MySQL *)
Lemma lq_same : forall blob w c ft, lexes w [TWord w] -> get_liquibase_type c = format_column_type w c ->
  (forall r, In (w ++ r) ["clob"; "boolean"; "blob"] -> False) ->
  read_type w (num_args c) = Some ft -> lq_means blob (get_liquibase_type c) ft.
Proof.
  intros blob w c ft L E N R. rewrite <- (formatted_reads w c L), <- E in R. unfold lq_means.
  assert (X : forall r, format_column_type w c = r -> ~ In r ["clob"; "boolean"; "blob"]).
  { intros r F I. apply (N (match format_column_type w c with x => substring (String.length w) (String.length x) x end)).
    assert (P : exists q, r = w ++ q).
    { rewrite <- F. unfold format_column_type. destruct (N.ltb 0 (c_size c)); [|exists ""; now rewrite StringLemmas.app_nil_r_s].
      destruct (N.ltb 0 (c_scale c)); eexists; reflexivity. }
    destruct P as [q P]. exfalso. apply (N q). rewrite <- P. exact I. }
  specialize (X _ (eq_sym E)). revert R X. generalize (get_liquibase_type c). intros t R X.
  repeat (match goal with
          | |- context [match ?s with EmptyString => _ | String _ _ => _ end] => is_var s; destruct s
          | |- context [match ?a with Ascii _ _ _ _ _ _ _ _ => _ end] => is_var a; destruct a
          | |- context [if ?b then _ else _] => is_var b; destruct b end; try exact R).
  all: exfalso; apply X; cbn [In]; tauto.
Qed.

(** types with the name of MySQL *)
Definition same_names : list (string * string) :=
  [("int8", "tinyint"); ("int16", "smallint"); ("int24", "mediumint"); ("int32", "int"); ("int64", "bigint");
   ("decimal", "decimal"); ("float", "float"); ("double", "double"); ("char", "char"); ("varchar", "varchar"); ("bit", "bit");
   ("date", "date"); ("time", "time"); ("datetime", "datetime"); ("year", "year"); ("json", "json")].
Lemma same_name : forall c w, In (c_type c, w) same_names -> sizes_ok c ->
  lexes w [TWord w] /\ get_liquibase_type c = format_column_type w c /\
  (forall r, In (w ++ r) ["clob"; "boolean"; "blob"] -> False) /\
  exists ft, read_type w (num_args c) = Some ft /\ sql_type c = Some ft.
Proof.
  intros c w I S. unfold sizes_ok in S. unfold same_names in I. cbn [In] in I.
  repeat match type of I with _ \/ _ => destruct I as [I|I] end; [..|destruct I]; injection I as T <-; symmetry in T; rewrite T in S.
  all: split; [fixed_word|]; split; [unfold get_liquibase_type, format_column_type; rewrite T; reflexivity|].
  all: split; [intros r J; cbn [In append] in J; repeat (destruct J as [J|J]; [discriminate J|]); exact J|].
  all: unfold num_args, sql_type; rewrite T; destruct (N.eqb_spec (c_size c) 0) as [Z|Z]; destruct (N.eqb_spec (c_scale c) 0) as [Y|Y].
  all: try (exfalso; intuition lia).
  all: try (eexists; split; [reflexivity|reflexivity]).
  all: try (eexists; split; [reflexivity|rewrite ?Z, ?Y; reflexivity]).
Qed.

Lemma lq_fits : forall blob c, In blob ["blob"; "longblob"] -> In (c_type c) octopus_types -> ~ In (c_type c) lq_unnamed -> sizes_ok c ->
  exists ft, lq_means blob (get_liquibase_type c) ft /\
    (holds_all (type_values c) (my_holds ft) <-> lq_room blob c) /\
    (~ In (c_type c) merged -> holds_all (my_holds ft) (type_values c)).
Proof.
  intros blob c HB HT HU HS.
  assert (SAME : forall ty w, c_type c = ty -> In (ty, w) same_names -> str_in ty ["binary"; "blob24"; "blob32"] = false ->
    exists ft, lq_means blob (get_liquibase_type c) ft /\
      (holds_all (type_values c) (my_holds ft) <-> lq_room blob c) /\
      (~ In (c_type c) merged -> holds_all (my_holds ft) (type_values c))).
  { intros ty w T I K. rewrite <- T in I. destruct (same_name c w I HS) as [L [E [N [ft [R S]]]]].
    exists ft. split; [exact (lq_same blob w c ft L E N R)|].
    assert (M : my_room c) by (intro B; rewrite T in B; rewrite B in K; discriminate K).
    assert (Q : lq_room blob c).
    { intros _ J. rewrite T in J. rewrite (proj2 (str_in_true ty ["binary"; "blob24"; "blob32"])) in K; [discriminate K|right; exact J]. }
    split; [split; [intros _; exact Q|intros _; apply my_fits; assumption]|].
    intros _. apply my_only; [exact S|]. unfold sizes_ok in HS. intro F. rewrite F in HS. exact HS. }
  assert (BIN : forall w tp, c_type c = w -> In (w, tp) [("binary", TpString); ("varbinary", TpVarchar)] ->
    exists ft, lq_means blob (get_liquibase_type c) ft /\
      (holds_all (type_values c) (my_holds ft) <-> lq_room blob c) /\
      (~ In (c_type c) merged -> holds_all (my_holds ft) (type_values c))).
  { intros w tp T I.
    exists (mkFT tp (if N.eqb (c_size c) 0 then (-1) else Z.of_N (c_size c)) (-1) true [] w w).
    assert (S : c_scale c = 0%N /\ (w = "varbinary" -> c_size c <> 0%N)).
    { unfold sizes_ok in HS. rewrite T in HS. cbn [In] in I. destruct I as [I|[I|[]]]; injection I as <- <-; [split; [exact HS|discriminate]|].
      destruct HS as [A B]. split; [exact A|intros _; exact B]. }
    destruct S as [S S']. split; [|split].
    - apply (lq_same blob w c); [|unfold get_liquibase_type, format_column_type; rewrite T| |unfold num_args; rewrite S].
      all: cbn [In] in I; destruct I as [I|[I|[]]]; injection I as <- <-.
      all: try fixed_word. all: try reflexivity.
      all: try (intros r J; cbn [In append] in J; repeat (destruct J as [J|J]; [discriminate J|]); exact J).
      + destruct (N.eqb (c_size c) 0); reflexivity.
      + destruct (N.eqb_spec (c_size c) 0) as [Z|Z]; [destruct (S' eq_refl Z)|reflexivity].
    - split; [intros _ _ J; rewrite T in J; cbn [In] in I, J; destruct I as [I|[I|[]]]; injection I as <- <-; repeat (destruct J as [J|J]; [discriminate J|]); exact J|].
      intros _ v V. unfold type_values in V. rewrite T in V. unfold my_holds. cbn [ft_tp ft_flen ft_dec ft_binary].
      cbn [In] in I; destruct I as [I|[I|[]]]; injection I as <- <-.
      + destruct (N.eqb (c_size c) 0); [exact V|]. replace (Z.ltb (Z.of_N (c_size c)) 0) with false by (symmetry; apply Z.ltb_ge; lia). rewrite N2Z.id. exact V.
      + destruct (N.eqb_spec (c_size c) 0) as [Z|Z]; [destruct (S' eq_refl Z)|]. rewrite N2Z.id. exact V.
    - intros _ v V. unfold type_values. rewrite T. unfold my_holds in V. cbn [ft_tp ft_flen ft_dec ft_binary] in V.
      cbn [In] in I; destruct I as [I|[I|[]]]; injection I as <- <-.
      + destruct (N.eqb (c_size c) 0); [exact V|]. replace (Z.ltb (Z.of_N (c_size c)) 0) with false in V by (symmetry; apply Z.ltb_ge; lia). rewrite N2Z.id in V. exact V.
      + destruct (N.eqb_spec (c_size c) 0) as [Z|Z]; [destruct (S' eq_refl Z)|]. rewrite N2Z.id in V. exact V. }
  assert (LONG : forall k, In (c_type c, k) [("text8", 8%N); ("text16", 16%N); ("text24", 24%N); ("text32", 32%N)] ->
    exists ft, lq_means blob (get_liquibase_type c) ft /\
      (holds_all (type_values c) (my_holds ft) <-> lq_room blob c) /\
      (~ In (c_type c) merged -> holds_all (my_holds ft) (type_values c))).
  { intros k I. exists (mkFT TpLongBlob (-1) (-1) false [] "longtext" "longtext").
    assert (Z : c_size c = 0%N) by (unfold sizes_ok in HS; cbn [In] in I; repeat (destruct I as [I|I]; [injection I as T _; rewrite <- T in HS; tauto|]); destruct I).
    split; [|split; [split|]].
    - unfold lq_means, get_liquibase_type. rewrite Z. cbn [In] in I.
      repeat (destruct I as [I|I]; [injection I as T _; rewrite <- T; vm_compute; reflexivity|]); destruct I.
    - intros _ _ J. cbn [In] in I. repeat (destruct I as [I|I]; [injection I as T _; rewrite <- T in J; cbn [In] in J; repeat (destruct J as [J|J]; [discriminate J|]); exact J|]); destruct I.
    - intros _ v V. unfold type_values in V. change (my_holds _) with (texts (at_most (top 32))).
      cbn [In] in I. repeat (destruct I as [I|I]; [injection I as T _; rewrite <- T in V; eapply texts_mono; [|exact V]; intros l L; eapply N.le_trans; [exact L|vm_compute; discriminate]|]); destruct I.
    - intros N v V. unfold type_values. cbn [In] in I.
      repeat (destruct I as [I|I]; [injection I as T _; first [exfalso; apply N; rewrite <- T; cbn [merged In]; tauto|rewrite <- T; exact V]|]); destruct I. }
  assert (BLOB : forall k, In (c_type c, k) [("blob8", 8%N); ("blob16", 16%N); ("blob24", 24%N); ("blob32", 32%N)] ->
    exists ft, lq_means blob (get_liquibase_type c) ft /\
      (holds_all (type_values c) (my_holds ft) <-> lq_room blob c) /\
      (~ In (c_type c) merged -> holds_all (my_holds ft) (type_values c))).
  { intros k I.
    assert (Z : c_size c = 0%N) by (unfold sizes_ok in HS; cbn [In] in I; repeat (destruct I as [I|I]; [injection I as T _; rewrite <- T in HS; tauto|]); destruct I).
    assert (G : get_liquibase_type c = "blob").
    { unfold get_liquibase_type. rewrite Z. cbn [In] in I. repeat (destruct I as [I|I]; [injection I as T _; rewrite <- T; reflexivity|]); destruct I. }
    assert (V : type_values c = bytes (top k)).
    { unfold type_values. cbn [In] in I. repeat (destruct I as [I|I]; [injection I as T <-; rewrite <- T; reflexivity|]); destruct I. }
    assert (M : In (c_type c) merged).
    { cbn [In] in I. repeat (destruct I as [I|I]; [injection I as T <-; rewrite <- T; cbn [merged In]; tauto|]); destruct I. }
    rewrite G, V. cbn [In] in HB. destruct HB as [<-|[<-|[]]].
    - exists (mkFT TpBlob (-1) (-1) false [] "blob" "blob"). split; [vm_compute; reflexivity|]. split; [|intro N; destruct (N M)].
      change (my_holds _) with (bytes (top 16)). unfold lq_room. split.
      + intros H _ J. specialize (H (VBytes (top k)) (N.le_refl _)). cbn [bytes] in H. cbn [In] in I.
        repeat (destruct I as [I|I]; [injection I as T <-; rewrite <- T in J; first [vm_compute in H; destruct H; reflexivity|cbn [In] in J; repeat (destruct J as [J|J]; [discriminate J|]); exact J]|]); destruct I.
      + intros R v W. specialize (R eq_refl). eapply bytes_mono; [|exact W]. cbn [In] in I.
        repeat (destruct I as [I|I]; [injection I as T <-; first [vm_compute; discriminate|exfalso; apply R; rewrite <- T; cbn [In]; tauto]|]); destruct I.
    - exists (mkFT TpLongBlob (-1) (-1) false [] "longblob" "longblob"). split; [vm_compute; reflexivity|]. split; [|intro N; destruct (N M)].
      change (my_holds _) with (bytes (top 32)). unfold lq_room. split; [intros _; discriminate|].
      intros _ v W. eapply bytes_mono; [|exact W]. cbn [In] in I.
      repeat (destruct I as [I|I]; [injection I as T <-; vm_compute; discriminate|]); destruct I. }
  assert (BOOL : c_type c = "boolean" ->
    exists ft, lq_means blob (get_liquibase_type c) ft /\
      (holds_all (type_values c) (my_holds ft) <-> lq_room blob c) /\
      (~ In (c_type c) merged -> holds_all (my_holds ft) (type_values c))).
  { intro T. exists (mkFT TpBit 1 (-1) false [] "bit" "bit"). unfold lq_means, get_liquibase_type, lq_room, type_values. unfold sizes_ok in HS. rewrite T in *.
    destruct HS as [Z _]. rewrite Z. split; [vm_compute; reflexivity|]. split; [|intros _ v V; exact V].
    split; [intros _ _ J; cbn [In] in J; repeat (destruct J as [J|J]; [discriminate J|]); exact J|intros _ v V; exact V]. }
  let L := eval vm_compute in octopus_types in change octopus_types with L in HT.
  cbn [In] in HT.
  repeat match type of HT with _ \/ _ => destruct HT as [HT|HT] end; [symmetry in HT..|destruct HT].
  all: try (exfalso; apply HU; rewrite HT; cbn [lq_unnamed In]; tauto).
  all: try exact (BOOL HT).
  all: try solve [eapply SAME; [exact HT|unfold same_names; cbn [In]; repeat (first [left; reflexivity|right])|reflexivity]].
  all: try solve [eapply BIN; [exact HT|cbn [In]; repeat (first [left; reflexivity|right])]].
  all: try solve [eapply LONG; rewrite HT; cbn [In]; repeat (first [left; reflexivity|right])].
  all: try solve [eapply BLOB; rewrite HT; cbn [In]; repeat (first [left; reflexivity|right])].
Qed.
