(** A description that every trip through MySQL DDL halves *)
From Coq Require Import String Ascii List NArith ZArith Bool Lia PeanoNat.
From Verif.Model Require Import GoString Octopus Common Mysql.
From Verif.Spec Require Import Text OctopusSpec MysqlGrammar MysqlSpec TripEndSpec.
From Verif.Proofs Require Import StringLemmas MysqlWitnesses.
Import ListNotations.
Local Open Scope string_scope.

Fixpoint slashes (n : nat) : string := match n with O => "" | S m => String backslash (slashes m) end.
Definition sl_table (d : string) := mkTable "t" [mkCol "n" "int32" d 0 0 false false false false "" "" [] None] "" "" "" [].
Definition sl_schema (d : string) := mkSchema "" "" "" [sl_table d].

Lemma slashes_halved n a r : lex (LText a) (slashes (n + n) ++ r) = lex (LText (a ++ slashes n)) r.
Proof.
  revert a. induction n as [|n IH]; intros a; [cbn; now rewrite app_nil_r_s|].
  replace (S n + S n)%nat with (S (S (n + n))) by lia.
  change (lex (LText a) (slashes (S (S (n + n))) ++ r)) with (lex (LText (a ++ String backslash "")) (slashes (n + n) ++ r)).
  rewrite IH, app_assoc_s. reflexivity.
Qed.
Lemma slashes_length n : String.length (slashes n) = n.
Proof. induction n as [|n IH]; [reflexivity|]. cbn. now rewrite IH. Qed.

Definition sl_before := "CREATE TABLE IF NOT EXISTS t (
  n int COMMENT '".
Definition sl_after := "'
);
".
Lemma sl_export d : d <> "" -> my_export None "_uq" (sl_schema d) = sl_before ++ d ++ sl_after.
Proof.
  destruct d as [|c d]; [congruence|]. intros _. cbv -[append]. cbn [append].
  repeat rewrite app_assoc_s. reflexivity.
Qed.

Lemma sl_lex n : lex_sql (sl_before ++ slashes (n + n) ++ sl_after) =
  Some [TWord "CREATE"; TWord "TABLE"; TWord "IF"; TWord "NOT"; TWord "EXISTS"; TWord "t"; TSym "("; TWord "n"; TWord "int"; TWord "COMMENT";
        TText (slashes n); TSym ")"; TSym ";"].
Proof.
  change (lex_sql (sl_before ++ slashes (n + n) ++ sl_after)) with
    (emit_tok (TWord "CREATE") (emit_tok (TWord "TABLE") (emit_tok (TWord "IF") (emit_tok (TWord "NOT") (emit_tok (TWord "EXISTS")
      (emit_tok (TWord "t") (emit_tok (TSym "(") (emit_tok (TWord "n") (emit_tok (TWord "int") (emit_tok (TWord "COMMENT")
        (lex (LText "") (slashes (n + n) ++ sl_after)))))))))))).
  rewrite slashes_halved. reflexivity.
Qed.

Lemma sl_trip n : (0 < n)%nat -> one_trip mx_reserved "_uq" (sl_schema (slashes (n + n))) (sl_schema (slashes n)).
Proof.
  intros N. unfold one_trip. rewrite sl_export by (destruct n; [lia|discriminate]). unfold read_sql. rewrite sl_lex.
  destruct n as [|n]; [lia|]. eexists. split; reflexivity.
Qed.

Lemma sl_trips k : trips mx_reserved "_uq" k (sl_schema (slashes (2 ^ (k + 1)))) (sl_schema (slashes 2)).
Proof.
  induction k as [|k IH]; [constructor|]. apply (trips_more _ _ k _ (sl_schema (slashes (2 ^ (k + 1))))); [|exact IH].
  replace (2 ^ (S k + 1))%nat with (2 ^ (k + 1) + 2 ^ (k + 1))%nat by (cbn; lia).
  apply sl_trip. pose proof (Nat.pow_nonzero 2 (k + 1)). lia.
Qed.

Lemma sl_valid d : valid_schema (sl_schema d).
Proof. intros c [<-|[]]. unfold valid_column, sl_table. cbn. intuition (discriminate || auto 20). Qed.

Lemma no_trip_is_last k : exists s s' s'', valid_schema s /\ trips mx_reserved "_uq" k s s' /\ one_trip mx_reserved "_uq" s' s'' /\ s'' <> s'.
Proof.
  exists (sl_schema (slashes (2 ^ (k + 1)))), (sl_schema (slashes 2)), (sl_schema (slashes 1)).
  split; [apply sl_valid|]. split; [apply sl_trips|]. split; [apply (sl_trip 1); lia|discriminate].
Qed.

Lemma two_trips_case :
  valid_schema (sl_schema (slashes 4)) /\ one_trip mx_reserved "_uq" (sl_schema (slashes 4)) (sl_schema (slashes 2)) /\
  one_trip mx_reserved "_uq" (sl_schema (slashes 2)) (sl_schema (slashes 1)).
Proof. split; [apply sl_valid|]. split; [apply (sl_trip 2)|apply (sl_trip 1)]; lia. Qed.
