(** RemoveValue of a multimap, exactly *)
From Coq Require Import String List Bool Lia Arith.
From Verif.Model Require Import GoString Util.
From Verif.Spec Require Import UtilSpec UtilRun MultimapSpec.
From Verif.Proofs Require Import UtilProofs.
Import ListNotations.

Section Exact.
  Context {K V : Type} (keqb : K -> K -> bool) (veqb : V -> V -> bool).
  Hypothesis keqb_spec : forall a b, keqb a b = true <-> a = b.
  Hypothesis veqb_spec : forall a b, veqb a b = true <-> a = b.

  Lemma skipn_pre : forall (p l : list V) n, skipn (length p + n) (p ++ l) = skipn n l.
  Proof. induction p as [|x p IH]; intros l n; [reflexivity|]. apply IH. Qed.
  Lemma firstn_pre : forall (p l : list V), firstn (length p) (p ++ l) = p.
  Proof. intros. now rewrite firstn_app, firstn_all, Nat.sub_diag, app_nil_r. Qed.
  Lemma nth_pre : forall (p l : list V), nth_error (p ++ l) (length p) = nth_error l 0.
  Proof. intros. now rewrite nth_error_app2, Nat.sub_diag by lia. Qed.
  Lemma repeat_snoc : forall (z : V) n, repeat z n ++ [z] = repeat z (S n).
  Proof. induction n as [|n IH]; [reflexivity|]. cbn [repeat app]. now rewrite IH. Qed.
  Lemma shift_pre : forall p (x : V) l z, shift_left_at (length p) (p ++ x :: l ++ [z]) = p ++ l ++ [z] ++ [z].
  Proof.
    intros p x l z. unfold shift_left_at. rewrite firstn_pre. f_equal.
    replace (S (length p)) with (length p + 1) by lia. rewrite skipn_pre. cbn [skipn].
    rewrite !app_length. cbn [length]. rewrite app_length. cbn [length].
    replace (length p + S (length l + 1) - 1) with (length p + (1 + length l)) by lia. rewrite skipn_pre. cbn [skipn plus].
    now rewrite skipn_app, skipn_all, Nat.sub_diag, <- app_assoc.
  Qed.
  Lemma shift_last : forall p (z : V), shift_left_at (length p) (p ++ [z]) = p ++ [z].
  Proof.
    intros p z. unfold shift_left_at. rewrite firstn_pre. f_equal.
    replace (S (length p)) with (length p + 1) by lia. rewrite skipn_pre. cbn [skipn app].
    rewrite app_length. cbn [length]. replace (length p + 1 - 1) with (length p + 0) by lia. now rewrite skipn_pre.
  Qed.

  (** the end of the array is filled with its last element; nothing changes there any more *)
  Lemma tail_loop : forall v z r p n, exists n', rv_loop veqb v (length p) r (p ++ repeat z r) n = (p ++ repeat z r, n') /\
    (n' = n \/ n' = length p + r - 1).
  Proof.
    intros v z. induction r as [|r IH]; intros p n; [exists n; split; [reflexivity|now left]|].
    cbn [rv_loop]. rewrite nth_pre. cbn [nth_error repeat].
    assert (S1 : shift_left_at (length p) (p ++ z :: repeat z r) = p ++ z :: repeat z r).
    { destruct r as [|r]; [apply shift_last|]. rewrite <- repeat_snoc. rewrite shift_pre.
      f_equal. rewrite app_assoc, !repeat_snoc. reflexivity. }
    assert (L : length (p ++ [z]) = S (length p)) by (rewrite app_length; cbn; lia).
    destruct (veqb z v).
    - rewrite S1. specialize (IH (p ++ [z]) (length (p ++ z :: repeat z r) - 1)). rewrite L, <- app_assoc in IH. cbn [app] in IH.
      destruct IH as (n' & E & [A|A]); exists n'; (split; [exact E|right]).
      + rewrite A, app_length. cbn [length]. rewrite repeat_length. lia.
      + rewrite A. lia.
    - specialize (IH (p ++ [z]) n). rewrite L, <- app_assoc in IH. cbn [app] in IH.
      destruct IH as (n' & E & [A|A]); exists n'; (split; [exact E|]); [now left|right; rewrite A; lia].
  Qed.

  Lemma rv_loop_exact : forall v z rest thin, thinned v rest thin -> (forall d, rest <> [] -> last rest d = z) ->
    forall p r n, exists arr n', rv_loop veqb v (length p) (length rest + r) (p ++ rest ++ repeat z r) n = (arr, n') /\
      (exists q, arr = p ++ thin ++ repeat z q) /\ length arr = length p + length rest + r /\
      (In v rest -> n' = length p + length rest + r - 1) /\ (n' = n \/ n' = length p + length rest + r - 1).
  Proof.
    intros v z rest thin T. induction T as [|x l l' NE T IH| |y l l' T IH]; intros Z p r n.
    - destruct (tail_loop v z r p n) as (n' & E & A). exists (p ++ repeat z r), n'. cbn [length plus app]. split; [exact E|].
      split; [exists r; reflexivity|]. split; [rewrite app_length, repeat_length; lia|]. split; [intros []|].
      destruct A as [A|A]; [now left|right; lia].
    - assert (Z' : forall d, l <> [] -> last l d = z).
      { intros d Hl. rewrite <- (Z d) by discriminate. destruct l; [congruence|reflexivity]. }
      cbn [length plus rv_loop app]. rewrite nth_pre. cbn [nth_error].
      destruct (veqb x v) eqn:E; [apply veqb_spec in E; contradiction|].
      assert (L : length (p ++ [x]) = S (length p)) by (rewrite app_length; cbn; lia).
      destruct (IH Z' (p ++ [x]) r n) as (arr & n' & R & (q & A1) & A2 & A3 & A4). rewrite L, <- app_assoc in R. cbn [app] in R.
      exists arr, n'. split; [exact R|]. split; [exists q; rewrite A1, <- app_assoc; reflexivity|]. rewrite L in *.
      split; [lia|]. split; [intros [I|I]; [congruence|rewrite (A3 I); lia]|]. destruct A4 as [A4|A4]; [now left|right; lia].
    - assert (Ez : v = z) by exact (Z v ltac:(discriminate)). subst z.
      cbn [length plus app]. change (v :: repeat v r) with (repeat v (S r)). change (S r) with (1 + r) at 1.
      destruct (tail_loop v v (S r) p n) as (n' & E & A). exists (p ++ repeat v (S r)), n'. split; [exact E|].
      split; [exists (S r); reflexivity|]. split; [rewrite app_length, repeat_length; lia|].
      assert (N : n' = length p + 1 + r - 1).
      { destruct A as [A|A]; [|lia]. clear A. revert E. cbn [rv_loop]. rewrite nth_pre. cbn [nth_error repeat].
        rewrite (proj2 (veqb_spec v v) eq_refl).
        assert (S1 : shift_left_at (length p) (p ++ v :: repeat v r) = p ++ v :: repeat v r).
        { destruct r as [|r]; [apply shift_last|]. rewrite <- repeat_snoc. rewrite shift_pre.
          f_equal. rewrite app_assoc, !repeat_snoc. reflexivity. }
        rewrite S1. assert (L : length (p ++ [v]) = S (length p)) by (rewrite app_length; cbn; lia).
        destruct (tail_loop v v r (p ++ [v]) (length (p ++ v :: repeat v r) - 1)) as (m & E' & B). rewrite L, <- app_assoc in E'. cbn [app] in E'.
        rewrite E'. intros Q. injection Q as Q. destruct B as [B|B]; [rewrite app_length in B; cbn [length] in B; rewrite repeat_length in B; lia|lia]. }
      split; [intros _; exact N|right; exact N].
    - assert (Z' : forall d, l <> [] -> last l d = z).
      { intros d Hl. rewrite <- (Z d) by discriminate. destruct l; [congruence|reflexivity]. }
      cbn [length plus rv_loop app]. rewrite nth_pre. cbn [nth_error]. rewrite (proj2 (veqb_spec v v) eq_refl).
      assert (S1 : shift_left_at (length p) (p ++ v :: y :: l ++ repeat z r) = p ++ y :: l ++ repeat z (S r)).
      { assert (X : exists m, y :: l ++ repeat z r = m ++ [z]).
        { destruct r as [|r].
          - cbn [repeat]. rewrite app_nil_r. exists (removelast (y :: l)). rewrite <- (Z z) by discriminate.
            change (last (v :: y :: l) z) with (last (y :: l) z). apply app_removelast_last. discriminate.
          - rewrite <- repeat_snoc. exists (y :: l ++ repeat z r). cbn [app]. now rewrite app_assoc. }
        destruct X as (m & X). rewrite X, shift_pre. f_equal. rewrite <- repeat_snoc, app_assoc, <- X. cbn [app].
        now rewrite <- app_assoc. }
      rewrite S1.
      assert (L : length (p ++ [y]) = S (length p)) by (rewrite app_length; cbn; lia).
      destruct (IH Z' (p ++ [y]) (S r) (length (p ++ v :: y :: l ++ repeat z r) - 1)) as (arr & n' & R & (q & A1) & A2 & A3 & A4).
      rewrite L, <- app_assoc in R. cbn [app] in R. replace (length l + S r) with (S (length l + r)) in R by lia.
      exists arr, n'. split; [exact R|]. split; [exists q; rewrite A1, <- app_assoc; reflexivity|]. rewrite L in *.
      split; [lia|].
      assert (N : n' = length p + S (S (length l)) + r - 1).
      { destruct A4 as [A4|A4]; [|lia]. rewrite A4, app_length. cbn [length]. rewrite app_length, repeat_length. lia. }
      split; [intros _; exact N|right; exact N].
  Qed.

  Lemma thinned_total : forall (v : V) n (l : list V), length l <= n -> exists l', thinned v l l'.
  Proof.
    intros v. induction n as [|n IH]; intros l H.
    - destruct l; [|cbn in H; lia]. exists []. constructor.
    - destruct l as [|x l]; [exists []; constructor|]. cbn in H. destruct (veqb x v) eqn:E.
      + apply veqb_spec in E. subst x. destruct l as [|y l]; [exists []; constructor|]. cbn in H.
        destruct (IH l ltac:(lia)) as [l' T]. exists (y :: l'). now constructor.
      + destruct (IH l ltac:(lia)) as [l' T]. exists (x :: l'). constructor; [|exact T].
        intros ->. rewrite (proj2 (veqb_spec v v) eq_refl) in E. discriminate.
  Qed.
  Lemma filled_take : forall (z : V) n l q l', filled z n l l' -> n <= length l + q -> firstn n (l ++ repeat z q) = l'.
  Proof.
    intros z n l q l' F. revert q. induction F as [l|n x l l' F IH|n l' F IH]; intros q H; [reflexivity| |].
    - cbn [app firstn]. f_equal. apply IH. cbn in H. lia.
    - cbn [length plus] in H. destruct q as [|q]; [lia|]. cbn [app repeat firstn]. f_equal.
      apply (IH q). cbn. lia.
  Qed.
  Lemma filled_total : forall (z : V) n l, exists l', filled z n l l'.
  Proof.
    intros z. induction n as [|n IH]; intros l; [exists []; constructor|].
    destruct l as [|x l]; [destruct (IH []) as [l' F]; exists (z :: l')|destruct (IH l) as [l' F]; exists (x :: l')]; now constructor.
  Qed.

  Lemma remove_value_exact : forall (h : list (mm_op K V)) (k : K) vs v z, values_of h k (vs ++ [z]) -> In v (vs ++ [z]) ->
    (exists thin rest, thinned v (vs ++ [z]) thin /\ filled z (length vs) thin rest) /\
    forall thin rest, thinned v (vs ++ [z]) thin -> filled z (length vs) thin rest ->
    forall k', mm_get keqb (mm_remove_value keqb veqb (mm_run keqb h) k v) k' =
      if keqb k' k then to_opt rest else mm_get keqb (mm_run keqb h) k'.
  Proof.
    intros h k vs v z H I. split.
    { destruct (thinned_total v _ (vs ++ [z]) (le_n _)) as [thin T].
      destruct (filled_total z (length vs) thin) as [rest F]. exists thin, rest. split; [exact T|exact F]. }
    intros thin rest T F.
    pose proof (mm_run_get keqb keqb_spec h k _ H) as G. rewrite to_opt_snoc in G.
    assert (Z : forall d, vs ++ [z] <> [] -> last (vs ++ [z]) d = z) by (intros d _; apply last_last).
    destruct (rv_loop_exact v z _ _ T Z [] 0 (length (vs ++ [z]))) as (arr & n' & R & (q & A1) & A2 & A3 & _).
    cbn [app length repeat plus] in *. rewrite Nat.add_0_r, app_nil_r in *.
    rewrite (A3 I) in R. intros k'. unfold mm_remove_value. rewrite G, R.
    assert (L : length (vs ++ [z]) = S (length vs)) by (rewrite app_length; cbn; lia).
    rewrite L in *. cbn [Nat.sub]. rewrite Nat.sub_0_r.
    assert (E : firstn (length vs) arr = rest).
    { rewrite A1. apply filled_take; [exact F|]. rewrite A1, app_length, repeat_length in A2. lia. }
    rewrite E. rewrite (mm_get_set keqb keqb_spec), (proj2 (keqb_spec k k) eq_refl).
    destruct rest as [|x rest]; cbn [to_opt].
    - rewrite (mm_get_remove keqb keqb_spec), (mm_get_set keqb keqb_spec). destruct (keqb k' k); reflexivity.
    - now rewrite (mm_get_set keqb keqb_spec).
  Qed.
End Exact.

(** another value is there more often than before *)
Lemma remove_value_copies : exists (h : list (mm_op string nat)) (k : string) (v w : nat) (vs l : list nat),
  values_of h k vs /\ mm_get String.eqb (mm_remove_value String.eqb Nat.eqb (mm_run String.eqb h) k v) k = Some l /\
  v <> w /\ count_occ Nat.eq_dec vs w < count_occ Nat.eq_dec l w.
Proof.
  exists [MPut "k"%string 2; MPut "k"%string 1; MPut "k"%string 2; MPut "k"%string 3], "k"%string, 2, 3, [2; 1; 2; 3], [1; 3; 3].
  split; [|split; [vm_compute; reflexivity|split; [discriminate|cbn; lia]]].
  assert (P : forall h (k : string) (v : nat) vs h' vs', values_of h k vs -> h' = h ++ [MPut k v] -> vs' = vs ++ [v] -> values_of h' k vs').
  { intros h k v vs h' vs' H -> ->. now constructor. }
  apply (P [MPut "k"%string 2; MPut "k"%string 1; MPut "k"%string 2] _ 3 [2; 1; 2]); [|reflexivity|reflexivity].
  apply (P [MPut "k"%string 2; MPut "k"%string 1] _ 2 [2; 1]); [|reflexivity|reflexivity].
  apply (P [MPut "k"%string 2] _ 1 [2]); [|reflexivity|reflexivity].
  apply (P [] _ 2 []); [constructor|reflexivity|reflexivity].
Qed.
