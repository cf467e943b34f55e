(** Proofs about PrintModel. *)
From Coq Require Import ZArith String List Bool Lia.
From Verif Require Import Base LocModel ReportModel ToolModel PrintModel PrintSpec.
Import ListNotations.
Open Scope string_scope.
Open Scope Z_scope.
Open Scope list_scope.

(** ** Numerals *)

Lemma value_app a b : value (a ++ b) = fold_left (fun a c => 10 * a + (c - 48)) b (value a).
Proof. unfold value. now rewrite fold_left_app. Qed.

Lemma fold_value l : forall x, fold_left (fun a c => 10 * a + (c - 48)) l x = x * 10 ^ Z.of_nat (length l) + value l.
Proof.
  unfold value. induction l as [|c l IH]; intros x; cbn [fold_left length].
  - cbn. lia.
  - rewrite IH, (IH (10 * 0 + (c - 48))). rewrite Nat2Z.inj_succ, Z.pow_succ_r by lia. lia.
Qed.

Lemma digits_spec fuel : forall n acc, 0 <= n -> n < 2 ^ Z.of_nat fuel -> (0 < fuel)%nat ->
  exists w, digits fuel n acc = w ++ acc /\ w <> [] /\ Forall (fun c => 48 <= c <= 57) w /\ value w = n /\
    (hd 0 w = 48 -> w = [48]).
Proof.
  induction fuel as [|k IH]; intros n acc H0 H1 HP; [lia|]. cbn [digits].
  pose proof (Z.mod_pos_bound n 10 ltac:(lia)) as M. pose proof (Z.div_mod n 10 ltac:(lia)) as D.
  destruct (n <? 10) eqn:E.
  - apply Z.ltb_lt in E. exists [48 + n mod 10]. assert (SM : n mod 10 = n) by (apply Z.mod_small; lia). rewrite SM. clear M D SM.
    split; [reflexivity|]. split; [discriminate|]. split; [repeat constructor; lia|].
    unfold value. cbn [fold_left hd]. split; [lia|]. intros X. f_equal. lia.
  - apply Z.ltb_ge in E.
    assert (B : n / 10 < 2 ^ Z.of_nat k).
    { rewrite Nat2Z.inj_succ, Z.pow_succ_r in H1 by lia. lia. }
    assert (P : (0 < k)%nat). { destruct k; [cbn in B; lia|lia]. }
    destruct (IH (n / 10) ((48 + n mod 10) :: acc) ltac:(lia) B P) as (w & E1 & E2 & E3 & E4 & E5).
    exists (w ++ [48 + n mod 10]). rewrite E1, <- app_assoc. split; [reflexivity|].
    split; [destruct w; discriminate|]. split; [apply Forall_app; split; [exact E3|repeat constructor; lia]|].
    rewrite value_app. cbn [fold_left]. rewrite E4. split; [lia|].
    intros X. exfalso. destruct w as [|c w]; [congruence|]. cbn in X. specialize (E5 X). injection E5 as -> ->.
    unfold value in E4. cbn in E4. lia.
Qed.

Lemma decimal_numeral n : 0 <= n -> numeral n (decimal n).
Proof.
  intros H. unfold decimal. destruct (n <? 0) eqn:E; [apply Z.ltb_lt in E; lia|].
  destruct (digits_spec (S (Z.to_nat (Z.log2 n))) n [] H) as (w & E1 & E2 & E3 & E4 & E5); [|lia|].
  - rewrite Nat2Z.inj_succ, Z2Nat.id by apply Z.log2_nonneg.
    destruct (Z.eq_dec n 0) as [->|N]; [cbn; lia|]. apply Z.log2_spec. lia.
  - rewrite E1, app_nil_r. unfold numeral. auto.
Qed.

Lemma value_bound w : Forall (fun c => 48 <= c <= 57) w -> 0 <= value w < 10 ^ Z.of_nat (length w).
Proof.
  induction w as [|c w IH]; intros H; [cbn; lia|]. inversion H as [|? ? Hc Hw]; subst. specialize (IH Hw).
  unfold value. cbn [fold_left]. rewrite fold_value. cbn [length]. rewrite Nat2Z.inj_succ, Z.pow_succ_r by lia.
  assert (0 < 10 ^ Z.of_nat (length w)) by (apply Z.pow_pos_nonneg; lia). nia.
Qed.

(** A numeral has no more digits than its number needs. *)
Lemma numeral_length n w k : numeral n w -> n < 10 ^ Z.of_nat k -> (0 < k)%nat -> (length w <= k)%nat.
Proof.
  intros (N & D & V & Z0) B K. destruct w as [|c w]; [cbn; lia|]. cbn in Z0. inversion D as [|? ? Hc Hw]; subst.
  destruct (Z.eq_dec c 48) as [->|NZ]; [rewrite (Z0 eq_refl); cbn; lia|].
  destruct (le_lt_dec (length (c :: w)) k) as [L|L]; [exact L|]. exfalso.
  unfold value in B. cbn [fold_left] in B. rewrite fold_value in B. pose proof (value_bound w Hw). cbn [length] in L.
  assert (10 ^ Z.of_nat k <= 10 ^ Z.of_nat (length w)) by (apply Z.pow_le_mono_r; lia).
  assert (0 < 10 ^ Z.of_nat (length w)) by (apply Z.pow_pos_nonneg; lia). nia.
Qed.

Lemma numeral_word n w : numeral n w -> word w.
Proof.
  intros (N & D & _). rewrite Forall_forall in D. split; [exact N|]. split; intros I; apply D in I; lia.
Qed.

(** ** Words *)

Lemma words_spaces n l : words (spaces n ++ l) = words l.
Proof. induction n; [reflexivity|]. cbn. exact IHn. Qed.

Lemma words_cons c d r : c =? 32 = false -> d =? 32 = false ->
  words (c :: d :: r) = match words (d :: r) with w :: ws => (c :: w) :: ws | [] => [[c]] end.
Proof. intros C D. cbn [words]. rewrite C, D. reflexivity. Qed.

Lemma words_word w l : word w -> words (w ++ 32 :: l) = w :: words l.
Proof.
  intros (N & S & _). induction w as [|c w IH]; [congruence|]. clear N.
  assert (C : c =? 32 = false) by (apply Z.eqb_neq; intros ->; apply S; now left).
  destruct w as [|d w].
  - cbn. rewrite C. reflexivity.
  - assert (D : d =? 32 = false) by (apply Z.eqb_neq; intros ->; apply S; right; now left).
    cbn [app] in *. rewrite (words_cons c d _ C D), IH by (try discriminate; intros I; apply S; now right). reflexivity.
Qed.

Lemma words_last w : word w -> words w = [w].
Proof.
  intros (N & S & _). induction w as [|c w IH]; [congruence|]. clear N.
  assert (C : c =? 32 = false) by (apply Z.eqb_neq; intros ->; apply S; now left).
  destruct w as [|d w].
  - cbn. now rewrite C.
  - assert (D : d =? 32 = false) by (apply Z.eqb_neq; intros ->; apply S; right; now left).
    assert (X : words (d :: w) = [d :: w]) by (apply IH; [discriminate|intros I; apply S; now right]).
    rewrite (words_cons c d _ C D), X. reflexivity.
Qed.

Lemma words_left w n l : word w -> words (pad_left n w ++ 32 :: l) = w :: words l.
Proof. intros H. unfold pad_left. rewrite <- app_assoc, words_spaces. now apply words_word. Qed.

Lemma words_left_last w n : word w -> words (pad_left n w) = [w].
Proof. intros H. unfold pad_left. rewrite words_spaces. now apply words_last. Qed.

Lemma words_right w n l : word w -> words (pad_right n w ++ 32 :: l) = w :: words l.
Proof.
  intros H. unfold pad_right. rewrite <- app_assoc. destruct (n - length w)%nat as [|k].
  - now apply words_word.
  - cbn [spaces repeat app]. rewrite words_word by exact H. f_equal. apply (words_spaces k (32 :: l)).
Qed.

Lemma words_right_last w n : word w -> words (pad_right n w) = [w].
Proof.
  intros H. unfold pad_right. destruct (n - length w)%nat as [|k].
  - cbn. rewrite app_nil_r. now apply words_last.
  - cbn [spaces repeat]. rewrite words_word by exact H. f_equal. pose proof (words_spaces k []) as X.
    unfold spaces in X. rewrite app_nil_r in X. exact X.
Qed.

Lemma pad_left_length n w : (length w <= n)%nat -> length (pad_left n w) = n.
Proof. intros H. unfold pad_left, spaces. rewrite app_length, repeat_length. lia. Qed.
Lemma pad_right_length n w : (length w <= n)%nat -> length (pad_right n w) = n.
Proof. intros H. unfold pad_right, spaces. rewrite app_length, repeat_length. lia. Qed.
Lemma pad_left_in c n w : In c (pad_left n w) -> c = 32 \/ In c w.
Proof. unfold pad_left. rewrite in_app_iff. intros [H|H]; [left; now apply repeat_spec in H|auto]. Qed.
Lemma pad_right_in c n w : In c (pad_right n w) -> c = 32 \/ In c w.
Proof. unfold pad_right. rewrite in_app_iff. intros [H|H]; [auto|left; now apply repeat_spec in H]. Qed.

(** ** Rounding *)

Lemma nearest_close n d : 0 < d -> 2 * Z.abs (nearest n d * d - n) <= d.
Proof.
  intros H. unfold nearest. pose proof (Z.div_mod n d ltac:(lia)) as D. pose proof (Z.mod_pos_bound n d H) as M.
  cbv zeta. set (q := n / d) in *. set (r := n mod d) in *. clearbody q r.
  destruct (2 * r <? d) eqn:E1; [apply Z.ltb_lt in E1; nia|]. apply Z.ltb_ge in E1.
  destruct (d <? 2 * r) eqn:E2; [apply Z.ltb_lt in E2; nia|]. apply Z.ltb_ge in E2.
  destruct (Z.even q); nia.
Qed.

(** The relative error of a rounding is at most a part in 2 ^ 24. *)
Lemma to_float_close n d : 0 < n -> 0 < d ->
  let '(a, b) := to_float n d in 0 < b /\ 2 ^ 24 * Z.abs (a * d - n * b) <= n * b.
Proof.
  intros Hn Hd. unfold to_float. destruct (n =? 0) eqn:E0; [apply Z.eqb_eq in E0; lia|]. cbv zeta.
  set (k := Z.log2 n - Z.log2 d).
  destruct (Z.log2_spec n Hn) as [Ln1 Ln2]. destruct (Z.log2_spec d Hd) as [Ld1 Ld2].
  pose proof (Z.log2_nonneg n) as Nn. pose proof (Z.log2_nonneg d) as Nd.
  set (e := if (if 0 <=? k then d * 2 ^ k <=? n else d <=? n * 2 ^ (- k)) then k - 23 else k - 24).
  (* the quotient has at least 24 digits in front of the point *)
  assert (A : if 0 <=? e then 2 ^ 23 * (d * 2 ^ e) <= n else 2 ^ 23 * d <= n * 2 ^ (- e)).
  { assert (S : forall x, 0 <= x -> k = x -> 0 < 2 ^ x /\ d * 2 ^ x < 2 * n).
    { intros x Hx E. assert (0 < 2 ^ x) by (apply Z.pow_pos_nonneg; lia). split; [lia|].
      assert (d * 2 ^ x < 2 ^ Z.succ (Z.log2 d) * 2 ^ x) by nia.
      rewrite <- Z.pow_add_r in H0 by lia. replace (Z.succ (Z.log2 d) + x) with (Z.succ (Z.log2 n)) in H0 by (unfold k in E; lia).
      rewrite Z.pow_succ_r in H0 by lia. lia. }
    assert (T : forall x, 0 <= x -> - k = x -> 0 < 2 ^ x /\ d < 2 * (n * 2 ^ x)).
    { intros x Hx E. assert (0 < 2 ^ x) by (apply Z.pow_pos_nonneg; lia). split; [lia|].
      assert (2 ^ Z.log2 n * 2 ^ x <= n * 2 ^ x) by nia. rewrite <- Z.pow_add_r in H0 by lia.
      replace (Z.log2 n + x) with (Z.log2 d) in H0 by (unfold k in E; lia). rewrite Z.pow_succ_r in Ld2 by lia. lia. }
    unfold e. destruct (0 <=? k) eqn:K.
    - apply Z.leb_le in K. destruct (S k K eq_refl) as [Pk Sk]. destruct (d * 2 ^ k <=? n) eqn:C.
      + apply Z.leb_le in C. destruct (0 <=? k - 23) eqn:E.
        * apply Z.leb_le in E. replace (2 ^ 23 * (d * 2 ^ (k - 23))) with (d * (2 ^ 23 * 2 ^ (k - 23))) by ring.
          rewrite <- Z.pow_add_r by lia. replace (23 + (k - 23)) with k by lia. exact C.
        * apply Z.leb_gt in E. replace (2 ^ 23) with (2 ^ k * 2 ^ (- (k - 23))) by (rewrite <- Z.pow_add_r by lia; f_equal; lia).
          assert (0 < 2 ^ (- (k - 23))) by (apply Z.pow_pos_nonneg; lia). nia.
      + destruct (0 <=? k - 24) eqn:E.
        * apply Z.leb_le in E. enough (2 * (2 ^ 23 * (d * 2 ^ (k - 24))) < 2 * n) by lia.
          replace (2 * (2 ^ 23 * (d * 2 ^ (k - 24)))) with (d * (2 ^ 24 * 2 ^ (k - 24))) by (change (2 ^ 24) with (2 * 2 ^ 23); ring).
          rewrite <- Z.pow_add_r by lia. replace (24 + (k - 24)) with k by lia. exact Sk.
        * apply Z.leb_gt in E. assert (X : 2 ^ 24 = 2 ^ k * 2 ^ (- (k - 24))) by (rewrite <- Z.pow_add_r by lia; f_equal; lia).
          assert (0 < 2 ^ (- (k - 24))) by (apply Z.pow_pos_nonneg; lia). change (2 ^ 24) with (2 * 2 ^ 23) in X. nia.
    - apply Z.leb_gt in K. destruct (T (- k) ltac:(lia) eq_refl) as [Pk Tk]. destruct (d <=? n * 2 ^ (- k)) eqn:C.
      + apply Z.leb_le in C. destruct (0 <=? k - 23) eqn:E; [apply Z.leb_le in E; lia|].
        replace (2 ^ (- (k - 23))) with (2 ^ 23 * 2 ^ (- k)) by (rewrite <- Z.pow_add_r by lia; f_equal; lia). nia.
      + destruct (0 <=? k - 24) eqn:E; [apply Z.leb_le in E; lia|].
        replace (2 ^ (- (k - 24))) with (2 ^ 24 * 2 ^ (- k)) by (rewrite <- Z.pow_add_r by lia; f_equal; lia).
        change (2 ^ 24) with (2 * 2 ^ 23). nia. }
  clearbody e. clear k Ln1 Ln2 Ld1 Ld2 Nn Nd. change (2 ^ 24) with (2 * 2 ^ 23).
  destruct (0 <=? e) eqn:E.
  - apply Z.leb_le in E. assert (P : 0 < 2 ^ e) by (apply Z.pow_pos_nonneg; lia). split; [lia|].
    pose proof (nearest_close n (d * 2 ^ e) ltac:(nia)) as N.
    replace (nearest n (d * 2 ^ e) * 2 ^ e * d - n * 1) with (nearest n (d * 2 ^ e) * (d * 2 ^ e) - n) by ring. nia.
  - apply Z.leb_gt in E. assert (P : 0 < 2 ^ (- e)) by (apply Z.pow_pos_nonneg; lia). split; [lia|].
    pose proof (nearest_close (n * 2 ^ (- e)) d ltac:(lia)) as N. nia.
Qed.

(** ** Percentages *)

Lemma cancel p x y : 0 < p -> x * p <= y * p -> x <= y.
Proof. intros H K. now apply (Z.mul_le_mono_pos_r x y p H). Qed.

Section Bounds.
  Variables U a s n1 d1 m c n2 d2 n3 d3 : Z.
  Hypothesis HU : 1 < U.
  Hypothesis Ha : 0 < a.
  Hypothesis Hs : a <= s.
  Hypothesis P1 : 0 < d1.
  Hypothesis P2 : 0 < c.
  Hypothesis P3 : 0 < d2.
  Hypothesis P4 : 0 < d3.
  Hypothesis Q1 : 0 < n1.
  Hypothesis Q2 : 0 < m.
  Hypothesis Q3 : 0 < n2.
  Hypothesis L1 : (U - 1) * (a * d1) <= U * n1 <= (U + 1) * (a * d1).
  Hypothesis L2 : (U - 1) * (s * c) <= U * m <= (U + 1) * (s * c).
  Hypothesis L3 : (U - 1) * (n1 * c * d2) <= U * (n2 * (d1 * m)) <= (U + 1) * (n1 * c * d2).
  Hypothesis L4 : (U - 1) * (n2 * 100 * d3) <= U * (n3 * d2) <= (U + 1) * (n2 * 100 * d3).

  Lemma ratio_upper : U * U * (U - 1) * s * n3 <= 100 * ((U + 1) * (U + 1) * (U + 1)) * d3 * a.
  Proof.
    assert (A : U * U * n2 * m <= (U + 1) * (U + 1) * c * d2 * a).
    { apply (cancel d1); [exact P1|]. destruct L3 as [_ L], L1 as [_ M].
      assert (0 <= (U + 1) * (c * d2)) by nia.
      pose proof (Z.mul_le_mono_nonneg_l _ _ _ H M) as X. pose proof (Z.mul_le_mono_nonneg_l _ _ U ltac:(lia) L) as Y. nia. }
    assert (B : U * (U - 1) * n2 * s <= (U + 1) * (U + 1) * d2 * a).
    { apply (cancel c); [exact P2|]. destruct L2 as [L _]. assert (0 <= U * n2) by nia.
      pose proof (Z.mul_le_mono_nonneg_l _ _ _ H L) as X. nia. }
    apply (cancel d2); [exact P3|]. destruct L4 as [_ L].
    assert (H : 0 <= U * (U - 1) * s) by (apply Z.mul_nonneg_nonneg; [apply Z.mul_nonneg_nonneg|]; lia).
    pose proof (Z.mul_le_mono_nonneg_l _ _ _ H L) as X.
    assert (H' : 0 <= (U + 1) * (100 * d3)) by nia.
    pose proof (Z.mul_le_mono_nonneg_l _ _ _ H' B) as Y. lia.
  Qed.

  Lemma ratio_lower : 100 * ((U - 1) * (U - 1) * (U - 1)) * d3 * a <= U * U * (U + 1) * s * n3.
  Proof.
    assert (A : (U - 1) * (U - 1) * c * d2 * a <= U * U * n2 * m).
    { apply (cancel d1); [exact P1|]. destruct L3 as [L _], L1 as [M _].
      assert (0 <= (U - 1) * (c * d2)) by nia.
      pose proof (Z.mul_le_mono_nonneg_l _ _ _ H M) as X. pose proof (Z.mul_le_mono_nonneg_l _ _ U ltac:(lia) L) as Y. lia. }
    assert (B : (U - 1) * (U - 1) * d2 * a <= U * (U + 1) * n2 * s).
    { apply (cancel c); [exact P2|]. destruct L2 as [_ L]. assert (0 <= U * n2) by nia.
      pose proof (Z.mul_le_mono_nonneg_l _ _ _ H L) as X. lia. }
    apply (cancel d2); [exact P3|]. destruct L4 as [L _].
    assert (H : 0 <= U * (U + 1) * s) by (apply Z.mul_nonneg_nonneg; [apply Z.mul_nonneg_nonneg|]; lia).
    pose proof (Z.mul_le_mono_nonneg_l _ _ _ H L) as X.
    assert (H' : 0 <= (U - 1) * (100 * d3)) by nia.
    pose proof (Z.mul_le_mono_nonneg_l _ _ _ H' B) as Y. lia.
  Qed.
End Bounds.

(** A rounding of something positive is positive. *)
Lemma to_float_interval n d a b : 0 < n -> 0 < d -> to_float n d = (a, b) ->
  0 < b /\ 0 < a /\ (2 ^ 24 - 1) * (n * b) <= 2 ^ 24 * (a * d) <= (2 ^ 24 + 1) * (n * b).
Proof.
  intros Hn Hd E. pose proof (to_float_close n d Hn Hd) as H. rewrite E in H. destruct H as [B C].
  split; [exact B|]. assert (P : 0 < n * b) by (apply Z.mul_pos_pos; lia).
  assert (I : (2 ^ 24 - 1) * (n * b) <= 2 ^ 24 * (a * d) <= (2 ^ 24 + 1) * (n * b)) by lia.
  split; [|exact I]. change (2 ^ 24) with 16777216 in *. nia.
Qed.

Definition tenths (a b : Z) : Z := let '(n, d) := percent a b in nearest (10 * n) d.

Lemma tenths_close a b : 0 <= a -> 0 <= b -> 0 < a + b ->
  1000 * Z.abs (tenths a b * (a + b) - 1000 * a) <= 501 * (a + b).
Proof.
  intros Ha Hb Hs. unfold tenths, percent.
  destruct (Z.eq_dec a 0) as [->|Na].
  { change (to_float 0 1) with (0, 1). destruct (to_float (0 + b) 1) as [m c] eqn:E2. cbv beta iota.
    change (to_float (0 * c) (1 * m)) with (0, 1). cbv beta iota. change (to_float (0 * 100) 1) with (0, 1). cbv beta iota.
    change (nearest (10 * 0) 1) with 0. lia. }
  assert (Pa : 0 < a) by lia. clear Na.
  destruct (to_float a 1) as [n1 d1] eqn:E1. destruct (to_float (a + b) 1) as [m c] eqn:E2.
  destruct (to_float_interval _ _ _ _ Pa Z.lt_0_1 E1) as (P1 & Q1 & L1).
  destruct (to_float_interval _ _ _ _ Hs Z.lt_0_1 E2) as (P2 & Q2 & L2).
  destruct (to_float (n1 * c) (d1 * m)) as [n2 d2] eqn:E3.
  destruct (to_float_interval (n1 * c) (d1 * m) n2 d2 (Z.mul_pos_pos _ _ Q1 P2) (Z.mul_pos_pos _ _ P1 Q2) E3) as (P3 & Q3 & L3).
  destruct (to_float (n2 * 100) d2) as [n3 d3] eqn:E4.
  destruct (to_float_interval (n2 * 100) d2 n3 d3 ltac:(lia) P3 E4) as (P4 & Q4 & L4).
  rewrite Z.mul_1_r in L1, L2.
  pose proof (nearest_close (10 * n3) d3 P4) as N. set (t := nearest (10 * n3) d3) in *. clearbody t.
  assert (HU : 1 < 2 ^ 24) by (vm_compute; reflexivity).
  assert (R1 : 2 ^ 24 * 2 ^ 24 * (2 ^ 24 - 1) * (a + b) * n3 <= 100 * ((2 ^ 24 + 1) * (2 ^ 24 + 1) * (2 ^ 24 + 1)) * d3 * a).
  { apply ratio_upper with (U := 2 ^ 24) (n1 := n1) (d1 := d1) (m := m) (c := c) (n2 := n2) (d2 := d2); try assumption; lia. }
  assert (R2 : 100 * ((2 ^ 24 - 1) * (2 ^ 24 - 1) * (2 ^ 24 - 1)) * d3 * a <= 2 ^ 24 * 2 ^ 24 * (2 ^ 24 + 1) * (a + b) * n3).
  { apply ratio_lower with (U := 2 ^ 24) (n1 := n1) (d1 := d1) (m := m) (c := c) (n2 := n2) (d2 := d2); try assumption; lia. }
  clear E1 E2 E3 E4 L1 L2 L3 L4 Q1 Q2 Q3 Q4 P1 P2 P3 n1 d1 m c n2 d2.
  set (s := a + b) in *. assert (Ls : a <= s) by lia. clearbody s.
  change (2 ^ 24) with 16777216 in *.
  assert (X1 : 2 * (t * s) * (16777216 * 16777216 * 16777215) <=
    2000 * (16777217 * 16777217 * 16777217) * a + 16777216 * 16777216 * 16777215 * s).
  { apply (cancel d3); [exact P4|].
    assert (Y : 2 * (t * d3) <= 20 * n3 + d3) by lia.
    pose proof (Z.mul_le_mono_nonneg_l _ _ (16777216 * 16777216 * 16777215 * s) ltac:(lia) Y) as W. lia. }
  assert (X2 : 2000 * (16777215 * 16777215 * 16777215) * a - 16777216 * 16777216 * 16777217 * s <=
    2 * (t * s) * (16777216 * 16777216 * 16777217)).
  { apply (cancel d3); [exact P4|].
    assert (Y : 20 * n3 - d3 <= 2 * (t * d3)) by lia.
    pose proof (Z.mul_le_mono_nonneg_l _ _ (16777216 * 16777216 * 16777217 * s) ltac:(lia) Y) as W. lia. }
  set (ts := t * s) in *. clearbody ts. lia.
Qed.

Lemma tenths_range a b : 0 <= a -> 0 <= b -> 0 < a + b -> 0 <= tenths a b <= 1000.
Proof. intros Ha Hb Hs. pose proof (tenths_close a b Ha Hb Hs). nia. Qed.

(** What " %9.1f%%" prints: spaces and a percentage. *)
Lemma print_percent_ok a b : 0 <= a -> 0 <= b -> 0 < a + b ->
  exists p, print_percent a b = [32] ++ spaces (10 - length p) ++ p /\ percentage a b p /\ word p /\ (length p <= 10)%nat.
Proof.
  intros Ha Hb Hs. pose proof (tenths_close a b Ha Hb Hs) as C. pose proof (tenths_range a b Ha Hb Hs) as R.
  unfold print_percent, tenths in *. destruct (percent a b) as [n d]. set (t := nearest (10 * n) d) in *. clearbody t.
  pose proof (Z.div_mod t 10 ltac:(lia)) as D. pose proof (Z.mod_pos_bound t 10 ltac:(lia)) as M.
  pose proof (decimal_numeral (t / 10) ltac:(lia)) as N1. pose proof (decimal_numeral (t mod 10) ltac:(lia)) as N2.
  pose proof (numeral_length _ _ 4 N1 ltac:(cbn; lia) ltac:(lia)) as L1.
  pose proof (numeral_length _ _ 1 N2 ltac:(cbn; lia) ltac:(lia)) as L2.
  destruct (decimal (t mod 10)) as [|x [|y l]] eqn:E; [destruct N2; congruence| |cbn in L2; lia].
  set (w := decimal (t / 10)) in *. clearbody w.
  exists (w ++ [46; x; 37]). split; [|split; [|split]].
  - unfold pad_left. rewrite !app_length. cbn [length app].
    replace (10 - (length w + 3))%nat with (9 - (length w + 2))%nat by lia.
    f_equal. rewrite <- !app_assoc. reflexivity.
  - exists t, w, x. repeat split; auto; try lia; try apply N1; try apply N2.
  - destruct (numeral_word _ _ N1) as (W1 & W2 & W3). destruct N2 as (_ & D2 & _). inversion D2; subst.
    split; [destruct w; discriminate|]. rewrite !in_app_iff. cbn. split; intros [I|I]; auto; lia.
  - rewrite app_length. cbn. lia.
Qed.

(** ** Rows *)

Lemma words_percent a b l : 0 <= a -> 0 <= b -> 0 < a + b ->
  exists p, words (print_percent a b ++ 32 :: l) = p :: words l /\ percentage a b p.
Proof.
  intros Ha Hb Hs. destruct (print_percent_ok a b Ha Hb Hs) as (p & E & P & W & _). exists p. split; [|exact P].
  rewrite E, <- !app_assoc. cbn [app words Z.eqb Pos.eqb]. rewrite words_spaces. now apply words_word.
Qed.

Definition number_fields (zero : string) (l : loc) (ps : list (list Z)) : Prop :=
  (0 < l_comments l + l_code l -> exists p, ps = [p] /\ percentage (l_comments l) (l_code l) p) /\
  (l_comments l + l_code l = 0 -> ps = words (bytes zero)).

Lemma words_counts zero l total : 0 <= l_code l -> 0 <= l_comments l -> 0 <= l_blanks l -> 0 <= total ->
  (exists z, bytes zero = 32 :: z /\ forall x, words (z ++ 32 :: x) = words (bytes zero) ++ words x) ->
  exists code comments ps blanks tot,
    words (print_counts zero l total) = [code; comments] ++ ps ++ [blanks; tot] /\
    numeral (l_code l) code /\ numeral (l_comments l) comments /\ numeral (l_blanks l) blanks /\ numeral total tot /\
    number_fields zero l ps.
Proof.
  intros H1 H2 H3 H4 (z & Ez & HZ). unfold print_counts.
  pose proof (decimal_numeral _ H1) as N1. pose proof (decimal_numeral _ H2) as N2.
  pose proof (decimal_numeral _ H3) as N3. pose proof (decimal_numeral _ H4) as N4.
  exists (decimal (l_code l)), (decimal (l_comments l)).
  cbn [app words Z.eqb Pos.eqb]. rewrite words_left by now apply (numeral_word (l_code l)).
  destruct (0 <? l_comments l + l_code l) eqn:E.
  - apply Z.ltb_lt in E.
    destruct (words_percent (l_comments l) (l_code l) (pad_left 10 (decimal (l_blanks l)) ++ 32 :: pad_left 10 (decimal total)) H2 H1 E)
      as (p & Ep & Pp).
    exists [p], (decimal (l_blanks l)), (decimal total).
    replace (pad_left 10 (decimal (l_comments l)) ++ print_percent (l_comments l) (l_code l) ++
       32 :: pad_left 10 (decimal (l_blanks l)) ++ 32 :: pad_left 10 (decimal total))
      with (pad_left 10 (decimal (l_comments l)) ++ 32 :: tl (print_percent (l_comments l) (l_code l)) ++
       32 :: pad_left 10 (decimal (l_blanks l)) ++ 32 :: pad_left 10 (decimal total)).
    2: { unfold print_percent. destruct (percent _ _). reflexivity. }
    rewrite words_left by now apply (numeral_word (l_comments l)).
    assert (X : forall y, words (tl (print_percent (l_comments l) (l_code l)) ++ y) = words (print_percent (l_comments l) (l_code l) ++ y)).
    { intros y. unfold print_percent. destruct (percent _ _). reflexivity. }
    rewrite X, Ep, words_left by now apply (numeral_word (l_blanks l)).
    rewrite words_left_last by now apply (numeral_word total).
    split; [reflexivity|]. repeat (split; [assumption|]). split; [|lia]. intros _. eauto.
  - apply Z.ltb_ge in E. exists (words (bytes zero)), (decimal (l_blanks l)), (decimal total).
    rewrite Ez. cbn [app]. rewrite words_left by now apply (numeral_word (l_comments l)).
    rewrite HZ, words_left by now apply (numeral_word (l_blanks l)).
    rewrite words_left_last by now apply (numeral_word total). rewrite Ez.
    split; [reflexivity|]. repeat (split; [assumption|]). split; [lia|]. intros _. now rewrite Ez.
Qed.

(** How long a row is. *)
Lemma numeral_int n : 0 <= n <= int_max -> (length (decimal n) <= 10)%nat.
Proof.
  intros H. apply (numeral_length n); [now apply decimal_numeral|unfold int_max in H; cbn; lia|lia].
Qed.

Lemma length_counts zero l total : length (bytes zero) = 11%nat ->
  0 <= l_code l <= int_max -> 0 <= l_comments l <= int_max -> 0 <= l_blanks l <= int_max -> 0 <= total <= int_max ->
  length (print_counts zero l total) = 55%nat.
Proof.
  intros HZ H1 H2 H3 H4. unfold print_counts. rewrite !app_length, !pad_left_length by now apply numeral_int.
  enough (X : length (if 0 <? l_comments l + l_code l then print_percent (l_comments l) (l_code l) else bytes zero) = 11%nat)
    by (rewrite X; reflexivity).
  destruct (0 <? l_comments l + l_code l) eqn:E; [|exact HZ]. apply Z.ltb_lt in E.
  destruct (print_percent_ok (l_comments l) (l_code l)) as (p & -> & _ & _ & L); try lia.
  unfold spaces. rewrite !app_length, repeat_length. cbn [length]. lia.
Qed.

(** A row is one line. *)
Lemma decimal_no_nl n : 0 <= n -> ~ In 10 (decimal n).
Proof. intros H. apply (numeral_word n), decimal_numeral, H. Qed.

Lemma pad_left_no_nl k w : ~ In 10 w -> ~ In 10 (pad_left k w).
Proof. intros H I. apply pad_left_in in I as [I|I]; [lia|auto]. Qed.
Lemma pad_right_no_nl k w : ~ In 10 w -> ~ In 10 (pad_right k w).
Proof. intros H I. apply pad_right_in in I as [I|I]; [lia|auto]. Qed.

Lemma counts_no_nl zero l total : ~ In 10 (bytes zero) ->
  0 <= l_code l -> 0 <= l_comments l -> 0 <= l_blanks l -> 0 <= total -> ~ In 10 (print_counts zero l total).
Proof.
  intros HZ H1 H2 H3 H4. unfold print_counts. rewrite !in_app_iff.
  pose proof (pad_left_no_nl 10 _ (decimal_no_nl _ H1)). pose proof (pad_left_no_nl 10 _ (decimal_no_nl _ H2)).
  pose proof (pad_left_no_nl 10 _ (decimal_no_nl _ H3)). pose proof (pad_left_no_nl 10 _ (decimal_no_nl _ H4)).
  assert (S : ~ In 10 [32]) by (cbn; lia).
  assert (P : ~ In 10 (if 0 <? l_comments l + l_code l then print_percent (l_comments l) (l_code l) else bytes zero)).
  { destruct (0 <? l_comments l + l_code l) eqn:E; [|exact HZ]. apply Z.ltb_lt in E.
    destruct (print_percent_ok (l_comments l) (l_code l)) as (p & -> & _ & (_ & _ & W) & _); try lia.
    rewrite !in_app_iff. intros [I|[I|I]]; [cbn in I; lia|apply repeat_spec in I; lia|auto]. }
  tauto.
Qed.

(** ** Lines *)

Lemma made_of_cons l ls text : ~ In 10 l -> made_of ls text -> made_of (l :: ls) (l ++ [10] ++ text).
Proof. intros H [E F]. split; [cbn; rewrite E, <- app_assoc; reflexivity|now constructor]. Qed.
Lemma made_of_app a b x y : made_of a x -> made_of b y -> made_of (a ++ b) (x ++ y).
Proof. intros [E F] [E' F']. split; [rewrite flat_map_app; congruence|now apply Forall_app]. Qed.
Lemma made_of_nil : made_of [] [].
Proof. split; [reflexivity|constructor]. Qed.

(** The lines of a text are unique. *)
Lemma made_of_unique : forall a b text, made_of a text -> made_of b text -> a = b.
Proof.
  induction a as [|x a IH]; intros b text [E F] [E' F'].
  - destruct b as [|y b]; [reflexivity|]. cbn in *. subst text. destruct y; discriminate.
  - destruct b as [|y b]; [cbn in *; subst text; destruct x; discriminate|].
    inversion F as [|? ? Fx Fa]; inversion F' as [|? ? Fy Fb]; subst. cbn in E'. rewrite <- !app_assoc in E'.
    assert (X : x = y /\ flat_map (fun l => l ++ [10]) a = flat_map (fun l => l ++ [10]) b).
    { clear - Fx Fy E'. revert y Fy E'. induction x as [|c x IHx]; intros [|d y] Fy E.
      - cbn in E. injection E as E. auto.
      - cbn in E. injection E as <- _. exfalso. apply Fy. now left.
      - cbn in E. injection E as -> _. exfalso. apply Fx. now left.
      - cbn in E. injection E as -> E. destruct (IHx ltac:(intros I; apply Fx; now right) y ltac:(intros I; apply Fy; now right) E) as [-> ->].
        auto. }
    destruct X as [-> X]. f_equal. apply (IH b (flat_map (fun l => l ++ [10]) a)); split; auto.
Qed.
