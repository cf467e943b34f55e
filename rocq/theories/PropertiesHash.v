(** Property C92: which changes of a line the line diff notices (diff.c:282-330). *)
From Coq Require Import String ZArith List Bool Lia.
From Verif Require Import Base Arr DiffModel DiffSpec DiffProofs DiffMainProofs PropertiesDiff.
Import ListNotations.
Open Scope string_scope.
Open Scope list_scope.
Open Scope Z_scope.

(** * Specification *)

(** The weighted sum of the bytes of a line, read as signed characters.  The weights repeat after
    16 characters. *)
Definition signed (c : Z) : Z := if c <? 128 then c else c - 256.
Definition weight (i : nat) : Z := 2 ^ ((7 * Z.of_nat i) mod 16).
Fixpoint total_from (i : nat) (l : list Z) : Z :=
  match l with
  | [] => 0
  | c :: r => signed c * weight i + total_from (S i) r
  end.
Definition total (l : list Z) : Z := total_from 0 l.

(** [y] is [x] with one byte changed. *)
Definition one_byte_changed (x y : list Z) : Prop :=
  exists a c d b, c <> d /\ x = a ++ c :: b /\ y = a ++ d :: b.
(** [y] is [x] with two different bytes exchanged, [dist] characters apart. *)
Definition exchanged (dist : nat) (x y : list Z) : Prop :=
  exists a c m d b, c <> d /\ x = a ++ c :: m ++ d :: b /\ y = a ++ d :: m ++ c :: b /\ dist = S (length m).

(** A line as it occurs in a text that is compared in memory. *)
Definition line_ok (l : list Z) : Prop := Forall is_byte l /\ Z.of_nat (length l) <= 100000.

(** * Proofs *)

Lemma land15 : forall x, Z.land x 15 = x mod 16.
Proof. intros x. change 15 with (Z.ones 4). rewrite Z.land_ones by lia. reflexivity. Qed.

Lemma hash_loop_total : forall l i s sh, sh mod 16 = (7 * Z.of_nat i) mod 16 ->
  hash_loop s sh l = s + total_from i l.
Proof.
  induction l as [| c l IH]; intros i s sh H; cbn [hash_loop total_from]; [lia |].
  rewrite land15, H, Z.shiftl_mul_pow2 by (apply Z.mod_pos_bound; lia).
  rewrite (IH (S i)).
  - unfold weight. change (schar c) with (signed c). lia.
  - rewrite Z.add_mod_idemp_l by lia. f_equal. lia.
Qed.

Definition squeeze (t : Z) : Z :=
  let v := t mod 65536 + t / 65536 in to_short (v mod 65536) + to_short (v / 65536).
Lemma hash_squeeze : forall l, hash l = squeeze (1 + total l).
Proof.
  intros l. unfold hash. rewrite (hash_loop_total l 0 1 0) by reflexivity. fold (total l). unfold squeeze, low, high.
  change 65535 with (Z.ones 16). rewrite !Z.land_ones, !Z.shiftr_div_pow2 by lia. reflexivity.
Qed.

Lemma pow_bound : forall s, 0 <= s < 16 -> 0 < 2 ^ s <= 32768.
Proof.
  intros s H. split; [apply Z.pow_pos_nonneg; lia |]. change 32768 with (2 ^ 15). apply Z.pow_le_mono_r; lia.
Qed.
Lemma signed_bound : forall c, is_byte c -> -128 <= signed c <= 127.
Proof. intros c [H1 H2]. unfold signed. destruct (Z.ltb_spec c 128); lia. Qed.
Lemma signed_inj : forall c d, is_byte c -> is_byte d -> signed c = signed d -> c = d.
Proof. intros c d [H1 H2] [H3 H4]. unfold signed. destruct (Z.ltb_spec c 128), (Z.ltb_spec d 128); lia. Qed.
Lemma total_bound : forall l i, Forall is_byte l -> Z.abs (total_from i l) <= 4194304 * Z.of_nat (length l).
Proof.
  induction l as [| c l IH]; intros i H; cbn [total_from length]; [lia |]. inversion H; subst.
  specialize (IH (S i) ltac:(assumption)). pose proof (signed_bound c ltac:(assumption)) as B.
  assert (0 < weight i <= 32768) as W by (apply pow_bound, Z.mod_pos_bound; lia).
  rewrite Nat2Z.inj_succ. assert (Z.abs (signed c * weight i) <= 4194304).
  { rewrite Z.abs_mul, (Z.abs_eq (weight i)) by lia. transitivity (128 * 32768); [| lia]. apply Z.mul_le_mono_nonneg; lia. }
  lia.
Qed.

Lemma squeeze_eq : forall s t, Z.abs s <= 1000000000000 -> Z.abs t <= 1000000000000 -> Z.abs (s - t) < 2147483648 ->
  squeeze s = squeeze t -> exists k, s - t = 65535 * k.
Proof.
  intros s t Bs Bt Bd. unfold squeeze.
  pose proof (Z.div_mod s 65536 ltac:(lia)) as Es. pose proof (Z.mod_pos_bound s 65536 ltac:(lia)) as Ms.
  pose proof (Z.div_mod t 65536 ltac:(lia)) as Et. pose proof (Z.mod_pos_bound t 65536 ltac:(lia)) as Mt.
  set (q := s / 65536) in *. set (r := s mod 65536) in *. set (q' := t / 65536) in *. set (r' := t mod 65536) in *.
  pose proof (Z.div_mod (r + q) 65536 ltac:(lia)) as Ev. pose proof (Z.mod_pos_bound (r + q) 65536 ltac:(lia)) as Mv.
  pose proof (Z.div_mod (r' + q') 65536 ltac:(lia)) as Ev'. pose proof (Z.mod_pos_bound (r' + q') 65536 ltac:(lia)) as Mv'.
  set (Q := (r + q) / 65536) in *. set (R := (r + q) mod 65536) in *.
  set (Q' := (r' + q') / 65536) in *. set (R' := (r' + q') mod 65536) in *.
  clearbody q r q' r' Q R Q' R'.
  assert (forall x, 0 <= x < 65536 -> to_short x = x \/ (to_short x = x - 65536)) as HR.
  { intros x Hx. unfold to_short. rewrite Z.mod_small by lia. destruct (x <? 32768); auto. }
  assert (forall x, -1000 < x < 1000 -> to_short x = x) as HQ.
  { intros x Hx. unfold to_short. destruct (Z.leb_spec 0 x).
    - rewrite Z.mod_small by lia. destruct (Z.ltb_spec x 32768); lia.
    - rewrite <- (Z.mod_add x 1) by lia. rewrite Z.mod_small by lia. destruct (Z.ltb_spec (x + 1 * 65536) 32768); lia. }
  rewrite (HQ Q), (HQ Q') by lia. intros E. exists ((q - q') + (Q - Q')).
  destruct (HR R Mv) as [H1 | H1], (HR R' Mv') as [H2 | H2]; rewrite H1, H2 in E; lia.
Qed.

Lemma total_app : forall a i b, total_from i (a ++ b) = total_from i a + total_from (i + length a) b.
Proof.
  induction a as [| c a IH]; intros i b; cbn [total_from app length]; [now rewrite Nat.add_0_r |].
  rewrite IH, Nat.add_succ_r. cbn. lia.
Qed.

Ltac pow E := repeat match type of E with
  | context [2 ^ ?n] => let v := eval vm_compute in (2 ^ n) in change (2 ^ n) with v in E end.
(** 257 divides 65535, but no difference of two bytes and no power of 2. *)
Lemma no_pow : forall d s k, 0 <= s < 16 -> -255 <= d <= 255 -> d * 2 ^ s = 65535 * k -> d = 0.
Proof.
  intros d s k Hs Hd E.
  assert (s = 0 \/ s = 1 \/ s = 2 \/ s = 3 \/ s = 4 \/ s = 5 \/ s = 6 \/ s = 7 \/ s = 8 \/ s = 9 \/ s = 10 \/ s = 11 \/
          s = 12 \/ s = 13 \/ s = 14 \/ s = 15) as C by lia.
  repeat (destruct C as [-> | C]; [pow E; lia |]). subst. pow E. lia.
Qed.
Lemma no_pow_diff_lt : forall d s u k, 0 <= s < u -> u < 16 -> -255 <= d <= 255 ->
  d * (2 ^ u - 2 ^ s) = 65535 * k -> d = 0.
Proof.
  intros d s u k Hs Hu Hd E. replace u with (s + (u - s)) in E by lia. rewrite Z.pow_add_r in E by lia.
  assert (d * (2 ^ (u - s) - 1) * 2 ^ s = 257 * (255 * k)) as E' by lia. clear E.
  assert ((257 | d * (2 ^ (u - s) - 1))) as [j D].
  { apply Z.gauss with (2 ^ s); [exists (255 * k); lia |].
    assert (s = 0 \/ s = 1 \/ s = 2 \/ s = 3 \/ s = 4 \/ s = 5 \/ s = 6 \/ s = 7 \/ s = 8 \/ s = 9 \/ s = 10 \/ s = 11 \/
          s = 12 \/ s = 13 \/ s = 14 \/ s = 15) as C by lia.
    repeat (destruct C as [-> | C]; [reflexivity |]). subst. reflexivity. }
  assert (exists e, e = u - s /\ 1 <= e < 16) as (e & Ee & He) by (exists (u - s); lia). rewrite <- Ee in D.
  assert (e = 1 \/ e = 2 \/ e = 3 \/ e = 4 \/ e = 5 \/ e = 6 \/ e = 7 \/ e = 8 \/ e = 9 \/ e = 10 \/ e = 11 \/
          e = 12 \/ e = 13 \/ e = 14 \/ e = 15) as C by lia.
  clear E' Ee. repeat (destruct C as [-> | C]; [pow D; lia |]). subst. pow D. lia.
Qed.
Lemma no_pow_diff : forall d s u k, 0 <= s < 16 -> 0 <= u < 16 -> s <> u -> -255 <= d <= 255 ->
  d * (2 ^ u - 2 ^ s) = 65535 * k -> d = 0.
Proof.
  intros d s u k Hs Hu N Hd E. destruct (Z.lt_trichotomy s u) as [L | [L | L]]; [| lia |].
  - eapply (no_pow_diff_lt d s u k); eauto; lia.
  - apply (no_pow_diff_lt d u s (- k)); lia.
Qed.

(** * C92 *)

(** Two lines can only be confused if their sums agree modulo 65535, unless they are very different. *)
Theorem C92_confused : forall x y, line_ok x -> line_ok y -> Z.abs (total x - total y) < 2147483648 ->
  hash x = hash y -> (65535 | total x - total y).
Proof.
  intros x y [Bx Lx] [By Ly] Hd. rewrite !hash_squeeze. intros E.
  pose proof (total_bound x 0 Bx). pose proof (total_bound y 0 By). unfold total in *.
  apply squeeze_eq in E as [k E]; [| lia | lia | lia]. exists k. lia.
Qed.
(** Lines with the same sum are always confused. *)
Theorem C92_same_sum : forall x y, total x = total y -> hash x = hash y.
Proof. intros x y E. now rewrite !hash_squeeze, E. Qed.

Theorem C92_one_byte : forall x y, line_ok x -> line_ok y -> one_byte_changed x y -> hash x <> hash y.
Proof.
  intros x y Hx Hy (a & c & d & b & N & -> & ->) E.
  assert (is_byte c /\ is_byte d) as [Bc Bd].
  { destruct Hx as [Hx _], Hy as [Hy _]. apply Forall_elt in Hx. apply Forall_elt in Hy. auto. }
  pose proof (signed_bound c Bc). pose proof (signed_bound d Bd).
  assert (total (a ++ c :: b) - total (a ++ d :: b) = (signed c - signed d) * weight (length a)) as D.
  { unfold total. rewrite !total_app. cbn [total_from plus]. lia. }
  assert (0 <= (7 * Z.of_nat (length a)) mod 16 < 16) as W by (apply Z.mod_pos_bound; lia).
  apply C92_confused in E as [k E]; auto.
  - rewrite D in E. apply N, signed_inj; auto. enough (signed c - signed d = 0) by lia.
    apply (no_pow _ _ k W); [lia | unfold weight in E; lia].
  - rewrite D, Z.abs_mul. pose proof (pow_bound _ W). unfold weight in *. rewrite (Z.abs_eq (2 ^ _)) by lia.
    apply Z.le_lt_trans with (255 * 32768); [| lia]. apply Z.mul_le_mono_nonneg; lia.
Qed.

Theorem C92_exchange : forall x y dist, line_ok x -> line_ok y -> exchanged dist x y ->
  (hash x = hash y <-> (16 | Z.of_nat dist)).
Proof.
  intros x y dist Hx Hy (a & c & m & d & b & N & -> & -> & ->).
  assert (is_byte c /\ is_byte d) as [Bc Bd].
  { destruct Hx as [Hx _], Hy as [Hy _]. apply Forall_elt in Hx. apply Forall_elt in Hy. auto. }
  pose proof (signed_bound c Bc). pose proof (signed_bound d Bd).
  set (i := length a). set (j := (length a + S (length m))%nat).
  assert (total (a ++ d :: m ++ c :: b) - total (a ++ c :: m ++ d :: b) = (signed c - signed d) * (weight j - weight i)) as D.
  { unfold total. rewrite !total_app. cbn [total_from plus]. rewrite !total_app. cbn [total_from plus].
    unfold i, j. rewrite Nat.add_succ_r. cbn [plus]. lia. }
  assert (0 <= (7 * Z.of_nat i) mod 16 < 16) as W by (apply Z.mod_pos_bound; lia).
  assert (0 <= (7 * Z.of_nat j) mod 16 < 16) as W' by (apply Z.mod_pos_bound; lia).
  pose proof (Z.div_mod (7 * Z.of_nat i) 16 ltac:(lia)) as Mi. pose proof (Z.div_mod (7 * Z.of_nat j) 16 ltac:(lia)) as Mj.
  assert (Z.of_nat j = Z.of_nat i + Z.of_nat (S (length m))) as J by (unfold i, j; lia).
  split.
  - intros E. symmetry in E. apply C92_confused in E as [k E]; auto.
    + rewrite D in E. destruct (Z.eq_dec ((7 * Z.of_nat i) mod 16) ((7 * Z.of_nat j) mod 16)) as [Ew | Nw].
      * exists (7 * ((7 * Z.of_nat j) / 16 - (7 * Z.of_nat i) / 16) - 3 * Z.of_nat (S (length m))). lia.
      * exfalso. apply N, signed_inj; auto. enough (signed c - signed d = 0) by lia.
        apply (no_pow_diff _ _ _ k W W' Nw); [lia | unfold weight in E; lia].
    + rewrite D, Z.abs_mul. pose proof (pow_bound _ W). pose proof (pow_bound _ W'). unfold weight in *.
      apply Z.le_lt_trans with (255 * 32768); [| lia]. apply Z.mul_le_mono_nonneg; lia.
  - intros [k K]. apply C92_same_sum.
    assert ((7 * Z.of_nat j) mod 16 = (7 * Z.of_nat i) mod 16) as Ew.
    { rewrite J, K. replace (7 * (Z.of_nat i + k * 16)) with (7 * Z.of_nat i + (7 * k) * 16) by lia. apply Z.mod_add. lia. }
    unfold weight in D. rewrite Ew in D. lia.
Qed.

(** The same for texts. *)
Lemma join_piece : forall ps p, In p ps -> incl p (join_nl ps) /\ (length p <= length (join_nl ps))%nat.
Proof.
  induction ps as [| q ps IH]; intros p []; cbn [join_nl].
  - subst. destruct ps; [split; [apply incl_refl | lia] |]. split; [apply incl_appl, incl_refl | rewrite app_length; lia].
  - destruct ps as [| q' ps]; [contradiction |]. destruct (IH p H) as [I L]. split.
    + apply incl_appr, incl_tl, I.
    + rewrite app_length. cbn [length]. lia.
Qed.
Lemma lines_ok : forall text ls l, Forall is_byte text -> small text -> has_lines text ls -> In l ls -> line_ok l.
Proof.
  intros text ls l B S (ps & _ & -> & _ & ->) H. apply filter_In in H as [H _]. apply join_piece in H as [I L].
  unfold small in S. split; [| lia]. eapply incl_Forall; eauto.
Qed.
Lemma same_hashes : forall slack disk from to lf lt, 1 <= slack -> small from -> small to ->
  has_lines from lf -> has_lines to lt -> map hash lf = map hash lt -> calc_diff slack disk from to = Ok (0, 0).
Proof.
  intros slack disk from to lf lt Hs S1 S2 H1 H2 E. rewrite calc_small by auto.
  assert (length lf = length lt) as El by (rewrite <- (map_length hash lf), E; apply map_length).
  destruct (diff_mem_ok slack from to lf lt Hs H1 H2) as [[[Hz _] _]|[_ (L & HL & E')]]; rewrite E in *.
  - exfalso. assert (Em : middle (map hash lt) (map hash lt) = ([], [])).
    { unfold middle. assert (Es : forall l, strip l l = ([], [])).
      { induction l as [|x l IH]; cbn; auto. rewrite Z.eqb_refl. auto. }
      rewrite Es. reflexivity. }
    rewrite Em in Hz. contradiction.
  - rewrite E'. assert (HL' : is_lcs (length lt) (map hash lt) (map hash lt)).
    { split.
      - exists (map hash lt). rewrite map_length. split; auto. split; apply subseq_refl.
      - intros s Q _. apply subseq_length in Q. rewrite map_length in Q. auto. }
    rewrite (is_lcs_unique _ _ _ _ HL HL'). f_equal. f_equal; lia.
Qed.
Lemma one_hash : forall slack disk from to p x y q added removed, 1 <= slack -> small from -> small to ->
  has_lines from (p ++ x :: q) -> has_lines to (p ++ y :: q) -> hash x <> hash y ->
  calc_diff slack disk from to = Ok (added, removed) -> added = 1 /\ removed = 1.
Proof.
  intros slack disk from to p x y q a r Hs S1 S2 H1 H2 N E.
  destruct (C08_diff_is_minimal _ _ _ _ _ _ _ _ Hs S1 S2 H1 H2 E) as (L & [(s & Hl & Q1 & Q2) Hm] & -> & ->).
  pose proof (Hm (map hash (p ++ q))) as M.
  assert (forall z, subseq (map hash (p ++ q)) (map hash (p ++ z :: q))) as Sub.
  { intros z. clear. induction p as [| w p IH]; cbn; [apply sub_skip, subseq_refl | apply sub_take, IH]. }
  specialize (M (Sub x) (Sub y)). rewrite map_length, app_length in M. rewrite !app_length. cbn [length].
  pose proof (subseq_length _ _ Q1) as L1. rewrite map_length, app_length in L1. cbn [length] in L1.
  assert (L <> length p + S (length q))%nat as NL.
  { intros EL. assert (map hash (p ++ x :: q) = map hash (p ++ y :: q)) as EH.
    { rewrite <- (subseq_full _ _ Q1), <- (subseq_full _ _ Q2); auto; rewrite map_length, app_length; cbn [length]; lia. }
    rewrite !map_app in EH. apply app_inv_head in EH. cbn in EH. injection EH as EH. contradiction. }
  lia.
Qed.

Theorem C92_text : forall slack disk from to p x y q added removed,
  1 <= slack -> small from -> small to -> Forall is_byte from -> Forall is_byte to ->
  has_lines from (p ++ x :: q) -> has_lines to (p ++ y :: q) ->
  calc_diff slack disk from to = Ok (added, removed) ->
  (one_byte_changed x y -> added = 1 /\ removed = 1) /\
  (forall dist, exchanged dist x y ->
     ((16 | Z.of_nat dist) -> added = 0 /\ removed = 0) /\ (~ (16 | Z.of_nat dist) -> added = 1 /\ removed = 1)).
Proof.
  intros slack disk from to p x y q a r Hs S1 S2 B1 B2 H1 H2 E.
  assert (line_ok x) as Hx by (eapply (lines_ok from); eauto; apply in_elt).
  assert (line_ok y) as Hy by (eapply (lines_ok to); eauto; apply in_elt).
  split; [| intros dist D; split; intros K].
  - intros D. eapply (one_hash slack disk from to); eauto. now apply C92_one_byte.
  - rewrite (same_hashes slack disk from to (p ++ x :: q) (p ++ y :: q)) in E; auto; [injection E as <- <-; auto |].
    rewrite !map_app. cbn. do 2 f_equal. now apply (C92_exchange x y dist).
  - eapply (one_hash slack disk from to); eauto. intros EH. apply K. now apply (C92_exchange x y dist).
Qed.

(** "return a_b_c_d_e1;" and "1eturn a_b_c_d_er;" (two characters exchanged, 16 apart) count as the same
    line; "ab" and "ba" do not. *)
Example C92_case :
  let x := bytes "return a_b_c_d_e1;" in let y := bytes "1eturn a_b_c_d_er;" in
  exchanged 16 x y /\ line_ok x /\ line_ok y /\ has_lines x ([] ++ x :: []) /\
  calc_diff 1 no_disk x y = Ok (0, 0) /\
  exchanged 1 [97; 98] [98; 97] /\ calc_diff 1 no_disk [97; 98] [98; 97] = Ok (1, 1) /\
  one_byte_changed [97; 98] [97; 99] /\ calc_diff 1 no_disk [97; 98] [97; 99] = Ok (1, 1).
Proof.
  cbn zeta. split; [| split; [| split; [| split; [| split; [| split; [| split; [| split]]]]]]].
  - exists [], 114, (bytes "eturn a_b_c_d_e"), 49, [59]. repeat split; discriminate.
  - split; [repeat constructor; vm_compute; congruence | cbn; lia].
  - split; [repeat constructor; vm_compute; congruence | cbn; lia].
  - apply (has_lines_ex (bytes "return a_b_c_d_e1;")).
  - vm_compute. reflexivity.
  - exists [], 97, [], 98, []. repeat split; discriminate.
  - vm_compute. reflexivity.
  - exists [97], 98, 99, []. repeat split; discriminate.
  - vm_compute. reflexivity.
Qed.
(** The lines "rvnvx" and "sulzp" have different sums that agree modulo 65535. *)
Example C92_sums :
  total (bytes "rvnvx") - total (bytes "sulzp") = 65535 /\ hash (bytes "rvnvx") = hash (bytes "sulzp").
Proof. vm_compute. split; reflexivity. Qed.

Print Assumptions C92_confused.
Print Assumptions C92_same_sum.
Print Assumptions C92_one_byte.
Print Assumptions C92_exchange.
Print Assumptions C92_text.
