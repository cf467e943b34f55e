(** The shell sort of diff.c sorts. *)
From Coq Require Import ZArith List Bool Lia Permutation Sorted.
From Verif Require Import Base Arr DiffModel.
Import ListNotations.
Open Scope Z_scope.

(** [l] holds the (serial, value) pairs at indices 1..length l. *)
Definition seg (f : arr) (base : Z) (l : list (Z * Z)) : Prop :=
  forall k x, nth_error l k = Some x ->
    cell f (serial_at base (Z.of_nat k + 1)) = Some (fst x) /\
    cell f (value_at base (Z.of_nat k + 1)) = Some (snd x).

(** Cells outside of the segment are unchanged. *)
Definition outside (f f' : arr) (base n : Z) : Prop :=
  asize f' = asize f /\
  forall i, i < serial_at base 1 \/ i > value_at base n -> cell f' i = cell f i.

Definition kle (p q : Z * Z) : Prop :=
  snd p < snd q \/ (snd p = snd q /\ fst p <= fst q).

Lemma kle_trans p q r : kle p q -> kle q r -> kle p r.
Proof. unfold kle. lia. Qed.

Lemma outside_refl f base n : outside f f base n.
Proof. split; auto. Qed.

Lemma outside_trans f g h base n :
  outside f g base n -> outside g h base n -> outside f h base n.
Proof. intros [A1 B1] [A2 B2]. split; [congruence|]. intros. rewrite B2, B1; auto. Qed.

Definition swap {A} (l : list A) (i j : nat) (x y : A) : list A := upd (upd l i y) j x.

Lemma upd_app_r {A} (a b : list A) i x :
  upd (a ++ b) (length a + i) x = a ++ upd b i x.
Proof. induction a; cbn; auto. f_equal. auto. Qed.

Lemma upd_mid {A} (a : list A) y b x : upd (a ++ y :: b) (length a) x = a ++ x :: b.
Proof. rewrite <- (Nat.add_0_r (length a)). rewrite upd_app_r. reflexivity. Qed.

Lemma nth_error_split2 {A} (l : list A) i j x y :
  (i < j)%nat -> nth_error l i = Some x -> nth_error l j = Some y ->
  exists a b c, l = a ++ x :: b ++ y :: c /\ length a = i /\ length (a ++ x :: b) = j.
Proof.
  intros Hij Hx Hy. apply nth_error_split in Hx as (a & r & -> & Hl).
  rewrite nth_error_app2 in Hy by lia.
  destruct (j - length a)%nat as [|d] eqn:Ed; [lia|]. cbn in Hy.
  apply nth_error_split in Hy as (b & c & -> & Hb).
  exists a, b, c. split; auto. split; auto. rewrite app_length. cbn. lia.
Qed.

Lemma swap_split {A} (a b c : list A) x y :
  swap (a ++ x :: b ++ y :: c) (length a) (length (a ++ x :: b)) x y = a ++ y :: b ++ x :: c.
Proof.
  unfold swap. rewrite upd_mid.
  replace (a ++ y :: b ++ y :: c) with ((a ++ y :: b) ++ y :: c) by (rewrite <- app_assoc; reflexivity).
  replace (length (a ++ x :: b)) with (length (a ++ y :: b)) by (rewrite !app_length; reflexivity).
  rewrite upd_mid. rewrite <- app_assoc. reflexivity.
Qed.

Lemma swap_perm {A} (l : list A) i j x y :
  (i < j)%nat -> nth_error l i = Some x -> nth_error l j = Some y ->
  Permutation l (swap l i j x y).
Proof.
  intros Hij Hx Hy.
  destruct (nth_error_split2 l i j x y Hij Hx Hy) as (a & b & c & -> & <- & <-).
  rewrite swap_split. apply Permutation_app_head.
  change (x :: b ++ y :: c) with ((x :: b) ++ y :: c).
  change (y :: b ++ x :: c) with ((y :: b) ++ x :: c).
  rewrite <- !Permutation_middle. cbn. apply perm_swap.
Qed.

Lemma SS_app (a b : list (Z * Z)) :
  StronglySorted kle (a ++ b) <->
  StronglySorted kle a /\ StronglySorted kle b /\ forall x y, In x a -> In y b -> kle x y.
Proof.
  induction a as [|h t IH]; cbn.
  - split; [intros H; repeat split; auto; [constructor|contradiction]|tauto].
  - split.
    + intros H. inversion H as [|? ? Hs Hf]; subst. apply IH in Hs as (H1 & H2 & H3).
      rewrite Forall_app in Hf. destruct Hf as [Hf1 Hf2]. rewrite Forall_forall in Hf2.
      repeat split; auto; [constructor; auto|].
      intros x y [->|Hx] Hy; auto.
    + intros (H1 & H2 & H3). inversion H1 as [|? ? Hs Hf]; subst.
      constructor; [apply IH; repeat split; auto|].
      rewrite Forall_app. split; auto. rewrite Forall_forall. auto.
Qed.

(** Effect of the four stores. *)
Lemma swap_stores f base l p q x y :
  seg f base l -> 0 <= base -> value_at base (Z.of_nat (length l)) < asize f ->
  (p < q)%nat -> nth_error l p = Some x -> nth_error l q = Some y ->
  exists f4,
    (f1 <- aset f (serial_at base (Z.of_nat p + 1)) (fst y) ;;
     f2 <- aset f1 (value_at base (Z.of_nat p + 1)) (snd y) ;;
     f3 <- aset f2 (serial_at base (Z.of_nat q + 1)) (fst x) ;;
     aset f3 (value_at base (Z.of_nat q + 1)) (snd x)) = Ok f4 /\
    seg f4 base (swap l p q x y) /\ outside f f4 base (Z.of_nat (length l)).
Proof.
  intros Hs Hb Hsz Hpq Hp Hq. unfold serial_at, value_at in *.
  assert (Hpl : (p < length l)%nat) by (apply nth_error_Some; congruence).
  assert (Hql : (q < length l)%nat) by (apply nth_error_Some; congruence).
  destruct (aset_ex f (2 * (base + (Z.of_nat p + 1))) (fst y)) as (f1 & E1 & S1 & C1 & O1); [lia|].
  destruct (aset_ex f1 (2 * (base + (Z.of_nat p + 1)) + 1) (snd y)) as (f2 & E2 & S2 & C2 & O2); [lia|].
  destruct (aset_ex f2 (2 * (base + (Z.of_nat q + 1))) (fst x)) as (f3 & E3 & S3 & C3 & O3); [lia|].
  destruct (aset_ex f3 (2 * (base + (Z.of_nat q + 1)) + 1) (snd x)) as (f4 & E4 & S4 & C4 & O4); [lia|].
  exists f4. rewrite E1. cbn [bind]. rewrite E2. cbn [bind]. rewrite E3. cbn [bind]. rewrite E4.
  split; auto. split.
  - intros k z Hk. unfold serial_at, value_at.
    destruct (Nat.eq_dec k q) as [->|Hkq].
    + unfold swap in Hk. rewrite nth_error_upd_eq in Hk by (rewrite upd_length; auto).
      injection Hk as <-. rewrite O4 by lia. auto.
    + destruct (Nat.eq_dec k p) as [->|Hkp].
      * unfold swap in Hk. rewrite nth_error_upd_ne in Hk by lia.
        rewrite nth_error_upd_eq in Hk by auto. injection Hk as <-.
        rewrite O4, O3, O2, C1 by lia. rewrite O4, O3, C2 by lia. auto.
      * unfold swap in Hk. rewrite !nth_error_upd_ne in Hk by lia.
        rewrite !O4, !O3, !O2, !O1 by lia. apply Hs in Hk. exact Hk.
  - split; [congruence|]. intros i Hi. unfold serial_at, value_at in Hi.
    rewrite O4, O3, O2, O1 by lia. reflexivity.
Qed.

Lemma seg_get f base l k x :
  seg f base l -> 0 <= base -> value_at base (Z.of_nat (length l)) < asize f ->
  nth_error l k = Some x ->
  aget f (serial_at base (Z.of_nat k + 1)) = Ok (fst x) /\
  aget f (value_at base (Z.of_nat k + 1)) = Ok (snd x).
Proof.
  intros Hs Hb Hsz Hk. destruct (Hs _ _ Hk) as [H1 H2].
  assert ((k < length l)%nat) by (apply nth_error_Some; congruence).
  unfold serial_at, value_at in *.
  split; apply aget_ok; auto; lia.
Qed.

Lemma sort_inner_ok fuel : forall f base l (mm p : nat),
  seg f base l -> 0 <= base -> value_at base (Z.of_nat (length l)) < asize f ->
  (1 <= mm)%nat -> (p + mm < length l)%nat -> (p < fuel)%nat ->
  exists f' l',
    sort_inner fuel f base (Z.of_nat mm) (Z.of_nat p + 1) = Ok f' /\
    seg f' base l' /\ outside f f' base (Z.of_nat (length l)) /\ Permutation l l' /\
    (mm = 1%nat -> forall P x S R, l = P ++ x :: S ++ R -> length P = Datatypes.S p ->
       StronglySorted kle (P ++ S) -> (forall y, In y S -> kle x y) ->
       exists T, l' = T ++ R /\ StronglySorted kle T).
Proof.
  induction fuel as [|fuel IH]; intros f base l mm p Hs Hb Hsz Hmm Hp Hf; [lia|].
  assert (Hx : exists x, nth_error l p = Some x).
  { destruct (nth_error l p) eqn:E; eauto. apply nth_error_None in E. lia. }
  assert (Hy : exists y, nth_error l (p + mm) = Some y).
  { destruct (nth_error l (p + mm)) eqn:E; eauto. apply nth_error_None in E. lia. }
  destruct Hx as [x Hx]. destruct Hy as [y Hy].
  cbn [sort_inner].
  replace (Z.of_nat p + 1 + Z.of_nat mm) with (Z.of_nat (p + mm) + 1) by lia.
  destruct (seg_get _ _ _ _ _ Hs Hb Hsz Hx) as [Gx1 Gx2].
  destruct (seg_get _ _ _ _ _ Hs Hb Hsz Hy) as [Gy1 Gy2].
  rewrite Gy2. cbn [bind]. rewrite Gx2. cbn [bind]. rewrite Gy1. cbn [bind]. rewrite Gx1. cbn [bind].
  destruct ((snd y >? snd x) || ((snd y =? snd x) && (fst y >? fst x))) eqn:Ec.
  - exists f, l. split; auto. split; auto. split; [apply outside_refl|]. split; auto.
    intros -> P z S R El HlP HSS Hz. exists (P ++ z :: S).
    split; [rewrite El, <- app_assoc; reflexivity|].
    (* x is the last element of P, z = y *)
    assert (Hzy : z = y).
    { rewrite El in Hy. rewrite nth_error_app2 in Hy by lia.
      replace (p + 1 - length P)%nat with 0%nat in Hy by lia. cbn in Hy. congruence. }
    subst z.
    destruct (exists_last (l := P)) as (P' & w & ->); [intros ->; cbn in HlP; lia|].
    rewrite app_length in HlP; cbn in HlP.
    assert (Hwx : w = x).
    { rewrite El in Hx. rewrite <- app_assoc in Hx. rewrite nth_error_app2 in Hx by lia.
      replace (p - length P')%nat with 0%nat in Hx by lia. cbn in Hx. congruence. }
    subst w.
    assert (Hxy : kle x y).
    { unfold kle. rewrite orb_true_iff, andb_true_iff, Z.gtb_lt, Z.eqb_eq, Z.gtb_lt in Ec. lia. }
    apply SS_app in HSS as (H1 & H2 & H3).
    apply SS_app. split; auto. split.
    + constructor; auto. rewrite Forall_forall. auto.
    + intros u v Hu [<-|Hv]; [|auto].
      apply SS_app in H1 as (_ & _ & H4). apply in_app_iff in Hu as [Hu|[<-|[]]]; auto.
      eapply kle_trans; [apply (H4 u x); cbn; auto|auto].
  - destruct (swap_stores f base l p (p + mm) x y) as (f4 & E4 & Hs4 & Ho4); auto; [lia|].
    assert (Hpm : Permutation l (swap l p (p + mm) x y)) by (apply swap_perm; auto; lia).
    assert (Hlen : length (swap l p (p + mm) x y) = length l) by (unfold swap; rewrite !upd_length; auto).
    assert (Hins : mm = 1%nat -> forall P z S R, l = P ++ z :: S ++ R -> length P = Datatypes.S p ->
       StronglySorted kle (P ++ S) -> (forall y, In y S -> kle z y) ->
       z = y /\ exists P', P = P' ++ [x] /\ length P' = p /\
         swap l p (p + mm) x y = P' ++ y :: (x :: S) ++ R /\
         StronglySorted kle (P' ++ x :: S) /\ kle y x /\
         (forall u, In u (x :: S) -> kle y u)).
    { intros -> P z S R El HlP HSS Hz.
      assert (Hzy : z = y).
      { rewrite El in Hy. rewrite nth_error_app2 in Hy by lia.
        replace (p + 1 - length P)%nat with 0%nat in Hy by lia. cbn in Hy. congruence. }
      subst z. split; auto.
      destruct (exists_last (l := P)) as (P' & w & ->); [intros ->; cbn in HlP; lia|].
      rewrite app_length in HlP; cbn in HlP.
      assert (Hwx : w = x).
      { rewrite El in Hx. rewrite <- app_assoc in Hx. rewrite nth_error_app2 in Hx by lia.
        replace (p - length P')%nat with 0%nat in Hx by lia. cbn in Hx. congruence. }
      subst w. exists P'. split; auto. split; [lia|].
      assert (Hyx : kle y x).
      { unfold kle. rewrite orb_false_iff, andb_false_iff in Ec. 
        destruct Ec as [E1 E2]. rewrite Z.gtb_ltb, Z.ltb_ge in E1.
        destruct E2 as [E2|E2]; [apply Z.eqb_neq in E2|rewrite Z.gtb_ltb, Z.ltb_ge in E2]; lia. }
      split.
      - rewrite El. rewrite <- app_assoc. cbn [app].
        replace p with (length P') by lia.
        replace (length P' + 1)%nat with (length (P' ++ x :: [])) by (rewrite app_length; reflexivity).
        apply (swap_split P' [] (S ++ R) x y).
      - split; [rewrite <- app_assoc in HSS; exact HSS|]. split; auto.
        intros u [<-|Hu]; auto. }
    replace (f0 <- aset f (serial_at base (Z.of_nat p + 1)) (fst y) ;;
             f1 <- aset f0 (value_at base (Z.of_nat p + 1)) (snd y) ;;
             f2 <- aset f1 (serial_at base (Z.of_nat (p + mm) + 1)) (fst x) ;;
             f3 <- aset f2 (value_at base (Z.of_nat (p + mm) + 1)) (snd x) ;;
             (if Z.of_nat p + 1 - Z.of_nat mm >? 0
              then sort_inner fuel f3 base (Z.of_nat mm) (Z.of_nat p + 1 - Z.of_nat mm)
              else Ok f3))
      with (if Z.of_nat p + 1 - Z.of_nat mm >? 0
              then sort_inner fuel f4 base (Z.of_nat mm) (Z.of_nat p + 1 - Z.of_nat mm)
              else Ok f4).
    2:{ apply bind_ok in E4 as (f1 & F1 & E4). apply bind_ok in E4 as (f2 & F2 & E4).
        apply bind_ok in E4 as (f3 & F3 & E4). rewrite F1; cbn [bind]. rewrite F2; cbn [bind].
        rewrite F3; cbn [bind]. rewrite E4. reflexivity. }
    destruct (Z.of_nat p + 1 - Z.of_nat mm >? 0) eqn:Eg.
    + rewrite Z.gtb_lt in Eg.
      replace (Z.of_nat p + 1 - Z.of_nat mm) with (Z.of_nat (p - mm) + 1) by lia.
      destruct (IH f4 base (swap l p (p + mm) x y) mm (p - mm)%nat) as (f' & l' & E & Hs' & Ho' & Hp' & Hi');
        auto; try lia; [rewrite Hlen; destruct Ho4 as [-> _]; auto|].
      exists f', l'. split; auto. split; auto. split.
      { rewrite Hlen in Ho'. eapply outside_trans; eauto. }
      split; [etransitivity; eauto|].
      intros Hm1 P z S R El HlP HSS Hz.
      destruct (Hins Hm1 P z S R El HlP HSS Hz) as (-> & P' & -> & HlP' & Esw & HSS' & _ & Hy').
      destruct (Hi' Hm1 P' y (x :: S) R) as (T & -> & HT); auto; [lia|].
      exists T. auto.
    + assert (Hg : Z.of_nat p + 1 - Z.of_nat mm <= 0) by (rewrite Z.gtb_ltb, Z.ltb_ge in Eg; lia).
      exists f4, (swap l p (p + mm) x y). split; auto. split; auto. split; auto. split; auto.
      intros Hm1 P z S R El HlP HSS Hz.
      destruct (Hins Hm1 P z S R El HlP HSS Hz) as (-> & P' & -> & HlP' & Esw & HSS' & Hyx & Hy').
      destruct P' as [|? ?]; [|cbn in HlP'; lia]. cbn in Esw, HSS'.
      exists (y :: x :: S). split; [exact Esw|]. constructor; auto. rewrite Forall_forall. auto.
Qed.

Lemma sort_mid_ok fuel : forall f base l (mm j : nat),
  seg f base l -> 0 <= base -> value_at base (Z.of_nat (length l)) < asize f ->
  (1 <= mm)%nat -> (1 <= j)%nat -> (length l - j < fuel)%nat ->
  exists f' l',
    sort_mid fuel f base (Z.of_nat (length l)) (Z.of_nat mm) (Z.of_nat j) = Ok f' /\
    seg f' base l' /\ outside f f' base (Z.of_nat (length l)) /\ Permutation l l' /\
    (mm = 1%nat -> StronglySorted kle (firstn j l) -> StronglySorted kle l').
Proof.
  induction fuel as [|fuel IH]; intros f base l mm j Hs Hb Hsz Hmm Hj Hf; [lia|].
  cbn [sort_mid].
  destruct (Z.of_nat j <=? Z.of_nat (length l) - Z.of_nat mm) eqn:Ec.
  - apply Z.leb_le in Ec.
    destruct (sort_inner_ok (S (Z.to_nat (Z.of_nat (length l)))) f base l mm (j - 1))
      as (f1 & l1 & E1 & Hs1 & Ho1 & Hp1 & Hi1); auto; try lia.
    replace (Z.of_nat (j - 1) + 1) with (Z.of_nat j) in E1 by lia.
    rewrite E1. cbn [bind].
    pose proof (Permutation_length Hp1) as Hl1.
    replace (Z.of_nat j + 1) with (Z.of_nat (j + 1)) by lia.
    destruct (IH f1 base l1 mm (j + 1)%nat) as (f2 & l2 & E2 & Hs2 & Ho2 & Hp2 & Hi2); auto; try lia.
    { rewrite <- Hl1. destruct Ho1 as [-> _]. auto. }
    rewrite <- Hl1 in E2, Ho2.
    exists f2, l2. split; auto. split; auto. split; [eapply outside_trans; eauto|].
    split; [etransitivity; eauto|].
    intros Hm1 HSS. apply Hi2; auto.
    assert (Hjl : (j < length l)%nat) by lia.
    destruct (nth_error l j) as [x|] eqn:Ex; [|apply nth_error_None in Ex; lia].
    pose proof (nth_error_split _ _ Ex) as (P & R & El & HlP).
    destruct (Hi1 Hm1 P x [] R) as (T & -> & HT); auto; try lia.
    { rewrite app_nil_r. rewrite El, <- HlP, firstn_app, Nat.sub_diag, firstn_all in HSS.
      cbn in HSS. rewrite app_nil_r in HSS. exact HSS. }
    { intros y []. }
    assert (length T = (j + 1)%nat).
    { rewrite El, !app_length in Hl1. cbn in Hl1. lia. }
    rewrite <- H, firstn_app, Nat.sub_diag, firstn_all. cbn. rewrite app_nil_r. auto.
  - apply Z.leb_gt in Ec. exists f, l. split; auto. split; auto. split; [apply outside_refl|].
    split; auto. intros -> HSS. rewrite firstn_all2 in HSS by lia. auto.
Qed.

Lemma sort_outer_ok fuel : forall f base l (mm : nat),
  seg f base l -> 0 <= base -> value_at base (Z.of_nat (length l)) < asize f ->
  (mm < fuel)%nat ->
  exists f' l',
    sort_outer fuel f base (Z.of_nat (length l)) (Z.of_nat mm) = Ok f' /\
    seg f' base l' /\ outside f f' base (Z.of_nat (length l)) /\ Permutation l l' /\
    ((mm = 0%nat -> StronglySorted kle l) -> StronglySorted kle l').
Proof.
  induction fuel as [|fuel IH]; intros f base l mm Hs Hb Hsz Hf; [lia|].
  cbn [sort_outer].
  destruct (Z.of_nat mm =? 0) eqn:E0.
  - apply Z.eqb_eq in E0. exists f, l. split; auto. split; auto. split; [apply outside_refl|].
    split; auto. intros H; apply H; lia.
  - apply Z.eqb_neq in E0.
    destruct (sort_mid_ok (S (Z.to_nat (Z.of_nat (length l)))) f base l mm 1)
      as (f1 & l1 & E1 & Hs1 & Ho1 & Hp1 & Hi1); auto; try lia.
    change (Z.of_nat 1) with 1 in E1. rewrite E1. cbn [bind].
    pose proof (Permutation_length Hp1) as Hl1.
    replace (Z.of_nat mm / 2) with (Z.of_nat (mm / 2)) by (rewrite Nat2Z.inj_div; reflexivity).
    pose proof (Nat.div_lt mm 2 ltac:(lia) ltac:(lia)).
    destruct (IH f1 base l1 (mm / 2)%nat) as (f2 & l2 & E2 & Hs2 & Ho2 & Hp2 & Hi2); auto; try lia.
    { rewrite <- Hl1. destruct Ho1 as [-> _]. auto. }
    rewrite <- Hl1 in E2, Ho2.
    exists f2, l2. split; auto. split; auto. split; [eapply outside_trans; eauto|].
    split; [etransitivity; eauto|].
    intros _. apply Hi2. intros Hd. apply Hi1.
    + destruct mm as [|[|k]]; auto; try lia.
      assert (1 <= S (S k) / 2)%nat by (apply (Nat.div_le_lower_bound _ 2 1); lia). lia.
    + destruct l; cbn; constructor; constructor.
Qed.

Lemma sort_m_ok fuel : forall n i,
  1 <= i -> (Z.to_nat (n - i + 1) < fuel)%nat ->
  exists m, sort_m fuel n i (i - 1) = Ok m /\ n <= m /\ (i <= n -> m <= 2 * n - 1) /\
            (n < i -> m = i - 1).
Proof.
  induction fuel as [|fuel IH]; intros n i Hi Hf; [lia|]. cbn [sort_m].
  destruct (i <=? n) eqn:E.
  - apply Z.leb_le in E.
    replace (2 * i - 1) with (i * 2 - 1) by lia.
    destruct (IH n (i * 2)) as (m & -> & H1 & H2 & H3); try lia.
    exists m. split; auto. split; auto. split; [|lia]. intros _.
    destruct (Z_le_gt_dec (i * 2) n); [auto|]. rewrite H3 by lia. lia.
  - apply Z.leb_gt in E. exists (i - 1). repeat split; lia.
Qed.

Theorem sort_ok f base l :
  seg f base l -> 0 <= base -> value_at base (Z.of_nat (length l)) < asize f ->
  exists f' l',
    sort f base (Z.of_nat (length l)) = Ok f' /\
    seg f' base l' /\ outside f f' base (Z.of_nat (length l)) /\ Permutation l l' /\
    StronglySorted kle l'.
Proof.
  intros Hs Hb Hsz. unfold sort.
  set (n := Z.of_nat (length l)) in *.
  destruct (sort_m_ok (S (Z.to_nat n)) n 1) as (m & E & H1 & H2 & H3); try lia.
  change (1 - 1) with 0 in E. rewrite E. cbn [bind].
  assert (Hm : 0 <= m) by lia.
  assert (Hm2 : (Z.to_nat (m / 2) < S (Z.to_nat n))%nat).
  { destruct (Z_le_gt_dec 1 n).
    - assert (m / 2 < n) by (apply Z.div_lt_upper_bound; lia). lia.
    - rewrite H3 by lia. cbn. lia. }
  destruct (sort_outer_ok (S (Z.to_nat n)) f base l (Z.to_nat (m / 2)) Hs Hb Hsz Hm2)
    as (f' & l' & E' & Hs' & Ho' & Hp' & Hi').
  rewrite Z2Nat.id in E' by (apply Z.div_pos; lia).
  exists f', l'. repeat (split; auto). apply Hi'. intros Hz.
  destruct l as [|x [|y l]].
  - constructor.
  - repeat constructor.
  - exfalso. assert (2 <= n) by (unfold n; cbn [length]; lia).
    assert (1 <= m / 2) by (apply Z.div_le_lower_bound; lia). lia.
Qed.
