(** The whole in-memory diff. *)
From Coq Require Import ZArith List Bool Lia Permutation Sorted.
From Verif Require Import Base Arr DiffModel DiffSpec DiffSortProofs DiffStoneProofs DiffProofs
  DiffEquivProofs DiffLcsProofs DiffOutProofs.
Import ListNotations.
Open Scope Z_scope.

Lemma zero_largest_iff l lb : Permutation lb (number 1 l) -> StronglySorted kle lb ->
  lastv None lb = Some 0 <-> zero_is_largest l.
Proof.
  intros Hp Hs.
  assert (Hin : forall v, In v (map snd lb) <-> In v l).
  { intros v. assert (Hpm : Permutation (map snd lb) (map snd (number 1 l))) by (apply Permutation_map; auto).
    assert (E : map snd (number 1 l) = l).
    { generalize 1. clear. induction l as [|x l IH]; intros i; cbn; auto. f_equal. auto. }
    rewrite E in Hpm. split; apply Permutation_in; auto using Permutation_sym. }
  split.
  - intros H. apply lastv_max in H as [H1 H2]; auto. split; [apply Hin; auto|].
    intros v Hv. apply Hin in Hv. apply in_map_iff in Hv as (x & <- & Hx). auto.
  - intros [H1 H2]. apply Hin in H1. destruct (lastv_ex lb) as [z Hz]; [intros ->; contradiction|].
    rewrite Hz. f_equal. apply lastv_max in Hz as [Hz1 Hz2]; auto.
    apply in_map_iff in H1 as (x & Ex & Hx). apply Hz2 in Hx. apply Hin in Hz1. apply H2 in Hz1. lia.
Qed.

Theorem diff_mem_ok slack from to lf lt : 1 <= slack -> has_lines from lf -> has_lines to lt ->
  (zero_is_largest (snd (middle (map hash lf) (map hash lt))) /\ diff_mem slack from to = Ub Uninit) \/
  (~ zero_is_largest (snd (middle (map hash lf) (map hash lt))) /\
   exists L, is_lcs L (map hash lf) (map hash lt) /\
     diff_mem slack from to = Ok (Z.of_nat (length lt) - Z.of_nat L, Z.of_nat (length lf) - Z.of_nat L)).
Proof.
  intros Hsl Hlf Hlt. apply has_lines_strtok in Hlf as Ef. apply has_lines_strtok in Hlt as Et.
  unfold diff_mem.
  destruct (prepare_ok slack from Hsl) as (f0 & Ep0 & F0). destruct (prepare_ok slack to Hsl) as (f1 & Ep1 & F1).
  rewrite Ep0. cbn [bind]. rewrite Ep1. cbn [bind]. rewrite Ef, Et in *.
  set (H0 := map hash lf) in *. set (H1 := map hash lt) in *.
  assert (L0 : length H0 = length lf) by apply map_length.
  assert (L1 : length H1 = length lt) by apply map_length.
  rewrite <- L0, <- L1. clear Ep0 Ep1.
  destruct (prune_pref_ok f0 f1 H0 H1 F0 F1 H0 H1 [] (S (Z.to_nat (Z.of_nat (length H0)))))
    as (P & X & Y & Epp & EX & EY & Est); auto; [lia|].
  cbn [length] in Epp. change (Z.of_nat 0) with 0 in Epp. rewrite Epp. cbn [bind].
  destruct (prune_suff_ok f0 f1 H0 H1 P F0 F1 (rev X) (rev Y) [] (S (Z.to_nat (Z.of_nat (length H0)))))
    as (A & B & Sf & Eps & EA & EB & Est2).
  { rewrite rev_involutive, app_nil_r. auto. }
  { rewrite rev_involutive, app_nil_r. auto. }
  { rewrite rev_length. rewrite EX, app_length. lia. }
  change (Z.of_nat (@length Z [])) with 0 in Eps. rewrite Eps. cbn [bind].
  assert (Hmid : middle H0 H1 = (A, B)).
  { unfold middle. rewrite Est, Est2, !rev_involutive. auto. }
  rewrite Hmid. cbn [snd].
  assert (LA : length H0 = (length P + length A + length Sf)%nat) by (rewrite EA, !app_length; lia).
  assert (LB : length H1 = (length P + length B + length Sf)%nat) by (rewrite EB, !app_length; lia).
  replace (Z.of_nat (length H0) - Z.of_nat (length P) - Z.of_nat (length Sf)) with (Z.of_nat (length A)) by lia.
  replace (Z.of_nat (length H1) - Z.of_nat (length P) - Z.of_nat (length Sf)) with (Z.of_nat (length B)) by lia.
  destruct (prune_file f0 H0 P A Sf F0 EA) as (g0 & Eg0 & Sg0 & Hg0 & Ng0).
  destruct (prune_file f1 H1 P B Sf F1 EB) as (g1 & Eg1 & Sg1 & Hg1 & Ng1).
  rewrite !Nat2Z.id, Eg0. cbn [bind]. rewrite Eg1. cbn [bind].
  set (b := Z.of_nat (length P)) in *.
  destruct (sort_ok g0 b (number 1 A) Hg0) as (s0 & la & Es0 & Hs0 & O0 & P0 & SS0).
  { unfold b; lia. } { rewrite number_length. unfold value_at, b. lia. }
  destruct (sort_ok g1 b (number 1 B) Hg1) as (s1 & lb & Es1 & Hs1 & O1 & P1 & SS1).
  { unfold b; lia. } { rewrite number_length. unfold value_at, b. lia. }
  rewrite number_length in Es0, Es1, O0, O1. rewrite Es0. cbn [bind]. rewrite Es1. cbn [bind].
  assert (Lla : length la = length A) by (rewrite <- (Permutation_length P0); apply number_length).
  assert (Llb : length lb = length B) by (rewrite <- (Permutation_length P1); apply number_length).
  destruct O0 as [Z0 O0]. destruct O1 as [Z1 O1].
  destruct (equiv_ok s0 s1 b la lb) as
    [(e0 & e1 & Ee & A0 & A1 & Hc & Hm & Hnz)|(Ee & Hz)]; auto.
  { unfold b; lia. }
  { rewrite Lla. unfold value_at, b. lia. }
  { rewrite Llb. unfold value_at, b. lia. }
  { rewrite Llb, O1; auto. unfold serial_at, value_at. lia. }
  2:{ left. split; [apply (zero_largest_iff B lb); auto using Permutation_sym|].
      rewrite Lla, Llb in Ee. rewrite Ee. auto. }
  right. split; [intros Hz; apply Hnz; apply (zero_largest_iff B lb); auto using Permutation_sym|].
  rewrite Lla, Llb in Ee. rewrite Ee. cbn [bind].
  destruct (unsort_ok e0 b A (cls 1 lb) la) as (u & Eu & Su & Cu); auto using Permutation_sym.
  { unfold b; lia. }
  { rewrite A0, Z0, Sg0. unfold value_at, b. lia. }
  rewrite Eu. cbn [bind].
  assert (Hcls : class_ok (mt A B) (Z.of_nat (length A)) (arealloc u (Z.of_nat (length A) + 2))
                   (arealloc e1 (Z.of_nat (length B) + 2))).
  { apply (class_ok_intro A B lb); auto using Permutation_sym; cbn [arealloc asize cell]; try lia.
    - intros k v Hk. pose proof (nth_error_lt _ _ _ Hk).
      replace (Z.of_nat k + 1 <? asize u) with true by (symmetry; apply Z.ltb_lt; lia). auto.
    - intros k v Hk. pose proof (nth_error_lt _ _ _ Hk) as Hkl. rewrite app_length, memf_length in Hkl. cbn [length] in Hkl.
      replace (Z.of_nat k + 1 <? asize e1) with true by (symmetry; apply Z.ltb_lt; lia). auto. }
  destruct (stone_result (mt A B) (Z.of_nat (length A)) (Z.of_nat (length B)) (mt_range A B)
              (arealloc u (Z.of_nat (length A) + 2)) (arealloc e1 (Z.of_nat (length B) + 2))
              (anew (Z.of_nat (length A) + 2)))
    as (cl & c' & k & q & path & Est' & Eq & Hch & Hlen & Hmax & Hcs); auto; try lia.
  { cbn [anew asize]. lia. }
  rewrite Est'. cbn [bind]. rewrite Eq. cbn [bind].
  pose proof (unravel_output_ok (mt A B) (Z.of_nat (length A)) (Z.of_nat (length B)) (mt_range A B) cl q path
    (Z.of_nat (length H0)) (Z.of_nat (length H1)) b (Z.of_nat (length Sf)) Hch) as Hout.
  unfold b in *. rewrite Hout by lia.
  pose proof (cs_lcs A B k Hcs Hmax) as Hl.
  exists (length P + (Z.to_nat k + length Sf))%nat. split.
  - rewrite EA, EB. apply is_lcs_prefix, is_lcs_suffix. auto.
  - f_equal. f_equal; lia.
Qed.

(** * Lemmas used by the property file *)
Lemma subseq_map {A B} (f : A -> B) s l : subseq s l -> subseq (map f s) (map f l).
Proof. induction 1; cbn; [apply sub_nil|apply sub_skip|apply sub_take]; auto. Qed.

Lemma subseq_in {A} (s l : list A) x : subseq s l -> In x s -> In x l.
Proof. induction 1; cbn; intuition. Qed.

Lemma subseq_map_inv {A B} (f : A -> B) l : forall t, subseq t (map f l) -> exists s, t = map f s /\ subseq s l.
Proof.
  induction l as [|x l IH]; cbn; intros t H.
  - inversion H; subst. exists []. split; auto. constructor.
  - inversion H as [|? ? ? H'|? ? ? H']; subst.
    + destruct (IH _ H') as (s & -> & Hs). exists s. split; auto. constructor. auto.
    + destruct (IH _ H') as (s' & -> & Hs). exists (x :: s'). split; auto. apply sub_take. auto.
Qed.

Lemma map_inj_eq {A B} (f : A -> B) (D : A -> Prop) (s t : list A) :
  (forall x y, D x -> D y -> f x = f y -> x = y) -> (forall x, In x s -> D x) -> (forall x, In x t -> D x) ->
  map f s = map f t -> s = t.
Proof.
  intros Hinj. revert t. induction s as [|x s IH]; intros [|y t] Hs Ht E; cbn in E; try discriminate; auto.
  injection E as E1 E2. f_equal.
  - apply Hinj; auto; [apply Hs|apply Ht]; cbn; auto.
  - apply IH; auto; intros; [apply Hs|apply Ht]; cbn; auto.
Qed.

Lemma is_lcs_map_inj {A B} (f : A -> B) L xs ys :
  (forall x y, In x (xs ++ ys) -> In y (xs ++ ys) -> f x = f y -> x = y) ->
  is_lcs L (map f xs) (map f ys) -> is_lcs L xs ys.
Proof.
  intros Hinj [(t & Hl & Q1 & Q2) Hm]. split.
  - apply subseq_map_inv in Q1 as (s1 & E1 & R1). apply subseq_map_inv in Q2 as (s2 & E2 & R2).
    assert (s1 = s2).
    { apply (map_inj_eq f (fun x => In x (xs ++ ys))); auto; try congruence; intros x Hx; apply in_app_iff.
      - left. eapply subseq_in; eauto.
      - right. eapply subseq_in; eauto. }
    subst s2. exists s1. split; auto. rewrite <- Hl, E1, map_length. auto.
  - intros s R1 R2. rewrite <- (map_length f s). apply Hm; apply subseq_map; auto.
Qed.

Lemma subseq_full {A} (s l : list A) : subseq s l -> length s = length l -> s = l.
Proof.
  induction 1 as [|x s l H IH|x s l H IH]; cbn; intros E; auto.
  - apply subseq_length in H. lia.
  - f_equal. auto.
Qed.

Lemma prepare_lines slack a b : strtok_lines a = strtok_lines b -> prepare slack a = prepare slack b.
Proof.
  intros E. unfold prepare. rewrite E. unfold aset, inb, anew. cbn [asize].
  replace (0 <=? Z.of_nat (length a)) with true by (symmetry; apply Z.leb_le; lia).
  replace (0 <=? Z.of_nat (length b)) with true by (symmetry; apply Z.leb_le; lia).
  destruct (Z.ltb_spec (Z.of_nat (length a)) (Z.of_nat (length a) + slack));
  destruct (Z.ltb_spec (Z.of_nat (length b)) (Z.of_nat (length b) + slack)); auto; lia.
Qed.

Lemma split_nl_app p q : split_nl (p ++ 10 :: q) = split_nl p ++ split_nl q.
Proof.
  induction p as [|c p IH]; cbn [app split_nl].
  - reflexivity.
  - rewrite IH. destruct (c =? 10); auto.
    destruct (split_nl_cons p) as (l & ls & ->). reflexivity.
Qed.

Lemma strtok_app p q : strtok_lines (p ++ 10 :: q) = strtok_lines p ++ strtok_lines q.
Proof. unfold strtok_lines. rewrite split_nl_app. apply filter_app. Qed.

Lemma strtok_insert p q :
  (p = [] \/ (exists p', p = p' ++ [10]) \/ q = [] \/ (exists q', q = 10 :: q')) ->
  strtok_lines (p ++ 10 :: q) = strtok_lines (p ++ q).
Proof.
  intros [->|[[p' ->]|[->|[q' ->]]]].
  - apply (strtok_app [] q).
  - rewrite strtok_app, <- app_assoc. cbn [app]. rewrite !strtok_app. cbn. rewrite app_nil_r. auto.
  - rewrite strtok_app, app_nil_r. cbn. rewrite app_nil_r. auto.
  - rewrite !strtok_app. f_equal.
Qed.
