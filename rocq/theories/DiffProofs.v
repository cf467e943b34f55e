(** Correctness of the line diff: refinement of the memory model to longest
    common subsequences. *)
From Coq Require Import ZArith List Bool Lia Permutation Sorted.
From Verif Require Import Base Arr DiffModel DiffSpec DiffSortProofs DiffStoneProofs.
Import ListNotations.
Open Scope Z_scope.

(** * Lists *)
Lemma nth_error_ex {A} (l : list A) k : (k < length l)%nat -> exists x, nth_error l k = Some x.
Proof. intros H. destruct (nth_error l k) eqn:E; eauto. apply nth_error_None in E. lia. Qed.

Lemma nth_error_lt {A} (l : list A) k x : nth_error l k = Some x -> (k < length l)%nat.
Proof. intros H. apply nth_error_Some. congruence. Qed.

(** * Subsequences *)
Lemma subseq_nil_l {A} (l : list A) : subseq [] l.
Proof. induction l; constructor; auto. Qed.

Lemma subseq_app {A} (s1 s2 l1 l2 : list A) :
  subseq s1 l1 -> subseq s2 l2 -> subseq (s1 ++ s2) (l1 ++ l2).
Proof. induction 1; cbn; auto; intros; [apply sub_skip|apply sub_take]; auto. Qed.

Lemma subseq_refl {A} (l : list A) : subseq l l.
Proof. induction l; [constructor|apply sub_take; auto]. Qed.

Lemma subseq_rev {A} (s l : list A) : subseq s l -> subseq (rev s) (rev l).
Proof.
  induction 1; cbn.
  - constructor.
  - rewrite <- (app_nil_r (rev s)). apply subseq_app; auto. apply subseq_nil_l.
  - apply subseq_app; auto. apply subseq_refl.
Qed.

Lemma subseq_tl {A} (s l : list A) x : subseq s (x :: l) -> subseq (tl s) l.
Proof.
  intros H. inversion H; subst; cbn; auto.
  clear H. revert H2. generalize s. clear s.
  induction l as [|y l IH]; intros s H; inversion H; subst; cbn.
  - constructor.
  - apply sub_skip. auto.
  - apply sub_skip. auto.
Qed.

Lemma subseq_length {A} (s l : list A) : subseq s l -> (length s <= length l)%nat.
Proof. induction 1; cbn; lia. Qed.

Lemma subseq_snoc_inv {A} (s l : list A) a : subseq (s ++ [a]) l ->
  exists l1 l2, l = l1 ++ a :: l2 /\ subseq s l1.
Proof.
  revert s; induction l as [|y l IH]; intros s H.
  - inversion H. destruct s; discriminate.
  - inversion H as [|? ? ? H1|? ? ? H1 E]; subst.
    + destruct (IH _ H1) as (l1 & l2 & -> & Hs). exists (y :: l1), l2. split; auto. constructor; auto.
    + destruct s as [|b s]; cbn in E; injection E as -> E.
      * exists [], l. subst. split; auto. constructor.
      * subst. destruct (IH _ H1) as (l1 & l2 & -> & Hs). exists (b :: l1), l2. split; auto. apply sub_take; auto.
Qed.

Lemma is_lcs_unique {A} L L' (xs ys : list A) : is_lcs L xs ys -> is_lcs L' xs ys -> L = L'.
Proof.
  intros [(s & Hs & H1 & H2) Hm] [(s' & Hs' & H1' & H2') Hm'].
  specialize (Hm _ H1' H2'). specialize (Hm' _ H1 H2). lia.
Qed.

Lemma is_lcs_sym {A} L (xs ys : list A) : is_lcs L xs ys -> is_lcs L ys xs.
Proof. intros [(s & Hs & H1 & H2) Hm]. split; [exists s; auto|]. auto. Qed.

Lemma is_lcs_cons {A} L x (xs ys : list A) : is_lcs L xs ys -> is_lcs (S L) (x :: xs) (x :: ys).
Proof.
  intros [(s & Hs & H1 & H2) Hm]. split.
  - exists (x :: s). cbn. split; auto. split; apply sub_take; auto.
  - intros t Ht1 Ht2. apply subseq_tl in Ht1, Ht2. specialize (Hm _ Ht1 Ht2). destruct t; cbn in *; lia.
Qed.

Lemma is_lcs_prefix {A} (p : list A) L xs ys :
  is_lcs L xs ys -> is_lcs (length p + L) (p ++ xs) (p ++ ys).
Proof. intros H. induction p; cbn; auto. apply is_lcs_cons. auto. Qed.

Lemma is_lcs_rev {A} L (xs ys : list A) : is_lcs L xs ys -> is_lcs L (rev xs) (rev ys).
Proof.
  intros [(s & Hs & H1 & H2) Hm]. split.
  - exists (rev s). rewrite rev_length. split; auto. split; apply subseq_rev; auto.
  - intros t Ht1 Ht2. apply subseq_rev in Ht1, Ht2. rewrite rev_involutive in Ht1, Ht2.
    specialize (Hm _ Ht1 Ht2). rewrite rev_length in Hm. auto.
Qed.

Lemma is_lcs_suffix {A} (p : list A) L xs ys :
  is_lcs L xs ys -> is_lcs (L + length p) (xs ++ p) (ys ++ p).
Proof.
  intros H. apply is_lcs_rev in H. apply (is_lcs_prefix (rev p)) in H.
  apply is_lcs_rev in H. rewrite !rev_app_distr, !rev_involutive in H.
  rewrite rev_length in H. rewrite Nat.add_comm. exact H.
Qed.

(** * Lines *)
Lemma split_nl_cons s : exists l ls, split_nl s = l :: ls.
Proof.
  destruct s as [|c s]; cbn; eauto. destruct (c =? 10); eauto.
  destruct (split_nl s); eauto.
Qed.

Lemma split_nl_app p s : ~ In 10 p ->
  split_nl (p ++ 10 :: s) = p :: split_nl s.
Proof.
  induction p as [|c p IH]; intros H; cbn [app split_nl].
  - reflexivity.
  - destruct (Z.eqb_spec c 10) as [->|]; [exfalso; apply H; cbn; auto|].
    rewrite IH by (intros Hi; apply H; cbn; auto). reflexivity.
Qed.

Lemma split_nl_last p : ~ In 10 p -> split_nl p = [p].
Proof.
  induction p as [|c p IH]; intros H; cbn; auto.
  destruct (Z.eqb_spec c 10) as [->|]; [exfalso; apply H; cbn; auto|].
  rewrite IH by (intros Hi; apply H; cbn; auto). reflexivity.
Qed.

Lemma split_nl_join pieces : pieces <> [] -> (forall p, In p pieces -> ~ In 10 p) ->
  split_nl (join_nl pieces) = pieces.
Proof.
  induction pieces as [|p [|q r] IH]; intros Hne H; [congruence| |].
  - cbn [join_nl]. apply split_nl_last. apply H. cbn; auto.
  - change (join_nl (p :: q :: r)) with (p ++ 10 :: join_nl (q :: r)).
    rewrite split_nl_app by (apply H; cbn; auto). f_equal. apply IH; [discriminate|].
    intros x Hx. apply H. cbn; auto.
Qed.

Lemma has_lines_strtok text ls : has_lines text ls -> strtok_lines text = ls.
Proof.
  intros (pieces & Hne & -> & Hn & ->). unfold strtok_lines.
  rewrite split_nl_join by auto. reflexivity.
Qed.

Lemma split_nl_spec s : s = join_nl (split_nl s) /\ forall p, In p (split_nl s) -> ~ In 10 p.
Proof.
  induction s as [|c s [IH1 IH2]]; cbn.
  - split; auto. intros p [<-|[]] [].
  - destruct (split_nl_cons s) as (l & ls & E). destruct (Z.eqb_spec c 10) as [->|Hc].
    + rewrite E in *. split.
      * change (join_nl ([] :: l :: ls)) with (10 :: join_nl (l :: ls)). congruence.
      * intros p [<-|Hp]; auto.
    + rewrite E in *. split.
      * destruct ls as [|q ls]; cbn [join_nl app] in *; congruence.
      * intros p [<-|Hp]; [|apply IH2; cbn; auto].
        intros [->|Hi]; [congruence|]. apply (IH2 l); cbn; auto.
Qed.

Lemma has_lines_ex text : has_lines text (strtok_lines text).
Proof.
  destruct (split_nl_spec text) as [H1 H2]. exists (split_nl text).
  split; [destruct (split_nl_cons text) as (l & ls & ->); discriminate|]. auto.
Qed.

(** * prepare *)

(** The array holds the hashes [H] at lines 1..; no serial number is set. *)
Definition file_ok (f : arr) (H : list Z) : Prop :=
  asize f = 2 * (Z.of_nat (length H) + 3) /\
  (forall k v, nth_error H k = Some v -> cell f (value_at 0 (Z.of_nat k + 1)) = Some v) /\
  (forall k, cell f (serial_at 0 k) = None).

Lemma prepare_loop_ok ls : forall f H,
  file_ok f H ->
  exists f', prepare_loop (Z.of_nat (length H)) f ls =
             Ok (Z.of_nat (length H + length ls), f') /\
             file_ok f' (H ++ map hash ls).
Proof.
  induction ls as [|l ls IH]; intros f H (Hs & Hv & Hse); cbn [prepare_loop map length].
  - exists f. rewrite Nat.add_0_r, app_nil_r. split; auto. split; auto.
  - set (f1 := arealloc f (2 * (Z.of_nat (length H) + 1 + 3))).
    destruct (aset_ex f1 (value_at 0 (Z.of_nat (length H) + 1)) (hash l)) as (f2 & E & S2 & C2 & O2).
    { unfold f1, value_at. cbn [asize arealloc]. lia. }
    rewrite E. cbn [bind].
    destruct (IH f2 (H ++ [hash l])) as (f' & E' & Hf').
    { split; [|split].
      - rewrite S2. unfold f1. cbn [asize arealloc]. rewrite app_length. cbn [length]. lia.
      - intros k v Hk. destruct (Nat.eq_dec k (length H)) as [->|Hne].
        + rewrite nth_error_app2, Nat.sub_diag in Hk by lia. cbn in Hk. injection Hk as <-. auto.
        + assert (k < length H)%nat.
          { apply nth_error_lt in Hk. rewrite app_length in Hk. cbn in Hk. lia. }
          rewrite nth_error_app1 in Hk by auto.
          rewrite O2 by (unfold value_at; lia). unfold f1. cbn [cell arealloc].
          replace (value_at 0 (Z.of_nat k + 1) <? asize f) with true
            by (symmetry; apply Z.ltb_lt; unfold value_at; lia). auto.
      - intros k. rewrite O2 by (unfold value_at, serial_at; lia). unfold f1. cbn [cell arealloc].
        destruct (serial_at 0 k <? asize f); auto. }
    rewrite app_length in E'. cbn [length] in E'.
    replace (Z.of_nat (length H) + 1) with (Z.of_nat (length H + 1)) by lia.
    exists f'. rewrite E'. split; [f_equal; f_equal; lia|]. rewrite <- app_assoc in Hf'. exact Hf'.
Qed.

Lemma prepare_ok slack buf : 1 <= slack ->
  exists f, prepare slack buf = Ok (Z.of_nat (length (strtok_lines buf)), f) /\
            file_ok f (map hash (strtok_lines buf)).
Proof.
  intros Hs. unfold prepare. rewrite aset_ok by (cbn [asize anew]; lia). cbn [bind].
  destruct (prepare_loop_ok (strtok_lines buf) (anew (2 * 3)) []) as (f & E & Hf).
  { split; [reflexivity|]. split; [|intros; reflexivity]. intros [|k] v; discriminate. }
  exists f. split; auto.
Qed.

Lemma file_get f H k v : file_ok f H -> nth_error H k = Some v ->
  aget f (value_at 0 (Z.of_nat k + 1)) = Ok v.
Proof.
  intros (Hs & Hv & _) Hk. apply aget_ok; auto. apply nth_error_lt in Hk.
  unfold value_at. lia.
Qed.

(** * prune *)
Lemma prune_pref_ok f0 f1 H0 H1 : file_ok f0 H0 -> file_ok f1 H1 ->
  forall X Y P fuel, H0 = P ++ X -> H1 = P ++ Y -> (length X < fuel)%nat ->
  exists P' X' Y', prune_pref fuel f0 f1 (Z.of_nat (length H0)) (Z.of_nat (length H1)) (Z.of_nat (length P))
                   = Ok (Z.of_nat (length P')) /\
    H0 = P' ++ X' /\ H1 = P' ++ Y' /\ strip X Y = (X', Y').
Proof.
  intros F0 F1. induction X as [|x X IH]; intros Y P fuel E0 E1 Hf;
    (destruct fuel as [|fuel]; [cbn in Hf; lia|]); cbn [prune_pref].
  - rewrite E0, app_nil_r. rewrite Z.ltb_irrefl. cbn [andb].
    exists P, [], Y. rewrite app_nil_r. repeat split; auto. 
  - rewrite E0, E1, !app_length. cbn [length].
    replace (Z.of_nat (length P) <? Z.of_nat (length P + S (length X))) with true
      by (symmetry; apply Z.ltb_lt; lia).
    destruct Y as [|y Y].
    + cbn [length]. rewrite Nat.add_0_r, Z.ltb_irrefl. cbn [andb].
      exists P, (x :: X), []. repeat split; auto.
    + cbn [length]. replace (Z.of_nat (length P) <? Z.of_nat (length P + S (length Y))) with true
        by (symmetry; apply Z.ltb_lt; lia). cbn [andb].
      rewrite (file_get f0 H0 (length P) x F0) by (rewrite E0, nth_error_app2, Nat.sub_diag by lia; reflexivity).
      cbn [bind].
      rewrite (file_get f1 H1 (length P) y F1) by (rewrite E1, nth_error_app2, Nat.sub_diag by lia; reflexivity).
      cbn [bind strip]. destruct (Z.eqb_spec x y) as [->|].
      * destruct (IH Y (P ++ [y]) fuel) as (P' & X' & Y' & E & R); try (rewrite <- app_assoc; auto).
        { cbn in Hf. lia. }
        exists P', X', Y'. rewrite <- E0, <- E1. split; auto.
        rewrite E0, E1 in E. rewrite !app_length in E. cbn [length] in E.
        replace (Z.of_nat (length P) + 1) with (Z.of_nat (length P + 1)) by lia. exact E.
      * exists P, (x :: X), (y :: Y). rewrite <- E0, <- E1. repeat split; auto.
Qed.

Lemma prune_suff_ok f0 f1 H0 H1 P : file_ok f0 H0 -> file_ok f1 H1 ->
  forall RX RY S fuel, H0 = P ++ rev RX ++ S -> H1 = P ++ rev RY ++ S -> (length RX < fuel)%nat ->
  exists X' Y' S', prune_suff fuel f0 f1 (Z.of_nat (length H0)) (Z.of_nat (length H1))
                     (Z.of_nat (length P)) (Z.of_nat (length S))
                   = Ok (Z.of_nat (length S')) /\
    H0 = P ++ X' ++ S' /\ H1 = P ++ Y' ++ S' /\ strip RX RY = (rev X', rev Y').
Proof.
  intros F0 F1. induction RX as [|x RX IH]; intros RY S fuel E0 E1 Hf;
    (destruct fuel as [|fuel]; [cbn in Hf; lia|]); cbn [prune_suff].
  - assert (L0 : length H0 = (length P + length S)%nat) by (rewrite E0, !app_length; reflexivity).
    replace (Z.of_nat (length S) <? Z.of_nat (length H0) - Z.of_nat (length P)) with false
      by (symmetry; apply Z.ltb_ge; lia). cbn [andb].
    exists [], (rev RY), S. rewrite rev_involutive. repeat split; auto.
  - assert (L0 : length H0 = (length P + (length RX + 1) + length S)%nat)
      by (rewrite E0, !app_length, rev_length; cbn [length]; lia).
    replace (Z.of_nat (length S) <? Z.of_nat (length H0) - Z.of_nat (length P)) with true
      by (symmetry; apply Z.ltb_lt; lia).
    destruct RY as [|y RY].
    + assert (L1 : length H1 = (length P + length S)%nat) by (rewrite E1, !app_length; reflexivity).
      replace (Z.of_nat (length S) <? Z.of_nat (length H1) - Z.of_nat (length P)) with false
        by (symmetry; apply Z.ltb_ge; lia). cbn [andb].
      exists (rev (x :: RX)), [], S. rewrite rev_involutive. repeat split; auto.
    + assert (L1 : length H1 = (length P + (length RY + 1) + length S)%nat)
        by (rewrite E1, !app_length, rev_length; cbn [length]; lia).
      replace (Z.of_nat (length S) <? Z.of_nat (length H1) - Z.of_nat (length P)) with true
        by (symmetry; apply Z.ltb_lt; lia). cbn [andb].
      replace (Z.of_nat (length H0) - Z.of_nat (length S)) with (Z.of_nat (length P + length RX) + 1) by lia.
      replace (Z.of_nat (length H1) - Z.of_nat (length S)) with (Z.of_nat (length P + length RY) + 1) by lia.
      cbn [rev] in E0, E1. rewrite <- app_assoc in E0, E1. cbn [app] in E0, E1.
      rewrite (file_get f0 H0 (length P + length RX) x F0).
      2:{ rewrite E0, nth_error_app2 by lia.
          replace (length P + length RX - length P)%nat with (length (rev RX)) by (rewrite rev_length; lia).
          rewrite nth_error_app2, Nat.sub_diag by lia. reflexivity. }
      rewrite (file_get f1 H1 (length P + length RY) y F1).
      2:{ rewrite E1, nth_error_app2 by lia.
          replace (length P + length RY - length P)%nat with (length (rev RY)) by (rewrite rev_length; lia).
          rewrite nth_error_app2, Nat.sub_diag by lia. reflexivity. }
      cbn [bind strip]. destruct (Z.eqb_spec x y) as [->|].
      * destruct (IH RY (y :: S) fuel) as (X' & Y' & S' & E & R); auto.
        { cbn in Hf. lia. }
        exists X', Y', S'. split; auto. cbn [length] in E.
        replace (Z.of_nat (length S) + 1) with (Z.of_nat (Datatypes.S (length S))) by lia. exact E.
      * exists (rev (x :: RX)), (rev (y :: RY)), S. rewrite !rev_involutive. cbn [rev].
        rewrite <- !app_assoc. cbn [app]. auto.
Qed.

(** Pairs (serial, value) for the lines [A], starting with serial [i]. *)
Fixpoint number (i : Z) (A : list Z) : list (Z * Z) :=
  match A with
  | [] => []
  | v :: r => (i, v) :: number (i + 1) r
  end.

Lemma number_length i A : length (number i A) = length A.
Proof. revert i; induction A; cbn; auto. Qed.

Lemma number_nth A : forall i k, nth_error (number i A) k =
  match nth_error A k with Some v => Some (i + Z.of_nat k, v) | None => None end.
Proof.
  induction A as [|v A IH]; intros i [|k]; cbn [number nth_error]; auto.
  - f_equal. f_equal. lia.
  - rewrite IH. destruct (nth_error A k); auto. f_equal. f_equal. lia.
Qed.

Lemma number_in A i s v : In (s, v) (number i A) <->
  i <= s /\ nth_error A (Z.to_nat (s - i)) = Some v.
Proof.
  split.
  - intros H. apply In_nth_error in H as [k Hk]. rewrite number_nth in Hk.
    destruct (nth_error A k) as [w|] eqn:E; [|discriminate]. injection Hk as <- <-.
    split; [lia|]. replace (Z.to_nat (i + Z.of_nat k - i)) with k by lia. auto.
  - intros [H1 H2]. apply nth_error_In with (n := Z.to_nat (s - i)). rewrite number_nth, H2.
    f_equal. f_equal. lia.
Qed.

Lemma number_nodup A : forall i, NoDup (map fst (number i A)) /\ forall s, In s (map fst (number i A)) -> i <= s.
Proof.
  induction A as [|v A IH]; intros i; cbn; [split; [constructor|contradiction]|].
  destruct (IH (i + 1)) as [H1 H2]. split.
  - constructor; auto. intros Hi. apply H2 in Hi. lia.
  - intros s [<-|Hs]; [lia|]. apply H2 in Hs. lia.
Qed.

Lemma prune_serial_ok cnt : forall f base i,
  0 <= base -> 0 <= i -> serial_at base (i + Z.of_nat cnt) < asize f + 2 ->
  exists f', prune_serial cnt f base i = Ok f' /\ asize f' = asize f /\
    (forall k, i <= k < i + Z.of_nat cnt -> cell f' (serial_at base k) = Some k) /\
    (forall p, (forall k, i <= k < i + Z.of_nat cnt -> p <> serial_at base k) -> cell f' p = cell f p).
Proof.
  induction cnt as [|cnt IH]; intros f base i Hb Hi Hsz; cbn [prune_serial].
  - exists f. repeat split; auto. intros; lia.
  - destruct (aset_ex f (serial_at base i) i) as (f1 & E1 & S1 & C1 & O1); [unfold serial_at in *; lia|].
    rewrite E1. cbn [bind].
    destruct (IH f1 base (i + 1)) as (f2 & E2 & S2 & C2 & O2); try lia.
    { rewrite S1. replace (i + 1 + Z.of_nat cnt) with (i + Z.of_nat (S cnt)) by lia. auto. }
    exists f2. split; auto. split; [congruence|]. split.
    + intros k Hk. destruct (Z.eq_dec k i) as [->|]; [|apply C2; lia].
      rewrite O2; auto. intros k' Hk'. unfold serial_at. lia.
    + intros p Hp. rewrite O2 by (intros; apply Hp; lia). apply O1. apply Hp. lia.
Qed.

(** State of one file after [prune]. *)
Lemma prune_file f H P A S :
  file_ok f H -> H = P ++ A ++ S ->
  exists f', prune_serial (Datatypes.S (length A)) f (Z.of_nat (length P)) 0 = Ok f' /\
    asize f' = 2 * (Z.of_nat (length H) + 3) /\
    seg f' (Z.of_nat (length P)) (number 1 A) /\
    cell f' (serial_at (Z.of_nat (length P)) (Z.of_nat (length A) + 1)) = None.
Proof.
  intros (Hs & Hv & Hse) EH.
  assert (HL : length H = (length P + length A + length S)%nat) by (rewrite EH, !app_length; lia).
  destruct (prune_serial_ok (Datatypes.S (length A)) f (Z.of_nat (length P)) 0) as (f' & E & Ss & Cs & Os); try lia.
  { unfold serial_at. lia. }
  exists f'. split; auto. split; [congruence|]. split.
  - intros k x Hk. rewrite number_nth in Hk.
    destruct (nth_error A k) as [v|] eqn:Ek; [|discriminate]. assert (x = (1 + Z.of_nat k, v)) by congruence; subst x. unfold fst, snd.
    pose proof (nth_error_lt _ _ _ Ek). split.
    + rewrite Cs by lia. f_equal. lia.
    + rewrite Os by (intros; unfold value_at, serial_at; lia).
      specialize (Hv (length P + k)%nat v).
      replace (value_at (Z.of_nat (length P)) (Z.of_nat k + 1)) with (value_at 0 (Z.of_nat (length P + k) + 1))
        by (unfold value_at; lia).
      apply Hv. rewrite EH, nth_error_app2 by lia. replace (length P + k - length P)%nat with k by lia.
      rewrite nth_error_app1; auto.
  - rewrite Os by (intros; unfold serial_at; lia).
    replace (serial_at (Z.of_nat (length P)) (Z.of_nat (length A) + 1))
      with (serial_at 0 (Z.of_nat (length P + length A) + 1)) by (unfold serial_at; lia). auto.
Qed.
