(** From the sorted files to [class_ok], and from matchings to common
    subsequences. *)
From Coq Require Import ZArith List Bool Lia Permutation Sorted.
From Verif Require Import Base Arr DiffModel DiffSpec DiffSortProofs DiffStoneProofs DiffProofs DiffEquivProofs.
Import ListNotations.
Open Scope Z_scope.

(** Line [i] of [A] and line [y] of [B] (counted from 1) are equal. *)
Definition mt (A B : list Z) (i y : Z) : Prop :=
  1 <= i /\ 1 <= y /\
  exists v, nth_error A (Z.to_nat (i - 1)) = Some v /\ nth_error B (Z.to_nat (y - 1)) = Some v.

Lemma mt_range A B i y : mt A B i y ->
  1 <= i <= Z.of_nat (length A) /\ 1 <= y <= Z.of_nat (length B).
Proof.
  intros (Hi & Hy & v & H1 & H2). apply nth_error_lt in H1. apply nth_error_lt in H2. lia.
Qed.

Lemma class_split v l : StronglySorted kle l ->
  exists L1 C L3, l = L1 ++ C ++ L3 /\ (forall x, In x L1 -> snd x < v) /\
    (forall x, In x C -> snd x = v) /\ (forall x, In x L3 -> v < snd x).
Proof.
  induction l as [|x l IH]; intros Hs.
  - exists [], [], []. repeat split; auto; contradiction.
  - inversion Hs as [|? ? Hs' HF]; subst. rewrite Forall_forall in HF.
    destruct (IH Hs') as (L1 & C & L3 & El & H1 & H2 & H3).
    destruct (Z.lt_trichotomy (snd x) v) as [Hx|[Hx|Hx]].
    + exists (x :: L1), C, L3. split; [subst; auto|]. split; auto.
      intros y [<-|Hy]; auto.
    + assert (L1 = []).
      { destruct L1 as [|y L1]; auto. exfalso.
        assert (Hy : In y l) by (subst; cbn; auto). apply HF in Hy. unfold kle in Hy.
        specialize (H1 y (or_introl eq_refl)). lia. }
      subst L1. exists [], (x :: C), L3. split; [subst; auto|]. split; [contradiction|]. split; auto.
      intros y [<-|Hy]; auto.
    + exists [], [], (x :: l). split; auto. split; [contradiction|]. split; [contradiction|].
      intros y [<-|Hy]; auto. apply HF in Hy. unfold kle in Hy. lia.
Qed.

Lemma lastv_all p v l : l <> [] -> (forall x, In x l -> snd x = v) -> lastv p l = Some v.
Proof.
  destruct l as [|a l] using rev_ind; [congruence|]. intros _ H. rewrite lastv_snoc.
  f_equal. apply H. apply in_app_iff. cbn. auto.
Qed.

Lemma memf_nth_app b lb L R k v : lb = L ++ R ->
  (forall k v, nth_error (memf None lb ++ [-1]) k = Some v -> cell b (Z.of_nat k + 1) = Some v) ->
  nth_error (memf (lastv None L) R ++ [-1]) k = Some v ->
  cell b (Z.of_nat (length L) + Z.of_nat k + 1) = Some v.
Proof.
  intros -> Hb Hk. replace (Z.of_nat (length L) + Z.of_nat k + 1) with (Z.of_nat (length L + k) + 1) by lia.
  apply Hb. rewrite memf_app, <- app_assoc, nth_error_app2; rewrite memf_length; [|lia].
  replace (length L + k - length L)%nat with k by lia. auto.
Qed.

Lemma tailrun_ok b lb v L3 :
  (forall k v, nth_error (memf None lb ++ [-1]) k = Some v -> cell b (Z.of_nat k + 1) = Some v) ->
  Z.of_nat (length lb) + 1 < asize b ->
  (forall x, In x lb -> 1 <= fst x) ->
  (forall x, In x L3 -> v < snd x) ->
  forall C L, lb = L ++ C ++ L3 -> lastv None L = Some v -> (forall x, In x C -> snd x = v) ->
  tailrun b (Z.of_nat (length L)) (map fst C).
Proof.
  intros Hb Hsz Hpos H3. induction C as [|c C IH]; intros L El Hl HC; cbn [map tailrun].
  - cbn [app] in El. destruct L3 as [|y L3].
    + assert (length lb = length L) by (rewrite El, app_nil_r; auto).
      exists (-1). split; [|lia]. apply aget_ok; [lia|].
      replace (Z.of_nat (length L) + 1) with (Z.of_nat (length L) + Z.of_nat 0 + 1) by lia.
      eapply memf_nth_app; eauto.
    + exists (- fst y). split.
      2:{ specialize (Hpos y). rewrite El, in_app_iff in Hpos. cbn in Hpos. specialize (Hpos (or_intror (or_introl eq_refl))). lia. }
      apply aget_ok.
      { assert (length lb = (length L + S (length L3))%nat) by (rewrite El, app_length; auto). lia. }
      replace (Z.of_nat (length L) + 1) with (Z.of_nat (length L) + Z.of_nat 0 + 1) by lia.
      eapply memf_nth_app; eauto. rewrite Hl. destruct y as [sy vy]. cbn.
      specialize (H3 (sy, vy) (or_introl eq_refl)). cbn in H3.
      destruct (Z.eqb_spec v vy); [lia|]. auto.
  - assert (Hcl : In c lb) by (rewrite El; apply in_app_iff; cbn; auto).
    split; [|split].
    + apply aget_ok.
      { assert (length lb = (length L + S (length (C ++ L3)))%nat) by (rewrite El, app_length; auto). lia. }
      replace (Z.of_nat (length L) + 1) with (Z.of_nat (length L) + Z.of_nat 0 + 1) by lia.
      eapply memf_nth_app; eauto. rewrite Hl. destruct c as [sc vc]. cbn.
      specialize (HC (sc, vc) (or_introl eq_refl)). cbn in HC. subst. rewrite Z.eqb_refl. auto.
    + specialize (Hpos c Hcl). lia.
    + replace (Z.of_nat (length L) + 1) with (Z.of_nat (length (L ++ [c]))) by (rewrite app_length; cbn; lia).
      apply IH.
      * rewrite <- app_assoc. auto.
      * rewrite lastv_snoc. f_equal. apply HC. cbn; auto.
      * intros; apply HC; cbn; auto.
Qed.

Lemma cls_split lb L1 c C L3 v : lb = L1 ++ (c :: C) ++ L3 ->
  (forall x, In x L1 -> snd x < v) -> snd c = v -> cls 1 lb v = Z.of_nat (length L1) + 1.
Proof.
  intros -> H1 Hc. rewrite cls_app_lt by auto. destruct c as [sc vc]. cbn [app cls snd] in *.
  subst. rewrite Z.eqb_refl. lia.
Qed.

Lemma sorted_strict C v : StronglySorted kle C -> (forall x, In x C -> snd x = v) ->
  NoDup (map fst C) -> StronglySorted Z.lt (map fst C).
Proof.
  induction C as [|c C IH]; intros Hs Hv Hn; cbn [map]; [constructor|].
  inversion Hs as [|? ? Hs' HF]; subst. inversion Hn as [|? ? Hni Hn']; subst.
  rewrite Forall_forall in HF. constructor.
  - apply IH; auto. intros; apply Hv; cbn; auto.
  - apply Forall_forall. intros s Hin. apply in_map_iff in Hin as (x & <- & Hx).
    pose proof (HF x Hx) as Hk. unfold kle in Hk. rewrite !Hv in Hk by (cbn; auto).
    assert (fst c <> fst x) by (intros E; apply Hni; rewrite E; apply in_map; auto). lia.
Qed.

Lemma NoDup_app_tl {X} (l1 l2 : list X) : NoDup (l1 ++ l2) -> NoDup l2.
Proof. induction l1; cbn; auto. intros H. inversion H; auto. Qed.

Lemma class_ok_intro A B lb a b :
  Permutation lb (number 1 B) -> StronglySorted kle lb ->
  (forall k v, nth_error A k = Some v -> cell a (Z.of_nat k + 1) = Some (cls 1 lb v)) ->
  Z.of_nat (length A) < asize a ->
  (forall k v, nth_error (memf None lb ++ [-1]) k = Some v -> cell b (Z.of_nat k + 1) = Some v) ->
  Z.of_nat (length B) + 1 < asize b ->
  class_ok (mt A B) (Z.of_nat (length A)) a b.
Proof.
  intros Hp Hs Ha Hsa Hb Hsb i Hi.
  destruct (nth_error A (Z.to_nat (i - 1))) as [v|] eqn:Ei.
  2:{ apply nth_error_None in Ei. lia. }
  assert (Hlb : length lb = length B) by (rewrite (Permutation_length Hp); apply number_length).
  assert (Hnd : NoDup (map fst lb)).
  { apply (Permutation_NoDup (l := map fst (number 1 B))).
    - apply Permutation_map, Permutation_sym; auto.
    - apply number_nodup. }
  assert (Hin : forall s u, In (s, u) lb <-> 1 <= s /\ nth_error B (Z.to_nat (s - 1)) = Some u).
  { intros s u. rewrite <- number_in. split; intros H; [apply (Permutation_in _ Hp)|apply (Permutation_in _ (Permutation_sym Hp))]; auto. }
  destruct (class_split v lb Hs) as (L1 & C & L3 & El & H1 & H2 & H3).
  exists (cls 1 lb v). split.
  { apply aget_ok; [lia|]. apply Ha in Ei. replace (Z.of_nat (Z.to_nat (i - 1)) + 1) with i in Ei by lia. auto. }
  assert (HMC : forall p, In p (map fst C) <-> mt A B i p).
  { intros p. split.
    - intros Hpc. apply in_map_iff in Hpc as ([s u] & <- & Hx). pose proof (H2 _ Hx) as Hu. cbn in Hu. subst u.
      assert (In (s, v) lb) by (rewrite El; apply in_app_iff; right; apply in_app_iff; auto).
      apply Hin in H as [Hs1 Hn]. cbn. split; [lia|]. split; auto. exists v. auto.
    - intros (_ & Hp1 & u & Hu & Hbp). assert (u = v) by congruence. subst u.
      assert (In (p, v) lb) by (apply Hin; auto).
      rewrite El, !in_app_iff in H. destruct H as [H|[H|H]].
      + apply H1 in H. cbn in H. lia.
      + apply in_map_iff. exists (p, v). auto.
      + apply H3 in H. cbn in H. lia. }
  destruct C as [|c C].
  - left. split.
    + apply cls_none. intros x Hx. rewrite El in Hx. apply in_app_iff in Hx as [Hx|Hx].
      * apply H1 in Hx. lia.
      * apply H3 in Hx. lia.
    + intros y Hy. apply HMC in Hy. contradiction.
  - assert (Hcls : cls 1 lb v = Z.of_nat (length L1) + 1).
    { eapply cls_split; eauto. apply H2. cbn; auto. }
    right. rewrite Hcls. split; [lia|]. exists (fst c), (map fst C). split; [|split; [|split]].
    + apply aget_ok.
      { rewrite <- Hlb in Hsb. rewrite El, app_length in Hsb. cbn [app length] in Hsb. lia. }
      replace (Z.of_nat (length L1) + 1) with (Z.of_nat (length L1) + Z.of_nat 0 + 1) by lia.
      eapply memf_nth_app; eauto. destruct c as [sc vc]. cbn.
      destruct (lastv None L1) as [u|] eqn:Elv; auto.
      assert (u < v).
      { rewrite El in Hs. apply SS_app in Hs as (Hs1 & _ & _).
        apply lastv_max in Elv as [Hu _]; auto. apply in_map_iff in Hu as (x & <- & Hx). auto. }
      specialize (H2 (sc, vc) (or_introl eq_refl)). cbn in H2.
      destruct (Z.eqb_spec u vc); [lia|]. auto.
    + replace (Z.of_nat (length L1) + 1) with (Z.of_nat (length (L1 ++ [c]))) by (rewrite app_length; cbn; lia).
      eapply (tailrun_ok b lb v L3); eauto.
      * rewrite Hlb. auto.
      * intros [s u] Hx. apply Hin in Hx. cbn. lia.
      * rewrite <- app_assoc. auto.
      * rewrite lastv_snoc. f_equal. apply H2; cbn; auto.
      * intros; apply H2; cbn; auto.
    + change (fst c :: map fst C) with (map fst (c :: C)). apply (sorted_strict _ v); auto.
      * rewrite El in Hs. apply SS_app in Hs as (_ & Hs & _). apply SS_app in Hs as (Hs & _ & _). auto.
      * rewrite El, !map_app in Hnd. apply NoDup_app_tl in Hnd.
        revert Hnd. generalize (map fst (c :: C)) (map fst L3). clear.
        induction l as [|x l IH]; intros l2 H; cbn in *; [constructor|].
        inversion H as [|? ? Hni Hnd]; subst. constructor; [|eapply IH; eauto].
        intros Hi. apply Hni. apply in_app_iff. auto.
    + intros p. apply HMC.
Qed.

(** * cs and common subsequences *)
Lemma firstn_snoc {X} (l : list X) k v : nth_error l k = Some v ->
  firstn (S k) l = firstn k l ++ [v].
Proof.
  revert k. induction l as [|x l IH]; intros [|k] H; cbn in *; try discriminate.
  - congruence.
  - f_equal. apply IH. auto.
Qed.

Lemma subseq_firstn {X} (s l : list X) j k : (j <= k)%nat -> subseq s (firstn j l) -> subseq s (firstn k l).
Proof.
  intros Hjk H. replace k with (j + (k - j))%nat by lia.
  assert (E : exists r, firstn (j + (k - j)) l = firstn j l ++ r).
  { clear. generalize (k - j)%nat. intros d. revert l. induction j as [|j IH]; intros l; cbn; eauto.
    destruct l as [|x l]; cbn; [exists []; auto|]. destruct (IH l) as [r Hr]. exists r. rewrite Hr. auto. }
  destruct E as [r ->]. rewrite <- (app_nil_r s). apply subseq_app; auto.
  clear. induction r; constructor; auto.
Qed.

Lemma cs_sound A B i y l : cs (mt A B) i y l ->
  exists s, Z.of_nat (length s) = l /\ subseq s (firstn (Z.to_nat i) A) /\ subseq s (firstn (Z.to_nat y) B).
Proof.
  induction 1 as [i y|i y l i' y' (Hi & Hy & v & HA & HB) Hi' Hy' _ (s & Hl & S1 & S2)].
  - exists []. split; auto. clear. split; [induction (firstn (Z.to_nat i) A)|induction (firstn (Z.to_nat y) B)]; constructor; auto.
  - exists (s ++ [v]). split; [rewrite app_length; cbn; lia|].
    split.
    + apply (subseq_firstn _ _ (S (Z.to_nat (i' - 1)))); [lia|]. rewrite (firstn_snoc _ _ v HA).
      apply subseq_app; auto. apply sub_take. constructor.
    + apply (subseq_firstn _ _ (S (Z.to_nat (y' - 1)))); [lia|]. rewrite (firstn_snoc _ _ v HB).
      apply subseq_app; auto. apply sub_take. constructor.
Qed.

Lemma cs_complete A B s : forall l1 r1 l2 r2, A = l1 ++ r1 -> B = l2 ++ r2 ->
  subseq s l1 -> subseq s l2 ->
  cs (mt A B) (Z.of_nat (length l1)) (Z.of_nat (length l2)) (Z.of_nat (length s)).
Proof.
  induction s as [|v s IH] using rev_ind; intros l1 r1 l2 r2 EA EB H1 H2; [constructor|].
  apply subseq_snoc_inv in H1 as (p1 & q1 & E1 & S1). apply subseq_snoc_inv in H2 as (p2 & q2 & E2 & S2).
  rewrite app_length. cbn [length]. rewrite Nat2Z.inj_add.
  apply cs_cons with (i' := Z.of_nat (length p1) + 1) (y' := Z.of_nat (length p2) + 1).
  - split; [lia|]. split; [lia|]. exists v.
    replace (Z.to_nat (Z.of_nat (length p1) + 1 - 1)) with (length p1) by lia.
    replace (Z.to_nat (Z.of_nat (length p2) + 1 - 1)) with (length p2) by lia.
    subst. rewrite <- !app_assoc. split; rewrite nth_error_app2, Nat.sub_diag by lia; reflexivity.
  - subst. rewrite app_length. cbn. lia.
  - subst. rewrite app_length. cbn. lia.
  - replace (Z.of_nat (length p1) + 1 - 1) with (Z.of_nat (length p1)) by lia.
    replace (Z.of_nat (length p2) + 1 - 1) with (Z.of_nat (length p2)) by lia.
    apply (IH p1 (v :: q1 ++ r1) p2 (v :: q2 ++ r2)); auto; subst; rewrite <- app_assoc; auto.
Qed.

Lemma cs_lcs A B k :
  cs (mt A B) (Z.of_nat (length A)) (Z.of_nat (length B)) k ->
  (forall l, cs (mt A B) (Z.of_nat (length A)) (Z.of_nat (length B)) l -> l <= k) ->
  is_lcs (Z.to_nat k) A B.
Proof.
  intros Hk Hmax. split.
  - apply cs_sound in Hk as (s & Hl & S1 & S2). rewrite !Nat2Z.id, !firstn_all in *.
    exists s. split; [lia|]. auto.
  - intros s S1 S2. assert (H := cs_complete A B s A [] B [] (eq_sym (app_nil_r A)) (eq_sym (app_nil_r B)) S1 S2).
    apply Hmax in H. lia.
Qed.
