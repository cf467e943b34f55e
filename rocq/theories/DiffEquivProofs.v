(** The equivalence classes of diff.c: [equiv] and [unsort]. *)
From Coq Require Import ZArith List Bool Lia Permutation Sorted.
From Verif Require Import Base Arr DiffModel DiffSpec DiffSortProofs DiffStoneProofs DiffProofs.
Import ListNotations.
Open Scope Z_scope.

(** Index (from [j]) of the first element with value [v]; 0 if there is none. *)
Fixpoint cls (j : Z) (l : list (Z * Z)) (v : Z) : Z :=
  match l with
  | [] => 0
  | (_, u) :: r => if u =? v then j else cls (j + 1) r v
  end.

Lemma cls_app_lt l1 : forall j l2 v, (forall x, In x l1 -> snd x < v) ->
  cls j (l1 ++ l2) v = cls (j + Z.of_nat (length l1)) l2 v.
Proof.
  induction l1 as [|[s u] l1 IH]; intros j l2 v H; cbn [cls app length].
  - f_equal. lia.
  - destruct (Z.eqb_spec u v) as [->|].
    + specialize (H (s, v) (or_introl eq_refl)). cbn in H. lia.
    + rewrite IH by (intros; apply H; cbn; auto). f_equal. lia.
Qed.

Lemma cls_none l : forall j v, (forall x, In x l -> snd x <> v) -> cls j l v = 0.
Proof.
  induction l as [|[s u] l IH]; intros j v H; cbn; auto.
  destruct (Z.eqb_spec u v) as [->|].
  - specialize (H (s, v) (or_introl eq_refl)). cbn in H. congruence.
  - apply IH. intros; apply H; cbn; auto.
Qed.

Lemma seg_app f base l1 x l2 : seg f base (l1 ++ x :: l2) ->
  cell f (serial_at base (Z.of_nat (length l1) + 1)) = Some (fst x) /\
  cell f (value_at base (Z.of_nat (length l1) + 1)) = Some (snd x).
Proof.
  intros H. apply H. rewrite nth_error_app2, Nat.sub_diag by lia. reflexivity.
Qed.

Definition classify (lb : list (Z * Z)) (x : Z * Z) : Z * Z := (fst x, cls 1 lb (snd x)).

Lemma equiv_class_ok f1 base lb : seg f1 base lb -> 0 <= base ->
  value_at base (Z.of_nat (length lb)) < asize f1 -> StronglySorted kle lb ->
  forall fuel f0 La1 La2 Lb1 Lb2,
  lb = Lb1 ++ Lb2 -> StronglySorted kle La2 ->
  seg f0 base (map (classify lb) La1 ++ La2) ->
  value_at base (Z.of_nat (length La1 + length La2)) < asize f0 ->
  (forall x y, In x Lb1 -> In y La2 -> snd x < snd y) ->
  (length La2 + length Lb2 < fuel)%nat ->
  exists f0',
    equiv_class fuel f0 f1 base (Z.of_nat (length La1 + length La2)) (Z.of_nat (length lb))
      (Z.of_nat (length La1) + 1) (Z.of_nat (length Lb1) + 1) = Ok f0' /\
    asize f0' = asize f0 /\
    seg f0' base (map (classify lb) (La1 ++ La2)).
Proof.
  intros Hs1 Hb Hsz1 Hss. induction fuel as [|fuel IH];
    intros f0 La1 La2 Lb1 Lb2 Elb Hsa Hs0 Hsz0 Hlt Hf; [lia|].
  cbn [equiv_class].
  destruct La2 as [|x La2].
  { cbn [length]. rewrite Nat.add_0_r.
    replace (Z.of_nat (length La1) + 1 <=? Z.of_nat (length La1)) with false
      by (symmetry; apply Z.leb_gt; lia).
    rewrite !app_nil_r in *. exists f0. auto. }
  cbn [length] in *.
  replace (Z.of_nat (length La1) + 1 <=? Z.of_nat (length La1 + S (length La2))) with true
    by (symmetry; apply Z.leb_le; lia).
  pose proof (seg_app f0 base (map (classify lb) La1) x La2 Hs0) as [Hx1 Hx2].
  rewrite map_length in Hx1, Hx2.
  assert (Hset : forall v, v = cls 1 lb (snd x) ->
    exists f0', aset f0 (value_at base (Z.of_nat (length La1) + 1)) v = Ok f0' /\
      asize f0' = asize f0 /\ seg f0' base (map (classify lb) (La1 ++ [x]) ++ La2)).
  { intros v Hv. destruct (aset_ex f0 (value_at base (Z.of_nat (length La1) + 1)) v) as (f' & E & S' & C' & O').
    { unfold value_at in *. lia. }
    exists f'. split; auto. split; auto. intros k y Hk.
    rewrite map_app, <- app_assoc in Hk. cbn [map app] in Hk.
    destruct (Nat.eq_dec k (length La1)) as [->|Hne].
    - rewrite nth_error_app2 in Hk by (rewrite map_length; lia).
      rewrite map_length, Nat.sub_diag in Hk. cbn in Hk. injection Hk as <-. unfold classify. cbn [fst snd].
      split; [|rewrite C'; f_equal; auto]. rewrite O' by (unfold value_at, serial_at; lia). auto.
    - rewrite !O' by (unfold value_at, serial_at; lia). apply Hs0.
      destruct (Nat.lt_ge_cases k (length La1)).
      + rewrite nth_error_app1 in * by (rewrite map_length; auto). auto.
      + rewrite nth_error_app2 in * by (rewrite map_length; auto). rewrite map_length in *.
        destruct (k - length La1)%nat eqn:Ek; [lia|]. cbn in *. auto. }
  assert (Hsa' : StronglySorted kle La2) by (inversion Hsa; auto).
  assert (Hxa : forall y, In y La2 -> snd x <= snd y).
  { inversion Hsa as [|? ? _ HF]; subst. rewrite Forall_forall in HF. intros y Hy.
    specialize (HF y Hy). unfold kle in HF. lia. }
  assert (Hstep : forall v Lb1' Lb2', v = cls 1 lb (snd x) -> lb = Lb1' ++ Lb2' ->
    (forall x0 y, In x0 Lb1' -> In y La2 -> snd x0 < snd y) ->
    (length La2 + length Lb2' < fuel)%nat ->
    exists f0', (f0' <- aset f0 (value_at base (Z.of_nat (length La1) + 1)) v ;;
      equiv_class fuel f0' f1 base (Z.of_nat (length La1 + S (length La2))) (Z.of_nat (length lb))
        (Z.of_nat (length La1) + 1 + 1) (Z.of_nat (length Lb1') + 1)) = Ok f0' /\
      asize f0' = asize f0 /\ seg f0' base (map (classify lb) (La1 ++ x :: La2))).
  { intros v Lb1' Lb2' Hv Elb' Hlt' Hf'. destruct (Hset v Hv) as (f' & E & S' & Hseg').
    rewrite E. cbn [bind].
    destruct (IH f' (La1 ++ [x]) La2 Lb1' Lb2') as (f'' & E'' & S'' & Hseg''); auto.
    { rewrite app_length. cbn [length]. rewrite S'. replace (length La1 + 1 + length La2)%nat with (length La1 + S (length La2))%nat by lia. auto. }
    exists f''. rewrite app_length in E''. cbn [length] in E''.
    replace (Z.of_nat (length La1) + 1 + 1) with (Z.of_nat (length La1 + 1) + 1) by lia.
    replace (length La1 + S (length La2))%nat with (length La1 + 1 + length La2)%nat by lia.
    split; auto. split; [congruence|]. rewrite <- app_assoc in Hseg''. exact Hseg''. }
  destruct Lb2 as [|y Lb2].
  - assert (Hl : length lb = length Lb1) by (rewrite Elb, app_nil_r; auto).
    replace (Z.of_nat (length Lb1) + 1 <=? Z.of_nat (length lb)) with false
      by (symmetry; apply Z.leb_gt; lia).
    apply (Hstep 0 Lb1 []); auto.
    + symmetry. apply cls_none. intros z Hz. rewrite Elb, app_nil_r in Hz.
      specialize (Hlt z x Hz (or_introl eq_refl)). lia.
    + intros z w Hz Hw. apply Hlt; cbn; auto.
    + cbn in *. lia.
  - assert (Hl : length lb = (length Lb1 + S (length Lb2))%nat) by (rewrite Elb, app_length; auto).
    replace (Z.of_nat (length Lb1) + 1 <=? Z.of_nat (length lb)) with true
      by (symmetry; apply Z.leb_le; lia).
    rewrite (aget_ok f0 _ (snd x)) by (auto; unfold value_at in *; lia). cbn [bind].
    pose proof Hs1 as Hs1'. rewrite Elb in Hs1'. pose proof (seg_app f1 base Lb1 y Lb2 Hs1') as [Hy1 Hy2].
    rewrite (aget_ok f1 _ (snd y)) by (auto; unfold value_at in *; lia). cbn [bind].
    rewrite Elb in Hss. apply SS_app in Hss as (_ & Hss2 & _).
    inversion Hss2 as [|? ? Hss3 HFy]. subst a l. rewrite Forall_forall in HFy.
    assert (Hlt1 : forall z, In z Lb1 -> snd z < snd x) by (intros z Hz; apply Hlt; cbn; auto).
    destruct (snd x <? snd y) eqn:E1.
    + apply Z.ltb_lt in E1. apply (Hstep 0 Lb1 (y :: Lb2)); auto.
      * rewrite Elb, cls_app_lt by auto. symmetry. apply cls_none. intros z [<-|Hz]; [lia|].
        specialize (HFy z Hz). unfold kle in HFy. lia.
      * intros z w Hz Hw. apply Hlt; cbn; auto.
      * cbn in *. lia.
    + apply Z.ltb_ge in E1. destruct (Z.eqb_spec (snd x) (snd y)) as [E2|E2].
      * apply (Hstep (Z.of_nat (length Lb1) + 1) Lb1 (y :: Lb2)); auto.
        -- rewrite Elb, cls_app_lt by auto. destruct y as [sy vy]. cbn [cls snd] in *. rewrite E2, Z.eqb_refl. lia.
        -- intros z w Hz Hw. apply Hlt; cbn; auto.
        -- cbn in *. lia.
      * destruct (IH f0 La1 (x :: La2) (Lb1 ++ [y]) Lb2) as (f' & E & R); auto.
        -- rewrite <- app_assoc. exact Elb.
        -- intros z w Hz Hw. apply in_app_iff in Hz as [Hz|[<-|[]]]; [auto|].
           destruct Hw as [<-|Hw]; [lia|]. specialize (Hxa w Hw). lia.
        -- cbn in *. lia.
        -- exists f'. split; [|exact R]. rewrite app_length in E. cbn [length] in E.
           replace (Z.of_nat (length Lb1) + 1 + 1) with (Z.of_nat (length Lb1 + 1) + 1) by lia. exact E.
Qed.

(** * member *)

(** Contents of [member]: first members of a class are negated. *)
Fixpoint memf (prev : option Z) (l : list (Z * Z)) : list Z :=
  match l with
  | [] => []
  | (s, v) :: r =>
    (match prev with
     | Some u => if u =? v then s else - s
     | None => - s
     end) :: memf (Some v) r
  end.

Lemma memf_length l : forall p, length (memf p l) = length l.
Proof. induction l as [|[s v] l IH]; intros; cbn; auto. Qed.

Definition lastv (p : option Z) (l : list (Z * Z)) : option Z :=
  fold_left (fun _ x => Some (snd x)) l p.

Lemma memf_app l1 : forall p l2, memf p (l1 ++ l2) = memf p l1 ++ memf (lastv p l1) l2.
Proof.
  induction l1 as [|[s v] l1 IH]; intros p l2; cbn; auto. f_equal. apply IH.
Qed.

Lemma lastv_app p l1 l2 : lastv p (l1 ++ l2) = lastv (lastv p l1) l2.
Proof. unfold lastv. apply fold_left_app. Qed.

(** Memory of the second file while [member] has been filled up to index
    [length L1]; the entries from there on are intact. *)
Definition mstate (f : arr) (base : Z) (lb L1 L2 : list (Z * Z)) (sz : Z) : Prop :=
  asize f = sz /\
  (forall k v, nth_error (memf None L1) k = Some v -> cell f (Z.of_nat k + 1) = Some v) /\
  (forall k x, (length L1 <= k + 1)%nat -> nth_error lb k = Some x ->
     cell f (serial_at base (Z.of_nat k + 1)) = Some (fst x) /\
     cell f (value_at base (Z.of_nat k + 1)) = Some (snd x)) /\
  cell f (value_at base (Z.of_nat (length lb) + 1)) = Some 0 /\
  cell f (serial_at base (Z.of_nat (length lb) + 1)) = None.

Lemma mstate_write f base lb L1 y L2 sz v :
  lb = L1 ++ y :: L2 -> 0 <= base -> value_at base (Z.of_nat (length lb) + 1) < sz ->
  mstate f base lb L1 (y :: L2) sz ->
  memf None (L1 ++ [y]) = memf None L1 ++ [v] ->
  exists f', aset f (Z.of_nat (length L1) + 1) v = Ok f' /\
             mstate f' base lb (L1 ++ [y]) L2 sz.
Proof.
  intros Elb Hb Hsz (Ms & Mc & Mi & Mz & Mn) Hm.
  assert (Hl : length lb = (length L1 + S (length L2))%nat) by (rewrite Elb, app_length; auto).
  destruct (aset_ex f (Z.of_nat (length L1) + 1) v) as (f' & E & S' & C' & O').
  { unfold value_at in *. lia. }
  exists f'. split; auto. split; [congruence|]. split; [|split; [|split]].
  - intros k w Hk. rewrite Hm in Hk. destruct (Nat.eq_dec k (length L1)) as [->|Hne].
    + rewrite nth_error_app2 in Hk by (rewrite memf_length; lia).
      rewrite memf_length, Nat.sub_diag in Hk. cbn in Hk. congruence.
    + rewrite O' by lia. apply Mc. 
      assert (k < length L1)%nat.
      { apply nth_error_lt in Hk. rewrite app_length, memf_length in Hk. cbn in Hk. lia. }
      rewrite nth_error_app1 in Hk by (rewrite memf_length; auto). auto.
  - intros k x Hk Hx. rewrite app_length in Hk. cbn [length] in Hk.
    rewrite !O' by (unfold serial_at, value_at; lia). apply Mi; auto. lia.
  - rewrite O' by (unfold value_at; lia). auto.
  - rewrite O' by (unfold serial_at; lia). auto.
Qed.

Lemma equiv_run_ok base lb sz : 0 <= base -> value_at base (Z.of_nat (length lb) + 1) < sz ->
  forall L2 L1 x f fuel,
  lb = L1 ++ x :: L2 -> mstate f base lb (L1 ++ [x]) L2 sz -> (length L2 < fuel)%nat ->
  (exists f' L2a L2b, equiv_run fuel f base (Z.of_nat (length L1) + 1) =
        Ok (f', Z.of_nat (length L1 + length L2a) + 1) /\
      L2 = L2a ++ L2b /\ (forall y, In y L2a -> snd y = snd x) /\
      mstate f' base lb (L1 ++ x :: L2a) L2b sz /\
      match L2b with
      | [] => snd x <> 0
      | y :: _ => snd y <> snd x
      end) \/
  (equiv_run fuel f base (Z.of_nat (length L1) + 1) = Ub Uninit /\
   snd x = 0 /\ forall y, In y L2 -> snd y = 0).
Proof.
  intros Hb Hsz. induction L2 as [|y L2 IH]; intros L1 x f fuel Elb HM Hf;
    (destruct fuel as [|fuel]; [cbn in Hf; lia|]); cbn [equiv_run];
    pose proof HM as (Ms & Mc & Mi & Mz & Mn).
  - assert (Hl : length lb = (length L1 + 1)%nat) by (rewrite Elb, app_length; auto).
    rewrite Hl in Mz, Mn, Hsz. replace (Z.of_nat (length L1 + 1) + 1) with (Z.of_nat (length L1) + 1 + 1) in * by lia.
    rewrite (aget_ok f (value_at base (Z.of_nat (length L1) + 1 + 1)) 0)
      by (auto; rewrite Ms; unfold value_at in *; lia). cbn [bind].
    destruct (Mi (length L1) x) as [Mx1 Mx2].
    { rewrite app_length; cbn; lia. }
    { rewrite Elb, nth_error_app2, Nat.sub_diag by lia. reflexivity. }
    rewrite (aget_ok f _ (snd x)) by (auto; rewrite Ms; unfold value_at in *; lia). cbn [bind].
    destruct (Z.eqb_spec 0 (snd x)) as [E0|E0].
    + right. unfold aget. rewrite inb_true by (rewrite Ms; unfold serial_at, value_at in *; lia).
      rewrite Mn. cbn [bind]. split; auto. split; [congruence|]. intros y [].
    + left. exists f, [], []. cbn [length app]. rewrite Nat.add_0_r.
      split; [auto|]. split; [auto|]. split; [intros ? []|]. split; auto.
  - assert (Hl : length lb = (length L1 + S (S (length L2)))%nat) by (rewrite Elb, app_length; auto).
    assert (Hny : nth_error lb (length L1 + 1) = Some y).
    { rewrite Elb, nth_error_app2 by lia. replace (length L1 + 1 - length L1)%nat with 1%nat by lia. reflexivity. }
    destruct (Mi (length L1 + 1)%nat y) as [My1 My2]; auto.
    { rewrite app_length; cbn; lia. }
    replace (Z.of_nat (length L1 + 1) + 1) with (Z.of_nat (length L1) + 1 + 1) in My1, My2 by lia.
    rewrite (aget_ok f _ (snd y)) by (auto; rewrite Ms; unfold value_at in *; lia). cbn [bind].
    destruct (Mi (length L1) x) as [Mx1 Mx2].
    { rewrite app_length; cbn; lia. }
    { rewrite Elb, nth_error_app2, Nat.sub_diag by lia. reflexivity. }
    rewrite (aget_ok f (value_at base (Z.of_nat (length L1) + 1)) (snd x)) by (auto; rewrite Ms; unfold value_at in *; lia). cbn [bind].
    destruct (Z.eqb_spec (snd y) (snd x)) as [E|E].
    + rewrite (aget_ok f _ (fst y)) by (auto; rewrite Ms; unfold serial_at, value_at in *; lia). cbn [bind].
      destruct (mstate_write f base lb (L1 ++ [x]) y L2 sz (fst y)) as (f' & Ef & HM'); auto.
      { rewrite <- app_assoc. auto. }
      { rewrite memf_app. f_equal. rewrite lastv_app. destruct x as [sx vx], y as [sy vy]. cbn in *.
        subst. rewrite Z.eqb_refl. reflexivity. }
      rewrite app_length in Ef. cbn [length] in Ef.
      replace (Z.of_nat (length L1) + 1 + 1) with (Z.of_nat (length L1 + 1) + 1) by lia.
      rewrite Ef. cbn [bind].
      destruct (IH (L1 ++ [x]) y f' fuel) as [(f'' & L2a & L2b & E' & El2 & Hva & HM'' & Hnx)|(E' & E0 & Hall)]; auto.
      { rewrite <- app_assoc. auto. }
      { cbn in Hf. lia. }
      * left. exists f'', (y :: L2a), L2b. rewrite app_length in E'. cbn [length] in E'.
        replace (length L1 + length (y :: L2a))%nat with (length L1 + 1 + length L2a)%nat by (cbn; lia).
        split; auto. split; [subst; auto|]. split.
        { intros z [<-|Hz]; auto. rewrite (Hva z Hz). auto. }
        split; [rewrite <- app_assoc in HM''; auto|].
        rewrite <- E. auto.
      * right. rewrite app_length in E'. cbn [length] in E'. split; auto. split; [congruence|].
        intros z [<-|Hz]; auto.
    + left. exists f, [], (y :: L2). cbn [length app]. rewrite Nat.add_0_r.
      split; [auto|]. split; [auto|]. split; [intros ? []|]. split; auto.
Qed.

Lemma equiv_member_ok base lb sz : 0 <= base -> value_at base (Z.of_nat (length lb) + 1) < sz ->
  forall fuel L2 L1 f,
  lb = L1 ++ L2 -> mstate f base lb L1 L2 sz -> (length L2 < fuel)%nat ->
  match L2 with [] => True | y :: _ => lastv None L1 <> Some (snd y) end ->
  (exists f', equiv_member fuel f base (Z.of_nat (length lb)) (Z.of_nat (length L1) + 1) =
        Ok (f', Z.of_nat (length lb) + 1) /\
      mstate f' base lb lb [] sz /\
      (forall z, L2 <> [] -> lastv None lb = Some z -> z <> 0)) \/
  (equiv_member fuel f base (Z.of_nat (length lb)) (Z.of_nat (length L1) + 1) = Ub Uninit /\
   lastv None lb = Some 0).
Proof.
  intros Hb Hsz. induction fuel as [|fuel IH]; intros L2 L1 f Elb HM Hf Hnx; [lia|].
  cbn [equiv_member]. destruct L2 as [|x L2].
  - rewrite app_nil_r in Elb. subst L1.
    replace (Z.of_nat (length lb) + 1 <=? Z.of_nat (length lb)) with false
      by (symmetry; apply Z.leb_gt; lia).
    left. exists f. split; [auto|]. split; [auto|]. congruence.
  - assert (Hl : length lb = (length L1 + S (length L2))%nat) by (rewrite Elb, app_length; auto).
    replace (Z.of_nat (length L1) + 1 <=? Z.of_nat (length lb)) with true
      by (symmetry; apply Z.leb_le; lia).
    pose proof HM as (Ms & Mc & Mi & Mz & Mn).
    destruct (Mi (length L1) x) as [Mx1 Mx2].
    { lia. }
    { rewrite Elb, nth_error_app2, Nat.sub_diag by lia. reflexivity. }
    rewrite (aget_ok f _ (fst x)) by (auto; rewrite Ms; unfold serial_at, value_at in *; lia). cbn [bind].
    destruct (mstate_write f base lb L1 x L2 sz (- fst x)) as (f' & Ef & HM'); auto.
    { rewrite memf_app. f_equal. destruct x as [sx vx]. cbn in *.
      destruct (lastv None L1) as [u|]; auto. destruct (Z.eqb_spec u vx); auto. congruence. }
    rewrite Ef. cbn [bind].
    destruct (equiv_run_ok base lb sz Hb Hsz L2 L1 x f' (S (Z.to_nat (Z.of_nat (length lb)))))
      as [(f'' & L2a & L2b & E' & El2 & Hva & HM'' & Hn')|(E' & E0 & Hall)]; auto; try lia.
    + rewrite E'. cbn [bind].
      assert (Hlv : lastv None (L1 ++ x :: L2a) = Some (snd x)).
      { rewrite lastv_app. change (x :: L2a) with ([x] ++ L2a). rewrite lastv_app. cbn.
        clear -Hva. induction L2a as [|y l IHl]; cbn; auto. rewrite (Hva y) by (cbn; auto).
        apply IHl. intros; apply Hva; cbn; auto. }
      destruct (IH L2b (L1 ++ x :: L2a) f'') as [(f3 & E3 & HM3 & Hz3)|(E3 & Hz3)]; auto.
      { rewrite Elb, El2, <- app_assoc. reflexivity. }
      { rewrite El2 in Hf. cbn in Hf. rewrite app_length in Hf. lia. }
      { destruct L2b; auto. rewrite Hlv. congruence. }
      * left. exists f3. rewrite app_length in E3. cbn [length] in E3.
        replace (Z.of_nat (length L1 + length L2a) + 1 + 1) with (Z.of_nat (length L1 + S (length L2a)) + 1) by lia.
        split; auto. split; auto. intros z _ Hlz. destruct L2b as [|y L2b].
        -- rewrite Elb, El2, app_nil_r, Hlv in Hlz. congruence.
        -- apply Hz3; auto; discriminate.
      * right. rewrite app_length in E3. cbn [length] in E3.
        replace (Z.of_nat (length L1 + length L2a) + 1 + 1) with (Z.of_nat (length L1 + S (length L2a)) + 1) by lia.
        auto.
    + right. rewrite E'. cbn [bind]. split; auto.
      rewrite Elb, lastv_app. change (x :: L2) with ([x] ++ L2). rewrite lastv_app. cbn.
      rewrite E0. clear -Hall. induction L2 as [|y l IHl]; cbn; auto. rewrite (Hall y) by (cbn; auto).
      apply IHl. intros; apply Hall; cbn; auto.
Qed.

Lemma lastv_snoc p l x : lastv p (l ++ [x]) = Some (snd x).
Proof. rewrite lastv_app. reflexivity. Qed.

(** The last value of a sorted list is its maximum. *)
Lemma lastv_max l z : StronglySorted kle l -> lastv None l = Some z ->
  In z (map snd l) /\ forall x, In x l -> snd x <= z.
Proof.
  intros Hs Hl. destruct l as [|a l] using rev_ind; [discriminate|]. clear IHl.
  rewrite lastv_snoc in Hl. injection Hl as <-. split.
  - rewrite map_app. apply in_app_iff. cbn. auto.
  - intros x Hx. apply in_app_iff in Hx as [Hx|[<-|[]]]; [|lia].
    apply SS_app in Hs as (_ & _ & H). specialize (H x a Hx (or_introl eq_refl)).
    unfold kle in H. lia.
Qed.

Lemma lastv_ex l : l <> [] -> exists z, lastv None l = Some z.
Proof.
  destruct l as [|a l] using rev_ind; [congruence|]. intros _. rewrite lastv_snoc. eauto.
Qed.

(** [equiv] on sorted files: either the classes and members are right, or the
    largest value is 0 and an uninitialised serial number is read. *)
Lemma equiv_ok f0 f1 base la lb :
  0 <= base -> seg f0 base la -> seg f1 base lb ->
  StronglySorted kle la -> StronglySorted kle lb ->
  value_at base (Z.of_nat (length la)) < asize f0 ->
  value_at base (Z.of_nat (length lb) + 1) < asize f1 ->
  cell f1 (serial_at base (Z.of_nat (length lb) + 1)) = None ->
  (exists f0' f1', equiv f0 f1 base (Z.of_nat (length la)) (Z.of_nat (length lb)) = Ok (f0', f1') /\
     asize f0' = asize f0 /\ asize f1' = asize f1 /\
     seg f0' base (map (classify lb) la) /\
     (forall k v, nth_error (memf None lb ++ [-1]) k = Some v -> cell f1' (Z.of_nat k + 1) = Some v) /\
     lastv None lb <> Some 0) \/
  (equiv f0 f1 base (Z.of_nat (length la)) (Z.of_nat (length lb)) = Ub Uninit /\
   lastv None lb = Some 0).
Proof.
  intros Hb H0 H1 S0 S1 Z0 Z1 HN. unfold equiv.
  destruct (equiv_class_ok f1 base lb H1 Hb) with (fuel := S (Z.to_nat (Z.of_nat (length la) + Z.of_nat (length lb))))
    (f0 := f0) (La1 := @nil (Z * Z)) (La2 := la) (Lb1 := @nil (Z * Z)) (Lb2 := lb)
    as (f0' & E0 & A0 & Hseg0); auto.
  { unfold value_at in *; lia. }
  { contradiction. }
  { lia. }
  cbn [length Nat.add] in E0. change (Z.of_nat 0 + 1) with 1 in E0. rewrite E0. cbn [bind].
  destruct (aset_ex f1 (value_at base (Z.of_nat (length lb) + 1)) 0) as (f1' & E1 & A1 & C1 & O1).
  { unfold value_at in *; lia. }
  rewrite E1. cbn [bind].
  destruct (equiv_member_ok base lb (asize f1) Hb Z1 (S (Z.to_nat (Z.of_nat (length lb)))) lb [] f1')
    as [(f1'' & E2 & (Ms & Mc & Mi & Mz & Mn) & Hnz)|(E2 & Hz)]; auto.
  { split; auto. split; [intros [|k]; discriminate|]. split; [|split; auto].
    - intros k x _ Hk. apply nth_error_lt in Hk as Hlt.
      rewrite !O1 by (unfold value_at, serial_at; lia). apply H1; auto.
    - rewrite O1 by (unfold value_at, serial_at; lia). auto. }
  { lia. }
  { destruct lb; auto. discriminate. }
  - left. cbn [length] in E2. change (Z.of_nat 0 + 1) with 1 in E2. rewrite E2. cbn [bind].
    destruct (aset_ex f1'' (Z.of_nat (length lb) + 1) (-1)) as (f1e & E3 & A3 & C3 & O3).
    { unfold value_at in *; lia. }
    rewrite E3. cbn [bind]. exists f0', f1e. split; auto. split; auto. split; [congruence|].
    split; auto. split.
    + intros k v Hk. destruct (Nat.eq_dec k (length lb)) as [->|Hne].
      * rewrite nth_error_app2 in Hk by (rewrite memf_length; lia).
        rewrite memf_length, Nat.sub_diag in Hk. cbn in Hk. congruence.
      * rewrite O3 by lia. apply Mc. apply nth_error_lt in Hk as Hlt.
        rewrite app_length, memf_length in Hlt. cbn in Hlt.
        rewrite nth_error_app1 in Hk by (rewrite memf_length; lia). auto.
    + intros Hl. apply (Hnz 0); auto. intros ->. discriminate.
  - right. cbn [length] in E2. change (Z.of_nat 0 + 1) with 1 in E2. rewrite E2. auto.
Qed.

(** * unsort *)
Lemma unsort_read_ok f base l : seg f base l -> 0 <= base ->
  value_at base (Z.of_nat (length l)) < asize f ->
  forall L2 L1 a, l = L1 ++ L2 ->
  (forall x, In x l -> 1 <= fst x < asize a) -> NoDup (map fst l) ->
  (forall x, In x L1 -> cell a (fst x) = Some (snd x)) ->
  exists a', unsort_read (length L2) f base (Z.of_nat (length L1) + 1) a = Ok a' /\
    asize a' = asize a /\ forall x, In x l -> cell a' (fst x) = Some (snd x).
Proof.
  intros Hs Hb Hsz. induction L2 as [|x L2 IH]; intros L1 a El Hr Hnd Hc; cbn [unsort_read length].
  - rewrite app_nil_r in El. subst. exists a. auto.
  - pose proof Hs as Hs'. rewrite El in Hs'. apply seg_app in Hs' as [E1 E2].
    assert (Hl : length l = (length L1 + S (length L2))%nat) by (rewrite El, app_length; auto).
    rewrite (aget_ok f _ (fst x)) by (auto; unfold serial_at, value_at in *; lia). cbn [bind].
    rewrite (aget_ok f _ (snd x)) by (auto; unfold serial_at, value_at in *; lia). cbn [bind].
    destruct (aset_ex a (fst x) (snd x)) as (a' & E & A & C & O).
    { specialize (Hr x). rewrite El, in_app_iff in Hr. cbn in Hr. specialize (Hr (or_intror (or_introl eq_refl))). lia. }
    rewrite E. cbn [bind].
    destruct (IH (L1 ++ [x]) a') as (a'' & E' & A' & C').
    { rewrite <- app_assoc. auto. }
    { rewrite A. auto. }
    { auto. }
    { intros y Hy. apply in_app_iff in Hy as [Hy|[<-|[]]]; auto.
      rewrite O; auto. intros Heq. rewrite El, map_app in Hnd. cbn in Hnd. apply NoDup_remove_2 in Hnd.
      apply Hnd. apply in_app_iff. left. rewrite <- Heq. apply in_map. auto. }
    rewrite app_length in E'. cbn [length] in E'.
    replace (Z.of_nat (length L1) + 1 + 1) with (Z.of_nat (length L1 + 1) + 1) by lia.
    exists a''. split; auto. split; auto. congruence.
Qed.

Lemma unsort_write_ok a cnt : forall i b, 1 <= i ->
  (forall k, i <= k < i + Z.of_nat cnt -> exists v, aget a k = Ok v) -> i + Z.of_nat cnt <= asize b ->
  exists b', unsort_write cnt a i b = Ok b' /\ asize b' = asize b /\
    (forall k, i <= k < i + Z.of_nat cnt -> cell b' k = cell a k) /\
    (forall k, k < i -> cell b' k = cell b k).
Proof.
  induction cnt as [|cnt IH]; intros i b Hi Ha Hb; cbn [unsort_write].
  - exists b. split; auto. split; auto. split; auto. lia.
  - destruct (Ha i) as [v Hv]; [lia|]. rewrite Hv. cbn [bind].
    destruct (aset_ex b i v) as (b' & E & A & C & O); [lia|]. rewrite E. cbn [bind].
    destruct (IH (i + 1) b') as (b'' & E' & A' & C' & O'); try lia.
    { intros k Hk. apply Ha. lia. }
    exists b''. split; auto. split; [congruence|]. split.
    + intros k Hk. destruct (Z.eq_dec k i) as [->|]; [|apply C'; lia].
      rewrite O' by lia. unfold aget in Hv. destruct (inb a i); [|discriminate].
      destruct (cell a i); congruence.
    + intros k Hk. rewrite O' by lia. apply O. lia.
Qed.

Lemma unsort_ok f base A (g : Z -> Z) l :
  Permutation l (number 1 A) -> seg f base (map (fun x => (fst x, g (snd x))) l) -> 0 <= base ->
  value_at base (Z.of_nat (length A)) < asize f ->
  exists f', unsort f base (Z.of_nat (length A)) = Ok f' /\ asize f' = asize f /\
    forall k v, nth_error A k = Some v -> cell f' (Z.of_nat k + 1) = Some (g v).
Proof.
  intros Hp Hs Hb Hsz. unfold unsort. rewrite Nat2Z.id.
  set (l' := map (fun x => (fst x, g (snd x))) l) in *.
  assert (Hl : length l' = length A).
  { unfold l'. rewrite map_length, (Permutation_length Hp). apply number_length. }
  assert (Hf : map fst l' = map fst l) by (unfold l'; rewrite map_map; reflexivity).
  destruct (unsort_read_ok f base l' Hs Hb) with (L1 := @nil (Z*Z)) (L2 := l') (a := anew (Z.of_nat (length A) + 1))
    as (a & E & As & C); auto.
  { rewrite Hl. auto. }
  { intros x Hx. assert (Hx' : In (fst x) (map fst l)) by (rewrite <- Hf; apply in_map; auto).
    apply in_map_iff in Hx' as ([s v] & Es & Hin). apply (Permutation_in _ Hp) in Hin.
    apply number_in in Hin as [H1 H2]. apply nth_error_lt in H2. cbn in *. lia. }
  { rewrite Hf. apply (Permutation_NoDup (l := map fst (number 1 A))).
    - apply Permutation_map, Permutation_sym; auto.
    - apply number_nodup. }
  { contradiction. }
  rewrite Hl in E. change (Z.of_nat (length (@nil (Z*Z))) + 1) with 1 in E. rewrite E. cbn [bind].
  assert (Hv : forall k v, nth_error A k = Some v -> cell a (Z.of_nat k + 1) = Some (g v)).
  { intros k v Hk. assert (Hin : In (Z.of_nat k + 1, g v) l').
    { unfold l'. apply in_map_iff. exists (Z.of_nat k + 1, v). split; auto.
      apply (Permutation_in _ (Permutation_sym Hp)). apply number_in. split; [lia|].
      replace (Z.to_nat (Z.of_nat k + 1 - 1)) with k by lia. auto. }
    apply C in Hin. auto. }
  destruct (unsort_write_ok a (length A) 1 f) as (f' & E' & A' & C' & _); try lia.
  { intros k Hk. destruct (nth_error A (Z.to_nat (k - 1))) as [v|] eqn:Ek.
    - exists (g v). apply aget_ok; [cbn in As; lia|]. apply Hv in Ek.
      replace (Z.of_nat (Z.to_nat (k - 1)) + 1) with k in Ek by lia. auto.
    - apply nth_error_None in Ek. lia. }
  { unfold value_at in *. lia. }
  exists f'. split; auto. split; auto. intros k v Hk. apply nth_error_lt in Hk as Hlt.
  rewrite C' by lia. auto.
Qed.
