(** The candidate search of diff.c ([stone]) computes the length of a longest
    common subsequence and a chain of candidates that witnesses it. *)
From Coq Require Import ZArith List Bool Lia Sorted.
From Verif Require Import Base Arr DiffModel.
Import ListNotations.
Open Scope Z_scope.

Section Stone.
  (** [M i y]: line i of the first file matches line y of the second one. *)
  Variable M : Z -> Z -> Prop.
  Variables n m : Z.
  Hypothesis M_range : forall i y, M i y -> 1 <= i <= n /\ 1 <= y <= m.

  (** [cs i y l]: the first [i] and the first [y] lines have a common
      subsequence of length [l]. *)
  Inductive cs : Z -> Z -> Z -> Prop :=
  | cs_nil i y : cs i y 0
  | cs_cons i y l i' y' : M i' y' -> i' <= i -> y' <= y -> cs (i' - 1) (y' - 1) l ->
                          cs i y (l + 1).

  Lemma cs_mono i y l i2 y2 : cs i y l -> i <= i2 -> y <= y2 -> cs i2 y2 l.
  Proof.
    intros H Hi Hy. inversion H; subst; [constructor|].
    eapply cs_cons; eauto; lia.
  Qed.

  Lemma cs_nonneg i y l : cs i y l -> 0 <= l.
  Proof. induction 1; lia. Qed.

  Lemma cs_inv i y l : 0 < l -> cs i y l ->
    exists i' y', M i' y' /\ i' <= i /\ y' <= y /\ cs (i' - 1) (y' - 1) (l - 1).
  Proof.
    intros Hl H. inversion H; subst; [lia|]. exists i', y'.
    replace (l0 + 1 - 1) with l0 by lia. auto.
  Qed.

  (** Candidate [q] heads the matching [path] (latest pair first). *)
  Inductive chain (cl : list cand) : Z -> list (Z * Z) -> Prop :=
  | ch_nil q cd : cand_at cl q = Ok cd -> c_y cd = 0 -> chain cl q []
  | ch_cons q cd r : cand_at cl q = Ok cd -> c_y cd <> 0 -> M (c_x cd) (c_y cd) ->
      c_pred cd < q -> chain cl (c_pred cd) r ->
      (forall p, In p r -> fst p < c_x cd /\ snd p < c_y cd) ->
      chain cl q ((c_x cd, c_y cd) :: r).

  Lemma cand_at_app cl x q cd : cand_at cl q = Ok cd -> cand_at (cl ++ [x]) q = Ok cd.
  Proof.
    unfold cand_at. destruct (q <? 0); [discriminate|].
    destruct (nth_error cl (Z.to_nat q)) eqn:E; [|discriminate].
    rewrite nth_error_app1; [rewrite E; auto|]. apply nth_error_Some. congruence.
  Qed.

  Lemma cand_at_new cl x : cand_at (cl ++ [x]) (Z.of_nat (length cl)) = Ok x.
  Proof.
    unfold cand_at. destruct (Z.of_nat (length cl) <? 0) eqn:E; [apply Z.ltb_lt in E; lia|].
    rewrite Nat2Z.id, nth_error_app2, Nat.sub_diag by lia. reflexivity.
  Qed.

  Lemma cand_at_range cl q cd : cand_at cl q = Ok cd -> 0 <= q < Z.of_nat (length cl).
  Proof.
    unfold cand_at. destruct (q <? 0) eqn:E; [discriminate|]. apply Z.ltb_ge in E.
    destruct (nth_error cl (Z.to_nat q)) eqn:F; [|discriminate]. intros _.
    assert (nth_error cl (Z.to_nat q) <> None) by congruence.
    apply nth_error_Some in H. lia.
  Qed.

  Lemma chain_app cl x q path : chain cl q path -> chain (cl ++ [x]) q path.
  Proof.
    induction 1.
    - eapply ch_nil; eauto using cand_at_app.
    - eapply ch_cons; eauto using cand_at_app.
  Qed.

  Lemma chain_len cl q path : chain cl q path -> Z.of_nat (length path) <= q.
  Proof.
    induction 1 as [q cd H|q cd r H]; cbn [length].
    - apply cand_at_range in H. lia.
    - lia.
  Qed.

  Lemma chain_le cl q path cd : chain cl q path -> cand_at cl q = Ok cd ->
    forall p, In p path -> snd p <= c_y cd.
  Proof.
    intros H E p Hp. inversion H; subst; [contradiction|].
    assert (cd0 = cd) by congruence; subst. destruct Hp as [<-|Hp]; cbn; [lia|].
    match goal with h : forall p, In p r -> _ |- _ => specialize (h p Hp) end. lia.
  Qed.

  (** [q] is a candidate with last line [y] of a matching of length [l] within
      the first [i] lines. *)
  Definition good (cl : list cand) (q y l i : Z) : Prop :=
    exists cd path, cand_at cl q = Ok cd /\ c_y cd = y /\ chain cl q path /\
      Z.of_nat (length path) = l /\ forall p, In p path -> fst p <= i.

  Lemma good_app cl x q y l i : good cl q y l i -> good (cl ++ [x]) q y l i.
  Proof.
    intros (cd & path & H1 & H2 & H3 & H4 & H5). exists cd, path.
    repeat split; eauto using cand_at_app, chain_app.
  Qed.

  Lemma good_mono cl q y l i i' : good cl q y l i -> i <= i' -> good cl q y l i'.
  Proof.
    intros (cd & path & H1 & H2 & H3 & H4 & H5) Hi. exists cd, path.
    repeat split; auto. intros p Hp. specialize (H5 p Hp). lia.
  Qed.

  Lemma good_new cl q y l i i' y' :
    good cl q y l i -> i < i' -> y < y' -> 0 < y' -> M i' y' ->
    good (cl ++ [mkCand i' y' q]) (Z.of_nat (length cl)) y' (l + 1) i'.
  Proof.
    intros (cd & path & H1 & H2 & H3 & H4 & H5) Hi Hy Hy' HM.
    exists (mkCand i' y' q), ((i', y') :: path).
    split; [apply cand_at_new|]. split; auto. split.
    - eapply (ch_cons _ _ (mkCand i' y' q)); cbn.
      + apply cand_at_new.
      + lia.
      + auto.
      + apply cand_at_range in H1. lia.
      + apply chain_app. auto.
      + intros p Hp. specialize (H5 p Hp). pose proof (chain_le _ _ _ _ H3 H1 p Hp). lia.
    - split; [cbn [length]; lia|]. intros p [<-|Hp]; cbn; [lia|]. specialize (H5 p Hp). lia.
  Qed.

  (** * Binary search *)
  Lemma search_loop_ok cl c cur k y fuel : forall i j,
    (forall l, 0 <= l <= k -> ky cl c l = Ok (cur l)) ->
    0 <= i < j -> j <= k + 1 -> cur i < y -> (j <= k -> y < cur j) ->
    (Z.to_nat (j - i) < fuel)%nat ->
    exists l, search_loop fuel cl c i j y = Ok l /\ 1 <= l <= k + 1 /\
      (l <= k -> y <= cur l) /\
      (cur (l - 1) < y \/ (l <= k /\ cur l = y)).
  Proof.
    induction fuel as [|fuel IH]; intros i j Hk Hij Hj Hi Hjk Hf; [lia|].
    cbn [search_loop].
    assert (Hd : i <= (i + j) / 2 < j).
    { split; [apply Z.div_le_lower_bound; lia|apply Z.div_lt_upper_bound; lia]. }
    destruct ((i + j) / 2 >? i) eqn:E.
    - rewrite Z.gtb_lt in E. rewrite Hk by lia. cbn [bind].
      destruct (cur ((i + j) / 2) >? y) eqn:E1.
      + rewrite Z.gtb_lt in E1. apply IH; auto; lia.
      + rewrite Z.gtb_ltb, Z.ltb_ge in E1. destruct (cur ((i + j) / 2) <? y) eqn:E2.
        * apply Z.ltb_lt in E2. apply IH; auto; lia.
        * apply Z.ltb_ge in E2. exists ((i + j) / 2). repeat split; try lia.
    - rewrite Z.gtb_ltb, Z.ltb_ge in E.
      assert (Hi' : (i + j) / 2 = i) by lia.
      assert (Hji : j = i + 1).
      { pose proof (Z.div_mod (i + j) 2 ltac:(lia)). pose proof (Z.mod_pos_bound (i + j) 2 ltac:(lia)). lia. }
      rewrite Hi'. exists (i + 1). subst j. split; auto. split; [lia|]. split.
      + intros H. specialize (Hjk H). lia.
      + left. replace (i + 1 - 1) with i by lia. auto.
  Qed.

  Lemma search_ok cl c cur k y :
    (forall l, 0 <= l <= k -> ky cl c l = Ok (cur l)) ->
    (forall l, 1 <= l <= k -> cur (l - 1) < cur l) ->
    0 <= k -> cur 0 < y ->
    exists l, search cl c k y = Ok l /\ 1 <= l <= k + 1 /\ cur (l - 1) < y /\
              (l <= k -> y <= cur l).
  Proof.
    intros Hk Hinc Hk0 H0. unfold search. rewrite Hk by lia. cbn [bind].
    destruct (cur k <? y) eqn:E.
    - apply Z.ltb_lt in E. exists (k + 1). replace (k + 1 - 1) with k by lia.
      repeat split; auto; lia.
    - destruct (search_loop_ok cl c cur k y (S (S (Z.to_nat k))) 0 (k + 1)) as (l & El & Hl & H1 & H2);
        auto; try lia.
      exists l. split; auto. split; auto. split; auto.
      destruct H2 as [H2|[H2 H3]]; auto. specialize (Hinc l ltac:(lia)). lia.
  Qed.

  (** * One line of the first file *)

  (** The rest of an equivalence class, from index j+1 on. *)
  Fixpoint tailrun (b : arr) (j : Z) (ys : list Z) : Prop :=
    match ys with
    | [] => exists z, aget b (j + 1) = Ok z /\ z <= 0
    | y :: r => aget b (j + 1) = Ok y /\ 0 < y /\ tailrun b (j + 1) r
    end.

  (** Loop state before line [i]. *)
  Record kinv (cl : list cand) (c : arr) (k i : Z) (Y Q : Z -> Z) : Prop := {
    ki_k : 0 <= k;
    ki_size : n + 2 <= asize c;
    ki_cell : forall l, 0 <= l <= k -> cell c l = Some (Q l);
    ki_good : forall l, 0 <= l <= k -> good cl (Q l) (Y l) l i;
    ki_Y0 : Y 0 = 0;
    ki_inc : forall l, 1 <= l <= k -> Y (l - 1) < Y l;
    ki_Ym : forall l, 0 <= l <= k -> Y l <= m
  }.

  Lemma inc_lt k Y : (forall l, 1 <= l <= k -> Y (l - 1) < Y l) ->
    forall a b, 0 <= a -> a < b -> b <= k -> Y a < Y b.
  Proof.
    intros H a b Ha Hab. replace b with (a + Z.of_nat (Z.to_nat (b - a))) by lia.
    assert (Hp : (0 < Z.to_nat (b - a))%nat) by lia.
    induction (Z.to_nat (b - a)) as [|d IH]; [lia|]. intros Hb.
    specialize (H (a + Z.of_nat (S d)) ltac:(lia)).
    replace (a + Z.of_nat (S d) - 1) with (a + Z.of_nat d) in H by lia.
    destruct d as [|d]; [replace (a + Z.of_nat 0) with a in H by lia; auto|].
    assert (Y a < Y (a + Z.of_nat (S d))) by (apply IH; lia). lia.
  Qed.

  (** Outcome of the treatment of line [i], where [ys] are the matching lines. *)
  Definition step_post (i k : Z) (Y : Z -> Z) (ys : list Z) (k' : Z) (Y' : Z -> Z) : Prop :=
    (k' = k \/ k' = k + 1) /\
    (forall l, 1 <= l <= k' -> Y (l - 1) < Y' l) /\
    (forall l, 0 <= l <= k -> Y' l <= Y l) /\
    (forall l, 1 <= l <= k' -> (l <= k /\ Y' l = Y l) \/ M i (Y' l)) /\
    (forall p l, In p ys -> 1 <= l <= k + 1 -> Y (l - 1) < p -> l <= k' /\ Y' l <= p).

  (** A state in which no candidate list was extended. *)
  Lemma fin_post cl c i k Y cur cq done :
    (forall l, 1 <= l <= k -> cur (l - 1) < cur l) -> Y 0 = 0 -> 0 <= k ->
    (forall l, 0 <= l <= k -> Y l <= m) ->
    n + 2 <= asize c ->
    (forall l, 0 <= l <= k -> cell c l = Some (cq l) /\ good cl (cq l) (cur l) l i) ->
    cur 0 = 0 ->
    (forall l, 1 <= l <= k -> Y (l - 1) < cur l <= Y l) ->
    (forall l, 1 <= l <= k -> cur l = Y l \/ M i (cur l)) ->
    (forall p l, In p done -> 1 <= l <= k + 1 -> Y (l - 1) < p -> l <= k /\ cur l <= p) ->
    kinv cl c k i cur cq /\ step_post i k Y done k cur.
  Proof.
    intros Hinc HY0 Hk HYm Hsz Hcq Hcur0 Hcur Hcm Hd. split.
    - constructor; auto.
      + intros l Hl; apply Hcq; auto.
      + intros l Hl; apply Hcq; auto.
      + intros l Hl; destruct (Z.eq_dec l 0) as [->|].
        * rewrite Hcur0; rewrite <- HY0; apply HYm; lia.
        * specialize (Hcur l ltac:(lia)); specialize (HYm l Hl); lia.
    - split; [auto|]. split; [intros l Hl; apply Hcur; auto|]. split.
      + intros l Hl; destruct (Z.eq_dec l 0) as [->|]; [lia|apply Hcur; lia].
      + split; auto. intros l Hl; destruct (Hcm l ltac:(lia)); auto. left; split; auto; lia.
  Qed.

  (** Inner invariant: [done] are the members treated so far. *)
  Lemma stone_do_ok b i k Y Q : forall ys done fuel cl c oldl oldc j y cur cq l1,
    0 < i <= n -> k < i ->
    (forall l, 1 <= l <= k -> Y (l - 1) < Y l) -> Y 0 = 0 -> 0 <= k ->
    (forall l, 0 <= l <= k -> Y l <= m) ->
    n + 2 <= asize c ->
    (* the class *)
    StronglySorted Z.lt (y :: ys) -> (forall p, In p (y :: ys) -> 0 < p /\ M i p) ->
    tailrun b j ys -> (length ys < fuel)%nat ->
    (* candidates *)
    (forall l, 0 <= l <= k -> good cl (Q l) (Y l) l (i - 1)) ->
    (forall l, 0 <= l <= k -> cell c l = Some (cq l) /\ good cl (cq l) (cur l) l i) ->
    (forall l, oldl < l <= k -> cq l = Q l /\ cur l = Y l) ->
    cur 0 = 0 ->
    (forall l, 1 <= l <= k -> Y (l - 1) < cur l <= Y l) ->
    (forall l, 1 <= l <= k -> cur l = Y l \/ M i (cur l)) ->
    0 <= oldl <= k -> oldl <= l1 <= k -> oldc = Q l1 ->
    (l1 = oldl \/ (l1 + 1 <= k /\ Y (l1 + 1) < y)) ->
    (oldl >= 1 -> cur oldl < y) ->
    (forall p l, In p done -> 1 <= l <= k + 1 -> Y (l - 1) < p -> l <= k /\ cur l <= p) ->
    exists cl' c' k' Y' Q',
      stone_do fuel b cl c k i j y oldl oldc = Ok (cl', c', k') /\
      kinv cl' c' k' i Y' Q' /\
      step_post i k Y (done ++ y :: ys) k' Y'.
  Proof.
    induction ys as [|y2 ys IH];
      intros done fuel cl c oldl oldc j y cur cq l1 Hi Hki Hinc HY0 Hk HYm Hsz HSS HMy Hrun Hfuel
        HQ Hcq Hun Hcur0 Hcur Hcm Hol Hl1 Hoc Hl1c Holc Hdone;
      (destruct fuel as [|fuel]; [cbn in Hfuel; lia|]); cbn [stone_do].
    all: pose proof (inc_lt k Y Hinc) as HYlt.
    all: assert (Hcurlt : forall l, 1 <= l <= k -> cur (l - 1) < cur l)
      by (intros l Hl; pose proof (Hcur l Hl) as Hc2; destruct (Z.eq_dec l 1);
          [subst; replace (1 - 1) with 0 in * by lia; lia|
           pose proof (Hcur (l - 1) ltac:(lia)) as Hc1; lia]).
    all: assert (Hy0 : 0 < y /\ M i y) by (apply HMy; cbn; auto).
    all: pose proof (M_range i y (proj2 Hy0)) as Hyr.
    all: destruct (HQ l1 ltac:(lia)) as (cd & path & Hcd & Hcdy & _).
    all: rewrite Hoc, Hcd; cbn [bind]; rewrite Hcdy.
    all: assert (Hky : forall l, 0 <= l <= k -> ky cl c l = Ok (cur l))
      by (intros l Hl; unfold ky; destruct (Hcq l Hl) as [Hcell (cd' & pa & E1 & E2 & _)];
          rewrite (aget_ok c l (cq l)) by (auto; lia); cbn [bind]; rewrite E1; cbn [bind]; congruence).
    (* finishing lemma: current state is a final state *)
    all: assert (Hfin : forall done', (forall p l, In p done' -> 1 <= l <= k + 1 -> Y (l - 1) < p -> l <= k /\ cur l <= p) ->
           kinv cl c k i cur cq /\ step_post i k Y done' k cur)
      by (intros done' Hd; eapply fin_post; eauto).
    all: destruct (y <=? Y l1) eqn:Ey.
    - (* last member, skipped *)
      apply Z.leb_le in Ey.
      destruct Hrun as (z & Hz & Hz0). rewrite Hz. cbn [bind].
      destruct (z >? 0) eqn:Ez; [rewrite Z.gtb_lt in Ez; lia|].
      destruct (Hfin (done ++ [y])) as [F1 F2].
      { intros p l Hp Hl HY. apply in_app_iff in Hp as [Hp|[<-|[]]]; [auto|].
        destruct Hl1c as [->|[Ha Hb]].
        - assert (Hll : l <= oldl).
          { destruct (Z_le_gt_dec l oldl); auto. 
            destruct (Z.eq_dec (l - 1) oldl) as [<-|]; [lia|].
            pose proof (HYlt oldl (l - 1) ltac:(lia) ltac:(lia) ltac:(lia)). lia. }
          split; [lia|]. destruct (Z.eq_dec l oldl) as [->|]; [specialize (Holc ltac:(lia)); lia|].
          specialize (Holc ltac:(lia)). pose proof (Hcur oldl ltac:(lia)). pose proof (Hcur l ltac:(lia)).
          assert (Y l <= Y (oldl - 1)) by
            (destruct (Z.eq_dec l (oldl - 1)) as [->|]; [lia|
              pose proof (HYlt l (oldl - 1) ltac:(lia) ltac:(lia) ltac:(lia)); lia]). lia.
        - pose proof (HYlt l1 (l1 + 1) ltac:(lia) ltac:(lia) ltac:(lia)). lia. }
      exists cl, c, k, cur, cq. auto.
    - (* last member, used *)
      apply Z.leb_gt in Ey.
      destruct (search_ok cl c cur k y Hky Hcurlt Hk ltac:(lia)) as (l & -> & Hl & Hlm & Hlk).
      cbn [bind].
      assert (Hlol : l > l1).
      { destruct (Z_gt_le_dec l l1); auto. exfalso. 
        specialize (Hlk ltac:(lia)). specialize (Hcur l ltac:(lia)).
        destruct (Z.eq_dec l l1) as [->|]; [lia|].
        pose proof (HYlt l l1 ltac:(lia) ltac:(lia) ltac:(lia)). lia. }
      assert (Hoc' : (if l =? oldl + 1 then Ok (Q l1) else aget c (l - 1)) = Ok (Q (l - 1))).
      { destruct (l =? oldl + 1) eqn:El.
        - apply Z.eqb_eq in El. assert (l1 = l - 1) by lia. subst; auto.
        - apply Z.eqb_neq in El. destruct (Hun (l - 1) ltac:(lia)) as [<- _].
          apply aget_ok; [lia|]. apply Hcq. lia. }
      rewrite Hoc'. cbn [bind].
      assert (HYl1 : Y (l - 1) < y).
      { destruct (Z.eq_dec (l - 1) oldl) as [E|].
        - assert (l1 = oldl) by lia. subst l1. rewrite E. lia.
        - destruct (Hun (l - 1) ltac:(lia)) as [_ <-]. auto. }
      assert (Hnew : good (cl ++ [mkCand i y (Q (l - 1))]) (Z.of_nat (length cl)) y l i).
      { pose proof (good_new cl (Q (l - 1)) (Y (l - 1)) (l - 1) (i - 1) i y (HQ (l - 1) ltac:(lia))
          ltac:(lia) HYl1 ltac:(lia) (proj2 Hy0)) as G. replace (l - 1 + 1) with l in G by lia. exact G. }
      destruct (l <=? k) eqn:Elk.
      + apply Z.leb_le in Elk. specialize (Hlk Elk). rewrite Hky by lia. cbn [bind].
        destruct (Hun l ltac:(lia)) as [HQl HYl].
        assert (Hcov : forall l', 1 <= l' <= k + 1 -> Y (l' - 1) < y -> l' <= l).
        { intros l' Hl' HY'. destruct (Z_le_gt_dec l' l); auto. exfalso.
          destruct (Z.eq_dec (l' - 1) l) as [E|]; [rewrite E in HY'; lia|].
          pose proof (HYlt l (l' - 1) ltac:(lia) ltac:(lia) ltac:(lia)). lia. }
        destruct (cur l <=? y) eqn:Et.
        * apply Z.leb_le in Et. destruct Hrun as (z & Hz & Hz0). rewrite Hz. cbn [bind].
          destruct (z >? 0) eqn:Ez; [rewrite Z.gtb_lt in Ez; lia|].
          destruct (Hfin (done ++ [y])) as [F1 F2].
          { intros p l' Hp Hl' HY'. apply in_app_iff in Hp as [Hp|[<-|[]]]; [auto|].
            specialize (Hcov l' Hl' HY'). split; [lia|]. specialize (Hcur l' ltac:(lia)).
            destruct (Z.eq_dec l' l) as [->|]; [lia|].
            pose proof (HYlt l' l ltac:(lia) ltac:(lia) ltac:(lia)). lia. }
          exists cl, c, k, cur, cq. auto.
        * apply Z.leb_gt in Et. rewrite (aget_ok c l (cq l)) by (try lia; apply Hcq; lia). cbn [bind].
          unfold newcand. destruct (aset_ex c l (Z.of_nat (length cl))) as (c' & Ec & Hcs & Hcl & Hco); [lia|].
          rewrite Ec. cbn [bind].
          destruct Hrun as (z & Hz & Hz0). rewrite Hz. cbn [bind].
          destruct (z >? 0) eqn:Ez; [rewrite Z.gtb_lt in Ez; lia|].
          set (cur' := fun x => if x =? l then y else cur x).
          set (cq' := fun x => if x =? l then Z.of_nat (length cl) else cq x).
          exists (cl ++ [mkCand i y (Q (l - 1))]), c', k, cur', cq'. split; auto.
          assert (Hcur' : forall l', 1 <= l' <= k -> Y (l' - 1) < cur' l' <= Y l').
          { intros l' Hl'. unfold cur'. destruct (Z.eqb_spec l' l) as [->|]; [lia|auto]. }
          assert (Hc0' : cur' 0 = 0) by (unfold cur'; destruct (Z.eqb_spec 0 l); lia).
          split.
          -- constructor; auto; try lia.
             ++ intros l' Hl'. unfold cq'. destruct (Z.eqb_spec l' l) as [->|]; [auto|].
                rewrite Hco by auto. apply Hcq; auto.
             ++ intros l' Hl'. unfold cq', cur'. destruct (Z.eqb_spec l' l) as [->|]; [auto|].
                apply good_app. apply Hcq; auto.
             ++ intros l' Hl'. specialize (Hcur' l' Hl') as H1.
                destruct (Z.eq_dec l' 1) as [->|]; [replace (1 - 1) with 0 in * by lia; lia|].
                specialize (Hcur' (l' - 1) ltac:(lia)). lia.
             ++ intros l' Hl'. destruct (Z.eq_dec l' 0) as [->|]; [rewrite Hc0', <- HY0; apply HYm; lia|].
                specialize (Hcur' l' ltac:(lia)). specialize (HYm l' Hl'). lia.
          -- split; auto. split; [intros l' Hl'; apply Hcur'; auto|]. split; [|split].
             ++ intros l' Hl'. destruct (Z.eq_dec l' 0) as [->|]; [lia|apply Hcur'; lia].
             ++ intros l' Hl'. unfold cur'. destruct (Z.eqb_spec l' l) as [->|]; [right; apply Hy0|].
                destruct (Hcm l' Hl'); auto. left. split; [lia|auto].
             ++ intros p l' Hp Hl' HY'. apply in_app_iff in Hp as [Hp|[<-|[]]].
                ** destruct (Hdone p l' Hp Hl' HY') as [D1 D2]. split; auto. unfold cur'.
                   destruct (Z.eqb_spec l' l) as [->|]; lia.
                ** specialize (Hcov l' Hl' HY'). split; [lia|]. unfold cur'.
                   destruct (Z.eqb_spec l' l) as [->|]; [lia|]. specialize (Hcur l' ltac:(lia)).
                   assert (Y l' <= Y (l - 1)) by
                     (destruct (Z.eq_dec l' (l - 1)) as [->|]; [lia|
                       pose proof (HYlt l' (l - 1) ltac:(lia) ltac:(lia) ltac:(lia)); lia]). lia.
      + apply Z.leb_gt in Elk. assert (l = k + 1) by lia. subst l.
        replace (k + 1 - 1) with k in * by lia.
        unfold newcand. destruct (aset_ex c (k + 1) (Z.of_nat (length cl))) as (c' & Ec & Hcs & Hcl & Hco); [lia|].
        rewrite Ec. cbn [bind].
        set (cur' := fun x => if x =? k + 1 then y else cur x).
        set (cq' := fun x => if x =? k + 1 then Z.of_nat (length cl) else cq x).
        exists (cl ++ [mkCand i y (Q k)]), c', (k + 1), cur', cq'. split; auto.
        assert (Hcur'1 : forall l', 1 <= l' <= k -> cur' l' = cur l').
        { intros l' Hl'. unfold cur'. destruct (Z.eqb_spec l' (k + 1)); [lia|auto]. }
        assert (Hcur'2 : cur' (k + 1) = y) by (unfold cur'; rewrite Z.eqb_refl; auto).
        assert (Hc0' : cur' 0 = 0) by (unfold cur'; destruct (Z.eqb_spec 0 (k + 1)); lia).
        assert (HlowY : forall l', 1 <= l' <= k + 1 -> Y (l' - 1) < cur' l').
        { intros l' Hl'. destruct (Z.eq_dec l' (k + 1)) as [->|].
          - rewrite Hcur'2. replace (k + 1 - 1) with k by lia. auto.
          - rewrite Hcur'1 by lia. apply Hcur. lia. }
        split.
        * constructor; auto; try lia.
          -- intros l' Hl'. unfold cq'. destruct (Z.eqb_spec l' (k + 1)) as [->|]; [auto|].
             rewrite Hco by auto. apply Hcq; lia.
          -- intros l' Hl'. unfold cq', cur'. destruct (Z.eqb_spec l' (k + 1)) as [->|]; [auto|].
             apply good_app. apply Hcq; lia.
          -- intros l' Hl'. destruct (Z.eq_dec l' 1) as [->|].
             ++ replace (1 - 1) with 0 by lia. rewrite Hc0'. specialize (HlowY 1 ltac:(lia)).
                replace (1 - 1) with 0 in HlowY by lia. lia.
             ++ specialize (HlowY l' Hl'). rewrite (Hcur'1 (l' - 1)) by lia.
                specialize (Hcur (l' - 1) ltac:(lia)). lia.
          -- intros l' Hl'. destruct (Z.eq_dec l' 0) as [->|]; [rewrite Hc0', <- HY0; apply HYm; lia|].
             destruct (Z.eq_dec l' (k + 1)) as [->|]; [lia|]. rewrite Hcur'1 by lia.
             specialize (Hcur l' ltac:(lia)). specialize (HYm l' ltac:(lia)). lia.
        * split; auto. split; [auto|]. split; [|split].
          -- intros l' Hl'. destruct (Z.eq_dec l' 0) as [->|]; [lia|]. rewrite Hcur'1 by lia. apply Hcur; lia.
          -- intros l' Hl'. destruct (Z.eq_dec l' (k + 1)) as [->|].
             ++ right. rewrite Hcur'2. apply Hy0.
             ++ rewrite Hcur'1 by lia. destruct (Hcm l' ltac:(lia)); auto. left. split; [lia|auto].
          -- intros p l' Hp Hl' HY'. apply in_app_iff in Hp as [Hp|[<-|[]]].
             ++ destruct (Hdone p l' Hp Hl' HY') as [D1 D2]. split; [lia|]. rewrite Hcur'1 by lia. auto.
             ++ split; [lia|]. destruct (Z.eq_dec l' (k + 1)) as [->|]; [lia|]. rewrite Hcur'1 by lia.
                specialize (Hcur l' ltac:(lia)).
                assert (Y l' <= Y k) by (destruct (Z.eq_dec l' k) as [->|]; [lia|
                   pose proof (HYlt l' k ltac:(lia) ltac:(lia) ltac:(lia)); lia]). lia.
    - (* more members, this one skipped *)
      apply Z.leb_le in Ey.
      destruct Hrun as (Hz & Hz0 & Hrun). rewrite Hz. cbn [bind].
      destruct (y2 >? 0) eqn:Ez; [|rewrite Z.gtb_ltb, Z.ltb_ge in Ez; lia].
      inversion HSS as [|? ? HSS' HF]; subst.
      assert (Hyy2 : y < y2) by (inversion HF; auto).
      destruct Hl1c as [->|[Ha Hb]].
      2:{ pose proof (HYlt l1 (l1 + 1) ltac:(lia) ltac:(lia) ltac:(lia)). lia. }
      destruct (IH (done ++ [y]) fuel cl c oldl (Q oldl) (j + 1) y2 cur cq oldl)
        as (cl' & c' & k' & Y' & Q' & E & K & S); auto; try lia.
      { intros p Hp. apply HMy. cbn. cbn in Hp. tauto. }
      { cbn in Hfuel. lia. }
      { intros p l Hp Hl HY. apply in_app_iff in Hp as [Hp|[<-|[]]]; [auto|].
        assert (Hll : l <= oldl).
        { destruct (Z_le_gt_dec l oldl); auto. 
          destruct (Z.eq_dec (l - 1) oldl) as [<-|]; [lia|].
          pose proof (HYlt oldl (l - 1) ltac:(lia) ltac:(lia) ltac:(lia)). lia. }
        split; [lia|]. destruct (Z.eq_dec l oldl) as [->|]; [specialize (Holc ltac:(lia)); lia|].
        specialize (Holc ltac:(lia)). pose proof (Hcur oldl ltac:(lia)). pose proof (Hcur l ltac:(lia)).
        assert (Y l <= Y (oldl - 1)) by
          (destruct (Z.eq_dec l (oldl - 1)) as [->|]; [lia|
            pose proof (HYlt l (oldl - 1) ltac:(lia) ltac:(lia) ltac:(lia)); lia]). lia. }
      exists cl', c', k', Y', Q'. split; auto. split; auto.
      rewrite <- app_assoc in S. exact S.
    - (* more members, this one used *)
      apply Z.leb_gt in Ey.
      destruct (search_ok cl c cur k y Hky Hcurlt Hk ltac:(lia)) as (l & -> & Hl & Hlm & Hlk).
      cbn [bind].
      assert (Hlol : l > l1).
      { destruct (Z_gt_le_dec l l1); auto. exfalso. 
        specialize (Hlk ltac:(lia)). specialize (Hcur l ltac:(lia)).
        destruct (Z.eq_dec l l1) as [->|]; [lia|].
        pose proof (HYlt l l1 ltac:(lia) ltac:(lia) ltac:(lia)). lia. }
      assert (Hoc' : (if l =? oldl + 1 then Ok (Q l1) else aget c (l - 1)) = Ok (Q (l - 1))).
      { destruct (l =? oldl + 1) eqn:El.
        - apply Z.eqb_eq in El. assert (l1 = l - 1) by lia. subst; auto.
        - apply Z.eqb_neq in El. destruct (Hun (l - 1) ltac:(lia)) as [<- _].
          apply aget_ok; [lia|]. apply Hcq. lia. }
      rewrite Hoc'. cbn [bind].
      assert (HYl1 : Y (l - 1) < y).
      { destruct (Z.eq_dec (l - 1) oldl) as [E|].
        - assert (l1 = oldl) by lia. subst l1. rewrite E. lia.
        - destruct (Hun (l - 1) ltac:(lia)) as [_ <-]. auto. }
      assert (Hnew : good (cl ++ [mkCand i y (Q (l - 1))]) (Z.of_nat (length cl)) y l i).
      { pose proof (good_new cl (Q (l - 1)) (Y (l - 1)) (l - 1) (i - 1) i y (HQ (l - 1) ltac:(lia))
          ltac:(lia) HYl1 ltac:(lia) (proj2 Hy0)) as G. replace (l - 1 + 1) with l in G by lia. exact G. }
      inversion HSS as [|? ? HSS' HF]; subst.
      assert (Hyy2 : y < y2) by (inversion HF; auto).
      assert (Hylt : forall p, In p (y2 :: ys) -> y < p) by (rewrite Forall_forall in HF; auto).
      destruct (l <=? k) eqn:Elk.
      + apply Z.leb_le in Elk. specialize (Hlk Elk). rewrite Hky by lia. cbn [bind].
        destruct (Hun l ltac:(lia)) as [HQl HYl].
        assert (Hcov : forall l', 1 <= l' <= k + 1 -> Y (l' - 1) < y -> l' <= l).
        { intros l' Hl' HY'. destruct (Z_le_gt_dec l' l); auto. exfalso.
          destruct (Z.eq_dec (l' - 1) l) as [E|]; [rewrite E in HY'; lia|].
          pose proof (HYlt l (l' - 1) ltac:(lia) ltac:(lia) ltac:(lia)). lia. }
        destruct (cur l <=? y) eqn:Et.
        * apply Z.leb_le in Et. destruct Hrun as (Hz & Hz0 & Hrun). rewrite Hz. cbn [bind].
          destruct (y2 >? 0) eqn:Ez; [|rewrite Z.gtb_ltb, Z.ltb_ge in Ez; lia].
          destruct (IH (done ++ [y]) fuel cl c oldl (Q (l - 1)) (j + 1) y2 cur cq (l - 1))
            as (cl' & c' & k' & Y' & Q' & E & K & S); auto; try lia.
          { intros p Hp. apply HMy. cbn. cbn in Hp. tauto. }
          { cbn in Hfuel. lia. }
          { right. replace (l - 1 + 1) with l by lia. lia. }
          { intros p l' Hp Hl' HY'. apply in_app_iff in Hp as [Hp|[<-|[]]]; [auto|].
            specialize (Hcov l' Hl' HY'). split; [lia|]. specialize (Hcur l' ltac:(lia)).
            destruct (Z.eq_dec l' l) as [->|]; [lia|].
            pose proof (HYlt l' l ltac:(lia) ltac:(lia) ltac:(lia)). lia. }
          exists cl', c', k', Y', Q'. split; auto. split; auto.
          rewrite <- app_assoc in S. exact S.
        * apply Z.leb_gt in Et. rewrite (aget_ok c l (cq l)) by (try lia; apply Hcq; lia). cbn [bind].
          unfold newcand. destruct (aset_ex c l (Z.of_nat (length cl))) as (c' & Ec & Hcs & Hcl & Hco); [lia|].
          rewrite Ec. cbn [bind].
          destruct Hrun as (Hz & Hz0 & Hrun). rewrite Hz. cbn [bind].
          destruct (y2 >? 0) eqn:Ez; [|rewrite Z.gtb_ltb, Z.ltb_ge in Ez; lia].
          set (cur' := fun x => if x =? l then y else cur x).
          set (cq' := fun x => if x =? l then Z.of_nat (length cl) else cq x).
          assert (Hcur' : forall l', 1 <= l' <= k -> Y (l' - 1) < cur' l' <= Y l').
          { intros l' Hl'. unfold cur'. destruct (Z.eqb_spec l' l) as [->|]; [lia|auto]. }
          assert (Hc0' : cur' 0 = 0) by (unfold cur'; destruct (Z.eqb_spec 0 l); lia).
          destruct (IH (done ++ [y]) fuel (cl ++ [mkCand i y (Q (l - 1))]) c' l (cq l) (j + 1) y2 cur' cq' l)
            as (cl' & c'' & k' & Y' & Q' & E & K & S); auto; try lia.
          { intros p Hp. apply HMy. cbn. cbn in Hp. tauto. }
          { cbn in Hfuel. lia. }
          { intros l' Hl'. apply good_app. auto. }
          { intros l' Hl'. unfold cq', cur'. destruct (Z.eqb_spec l' l) as [->|]; [auto|].
            rewrite Hco by auto. destruct (Hcq l' Hl'). split; auto. apply good_app; auto. }
          { intros l' Hl'. unfold cq', cur'. destruct (Z.eqb_spec l' l) as [->|]; [lia|]. apply Hun. lia. }
          { intros l' Hl'. unfold cur'. destruct (Z.eqb_spec l' l) as [->|]; [right; apply Hy0|auto]. }
          { intros _. unfold cur'. rewrite Z.eqb_refl. auto. }
          { intros p l' Hp Hl' HY'. apply in_app_iff in Hp as [Hp|[<-|[]]].
            - destruct (Hdone p l' Hp Hl' HY') as [D1 D2]. split; auto. unfold cur'.
              destruct (Z.eqb_spec l' l) as [->|]; lia.
            - specialize (Hcov l' Hl' HY'). split; [lia|]. unfold cur'.
              destruct (Z.eqb_spec l' l) as [->|]; [lia|]. specialize (Hcur l' ltac:(lia)).
              assert (Y l' <= Y (l - 1)) by
                (destruct (Z.eq_dec l' (l - 1)) as [->|]; [lia|
                  pose proof (HYlt l' (l - 1) ltac:(lia) ltac:(lia) ltac:(lia)); lia]). lia. }
          exists cl', c'', k', Y', Q'. split; auto. split; auto.
          rewrite <- app_assoc in S. exact S.
      + apply Z.leb_gt in Elk. assert (l = k + 1) by lia. subst l.
        replace (k + 1 - 1) with k in * by lia.
        unfold newcand. destruct (aset_ex c (k + 1) (Z.of_nat (length cl))) as (c' & Ec & Hcs & Hcl & Hco); [lia|].
        rewrite Ec. cbn [bind].
        set (cur' := fun x => if x =? k + 1 then y else cur x).
        set (cq' := fun x => if x =? k + 1 then Z.of_nat (length cl) else cq x).
        exists (cl ++ [mkCand i y (Q k)]), c', (k + 1), cur', cq'. split; auto.
        assert (Hcur'1 : forall l', 1 <= l' <= k -> cur' l' = cur l').
        { intros l' Hl'. unfold cur'. destruct (Z.eqb_spec l' (k + 1)); [lia|auto]. }
        assert (Hcur'2 : cur' (k + 1) = y) by (unfold cur'; rewrite Z.eqb_refl; auto).
        assert (Hc0' : cur' 0 = 0) by (unfold cur'; destruct (Z.eqb_spec 0 (k + 1)); lia).
        assert (HlowY : forall l', 1 <= l' <= k + 1 -> Y (l' - 1) < cur' l').
        { intros l' Hl'. destruct (Z.eq_dec l' (k + 1)) as [->|].
          - rewrite Hcur'2. replace (k + 1 - 1) with k by lia. auto.
          - rewrite Hcur'1 by lia. apply Hcur. lia. }
        split.
        * constructor; auto; try lia.
          -- intros l' Hl'. unfold cq'. destruct (Z.eqb_spec l' (k + 1)) as [->|]; [auto|].
             rewrite Hco by auto. apply Hcq; lia.
          -- intros l' Hl'. unfold cq', cur'. destruct (Z.eqb_spec l' (k + 1)) as [->|]; [auto|].
             apply good_app. apply Hcq; lia.
          -- intros l' Hl'. destruct (Z.eq_dec l' 1) as [->|].
             ++ replace (1 - 1) with 0 by lia. rewrite Hc0'. specialize (HlowY 1 ltac:(lia)).
                replace (1 - 1) with 0 in HlowY by lia. lia.
             ++ specialize (HlowY l' Hl'). rewrite (Hcur'1 (l' - 1)) by lia.
                specialize (Hcur (l' - 1) ltac:(lia)). lia.
          -- intros l' Hl'. destruct (Z.eq_dec l' 0) as [->|]; [rewrite Hc0', <- HY0; apply HYm; lia|].
             destruct (Z.eq_dec l' (k + 1)) as [->|]; [lia|]. rewrite Hcur'1 by lia.
             specialize (Hcur l' ltac:(lia)). specialize (HYm l' ltac:(lia)). lia.
        * split; auto. split; [auto|]. split; [|split].
          -- intros l' Hl'. destruct (Z.eq_dec l' 0) as [->|]; [lia|]. rewrite Hcur'1 by lia. apply Hcur; lia.
          -- intros l' Hl'. destruct (Z.eq_dec l' (k + 1)) as [->|].
             ++ right. rewrite Hcur'2. apply Hy0.
             ++ rewrite Hcur'1 by lia. destruct (Hcm l' ltac:(lia)); auto. left. split; [lia|auto].
          -- intros p l' Hp Hl' HY'. apply in_app_iff in Hp as [Hp|Hp].
             ++ destruct (Hdone p l' Hp Hl' HY') as [D1 D2]. split; [lia|]. rewrite Hcur'1 by lia. auto.
             ++ assert (Hyp : y <= p) by (destruct Hp as [<-|Hp]; [lia|specialize (Hylt p Hp); lia]).
                split; [lia|]. destruct (Z.eq_dec l' (k + 1)) as [->|]; [lia|]. rewrite Hcur'1 by lia.
                specialize (Hcur l' ltac:(lia)).
                assert (Y l' <= Y k) by (destruct (Z.eq_dec l' k) as [->|]; [lia|
                   pose proof (HYlt l' k ltac:(lia) ltac:(lia) ltac:(lia)); lia]). lia.
  Qed.

  (** * All lines *)
  Definition csinv (i k : Z) (Y : Z -> Z) : Prop :=
    forall l y, 0 <= y <= m -> (cs i y l <-> 0 <= l <= k /\ Y l <= y).

  Lemma csinv_step i k Y ys k' Y' :
    csinv (i - 1) k Y -> 0 <= k -> Y' 0 = 0 ->
    (forall p, In p ys <-> M i p) ->
    step_post i k Y ys k' Y' -> csinv i k' Y'.
  Proof.
    intros Hc Hk HY0 Hys (Hk' & Hlow & Hle & Hor & Hcov) l y Hy. split.
    - intros Hcs. pose proof (cs_nonneg _ _ _ Hcs) as Hl0.
      destruct (Z.eq_dec l 0) as [->|Hl]; [lia|].
      apply cs_inv in Hcs as (i' & y' & HM & Hi' & Hy' & Hcs); [|lia].
      pose proof (M_range _ _ HM) as Hr.
      destruct (Z.eq_dec i' i) as [->|].
      + apply Hc in Hcs as [H1 H2]; [|lia].
        destruct (Hcov y' l) as [H3 H4]; [apply Hys; auto|lia|lia|]. lia.
      + assert (cs (i - 1) y l) as Hc'.
        { replace l with (l - 1 + 1) by lia. eapply cs_cons; eauto; lia. }
        apply Hc in Hc' as [H1 H2]; [|lia]. specialize (Hle l ltac:(lia)). lia.
    - intros [Hl HYl]. destruct (Z.eq_dec l 0) as [->|Hl0]; [constructor|].
      destruct (Hor l ltac:(lia)) as [[H1 H2]|HM].
      + eapply cs_mono with (i := i - 1) (y := y); try lia. apply Hc; lia.
      + pose proof (M_range _ _ HM) as Hr.
        replace l with (l - 1 + 1) by lia. eapply cs_cons; [exact HM|lia|lia|].
        apply Hc; [lia|]. specialize (Hlow l ltac:(lia)). lia.
  Qed.

  Lemma sorted_len ys : StronglySorted Z.lt ys ->
    forall lo hi, (forall p, In p ys -> lo < p <= hi) -> Z.of_nat (length ys) <= Z.max 0 (hi - lo).
  Proof.
    induction 1 as [|y ys HSS IH HF]; intros lo hi Hr; cbn [length]; [lia|].
    pose proof (Hr y (or_introl eq_refl)). rewrite Forall_forall in HF.
    specialize (IH y hi). 
    assert (forall p, In p ys -> y < p <= hi) as H1.
    { intros p Hp. split; [auto|]. apply Hr. cbn; auto. }
    specialize (IH H1). lia.
  Qed.

  (** What [class] and [member] must contain. *)
  Definition class_ok (a b : arr) : Prop :=
    forall i, 1 <= i <= n -> exists j, aget a i = Ok j /\
      ((j = 0 /\ forall y, ~ M i y) \/
       (j <> 0 /\ exists y ys, aget b j = Ok (- y) /\ tailrun b j ys /\
          StronglySorted Z.lt (y :: ys) /\ forall p, In p (y :: ys) <-> M i p)).

  Lemma stone_loop_ok a b cnt : class_ok a b -> forall cl c k i Y Q,
    1 <= i -> i + Z.of_nat cnt = n + 1 -> k < i ->
    kinv cl c k (i - 1) Y Q -> csinv (i - 1) k Y ->
    exists cl' c' k' Y' Q',
      stone_loop cnt a b m cl c k i = Ok (cl', c', k') /\
      kinv cl' c' k' n Y' Q' /\ csinv n k' Y' /\ k' <= n.
  Proof.
    intros Hab. induction cnt as [|cnt IH]; intros cl c k i Y Q Hi Hcnt Hki HK HC; cbn [stone_loop].
    - replace n with (i - 1) by lia. exists cl, c, k, Y, Q. split; auto. split; auto. split; auto. lia.
    - destruct (Hab i ltac:(lia)) as (j & -> & Hcase). cbn [bind].
      destruct Hcase as [(-> & Hno)|(Hj & y & ys & Hb & Hrun & HSS & Hin)].
      + rewrite Z.eqb_refl.
        apply (IH cl c k (i + 1) Y Q); try lia.
        * replace (i + 1 - 1) with i by lia. destruct HK. constructor; auto.
          intros l Hl. eapply good_mono; eauto. lia.
        * replace (i + 1 - 1) with i by lia. intros l y Hy. rewrite <- (HC l y Hy). split.
          -- intros H. pose proof (cs_nonneg _ _ _ H). destruct (Z.eq_dec l 0) as [->|]; [constructor|].
             apply cs_inv in H as (i' & y' & HM & ? & ? & Hcs); [|lia].
             destruct (Z.eq_dec i' i) as [->|]; [exfalso; eapply Hno; eauto|].
             replace l with (l - 1 + 1) by lia. eapply cs_cons; eauto; lia.
          -- intros H. eapply cs_mono; eauto; lia.
      + apply Z.eqb_neq in Hj. rewrite Hj. rewrite Hb. cbn [bind].
        pose proof HK as HK'. destruct HK' as [Kk Ks Kc Kg K0 Ki Km].
        rewrite (aget_ok c 0 (Q 0)) by (auto; try apply Kc; lia). cbn [bind].
        replace (- - y) with y by lia.
        assert (Hr : forall p, In p (y :: ys) -> 0 < p /\ M i p).
        { intros p Hp. apply Hin in Hp. split; auto. apply M_range in Hp. lia. }
        pose proof (sorted_len _ HSS 0 m) as Hlen.
        assert (Hl' : Z.of_nat (length (y :: ys)) <= Z.max 0 (m - 0)).
        { apply Hlen. intros p Hp. apply Hin in Hp. apply M_range in Hp. lia. }
        cbn [length] in Hl'.
        destruct (stone_do_ok b i k Y Q ys [] (S (Z.to_nat m)) cl c 0 (Q 0) j y Y Q 0)
          as (cl' & c' & k' & Y' & Q' & E & HK' & HS); auto; try lia.
        { intros l Hl. split; auto. eapply good_mono; eauto. lia. }
        { intros l Hl. specialize (Ki l Hl). lia. }
        { intros p l []. }
        rewrite E. cbn [bind].
        destruct HS as (Hk' & HS). 
        apply (IH cl' c' k' (i + 1) Y' Q'); try lia.
        * replace (i + 1 - 1) with i by lia. auto.
        * replace (i + 1 - 1) with i by lia. eapply (csinv_step i k Y (y :: ys)); eauto.
          -- apply (ki_Y0 _ _ _ _ _ _ HK').
          -- split; auto.
  Qed.

  Lemma stone_ok a b c :
    0 <= n -> 0 <= m -> class_ok a b -> n + 2 <= asize c ->
    exists cl c' k Y Q,
      stone a n b m c = Ok (cl, c', k) /\ kinv cl c' k n Y Q /\ csinv n k Y /\ k <= n.
  Proof.
    intros Hn Hm Hab Hsz. unfold stone, newcand. cbn [length app].
    destruct (aset_ex c 0 (Z.of_nat 0)) as (c' & E & Hs & H0 & Ho); [lia|].
    rewrite E. cbn [bind].
    apply (stone_loop_ok a b (Z.to_nat n) Hab [mkCand 0 0 0] c' 0 1 (fun _ => 0) (fun _ => 0)); try lia.
    - constructor; auto; try lia.
      + intros l Hl. replace l with 0 by lia. auto.
      + intros l Hl. replace l with 0 by lia.
        exists (mkCand 0 0 0), []. repeat split; auto.
        * eapply ch_nil; reflexivity.
        * intros p [].
    - intros l y Hy. split.
      + intros H. pose proof (cs_nonneg _ _ _ H).
        destruct (Z.eq_dec l 0) as [->|]; [lia|].
        apply cs_inv in H as (i' & y' & HM & ? & _); [|lia]. apply M_range in HM. lia.
      + intros [Hl _]. replace l with 0 by lia. constructor.
  Qed.

  (** * Summary: the chain found is a maximal matching. *)
  Lemma stone_result a b c :
    0 <= n -> 0 <= m -> class_ok a b -> n + 2 <= asize c ->
    exists cl c' k q path,
      stone a n b m c = Ok (cl, c', k) /\ aget c' k = Ok q /\
      chain cl q path /\ Z.of_nat (length path) = k /\
      (forall l, cs n m l -> l <= k) /\ cs n m k.
  Proof.
    intros Hn Hm Hab Hsz.
    destruct (stone_ok a b c Hn Hm Hab Hsz) as (cl & c' & k & Y & Q & E & HK & HC & Hkn).
    destruct HK as [Kk Ks Kc Kg K0 Ki Km].
    destruct (Kg k ltac:(lia)) as (cd & path & _ & _ & Hch & Hlen & _).
    exists cl, c', k, (Q k), path. split; auto. split; [apply aget_ok; [lia|apply Kc; lia]|].
    split; auto. split; auto. split.
    - intros l Hl. apply HC in Hl; lia.
    - apply HC; [lia|]. split; [lia|]. apply Km. lia.
  Qed.
End Stone.
