(** Proofs about the reports. *)
From Coq Require Import ZArith String Ascii List Bool Lia Permutation Sorting.Sorted.
From Verif Require Import Base LocModel HeapProofs LocSpec LocProofs ParsedModel ParsedSpec ParsedProofs FileDiffSpec FileDiffProofs ReportModel ReportSpec.
Import ListNotations.
Open Scope Z_scope.

(** * Sorting *)
Lemma nth_error_upd {A} (l : list A) i j v :
  nth_error (upd l i v) j = if Nat.eqb i j then (if Nat.ltb i (length l) then Some v else None) else nth_error l j.
Proof.
  destruct (Nat.eqb_spec i j) as [->|H].
  - destruct (Nat.ltb_spec j (length l)) as [L|L].
    + apply nth_error_upd_eq; auto.
    + apply nth_error_None. rewrite upd_length. lia.
  - apply nth_error_upd_ne; auto.
Qed.

Lemma upd_split {A} (l1 l2 : list A) x v : upd (l1 ++ x :: l2) (length l1) v = l1 ++ v :: l2.
Proof. induction l1 as [|y l1 IH]; cbn; auto. f_equal. auto. Qed.

Lemma swap_perm {A} (xs : list A) i j x y : (i < j)%nat ->
  nth_error xs i = Some x -> nth_error xs j = Some y ->
  Permutation xs (upd (upd xs i y) j x).
Proof.
  intros L Hi Hj. destruct (nth_error_split _ _ Hi) as (l1 & l2 & -> & E1).
  rewrite nth_error_app2 in Hj by lia. rewrite E1 in Hj.
  destruct (j - i)%nat as [|k] eqn:E; [lia|]. cbn in Hj.
  destruct (nth_error_split _ _ Hj) as (l3 & l4 & -> & E2).
  rewrite <- E1, upd_split.
  replace (l1 ++ y :: l3 ++ y :: l4) with ((l1 ++ y :: l3) ++ y :: l4) by (rewrite <- app_assoc; auto).
  replace j with (length (l1 ++ y :: l3)) by (rewrite app_length; cbn; lia).
  rewrite upd_split, <- app_assoc. cbn. apply Permutation_app_head.
  etransitivity; [|apply perm_skip, Permutation_middle].
  etransitivity; [apply perm_skip; symmetry; apply Permutation_middle|]. apply perm_swap.
Qed.

Section Sort.
  Variable better : loc -> loc -> bool.
  Hypothesis irrefl : forall x, better x x = false.
  Hypothesis negtrans : forall t m y, better t m = false -> better y m = true -> better t y = false.

  Definition none_better (xs : list loc) (m i j : nat) : Prop :=
    forall t vt vm, (i <= t < j)%nat -> nth_error xs t = Some vt -> nth_error xs m = Some vm ->
      better vt vm = false.

  Lemma best_loop_ok h addrs xs p : chain h p addrs xs -> forall fuel i j m am,
    (length xs - j < fuel)%nat -> (i <= m < j)%nat -> nth_error addrs m = Some am ->
    none_better xs m i j ->
    exists m' am', best_loop fuel better h am (nth_error addrs j) = Ok am' /\
      nth_error addrs m' = Some am' /\ (i <= m' < length xs)%nat /\ none_better xs m' i (length xs).
  Proof.
    intros Hc. pose proof (chain_length _ _ _ _ Hc) as HL.
    induction fuel as [|k IH]; intros i j m am Hf Hm Ham Hn; [lia|].
    assert (Hml : (m < length addrs)%nat) by (apply nth_error_Some; congruence).
    cbn [best_loop]. destruct (nth_error addrs j) as [a2|] eqn:Ej.
    - destruct (chain_nth _ _ _ _ _ _ Hc Ej) as (n2 & x2 & H2 & V2 & X2 & N2).
      destruct (chain_nth _ _ _ _ _ _ Hc Ham) as (nm & xm & H3 & V3 & X3 & N3).
      cbn [deref]. rewrite H2, H3. cbn [bind]. unfold val_of. rewrite V2, V3. cbn [bind]. rewrite N2.
      assert ((j < length xs)%nat) by (rewrite <- HL; apply nth_error_Some; congruence).
      destruct (better x2 xm) eqn:B.
      + apply (IH i (S j) j a2); auto; try lia.
        intros t vt vm Ht Hvt Hvm. rewrite X2 in Hvm. injection Hvm as <-.
        destruct (Nat.eq_dec t j) as [->|Hne].
        * rewrite X2 in Hvt. injection Hvt as <-. apply irrefl.
        * apply (negtrans vt xm x2); auto. apply (Hn t); auto; lia.
      + apply (IH i (S j) m am); auto; try lia.
        intros t vt vm Ht Hvt Hvm.
        destruct (Nat.eq_dec t j) as [->|Hne].
        * rewrite X2 in Hvt. rewrite X3 in Hvm. congruence.
        * apply (Hn t); auto; lia.
    - apply nth_error_None in Ej. exists m, am. repeat split; auto; try lia.
      intros t vt vm Ht. apply Hn. lia.
  Qed.

  Lemma best_loop_ok' h lst addrs xs : rep h lst addrs xs -> forall i ai,
    nth_error addrs i = Some ai ->
    exists m am, best_loop (S (length h)) better h ai (nth_error addrs (S i)) = Ok am /\
      nth_error addrs m = Some am /\ (i <= m < length xs)%nat /\ none_better xs m i (length xs).
  Proof.
    intros Hr i ai Hi. destruct (rep_fuel _ _ _ _ Hr) as [F1 F2].
    destruct (rep_head _ _ _ _ Hr) as (n & Hn & Hh & Hc). pose proof (chain_length _ _ _ _ Hc).
    apply (best_loop_ok h addrs xs _ Hc _ i (S i) i ai); auto; try lia.
    intros t vt vm Ht. replace t with i by lia. intros A B. replace vm with vt by congruence. apply irrefl.
  Qed.

  Definition sorted_to (xs : list loc) (i : nat) : Prop :=
    forall s t vs vt, (s < i)%nat -> (s < t)%nat -> nth_error xs s = Some vs -> nth_error xs t = Some vt ->
      better vt vs = false.

  Lemma nodup_nth_inj {A} (l : list A) i j x : NoDup l -> nth_error l i = Some x -> nth_error l j = Some x -> i = j.
  Proof. intros H Hi Hj. rewrite NoDup_nth_error in H. apply H; [apply nth_error_Some|]; congruence. Qed.

  Lemma sort_loop_ok lst addrs xs0 : forall fuel h xs i,
    (length xs - i < fuel)%nat -> rep h lst addrs xs -> Permutation xs0 xs -> sorted_to xs i ->
    exists h' xs', sort_loop fuel better h (nth_error addrs i) = Ok h' /\ rep h' lst addrs xs' /\
      Permutation xs0 xs' /\ sorted_to xs' (length xs') /\ frame h h' (footprint lst addrs).
  Proof.
    induction fuel as [|k IH]; intros h xs i Hf Hr Hp Hs; [lia|].
    destruct (rep_head _ _ _ _ Hr) as (n & Hn & Hh & Hc). pose proof (chain_length _ _ _ _ Hc) as HL.
    assert (ND : NoDup addrs).
    { destruct Hr as (n0 & _ & H). destruct addrs; [constructor|]. tauto. }
    cbn [sort_loop]. destruct (nth_error addrs i) as [a|] eqn:Ei.
    - assert ((i < length xs)%nat) by (rewrite <- HL; apply nth_error_Some; congruence).
      destruct (chain_nth _ _ _ _ _ _ Hc Ei) as (ni & xi & Hni & Vi & Xi & Ni).
      cbn [deref]. rewrite Hni. cbn [bind]. rewrite Ni.
      destruct (best_loop_ok' h lst addrs xs Hr i a Ei) as (m & am & Em & Ham & Hm & Hnb).
      rewrite Em. cbn [bind]. destruct (Nat.eqb_spec a am) as [E|E].
      + subst am. cbn [bind]. rewrite Hni. cbn [bind]. rewrite Ni. apply (IH h xs (S i)); auto; try lia.
        assert (i = m) by (eapply nodup_nth_inj; eauto). subst m.
        intros s t vs vt Hst Ht Hvs Hvt. destruct (Nat.eq_dec s i) as [->|].
        * apply (Hnb t); auto. assert ((t < length xs)%nat) by (apply nth_error_Some; congruence). lia.
        * apply (Hs s t); auto. lia.
      + assert (i <> m) by congruence.
        unfold val_of at 1. rewrite Vi. cbn [bind].
        destruct (chain_nth _ _ _ _ _ _ Hc Ham) as (nm & xm & Hnm & Vm & Xm & Nm).
        cbn [deref]. rewrite Hnm. cbn [bind]. unfold val_of. rewrite Vm. cbn [bind].
        destruct (rep_modify h lst addrs xs i a xm Hr Ei) as (h1 & E1 & R1 & F1 & L1). rewrite E1. cbn [bind].
        destruct (rep_modify h1 lst addrs (upd xs i xm) m am xi R1 Ham) as (h2 & E2 & R2 & F2 & L2).
        rewrite E2. cbn [bind].
        destruct (rep_head _ _ _ _ R2) as (n2 & Hn2 & Hh2 & Hc2).
        destruct (chain_nth _ _ _ _ _ _ Hc2 Ei) as (ni' & xi' & Hni' & _ & _ & Ni').
        rewrite Hni'. cbn [bind]. rewrite Ni'.
        destruct (IH h2 (upd (upd xs i xm) m xi) (S i)) as (h' & xs' & E' & R' & P' & S' & F'); auto.
        * rewrite !upd_length. lia.
        * etransitivity; [exact Hp|]. apply swap_perm; auto; lia.
        * assert (Hget : forall t vt, nth_error (upd (upd xs i xm) m xi) t = Some vt ->
                    (t = i /\ vt = xm) \/ (t <> i /\ exists t', (i <= t' <-> i <= t)%nat /\ (t < i -> t' = t)%nat /\ nth_error xs t' = Some vt)).
          { intros t vt. rewrite !nth_error_upd, upd_length.
            replace (Nat.ltb m (length xs)) with true by (symmetry; apply Nat.ltb_lt; lia).
            replace (Nat.ltb i (length xs)) with true by (symmetry; apply Nat.ltb_lt; lia).
            destruct (Nat.eqb_spec m t) as [->|]; [|destruct (Nat.eqb_spec i t) as [->|]].
            - intros [= <-]. right. split; [lia|]. exists i. split; [lia|]. split; [lia|]. auto.
            - intros [= <-]. auto.
            - intros Ht. right. split; [lia|]. exists t. split; [lia|]. auto. }
          intros s t vs vt Hst Ht Hvs Hvt.
          destruct (Hget _ _ Hvt) as [[-> ->]|(Hti & t' & T1 & T2 & T3)];
          destruct (Hget _ _ Hvs) as [[-> ->]|(Hsi & s' & S1 & S2 & S3)]; try lia.
          -- rewrite S2 in S3 by lia. apply (Hs s m); auto; lia.
          -- apply (Hnb t'); auto. assert ((t' < length xs)%nat) by (apply nth_error_Some; congruence). lia.
          -- rewrite S2 in S3 by lia. apply (Hs s t'); auto; lia.
        * exists h', xs'. repeat split; auto.
          -- destruct F1, F2, F'. lia.
          -- intros b Hb Hnin. destruct F1 as [? F1], F2 as [? F2], F' as [? F'].
             rewrite F', F2, F1; auto; lia.
    - apply nth_error_None in Ei. exists h, xs. split; auto. split; auto. split; auto. split.
      + intros s t vs vt Hst Ht Hvs Hvt. apply (Hs s t); auto.
        assert ((s < length xs)%nat) by (apply nth_error_Some; congruence). lia.
      + apply frame_refl.
  Qed.

  Lemma sorted_strongly xs : sorted_to xs (length xs) -> StronglySorted (fun a b => better b a = false) xs.
  Proof.
    induction xs as [|x xs IH]; intros H; constructor.
    - apply IH. intros s t vs vt Hs Ht Hvs Hvt. apply (H (S s) (S t)); cbn; auto; lia.
    - apply Forall_forall. intros y Hy. apply In_nth_error in Hy as [k Hk].
      apply (H 0%nat (S k)); cbn; auto; lia.
  Qed.

  Lemma sort_by_ok h lst addrs xs : rep h lst addrs xs ->
    exists h' xs', sort_by better h lst = Ok h' /\ rep h' lst addrs xs' /\
      Permutation xs xs' /\ StronglySorted (fun a b => better b a = false) xs' /\
      frame h h' (footprint lst addrs).
  Proof.
    intros Hr. destruct (rep_head _ _ _ _ Hr) as (n & Hn & Hh & Hc). destruct (rep_fuel _ _ _ _ Hr) as [F1 F2].
    pose proof (chain_length _ _ _ _ Hc).
    unfold sort_by. cbn [deref]. rewrite Hn. cbn [bind].
    replace (n_head n) with (nth_error addrs 0).
    - destruct (sort_loop_ok lst addrs xs (S (length h)) h xs 0) as (h' & xs' & A & B & C & D & E); auto; try lia.
      { intros s t vs vt Hs. lia. }
      exists h', xs'. split; [exact A|]. split; auto. split; auto. split; auto. apply sorted_strongly; auto.
    - destruct addrs as [|b ar], xs; cbn in *; try tauto; try (rewrite Hc; auto).
      destruct Hc as [Hc _]. congruence.
  Qed.
End Sort.

(** [strcmp] is the byte order. *)
Lemma strcmp_compare a : forall b, (strcmp a b <? 0) = String.ltb a b.
Proof.
  unfold String.ltb. induction a as [|x a IH]; destruct b as [|y b]; cbn; auto.
  destruct (Ascii.eqb_spec x y) as [->|H].
  - rewrite IH. unfold Ascii.compare. rewrite N.compare_refl. auto.
  - unfold byte_of_ascii, Ascii.compare.
    assert (N_of_ascii x <> N_of_ascii y).
    { intros E. apply H. rewrite <- (ascii_N_embedding x), <- (ascii_N_embedding y), E. auto. }
    destruct (N.compare_spec (N_of_ascii x) (N_of_ascii y)); try contradiction.
    + apply Z.ltb_lt. lia.
    + apply Z.ltb_ge. lia.
Qed.

Lemma compare_trans_lt a : forall b c, String.compare a b = Lt -> String.compare b c = Lt -> String.compare a c = Lt.
Proof.
  induction a as [|x a IH]; destruct b as [|y b]; destruct c as [|z c]; cbn; try discriminate; auto.
  unfold Ascii.compare.
  destruct (N.compare_spec (N_of_ascii x) (N_of_ascii y)) as [E1|E1|E1];
  destruct (N.compare_spec (N_of_ascii y) (N_of_ascii z)) as [E2|E2|E2]; try discriminate; intros A B.
  - rewrite E1, E2, N.compare_refl. eauto.
  - rewrite E1. rewrite (proj2 (N.compare_lt_iff _ _) E2). auto.
  - rewrite <- E2. rewrite (proj2 (N.compare_lt_iff _ _) E1). auto.
  - rewrite (proj2 (N.compare_lt_iff _ _)); auto. lia.
Qed.

Lemma compare_antisym a : forall b, String.compare a b = CompOpp (String.compare b a).
Proof.
  induction a as [|x a IH]; destruct b as [|y b]; cbn; auto. unfold Ascii.compare.
  rewrite (N.compare_antisym (N_of_ascii y)). destruct (N.compare _ _); cbn; auto.
Qed.

Lemma ltb_irrefl a : String.ltb a a = false.
Proof.
  unfold String.ltb. pose proof (compare_antisym a a) as H. destruct (String.compare a a); auto; discriminate.
Qed.

Lemma ltb_leb a b : String.ltb a b = false -> String.leb b a = true.
Proof.
  unfold String.ltb, String.leb. rewrite (compare_antisym b a). destruct (String.compare a b); cbn; auto; discriminate.
Qed.

Lemma compare_eq a : forall b, String.compare a b = Eq -> a = b.
Proof.
  induction a as [|x a IH]; destruct b as [|y b]; cbn; try discriminate; auto. unfold Ascii.compare.
  destruct (N.compare_spec (N_of_ascii x) (N_of_ascii y)) as [E|E|E]; try discriminate.
  intros H. f_equal; auto. rewrite <- (ascii_N_embedding x), <- (ascii_N_embedding y), E. auto.
Qed.

Lemma ltb_negtrans t m y : String.ltb t m = false -> String.ltb y m = true -> String.ltb t y = false.
Proof.
  unfold String.ltb. intros A B. destruct (String.compare t y) eqn:C; auto.
  destruct (String.compare y m) eqn:D; try discriminate. rewrite (compare_trans_lt _ _ _ C D) in A. discriminate.
Qed.

Lemma sort_language_ok h lst addrs xs : rep h lst addrs xs ->
  exists h' xs', sort_loc_list_by_language h lst = Ok h' /\ rep h' lst addrs xs' /\ Permutation xs xs' /\
    StronglySorted (fun a b => String.leb (l_lang a) (l_lang b) = true) xs' /\ frame h h' (footprint lst addrs).
Proof.
  intros Hr. unfold sort_loc_list_by_language.
  edestruct (sort_by_ok (fun l2 m => strcmp (l_lang l2) (l_lang m) <? 0)) as (h' & xs' & A & B & C & D & E).
  - intros x. rewrite strcmp_compare. apply ltb_irrefl.
  - intros t m y. rewrite !strcmp_compare. apply ltb_negtrans.
  - exact Hr.
  - exists h', xs'. split; [exact A|]. split; auto. split; auto. split; auto.
    clear -D. induction D as [|x xs H IH F]; constructor; auto.
    eapply Forall_impl; [|exact F]. intros y Hy. cbn in Hy. rewrite strcmp_compare in Hy. apply ltb_leb. auto.
Qed.

Lemma sort_code_ok h lst addrs xs : rep h lst addrs xs ->
  exists h' xs', sort_loc_list_by_code h lst = Ok h' /\ rep h' lst addrs xs' /\ Permutation xs xs' /\
    StronglySorted (fun a b => l_code b <= l_code a) xs' /\ frame h h' (footprint lst addrs).
Proof.
  intros Hr. unfold sort_loc_list_by_code.
  edestruct (sort_by_ok (fun l2 m => l_code m <? l_code l2)) as (h' & xs' & A & B & C & D & E).
  - intros x. apply Z.ltb_irrefl.
  - intros t m y. rewrite !Z.ltb_ge, Z.ltb_lt. lia.
  - exact Hr.
  - exists h', xs'. split; [exact A|]. split; auto. split; auto. split; auto.
    clear -D. induction D as [|x xs H IH F]; constructor; auto.
    eapply Forall_impl; [|exact F]. intros y Hy. cbn in Hy. apply Z.ltb_ge in Hy. auto.
Qed.

(** * Analysis of a set of files *)
Definition file_ops (i : nat) (f : list plang) : list loc_op :=
  LNew :: map (fun pl => LAdd i (loc_of pl)) f ++ [LAddList 0 i].

Fixpoint files_ops (i : nat) (files : list (list plang)) : list loc_op :=
  match files with
  | [] => []
  | f :: r => file_ops i f ++ files_ops (S i) r
  end.

Lemma run_ops_app a b : forall st, run_loc_ops st (a ++ b) = (st <- run_loc_ops st a ;; run_loc_ops st b).
Proof.
  induction a as [|x a IH]; intros st; cbn [app run_loc_ops bind]; auto.
  destruct (run_loc_op st x); cbn [bind]; auto.
Qed.

Lemma run_adds_at l : forall h ids i a, nth_error ids i = Some a ->
  run_loc_ops (h, ids) (map (fun pl => LAdd i (loc_of pl)) l) = (h' <- add_locs h a l ;; Ok (h', ids)).
Proof.
  induction l as [|pl l IH]; intros h ids i a Ha; cbn [map run_loc_ops add_locs]; auto.
  unfold run_loc_op. rewrite Ha. unfold loc_of. destruct (loc_list_add_loc _ _ _) as [h1|w|]; cbn [bind]; auto.
Qed.

Lemma run_files files : forall h total ids,
  run_loc_ops (h, total :: ids) (files_ops (S (length ids)) files) =
  match analyze_loop h total files with
  | Ok h' => match run_loc_ops (h, total :: ids) (files_ops (S (length ids)) files) with
             | Ok (_, ids') => Ok (h', ids')
             | r => r end
  | Ub w => Ub w
  | OutOfFuel => OutOfFuel
  end.
Proof.
  induction files as [|f files IH]; intros h total ids; [reflexivity|].
  cbn [files_ops analyze_loop]. rewrite run_ops_app. unfold file_ops. cbn [run_loc_ops run_loc_op].
  destruct (node_new h) as [h1 a]. cbn [bind app]. rewrite run_ops_app.
  rewrite (run_adds_at f h1 (total :: ids ++ [a]) (S (length ids)) a)
    by (cbn; rewrite nth_error_app2, Nat.sub_diag by lia; auto).
  destruct (add_locs h1 a f) as [h2|w|]; cbn [bind]; auto.
  cbn [run_loc_ops run_loc_op nth_error]. rewrite nth_error_app2, Nat.sub_diag by lia. cbn [nth_error].
  destruct (loc_list_add_loc_list _ h2 total a) as [h3|w|]; cbn [bind]; auto.
  specialize (IH h3 total (ids ++ [a])). rewrite app_length in IH. cbn [length] in IH.
  rewrite Nat.add_1_r in IH. exact IH.
Qed.

Lemma bags_adds_at l : forall bags i b, nth_error bags i = Some b ->
  fold_left bag_op (map (fun pl => LAdd i (loc_of pl)) l) bags = upd bags i (b ++ map loc_of l).
Proof.
  induction l as [|x l IH]; intros bags i b Hb; cbn [map fold_left].
  - rewrite app_nil_r. apply nth_error_split in Hb as (l1 & l2 & -> & <-). rewrite upd_split. auto.
  - cbn [bag_op]. rewrite Hb. rewrite (IH _ i (b ++ [loc_of x])).
    + rewrite <- app_assoc. cbn. apply nth_error_split in Hb as (l1 & l2 & -> & <-). rewrite !upd_split. auto.
    + apply nth_error_upd_eq. apply nth_error_Some. congruence.
Qed.

Lemma bags_files files : forall b0 bs, fold_left bag_op (files_ops (S (length bs)) files) (b0 :: bs) =
  (b0 ++ concat (map (map loc_of) files)) :: bs ++ map (map loc_of) files.
Proof.
  induction files as [|f files IH]; intros b0 bs; cbn [files_ops fold_left map concat].
  - rewrite !app_nil_r. auto.
  - rewrite fold_left_app. unfold file_ops. cbn [fold_left bag_op]. rewrite fold_left_app.
    rewrite (bags_adds_at f _ (S (length bs)) []).
    2:{ cbn. rewrite nth_error_app2, Nat.sub_diag by lia. auto. }
    cbn [app upd]. rewrite upd_split. cbn [fold_left bag_op nth_error].
    rewrite nth_error_app2, Nat.sub_diag by lia. cbn [nth_error upd].
    specialize (IH (b0 ++ map loc_of f) (bs ++ [map loc_of f])). rewrite app_length in IH. cbn [length] in IH.
    rewrite Nat.add_1_r in IH. rewrite IH. rewrite <- !app_assoc. auto.
Qed.

Lemma run_op_head hh a r op st : run_loc_op (hh, a :: r) op = Ok st -> exists r', snd st = a :: r'.
Proof.
  unfold run_loc_op. intros E. destruct op as [|i l|i j|i].
  - destruct (node_new hh). injection E as <-. cbn. eauto.
  - destruct (nth_error (a :: r) i); [|injection E as <-; cbn; eauto].
    destruct (loc_list_add_loc _ _ _); cbn [bind] in E; try discriminate. injection E as <-. cbn. eauto.
  - destruct (nth_error (a :: r) i); [|injection E as <-; cbn; eauto].
    destruct (nth_error (a :: r) j); [|injection E as <-; cbn; eauto].
    destruct (loc_list_add_loc_list _ _ _ _); cbn [bind] in E; try discriminate. injection E as <-. cbn. eauto.
  - destruct (nth_error (a :: r) i); [|injection E as <-; cbn; eauto].
    destruct (loc_list_new_compact _ _) as [[h' b]| |]; cbn [bind] in E; try discriminate. injection E as <-. cbn. eauto.
Qed.

Lemma run_ops_head ops : forall st h ids a r, run_loc_ops st ops = Ok (h, ids) -> snd st = a :: r ->
  exists r', ids = a :: r'.
Proof.
  induction ops as [|op ops IH]; intros st h ids a r; cbn [run_loc_ops]; [intros [= ->]; cbn; eauto|].
  intros E Hst. destruct (run_loc_op st op) as [st1|w|] eqn:E1; try discriminate. cbn [bind] in E.
  destruct st as [hh is0]. cbn in Hst. subst is0. destruct (run_op_head _ _ _ _ _ E1) as [r1 H1]. eauto.
Qed.

Lemma analyze_ok files : Forall (Forall (fun pl => loc_nonneg (loc_of pl))) files ->
  bag_fits (concat (map (map loc_of) files)) ->
  exists h lst addrs, analyze_languages files = Ok (h, lst) /\
    rep h lst addrs (summary (concat (map (map loc_of) files))).
Proof.
  intros Hnn Hfit. set (ops := LNew :: files_ops 1 files).
  assert (Hb : bags_of ops = concat (map (map loc_of) files) :: map (map loc_of) files).
  { unfold bags_of, ops. cbn [fold_left bag_op app]. apply (bags_files files [] []). }
  destruct (loc_no_overflow_lemma ops) as [st Est].
  - constructor; [exact I|]. clear -Hnn. generalize 1%nat as i. induction Hnn as [|f files Hf _ IH]; intros i; cbn [files_ops]; [constructor|].
    unfold file_ops. cbn [app]. constructor; [exact I|]. rewrite <- app_assoc. apply Forall_app. split.
    + apply Forall_map. eapply Forall_impl; [|exact Hf]. auto.
    + constructor; [exact I|]. apply IH.
  - rewrite Hb. constructor; auto. clear -Hnn Hfit.
    assert (Hc : Forall loc_nonneg (concat (map (map loc_of) files))).
    { apply Forall_concat, Forall_map. eapply Forall_impl; [|exact Hnn]. intros f Hf. apply Forall_map. auto. }
    assert (N1 : forall x, loc_nonneg x -> 0 <= lines x /\ 0 <= l_files x).
    { unfold loc_nonneg, lines. intros x. lia. }
    revert Hfit Hc. induction (map (map loc_of) files) as [|f fs IH]; intros Hfit Hc; constructor; cbn [concat] in *.
    + apply (bag_fits_app_l f (concat fs)); auto; apply Forall_app in Hc as [H1 H2]; auto.
    + apply IH; [|apply Forall_app in Hc; tauto]. apply Forall_app in Hc as [Hc _].
      unfold bag_fits in *. rewrite !map_app, !zsum_app in Hfit.
      assert (0 <= zsum (map lines f)).
      { apply zsum_nonneg. intros z Hz. apply in_map_iff in Hz as (x & <- & Hx). rewrite Forall_forall in Hc. apply N1; auto. }
      assert (0 <= zsum (map l_files f)).
      { apply zsum_nonneg. intros z Hz. apply in_map_iff in Hz as (x & <- & Hx). rewrite Forall_forall in Hc. apply N1; auto. }
      lia.
  - destruct st as [h ids]. destruct (loc_history_lemma _ _ _ Est) as [Hl Hr]. rewrite Hb in Hl, Hr.
    unfold ops in Est. cbn [run_loc_ops run_loc_op] in Est. unfold analyze_languages.
    destruct (node_new []) as [h0 a0]. cbn [app bind] in Est.
    pose proof (run_files files h0 a0 []) as HR. cbn [length] in HR. rewrite HR in Est.
    destruct (analyze_loop h0 a0 files) as [h'|w|] eqn:EA; try discriminate.
    destruct (run_loc_ops (h0, [a0]) (files_ops 1 files)) as [[h2 ids2]|w|] eqn:EB; try discriminate.
    injection Est as -> ->. cbn [bind].
    assert (Hids : exists r, ids = a0 :: r) by (eapply run_ops_head; [exact EB|reflexivity]).
    destruct Hids as [r ->]. destruct (Hr 0%nat a0 _ eq_refl eq_refl) as [addrs Ha].
    exists h, a0, addrs. split; auto.
Qed.

(** * Files as sets of events *)
Definition file_locs (f : revision) : list loc :=
  map (fun g => mkLoc g (lines_in g "lcode" f) (lines_in g "lcomment" f) (lines_in g "lblank" f) 1)
      (first_occ (languages f)).

Lemma file_parsed f : good_revision f ->
  exists l, run_callbacks (r_text f) [] (r_events f) = Ok l /\ map loc_of l = file_locs f /\
    NoDup (map p_name l) /\ Forall (fun pl => loc_nonneg (loc_of pl)) l /\
    zsum (map lines (map loc_of l)) <= Z.of_nat (length (r_events f)) /\
    Z.of_nat (length l) <= Z.of_nat (length (r_events f)).
Proof.
  intros (Hz & Hs & Hn & Hg & V1 & V2).
  destruct (run_callbacks_ok (r_text f) (r_events f) [] [] Hg Hn Hs) as (l & E & HI).
  { split; [reflexivity|intros pl []]. }
  cbn [app] in *. exists l. split; auto. pose proof (list_inv_total _ _ _ HI) as Ht. destruct HI as [Hm Hl]. split; [|split; [|split; [|split]]].
  - unfold file_locs, languages. rewrite <- Hm, map_map. apply map_ext_in. intros pl Hpl.
    destruct (Hl pl Hpl) as (_ & _ & H3 & H4 & H5).
    destruct H3 as (_ & _ & _ & _ & _ & H3). destruct H4 as (_ & _ & _ & _ & _ & H4).
    rewrite kept_all in H3 by auto. rewrite kept_all in H4 by auto. unfold lines_of in H3, H4.
    rewrite map_length in H3, H4. unfold loc_of, lines_in. rewrite H3, H4, H5. auto.
  - rewrite Hm. apply nodup_first_occ.
  - apply Forall_forall. intros pl Hpl. destruct (Hl pl Hpl) as (_ & _ & H3 & H4 & H5).
    destruct H3 as (_ & _ & _ & _ & _ & H3). destruct H4 as (_ & _ & _ & _ & _ & H4).
    unfold loc_nonneg, loc_of. cbn. lia.
  - rewrite map_map. auto.
  - pose proof (f_equal (@length _) Hm) as Hm'. rewrite map_length in Hm'. rewrite Hm'.
    pose proof (first_occ_length (map e_lang (r_events f))). rewrite map_length in *. lia.
Qed.

Lemma files_parsed files : Forall good_revision files ->
  exists ls, mapM (fun f => run_callbacks (r_text f) [] (r_events f)) files = Ok ls /\
    map (map loc_of) ls = map file_locs files /\
    Forall (fun l => NoDup (map p_name l)) ls /\
    Forall (Forall (fun pl => loc_nonneg (loc_of pl))) ls /\
    zsum (map lines (concat (map (map loc_of) ls))) <= events_total files /\
    zsum (map l_files (concat (map (map loc_of) ls))) <= events_total files.
Proof.
  induction 1 as [|f files Hf _ IH].
  - exists []. cbn. repeat split; auto; lia.
  - destruct (file_parsed f Hf) as (l & E & A1 & A2 & A3 & A4 & A5). destruct IH as (ls & E' & B1 & B2 & B3 & B4 & B5).
    exists (l :: ls). cbn [mapM]. rewrite E. cbn [bind]. rewrite E'. cbn [bind map concat]. unfold events_total in *. cbn [map].
    split; auto. split; [f_equal; auto|]. split; [constructor; auto|]. split; [constructor; auto|].
    rewrite !map_app, !zsum_app. split.
    + change (zsum (?a :: ?b)) with (a + zsum b). lia.
    + change (zsum (?a :: ?b)) with (a + zsum b).
      assert (zsum (map l_files (map loc_of l)) = Z.of_nat (length l)); [|lia].
      rewrite map_map. cbn. clear. induction l as [|x l IH]; auto. cbn [map length]. unfold zsum in *. cbn [fold_right]. lia.
Qed.

Lemma sum_by_names (F : string -> loc) f g names : NoDup names -> (forall n, l_lang (F n) = n) ->
  sum_by f g (map F names) = if existsb (String.eqb g) names then f (F g) else 0.
Proof.
  intros Hnd HF. induction names as [|n names IH]; [reflexivity|]. inversion Hnd; subst.
  cbn [map existsb]. rewrite sum_by_cons, HF, IH by auto. rewrite (String.eqb_sym g n).
  destruct (String.eqb_spec n g) as [->|Hne].
  - cbn [orb]. replace (existsb (String.eqb g) names) with false; [lia|].
    symmetry. apply not_true_iff_false. intros E. apply existsb_exists in E as (x & Hx & Ex).
    apply String.eqb_eq in Ex. subst. contradiction.
  - cbn [orb]. lia.
Qed.

Lemma existsb_first_occ g l : existsb (String.eqb g) (first_occ l) = existsb (String.eqb g) l.
Proof.
  apply eq_true_iff_eq. rewrite !existsb_exists.
  split; intros (y & H1 & H2); exists y; (split; [|exact H2]).
  - apply -> in_first_occ in H1. auto.
  - apply in_first_occ. auto.
Qed.

Lemma lines_in_absent g kind f : existsb (String.eqb g) (languages f) = false -> lines_in g kind f = 0.
Proof.
  unfold lines_in, events_of, languages. intros H. replace (filter _ _) with (@nil event); [reflexivity|].
  symmetry. apply filter_none. intros e He. destruct (is_event g kind e) eqn:E; auto.
  unfold is_event in E. apply andb_true_iff in E as [E _]. apply String.eqb_eq in E.
  rewrite <- H. symmetry. apply existsb_exists. exists (e_lang e). split; [apply in_map; auto|].
  apply String.eqb_eq. auto.
Qed.

Lemma sum_by_file g f :
  sum_by l_code g (file_locs f) = lines_in g "lcode" f /\
  sum_by l_comments g (file_locs f) = lines_in g "lcomment" f /\
  sum_by l_blanks g (file_locs f) = lines_in g "lblank" f /\
  sum_by l_files g (file_locs f) = (if existsb (String.eqb g) (languages f) then 1 else 0).
Proof.
  unfold file_locs. rewrite !sum_by_names by (auto using nodup_first_occ). rewrite existsb_first_occ. cbn.
  destruct (existsb _ _) eqn:E; auto. rewrite !lines_in_absent by auto. auto.
Qed.

Lemma sum_files g files :
  sum_loc (concat (map file_locs files)) g = entry files g.
Proof.
  unfold sum_loc, entry, lines_all, files_with.
  assert (H : sum_by l_code g (concat (map file_locs files)) = zsum (map (lines_in g "lcode") files) /\
    sum_by l_comments g (concat (map file_locs files)) = zsum (map (lines_in g "lcomment") files) /\
    sum_by l_blanks g (concat (map file_locs files)) = zsum (map (lines_in g "lblank") files) /\
    sum_by l_files g (concat (map file_locs files)) =
      Z.of_nat (length (filter (fun f => existsb (String.eqb g) (languages f)) files))).
  { induction files as [|f files IH]; [cbn; auto|]. cbn [map concat filter]. rewrite !sum_by_app.
    destruct (sum_by_file g f) as (-> & -> & -> & ->). destruct IH as (-> & -> & -> & ->).
    split; [reflexivity|]. split; [reflexivity|]. split; [reflexivity|].
    destruct (existsb _ _); cbn [length]; lia. }
  destruct H as (-> & -> & -> & ->). auto.
Qed.

Lemma first_occ_files files :
  first_occ (map l_lang (concat (map file_locs files))) = languages_all files.
Proof.
  unfold languages_all. induction files as [|f files IH]; [reflexivity|]. cbn [map concat].
  rewrite map_app. rewrite <- (first_occ_idem_app (map l_lang (file_locs f))), IH.
  rewrite <- (first_occ_idem_app (languages f)). do 2 f_equal.
  unfold file_locs. rewrite map_map. cbn. rewrite map_id. apply first_occ_idem.
Qed.

Lemma summary_files files :
  summary (concat (map file_locs files)) = map (entry files) (languages_all files).
Proof. unfold summary. rewrite first_occ_files. apply map_ext. intros g. apply sum_files. Qed.

(** * The printed rows *)
Lemma count_files_ok {A} (l : list A) : forall c, 0 <= c -> c + Z.of_nat (length l) <= int_max ->
  count_files c l = Ok (c + Z.of_nat (length l)).
Proof.
  induction l as [|x l IH]; intros c Hc H; cbn [count_files length] in *; [f_equal; lia|].
  rewrite ckint_ok by (unfold int_min; lia). cbn [bind]. rewrite IH by lia. f_equal. lia.
Qed.

Lemma rows_ok ls : Forall loc_nonneg ls -> Forall (fun l => lines l <= int_max) ls ->
  rows ls = Ok (map with_lines ls).
Proof.
  induction 1 as [|l ls Hn _ IH]; intros Hl; [reflexivity|]. inversion Hl; subst.
  cbn [rows map]. unfold row, loc_total, loc_nonneg, lines in *.
  rewrite ckint_ok by (unfold int_min; lia). cbn [bind].
  rewrite ckint_ok by (unfold int_min; lia). cbn [bind].
  rewrite ckint_ok by (unfold int_min; lia). cbn [bind]. rewrite IH by auto. cbn [bind]. auto.
Qed.

Lemma sum_field_ok (f : loc -> Z) h lst addrs xs : rep h lst addrs xs ->
  (forall x, In x xs -> 0 <= f x) -> zsum (map f xs) <= int_max ->
  sum_list (fun l => Ok (f l)) h lst = Ok (zsum (map f xs)).
Proof.
  intros Hr Hf Hs. rewrite (sum_list_rep _ _ _ _ _ Hr).
  assert (G : forall acc, 0 <= acc -> acc + zsum (map f xs) <= int_max -> sum_pure (fun l => Ok (f l)) xs acc = Ok (acc + zsum (map f xs))).
  { clear Hr Hs. induction xs as [|x xs IH]; intros acc Ha Hs; [cbn; f_equal; lia|].
    cbn [map] in *. change (zsum (f x :: map f xs)) with (f x + zsum (map f xs)) in *.
    assert (0 <= zsum (map f xs)).
    { apply zsum_nonneg. intros z Hz. apply in_map_iff in Hz as (y & <- & Hy). apply Hf. cbn. auto. }
    pose proof (Hf x (or_introl eq_refl)).
    cbn [sum_pure bind]. rewrite ckint_ok by (unfold int_min; lia). cbn [bind].
    rewrite IH; [f_equal; lia| |lia|lia]. intros y Hy. apply Hf. cbn. auto. }
  rewrite G by lia. auto.
Qed.
