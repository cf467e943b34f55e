(** Proofs about LocDeltaList (the structure follows [LocProofs]). *)
From Coq Require Import ZArith String List Bool Lia.
From Verif Require Import Base LocModel HeapProofs LocSpec LocProofs.
Import ListNotations.
Open Scope Z_scope.

(** * Pure list level: only the first entry is ever merged *)
Definition d_add (xs : list delta) (d : delta) : res (list delta) :=
  match xs with
  | [] => Ok [d]
  | x :: r => if String.eqb (d_lang x) (d_lang d)
              then v <- delta_add_delta x d ;; Ok (v :: r)
              else Ok (xs ++ [d])
  end.

Fixpoint d_add_all (xs ys : list delta) : res (list delta) :=
  match ys with
  | [] => Ok xs
  | y :: r => xs' <- d_add xs y ;; d_add_all xs' r
  end.

Lemma delta_add_not_fuel x d : delta_add_delta x d <> OutOfFuel.
Proof.
  unfold delta_add_delta. destruct (String.eqb _ _); [|discriminate].
  unfold ckint. repeat (destruct (_ && _); cbn); discriminate.
Qed.

(** The search loop looks at the first node only. *)
Lemma delta_find_chain h lst n0 x0 g addrs : forall xs p fuel,
  nth_error h lst = Some n0 -> n_val n0 = Some x0 ->
  chain h p addrs xs -> (length addrs <= fuel)%nat ->
  delta_find fuel h lst p g =
    Ok (if String.eqb (d_lang x0) g then p else None).
Proof.
  induction addrs as [|a ar IH]; intros xs p fuel Hl Hx0 Hc Hf.
  - destruct xs; cbn in Hc; [|tauto]. subst. destruct fuel; destruct (String.eqb _ _); reflexivity.
  - destruct xs as [|x xr]; cbn in Hc; [tauto|].
    destruct Hc as (-> & n & Hn & Hv & Hc).
    destruct fuel as [|k]; cbn in Hf; [lia|].
    cbn [delta_find deref]. rewrite Hl, Hn. cbn [bind]. rewrite Hx0.
    destruct (String.eqb (d_lang x0) g) eqn:E; [reflexivity|].
    rewrite (IH xr) by (auto; lia). reflexivity.
Qed.

Definition dgrows (h : heap delta) (lst : nat) (addrs addrs' : list nat) : Prop :=
  forall a, In a (footprint lst addrs') ->
            In a (footprint lst addrs) \/ (length h <= a)%nat.


Lemma add_delta_rep h lst addrs xs d :
  rep h lst addrs xs ->
  match d_add xs d with
  | Ok xs' => exists h' addrs',
      delta_list_add_delta h lst d = Ok h' /\ rep h' lst addrs' xs' /\
      frame h h' (footprint lst addrs) /\ dgrows h lst addrs addrs' /\
      (addrs <> [] -> exists n n', nth_error h' lst = Some n' /\ nth_error h lst = Some n /\
          addrs' = addrs ++ (if Nat.eqb (length xs') (length xs) then [] else [length h]))
  | Ub w => delta_list_add_delta h lst d = Ub w
  | OutOfFuel => False
  end.
Proof.
  intros Hr. pose proof (rep_fuel _ _ _ _ Hr) as [Hf Hlen].
  destruct (rep_head _ _ _ _ Hr) as (n & Hn & Hh & Hc).
  unfold delta_list_add_delta. cbn [deref]. rewrite Hn. cbn [bind].
  destruct addrs as [|a0 ar] eqn:Ea.
  - destruct xs; [|cbn in Hlen; discriminate]. cbn in Hh. rewrite Hh.
    destruct (rep_first h lst d Hr) as (h' & E & Hr' & Hfr & _).
    cbn [d_add].
    exists h', [lst]. rewrite E. split; [|split; [|split; [|split]]]; auto.
    + intros a Ha. left. exact Ha.
    + congruence.
  - destruct xs as [|x xr]; [cbn in Hlen; discriminate|].
    rewrite Hh. rewrite Hh in Hc.
    assert (Hx : n_val n = Some x).
    { destruct Hr as (n' & Hn' & -> & _). cbn in Hc. destruct Hc as (_ & m & Hm & Hv & _). congruence. }
    assert (Ha0 : a0 = lst) by (destruct Hr as (n' & Hn' & -> & _); auto). subst a0.
    rewrite (delta_find_chain h lst n x (d_lang d) (lst :: ar) (x :: xr)) by (auto; lia).
    cbn [bind]. cbn [d_add].
    destruct (String.eqb (d_lang x) (d_lang d)) eqn:El.
    + cbn [deref]. rewrite Hn. cbn [bind]. unfold val_of. rewrite Hx. cbn [bind].
      destruct (delta_add_delta x d) as [v| |] eqn:Eadd; cbn [bind].
      * destruct (rep_modify _ _ _ _ 0 lst v Hr eq_refl) as (h' & E & Hr' & Hfr & _).
        exists h', (lst :: ar). rewrite E. split; [|split; [|split; [|split]]]; auto.
        -- intros b Hb. left. exact Hb.
        -- intros _. destruct (rep_head _ _ _ _ Hr') as (n' & Hn' & _).
           exists n, n'. cbn [length]. rewrite Nat.eqb_refl, app_nil_r. auto.
      * reflexivity.
      * eapply delta_add_not_fuel; eauto.
    + destruct (rep_append _ _ _ _ _ d Hr ltac:(discriminate) Hn) as (h' & E & Hr' & Hfr & _).
      exists h', ((lst :: ar) ++ [length h]). split; [exact E|].
      split; [|split; [|split]]; auto.
      * intros b Hb. cbn [footprint app] in Hb |- *.
        change (In b ((lst :: ar) ++ [length h])) in Hb.
        apply in_app_or in Hb as [?|[<-|[]]]; auto.
      * intros _. destruct (rep_head _ _ _ _ Hr') as (n' & Hn' & _).
        exists n, n'. rewrite app_length. cbn [length].
        replace (Nat.eqb (S (length xr) + 1) (S (length xr))) with false
          by (symmetry; apply Nat.eqb_neq; lia). auto.
Qed.

(** * Adding another list *)
Lemma dframe_trans (h h1 h2 : heap delta) lst addrs addrs1 :
  frame h h1 (footprint lst addrs) -> frame h1 h2 (footprint lst addrs1) ->
  dgrows h lst addrs addrs1 -> frame h h2 (footprint lst addrs).
Proof.
  intros [L1 F1] [L2 F2] G. split; [lia|]. intros a Ha Hn.
  rewrite F2, F1; auto; [lia|]. intros Hin. apply G in Hin as [?|?]; [tauto|lia].
Qed.

Lemma dgrows_trans h h1 lst a1 a2 a3 :
  (length h <= length h1)%nat ->
  dgrows h lst a1 a2 -> dgrows h1 lst a2 a3 -> dgrows h lst a1 a3.
Proof.
  intros L G1 G2 a Ha. apply G2 in Ha as [Ha|Ha]; [auto|right; lia].
Qed.

Lemma dgrows_refl h lst a : dgrows h lst a a.
Proof. intros b Hb; auto. Qed.

Lemma dframe_refl (h : heap delta) fp : frame h h fp.
Proof. split; auto. Qed.

Lemma dadd_loop_other oaddrs : forall ys h lst addrs xs p fuel,
  rep h lst addrs xs -> chain h p oaddrs ys ->
  (forall a, In a oaddrs -> ~ In a (footprint lst addrs)) ->
  (length oaddrs <= fuel)%nat ->
  match d_add_all xs ys with
  | Ok xs' => exists h' addrs',
      delta_list_add_loop fuel h lst p = Ok h' /\ rep h' lst addrs' xs' /\
      frame h h' (footprint lst addrs) /\ dgrows h lst addrs addrs'
  | Ub w => delta_list_add_loop fuel h lst p = Ub w
  | OutOfFuel => False
  end.
Proof.
  induction oaddrs as [|a ar IH]; intros ys h lst addrs xs p fuel Hr Hc Hd Hf.
  - destruct ys; cbn in Hc; [|tauto]. subst p. cbn.
    exists h, addrs. split; [destruct fuel; reflexivity|].
    split; auto. split; [apply dframe_refl|apply dgrows_refl].
  - destruct ys as [|y yr]; cbn in Hc; [tauto|].
    destruct Hc as (-> & n & Hn & Hv & Hc).
    destruct fuel as [|k]; cbn in Hf; [lia|].
    cbn [delta_list_add_loop deref d_add_all]. rewrite Hn. cbn [bind].
    unfold val_of. rewrite Hv. cbn [bind].
    pose proof (add_delta_rep h lst addrs xs y Hr) as Hadd.
    destruct (d_add xs y) as [xs1| |]; cbn [bind].
    + destruct Hadd as (h1 & addrs1 & E1 & Hr1 & Hf1 & Hg1 & _). rewrite E1. cbn [bind].
      assert (Hb : forall c, In c (a :: ar) -> (c < length h)%nat).
      { intros c [->|Hin]; [apply nth_error_Some; congruence|eapply chain_bound; eauto]. }
      assert (Hsame : forall c, In c (a :: ar) -> nth_error h1 c = nth_error h c).
      { intros c Hin. apply Hf1; auto. }
      assert (Hd1 : forall c, In c (a :: ar) -> ~ In c (footprint lst addrs1)).
      { intros c Hin Hin'. apply Hg1 in Hin' as [Hin'|Hge]; [eapply Hd; eauto|].
        specialize (Hb c Hin). lia. }
      rewrite Hsame, Hn by (cbn; auto). cbn [bind].
      specialize (IH yr h1 lst addrs1 xs1 (n_next n) k Hr1).
      assert (Hc1 : chain h1 (n_next n) ar yr)
        by (eapply chain_ext; [|exact Hc]; intros; apply Hsame; cbn; auto).
      specialize (IH Hc1 ltac:(intros; apply Hd1; cbn; auto) ltac:(lia)).
      destruct (d_add_all xs1 yr) as [xs2| |]; auto.
      destruct IH as (h2 & addrs2 & E2 & Hr2 & Hf2 & Hg2).
      exists h2, addrs2. split; auto. split; auto. split.
      * eapply dframe_trans; eauto.
      * exact (dgrows_trans h h1 lst addrs addrs1 addrs2 (proj1 Hf1) Hg1 Hg2).
    + rewrite Hadd. reflexivity.
    + contradiction.
Qed.


(** * Contents of a list *)
Lemma dsum_by_app f g a b : dsum_by f g (a ++ b) = dsum_by f g a + dsum_by f g b.
Proof. unfold dsum_by. rewrite filter_app, map_app, zsum_app. reflexivity. Qed.

Lemma dsum_by_one f d : dsum_by f (d_lang d) [d] = f d.
Proof. unfold dsum_by. cbn. rewrite String.eqb_refl. unfold zsum. cbn. lia. Qed.

Lemma dsum_by_one_other f d g : d_lang d <> g -> dsum_by f g [d] = 0.
Proof. intros H. unfold dsum_by. cbn. rewrite (proj2 (String.eqb_neq _ _) H). reflexivity. Qed.

Lemma sum_delta_one d : sum_delta [d] (d_lang d) = d.
Proof. destruct d as [g a b c e f i]. unfold sum_delta.
  change g with (d_lang (mkDelta g a b c e f i)) at 1 2 3 4 5 6 7.
  rewrite !dsum_by_one. reflexivity. Qed.

Lemma d_add_dcontents b d xs' :
  d_add (dcontents b) d = Ok xs' -> xs' = dcontents (b ++ [d]).
Proof.
  destruct b as [|d0 r].
  - cbn [dcontents d_add app]. intros [= <-]. rewrite sum_delta_one. cbn.
    rewrite String.eqb_refl. reflexivity.
  - set (b := d0 :: r). unfold dcontents at 1. fold b. cbn [b d_add]. fold b.
    cbn [sum_delta d_lang].
    assert (E : dcontents (b ++ [d]) =
              sum_delta (b ++ [d]) (d_lang d0) ::
              filter (fun x => negb (String.eqb (d_lang x) (d_lang d0))) (b ++ [d]))
      by reflexivity.
    rewrite E. clear E. rewrite filter_app. cbn [filter].
    assert (Hfil : filter (fun x => negb (String.eqb (d_lang x) (d_lang d0))) b =
                   filter (fun x => negb (String.eqb (d_lang x) (d_lang d0))) r)
      by (unfold b; cbn [filter]; rewrite String.eqb_refl; reflexivity).
    rewrite Hfil.
    destruct (String.eqb_spec (d_lang d0) (d_lang d)) as [e|e].
    + intros H. apply bind_ok in H as (v & Hv & [= <-]).
      rewrite <- e, String.eqb_refl. cbn [negb]. rewrite app_nil_r. f_equal.
      unfold delta_add_delta in Hv. cbn [d_lang sum_delta] in Hv.
      rewrite <- e, String.eqb_refl in Hv.
      repeat (apply bind_ok in Hv as (? & ?%ckint_inv & Hv)). injection Hv as <-.
      unfold sum_delta in *. cbn [d_code_added d_code_removed d_comments_added d_comments_removed
        d_blanks_added d_blanks_removed] in *.
      rewrite !dsum_by_app. rewrite e, !dsum_by_one. rewrite e in *. f_equal; intuition lia.
    + intros [= <-]. rewrite (proj2 (String.eqb_neq _ _) (not_eq_sym e)). cbn [negb].
      cbn [app]. f_equal.
      unfold sum_delta. rewrite !dsum_by_app, !(dsum_by_one_other _ d) by congruence.
      f_equal; lia.
Qed.

Lemma d_add_all_dcontents ys : forall b xs',
  d_add_all (dcontents b) ys = Ok xs' -> xs' = dcontents (b ++ ys).
Proof.
  induction ys as [|y r IH]; intros b xs' H; cbn in H.
  - injection H as <-. rewrite app_nil_r. reflexivity.
  - apply bind_ok in H as (xs1 & H1 & H). apply d_add_dcontents in H1. subst xs1.
    apply IH in H. rewrite <- app_assoc in H. exact H.
Qed.

Lemma delta_is_changed_spec d : delta_is_changed d = changed d.
Proof.
  unfold delta_is_changed, changed. rewrite !negb_andb. reflexivity.
Qed.

(** * Invariant of a history *)
Definition delta_inv (st : delta_state) (bags : list (list delta)) : Prop :=
  let '(h, ids) := st in
  length ids = length bags /\
  exists A : nat -> list nat,
    (forall i lst bag, nth_error ids i = Some lst -> nth_error bags i = Some bag ->
       rep h lst (A i) (dcontents bag)) /\
    (forall i j li lj a, i <> j -> nth_error ids i = Some li -> nth_error ids j = Some lj ->
       In a (footprint li (A i)) -> ~ In a (footprint lj (A j))).

Lemma delta_inv_step h ids bags (A : nat -> list nat) i lst b' h' A' :
  length ids = length bags ->
  (forall i lst bag, nth_error ids i = Some lst -> nth_error bags i = Some bag ->
     rep h lst (A i) (dcontents bag)) ->
  (forall i j li lj a, i <> j -> nth_error ids i = Some li -> nth_error ids j = Some lj ->
     In a (footprint li (A i)) -> ~ In a (footprint lj (A j))) ->
  nth_error ids i = Some lst ->
  rep h' lst A' (dcontents b') -> frame h h' (footprint lst (A i)) ->
  dgrows h lst (A i) A' ->
  delta_inv (h', ids) (upd bags i b').
Proof.
  intros Hlen Hrep Hdis Hi Hr' [Hfl Hfr] Hg. split; [rewrite upd_length; auto|].
  exists (fun j => if Nat.eq_dec j i then A' else A j).
  assert (Hib : (i < length ids)%nat) by (apply nth_error_Some; congruence).
  assert (Hbd : forall j lj a, nth_error ids j = Some lj -> In a (footprint lj (A j)) ->
            (a < length h)%nat).
  { intros j lj a Hj Ha. destruct (nth_error bags j) as [bj|] eqn:Ej.
    - eapply rep_footprint_bound; eauto.
    - apply nth_error_None in Ej. assert (nth_error ids j <> None) by congruence.
      apply nth_error_Some in H. lia. }
  split.
  - intros j lj bj Hj Hbj. destruct (Nat.eq_dec j i) as [->|Hne].
    + rewrite nth_error_upd_eq in Hbj by lia. injection Hbj as <-.
      replace lj with lst by congruence. auto.
    + rewrite nth_error_upd_ne in Hbj by auto.
      eapply rep_ext; [|eapply Hrep; eauto].
      intros a Ha. apply Hfr; [eapply Hbd; eauto|].
      intros Hin. eapply (Hdis i j); eauto.
  - intros j k lj lk a Hjk Hj Hk Ha Hb.
    destruct (Nat.eq_dec j i) as [->|Hji], (Nat.eq_dec k i) as [->|Hki]; try congruence.
    + replace lj with lst in * by congruence.
      apply Hg in Ha as [Ha|Ha].
      * exact (Hdis i k lst lk a Hjk Hi Hk Ha Hb).
      * specialize (Hbd _ _ _ Hk Hb). lia.
    + replace lk with lst in * by congruence.
      apply Hg in Hb as [Hb|Hb].
      * exact (Hdis j i lj lst a Hjk Hj Hi Ha Hb).
      * specialize (Hbd _ _ _ Hj Ha). lia.
    + exact (Hdis j k lj lk a Hjk Hj Hk Ha Hb).
Qed.

(** A fresh list. *)
Lemma delta_inv_new h ids bags :
  delta_inv (h, ids) bags ->
  delta_inv (h ++ [mkNode None None None None], ids ++ [length h]) (bags ++ [[]]).
Proof.
  intros (Hlen & A & Hrep & Hdis). split; [rewrite !app_length; cbn; lia|].
  exists (fun i => if Nat.eq_dec i (length ids) then [] else A i). split.
  - intros i lst b Hi Hb. destruct (Nat.eq_dec i (length ids)) as [->|Hne].
    + rewrite nth_error_app2 in Hi by lia. rewrite Nat.sub_diag in Hi. injection Hi as <-.
      rewrite Hlen, nth_error_app2, Nat.sub_diag in Hb by lia. injection Hb as <-.
      apply (rep_new h).
    + assert (Hlt : (i < length ids)%nat).
      { assert (nth_error (ids ++ [length h]) i <> None) by congruence.
        apply nth_error_Some in H. rewrite app_length in H. cbn in H. lia. }
      rewrite nth_error_app1 in Hi by lia. rewrite nth_error_app1 in Hb by lia.
      eapply rep_ext; [|eapply Hrep; eauto].
      intros a Ha. apply nth_error_app1. eapply rep_footprint_bound; eauto.
  - assert (Hb : forall i li a, (i < length ids)%nat -> nth_error ids i = Some li ->
              In a (footprint li (A i)) -> (a < length h)%nat).
    { intros i li a Hi Hli Ha. destruct (nth_error bags i) as [b|] eqn:Eb.
      - eapply rep_footprint_bound; eauto.
      - apply nth_error_None in Eb. lia. }
    assert (Hcase : forall i li, nth_error (ids ++ [length h]) i = Some li ->
              (i = length ids /\ li = length h) \/
              ((i < length ids)%nat /\ nth_error ids i = Some li)).
    { intros i li Hi. destruct (Nat.lt_ge_cases i (length ids)) as [Hlt|Hge].
      - right. rewrite nth_error_app1 in Hi by auto. auto.
      - left. rewrite nth_error_app2 in Hi by auto.
        destruct (i - length ids)%nat as [|d] eqn:Ed; cbn in Hi.
        + injection Hi as <-. split; auto. lia.
        + destruct d; discriminate. }
    intros i j li lj a Hij Hi Hj.
    destruct (Hcase _ _ Hi) as [[-> ->]|[Hil Hi']], (Hcase _ _ Hj) as [[-> ->]|[Hjl Hj']].
    + congruence.
    + destruct (Nat.eq_dec (length ids) (length ids)); [|congruence].
      destruct (Nat.eq_dec j (length ids)); [congruence|]. cbn. intros [<-|[]] Hin.
      specialize (Hb _ _ _ Hjl Hj' Hin). lia.
    + destruct (Nat.eq_dec (length ids) (length ids)); [|congruence].
      destruct (Nat.eq_dec i (length ids)); [congruence|]. intros Hin [<-|[]].
      specialize (Hb _ _ _ Hil Hi' Hin). lia.
    + destruct (Nat.eq_dec i (length ids)); [lia|].
      destruct (Nat.eq_dec j (length ids)); [lia|]. apply Hdis; auto.
Qed.

(** Compaction. *)
Fixpoint dc_add_all (xs ys : list delta) : res (list delta) :=
  match ys with
  | [] => Ok xs
  | y :: r => xs' <- (if delta_is_changed y then d_add xs y else Ok xs) ;; dc_add_all xs' r
  end.

Lemma dc_add_all_filter ys : forall b xs',
  dc_add_all (dcontents b) ys = Ok xs' -> xs' = dcontents (b ++ filter changed ys).
Proof.
  induction ys as [|y r IH]; intros b xs' H; cbn in H |- *.
  - injection H as <-. rewrite app_nil_r. reflexivity.
  - rewrite delta_is_changed_spec in H. destruct (changed y).
    + apply bind_ok in H as (xs1 & H1 & H). apply d_add_dcontents in H1. subst xs1.
      apply IH in H. rewrite <- app_assoc in H. exact H.
    + cbn [bind] in H. auto.
Qed.

Lemma dcompact_loop_other oaddrs : forall ys h lst addrs xs p fuel,
  rep h lst addrs xs -> chain h p oaddrs ys ->
  (forall a, In a oaddrs -> ~ In a (footprint lst addrs)) ->
  (length oaddrs <= fuel)%nat ->
  match dc_add_all xs ys with
  | Ok xs' => exists h' addrs',
      delta_list_compact_loop fuel h lst p = Ok h' /\ rep h' lst addrs' xs' /\
      frame h h' (footprint lst addrs) /\ dgrows h lst addrs addrs'
  | Ub w => delta_list_compact_loop fuel h lst p = Ub w
  | OutOfFuel => False
  end.
Proof.
  induction oaddrs as [|a ar IH]; intros ys h lst addrs xs p fuel Hr Hc Hd Hf.
  - destruct ys; cbn in Hc; [|tauto]. subst p. cbn.
    exists h, addrs. split; [destruct fuel; reflexivity|].
    split; auto. split; [apply dframe_refl|apply dgrows_refl].
  - destruct ys as [|y yr]; cbn in Hc; [tauto|].
    destruct Hc as (-> & n & Hn & Hv & Hc).
    destruct fuel as [|k]; cbn in Hf; [lia|].
    cbn [delta_list_compact_loop deref dc_add_all]. rewrite Hn. cbn [bind].
    unfold val_of. rewrite Hv. cbn [bind].
    destruct (delta_is_changed y); cbn [bind].
    2:{ rewrite Hn. cbn [bind].
      apply IH; auto; [intros; apply Hd; cbn; auto|lia]. }
    + pose proof (add_delta_rep h lst addrs xs y Hr) as Hadd.
      destruct (d_add xs y) as [xs1| |]; cbn [bind].
      * destruct Hadd as (h1 & addrs1 & E1 & Hr1 & Hf1 & Hg1 & _). rewrite E1. cbn [bind].
        assert (Hb : forall c, In c (a :: ar) -> (c < length h)%nat).
        { intros c [->|Hin]; [apply nth_error_Some; congruence|eapply chain_bound; eauto]. }
        assert (Hsame : forall c, In c (a :: ar) -> nth_error h1 c = nth_error h c).
        { intros c Hin. apply Hf1; auto. }
        assert (Hd1 : forall c, In c (a :: ar) -> ~ In c (footprint lst addrs1)).
        { intros c Hin Hin'. apply Hg1 in Hin' as [Hin'|Hge]; [eapply Hd; eauto|].
          specialize (Hb c Hin). lia. }
        rewrite Hsame, Hn by (cbn; auto). cbn [bind].
        specialize (IH yr h1 lst addrs1 xs1 (n_next n) k Hr1).
        assert (Hc1 : chain h1 (n_next n) ar yr)
          by (eapply chain_ext; [|exact Hc]; intros; apply Hsame; cbn; auto).
        specialize (IH Hc1 ltac:(intros; apply Hd1; cbn; auto) ltac:(lia)).
        destruct (dc_add_all xs1 yr) as [xs2| |]; auto.
        destruct IH as (h2 & addrs2 & E2 & Hr2 & Hf2 & Hg2).
        exists h2, addrs2. split; auto. split; auto. split.
        -- eapply dframe_trans; eauto.
        -- exact (dgrows_trans h h1 lst addrs addrs1 addrs2 (proj1 Hf1) Hg1 Hg2).
      * rewrite Hadd. reflexivity.
      * contradiction.
Qed.

Definition dop_fails (bags : list (list delta)) (op : delta_op) (w : ub) : Prop :=
  match op with
  | DNew => False
  | DAdd i l => exists b, nth_error bags i = Some b /\ d_add (dcontents b) l = Ub w
  | DAddList i j => exists b b', nth_error bags i = Some b /\ nth_error bags j = Some b' /\
      d_add_all (dcontents b) (dcontents b') = Ub w
  | DCompact i => exists b, nth_error bags i = Some b /\ dc_add_all [] (dcontents b) = Ub w
  end.

Lemma delta_op_inv st bags op :
  delta_inv st bags ->
  match run_delta_op st op with
  | Ok st' => delta_inv st' (dbag_op bags op)
  | Ub w => dop_fails bags op w
  | OutOfFuel => False
  end.
Proof.
  destruct st as [h ids]. intros Hinv. pose proof Hinv as (Hlen & A & Hrep & Hdis).
  assert (Hnone : forall i, nth_error ids i = None -> nth_error bags i = None)
    by (intros i Hi; apply nth_error_None in Hi; apply nth_error_None; lia).
  assert (Hsome : forall i a, nth_error ids i = Some a -> exists b, nth_error bags i = Some b).
  { intros i a Hi. destruct (nth_error bags i) as [b|] eqn:Eb; eauto.
    apply nth_error_None in Eb. assert (nth_error ids i <> None) by congruence.
    apply nth_error_Some in H. lia. }
  destruct op as [|i l|i j|i]; cbn [run_delta_op dbag_op dop_fails].
  - cbn [node_new]. apply delta_inv_new; auto.
  - destruct (nth_error ids i) as [lst|] eqn:Ei; [|rewrite (Hnone _ Ei); auto].
    destruct (Hsome _ _ Ei) as [b Eb]. rewrite Eb.
    pose proof (add_delta_rep h lst (A i) (dcontents b) l (Hrep _ _ _ Ei Eb)) as Hadd.
    destruct (d_add (dcontents b) l) as [xs'|w|] eqn:El.
    + destruct Hadd as (h' & A' & E & Hr' & Hf & Hg & _). rewrite E. cbn [bind].
      apply d_add_dcontents in El. subst xs'.
      eapply delta_inv_step; eauto.
    + rewrite Hadd. cbn [bind]. eauto.
    + contradiction.
  - destruct (Nat.eqb_spec i j) as [e|Hij]; [exact Hinv|].
    destruct (nth_error ids i) as [lst|] eqn:Ei; [|rewrite (Hnone _ Ei); auto].
    destruct (nth_error ids j) as [lst2|] eqn:Ej.
    2:{ rewrite (Hnone _ Ej). destruct (nth_error bags i); auto. }
    destruct (Hsome _ _ Ei) as [b Eb]. rewrite Eb.
    destruct (Hsome _ _ Ej) as [b2 Eb2]. rewrite Eb2.
    pose proof (Hrep _ _ _ Ei Eb) as Hri. pose proof (Hrep _ _ _ Ej Eb2) as Hrj.
    unfold delta_list_add_delta_list.
    destruct (rep_head _ _ _ _ Hrj) as (n & Hn & Hh & Hc).
    cbn [deref]. rewrite Hn. cbn [bind].
    destruct (rep_fuel _ _ _ _ Hrj) as [Hfu Hln].
    assert (Hd : forall a, In a (A j) -> ~ In a (footprint lst (A i))).
      { intros a Ha. eapply (Hdis j i); eauto. destruct (A j); [contradiction|exact Ha]. }
    pose proof (dadd_loop_other (A j) (dcontents b2) h lst (A i) (dcontents b) (n_head n)
                 (S (length h)) Hri Hc Hd ltac:(lia)) as Hs.
    destruct (d_add_all (dcontents b) (dcontents b2)) as [xs'|w|] eqn:El.
    + destruct Hs as (h' & A' & E & Hr' & Hf & Hg). rewrite E. cbn [bind].
      apply d_add_all_dcontents in El. subst xs'.
      eapply delta_inv_step; eauto.
    + rewrite Hs. cbn [bind]. exists b, b2. auto.
    + contradiction.
  - destruct (nth_error ids i) as [lst|] eqn:Ei; [|rewrite (Hnone _ Ei); auto].
    destruct (Hsome _ _ Ei) as [b Eb]. rewrite Eb.
    pose proof (delta_inv_new _ _ _ Hinv) as Hinv1.
    pose proof (Hrep _ _ _ Ei Eb) as Hri.
    unfold delta_list_new_compact. cbn [deref node_new].
    destruct (rep_head _ _ _ _ Hri) as (n & Hn & Hh & Hc). rewrite Hn. cbn [bind].
    destruct (rep_fuel _ _ _ _ Hri) as [Hfu Hln].
    set (h1 := h ++ [mkNode None None None None]) in *.
    assert (Hc1 : chain h1 (n_head n) (A i) (dcontents b)).
    { eapply chain_ext; [|exact Hc]. intros a Ha. apply nth_error_app1.
      eapply chain_bound; eauto. }
    assert (Hd : forall a, In a (A i) -> ~ In a (footprint (length h) [])).
    { intros a Ha [<-|[]]. pose proof (chain_bound _ _ _ _ _ Hc Ha). lia. }
    pose proof (dcompact_loop_other (A i) (dcontents b) h1 (length h) [] [] (n_head n)
                   (S (length h)) (rep_new h) Hc1 Hd ltac:(lia)) as Hs.
    destruct (dc_add_all [] (dcontents b)) as [xs'|w|] eqn:El.
    + destruct Hs as (h' & A' & E & Hr' & Hf & Hg). rewrite E. cbn [bind].
      apply (dc_add_all_filter (dcontents b) [] xs') in El. cbn [app] in El. subst xs'.
      set (b' := filter _ _) in *.
      replace (bags ++ [b']) with (upd (bags ++ [[]]) (length ids) b')
        by (rewrite Hlen; apply upd_app).
      destruct Hinv1 as (Hlen1 & A1 & Hrep1 & Hdis1).
      assert (Hnew : nth_error (ids ++ [length h]) (length ids) = Some (length h))
        by apply nth_error_mid.
      assert (HA1 : footprint (length h) (A1 (length ids)) = [length h]).
      { assert (Hr1 : rep h1 (length h) (A1 (length ids)) (dcontents [])).
        { apply (Hrep1 (length ids)); auto. rewrite Hlen. apply nth_error_mid. }
        destruct (rep_fuel _ _ _ _ Hr1) as [_ Hl]. cbn in Hl.
        destruct (A1 (length ids)); [reflexivity|discriminate]. }
      apply (delta_inv_step h1 (ids ++ [length h]) (bags ++ [[]]) A1 (length ids) (length h) b' h' A'); auto.
      * rewrite HA1. exact Hf.
      * intros a Ha. rewrite HA1. apply (Hg a Ha).
    + rewrite Hs. cbn [bind]. eauto.
    + contradiction.
Qed.

Lemma run_delta_ops_inv ops : forall st bags,
  delta_inv st bags ->
  match run_delta_ops st ops with
  | Ok st' => delta_inv st' (fold_left dbag_op ops bags)
  | Ub w => exists ops1 op ops2, ops = ops1 ++ op :: ops2 /\
              dop_fails (fold_left dbag_op ops1 bags) op w
  | OutOfFuel => False
  end.
Proof.
  induction ops as [|op r IH]; intros st bags Hinv; cbn; auto.
  pose proof (delta_op_inv st bags op Hinv) as H.
  destruct (run_delta_op st op) as [st'|w|]; cbn [bind]; auto.
  - specialize (IH st' _ H). destruct (run_delta_ops st' r); auto.
    destruct IH as (o1 & o & o2 & -> & Hf). exists (op :: o1), o, o2. auto.
  - exists [], op, r. auto.
Qed.

Lemma delta_inv_init : delta_inv ([], []) [].
Proof.
  split; auto. exists (fun _ => []). split.
  - intros i lst bag H. destruct i; discriminate.
  - intros i j li lj a _ H. destruct i; discriminate.
Qed.

(** * Observations *)
Lemma delta_history_lemma ops h ids :
  run_delta_ops ([], []) ops = Ok (h, ids) ->
  length ids = length (dbags_of ops) /\
  forall i lst bag, nth_error ids i = Some lst -> nth_error (dbags_of ops) i = Some bag ->
    exists addrs, rep h lst addrs (dcontents bag).
Proof.
  intros E. pose proof (run_delta_ops_inv ops ([], []) [] delta_inv_init) as H.
  rewrite E in H. destruct H as (Hlen & A & Hrep & _). split; auto.
  intros i lst bag Hi Hb. exists (A i). eauto.
Qed.

Definition additive (f : delta -> Z) : Prop :=
  (forall b g, f (sum_delta b g) = dsum_by f g b) /\
  (forall d, changed d = false -> f d = 0).

Lemma zsum_dcontents f b : additive f -> zsum (map f (dcontents b)) = zsum (map f b).
Proof.
  intros [Hf _]. destruct b as [|d0 r]; [reflexivity|]. set (b := d0 :: r).
  change (dcontents b) with (sum_delta b (d_lang d0) ::
     filter (fun d => negb (String.eqb (d_lang d) (d_lang d0))) b).
  cbn [map]. rewrite Hf.
  rewrite (zsum_filter_split f (fun d => String.eqb (d_lang d) (d_lang d0)) b).
  reflexivity.
Qed.

Lemma zsum_changed f b : additive f -> zsum (map f (filter changed b)) = zsum (map f b).
Proof.
  intros [_ Hf]. unfold zsum. induction b as [|d b IH]; cbn; auto.
  destruct (changed d) eqn:E; cbn; rewrite IH; auto. rewrite (Hf d E). lia.
Qed.

Lemma changed_zero d : changed d = false ->
  d_code_added d = 0 /\ d_code_removed d = 0 /\ d_comments_added d = 0 /\
  d_comments_removed d = 0 /\ d_blanks_added d = 0 /\ d_blanks_removed d = 0.
Proof.
  unfold changed. intros H. apply negb_false_iff in H.
  rewrite !andb_true_iff, !Z.eqb_eq in H. tauto.
Qed.

Lemma dsum_by_sub f f1 f2 g b :
  (forall d, f d = f1 d - f2 d) -> dsum_by f g b = dsum_by f1 g b - dsum_by f2 g b.
Proof.
  intros H. unfold dsum_by, zsum. induction (filter _ b) as [|d r IH]; cbn; [reflexivity|].
  rewrite H. lia.
Qed.

Lemma dsum_by_add f f1 f2 g b :
  (forall d, f d = f1 d + f2 d) -> dsum_by f g b = dsum_by f1 g b + dsum_by f2 g b.
Proof.
  intros H. unfold dsum_by, zsum. induction (filter _ b) as [|d r IH]; cbn; [reflexivity|].
  rewrite H. lia.
Qed.

Lemma additive_code_added : additive d_code_added.
Proof. split; [reflexivity|]. intros d H; apply changed_zero in H; tauto. Qed.
Lemma additive_code_removed : additive d_code_removed.
Proof. split; [reflexivity|]. intros d H; apply changed_zero in H; tauto. Qed.
Lemma additive_comments_added : additive d_comments_added.
Proof. split; [reflexivity|]. intros d H; apply changed_zero in H; tauto. Qed.
Lemma additive_comments_removed : additive d_comments_removed.
Proof. split; [reflexivity|]. intros d H; apply changed_zero in H; tauto. Qed.
Lemma additive_blanks_added : additive d_blanks_added.
Proof. split; [reflexivity|]. intros d H; apply changed_zero in H; tauto. Qed.
Lemma additive_blanks_removed : additive d_blanks_removed.
Proof. split; [reflexivity|]. intros d H; apply changed_zero in H; tauto. Qed.
Lemma additive_net_code : additive net_code.
Proof.
  split; intros.
  - rewrite (dsum_by_sub net_code d_code_added d_code_removed) by reflexivity. reflexivity.
  - apply changed_zero in H. unfold net_code. lia.
Qed.
Lemma additive_net_comments : additive net_comments.
Proof.
  split; intros.
  - rewrite (dsum_by_sub net_comments d_comments_added d_comments_removed) by reflexivity. reflexivity.
  - apply changed_zero in H. unfold net_comments. lia.
Qed.
Lemma additive_net_blanks : additive net_blanks.
Proof.
  split; intros.
  - rewrite (dsum_by_sub net_blanks d_blanks_added d_blanks_removed) by reflexivity. reflexivity.
  - apply changed_zero in H. unfold net_blanks. lia.
Qed.
Lemma additive_net_total : additive net_total.
Proof.
  split; intros.
  - rewrite (dsum_by_add net_total (fun d => net_code d + net_comments d) net_blanks) by reflexivity.
    rewrite (dsum_by_add (fun d => net_code d + net_comments d) net_code net_comments) by reflexivity.
    rewrite <- !(proj1 additive_net_code), <- !(proj1 additive_net_comments),
      <- !(proj1 additive_net_blanks). reflexivity.
  - apply changed_zero in H. unfold net_total, net_code, net_comments, net_blanks. lia.
Qed.

(** The per-list totals only depend on what was added, directly or not. *)
Definition same_sums (b r : list delta) : Prop :=
  forall f, additive f -> zsum (map f b) = zsum (map f r).

Lemma draw_dbags ops : forall bags raws,
  Forall2 same_sums bags raws ->
  Forall2 same_sums (fold_left dbag_op ops bags) (fold_left draw_op ops raws).
Proof.
  induction ops as [|op r IH]; intros bags raws H; cbn; auto.
  apply IH. clear IH.
  assert (Hnth : forall i, match nth_error bags i, nth_error raws i with
            | Some b, Some r => same_sums b r | None, None => True | _, _ => False end).
  { clear -H. induction H; intros [|i]; cbn; auto. apply IHForall2. }
  assert (Hupd : forall i b r, same_sums b r -> Forall2 same_sums (upd bags i b) (upd raws i r)).
  { clear -H. induction H; intros [|i] b r Hb; cbn; constructor; auto. }
  assert (Happ : forall a b c d, same_sums a b -> same_sums c d -> same_sums (a ++ c) (b ++ d)).
  { intros a b c d H1 H2 f Hf. rewrite !map_app, !zsum_app, (H1 f Hf), (H2 f Hf). reflexivity. }
  assert (Hrefl : forall a, same_sums a a) by (intros a f _; reflexivity).
  destruct op as [|i d|i j|i]; cbn.
  - apply Forall2_app; auto.
  - specialize (Hnth i). destruct (nth_error bags i), (nth_error raws i); auto; contradiction.
  - destruct (Nat.eqb i j); auto. pose proof (Hnth i) as Hi. pose proof (Hnth j) as Hj.
    destruct (nth_error bags i), (nth_error raws i); try contradiction; auto.
    destruct (nth_error bags j), (nth_error raws j); try contradiction; auto.
    apply Hupd. apply Happ; auto. intros f Hf. rewrite zsum_dcontents by auto. auto.
  - specialize (Hnth i). destruct (nth_error bags i), (nth_error raws i); auto; try contradiction.
    apply Forall2_app; auto. constructor; auto. intros f Hf.
    rewrite zsum_changed, zsum_dcontents by auto. auto.
Qed.

Lemma delta_sum_lemma (f : delta -> res Z) (g : delta -> Z) ops h ids i lst raw s :
  (forall d v, f d = Ok v -> v = g d) -> additive g ->
  run_delta_ops ([], []) ops = Ok (h, ids) ->
  nth_error ids i = Some lst -> nth_error (draw_of ops) i = Some raw ->
  sum_list f h lst = Ok s -> s = zsum (map g raw).
Proof.
  intros Hf Hadd Hrun Hi Hraw Hs.
  destruct (delta_history_lemma ops h ids Hrun) as [Hlen Hrep].
  pose proof (draw_dbags ops [] [] (Forall2_nil _)) as H2.
  fold (dbags_of ops) in H2. fold (draw_of ops) in H2.
  destruct (nth_error (dbags_of ops) i) as [b|] eqn:Eb.
  2:{ apply nth_error_None in Eb. assert (nth_error ids i <> None) by congruence.
      apply nth_error_Some in H. lia. }
  destruct (Hrep _ _ _ Hi Eb) as [addrs Hr].
  rewrite (sum_list_rep _ _ _ _ _ Hr) in Hs.
  apply (sum_pure_inv f g) in Hs; auto. rewrite zsum_dcontents in Hs by auto.
  subst s. cbn. 
  assert (Hsame : same_sums b raw).
  { clear -H2 Eb Hraw. revert i Eb Hraw. induction H2; intros [|i]; cbn; try discriminate.
    - intros [= <-] [= <-]; auto.
    - eauto. }
  apply Hsame; auto.
Qed.

Lemma delta_net_code_inv d v : delta_net_code d = Ok v -> v = net_code d.
Proof. unfold delta_net_code. intros [-> _]%ckint_inv. reflexivity. Qed.
Lemma delta_net_comments_inv d v : delta_net_comments d = Ok v -> v = net_comments d.
Proof. unfold delta_net_comments. intros [-> _]%ckint_inv. reflexivity. Qed.
Lemma delta_net_blanks_inv d v : delta_net_blanks d = Ok v -> v = net_blanks d.
Proof. unfold delta_net_blanks. intros [-> _]%ckint_inv. reflexivity. Qed.
Lemma delta_net_total_inv d v : delta_net_total d = Ok v -> v = net_total d.
Proof.
  unfold delta_net_total. intros H.
  apply bind_ok in H as (a & Ha%delta_net_code_inv & H).
  apply bind_ok in H as (b & Hb%delta_net_comments_inv & H).
  apply bind_ok in H as (s & [Hs _]%ckint_inv & H).
  apply bind_ok in H as (c & Hc%delta_net_blanks_inv & H).
  apply ckint_inv in H as [-> _]. unfold net_total. lia.
Qed.

(** * Adding a list to itself *)
(** With a second language the loop of [ohcount_loc_delta_list_add_loc_delta_list]
    appends a node in every iteration and never reaches the end. *)
Lemma delta_self_loop fuel : forall h lst addrs x xs k a,
  rep h lst addrs (x :: xs) ->
  (forall y, In y xs -> d_lang y <> d_lang x) ->
  nth_error addrs k = Some a -> (1 <= k)%nat ->
  delta_list_add_loop fuel h lst (Some a) = OutOfFuel.
Proof.
  induction fuel as [|fuel IH]; intros h lst addrs x xs k a Hr Hne Hk Hk1; [reflexivity|].
  cbn [delta_list_add_loop deref].
  destruct (rep_head _ _ _ _ Hr) as (n0 & Hn0 & _ & Hc).
  destruct (chain_nth _ _ _ _ _ _ Hc Hk) as (n & y & Hn & Hv & Hy & Hnx).
  rewrite Hn. cbn [bind]. unfold val_of. rewrite Hv. cbn [bind].
  assert (Hyx : d_lang y <> d_lang x).
  { destruct k as [|k]; [lia|]. cbn in Hy. apply Hne. eapply nth_error_In; eauto. }
  pose proof (add_delta_rep h lst addrs (x :: xs) y Hr) as Hadd.
  cbn [d_add] in Hadd. rewrite (proj2 (String.eqb_neq _ _) (not_eq_sym Hyx)) in Hadd.
  destruct Hadd as (h' & addrs' & E & Hr' & Hf & Hg & Hshape).
  rewrite E. cbn [bind].
  destruct Hshape as (m & m' & Hm & Hm' & Haddrs).
  { destruct addrs; [destruct k; discriminate|discriminate]. }
  replace (Nat.eqb (length ((x :: xs) ++ [y])) (length (x :: xs))) with false in Haddrs
    by (symmetry; apply Nat.eqb_neq; rewrite app_length; cbn; lia).
  destruct (rep_head _ _ _ _ Hr') as (n1 & Hn1 & _ & Hc1).
  assert (Hk' : nth_error addrs' k = Some a).
  { rewrite Haddrs. rewrite nth_error_app1; auto. apply nth_error_Some. congruence. }
  destruct (chain_nth _ _ _ _ _ _ Hc1 Hk') as (n' & y' & Hn' & Hv' & Hy' & Hnx').
  rewrite Hn'. cbn [bind]. rewrite Hnx'.
  assert (HSk : exists a', nth_error addrs' (S k) = Some a').
  { destruct (nth_error addrs' (S k)) eqn:Es; eauto. apply nth_error_None in Es.
    rewrite Haddrs, app_length in Es. cbn in Es.
    assert (nth_error addrs k <> None) by congruence. apply nth_error_Some in H. lia. }
  destruct HSk as [a' Ha']. rewrite Ha'.
  apply (IH h' lst addrs' x (xs ++ [y]) (S k) a'); auto.
  intros z Hz. apply in_app_or in Hz as [Hz|[<-|[]]]; auto.
Qed.

Lemma dcontents_tail_other b x xs :
  dcontents b = x :: xs -> forall y, In y xs -> d_lang y <> d_lang x.
Proof.
  destruct b as [|d0 r]; [discriminate|].
  intros E. injection E as <- <-. intros y Hy.
  change (In y (filter (fun d => negb (String.eqb (d_lang d) (d_lang d0))) (d0 :: r))) in Hy.
  apply filter_In in Hy as [_ Hy]. apply negb_true_iff in Hy. apply String.eqb_neq in Hy. auto.
Qed.

Lemma delta_self_add_diverges fuel h lst addrs b x y r :
  rep h lst addrs (dcontents b) -> dcontents b = x :: y :: r ->
  is_ok (delta_add_delta x x) ->
  delta_list_add_delta_list fuel h lst lst = OutOfFuel.
Proof.
  intros Hr E [v Hv]. unfold delta_list_add_delta_list.
  destruct (rep_head _ _ _ _ Hr) as (n & Hn & Hh & Hc). cbn [deref]. rewrite Hn. cbn [bind].
  rewrite E in *.
  pose proof (rep_fuel _ _ _ _ Hr) as [_ Hlen].
  destruct addrs as [|a0 [|a1 ar]]; try discriminate. 
  assert (a0 = lst) by (destruct Hr as (? & ? & -> & _); auto). subst a0.
  rewrite Hh. destruct fuel as [|fuel]; [reflexivity|].
  cbn [delta_list_add_loop deref]. rewrite Hn. cbn [bind].
  rewrite Hh in Hc.
  destruct (chain_nth _ _ _ _ 0 lst Hc eq_refl) as (n' & x' & Hn' & Hv' & Hx' & Hnx).
  cbn in Hx'. injection Hx' as <-. replace n' with n in * by congruence.
  unfold val_of. rewrite Hv'. cbn [bind].
  pose proof (add_delta_rep h lst _ (x :: y :: r) x Hr) as Hadd.
  cbn [d_add] in Hadd. rewrite String.eqb_refl, Hv in Hadd. cbn [bind] in Hadd.
  destruct Hadd as (h' & addrs' & E' & Hr' & _ & _ & Hshape).
  rewrite E'. cbn [bind].
  destruct Hshape as (m & m' & Hm & Hm' & Haddrs); [discriminate|].
  cbn [length] in Haddrs. rewrite Nat.eqb_refl, app_nil_r in Haddrs. subst addrs'.
  destruct (rep_head _ _ _ _ Hr') as (n1 & Hn1 & _ & Hc1).
  destruct (chain_nth _ _ _ _ 0 lst Hc1 eq_refl) as (n2 & x2 & Hn2 & Hv2 & Hx2 & Hnx2).
  rewrite Hn2. cbn [bind]. rewrite Hnx2. cbn [nth_error].
  apply (delta_self_loop fuel h' lst (lst :: a1 :: ar) v (y :: r) 1 a1); auto.
  pose proof (dcontents_tail_other _ _ _ E) as Ho.
  intros z Hz. specialize (Ho z Hz).
  assert (d_lang v = d_lang x); [|congruence].
  unfold delta_add_delta in Hv. rewrite String.eqb_refl in Hv.
  repeat (apply bind_ok in Hv as (? & _ & Hv)). injection Hv as <-. reflexivity.
Qed.

Lemma delta_self_add_single h lst addrs x v :
  rep h lst addrs [x] -> delta_add_delta x x = Ok v ->
  exists h' , delta_list_add_delta_list 1 h lst lst = Ok h' /\ exists addrs', rep h' lst addrs' [v].
Proof.
  intros Hr Hv. unfold delta_list_add_delta_list.
  destruct (rep_head _ _ _ _ Hr) as (n & Hn & Hh & Hc). cbn [deref]. rewrite Hn. cbn [bind].
  pose proof (rep_fuel _ _ _ _ Hr) as [_ Hlen].
  destruct addrs as [|a0 [|a1 ar]]; try discriminate.
  assert (a0 = lst) by (destruct Hr as (? & ? & -> & _); auto). subst a0.
  rewrite Hh. cbn [delta_list_add_loop deref]. rewrite Hn. cbn [bind].
  rewrite Hh in Hc.
  destruct (chain_nth _ _ _ _ 0 lst Hc eq_refl) as (n' & x' & Hn' & Hv' & Hx' & Hnx).
  cbn in Hx'. injection Hx' as <-. replace n' with n in * by congruence.
  unfold val_of. rewrite Hv'. cbn [bind].
  pose proof (add_delta_rep h lst _ [x] x Hr) as Hadd.
  cbn [d_add] in Hadd. rewrite String.eqb_refl, Hv in Hadd. cbn [bind] in Hadd.
  destruct Hadd as (h' & addrs' & E' & Hr' & _ & _ & Hshape).
  rewrite E'. cbn [bind].
  destruct Hshape as (m & m' & Hm & Hm' & Haddrs); [discriminate|].
  cbn [length] in Haddrs. rewrite Nat.eqb_refl, app_nil_r in Haddrs. subst addrs'.
  destruct (rep_head _ _ _ _ Hr') as (n1 & Hn1 & _ & Hc1).
  destruct (chain_nth _ _ _ _ 0 lst Hc1 eq_refl) as (n2 & x2 & Hn2 & Hv2 & Hx2 & Hnx2).
  rewrite Hn2. cbn [bind]. rewrite Hnx2. cbn [nth_error delta_list_add_loop].
  eexists; split; [reflexivity|]. eauto.
Qed.
