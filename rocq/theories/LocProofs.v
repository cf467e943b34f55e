(** Proofs about LocList: refinement of the pointer model by bags. *)
From Coq Require Import ZArith String List Bool Lia Permutation.
From Verif Require Import Base LocModel HeapProofs LocSpec.
Import ListNotations.
Open Scope Z_scope.

(** * Pure list level *)
Fixpoint find_idx (g : string) (xs : list loc) : option nat :=
  match xs with
  | [] => None
  | x :: r => if String.eqb (l_lang x) g then Some O
              else option_map S (find_idx g r)
  end.

Definition l_add (xs : list loc) (l : loc) : res (list loc) :=
  match find_idx (l_lang l) xs with
  | None => Ok (xs ++ [l])
  | Some k =>
    match nth_error xs k with
    | Some x => v <- loc_add_loc x l ;; Ok (upd xs k v)
    | None => Ub OutOfBounds
    end
  end.

Fixpoint l_add_all (xs ys : list loc) : res (list loc) :=
  match ys with
  | [] => Ok xs
  | y :: r => xs' <- l_add xs y ;; l_add_all xs' r
  end.

Lemma find_idx_nth g xs k :
  find_idx g xs = Some k -> exists x, nth_error xs k = Some x /\ l_lang x = g.
Proof.
  revert k; induction xs as [|x r IH]; cbn; [discriminate|].
  intros k. destruct (String.eqb_spec (l_lang x) g).
  - intros [= <-]. cbn. eauto.
  - destruct (find_idx g r); cbn; [|discriminate]. intros [= <-]. cbn. eauto.
Qed.

(** * Heap level: one addition *)
Lemma loc_find_chain h addrs : forall xs p fuel g,
  chain h p addrs xs -> (length addrs <= fuel)%nat ->
  loc_find fuel h p g =
    Ok (match find_idx g xs with Some k => nth_error addrs k | None => None end).
Proof.
  induction addrs as [|a ar IH]; intros xs p fuel g Hc Hf.
  - destruct xs; cbn in Hc; [|tauto]. subst. destruct fuel; reflexivity.
  - destruct xs as [|x xr]; cbn in Hc; [tauto|].
    destruct Hc as (-> & n & Hn & Hv & Hc).
    destruct fuel as [|k]; cbn in Hf; [lia|].
    cbn [loc_find deref]. rewrite Hn. cbn [bind]. rewrite Hv. cbn [find_idx].
    destruct (String.eqb _ _); [reflexivity|].
    rewrite (IH xr) by (auto; lia).
    destruct (find_idx g xr); reflexivity.
Qed.

Definition grows (h : heap loc) (lst : nat) (addrs addrs' : list nat) : Prop :=
  forall a, In a (footprint lst addrs') ->
            In a (footprint lst addrs) \/ (length h <= a)%nat.

Lemma l_add_not_fuel xs l : l_add xs l <> OutOfFuel.
Proof.
  unfold l_add. destruct (find_idx _ _); [|discriminate].
  destruct (nth_error _ _) as [x|]; [|discriminate].
  unfold loc_add_loc. destruct (String.eqb _ _); [|discriminate].
  unfold ckint. repeat (destruct (_ && _); cbn); discriminate.
Qed.

Lemma add_loc_rep h lst addrs xs l :
  rep h lst addrs xs ->
  match l_add xs l with
  | Ok xs' => exists h' addrs',
      loc_list_add_loc h lst l = Ok h' /\ rep h' lst addrs' xs' /\
      frame h h' (footprint lst addrs) /\ grows h lst addrs addrs' /\
      (find_idx (l_lang l) xs <> None -> addrs' = addrs)
  | Ub w => loc_list_add_loc h lst l = Ub w
  | OutOfFuel => False
  end.
Proof.
  intros Hr. pose proof (rep_fuel _ _ _ _ Hr) as [Hf Hlen].
  destruct (rep_head _ _ _ _ Hr) as (n & Hn & Hh & Hc).
  unfold loc_list_add_loc. cbn [deref]. rewrite Hn. cbn [bind].
  destruct addrs as [|a0 ar] eqn:Ea.
  - destruct xs; [|cbn in Hlen; discriminate]. cbn in Hh. rewrite Hh.
    destruct (rep_first h lst l Hr) as (h' & E & Hr' & Hfr & _).
    unfold l_add. cbn [find_idx app].
    exists h', [lst]. rewrite E. split; [|split; [|split; [|split]]]; auto.
    + intros a Ha. left. exact Ha.
    + cbn. congruence.
  - rewrite Hh. rewrite Hh in Hc. rewrite (loc_find_chain h (a0 :: ar) xs) by (auto; lia).
    cbn [bind]. unfold l_add.
    destruct (find_idx (l_lang l) xs) as [k|] eqn:Ek.
    + destruct (find_idx_nth _ _ _ Ek) as (x & Hx & Hl). rewrite Hx.
      destruct (nth_error (a0 :: ar) k) as [a|] eqn:Eka.
      2:{ apply nth_error_None in Eka. assert (nth_error xs k <> None) by congruence.
          apply nth_error_Some in H. lia. }
      destruct (chain_nth _ _ _ _ _ _ Hc Eka) as (m & y & Hm & Hv & Hy & _).
      assert (y = x) by congruence; subst y.
      cbn [deref]. rewrite Hm. cbn [bind]. unfold val_of. rewrite Hv. cbn [bind].
      destruct (loc_add_loc x l) as [v| |] eqn:Eadd; cbn [bind].
      * destruct (rep_modify _ _ _ _ _ _ v Hr Eka) as (h' & E & Hr' & Hfr & _).
        exists h', (a0 :: ar). rewrite E. split; [|split; [|split; [|split]]]; auto.
        intros b Hb. left. exact Hb.
      * reflexivity.
      * revert Eadd. unfold loc_add_loc. destruct (String.eqb _ _); [|discriminate].
        unfold ckint. repeat (destruct (_ && _); cbn); discriminate.
    + destruct (rep_append _ _ _ _ _ l Hr ltac:(discriminate) Hn) as (h' & E & Hr' & Hfr & _).
      exists h', ((a0 :: ar) ++ [length h]). split; [exact E|].
      split; [|split; [|split]]; auto.
      * intros b Hb. cbn [footprint app] in Hb |- *.
        change (In b ((a0 :: ar) ++ [length h])) in Hb.
        apply in_app_or in Hb as [?|[<-|[]]]; auto.
      * congruence.
Qed.

(** * Adding another list *)
Lemma frame_trans (h h1 h2 : heap loc) lst addrs addrs1 :
  frame h h1 (footprint lst addrs) -> frame h1 h2 (footprint lst addrs1) ->
  grows h lst addrs addrs1 -> frame h h2 (footprint lst addrs).
Proof.
  intros [L1 F1] [L2 F2] G. split; [lia|]. intros a Ha Hn.
  rewrite F2, F1; auto; [lia|]. intros Hin. apply G in Hin as [?|?]; [tauto|lia].
Qed.

Lemma grows_trans h h1 lst a1 a2 a3 :
  (length h <= length h1)%nat ->
  grows h lst a1 a2 -> grows h1 lst a2 a3 -> grows h lst a1 a3.
Proof.
  intros L G1 G2 a Ha. apply G2 in Ha as [Ha|Ha]; [auto|right; lia].
Qed.

Lemma grows_refl h lst a : grows h lst a a.
Proof. intros b Hb; auto. Qed.

Lemma frame_refl (h : heap loc) fp : frame h h fp.
Proof. split; auto. Qed.

Lemma add_loop_other oaddrs : forall ys h lst addrs xs p fuel,
  rep h lst addrs xs -> chain h p oaddrs ys ->
  (forall a, In a oaddrs -> ~ In a (footprint lst addrs)) ->
  (length oaddrs <= fuel)%nat ->
  match l_add_all xs ys with
  | Ok xs' => exists h' addrs',
      loc_list_add_loop fuel h lst p = Ok h' /\ rep h' lst addrs' xs' /\
      frame h h' (footprint lst addrs) /\ grows h lst addrs addrs'
  | Ub w => loc_list_add_loop fuel h lst p = Ub w
  | OutOfFuel => False
  end.
Proof.
  induction oaddrs as [|a ar IH]; intros ys h lst addrs xs p fuel Hr Hc Hd Hf.
  - destruct ys; cbn in Hc; [|tauto]. subst p. cbn.
    exists h, addrs. split; [destruct fuel; reflexivity|].
    split; auto. split; [apply frame_refl|apply grows_refl].
  - destruct ys as [|y yr]; cbn in Hc; [tauto|].
    destruct Hc as (-> & n & Hn & Hv & Hc).
    destruct fuel as [|k]; cbn in Hf; [lia|].
    cbn [loc_list_add_loop deref l_add_all]. rewrite Hn. cbn [bind].
    unfold val_of. rewrite Hv. cbn [bind].
    pose proof (add_loc_rep h lst addrs xs y Hr) as Hadd.
    destruct (l_add xs y) as [xs1| |]; cbn [bind].
    + destruct Hadd as (h1 & addrs1 & E1 & Hr1 & Hf1 & Hg1 & _). rewrite E1. cbn [bind].
      assert (Hb : forall c, In c (a :: ar) -> (c < length h)%nat).
      { intros c [->|Hin]; [apply nth_error_Some; congruence|eapply chain_bound; eauto]. }
      assert (Hsame : forall c, In c (a :: ar) -> nth_error h1 c = nth_error h c).
      { intros c Hin. apply Hf1; auto. }
      assert (Hd1 : forall c, In c (a :: ar) -> ~ In c (footprint lst addrs1)).
      { intros c Hin Hin'. apply Hg1 in Hin' as [Hin'|Hge]; [eapply Hd; eauto|].
        specialize (Hb c Hin). lia. }
      rewrite Hsame, Hn by (cbn; auto). cbn [bind].
      specialize (IH yr h1 lst addrs1 xs1 (n_next n) k Hr1).
      assert (Hc1 : chain h1 (n_next n) ar yr)
        by (eapply chain_ext; [|exact Hc]; intros; apply Hsame; cbn; auto).
      specialize (IH Hc1 ltac:(intros; apply Hd1; cbn; auto) ltac:(lia)).
      destruct (l_add_all xs1 yr) as [xs2| |]; auto.
      destruct IH as (h2 & addrs2 & E2 & Hr2 & Hf2 & Hg2).
      exists h2, addrs2. split; auto. split; auto. split.
      * eapply frame_trans; eauto.
      * exact (grows_trans h h1 lst addrs addrs1 addrs2 (proj1 Hf1) Hg1 Hg2).
    + rewrite Hadd. reflexivity.
    + contradiction.
Qed.

Lemma find_idx_app_nodup pre x suf :
  NoDup (map l_lang (pre ++ x :: suf)) ->
  find_idx (l_lang x) (pre ++ x :: suf) = Some (length pre).
Proof.
  induction pre as [|y pre IH]; cbn; intros Hnd.
  - rewrite String.eqb_refl. reflexivity.
  - apply NoDup_cons_iff in Hnd as [Hni Hnd].
    destruct (String.eqb_spec (l_lang y) (l_lang x)) as [e|e].
    + exfalso. apply Hni. rewrite map_app, in_app_iff. right. cbn. auto.
    + rewrite IH by auto. reflexivity.
Qed.

Lemma upd_app {A} (pre : list A) x suf v :
  upd (pre ++ x :: suf) (length pre) v = pre ++ v :: suf.
Proof. induction pre; cbn; congruence. Qed.

Lemma nth_error_mid {A} (pre : list A) x suf :
  nth_error (pre ++ x :: suf) (length pre) = Some x.
Proof. induction pre; cbn; auto. Qed.

Lemma loc_add_loc_lang x l v : loc_add_loc x l = Ok v -> l_lang v = l_lang x.
Proof.
  unfold loc_add_loc. destruct (String.eqb _ _); [|intros [= <-]; auto].
  intros H. repeat (apply bind_ok in H as (? & _ & H)). injection H as <-. reflexivity.
Qed.

Lemma add_loop_self suf : forall pre h lst addrs fuel,
  rep h lst addrs (pre ++ suf) -> NoDup (map l_lang (pre ++ suf)) ->
  (length suf <= fuel)%nat ->
  match l_add_all (pre ++ suf) suf with
  | Ok xs' => exists h',
      loc_list_add_loop fuel h lst (nth_error addrs (length pre)) = Ok h' /\
      rep h' lst addrs xs' /\
      frame h h' (footprint lst addrs) 
  | Ub w => loc_list_add_loop fuel h lst (nth_error addrs (length pre)) = Ub w
  | OutOfFuel => False
  end.
Proof.
  induction suf as [|x suf IH]; intros pre h lst addrs fuel Hr Hnd Hf.
  - cbn. exists h. split; [|split; [auto|apply frame_refl]].
    replace (nth_error addrs (length pre)) with (@None nat).
    { destruct fuel; reflexivity. }
    symmetry. apply nth_error_None. destruct (rep_fuel _ _ _ _ Hr) as [_ ->].
    rewrite app_nil_r. lia.
  - destruct (rep_fuel _ _ _ _ Hr) as [_ Hlen].
    destruct (nth_error addrs (length pre)) as [a|] eqn:Ea.
    2:{ apply nth_error_None in Ea. rewrite Hlen, app_length in Ea. cbn in Ea. lia. }
    destruct fuel as [|k]; cbn in Hf; [lia|].
    destruct (rep_head _ _ _ _ Hr) as (n0 & Hn0 & _ & Hc).
    destruct (chain_nth _ _ _ _ _ _ Hc Ea) as (n & y & Hn & Hv & Hy & Hnx).
    rewrite nth_error_mid in Hy. injection Hy as <-.
    cbn [loc_list_add_loop deref l_add_all]. rewrite Hn. cbn [bind].
    unfold val_of. rewrite Hv. cbn [bind].
    pose proof (add_loc_rep h lst addrs _ x Hr) as Hadd.
    pose proof (find_idx_app_nodup pre x suf Hnd) as Hidx.
    unfold l_add in *. rewrite Hidx in *. rewrite nth_error_mid in *.
    destruct (loc_add_loc x x) as [v| |] eqn:Ev; cbn [bind] in *.
    + destruct Hadd as (h1 & addrs1 & E1 & Hr1 & Hf1 & _ & Hsame).
      rewrite Hsame in * by discriminate. rewrite E1. cbn [bind].
      rewrite upd_app in *.
      destruct (rep_head _ _ _ _ Hr1) as (n1 & Hn1 & _ & Hc1).
      destruct (chain_nth _ _ _ _ _ _ Hc1 Ea) as (n' & y' & Hn' & Hv' & Hy' & Hnx').
      rewrite Hn'. cbn [bind]. rewrite Hnx'.
      specialize (IH (pre ++ [v]) h1 lst addrs k).
      rewrite <- !app_assoc in IH. cbn [app] in IH.
      rewrite app_length in IH. cbn [length] in IH. rewrite Nat.add_1_r in IH.
      specialize (IH Hr1).
      assert (Hnd1 : NoDup (map l_lang (pre ++ v :: suf))).
      { rewrite map_app in *. cbn [map] in *. rewrite (loc_add_loc_lang _ _ _ Ev). auto. }
      specialize (IH Hnd1 ltac:(lia)).
      destruct (l_add_all (pre ++ v :: suf) suf) as [xs2| |]; auto.
      destruct IH as (h2 & E2 & Hr2 & Hf2). exists h2. split; auto. split; auto.
      eapply frame_trans; eauto. apply grows_refl.
    + rewrite Hadd; reflexivity.
    + contradiction.
Qed.

(** * Bags *)
Lemma zsum_app a b : zsum (a ++ b) = zsum a + zsum b.
Proof. unfold zsum. induction a as [|x a IH]; cbn; [reflexivity|]. rewrite IH. lia. Qed.

Lemma sum_by_app f g a b : sum_by f g (a ++ b) = sum_by f g a + sum_by f g b.
Proof. unfold sum_by. rewrite filter_app, map_app, zsum_app. reflexivity. Qed.

Lemma sum_by_cons f g x b :
  sum_by f g (x :: b) = (if String.eqb (l_lang x) g then f x else 0) + sum_by f g b.
Proof. unfold sum_by, zsum. cbn [filter]. destruct (String.eqb _ _); cbn [map fold_right]; lia. Qed.

Lemma in_first_occ l x : In x (first_occ l) <-> In x l.
Proof.
  induction l as [|y r IH]; cbn; [tauto|].
  rewrite filter_In, IH. destruct (String.eqb_spec y x); cbn; intuition congruence.
Qed.

Lemma nodup_filter {A} (f : A -> bool) l : NoDup l -> NoDup (filter f l).
Proof.
  induction 1 as [|x l Hni Hnd IH]; cbn; [constructor|].
  destruct (f x); auto. constructor; auto. rewrite filter_In. tauto.
Qed.

Lemma nodup_first_occ l : NoDup (first_occ l).
Proof.
  induction l as [|x r IH]; cbn; constructor.
  - rewrite filter_In, String.eqb_refl. cbn. intuition discriminate.
  - apply nodup_filter; auto.
Qed.

Lemma filter_filter_comm {A} (f g : A -> bool) l :
  filter f (filter g l) = filter g (filter f l).
Proof.
  induction l as [|x l IH]; cbn; auto.
  destruct (g x) eqn:Eg, (f x) eqn:Ef; cbn; rewrite ?Eg, ?Ef, ?IH; auto.
Qed.

Lemma filter_all {A} (f : A -> bool) l : (forall x, In x l -> f x = true) -> filter f l = l.
Proof.
  induction l as [|x l IH]; cbn; auto. intros H. rewrite (H x) by auto.
  f_equal. apply IH; auto.
Qed.

Lemma filter_none {A} (f : A -> bool) l : (forall x, In x l -> f x = false) -> filter f l = [].
Proof.
  induction l as [|x l IH]; cbn; auto. intros H. rewrite (H x) by auto.
  apply IH; auto.
Qed.

Lemma filter_filter {A} (f g : A -> bool) l :
  filter f (filter g l) = filter (fun x => f x && g x) l.
Proof.
  induction l as [|x l IH]; cbn; auto.
  destruct (g x) eqn:Eg; cbn; rewrite ?andb_true_r, ?andb_false_r, IH; auto.
Qed.

Definition fresh (l : list string) (y : string) : bool :=
  negb (existsb (String.eqb y) l).

Lemma first_occ_app a b :
  first_occ (a ++ b) = first_occ a ++ filter (fresh a) (first_occ b).
Proof.
  induction a as [|x a IH]; cbn.
  - symmetry. apply filter_all. reflexivity.
  - rewrite IH, filter_app. f_equal. f_equal. rewrite filter_filter.
    apply filter_ext. intros y. unfold fresh. cbn. rewrite negb_orb.
    rewrite (String.eqb_sym y x). reflexivity.
Qed.

Lemma first_occ_idem l : first_occ (first_occ l) = first_occ l.
Proof.
  assert (H : forall l, NoDup l -> first_occ l = l).
  { induction 1 as [|x r Hni Hnd IH]; cbn; auto. rewrite IH. f_equal.
    apply filter_all. intros y Hy. destruct (String.eqb_spec x y); auto. congruence. }
  apply H. apply nodup_first_occ.
Qed.

Lemma summary_langs b : map l_lang (summary b) = first_occ (map l_lang b).
Proof. unfold summary. rewrite map_map. cbn. apply map_id. Qed.

Lemma summary_nodup b : NoDup (map l_lang (summary b)).
Proof. rewrite summary_langs. apply nodup_first_occ. Qed.

Lemma sum_by_absent f g b : ~ In g (map l_lang b) -> sum_by f g b = 0.
Proof.
  intros H. unfold sum_by. rewrite filter_none; auto.
  intros x Hx. destruct (String.eqb_spec (l_lang x) g); auto. subst.
  exfalso; apply H. apply in_map; auto.
Qed.

Lemma sum_loc_app_other b l g : l_lang l <> g -> sum_loc (b ++ [l]) g = sum_loc b g.
Proof.
  intros H. unfold sum_loc. rewrite !sum_by_app, !sum_by_cons.
  rewrite (proj2 (String.eqb_neq _ _) H). unfold sum_by at 2 4 6 8. cbn.
  f_equal; lia.
Qed.

Lemma find_idx_none g xs : find_idx g xs = None -> ~ In g (map l_lang xs).
Proof.
  induction xs as [|x r IH]; cbn; [tauto|].
  destruct (String.eqb_spec (l_lang x) g); [discriminate|].
  destruct (find_idx g r); [discriminate|]. intros _ [?|?]; [congruence|]. apply IH; auto.
Qed.

Lemma map_upd_nodup {B} (f f' : string -> B) gs k g :
  NoDup gs -> nth_error gs k = Some g ->
  (forall x, x <> g -> f' x = f x) ->
  upd (map f gs) k (f' g) = map f' gs.
Proof.
  revert k; induction gs as [|x r IH]; intros k Hnd Hk Hf; [destruct k; discriminate|].
  apply NoDup_cons_iff in Hnd as [Hni Hnd].
  destruct k as [|k]; cbn in Hk |- *.
  - injection Hk as ->. f_equal. apply map_ext_in. intros y Hy. symmetry; apply Hf.
    congruence.
  - f_equal.
    + symmetry. apply Hf. intros ->. apply Hni. eapply nth_error_In; eauto.
    + apply IH; auto.
Qed.

Lemma l_add_summary b l xs' :
  l_add (summary b) l = Ok xs' -> xs' = summary (b ++ [l]).
Proof.
  unfold l_add. destruct (find_idx (l_lang l) (summary b)) as [k|] eqn:Ek.
  - destruct (find_idx_nth _ _ _ Ek) as (x & Hx & Hl). rewrite Hx.
    intros H. apply bind_ok in H as (v & Hv & [= <-]).
    unfold summary at 2. rewrite map_app. cbn [map].
    rewrite first_occ_app. cbn [first_occ filter].
    assert (Hin : In (l_lang l) (map l_lang b)).
    { apply in_first_occ. rewrite <- summary_langs. rewrite <- Hl. apply in_map.
      eapply nth_error_In; eauto. }
    replace (fresh (map l_lang b) (l_lang l)) with false.
    2:{ symmetry. unfold fresh. apply negb_false_iff. apply existsb_exists.
        eexists; split; eauto. apply String.eqb_refl. }
    rewrite app_nil_r.
    assert (Hxl : nth_error (first_occ (map l_lang b)) k = Some (l_lang l)).
    { rewrite <- summary_langs. rewrite nth_error_map, Hx. cbn. congruence. }
    assert (Hxv : x = sum_loc b (l_lang l)).
    { unfold summary in Hx. rewrite nth_error_map, Hxl in Hx. cbn in Hx. congruence. }
    unfold summary. rewrite <- (map_upd_nodup (sum_loc b) (sum_loc (b ++ [l])) _ k (l_lang l));
      auto using nodup_first_occ.
    + f_equal. subst x. unfold loc_add_loc in Hv. cbn [l_lang sum_loc] in Hv.
      rewrite String.eqb_refl in Hv.
      repeat (apply bind_ok in Hv as (? & ?%ckint_inv & Hv)).
      injection Hv as <-. unfold sum_loc. rewrite !sum_by_app, !sum_by_cons, String.eqb_refl.
      cbn [sum_loc l_code l_comments l_blanks l_files] in *.
      unfold sum_by at 2 4 6 8. cbn. f_equal; lia.
    + intros g Hg. apply sum_loc_app_other. congruence.
  - intros [= <-]. apply find_idx_none in Ek. rewrite summary_langs in Ek.
    rewrite in_first_occ in Ek.
    unfold summary. rewrite map_app. cbn [map]. rewrite first_occ_app. cbn [first_occ filter].
    replace (fresh (map l_lang b) (l_lang l)) with true.
    2:{ symmetry. unfold fresh. apply negb_true_iff. apply Bool.not_true_iff_false.
        intros H. apply existsb_exists in H as (y & Hy & E). apply String.eqb_eq in E. congruence. }
    rewrite map_app. f_equal.
    + apply map_ext_in. intros g Hg. symmetry. apply sum_loc_app_other.
      rewrite in_first_occ in Hg. congruence.
    + cbn. f_equal. destruct l as [g a c d e]. unfold sum_loc. cbn [l_lang].
      rewrite !sum_by_app, !(sum_by_absent _ _ b Ek), !sum_by_cons.
      cbn [l_lang l_code l_comments l_blanks l_files]. rewrite String.eqb_refl.
      unfold sum_by. cbn. f_equal; lia.
Qed.

Lemma l_add_all_summary ys : forall b xs',
  l_add_all (summary b) ys = Ok xs' -> xs' = summary (b ++ ys).
Proof.
  induction ys as [|y r IH]; intros b xs' H; cbn in H.
  - injection H as <-. rewrite app_nil_r. reflexivity.
  - apply bind_ok in H as (xs1 & H1 & H). apply l_add_summary in H1. subst xs1.
    apply IH in H. rewrite <- app_assoc in H. exact H.
Qed.

Lemma sum_by_map_sum f g b gs :
  (forall b g, f (sum_loc b g) = sum_by f g b) -> NoDup gs ->
  sum_by f g (map (sum_loc b) gs) = if existsb (String.eqb g) gs then sum_by f g b else 0.
Proof.
  intros Hf. induction gs as [|x r IH]; intros Hnd; cbn [map existsb]; [reflexivity|].
  apply NoDup_cons_iff in Hnd as [Hni Hnd].
  rewrite sum_by_cons, IH by auto. cbn [l_lang sum_loc].
  rewrite (String.eqb_sym g x). destruct (String.eqb_spec x g).
  - subst. rewrite Hf. cbn [orb]. destruct (existsb _ r) eqn:E; [|lia].
    apply existsb_exists in E as (y & Hy & E). apply String.eqb_eq in E. subst. tauto.
  - cbn [orb]. lia.
Qed.

Lemma sum_by_summary f g b :
  (forall b g, f (sum_loc b g) = sum_by f g b) -> sum_by f g (summary b) = sum_by f g b.
Proof.
  intros Hf. unfold summary. rewrite sum_by_map_sum by (auto using nodup_first_occ).
  destruct (existsb _ _) eqn:E; auto. symmetry. apply sum_by_absent.
  intros Hin. apply Bool.not_true_iff_false in E. apply E. apply existsb_exists.
  exists g. rewrite in_first_occ. split; auto. apply String.eqb_refl.
Qed.

Lemma sum_loc_summary b1 b2 g : sum_loc (b1 ++ summary b2) g = sum_loc (b1 ++ b2) g.
Proof.
  unfold sum_loc. rewrite !sum_by_app, !sum_by_summary by reflexivity. reflexivity.
Qed.

Lemma summary_app_summary b1 b2 : summary (b1 ++ summary b2) = summary (b1 ++ b2).
Proof.
  unfold summary at 1 3. rewrite !map_app, summary_langs, !first_occ_app, first_occ_idem.
  apply map_ext. intros; apply sum_loc_summary.
Qed.

(** * Invariant of a history *)
Definition loc_inv (st : loc_state) (bags : list (list loc)) : Prop :=
  let '(h, ids) := st in
  length ids = length bags /\
  exists A : nat -> list nat,
    (forall i lst bag, nth_error ids i = Some lst -> nth_error bags i = Some bag ->
       rep h lst (A i) (summary bag)) /\
    (forall i j li lj a, i <> j -> nth_error ids i = Some li -> nth_error ids j = Some lj ->
       In a (footprint li (A i)) -> ~ In a (footprint lj (A j))).

Lemma loc_inv_step h ids bags (A : nat -> list nat) i lst b' h' A' :
  length ids = length bags ->
  (forall i lst bag, nth_error ids i = Some lst -> nth_error bags i = Some bag ->
     rep h lst (A i) (summary bag)) ->
  (forall i j li lj a, i <> j -> nth_error ids i = Some li -> nth_error ids j = Some lj ->
     In a (footprint li (A i)) -> ~ In a (footprint lj (A j))) ->
  nth_error ids i = Some lst ->
  rep h' lst A' (summary b') -> frame h h' (footprint lst (A i)) ->
  grows h lst (A i) A' ->
  loc_inv (h', ids) (upd bags i b').
Proof.
  intros Hlen Hrep Hdis Hi Hr' [Hfl Hfr] Hg. split; [rewrite upd_length; auto|].
  exists (fun j => if Nat.eq_dec j i then A' else A j).
  assert (Hib : (i < length ids)%nat) by (apply nth_error_Some; congruence).
  assert (Hbd : forall j lj a, nth_error ids j = Some lj -> In a (footprint lj (A j)) ->
            (a < length h)%nat).
  { intros j lj a Hj Ha. destruct (nth_error bags j) as [bj|] eqn:Ej.
    - eapply rep_footprint_bound; eauto.
    - apply nth_error_None in Ej. assert (nth_error ids j <> None) by congruence.
      apply nth_error_Some in H. lia. }
  split.
  - intros j lj bj Hj Hbj. destruct (Nat.eq_dec j i) as [->|Hne].
    + rewrite nth_error_upd_eq in Hbj by lia. injection Hbj as <-.
      replace lj with lst by congruence. auto.
    + rewrite nth_error_upd_ne in Hbj by auto.
      eapply rep_ext; [|eapply Hrep; eauto].
      intros a Ha. apply Hfr; [eapply Hbd; eauto|].
      intros Hin. eapply (Hdis i j); eauto.
  - intros j k lj lk a Hjk Hj Hk Ha Hb.
    destruct (Nat.eq_dec j i) as [->|Hji], (Nat.eq_dec k i) as [->|Hki]; try congruence.
    + replace lj with lst in * by congruence.
      apply Hg in Ha as [Ha|Ha].
      * exact (Hdis i k lst lk a Hjk Hi Hk Ha Hb).
      * specialize (Hbd _ _ _ Hk Hb). lia.
    + replace lk with lst in * by congruence.
      apply Hg in Hb as [Hb|Hb].
      * exact (Hdis j i lj lst a Hjk Hj Hi Ha Hb).
      * specialize (Hbd _ _ _ Hj Ha). lia.
    + exact (Hdis j k lj lk a Hjk Hj Hk Ha Hb).
Qed.

(** A fresh list. *)
Lemma loc_inv_new h ids bags :
  loc_inv (h, ids) bags ->
  loc_inv (h ++ [mkNode None None None None], ids ++ [length h]) (bags ++ [[]]).
Proof.
  intros (Hlen & A & Hrep & Hdis). split; [rewrite !app_length; cbn; lia|].
  exists (fun i => if Nat.eq_dec i (length ids) then [] else A i). split.
  - intros i lst b Hi Hb. destruct (Nat.eq_dec i (length ids)) as [->|Hne].
    + rewrite nth_error_app2 in Hi by lia. rewrite Nat.sub_diag in Hi. injection Hi as <-.
      rewrite Hlen, nth_error_app2, Nat.sub_diag in Hb by lia. injection Hb as <-.
      apply (rep_new h).
    + assert (Hlt : (i < length ids)%nat).
      { assert (nth_error (ids ++ [length h]) i <> None) by congruence.
        apply nth_error_Some in H. rewrite app_length in H. cbn in H. lia. }
      rewrite nth_error_app1 in Hi by lia. rewrite nth_error_app1 in Hb by lia.
      eapply rep_ext; [|eapply Hrep; eauto].
      intros a Ha. apply nth_error_app1. eapply rep_footprint_bound; eauto.
  - assert (Hb : forall i li a, (i < length ids)%nat -> nth_error ids i = Some li ->
              In a (footprint li (A i)) -> (a < length h)%nat).
    { intros i li a Hi Hli Ha. destruct (nth_error bags i) as [b|] eqn:Eb.
      - eapply rep_footprint_bound; eauto.
      - apply nth_error_None in Eb. lia. }
    assert (Hcase : forall i li, nth_error (ids ++ [length h]) i = Some li ->
              (i = length ids /\ li = length h) \/
              ((i < length ids)%nat /\ nth_error ids i = Some li)).
    { intros i li Hi. destruct (Nat.lt_ge_cases i (length ids)) as [Hlt|Hge].
      - right. rewrite nth_error_app1 in Hi by auto. auto.
      - left. rewrite nth_error_app2 in Hi by auto.
        destruct (i - length ids)%nat as [|d] eqn:Ed; cbn in Hi.
        + injection Hi as <-. split; auto. lia.
        + destruct d; discriminate. }
    intros i j li lj a Hij Hi Hj.
    destruct (Hcase _ _ Hi) as [[-> ->]|[Hil Hi']], (Hcase _ _ Hj) as [[-> ->]|[Hjl Hj']].
    + congruence.
    + destruct (Nat.eq_dec (length ids) (length ids)); [|congruence].
      destruct (Nat.eq_dec j (length ids)); [congruence|]. cbn. intros [<-|[]] Hin.
      specialize (Hb _ _ _ Hjl Hj' Hin). lia.
    + destruct (Nat.eq_dec (length ids) (length ids)); [|congruence].
      destruct (Nat.eq_dec i (length ids)); [congruence|]. intros Hin [<-|[]].
      specialize (Hb _ _ _ Hil Hi' Hin). lia.
    + destruct (Nat.eq_dec i (length ids)); [lia|].
      destruct (Nat.eq_dec j (length ids)); [lia|]. apply Hdis; auto.
Qed.

(** Compaction. *)
Fixpoint c_add_all (xs ys : list loc) : res (list loc) :=
  match ys with
  | [] => Ok xs
  | y :: r => t <- loc_total y ;;
              xs' <- (if t =? 0 then Ok xs else l_add xs y) ;; c_add_all xs' r
  end.

Lemma loc_total_inv y t : loc_total y = Ok t -> t = lines y.
Proof.
  unfold loc_total. intros H. apply bind_ok in H as (s & ?%ckint_inv & ?%ckint_inv).
  unfold lines. lia.
Qed.

Lemma compact_loop_other oaddrs : forall ys h lst addrs xs p fuel,
  rep h lst addrs xs -> chain h p oaddrs ys ->
  (forall a, In a oaddrs -> ~ In a (footprint lst addrs)) ->
  (length oaddrs <= fuel)%nat ->
  match c_add_all xs ys with
  | Ok xs' => exists h' addrs',
      loc_list_compact_loop fuel h lst p = Ok h' /\ rep h' lst addrs' xs' /\
      frame h h' (footprint lst addrs) /\ grows h lst addrs addrs'
  | Ub w => loc_list_compact_loop fuel h lst p = Ub w
  | OutOfFuel => False
  end.
Proof.
  induction oaddrs as [|a ar IH]; intros ys h lst addrs xs p fuel Hr Hc Hd Hf.
  - destruct ys; cbn in Hc; [|tauto]. subst p. cbn.
    exists h, addrs. split; [destruct fuel; reflexivity|].
    split; auto. split; [apply frame_refl|apply grows_refl].
  - destruct ys as [|y yr]; cbn in Hc; [tauto|].
    destruct Hc as (-> & n & Hn & Hv & Hc).
    destruct fuel as [|k]; cbn in Hf; [lia|].
    cbn [loc_list_compact_loop deref c_add_all]. rewrite Hn. cbn [bind].
    unfold val_of. rewrite Hv. cbn [bind].
    destruct (loc_total y) as [t| |] eqn:Et; cbn [bind]; auto.
    2:{ revert Et. unfold loc_total, ckint. repeat (destruct (_ && _); cbn); discriminate. }
    destruct (t =? 0); cbn [bind].
    + rewrite Hn. cbn [bind].
      apply IH; auto; [intros; apply Hd; cbn; auto|lia].
    + pose proof (add_loc_rep h lst addrs xs y Hr) as Hadd.
      destruct (l_add xs y) as [xs1| |]; cbn [bind].
      * destruct Hadd as (h1 & addrs1 & E1 & Hr1 & Hf1 & Hg1 & _). rewrite E1. cbn [bind].
        assert (Hb : forall c, In c (a :: ar) -> (c < length h)%nat).
        { intros c [->|Hin]; [apply nth_error_Some; congruence|eapply chain_bound; eauto]. }
        assert (Hsame : forall c, In c (a :: ar) -> nth_error h1 c = nth_error h c).
        { intros c Hin. apply Hf1; auto. }
        assert (Hd1 : forall c, In c (a :: ar) -> ~ In c (footprint lst addrs1)).
        { intros c Hin Hin'. apply Hg1 in Hin' as [Hin'|Hge]; [eapply Hd; eauto|].
          specialize (Hb c Hin). lia. }
        rewrite Hsame, Hn by (cbn; auto). cbn [bind].
        specialize (IH yr h1 lst addrs1 xs1 (n_next n) k Hr1).
        assert (Hc1 : chain h1 (n_next n) ar yr)
          by (eapply chain_ext; [|exact Hc]; intros; apply Hsame; cbn; auto).
        specialize (IH Hc1 ltac:(intros; apply Hd1; cbn; auto) ltac:(lia)).
        destruct (c_add_all xs1 yr) as [xs2| |]; auto.
        destruct IH as (h2 & addrs2 & E2 & Hr2 & Hf2 & Hg2).
        exists h2, addrs2. split; auto. split; auto. split.
        -- eapply frame_trans; eauto.
        -- exact (grows_trans h h1 lst addrs addrs1 addrs2 (proj1 Hf1) Hg1 Hg2).
      * rewrite Hadd. reflexivity.
      * contradiction.
Qed.

Lemma c_add_all_filter ys : forall b xs',
  c_add_all (summary b) ys = Ok xs' ->
  xs' = summary (b ++ filter (fun l => negb (lines l =? 0)) ys).
Proof.
  induction ys as [|y r IH]; intros b xs' H; cbn in H |- *.
  - injection H as <-. rewrite app_nil_r. reflexivity.
  - apply bind_ok in H as (t & Ht & H). apply loc_total_inv in Ht. subst t.
    destruct (lines y =? 0); cbn [negb bind] in *; auto.
    apply bind_ok in H as (xs1 & H1 & H). apply l_add_summary in H1. subst xs1.
    apply IH in H. rewrite <- app_assoc in H. exact H.
Qed.

Definition op_fails (bags : list (list loc)) (op : loc_op) (w : ub) : Prop :=
  match op with
  | LNew => False
  | LAdd i l => exists b, nth_error bags i = Some b /\ l_add (summary b) l = Ub w
  | LAddList i j => exists b b', nth_error bags i = Some b /\ nth_error bags j = Some b' /\
      l_add_all (summary b) (summary b') = Ub w
  | LCompact i => exists b, nth_error bags i = Some b /\ c_add_all [] (summary b) = Ub w
  end.

Lemma loc_op_inv st bags op :
  loc_inv st bags ->
  match run_loc_op st op with
  | Ok st' => loc_inv st' (bag_op bags op)
  | Ub w => op_fails bags op w
  | OutOfFuel => False
  end.
Proof.
  destruct st as [h ids]. intros Hinv. pose proof Hinv as (Hlen & A & Hrep & Hdis).
  assert (Hnone : forall i, nth_error ids i = None -> nth_error bags i = None)
    by (intros i Hi; apply nth_error_None in Hi; apply nth_error_None; lia).
  assert (Hsome : forall i a, nth_error ids i = Some a -> exists b, nth_error bags i = Some b).
  { intros i a Hi. destruct (nth_error bags i) as [b|] eqn:Eb; eauto.
    apply nth_error_None in Eb. assert (nth_error ids i <> None) by congruence.
    apply nth_error_Some in H. lia. }
  destruct op as [|i l|i j|i]; cbn [run_loc_op bag_op op_fails].
  - cbn [node_new]. apply loc_inv_new; auto.
  - destruct (nth_error ids i) as [lst|] eqn:Ei; [|rewrite (Hnone _ Ei); auto].
    destruct (Hsome _ _ Ei) as [b Eb]. rewrite Eb.
    pose proof (add_loc_rep h lst (A i) (summary b) l (Hrep _ _ _ Ei Eb)) as Hadd.
    destruct (l_add (summary b) l) as [xs'|w|] eqn:El.
    + destruct Hadd as (h' & A' & E & Hr' & Hf & Hg & _). rewrite E. cbn [bind].
      apply l_add_summary in El. subst xs'.
      eapply loc_inv_step; eauto.
    + rewrite Hadd. cbn [bind]. eauto.
    + contradiction.
  - destruct (nth_error ids i) as [lst|] eqn:Ei; [|rewrite (Hnone _ Ei); auto].
    destruct (nth_error ids j) as [lst2|] eqn:Ej.
    2:{ rewrite (Hnone _ Ej). destruct (nth_error bags i); auto. }
    destruct (Hsome _ _ Ei) as [b Eb]. rewrite Eb.
    destruct (Hsome _ _ Ej) as [b2 Eb2]. rewrite Eb2.
    pose proof (Hrep _ _ _ Ei Eb) as Hri. pose proof (Hrep _ _ _ Ej Eb2) as Hrj.
    unfold loc_list_add_loc_list.
    destruct (rep_head _ _ _ _ Hrj) as (n & Hn & Hh & Hc).
    cbn [deref]. rewrite Hn. cbn [bind].
    destruct (rep_fuel _ _ _ _ Hrj) as [Hfu Hln].
    destruct (Nat.eq_dec i j) as [<-|Hij].
    + replace lst2 with lst in * by congruence. replace b2 with b in * by congruence.
      pose proof (add_loop_self (summary b) [] h lst (A i) (S (length h)) Hri
                   (summary_nodup b) ltac:(lia)) as Hs.
      cbn [app length] in Hs.
      replace (n_head n) with (nth_error (A i) 0).
      2:{ rewrite Hh. destruct (A i) as [|c cr] eqn:EA; auto.
          destruct Hri as (? & ? & Hx). destruct Hx as (-> & _). reflexivity. }
      destruct (l_add_all (summary b) (summary b)) as [xs'|w|] eqn:El.
      * destruct Hs as (h' & E & Hr' & Hf). rewrite E. cbn [bind].
        apply l_add_all_summary in El. rewrite summary_app_summary in El. subst xs'.
        eapply loc_inv_step; eauto. apply grows_refl.
      * rewrite Hs. cbn [bind]. exists b, b. auto.
      * contradiction.
    + assert (Hd : forall a, In a (A j) -> ~ In a (footprint lst (A i))).
      { intros a Ha. eapply (Hdis j i); eauto. destruct (A j); [contradiction|exact Ha]. }
      pose proof (add_loop_other (A j) (summary b2) h lst (A i) (summary b) (n_head n)
                   (S (length h)) Hri Hc Hd ltac:(lia)) as Hs.
      destruct (l_add_all (summary b) (summary b2)) as [xs'|w|] eqn:El.
      * destruct Hs as (h' & A' & E & Hr' & Hf & Hg). rewrite E. cbn [bind].
        apply l_add_all_summary in El. rewrite summary_app_summary in El. subst xs'.
        eapply loc_inv_step; eauto.
      * rewrite Hs. cbn [bind]. exists b, b2. auto.
      * contradiction.
  - destruct (nth_error ids i) as [lst|] eqn:Ei; [|rewrite (Hnone _ Ei); auto].
    destruct (Hsome _ _ Ei) as [b Eb]. rewrite Eb.
    pose proof (loc_inv_new _ _ _ Hinv) as Hinv1.
    pose proof (Hrep _ _ _ Ei Eb) as Hri.
    unfold loc_list_new_compact. cbn [deref node_new].
    destruct (rep_head _ _ _ _ Hri) as (n & Hn & Hh & Hc). rewrite Hn. cbn [bind].
    destruct (rep_fuel _ _ _ _ Hri) as [Hfu Hln].
    set (h1 := h ++ [mkNode None None None None]) in *.
    assert (Hc1 : chain h1 (n_head n) (A i) (summary b)).
    { eapply chain_ext; [|exact Hc]. intros a Ha. apply nth_error_app1.
      eapply chain_bound; eauto. }
    assert (Hd : forall a, In a (A i) -> ~ In a (footprint (length h) [])).
    { intros a Ha [<-|[]]. pose proof (chain_bound _ _ _ _ _ Hc Ha). lia. }
    pose proof (compact_loop_other (A i) (summary b) h1 (length h) [] [] (n_head n)
                   (S (length h)) (rep_new h) Hc1 Hd ltac:(lia)) as Hs.
    destruct (c_add_all [] (summary b)) as [xs'|w|] eqn:El.
    + destruct Hs as (h' & A' & E & Hr' & Hf & Hg). rewrite E. cbn [bind].
      apply (c_add_all_filter (summary b) [] xs') in El. cbn [app] in El. subst xs'.
      set (b' := filter _ _) in *.
      replace (bags ++ [b']) with (upd (bags ++ [[]]) (length ids) b')
        by (rewrite Hlen; apply upd_app).
      destruct Hinv1 as (Hlen1 & A1 & Hrep1 & Hdis1).
      assert (Hnew : nth_error (ids ++ [length h]) (length ids) = Some (length h))
        by apply nth_error_mid.
      assert (HA1 : footprint (length h) (A1 (length ids)) = [length h]).
      { assert (Hr1 : rep h1 (length h) (A1 (length ids)) (summary [])).
        { apply (Hrep1 (length ids)); auto. rewrite Hlen. apply nth_error_mid. }
        destruct (rep_fuel _ _ _ _ Hr1) as [_ Hl]. cbn in Hl.
        destruct (A1 (length ids)); [reflexivity|discriminate]. }
      apply (loc_inv_step h1 (ids ++ [length h]) (bags ++ [[]]) A1 (length ids) (length h) b' h' A'); auto.
      * rewrite HA1. exact Hf.
      * intros a Ha. rewrite HA1. apply (Hg a Ha).
    + rewrite Hs. cbn [bind]. eauto.
    + contradiction.
Qed.

Lemma run_loc_ops_inv ops : forall st bags,
  loc_inv st bags ->
  match run_loc_ops st ops with
  | Ok st' => loc_inv st' (fold_left bag_op ops bags)
  | Ub w => exists ops1 op ops2, ops = ops1 ++ op :: ops2 /\
              op_fails (fold_left bag_op ops1 bags) op w
  | OutOfFuel => False
  end.
Proof.
  induction ops as [|op r IH]; intros st bags Hinv; cbn; auto.
  pose proof (loc_op_inv st bags op Hinv) as H.
  destruct (run_loc_op st op) as [st'|w|]; cbn [bind]; auto.
  - specialize (IH st' _ H). destruct (run_loc_ops st' r); auto.
    destruct IH as (o1 & o & o2 & -> & Hf). exists (op :: o1), o, o2. auto.
  - exists [], op, r. auto.
Qed.

Lemma loc_inv_init : loc_inv ([], []) [].
Proof.
  split; auto. exists (fun _ => []). split.
  - intros i lst bag H. destruct i; discriminate.
  - intros i j li lj a _ H. destruct i; discriminate.
Qed.

(** * Observations *)
Lemma items_loop_chain {A} (h : heap A) addrs : forall xs p fuel,
  chain h p addrs xs -> (length addrs <= fuel)%nat -> items_loop fuel h p = Ok xs.
Proof.
  induction addrs as [|a ar IH]; intros xs p fuel Hc Hf.
  - destruct xs; cbn in Hc; [|tauto]. subst. destruct fuel; reflexivity.
  - destruct xs as [|x xr]; cbn in Hc; [tauto|].
    destruct Hc as (-> & n & Hn & Hv & Hc).
    destruct fuel as [|k]; cbn in Hf; [lia|].
    cbn. rewrite Hn. cbn. unfold val_of. rewrite Hv. cbn.
    rewrite (IH xr) by (auto; lia). reflexivity.
Qed.

Lemma list_items_rep {A} (h : heap A) lst addrs xs :
  rep h lst addrs xs -> list_items h lst = Ok xs.
Proof.
  intros Hr. pose proof (rep_fuel _ _ _ _ Hr) as [Hf _].
  destruct (rep_head _ _ _ _ Hr) as (n & Hn & _ & Hc).
  unfold list_items. cbn [deref]. rewrite Hn. cbn [bind].
  eapply items_loop_chain; eauto; lia.
Qed.

Lemma find_summary b g : find (fun x => String.eqb (l_lang x) g) (summary b) = lookup b g.
Proof.
  unfold lookup, summary.
  assert (H : forall gs, find (fun x => String.eqb (l_lang x) g) (map (sum_loc b) gs) =
              if existsb (fun y => String.eqb y g) gs then Some (sum_loc b g) else None).
  { induction gs as [|y r IH]; cbn; auto. destruct (String.eqb_spec y g); cbn; auto.
    subst; auto. }
  rewrite H.
  replace (existsb (fun y => String.eqb y g) (first_occ (map l_lang b)))
    with (existsb (fun l => String.eqb (l_lang l) g) b); auto.
  apply eq_true_iff_eq. rewrite !existsb_exists. split.
  - intros (l & Hl & E). exists (l_lang l). rewrite in_first_occ. split; auto using in_map.
  - intros (y & Hy & E). rewrite in_first_occ in Hy. apply in_map_iff in Hy as (l & <- & Hl).
    eauto.
Qed.

(** sums *)
Lemma sum_pure_inv {A} (f : A -> res Z) (g : A -> Z) xs :
  (forall x v, f x = Ok v -> v = g x) ->
  forall acc s, sum_pure f xs acc = Ok s -> s = acc + zsum (map g xs).
Proof.
  intros Hfg. induction xs as [|x r IH]; cbn; intros acc s H.
  - injection H as <-. unfold zsum. cbn. lia.
  - apply bind_ok in H as (v & Hv & H). apply bind_ok in H as (t & Ht & H).
    apply ckint_inv in Ht as [-> _]. apply IH in H. apply Hfg in Hv. subst v.
    unfold zsum in *. cbn. lia.
Qed.

Lemma zsum_nonneg l : (forall x, In x l -> 0 <= x) -> 0 <= zsum l.
Proof.
  induction l as [|x r IH]; intros H; unfold zsum in *; cbn; [lia|].
  assert (0 <= x) by (apply H; cbn; auto).
  assert (0 <= fold_right Z.add 0 r) by (apply IH; intros; apply H; cbn; auto). lia.
Qed.

Lemma sum_pure_ok {A} (f : A -> res Z) (g : A -> Z) xs :
  forall acc, 0 <= acc ->
  (forall x, In x xs -> f x = Ok (g x) /\ 0 <= g x) ->
  acc + zsum (map g xs) <= int_max ->
  sum_pure f xs acc = Ok (acc + zsum (map g xs)).
Proof.
  induction xs as [|x r IH]; intros acc Ha H Hs; cbn.
  - unfold zsum. cbn. rewrite Z.add_0_r. reflexivity.
  - destruct (H x) as [Hx Hx0]; [cbn; auto|]. rewrite Hx. cbn [bind].
    assert (0 <= zsum (map g r)).
    { apply zsum_nonneg. intros y Hy. apply in_map_iff in Hy as (z & <- & Hz).
      apply H. cbn; auto. }
    cbn [map] in Hs. change (zsum (g x :: map g r)) with (g x + zsum (map g r)) in *.
    rewrite ckint_ok by (unfold int_min, int_max in *; lia).
    cbn [bind]. rewrite IH; [f_equal; unfold zsum; lia|lia| |lia].
    intros y Hy. apply H. cbn; auto.
Qed.

(** total of a field over the summary = total over the bag *)
Lemma zsum_filter_split {A} (f : A -> Z) (p : A -> bool) l :
  zsum (map f l) = zsum (map f (filter p l)) + zsum (map f (filter (fun x => negb (p x)) l)).
Proof.
  unfold zsum. induction l as [|x r IH]; cbn; [reflexivity|].
  destruct (p x); cbn; lia.
Qed.

Lemma zsum_by_langs (f : loc -> Z) b : forall gs,
  NoDup gs -> (forall l, In l b -> In (l_lang l) gs) ->
  zsum (map (fun g => sum_by f g b) gs) = zsum (map f b).
Proof.
  intros gs. revert b. induction gs as [|g r IH]; intros b Hnd Hin.
  - destruct b as [|l b]; [reflexivity|]. destruct (Hin l). cbn; auto.
  - apply NoDup_cons_iff in Hnd as [Hni Hnd].
    rewrite (zsum_filter_split f (fun l => String.eqb (l_lang l) g) b).
    cbn [map]. change (zsum (?a :: ?b)) with (a + zsum b). unfold sum_by at 1. f_equal.
    rewrite <- (IH (filter (fun l => negb (String.eqb (l_lang l) g)) b)); auto.
    + f_equal. apply map_ext_in. intros g' Hg'. unfold sum_by. rewrite filter_filter.
      f_equal. f_equal. apply filter_ext. intros l.
      destruct (String.eqb_spec (l_lang l) g'), (String.eqb_spec (l_lang l) g); cbn; auto.
      congruence.
    + intros l Hl. apply filter_In in Hl as [Hl E].
      destruct (Hin l Hl) as [->|?]; auto. rewrite String.eqb_refl in E. discriminate.
Qed.

Lemma zsum_summary f b :
  (forall b g, f (sum_loc b g) = sum_by f g b) -> zsum (map f (summary b)) = zsum (map f b).
Proof.
  intros Hf. unfold summary. rewrite map_map. 
  rewrite (map_ext _ (fun g => sum_by f g b)) by (intros; apply Hf).
  apply zsum_by_langs; [apply nodup_first_occ|].
  intros l Hl. apply in_first_occ. apply in_map. auto.
Qed.

Lemma sum_by_lines g b : sum_by lines g b = sum_by l_code g b + sum_by l_comments g b + sum_by l_blanks g b.
Proof.
  induction b as [|l b IH]; [reflexivity|]. rewrite !sum_by_cons, IH.
  destruct (String.eqb _ _); unfold lines; lia.
Qed.

Lemma lines_sum_loc b g : lines (sum_loc b g) = sum_by lines g b.
Proof. rewrite sum_by_lines. reflexivity. Qed.

(** * Absence of overflow *)
Lemma zsum_perm a b : Permutation a b -> zsum a = zsum b.
Proof. unfold zsum. induction 1; cbn; lia. Qed.

Lemma sum_by_le (f : loc -> Z) g b :
  (forall l, In l b -> 0 <= f l) -> 0 <= sum_by f g b <= zsum (map f b).
Proof.
  induction b as [|l b IH]; intros H; [cbn; unfold sum_by, zsum; cbn; lia|].
  rewrite sum_by_cons. cbn [map]. change (zsum (f l :: map f b)) with (f l + zsum (map f b)).
  assert (0 <= f l) by (apply H; cbn; auto).
  assert (0 <= sum_by f g b <= zsum (map f b)) by (apply IH; intros; apply H; cbn; auto).
  destruct (String.eqb _ _); lia.
Qed.

Lemma nonneg_fields l : loc_nonneg l ->
  0 <= l_code l /\ 0 <= l_comments l /\ 0 <= l_blanks l /\ 0 <= l_files l /\ 0 <= lines l /\
  l_code l <= lines l /\ l_comments l <= lines l /\ l_blanks l <= lines l.
Proof. unfold loc_nonneg, lines. lia. Qed.

Lemma sum_by_mono (f f' : loc -> Z) g b :
  (forall l, In l b -> f l <= f' l) -> sum_by f g b <= sum_by f' g b.
Proof.
  induction b as [|l b IH]; intros H; [unfold sum_by; cbn; lia|].
  rewrite !sum_by_cons. assert (f l <= f' l) by (apply H; cbn; auto).
  assert (sum_by f g b <= sum_by f' g b) by (apply IH; intros; apply H; cbn; auto).
  destruct (String.eqb _ _); lia.
Qed.

Lemma bag_ranges b g :
  Forall loc_nonneg b -> bag_fits b ->
  0 <= sum_by l_code g b <= int_max /\ 0 <= sum_by l_comments g b <= int_max /\
  0 <= sum_by l_blanks g b <= int_max /\ 0 <= sum_by l_files g b <= int_max /\
  0 <= sum_by lines g b <= int_max /\
  0 <= sum_by l_code g b + sum_by l_comments g b <= int_max.
Proof.
  intros Hnn [Hl Hf]. rewrite Forall_forall in Hnn.
  pose proof (sum_by_le l_files g b ltac:(intros; apply nonneg_fields; auto)).
  pose proof (sum_by_le lines g b ltac:(intros; apply nonneg_fields; auto)).
  pose proof (sum_by_le l_code g b ltac:(intros; apply nonneg_fields; auto)).
  pose proof (sum_by_le l_comments g b ltac:(intros; apply nonneg_fields; auto)).
  pose proof (sum_by_le l_blanks g b ltac:(intros; apply nonneg_fields; auto)).
  pose proof (sum_by_lines g b). lia.
Qed.

Lemma l_add_ok b l :
  Forall loc_nonneg (b ++ [l]) -> bag_fits (b ++ [l]) ->
  exists xs, l_add (summary b) l = Ok xs.
Proof.
  intros Hnn Hfit. unfold l_add.
  destruct (find_idx (l_lang l) (summary b)) as [k|] eqn:Ek; [|eauto].
  destruct (find_idx_nth _ _ _ Ek) as (x & Hx & Hl). rewrite Hx.
  assert (Hxv : x = sum_loc b (l_lang l)).
  { unfold summary in Hx. rewrite nth_error_map in Hx.
    destruct (nth_error _ k) as [g|]; [|discriminate]. cbn in Hx. injection Hx as <-.
    cbn in Hl. congruence. }
  subst x. unfold loc_add_loc. cbn [l_lang sum_loc]. rewrite String.eqb_refl.
  cbn [sum_loc l_code l_comments l_blanks l_files].
  destruct (bag_ranges (b ++ [l]) (l_lang l) Hnn Hfit) as (R1 & R2 & R3 & R4 & _).
  rewrite !sum_by_app, !sum_by_cons, String.eqb_refl in *.
  unfold sum_by at 2 in R1. unfold sum_by at 2 in R2.
  unfold sum_by at 2 in R3. unfold sum_by at 2 in R4. cbn in R1, R2, R3, R4.
  unfold int_min, int_max in *.
  rewrite !ckint_ok by (unfold int_min, int_max; lia). cbn. eauto.
Qed.

Lemma bag_fits_app_l a b :
  Forall loc_nonneg b -> bag_fits (a ++ b) -> bag_fits a.
Proof.
  unfold bag_fits. rewrite !map_app, !zsum_app. intros Hb [H1 H2].
  rewrite Forall_forall in Hb.
  assert (0 <= zsum (map lines b)).
  { apply zsum_nonneg. intros x Hx. apply in_map_iff in Hx as (l & <- & Hl).
    apply nonneg_fields; auto. }
  assert (0 <= zsum (map l_files b)).
  { apply zsum_nonneg. intros x Hx. apply in_map_iff in Hx as (l & <- & Hl).
    apply nonneg_fields; auto. }
  lia.
Qed.

Lemma l_add_all_ok ys : forall b,
  Forall loc_nonneg (b ++ ys) -> bag_fits (b ++ ys) ->
  exists xs, l_add_all (summary b) ys = Ok xs.
Proof.
  induction ys as [|y r IH]; intros b Hnn Hfit; cbn; [eauto|].
  replace (b ++ y :: r) with ((b ++ [y]) ++ r) in * by (rewrite <- app_assoc; reflexivity).
  pose proof Hnn as Hnn'. apply Forall_app in Hnn' as [Hn1 Hn2].
  destruct (l_add_ok b y Hn1 (bag_fits_app_l _ _ Hn2 Hfit)) as (xs1 & E1).
  rewrite E1. cbn [bind]. apply l_add_summary in E1. subst xs1.
  apply IH; auto.
Qed.

Lemma nonneg_summary b : Forall loc_nonneg b -> Forall loc_nonneg (summary b).
Proof.
  intros H. rewrite Forall_forall in *. intros l Hl. unfold summary in Hl.
  apply in_map_iff in Hl as (g & <- & _). unfold loc_nonneg. cbn.
  repeat split; apply sum_by_le; intros; apply nonneg_fields; auto.
Qed.

Lemma bag_fits_summary a b : bag_fits (a ++ b) -> bag_fits (a ++ summary b).
Proof.
  unfold bag_fits. rewrite !map_app, !zsum_app.
  rewrite (zsum_summary lines b) by (intros; apply lines_sum_loc).
  rewrite (zsum_summary l_files b) by reflexivity. auto.
Qed.

Lemma c_add_all_ok ys : forall b,
  Forall loc_nonneg (b ++ ys) -> bag_fits (b ++ ys) ->
  exists xs, c_add_all (summary b) ys = Ok xs.
Proof.
  induction ys as [|y r IH]; intros b Hnn Hfit; cbn; [eauto|].
  assert (Hy : loc_nonneg y).
  { rewrite Forall_forall in Hnn. apply Hnn. apply in_or_app. cbn; auto. }
  assert (Hly : lines y <= int_max).
  { destruct Hfit as [Hl _]. rewrite map_app, zsum_app in Hl. cbn [map] in Hl.
    change (zsum (lines y :: map lines r)) with (lines y + zsum (map lines r)) in Hl.
    rewrite Forall_forall in Hnn.
    assert (0 <= zsum (map lines b)).
    { apply zsum_nonneg. intros x Hx. apply in_map_iff in Hx as (l & <- & Hl').
      apply nonneg_fields. apply Hnn. apply in_or_app; auto. }
    assert (0 <= zsum (map lines r)).
    { apply zsum_nonneg. intros x Hx. apply in_map_iff in Hx as (l & <- & Hl').
      apply nonneg_fields. apply Hnn. apply in_or_app; cbn; auto. }
    lia. }
  assert (Ht : loc_total y = Ok (lines y)).
  { unfold loc_total. destruct (nonneg_fields y Hy) as (?&?&?&?&?&?&?&?).
    unfold lines in *.
    rewrite ckint_ok by (unfold int_min; lia). cbn [bind].
    apply ckint_ok. unfold int_min; lia. }
  rewrite Ht. cbn [bind].
  replace (b ++ y :: r) with ((b ++ [y]) ++ r) in * by (rewrite <- app_assoc; reflexivity).
  pose proof Hnn as Hnn'. apply Forall_app in Hnn' as [Hn1 Hn2].
  destruct (lines y =? 0); cbn [bind].
  - apply IH.
    + apply Forall_app in Hn1 as [Hb _]. apply Forall_app; auto.
    + revert Hfit. unfold bag_fits. rewrite !map_app, !zsum_app.
      unfold zsum at 2 5. cbn. destruct (nonneg_fields y Hy) as (?&?&?&?&?&?&?&?). lia.
  - destruct (l_add_ok b y Hn1 (bag_fits_app_l _ _ Hn2 Hfit)) as (xs1 & E1).
    rewrite E1. cbn [bind]. apply l_add_summary in E1. subst xs1.
    apply IH; auto.
Qed.

(** bags only grow *)
Definition bags_le (a b : list (list loc)) : Prop :=
  forall i x, nth_error a i = Some x -> exists y, nth_error b i = Some (x ++ y) /\
     (Forall loc_nonneg x -> Forall loc_nonneg y).

Definition bags_nonneg (bags : list (list loc)) : Prop := Forall (Forall loc_nonneg) bags.

Lemma bag_op_nonneg bags op :
  bags_nonneg bags -> op_nonneg op -> bags_nonneg (bag_op bags op).
Proof.
  unfold bags_nonneg. intros Hb Ho. rewrite Forall_forall in *.
  assert (Hn : forall i b, nth_error bags i = Some b -> Forall loc_nonneg b)
    by (intros i b Hi; apply Hb; eapply nth_error_In; eauto).
  assert (Hu : forall i b', Forall loc_nonneg b' -> forall x, In x (upd bags i b') -> Forall loc_nonneg x).
  { intros i b' Hb' x Hx. apply In_nth_error in Hx as [k Hk].
    destruct (Nat.eq_dec i k) as [->|Hne].
    - destruct (Nat.lt_ge_cases k (length bags)).
      + rewrite nth_error_upd_eq in Hk by auto. injection Hk as <-. auto.
      + assert (nth_error (upd bags k b') k = None) by (apply nth_error_None; rewrite upd_length; auto).
        congruence.
    - rewrite nth_error_upd_ne in Hk by auto. eauto. }
  destruct op as [|i l|i j|i]; cbn [bag_op].
  - intros x Hx. apply in_app_or in Hx as [Hx|[<-|[]]]; auto.
  - destruct (nth_error bags i) as [b|] eqn:E; auto. apply Hu. apply Forall_app; split; eauto.
  - destruct (nth_error bags i) as [b|] eqn:E; auto.
    destruct (nth_error bags j) as [b2|] eqn:E2; auto. apply Hu. apply Forall_app; split; eauto.
  - destruct (nth_error bags i) as [b|] eqn:E; auto.
    intros x Hx. apply in_app_or in Hx as [Hx|[<-|[]]]; auto.
    apply Forall_forall. intros l Hl. apply filter_In in Hl as [Hl _].
    pose proof (nonneg_summary b (Hn _ _ E)) as Hs. rewrite Forall_forall in Hs. auto.
Qed.

Lemma bag_op_prefix bags op i x :
  nth_error bags i = Some x -> exists y, nth_error (bag_op bags op) i = Some (x ++ y).
Proof.
  intros Hi.
  assert (Hlt : (i < length bags)%nat) by (apply nth_error_Some; congruence).
  assert (Hkeep : exists y, nth_error bags i = Some (x ++ y)) by (exists []; rewrite app_nil_r; auto).
  assert (Happ : forall z, exists y, nth_error (bags ++ z) i = Some (x ++ y))
    by (intros z; rewrite nth_error_app1 by auto; auto).
  assert (Hupd : forall k b z, nth_error bags k = Some b ->
            exists y, nth_error (upd bags k (b ++ z)) i = Some (x ++ y)).
  { intros k b z Hk. destruct (Nat.eq_dec k i) as [->|Hne].
    - rewrite nth_error_upd_eq by auto. replace b with x by congruence. eauto.
    - rewrite nth_error_upd_ne by auto. auto. }
  destruct op as [|k l|k j|k]; cbn [bag_op]; auto.
  - destruct (nth_error bags k) eqn:E; auto.
  - destruct (nth_error bags k) eqn:E; auto. destruct (nth_error bags j); auto.
  - destruct (nth_error bags k) eqn:E; auto.
Qed.

Lemma fold_bag_nonneg ops : forall bags,
  bags_nonneg bags -> Forall op_nonneg ops -> bags_nonneg (fold_left bag_op ops bags).
Proof.
  induction ops as [|op r IH]; intros bags Hb Ho; cbn; auto.
  inversion Ho; subst. apply IH; auto. apply bag_op_nonneg; auto.
Qed.

Lemma fold_bag_prefix ops : forall bags i x,
  nth_error bags i = Some x -> exists y, nth_error (fold_left bag_op ops bags) i = Some (x ++ y).
Proof.
  induction ops as [|op r IH]; intros bags i x Hi; cbn.
  - exists []. rewrite app_nil_r. auto.
  - destruct (bag_op_prefix bags op i x Hi) as (y & Hy).
    destruct (IH _ _ _ Hy) as (z & Hz). exists (y ++ z). rewrite app_assoc. auto.
Qed.

Lemma loc_no_overflow_lemma ops :
  Forall op_nonneg ops -> Forall bag_fits (bags_of ops) ->
  exists st, run_loc_ops ([], []) ops = Ok st.
Proof.
  intros Hnn Hfit. pose proof (run_loc_ops_inv ops ([], []) [] loc_inv_init) as H.
  destruct (run_loc_ops ([], []) ops) as [st|w|]; [eauto| |contradiction].
  exfalso. destruct H as (o1 & op & o2 & -> & Hf).
  unfold bags_of in Hfit. rewrite fold_left_app in Hfit. cbn in Hfit.
  set (bags := fold_left bag_op o1 []) in *.
  apply Forall_app in Hnn as [Hn1 Hn2]. inversion Hn2 as [|? ? Hop Hn3]; subst.
  assert (Hbn : bags_nonneg bags) by (apply fold_bag_nonneg; auto; constructor).
  assert (Hbn' : bags_nonneg (bag_op bags op)) by (apply bag_op_nonneg; auto).
  assert (Hf' : forall i x, nth_error (bag_op bags op) i = Some x -> bag_fits x).
  { intros i x Hi. destruct (fold_bag_prefix o2 _ _ _ Hi) as (y & Hy).
    assert (Hxy : bag_fits (x ++ y)).
    { rewrite Forall_forall in Hfit. apply Hfit. eapply nth_error_In; eauto. }
    assert (Hall : bags_nonneg (fold_left bag_op o2 (bag_op bags op)))
      by (apply fold_bag_nonneg; auto).
    unfold bags_nonneg in Hall. rewrite Forall_forall in Hall.
    apply nth_error_In in Hy. apply Hall in Hy. apply Forall_app in Hy as [_ Hy].
    eapply bag_fits_app_l; eauto. }
  assert (Hb : forall i b, nth_error bags i = Some b -> Forall loc_nonneg b).
  { intros i b Hi. unfold bags_nonneg in Hbn. rewrite Forall_forall in Hbn.
    apply Hbn. eapply nth_error_In; eauto. }
  assert (Hfb : forall i b, nth_error bags i = Some b -> bag_fits b).
  { intros i b Hi. destruct (bag_op_prefix bags op i b Hi) as (y & Hy).
    pose proof (Hf' _ _ Hy) as Hxy. apply (bag_fits_app_l b y); auto.
    unfold bags_nonneg in Hbn'. rewrite Forall_forall in Hbn'.
    apply nth_error_In in Hy. apply Hbn' in Hy. apply Forall_app in Hy as [_ Hy]. auto. }
  destruct op as [|i l|i j|i]; cbn [op_fails bag_op] in *.
  - contradiction.
  - destruct Hf as (b & Eb & Hub). rewrite Eb in Hf', Hbn'.
    destruct (l_add_ok b l) as (xs & E); [| |congruence].
    + apply Forall_app. split; eauto.
    + apply (Hf' i). apply nth_error_upd_eq. apply nth_error_Some. congruence.
  - destruct Hf as (b & b' & Eb & Eb' & Hub). rewrite Eb, Eb' in Hf'.
    destruct (l_add_all_ok (summary b') b) as (xs & E); [| |congruence].
    + apply Forall_app. split; [eauto|]. apply nonneg_summary. eauto.
    + apply bag_fits_summary. apply (Hf' i). apply nth_error_upd_eq.
      apply nth_error_Some. congruence.
  - destruct Hf as (b & Eb & Hub).
    destruct (c_add_all_ok (summary b) []) as (xs & E).
    + apply nonneg_summary. eauto.
    + apply (bag_fits_summary [] b). cbn. eauto.
    + change (summary []) with (@nil loc) in E. congruence.
Qed.

(** * Main refinement *)
Lemma loc_history_lemma ops h ids :
  run_loc_ops ([], []) ops = Ok (h, ids) ->
  length ids = length (bags_of ops) /\
  forall i lst bag, nth_error ids i = Some lst -> nth_error (bags_of ops) i = Some bag ->
    exists addrs, rep h lst addrs (summary bag).
Proof.
  intros E. pose proof (run_loc_ops_inv ops ([], []) [] loc_inv_init) as H.
  rewrite E in H. destruct H as (Hlen & A & Hrep & _). split; auto.
  intros i lst bag Hi Hb. exists (A i). eauto.
Qed.

(** order independence *)
Lemma sum_by_perm f g a b : Permutation a b -> sum_by f g a = sum_by f g b.
Proof.
  intros H. induction H as [|x a b H IH|x y l|a b c H1 IH1 H2 IH2]; auto.
  - rewrite !sum_by_cons. lia.
  - rewrite !sum_by_cons. lia.
  - congruence.
Qed.

Lemma first_occ_idem_app a b : first_occ (first_occ a ++ first_occ b) = first_occ (a ++ b).
Proof.
  assert (Hid : forall l, first_occ (first_occ l) = first_occ l).
  { intros l. pose proof (nodup_first_occ l) as H. induction (first_occ l) as [|x r IH]; cbn; auto.
    inversion H as [|? ? Hx Hr]; subst. rewrite IH by auto. f_equal.
    clear -Hx. induction r as [|y r IH]; cbn; auto. cbn in Hx.
    destruct (String.eqb_spec x y) as [E|E]; [subst; tauto|]. cbn. f_equal. tauto. }
  rewrite !first_occ_app, !Hid. f_equal. apply filter_ext. intros y. unfold fresh. f_equal.
  apply eq_true_iff_eq. rewrite !existsb_exists. split; intros (z & H1 & H2); exists z; split; auto; apply in_first_occ; auto.
Qed.
