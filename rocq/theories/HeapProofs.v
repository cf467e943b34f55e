(** Representation of linked lists in the heap of [LocModel]: generic lemmas
    for LocList and LocDeltaList. *)
From Coq Require Import ZArith String List Bool Lia.
From Verif Require Import Base LocModel.
Import ListNotations.
Open Scope Z_scope.

Lemma last_In {A} (l : list A) d : l <> [] -> In (last l d) l.
Proof.
  intros H. destruct (exists_last H) as (l' & a & ->).
  rewrite last_last. apply in_or_app. cbn; auto.
Qed.

Section Rep.
  Context {A : Type}.
  Implicit Types (h : heap A) (xs : list A) (addrs : list nat).

  Fixpoint chain h (p : option nat) addrs xs : Prop :=
    match addrs, xs with
    | [], [] => p = None
    | a :: ar, x :: xr =>
      p = Some a /\
      exists n, nth_error h a = Some n /\ n_val n = Some x /\
                chain h (n_next n) ar xr
    | _, _ => False
    end.

  (** [rep h lst addrs xs]: the list object at address [lst] has the nodes
      [addrs] (the first of which is [lst] itself) holding the values [xs]. *)
  Definition rep h (lst : nat) addrs xs : Prop :=
    exists n, nth_error h lst = Some n /\
    match addrs with
    | [] => xs = [] /\ n_head n = None
    | a :: _ => a = lst /\ n_head n = Some lst /\
                n_tail n = Some (last addrs lst) /\
                chain h (Some lst) addrs xs /\ NoDup addrs
    end.

  (** the nodes that belong to a list *)
  Definition footprint (lst : nat) addrs : list nat :=
    match addrs with [] => [lst] | _ => addrs end.

  Lemma chain_length h p addrs xs : chain h p addrs xs -> length addrs = length xs.
  Proof.
    revert p xs; induction addrs as [|a ar IH]; destruct xs; cbn; try tauto.
    intros (-> & n & _ & _ & H). f_equal; eauto.
  Qed.

  Lemma chain_bound h p addrs xs a :
    chain h p addrs xs -> In a addrs -> (a < length h)%nat.
  Proof.
    revert p xs; induction addrs as [|b ar IH]; destruct xs; cbn; try tauto.
    intros (-> & n & Hn & _ & H) [->|Hin]; eauto.
    apply nth_error_Some. congruence.
  Qed.

  Lemma chain_ext h h' p addrs xs :
    (forall a, In a addrs -> nth_error h' a = nth_error h a) ->
    chain h p addrs xs -> chain h' p addrs xs.
  Proof.
    revert p xs; induction addrs as [|b ar IH]; destruct xs; cbn; try tauto.
    intros Hext (-> & n & Hn & Hv & H). split; auto.
    exists n. rewrite Hext by auto. repeat split; auto.
  Qed.

  Lemma nodup_bound_length (l : list nat) (n : nat) :
    NoDup l -> (forall a, In a l -> (a < n)%nat) -> (length l <= n)%nat.
  Proof.
    intros Hnd Hb.
    assert (Hinc : incl l (seq 0 n)) by (intros a Ha; apply in_seq; specialize (Hb a Ha); lia).
    pose proof (NoDup_incl_length Hnd Hinc) as H. rewrite seq_length in H. exact H.
  Qed.

  Lemma rep_fuel h lst addrs xs :
    rep h lst addrs xs -> (length addrs <= length h)%nat /\ length addrs = length xs.
  Proof.
    intros (n & Hn & H). destruct addrs as [|a ar].
    - destruct H as [-> _]; cbn; split; lia.
    - destruct H as (_ & _ & _ & Hc & Hnd).
      split; [apply nodup_bound_length; auto; intros; eapply chain_bound; eauto
             |eapply chain_length; eauto].
  Qed.

  Lemma rep_footprint_bound h lst addrs xs a :
    rep h lst addrs xs -> In a (footprint lst addrs) -> (a < length h)%nat.
  Proof.
    intros (n & Hn & H). destruct addrs as [|b ar]; cbn [footprint].
    - intros [<-|[]]. apply nth_error_Some; congruence.
    - destruct H as (_ & _ & _ & Hc & _). intros; eapply chain_bound; eauto.
  Qed.

  Lemma rep_footprint_self h lst addrs xs :
    rep h lst addrs xs -> In lst (footprint lst addrs).
  Proof.
    intros (n & Hn & H). destruct addrs; cbn; [auto|].
    destruct H as (-> & _); auto.
  Qed.

  Lemma rep_ext h h' lst addrs xs :
    (forall a, In a (footprint lst addrs) -> nth_error h' a = nth_error h a) ->
    rep h lst addrs xs -> rep h' lst addrs xs.
  Proof.
    intros Hext Hr. pose proof (rep_footprint_self _ _ _ _ Hr) as Hs.
    destruct Hr as (n & Hn & H).
    exists n. rewrite Hext by auto. split; auto.
    destruct addrs as [|b ar]; auto.
    destruct H as (? & ? & ? & Hc & ?). repeat split; auto.
    eapply chain_ext; [|eauto]. exact Hext.
  Qed.

  Lemma rep_head h lst addrs xs :
    rep h lst addrs xs ->
    exists n, nth_error h lst = Some n /\
      n_head n = match addrs with [] => None | _ => Some lst end /\
      chain h (n_head n) addrs xs.
  Proof.
    intros (n & Hn & H). exists n; split; auto.
    destruct addrs as [|b ar].
    - destruct H as [-> Hh]. rewrite Hh. cbn. auto.
    - destruct H as (-> & Hh & _ & Hc & _). rewrite Hh. auto.
  Qed.

  (** ** Reading loops *)
  Fixpoint sum_pure (f : A -> res Z) xs (acc : Z) : res Z :=
    match xs with
    | [] => Ok acc
    | x :: r => v <- f x ;; s <- ckint (acc + v) ;; sum_pure f r s
    end.

  Lemma sum_loop_chain f h addrs : forall xs p fuel acc,
    chain h p addrs xs -> (length addrs <= fuel)%nat ->
    sum_loop fuel f h p acc = sum_pure f xs acc.
  Proof.
    induction addrs as [|a ar IH]; intros xs p fuel acc Hc Hf.
    - destruct xs; cbn in Hc; [|tauto]. subst. destruct fuel; reflexivity.
    - destruct xs as [|x xr]; cbn in Hc; [tauto|].
      destruct Hc as (-> & n & Hn & Hv & Hc).
      destruct fuel as [|k]; cbn in Hf; [lia|].
      cbn. rewrite Hn. cbn. unfold val_of. rewrite Hv. cbn.
      destruct (f x); cbn; auto. destruct (ckint _); cbn; auto.
      apply IH; auto; lia.
  Qed.

  Lemma sum_list_rep f h lst addrs xs :
    rep h lst addrs xs -> sum_list f h lst = sum_pure f xs 0.
  Proof.
    intros Hr. pose proof (rep_fuel _ _ _ _ Hr) as [Hf _].
    destruct (rep_head _ _ _ _ Hr) as (n & Hn & _ & Hc).
    unfold sum_list. cbn [deref]. rewrite Hn. cbn [bind].
    eapply sum_loop_chain; eauto; lia.
  Qed.

  Lemma get_loop_chain (lang_of : A -> string) h addrs : forall xs p fuel g,
    chain h p addrs xs -> (length addrs <= fuel)%nat ->
    get_loop fuel lang_of h p g =
      Ok (find (fun x => String.eqb (lang_of x) g) xs).
  Proof.
    induction addrs as [|a ar IH]; intros xs p fuel g Hc Hf.
    - destruct xs; cbn in Hc; [|tauto]. subst. destruct fuel; reflexivity.
    - destruct xs as [|x xr]; cbn in Hc; [tauto|].
      destruct Hc as (-> & n & Hn & Hv & Hc).
      destruct fuel as [|k]; cbn in Hf; [lia|].
      cbn. rewrite Hn. cbn. unfold val_of. rewrite Hv. cbn.
      destruct (String.eqb _ _); auto.
      apply IH; auto; lia.
  Qed.

  (** ** Writes *)
  Lemma rep_new h :
    rep (fst (node_new h)) (length h) [] [].
  Proof.
    exists (mkNode None None None None). cbn. split; auto.
    rewrite nth_error_app2 by lia. rewrite Nat.sub_diag. reflexivity.
  Qed.

  Lemma set_val_eq h a n v :
    nth_error h a = Some n ->
    set_val h (Some a) v = Ok (upd h a (mkNode (Some v) (n_next n) (n_head n) (n_tail n))).
  Proof. intros H. unfold set_val. cbn. rewrite H. reflexivity. Qed.

  Lemma set_next_eq h a n q :
    nth_error h a = Some n ->
    set_next h (Some a) q = Ok (upd h a (mkNode (n_val n) q (n_head n) (n_tail n))).
  Proof. intros H. unfold set_next. cbn. rewrite H. reflexivity. Qed.

  Lemma set_head_eq h a n q :
    nth_error h a = Some n ->
    set_head h (Some a) q = Ok (upd h a (mkNode (n_val n) (n_next n) q (n_tail n))).
  Proof. intros H. unfold set_head. cbn. rewrite H. reflexivity. Qed.

  Lemma set_tail_eq h a n q :
    nth_error h a = Some n ->
    set_tail h (Some a) q = Ok (upd h a (mkNode (n_val n) (n_next n) (n_head n) q)).
  Proof. intros H. unfold set_tail. cbn. rewrite H. reflexivity. Qed.

  (** frame condition of a write that only touches the list [lst] and fresh
      nodes *)
  Definition frame h h' (fp : list nat) : Prop :=
    (length h <= length h')%nat /\
    forall a, (a < length h)%nat -> ~ In a fp -> nth_error h' a = nth_error h a.

  (** First insertion into an empty list. *)
  Lemma rep_first h lst x :
    rep h lst [] [] ->
    exists h',
      (h1 <- set_head h (Some lst) (Some lst) ;;
       h2 <- set_tail h1 (Some lst) (Some lst) ;;
       h3 <- set_val h2 (Some lst) x ;;
       set_next h3 (Some lst) None) = Ok h' /\
      rep h' lst [lst] [x] /\ frame h h' [lst] /\ length h' = length h.
  Proof.
    intros (n & Hn & _ & Hh).
    assert (Hb : (lst < length h)%nat) by (apply nth_error_Some; congruence).
    rewrite (set_head_eq _ _ _ _ Hn). cbn [bind].
    erewrite set_tail_eq by (apply nth_error_upd_eq; auto). cbn [bind].
    erewrite set_val_eq by (apply nth_error_upd_eq; rewrite upd_length; auto). cbn [bind].
    erewrite set_next_eq by (apply nth_error_upd_eq; rewrite !upd_length; auto).
    eexists; split; [reflexivity|]. cbn.
    split; [|split].
    - exists (mkNode (Some x) None (Some lst) (Some lst)).
      assert (E : nth_error (upd (upd (upd (upd h lst
         {| n_val := n_val n; n_next := n_next n; n_head := Some lst; n_tail := n_tail n |}) lst
         {| n_val := n_val n; n_next := n_next n; n_head := Some lst; n_tail := Some lst |}) lst
         {| n_val := Some x; n_next := n_next n; n_head := Some lst; n_tail := Some lst |}) lst
         {| n_val := Some x; n_next := None; n_head := Some lst; n_tail := Some lst |}) lst
         = Some (mkNode (Some x) None (Some lst) (Some lst)))
        by (apply nth_error_upd_eq; rewrite !upd_length; auto).
      split; auto. split; auto. split; auto. split; auto. split.
      + cbn. split; auto. eexists; split; [exact E|]. cbn. auto.
      + repeat constructor. auto.
    - split; [rewrite !upd_length; lia|].
      intros a Ha Hni. rewrite !nth_error_upd_ne; auto; intros ->; apply Hni; cbn; auto.
    - rewrite !upd_length. auto.
  Qed.

  (** In-place modification of the [k]-th value. *)
  Lemma chain_nth h p addrs xs k a :
    chain h p addrs xs -> nth_error addrs k = Some a ->
    exists n x, nth_error h a = Some n /\ n_val n = Some x /\ nth_error xs k = Some x /\
      n_next n = nth_error addrs (S k).
  Proof.
    revert p xs k; induction addrs as [|b ar IH]; destruct xs as [|x xr]; cbn; try tauto.
    - intros k Hc Hk. destruct k; discriminate.
    - intros k (-> & n & Hn & Hv & Hc) Hk. destruct k as [|k]; cbn in Hk.
      + injection Hk as <-. exists n, x. repeat split; auto.
        destruct ar as [|c cr], xr; cbn in Hc |- *; tauto.
      + destruct (IH _ _ _ Hc Hk) as (m & y & ? & ? & ? & ?). exists m, y. auto.
  Qed.

  Lemma chain_upd h p addrs xs k a n v :
    chain h p addrs xs -> NoDup addrs -> nth_error addrs k = Some a ->
    nth_error h a = Some n ->
    chain (upd h a (mkNode (Some v) (n_next n) (n_head n) (n_tail n))) p addrs (upd xs k v).
  Proof.
    revert p xs k; induction addrs as [|b ar IH]; destruct xs as [|x xr]; cbn; try tauto.
    intros k (-> & m & Hm & Hv & Hc) Hnd Hk Hn.
      apply NoDup_cons_iff in Hnd as [Hni Hnd]. destruct k as [|k]; cbn in Hk.
      - injection Hk as <-. split; auto.
        eexists; split; [apply nth_error_upd_eq; apply nth_error_Some; congruence|].
        cbn. split; auto. replace m with n in * by congruence.
        eapply chain_ext; [|eauto]. intros c Hc'. apply nth_error_upd_ne.
        intros ->; tauto.
      - assert (a <> b) by (intros ->; apply Hni; eapply nth_error_In; eauto).
        split; auto. exists m. rewrite nth_error_upd_ne by auto.
        repeat split; auto.
  Qed.

  Lemma rep_modify h lst addrs xs k a v :
    rep h lst addrs xs -> nth_error addrs k = Some a ->
    exists h', set_val h (Some a) v = Ok h' /\
      rep h' lst addrs (upd xs k v) /\ frame h h' (footprint lst addrs) /\
      length h' = length h.
  Proof.
    intros (n & Hn & H) Hk. destruct addrs as [|b ar]; [destruct k; discriminate|].
    destruct H as (-> & Hh & Ht & Hc & Hnd).
    destruct (chain_nth _ _ _ _ _ _ Hc Hk) as (m & x & Hm & Hv & Hx & _).
    rewrite (set_val_eq _ _ _ _ Hm). eexists; split; [reflexivity|].
    split; [|split].
    - pose proof (chain_upd _ _ _ _ _ _ _ v Hc Hnd Hk Hm) as Hc'.
      destruct (Nat.eq_dec a lst) as [->|Hne].
      + replace m with n in * by congruence.
        eexists; split; [apply nth_error_upd_eq; apply nth_error_Some; congruence|].
        cbn [n_head n_tail].
        exact (conj eq_refl (conj Hh (conj Ht (conj Hc' Hnd)))).
      + exists n. rewrite nth_error_upd_ne by auto.
        exact (conj Hn (conj eq_refl (conj Hh (conj Ht (conj Hc' Hnd))))).
    - split; [rewrite upd_length; lia|]. intros c _ Hni. apply nth_error_upd_ne.
      intros ->. apply Hni. cbn [footprint]. eapply nth_error_In; eauto.
    - apply upd_length.
  Qed.

  (** Appending a fresh node. *)
  Lemma chain_app h p addrs xs a0 n0 b x m (hd tl : option nat) :
    chain h p addrs xs -> NoDup addrs -> addrs <> [] ->
    last addrs a0 = m -> nth_error h m = Some n0 ->
    ~ In b addrs -> 
    forall h',
    nth_error h' b = Some (mkNode (Some x) None hd tl) ->
    (exists hd' tl', nth_error h' m = Some (mkNode (n_val n0) (Some b) hd' tl')) ->
    (forall c, In c addrs -> c <> m -> exists n hd' tl', nth_error h c = Some n /\
        nth_error h' c = Some (mkNode (n_val n) (n_next n) hd' tl')) ->
    chain h' p (addrs ++ [b]) (xs ++ [x]).
  Proof.
    revert p xs; induction addrs as [|c ar IH]; intros p xs Hc Hnd Hne Hlast Hm Hnb h' Hb Hm' Hext.
    - congruence.
    - destruct xs as [|y xr]; cbn in Hc; [tauto|].
      destruct Hc as (-> & n & Hn & Hv & Hc). cbn [app chain].
      split; auto. apply NoDup_cons_iff in Hnd as [Hnc Hnd].
      destruct ar as [|d dr].
      + cbn in Hlast. subst c. destruct Hm' as (hd' & tl' & E).
        eexists; split; [exact E|]. cbn. replace n0 with n in * by congruence.
        split; auto. destruct xr; cbn in Hc; [|tauto].
        cbn. split; auto. eexists; split; [exact Hb|]. cbn; auto.
      + assert (Hcm : c <> m).
        { intros ->. apply Hnc. rewrite <- Hlast.
          change (In (last (d :: dr) a0) (d :: dr)). apply last_In. discriminate. }
        destruct (Hext c) as (n' & hd' & tl' & E1 & E2); [cbn; auto|auto|].
        replace n' with n in * by congruence.
        eexists; split; [exact E2|]. cbn [n_val n_next]. split; auto.
        eapply IH; eauto; try discriminate.
        * intros Hin. apply Hnb. cbn; auto.
        * intros c' Hc' Hne'. apply Hext; cbn; auto.
  Qed.

  Lemma rep_append h lst addrs xs n x :
    rep h lst addrs xs -> addrs <> [] -> nth_error h lst = Some n ->
    exists h',
      (let '(h1, item) := node_new h in
       h2 <- set_val h1 (Some item) x ;;
       h3 <- set_next h2 (n_tail n) (Some item) ;;
       set_tail h3 (Some lst) (Some item)) = Ok h' /\
      rep h' lst (addrs ++ [length h]) (xs ++ [x]) /\ frame h h' (footprint lst addrs) /\
      length h' = S (length h).
  Proof.
    intros (n1 & Hn1 & H) Hne Hn. assert (n1 = n) by congruence; subst n1.
    destruct addrs as [|b ar]; [congruence|].
    destruct H as (-> & Hh & Ht & Hc & Hnd).
    set (addrs := lst :: ar) in *.
    set (m := last addrs lst) in *.
    assert (Hmin : In m addrs).
    { unfold m, addrs. apply last_In. discriminate. }
    destruct (In_nth_error _ _ Hmin) as [km Hkm].
    destruct (chain_nth _ _ _ _ _ _ Hc Hkm) as (nm & xm & Hm & Hvm & _ & _).
    assert (Hbm : (m < length h)%nat) by (apply nth_error_Some; congruence).
    assert (Hbl : (lst < length h)%nat) by (apply nth_error_Some; congruence).
    cbn [node_new].
    set (h1 := h ++ [mkNode None None None None]).
    assert (E1 : nth_error h1 (length h) = Some (mkNode None None None None)).
    { unfold h1. rewrite nth_error_app2 by lia. rewrite Nat.sub_diag. reflexivity. }
    rewrite (set_val_eq _ _ _ _ E1). cbn [bind n_next n_head n_tail].
    set (h2 := upd h1 (length h) _).
    assert (L1 : length h1 = S (length h)) by (unfold h1; rewrite app_length; cbn; lia).
    assert (E2 : nth_error h2 m = Some nm).
    { unfold h2. rewrite nth_error_upd_ne by lia. unfold h1. rewrite nth_error_app1; auto. }
    rewrite Ht. rewrite (set_next_eq _ _ _ _ E2). cbn [bind].
    set (h3 := upd h2 m _).
    assert (E3 : exists n3, nth_error h3 lst = Some n3 /\ n_head n3 = Some lst /\
               n_tail n3 = Some m /\ n_val n3 = n_val n /\
               n_next n3 = if Nat.eq_dec lst m then Some (length h) else n_next n).
    { unfold h3. destruct (Nat.eq_dec lst m) as [e|e].
      - rewrite <- e in *. replace nm with n in * by congruence.
        eexists; split; [apply nth_error_upd_eq; apply nth_error_Some; congruence|].
        cbn. auto.
      - exists n. rewrite nth_error_upd_ne by auto. unfold h2.
        rewrite nth_error_upd_ne by lia. unfold h1. rewrite nth_error_app1 by auto. auto. }
    destruct E3 as (n3 & E3 & Hh3 & Ht3 & Hv3 & Hx3).
    rewrite (set_tail_eq _ _ _ _ E3).
    set (h4 := upd h3 lst _).
    exists h4. split; [reflexivity|].
    assert (L4 : length h4 = S (length h)).
    { unfold h4, h3, h2. rewrite !upd_length. auto. }
    assert (Lb : nth_error h4 (length h) = Some (mkNode (Some x) None None None)).
    { unfold h4. rewrite nth_error_upd_ne by lia. unfold h3.
      rewrite nth_error_upd_ne by lia. unfold h2. apply nth_error_upd_eq. lia. }
    assert (L3 : (lst < length h3)%nat) by (unfold h3, h2; rewrite !upd_length; lia).
    assert (L2 : (m < length h2)%nat) by (unfold h2; rewrite upd_length; lia).
    split; [|split; auto].
    - eexists; split; [unfold h4; apply nth_error_upd_eq; auto|].
      cbn [n_head n_tail app]. unfold addrs. cbn [app].
      split; auto. split; auto. split.
      { f_equal. change (length h = last ((lst :: ar) ++ [length h]) lst).
        rewrite last_last. reflexivity. }
      change (lst :: ar ++ [length h]) with (addrs ++ [length h]).
      assert (Hnin : ~ In (length h) addrs).
      { intros Hin. pose proof (chain_bound _ _ _ _ _ Hc Hin). lia. }
      split.
      + eapply (chain_app h (Some lst) addrs xs lst nm (length h) x m None None); eauto.
        * destruct (Nat.eq_dec lst m) as [e|e].
          -- do 2 eexists. unfold h4. rewrite <- e. rewrite nth_error_upd_eq by auto.
             rewrite Hv3, Hx3.
             assert (n = nm) by (rewrite <- e in Hm; congruence). subst nm. reflexivity.
          -- do 2 eexists. unfold h4. rewrite nth_error_upd_ne by auto.
             unfold h3. rewrite nth_error_upd_eq by auto. reflexivity.
        * intros c Hin Hcm. pose proof (chain_bound _ _ _ _ _ Hc Hin) as Hcb.
          destruct (nth_error h c) as [nc|] eqn:Ec; [|apply nth_error_None in Ec; lia].
          exists nc. destruct (Nat.eq_dec lst c) as [<-|e].
          -- do 2 eexists. split; auto. unfold h4. rewrite nth_error_upd_eq by auto.
             rewrite Hv3, Hx3. destruct (Nat.eq_dec lst m); [congruence|].
             replace nc with n by congruence. reflexivity.
          -- exists (n_head nc), (n_tail nc). split; auto. unfold h4.
             rewrite nth_error_upd_ne by auto.
             unfold h3. rewrite nth_error_upd_ne by auto. unfold h2.
             rewrite nth_error_upd_ne by lia. unfold h1. rewrite nth_error_app1 by auto.
             rewrite Ec. destruct nc; reflexivity.
      + clear -Hnd Hnin. induction addrs as [|c cr IH]; cbn.
        * constructor; [auto|constructor].
        * apply NoDup_cons_iff in Hnd as [Hc Hnd]. constructor.
          -- rewrite in_app_iff. cbn. intros [?|[E|[]]]; [tauto|]. apply Hnin. rewrite E. cbn; auto.
          -- apply IH; auto. intros ?; apply Hnin; cbn; auto.
    - split; [lia|]. intros a Ha Hni. cbn [footprint] in Hni.
      assert (a <> lst) by (intros ->; apply Hni; cbn; auto).
      assert (a <> m) by (intros ->; auto).
      unfold h4. rewrite nth_error_upd_ne by auto.
      unfold h3. rewrite nth_error_upd_ne by auto. unfold h2.
      rewrite nth_error_upd_ne by lia. unfold h1. rewrite nth_error_app1 by auto. reflexivity.
  Qed.
End Rep.
