(** Properties C01-C07: line count lists (loc.c). *)
From Coq Require Import ZArith String List Bool Lia Permutation.
From Verif Require Import Base LocModel LocSpec HeapProofs LocProofs DeltaProofs.
Import ListNotations.
Open Scope string_scope.
Open Scope Z_scope.
Open Scope list_scope.

(** A non-trivial history used as the running example: two lists, a repeated
    language, a list merged into another, a list merged into itself, and a
    compaction that drops an entry. *)
Definition ex_ops : list loc_op :=
  [ LNew; LNew;
    LAdd 0 (mkLoc "c" 10 2 3 1); LAdd 0 (mkLoc "ruby" 1 0 0 1);
    LAdd 0 (mkLoc "c" 5 0 1 1); LAdd 1 (mkLoc "ruby" 0 4 0 1);
    LAdd 1 (mkLoc "tex" 0 0 0 1);
    LAddList 1 0; LAddList 0 0; LCompact 1 ].

Example ex_ops_runs :
  match run_loc_ops ([], []) ex_ops with
  | Ok (h, ids) =>
    length ids = 3%nat /\
    list_items h (nth 0 ids 0%nat) = Ok [mkLoc "c" 30 4 8 4; mkLoc "ruby" 2 0 0 2] /\
    list_items h (nth 1 ids 0%nat) =
      Ok [mkLoc "ruby" 1 4 0 2; mkLoc "tex" 0 0 0 1; mkLoc "c" 15 2 4 2] /\
    list_items h (nth 2 ids 0%nat) = Ok [mkLoc "ruby" 1 4 0 2; mkLoc "c" 15 2 4 2] /\
    loc_list_total h (nth 0 ids 0%nat) = Ok 44
  | _ => False
  end.
Proof. vm_compute. repeat split. Qed.

(** ** C01 *)
Theorem C01_loc_list_accumulates :
  forall ops h ids, run_loc_ops ([], []) ops = Ok (h, ids) ->
  length ids = length (bags_of ops) /\
  forall i lst bag,
    nth_error ids i = Some lst -> nth_error (bags_of ops) i = Some bag ->
    list_items h lst = Ok (summary bag) /\
    NoDup (map l_lang (summary bag)) /\
    forall g, loc_list_get_loc h lst g = Ok (lookup bag g).
Proof.
  intros ops h ids H. destruct (loc_history_lemma ops h ids H) as [Hl Hr].
  split; auto. intros i lst bag Hi Hb. destruct (Hr _ _ _ Hi Hb) as [addrs Hrep].
  split; [eapply list_items_rep; eauto|]. split; [apply summary_nodup|].
  intros g. unfold loc_list_get_loc.
  destruct (rep_head _ _ _ _ Hrep) as (n & Hn & _ & Hc). cbn [deref]. rewrite Hn. cbn [bind].
  destruct (rep_fuel _ _ _ _ Hrep).
  rewrite (get_loop_chain l_lang h addrs (summary bag)) by (auto; lia).
  rewrite find_summary. reflexivity.
Qed.
Print Assumptions C01_loc_list_accumulates.

Example C01_case :
  nth_error (bags_of ex_ops) 1 =
    Some [mkLoc "ruby" 0 4 0 1; mkLoc "tex" 0 0 0 1; mkLoc "c" 10 2 3 1;
          mkLoc "ruby" 1 0 0 1; mkLoc "c" 5 0 1 1] /\
  option_map (fun b => lookup b "ruby") (nth_error (bags_of ex_ops) 1) =
    Some (Some (mkLoc "ruby" 1 4 0 2)) /\
  option_map (fun b => lookup b "java") (nth_error (bags_of ex_ops) 1) = Some None.
Proof. vm_compute. repeat split. Qed.

(** ** C02 *)
Theorem C02_loc_list_totals :
  forall ops h ids, run_loc_ops ([], []) ops = Ok (h, ids) ->
  forall i lst bag,
    nth_error ids i = Some lst -> nth_error (bags_of ops) i = Some bag ->
    (forall s, loc_list_code h lst = Ok s -> s = zsum (map l_code bag)) /\
    (forall s, loc_list_comments h lst = Ok s -> s = zsum (map l_comments bag)) /\
    (forall s, loc_list_blanks h lst = Ok s -> s = zsum (map l_blanks bag)) /\
    (forall s, loc_list_filecount h lst = Ok s -> s = zsum (map l_files bag)) /\
    (forall s, loc_list_total h lst = Ok s ->
       s = zsum (map l_code bag) + zsum (map l_comments bag) + zsum (map l_blanks bag)).
Proof.
  intros ops h ids H i lst bag Hi Hb.
  destruct (loc_history_lemma ops h ids H) as [Hl Hr].
  destruct (Hr _ _ _ Hi Hb) as [addrs Hrep].
  assert (Hgen : forall f g s, (forall x v, f x = Ok v -> v = g x) ->
            (forall b l, g (sum_loc b l) = sum_by g l b) ->
            sum_list f h lst = Ok s -> s = zsum (map g bag)).
  { intros f g s Hf Hg Hs. rewrite (sum_list_rep _ _ _ _ _ Hrep) in Hs.
    apply (sum_pure_inv f g) in Hs; auto. rewrite zsum_summary in Hs by auto. lia. }
  repeat split; intros s Hs.
  - eapply (Hgen _ l_code); [|reflexivity|exact Hs]. intros x v [= <-]; auto.
  - eapply (Hgen _ l_comments); [|reflexivity|exact Hs]. intros x v [= <-]; auto.
  - eapply (Hgen _ l_blanks); [|reflexivity|exact Hs]. intros x v [= <-]; auto.
  - eapply (Hgen _ l_files); [|reflexivity|exact Hs]. intros x v [= <-]; auto.
  - apply (Hgen _ lines) in Hs; [|apply loc_total_inv|intros; apply lines_sum_loc].
    rewrite Hs. clear. unfold zsum. induction bag as [|l b IH]; cbn; [reflexivity|].
    unfold lines at 1. lia.
Qed.
Print Assumptions C02_loc_list_totals.

(** The totals exist whenever the numbers fit. *)
Theorem C02_loc_list_totals_defined :
  forall ops h ids, run_loc_ops ([], []) ops = Ok (h, ids) ->
  forall i lst bag,
    nth_error ids i = Some lst -> nth_error (bags_of ops) i = Some bag ->
    Forall loc_nonneg bag -> bag_fits bag ->
    is_ok (loc_list_code h lst) /\ is_ok (loc_list_comments h lst) /\
    is_ok (loc_list_blanks h lst) /\ is_ok (loc_list_filecount h lst) /\
    is_ok (loc_list_total h lst).
Proof.
  intros ops h ids H i lst bag Hi Hb Hnn Hfit.
  destruct (loc_history_lemma ops h ids H) as [Hl Hr].
  destruct (Hr _ _ _ Hi Hb) as [addrs Hrep].
  assert (Hns : Forall loc_nonneg (summary bag)) by (apply nonneg_summary; auto).
  pose proof (bag_fits_summary [] bag Hfit) as Hfs. cbn in Hfs.
  assert (Hgen : forall (f : loc -> res Z) (g : loc -> Z),
            (forall x, In x (summary bag) -> f x = Ok (g x) /\ 0 <= g x) ->
            (forall x, loc_nonneg x -> g x <= lines x \/ g x = l_files x) ->
            zsum (map g (summary bag)) <= int_max ->
            is_ok (sum_list f h lst)).
  { intros f g Hf _ Hs. rewrite (sum_list_rep _ _ _ _ _ Hrep).
    rewrite (sum_pure_ok f g) by (auto; lia). eexists; reflexivity. }
  assert (Hle : forall (g : loc -> Z), (forall x, loc_nonneg x -> g x <= lines x) ->
            zsum (map g (summary bag)) <= int_max).
  { intros g Hg. destruct Hfs as [Hfl _]. clear -Hns Hg Hfl.
    enough (zsum (map g (summary bag)) <= zsum (map lines (summary bag))) by lia.
    clear Hfl. unfold zsum. induction Hns as [|x r Hx Hr IH]; cbn; [lia|].
    specialize (Hg x Hx). lia. }
  rewrite Forall_forall in Hns.
  repeat split.
  - apply (Hgen _ l_code).
    + intros x Hx; split; auto. apply nonneg_fields; auto.
    + intros x Hx; left; apply nonneg_fields; auto.
    + apply Hle. intros x Hx. apply nonneg_fields; auto.
  - apply (Hgen _ l_comments).
    + intros x Hx; split; auto. apply nonneg_fields; auto.
    + intros x Hx; left; apply nonneg_fields; auto.
    + apply Hle. intros x Hx. apply nonneg_fields; auto.
  - apply (Hgen _ l_blanks).
    + intros x Hx; split; auto. apply nonneg_fields; auto.
    + intros x Hx; left; apply nonneg_fields; auto.
    + apply Hle. intros x Hx. apply nonneg_fields; auto.
  - apply (Hgen _ l_files).
    + intros x Hx; split; auto. apply nonneg_fields; auto.
    + intros x Hx; right; auto.
    + apply Hfs.
  - apply (Hgen _ lines).
    + intros x Hx. pose proof (nonneg_fields x (Hns x Hx)). split; [|lia].
      unfold loc_total.
      assert (lines x <= int_max).
      { destruct Hfs as [Hfl _]. clear -Hns Hfl Hx.
        induction (summary bag) as [|y r IH]; [contradiction|].
        cbn [map] in Hfl. change (zsum (lines y :: map lines r)) with (lines y + zsum (map lines r)) in Hfl.
        assert (0 <= lines y) by (apply nonneg_fields; apply Hns; cbn; auto).
        assert (0 <= zsum (map lines r)).
        { apply zsum_nonneg. intros z Hz. apply in_map_iff in Hz as (w & <- & Hw).
          apply nonneg_fields. apply Hns. cbn; auto. }
        destruct Hx as [->|Hx]; [lia|]. apply IH; auto; [intros; apply Hns; cbn; auto|lia]. }
      unfold lines in *.
      rewrite ckint_ok by (unfold int_min; lia). cbn [bind].
      apply ckint_ok. unfold int_min; lia.
    + intros; left; lia.
    + apply Hfs.
Qed.
Print Assumptions C02_loc_list_totals_defined.

(** Order independence: two lists that received the same entries, in whatever
    order and through whatever calls, answer every query alike. *)
Theorem C02_loc_list_order_independent :
  forall ops1 h1 ids1 ops2 h2 ids2,
  run_loc_ops ([], []) ops1 = Ok (h1, ids1) ->
  run_loc_ops ([], []) ops2 = Ok (h2, ids2) ->
  forall i1 i2 l1 l2 b1 b2,
    nth_error ids1 i1 = Some l1 -> nth_error (bags_of ops1) i1 = Some b1 ->
    nth_error ids2 i2 = Some l2 -> nth_error (bags_of ops2) i2 = Some b2 ->
    Permutation b1 b2 ->
    (forall g, loc_list_get_loc h1 l1 g = loc_list_get_loc h2 l2 g) /\
    (forall s1 s2, loc_list_total h1 l1 = Ok s1 -> loc_list_total h2 l2 = Ok s2 -> s1 = s2).
Proof.
  intros ops1 h1 ids1 ops2 h2 ids2 H1 H2 i1 i2 l1 l2 b1 b2 Hi1 Hb1 Hi2 Hb2 HP.
  destruct (C01_loc_list_accumulates _ _ _ H1) as [_ G1].
  destruct (C01_loc_list_accumulates _ _ _ H2) as [_ G2].
  destruct (G1 _ _ _ Hi1 Hb1) as (_ & _ & Q1). destruct (G2 _ _ _ Hi2 Hb2) as (_ & _ & Q2).
  split.
  - intros g. rewrite Q1, Q2. f_equal. unfold lookup.
    replace (existsb (fun l => String.eqb (l_lang l) g) b1)
      with (existsb (fun l => String.eqb (l_lang l) g) b2).
    + destruct (existsb _ b2); auto. f_equal. unfold sum_loc.
      rewrite !(sum_by_perm _ g b1 b2 HP). reflexivity.
    + apply eq_true_iff_eq. rewrite !existsb_exists.
      split; intros (l & Hl & E); exists l; split; auto.
      * eapply Permutation_in; [apply Permutation_sym|]; eauto.
      * eapply Permutation_in; eauto.
  - intros s1 s2 E1 E2.
    destruct (C02_loc_list_totals _ _ _ H1 _ _ _ Hi1 Hb1) as (_ & _ & _ & _ & T1).
    destruct (C02_loc_list_totals _ _ _ H2 _ _ _ Hi2 Hb2) as (_ & _ & _ & _ & T2).
    rewrite (T1 _ E1), (T2 _ E2).
    rewrite !(zsum_perm _ _ (Permutation_map _ HP)). reflexivity.
Qed.
Print Assumptions C02_loc_list_order_independent.

Example C02_case :
  match run_loc_ops ([], []) [LNew; LAdd 0 (mkLoc "c" 1 2 3 1); LAdd 0 (mkLoc "d" 4 0 0 1)],
        run_loc_ops ([], []) [LNew; LAdd 0 (mkLoc "d" 4 0 0 1); LAdd 0 (mkLoc "c" 1 2 3 1)] with
  | Ok (h1, [l1]), Ok (h2, [l2]) =>
      loc_list_total h1 l1 = Ok 10 /\ loc_list_total h2 l2 = Ok 10 /\
      list_items h1 l1 <> list_items h2 l2
  | _, _ => False
  end.
Proof. vm_compute. repeat split; discriminate. Qed.

(** ** C03 *)
Lemma summary_of_nodup xs : NoDup (map l_lang xs) -> summary xs = xs.
Proof.
  intros Hnd. 
  assert (Hfo : first_occ (map l_lang xs) = map l_lang xs).
  { clear -Hnd. induction Hnd as [|x r Hni Hnd IH]; cbn; auto. rewrite IH. f_equal.
    apply filter_all. intros y Hy. destruct (String.eqb_spec x y); auto. congruence. }
  unfold summary. rewrite Hfo.
  assert (Hk : forall pre l suf, xs = pre ++ l :: suf -> sum_loc xs (l_lang l) = l).
  { intros pre l suf E.
    assert (Hs : forall f, sum_by f (l_lang l) xs = f l).
    { intros f. rewrite E, sum_by_app, sum_by_cons, String.eqb_refl.
      rewrite E, map_app in Hnd. cbn [map] in Hnd. apply NoDup_remove_2 in Hnd.
      rewrite in_app_iff in Hnd.
      rewrite !sum_by_absent by tauto. lia. }
    unfold sum_loc. rewrite !Hs. destruct l; reflexivity. }
  rewrite map_map.
  rewrite <- (map_id xs) at 2. apply map_ext_in. intros l Hl.
  apply in_split in Hl as (pre & suf & E). eapply Hk; eauto.
Qed.

Theorem C03_compact :
  forall ops h ids, run_loc_ops ([], []) ops = Ok (h, ids) ->
  forall i bag h' ids',
    nth_error (bags_of ops) i = Some bag ->
    run_loc_op (h, ids) (LCompact i) = Ok (h', ids') ->
    exists new, ids' = (ids ++ [new])%list /\
      (* exactly the entries with lines, in order *)
      list_items h' new = Ok (filter (fun l => negb (lines l =? 0)) (summary bag)) /\
      (* their lookups are unchanged *)
      (forall g l, lookup bag g = Some l -> lines l <> 0 ->
         loc_list_get_loc h' new g = Ok (Some l)) /\
      (* languages without lines are gone *)
      (forall g l, lookup bag g = Some l -> lines l = 0 ->
         loc_list_get_loc h' new g = Ok None) /\
      (* the original lists are untouched *)
      (forall j lst, nth_error ids j = Some lst -> list_items h' lst = list_items h lst) /\
      (* and compacting again changes nothing *)
      (forall h'' ids'', run_loc_op (h', ids') (LCompact (length ids)) = Ok (h'', ids'') ->
         exists new2, ids'' = (ids' ++ [new2])%list /\ list_items h'' new2 = list_items h' new).
Proof.
  intros ops h ids Hrun i bag h' ids' Hbag Hc.
  destruct (C01_loc_list_accumulates _ _ _ Hrun) as [Hlen HG].
  assert (Hrun' : run_loc_ops ([], []) (ops ++ [LCompact i]) = Ok (h', ids')).
  { clear -Hrun Hc. revert Hrun. generalize (@nil (node loc), @nil nat).
    induction ops as [|op r IH]; intros st H; cbn [run_loc_ops app] in *.
    - injection H as ->. rewrite Hc. reflexivity.
    - apply bind_ok in H as (st' & E & H). rewrite E. cbn [bind]. auto. }
  set (p := fun l => negb (lines l =? 0)) in *.
  assert (Hbags' : bags_of (ops ++ [LCompact i]) = (bags_of ops ++ [filter p (summary bag)])%list).
  { unfold bags_of. rewrite fold_left_app. cbn. fold (bags_of ops). rewrite Hbag. reflexivity. }
  assert (Hids' : exists new, ids' = (ids ++ [new])%list).
  { cbn in Hc. destruct (nth_error ids i); [|exfalso].
    - apply bind_ok in Hc as ([h1 b] & _ & [= <- <-]). eauto.
    - injection Hc as <- <-. destruct (C01_loc_list_accumulates _ _ _ Hrun') as [Hlen' _].
      rewrite Hbags', app_length in Hlen'. cbn in Hlen'. lia. }
  destruct Hids' as [new ->]. exists new. split; auto.
  destruct (C01_loc_list_accumulates _ _ _ Hrun') as [Hlen' HG'].
  assert (Hndf : NoDup (map l_lang (filter p (summary bag)))).
  { pose proof (summary_nodup bag) as Hnd. clear -Hnd.
    induction (summary bag) as [|x r IH]; cbn; [constructor|].
    cbn in Hnd. apply NoDup_cons_iff in Hnd as [Hni Hnd].
    destruct (p x); cbn; auto. constructor; auto. intros Hin. apply Hni.
    apply in_map_iff in Hin as (y & <- & Hy). apply filter_In in Hy as [Hy _]. apply in_map. auto. }
  pose proof (summary_of_nodup _ Hndf) as Hsf.
  destruct (HG' (length ids) new (filter p (summary bag))) as (Hit & _ & Hget).
  { apply nth_error_mid. }
  { rewrite Hbags', Hlen. apply nth_error_mid. }
  rewrite Hsf in Hit.
  assert (Hlk : forall g, lookup (filter p (summary bag)) g =
            match lookup bag g with Some l => if p l then Some l else None | None => None end).
  { intros g. rewrite <- find_summary. rewrite Hsf. rewrite <- (find_summary bag).
    pose proof (summary_nodup bag) as Hnd. clear -Hnd.
    induction (summary bag) as [|x r IH]; cbn; auto.
    cbn in Hnd. apply NoDup_cons_iff in Hnd as [Hni Hnd]. specialize (IH Hnd).
    destruct (String.eqb (l_lang x) g) eqn:E.
    - destruct (p x) eqn:Ep; cbn.
      + rewrite E. reflexivity.
      + rewrite IH. apply String.eqb_eq in E. subst g.
        destruct (find (fun y => String.eqb (l_lang y) (l_lang x)) r) eqn:Ef; auto.
        apply find_some in Ef as [Hin Heq]. apply String.eqb_eq in Heq.
        exfalso. apply Hni. rewrite <- Heq. apply in_map. auto.
    - destruct (p x); cbn; rewrite ?E; auto. }
  split; [exact Hit|]. split; [|split; [|split]].
  - intros g l Hl Hz. rewrite Hget, Hlk, Hl. unfold p.
    rewrite (proj2 (Z.eqb_neq _ _) Hz). reflexivity.
  - intros g l Hl Hz. rewrite Hget, Hlk, Hl. unfold p. rewrite Hz. reflexivity.
  - intros j lst Hj.
    destruct (nth_error (bags_of ops) j) as [b|] eqn:Eb.
    2:{ apply nth_error_None in Eb. assert (nth_error ids j <> None) by congruence.
        apply nth_error_Some in H. lia. }
    destruct (HG _ _ _ Hj Eb) as (Hi1 & _). rewrite Hi1.
    assert (Hjl : (j < length ids)%nat) by (apply nth_error_Some; congruence).
    destruct (HG' j lst b) as (Hi2 & _); auto.
    + rewrite nth_error_app1; auto.
    + rewrite Hbags', nth_error_app1 by lia. auto.
  - intros h'' ids'' Hc2.
    assert (Hrun'' : run_loc_ops ([], []) ((ops ++ [LCompact i]) ++ [LCompact (length ids)]) = Ok (h'', ids'')).
    { clear -Hrun' Hc2. revert Hrun'. generalize (@nil (node loc), @nil nat).
      generalize ((ops ++ [LCompact i])%list).
      intros l. induction l as [|op r IH]; intros st H; cbn [run_loc_ops app] in *.
      - injection H as ->. rewrite Hc2. reflexivity.
      - apply bind_ok in H as (st' & E & H). rewrite E. cbn [bind]. auto. }
    assert (Hb'' : bags_of ((ops ++ [LCompact i]) ++ [LCompact (length ids)]) =
       (bags_of (ops ++ [LCompact i]) ++ [filter p (summary (filter p (summary bag)))])%list).
    { unfold bags_of at 1. rewrite fold_left_app. cbn. fold (bags_of (ops ++ [LCompact i])).
      rewrite Hbags' at 1. rewrite Hlen, nth_error_mid. reflexivity. }
    assert (Hids'' : exists new2, ids'' = ((ids ++ [new]) ++ [new2])%list).
    { cbn in Hc2. rewrite nth_error_mid in Hc2.
      apply bind_ok in Hc2 as ([h1 b] & _ & [= <- <-]). eauto. }
    destruct Hids'' as [new2 ->]. exists new2. split; auto.
    destruct (C01_loc_list_accumulates _ _ _ Hrun'') as [Hlen'' HG''].
    destruct (HG'' (length (ids ++ [new])) new2 (filter p (summary (filter p (summary bag))))) as (Hit2 & _).
    { apply nth_error_mid. }
    { rewrite Hb'', Hlen'. apply nth_error_mid. }
    rewrite Hit2, Hit, Hsf. f_equal.
    assert (Hff : filter p (filter p (summary bag)) = filter p (summary bag)).
    { apply filter_all. intros x Hx. apply filter_In in Hx. tauto. }
    rewrite Hff. exact Hsf.
Qed.
Print Assumptions C03_compact.

(** With non-negative counters the totals of the compacted list are those of
    the original one. *)
Theorem C03_compact_totals :
  forall bag, Forall loc_nonneg bag ->
  let kept := filter (fun l => negb (lines l =? 0)) (summary bag) in
  zsum (map l_code kept) = zsum (map l_code bag) /\
  zsum (map l_comments kept) = zsum (map l_comments bag) /\
  zsum (map l_blanks kept) = zsum (map l_blanks bag).
Proof.
  intros bag Hnn kept.
  assert (Hgen : forall f, (forall l, loc_nonneg l -> lines l = 0 -> f l = 0) ->
            (forall b g, f (sum_loc b g) = sum_by f g b) ->
            zsum (map f kept) = zsum (map f bag)).
  { intros f Hf Hs. rewrite <- (zsum_summary f bag Hs). unfold kept.
    pose proof (nonneg_summary bag Hnn) as Hns. clear -Hf Hns.
    unfold zsum. induction Hns as [|x r Hx Hr IH]; cbn; auto.
    destruct (lines x =? 0) eqn:E; cbn; rewrite IH; auto.
    apply Z.eqb_eq in E. rewrite (Hf x Hx E). lia. }
  repeat split; apply Hgen; try reflexivity; intros l Hl Hz;
    unfold loc_nonneg, lines in *; lia.
Qed.
Print Assumptions C03_compact_totals.

Example C03_case :
  match run_loc_ops ([], []) [LNew; LAdd 0 (mkLoc "c" 0 0 0 3); LAdd 0 (mkLoc "d" 1 0 0 1)] with
  | Ok (h, ids) =>
    match run_loc_op (h, ids) (LCompact 0) with
    | Ok (h', ids') => list_items h' (nth 1 ids' 0%nat) = Ok [mkLoc "d" 1 0 0 1] /\
        loc_list_get_loc h' (nth 1 ids' 0%nat) "c" = Ok None
    | _ => False
    end
  | _ => False
  end.
Proof. vm_compute. repeat split. Qed.

(** ** C04 *)
Theorem C04_delta_list_totals :
  forall ops h ids, run_delta_ops ([], []) ops = Ok (h, ids) ->
  forall i lst raw,
    nth_error ids i = Some lst -> nth_error (draw_of ops) i = Some raw ->
    (forall s, delta_list_code_added h lst = Ok s -> s = zsum (map d_code_added raw)) /\
    (forall s, delta_list_code_removed h lst = Ok s -> s = zsum (map d_code_removed raw)) /\
    (forall s, delta_list_comments_added h lst = Ok s -> s = zsum (map d_comments_added raw)) /\
    (forall s, delta_list_comments_removed h lst = Ok s -> s = zsum (map d_comments_removed raw)) /\
    (forall s, delta_list_blanks_added h lst = Ok s -> s = zsum (map d_blanks_added raw)) /\
    (forall s, delta_list_blanks_removed h lst = Ok s -> s = zsum (map d_blanks_removed raw)) /\
    (forall s, delta_list_net_code h lst = Ok s -> s = zsum (map net_code raw)) /\
    (forall s, delta_list_net_comments h lst = Ok s -> s = zsum (map net_comments raw)) /\
    (forall s, delta_list_net_blanks h lst = Ok s -> s = zsum (map net_blanks raw)) /\
    (forall s, delta_list_net_total h lst = Ok s -> s = zsum (map net_total raw)).
Proof.
  intros ops h ids H i lst raw Hi Hr.
  repeat split; intros s Hs.
  - eapply (delta_sum_lemma _ d_code_added); eauto using additive_code_added. intros d v [= <-]; auto.
  - eapply (delta_sum_lemma _ d_code_removed); eauto using additive_code_removed. intros d v [= <-]; auto.
  - eapply (delta_sum_lemma _ d_comments_added); eauto using additive_comments_added. intros d v [= <-]; auto.
  - eapply (delta_sum_lemma _ d_comments_removed); eauto using additive_comments_removed. intros d v [= <-]; auto.
  - eapply (delta_sum_lemma _ d_blanks_added); eauto using additive_blanks_added. intros d v [= <-]; auto.
  - eapply (delta_sum_lemma _ d_blanks_removed); eauto using additive_blanks_removed. intros d v [= <-]; auto.
  - eapply (delta_sum_lemma _ net_code); eauto using additive_net_code, delta_net_code_inv.
  - eapply (delta_sum_lemma _ net_comments); eauto using additive_net_comments, delta_net_comments_inv.
  - eapply (delta_sum_lemma _ net_blanks); eauto using additive_net_blanks, delta_net_blanks_inv.
  - eapply (delta_sum_lemma _ net_total); eauto using additive_net_total, delta_net_total_inv.
Qed.
Print Assumptions C04_delta_list_totals.

Definition ex_dops : list delta_op :=
  [ DNew; DNew;
    DAdd 0 (mkDelta "c" 1 2 3 4 5 6); DAdd 0 (mkDelta "ruby" 1 0 0 0 0 0);
    DAdd 0 (mkDelta "ruby" 10 0 0 0 0 2); DAdd 0 (mkDelta "c" 1 1 1 1 1 1);
    DAdd 1 (mkDelta "ruby" 0 0 0 0 0 0); DAddList 1 0; DCompact 1 ].

Example C04_case :
  match run_delta_ops ([], []) ex_dops with
  | Ok (h, ids) => delta_list_code_added h (nth 1 ids 0%nat) = Ok 13 /\
                   delta_list_net_total h (nth 2 ids 0%nat) = Ok 6 /\
                   length ids = 3%nat
  | _ => False
  end.
Proof. vm_compute. repeat split. Qed.

(** ** C05 *)
(** Exact behaviour: the list holds the merged first language followed by
    every other addition, unmerged; a lookup returns the first match. *)
Theorem C05_delta_list_contents :
  forall ops h ids, run_delta_ops ([], []) ops = Ok (h, ids) ->
  length ids = length (dbags_of ops) /\
  forall i lst bag,
    nth_error ids i = Some lst -> nth_error (dbags_of ops) i = Some bag ->
    list_items h lst = Ok (dcontents bag) /\
    forall g, delta_list_get_delta h lst g =
              Ok (find (fun d => String.eqb (d_lang d) g) (dcontents bag)).
Proof.
  intros ops h ids H. destruct (delta_history_lemma ops h ids H) as [Hl Hr].
  split; auto. intros i lst bag Hi Hb. destruct (Hr _ _ _ Hi Hb) as [addrs Hrep].
  split; [eapply list_items_rep; eauto|].
  intros g. unfold delta_list_get_delta.
  destruct (rep_head _ _ _ _ Hrep) as (n & Hn & _ & Hc). cbn [deref]. rewrite Hn. cbn [bind].
  destruct (rep_fuel _ _ _ _ Hrep).
  apply (get_loop_chain d_lang h addrs (dcontents bag)); auto; lia.
Qed.
Print Assumptions C05_delta_list_contents.

(** The merge works when no language except the first one is repeated. *)
Theorem C05_delta_list_lookup_unrepeated :
  forall ops h ids, run_delta_ops ([], []) ops = Ok (h, ids) ->
  forall i lst bag g,
    nth_error ids i = Some lst -> nth_error (dbags_of ops) i = Some bag ->
    (match bag with d0 :: _ => g = d_lang d0 | [] => True end \/
     (length (filter (fun d => String.eqb (d_lang d) g) bag) <= 1)%nat) ->
    delta_list_get_delta h lst g = Ok (dlookup bag g).
Proof.
  intros ops h ids H i lst bag g Hi Hb Hcase.
  destruct (C05_delta_list_contents _ _ _ H) as [_ HG].
  destruct (HG _ _ _ Hi Hb) as [_ Hget]. rewrite Hget. f_equal. unfold dlookup.
  destruct bag as [|d0 r]; [reflexivity|]. set (b := (d0 :: r)%list) in *.
  change (dcontents b) with (sum_delta b (d_lang d0) ::
     filter (fun d => negb (String.eqb (d_lang d) (d_lang d0))) b)%list.
  cbn [find sum_delta d_lang].
  destruct (String.eqb (d_lang d0) g) eqn:E0.
  - assert (Eb : existsb (fun d => String.eqb (d_lang d) g) b = true)
      by (unfold b; cbn; rewrite E0; reflexivity).
    rewrite Eb. apply String.eqb_eq in E0. subst g. reflexivity.
  - destruct Hcase as [->|Hone]; [rewrite String.eqb_refl in E0; discriminate|].
    apply String.eqb_neq in E0.
    assert (Hf : forall l, find (fun d => String.eqb (d_lang d) g)
                 (filter (fun d => negb (String.eqb (d_lang d) (d_lang d0))) l) =
               find (fun d => String.eqb (d_lang d) g) l).
    { induction l as [|x l IH]; cbn; auto.
      destruct (String.eqb_spec (d_lang x) (d_lang d0)); cbn.
      - rewrite IH. destruct (String.eqb_spec (d_lang x) g); auto. congruence.
      - destruct (String.eqb (d_lang x) g); auto. }
    rewrite Hf. clear Hf.
    assert (Hgen : forall l, (length (filter (fun d => String.eqb (d_lang d) g) l) <= 1)%nat ->
      find (fun d => String.eqb (d_lang d) g) l =
      if existsb (fun d => String.eqb (d_lang d) g) l then Some (sum_delta l g) else None).
    { induction l as [|x l IH]; intros Hl; cbn; auto.
      cbn in Hl. destruct (String.eqb (d_lang x) g) eqn:Ex; cbn.
      - cbn in Hl. 
        assert (En : filter (fun d => String.eqb (d_lang d) g) l = []) by
          (destruct (filter _ l); [auto|cbn in Hl; lia]).
        f_equal. unfold sum_delta, dsum_by. cbn. rewrite Ex, En. cbn.
        apply String.eqb_eq in Ex. subst g. destruct x; cbn. unfold zsum; cbn. f_equal; lia.
      - rewrite IH by auto. destruct (existsb _ l); auto. f_equal.
        unfold sum_delta, dsum_by. cbn. rewrite Ex. reflexivity. }
    apply Hgen. exact Hone.
Qed.
Print Assumptions C05_delta_list_lookup_unrepeated.

(** The expected merge fails already for three additions. *)
Theorem C05_delta_list_merge_refuted :
  exists ops h ids lst bag g,
    run_delta_ops ([], []) ops = Ok (h, ids) /\
    nth_error ids 0 = Some lst /\ nth_error (dbags_of ops) 0 = Some bag /\
    delta_list_get_delta h lst g <> Ok (dlookup bag g) /\
    exists items, list_items h lst = Ok items /\ ~ NoDup (map d_lang items).
Proof.
  exists [DNew; DAdd 0 (mkDelta "c" 1 0 0 0 0 0); DAdd 0 (mkDelta "ruby" 2 0 0 0 0 0);
          DAdd 0 (mkDelta "ruby" 3 0 0 0 0 0)].
  do 4 eexists. exists "ruby".
  split; [vm_compute; reflexivity|]. split; [reflexivity|]. split; [vm_compute; reflexivity|].
  split; [vm_compute; discriminate|].
  eexists. split; [vm_compute; reflexivity|]. cbn.
  intros Hnd. inversion Hnd as [|? ? _ Hnd']; subst. inversion Hnd' as [|? ? Hni _]; subst.
  apply Hni. cbn. auto.
Qed.
Print Assumptions C05_delta_list_merge_refuted.

(** ** C06 *)
Theorem C06_no_overflow :
  forall ops, Forall op_nonneg ops -> Forall bag_fits (bags_of ops) ->
  exists st, run_loc_ops ([], []) ops = Ok st.
Proof. exact loc_no_overflow_lemma. Qed.
Print Assumptions C06_no_overflow.

Example C06_case :
  Forall op_nonneg ex_ops /\ Forall bag_fits (bags_of ex_ops).
Proof.
  split.
  - repeat constructor; cbn; lia.
  - apply Forall_forall. intros b Hb. unfold ex_ops in Hb. vm_compute in Hb.
    decompose [or] Hb; subst; try contradiction; unfold bag_fits, zsum, lines, int_max; cbn; lia.
Qed.

(** The bound is sharp: one more line is undefined behaviour. *)
Theorem C06_overflow_refuted :
  exists ops, Forall op_nonneg ops /\
    run_loc_ops ([], []) ops = Ub IntOverflow /\
    bags_of ops = [[mkLoc "c" int_max 0 0 1; mkLoc "c" 1 0 0 1]].
Proof.
  exists [LNew; LAdd 0 (mkLoc "c" int_max 0 0 1); LAdd 0 (mkLoc "c" 1 0 0 1)].
  split; [repeat constructor; cbn; unfold int_max; lia|].
  split; vm_compute; reflexivity.
Qed.
Print Assumptions C06_overflow_refuted.

(** No history of LocList calls loops or dereferences a bad pointer: the only
    failure is overflow. *)
Theorem C06_only_overflow :
  forall ops, match run_loc_ops ([], []) ops with
              | Ok _ => True | Ub w => w = IntOverflow | OutOfFuel => False end.
Proof.
  intros ops. pose proof (run_loc_ops_inv ops ([], []) [] loc_inv_init) as H.
  destruct (run_loc_ops ([], []) ops) as [st|w|]; auto.
  destruct H as (o1 & op & o2 & _ & Hf).
  assert (Hck : forall z w, ckint z = Ub w -> w = IntOverflow).
  { intros z w'. unfold ckint. destruct (_ && _); congruence. }
  assert (Hadd : forall x l w, loc_add_loc x l = Ub w -> w = IntOverflow).
  { intros x l w'. unfold loc_add_loc. destruct (String.eqb _ _); [|discriminate].
    unfold ckint. repeat (destruct (_ && _); cbn [bind]); congruence. }
  assert (Hl : forall xs l w, l_add xs l = Ub w -> w = IntOverflow).
  { intros xs l w'. unfold l_add. destruct (find_idx _ xs) as [k|] eqn:Ek; [|discriminate].
    destruct (find_idx_nth _ _ _ Ek) as (x & -> & _).
    destruct (loc_add_loc x l) eqn:E; cbn; try discriminate. intros [= <-]. eauto. }
  assert (Hla : forall ys xs w, l_add_all xs ys = Ub w -> w = IntOverflow).
  { induction ys as [|y r IH]; cbn; [discriminate|]. intros xs w'.
    destruct (l_add xs y) eqn:E; cbn; [eauto|intros [= <-]; eauto|discriminate]. }
  assert (Hca : forall ys xs w, c_add_all xs ys = Ub w -> w = IntOverflow).
  { induction ys as [|y r IH]; cbn; [discriminate|]. intros xs w'.
    destruct (loc_total y) as [t|w''|] eqn:Et; cbn [bind]; [|intros [= <-]|discriminate].
    - destruct (t =? 0); cbn [bind]; eauto.
      destruct (l_add xs y) eqn:E; cbn; [eauto|intros [= <-]; eauto|discriminate].
    - revert Et. unfold loc_total, ckint. repeat (destruct (_ && _); cbn [bind]); congruence. }
  destruct op as [|i l|i j|i]; cbn [op_fails] in Hf.
  - contradiction.
  - destruct Hf as (b & _ & E); eauto.
  - destruct Hf as (b & b' & _ & _ & E); eauto.
  - destruct Hf as (b & _ & E); eauto.
Qed.
Print Assumptions C06_only_overflow.

(** ** C07 *)
Definition double (l : loc) : loc :=
  mkLoc (l_lang l) (2 * l_code l) (2 * l_comments l) (2 * l_blanks l) (2 * l_files l).

Theorem C07_loc_self_add :
  forall ops h ids, run_loc_ops ([], []) ops = Ok (h, ids) ->
  forall i lst items, nth_error ids i = Some lst -> list_items h lst = Ok items ->
  match loc_list_add_loc_list (S (length h)) h lst lst with
  | Ok h' => list_items h' lst = Ok (map double items)
  | Ub w => w = IntOverflow
  | OutOfFuel => False
  end.
Proof.
  intros ops h ids H i lst items Hi Hit.
  assert (Hrun : run_loc_ops ([], []) (ops ++ [LAddList i i]) =
                 (h' <- loc_list_add_loc_list (S (length h)) h lst lst ;; Ok (h', ids))).
  { clear Hit. revert H. generalize (@nil (node loc), @nil nat).
    induction ops as [|op r IH]; intros st H; cbn [run_loc_ops app] in *.
    - injection H as ->. cbn [run_loc_op]. rewrite Hi.
      destruct (loc_list_add_loc_list _ _ _ _); reflexivity.
    - apply bind_ok in H as (st' & E & H). rewrite E. cbn [bind]. auto. }
  pose proof (C06_only_overflow (ops ++ [LAddList i i])) as Hof. rewrite Hrun in Hof.
  destruct (C01_loc_list_accumulates _ _ _ H) as [Hlen HG].
  destruct (nth_error (bags_of ops) i) as [b|] eqn:Eb.
  2:{ apply nth_error_None in Eb. assert (nth_error ids i <> None) by congruence.
      apply nth_error_Some in H0. lia. }
  destruct (HG _ _ _ Hi Eb) as (Hit' & _). rewrite Hit' in Hit. injection Hit as <-.
  destruct (loc_list_add_loc_list _ _ _ _) as [h'| |]; cbn [bind] in *; auto.
  destruct (C01_loc_list_accumulates _ _ _ Hrun) as [_ HG'].
  destruct (HG' i lst (b ++ b)%list Hi) as (Hit2 & _).
  { unfold bags_of. rewrite fold_left_app. cbn. fold (bags_of ops). rewrite Eb.
    apply nth_error_upd_eq. apply nth_error_Some. congruence. }
  rewrite Hit2. f_equal. unfold summary. rewrite map_app, first_occ_app.
  rewrite filter_none.
  2:{ intros x Hx. rewrite in_first_occ in Hx. unfold fresh. apply negb_false_iff.
      apply existsb_exists. exists x. split; auto. apply String.eqb_refl. }
  rewrite app_nil_r, map_map. apply map_ext. intros g. unfold sum_loc, double.
  cbn [l_lang l_code l_comments l_blanks l_files]. rewrite !sum_by_app. f_equal; lia.
Qed.
Print Assumptions C07_loc_self_add.

Example C07_loc_case :
  match run_loc_ops ([], []) [LNew; LAdd 0 (mkLoc "c" 1 2 3 1); LAdd 0 (mkLoc "d" 4 0 0 1)] with
  | Ok (h, ids) =>
    match loc_list_add_loc_list (S (length h)) h (nth 0 ids 0%nat) (nth 0 ids 0%nat) with
    | Ok h' => list_items h' (nth 0 ids 0%nat) = Ok [mkLoc "c" 2 4 6 2; mkLoc "d" 8 0 0 2]
    | _ => False end
  | _ => False end.
Proof. vm_compute. reflexivity. Qed.

(** A LocDeltaList with two languages never finishes adding itself to itself
    (unless doubling the first entry already overflows). *)
Theorem C07_delta_self_add_refuted :
  forall ops h ids, run_delta_ops ([], []) ops = Ok (h, ids) ->
  forall i lst x y r, nth_error ids i = Some lst -> list_items h lst = Ok (x :: y :: r) ->
  is_ok (delta_add_delta x x) ->
  forall fuel, delta_list_add_delta_list fuel h lst lst = OutOfFuel.
Proof.
  intros ops h ids H i lst x y r Hi Hit Hok fuel.
  destruct (delta_history_lemma _ _ _ H) as [Hlen Hrep].
  destruct (nth_error (dbags_of ops) i) as [b|] eqn:Eb.
  2:{ apply nth_error_None in Eb. assert (nth_error ids i <> None) by congruence.
      apply nth_error_Some in H0. lia. }
  destruct (Hrep _ _ _ Hi Eb) as [addrs Hr].
  pose proof (list_items_rep _ _ _ _ Hr) as E. rewrite Hit in E. injection E as E.
  eapply delta_self_add_diverges; eauto.
Qed.
Print Assumptions C07_delta_self_add_refuted.

Theorem C07_delta_self_add_single :
  forall ops h ids, run_delta_ops ([], []) ops = Ok (h, ids) ->
  forall i lst x v, nth_error ids i = Some lst -> list_items h lst = Ok [x] ->
  delta_add_delta x x = Ok v ->
  exists h', delta_list_add_delta_list 1 h lst lst = Ok h' /\ list_items h' lst = Ok [v].
Proof.
  intros ops h ids H i lst x v Hi Hit Hv.
  destruct (delta_history_lemma _ _ _ H) as [Hlen Hrep].
  destruct (nth_error (dbags_of ops) i) as [b|] eqn:Eb.
  2:{ apply nth_error_None in Eb. assert (nth_error ids i <> None) by congruence.
      apply nth_error_Some in H0. lia. }
  destruct (Hrep _ _ _ Hi Eb) as [addrs Hr].
  pose proof (list_items_rep _ _ _ _ Hr) as E. rewrite Hit in E. injection E as E.
  rewrite <- E in Hr.
  destruct (delta_self_add_single _ _ _ _ _ Hr Hv) as (h' & E' & addrs' & Hr').
  exists h'. split; auto. eapply list_items_rep; eauto.
Qed.
Print Assumptions C07_delta_self_add_single.

Example C07_delta_case :
  match run_delta_ops ([], []) [DNew; DAdd 0 (mkDelta "c" 1 0 0 0 0 0); DAdd 0 (mkDelta "d" 1 0 0 0 0 0)] with
  | Ok (h, ids) =>
    list_items h (nth 0 ids 0%nat) = Ok [mkDelta "c" 1 0 0 0 0 0; mkDelta "d" 1 0 0 0 0 0] /\
    delta_add_delta (mkDelta "c" 1 0 0 0 0 0) (mkDelta "c" 1 0 0 0 0 0) = Ok (mkDelta "c" 2 0 0 0 0 0) /\
    delta_list_add_delta_list 50 h (nth 0 ids 0%nat) (nth 0 ids 0%nat) = OutOfFuel
  | _ => False end.
Proof. vm_compute. repeat split. Qed.

(** ** C90: comparing counts *)

(** Two counts are called equal exactly if they are, in every field. *)
Theorem C90_loc_equal : forall l other, loc_is_equal l other = true <-> l = other.
Proof.
  intros [a b c d e] [a' b' c' d' e']. unfold loc_is_equal. cbn.
  rewrite !andb_true_iff, String.eqb_eq, !Z.eqb_eq. split.
  - now intros ((((-> & ->) & ->) & ->) & ->).
  - intros H. injection H as -> -> -> -> ->. repeat split.
Qed.
Theorem C90_delta_equal : forall d other, delta_is_equal d other = true <-> d = other.
Proof.
  intros [a b c d e f g] [a' b' c' d' e' f' g']. unfold delta_is_equal. cbn.
  rewrite !andb_true_iff, String.eqb_eq, !Z.eqb_eq. split.
  - now intros ((((((-> & ->) & ->) & ->) & ->) & ->) & ->).
  - intros H. injection H as -> -> -> -> -> -> ->. repeat split.
Qed.

(** A delta is called unchanged exactly if adding it changes nothing, whatever it is added to. *)
Theorem C90_changed : forall d,
  delta_is_changed d = false <->
  forall a b c e f g,
    Forall (fun z => int_min <= z <= int_max) [a; b; c; e; f; g] ->
    delta_add_delta (mkDelta (d_lang d) a b c e f g) d = Ok (mkDelta (d_lang d) a b c e f g).
Proof.
  intros [l a' b' c' e' f' g']. unfold delta_is_changed, delta_add_delta. cbn. rewrite String.eqb_refl. split.
  - rewrite !orb_false_iff, !negb_false_iff, !Z.eqb_eq. intros (((((-> & ->) & ->) & ->) & ->) & ->) a b c e f g H.
    rewrite !Z.add_0_r. repeat match goal with [ H : Forall _ (_ :: _) |- _ ] => inversion H; clear H; subst end.
    rewrite !ckint_ok by assumption. reflexivity.
  - intros H. specialize (H 0 0 0 0 0 0). rewrite !Z.add_0_l in H.
    assert (Forall (fun z => int_min <= z <= int_max) [0; 0; 0; 0; 0; 0]) as H0
      by (repeat constructor; unfold int_min, int_max; lia).
    specialize (H H0).
    destruct (ckint a') eqn:E1; try discriminate. destruct (ckint b') eqn:E2; try discriminate.
    destruct (ckint c') eqn:E3; try discriminate. destruct (ckint e') eqn:E4; try discriminate.
    destruct (ckint f') eqn:E5; try discriminate. destruct (ckint g') eqn:E6; try discriminate.
    cbn in H. injection H as -> -> -> -> -> ->.
    apply ckint_inv in E1 as [<- _]. apply ckint_inv in E2 as [<- _]. apply ckint_inv in E3 as [<- _].
    apply ckint_inv in E4 as [<- _]. apply ckint_inv in E5 as [<- _]. apply ckint_inv in E6 as [<- _]. reflexivity.
Qed.
(** This is more than that its net effect is zero. *)
Theorem C90_net_refuted : exists d, delta_net_total d = Ok 0 /\ delta_net_code d = Ok 0 /\ delta_is_changed d = true.
Proof. exists (mkDelta "c" 3 3 0 0 1 1). vm_compute. auto. Qed.
Print Assumptions C90_loc_equal.
Print Assumptions C90_delta_equal.
Print Assumptions C90_changed.
Print Assumptions C90_net_refuted.

Example C90_case :
  loc_is_equal (mkLoc "c" 1 2 3 1) (mkLoc "c" 1 2 3 1) = true /\ loc_is_equal (mkLoc "c" 1 2 3 1) (mkLoc "c" 1 2 3 2) = false /\
  delta_is_changed (mkDelta "c" 0 0 0 0 0 0) = false /\ delta_is_changed (mkDelta "c" 0 0 0 0 0 1) = true.
Proof. vm_compute. auto. Qed.
