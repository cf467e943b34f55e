(** Proofs about FileDiffModel. *)
From Coq Require Import ZArith String List Bool Lia.
From Verif Require Import Base Arr LocModel HeapProofs LocSpec LocProofs DeltaProofs DiffModel
  ParsedModel ParsedSpec ParsedProofs FileDiffModel FileDiffSpec.
Import ListNotations.
Open Scope Z_scope.

Fixpoint mapM {A B} (f : A -> res B) (l : list A) : res (list B) :=
  match l with
  | [] => Ok []
  | x :: r => y <- f x ;; ys <- mapM f r ;; Ok (y :: ys)
  end.

Lemma mapM_app {A B} (f : A -> res B) a b :
  mapM f (a ++ b) = (x <- mapM f a ;; y <- mapM f b ;; Ok (x ++ y)).
Proof.
  induction a as [|c a IH]; cbn [app mapM bind].
  - destruct (mapM f b); reflexivity.
  - destruct (f c); cbn [bind]; auto. rewrite IH. destruct (mapM f a); cbn [bind]; auto.
    destruct (mapM f b); cbn [bind]; auto.
Qed.

Lemma mapM_ok {A B} (f : A -> res B) l : (forall x, In x l -> exists y, f x = Ok y) -> exists ys, mapM f l = Ok ys.
Proof.
  induction l as [|x l IH]; intros H; cbn; [eauto|].
  destruct (H x) as [y ->]; [cbn; auto|]. cbn [bind]. destruct IH as [ys ->]; [intros; apply H; cbn; auto|]. cbn. eauto.
Qed.

Lemma mapM_inv {A B} (f : A -> res B) l : forall ys, mapM f l = Ok ys -> Forall2 (fun x y => f x = Ok y) l ys.
Proof.
  induction l as [|x l IH]; intros ys H; cbn in H.
  - injection H as <-. constructor.
  - apply bind_ok in H as (y & Hy & H). apply bind_ok in H as (ys' & Hys & H). injection H as <-. constructor; auto.
Qed.

Section Diff.
  Variable slack : Z.
  Variable difftool : list Z -> list Z -> list Z.
  Variables from to : list plang.

  Let D g := calc_loc_delta slack difftool from g to.

  Lemma D_lang g d : D g = Ok d -> d_lang d = g.
  Proof.
    unfold D, calc_loc_delta. intros H.
    repeat (apply bind_ok in H as (? & _ & H); cbn beta in H).
    repeat match type of H with context [let '(_, _) := ?x in _] => destruct x end.
    repeat (apply bind_ok in H as (? & _ & H); cbn beta in H).
    repeat match type of H with context [let '(_, _) := ?x in _] => destruct x end.
    destruct (_ >? _); apply bind_ok in H as (? & _ & H); injection H as <-; reflexivity.
  Qed.

  Lemma d_add_fresh xs d : ~ In (d_lang d) (map d_lang xs) -> d_add xs d = Ok (xs ++ [d]).
  Proof.
    destruct xs as [|x r]; cbn; auto. intros H. destruct (String.eqb_spec (d_lang x) (d_lang d)); auto. tauto.
  Qed.

  Lemma diff_from_ok lst l : forall h addrs ds, rep h lst addrs ds -> NoDup (map d_lang ds ++ map p_name l) ->
    match mapM D (map p_name l) with
    | Ok new => exists h' addrs', diff_from slack difftool from to h lst l = Ok h' /\ rep h' lst addrs' (ds ++ new)
    | Ub w => diff_from slack difftool from to h lst l = Ub w
    | OutOfFuel => diff_from slack difftool from to h lst l = OutOfFuel
    end.
  Proof.
    induction l as [|pl l IH]; intros h addrs ds Hr Hnd; cbn [map mapM diff_from].
    - exists h, addrs. rewrite app_nil_r. auto.
    - fold (D (p_name pl)). destruct (D (p_name pl)) as [d|w|] eqn:Ed; cbn [bind]; auto.
      apply D_lang in Ed. cbn [map] in Hnd.
      assert (Hf : ~ In (d_lang d) (map d_lang ds)).
      { intros Hin. rewrite Ed in Hin. apply NoDup_remove_2 in Hnd. apply Hnd. apply in_app_iff. auto. }
      pose proof (add_delta_rep h lst addrs ds d Hr) as Ha. rewrite d_add_fresh in Ha by auto.
      destruct Ha as (h1 & a1 & E1 & Hr1 & _). rewrite E1. cbn [bind].
      specialize (IH h1 a1 (ds ++ [d]) Hr1). rewrite map_app in IH. cbn [map] in IH. rewrite Ed, <- app_assoc in IH.
      specialize (IH Hnd). destruct (mapM D (map p_name l)) as [new|w|]; cbn [bind]; auto.
      destruct IH as (h' & a' & E & Hr'). exists h', a'. split; auto. rewrite <- app_assoc in Hr'. exact Hr'.
  Qed.

  Lemma find_lang g (ds : list delta) :
    find (fun d => String.eqb (d_lang d) g) ds = None <-> existsb (String.eqb g) (map d_lang ds) = false.
  Proof.
    induction ds as [|d ds IH]; cbn; [tauto|]. rewrite (String.eqb_sym g).
    destruct (String.eqb (d_lang d) g); cbn; [split; discriminate|auto].
  Qed.

  Lemma diff_to_ok lst n1 l : forall h addrs ds, rep h lst addrs ds -> NoDup (map p_name l) ->
    (forall g, In g (map p_name l) -> existsb (String.eqb g) (map d_lang ds) = existsb (String.eqb g) n1) ->
    match mapM D (filter (fresh n1) (map p_name l)) with
    | Ok new => exists h' addrs', diff_to slack difftool from to h lst l = Ok h' /\ rep h' lst addrs' (ds ++ new)
    | Ub w => diff_to slack difftool from to h lst l = Ub w
    | OutOfFuel => diff_to slack difftool from to h lst l = OutOfFuel
    end.
  Proof.
    induction l as [|pl l IH]; intros h addrs ds Hr Hnd Hn; cbn [map filter mapM diff_to].
    - exists h, addrs. rewrite app_nil_r. auto.
    - assert (Eg : delta_list_get_delta h lst (p_name pl) = Ok (find (fun d => String.eqb (d_lang d) (p_name pl)) ds)).
      { unfold delta_list_get_delta. destruct (rep_head _ _ _ _ Hr) as (n & Hnn & _ & Hc). cbn [deref].
        rewrite Hnn. cbn [bind]. destruct (rep_fuel _ _ _ _ Hr). apply (get_loop_chain d_lang h addrs ds); auto; lia. }
      rewrite Eg. cbn [bind]. unfold fresh at 1. pose proof (Hn (p_name pl) ltac:(cbn; auto)) as Hpl. rewrite <- Hpl.
      cbn [map] in Hnd. inversion Hnd as [|? ? Hni Hnd']; subst.
      destruct (find _ ds) as [d0|] eqn:Ef.
      + assert (existsb (String.eqb (p_name pl)) (map d_lang ds) = true) as ->.
        { destruct (existsb _ (map d_lang ds)) eqn:E; auto. apply find_lang in E. congruence. }
        cbn [negb bind]. apply (IH h addrs ds); auto. intros; apply Hn; cbn; auto.
      + apply find_lang in Ef as Ef'. rewrite Ef'. cbn [negb mapM].
        fold (D (p_name pl)). destruct (D (p_name pl)) as [d|w|] eqn:Ed; cbn [bind]; auto.
        apply D_lang in Ed.
        assert (Hf : ~ In (d_lang d) (map d_lang ds)).
        { intros Hin. rewrite Ed in Hin. rewrite <- not_true_iff_false in Ef'. apply Ef'. apply existsb_exists.
          exists (p_name pl). split; auto. apply String.eqb_refl. }
        pose proof (add_delta_rep h lst addrs ds d Hr) as Ha. rewrite d_add_fresh in Ha by auto.
        destruct Ha as (h1 & a1 & E1 & Hr1 & _). rewrite E1. cbn [bind].
        specialize (IH h1 a1 (ds ++ [d]) Hr1 Hnd').
        assert (Hx : forall g, In g (map p_name l) ->
          existsb (String.eqb g) (map d_lang (ds ++ [d])) = existsb (String.eqb g) n1).
        { intros g Hg. rewrite map_app, existsb_app. cbn [map existsb]. rewrite orb_false_r, (Hn g) by (cbn; auto).
          rewrite Ed. destruct (String.eqb_spec g (p_name pl)) as [->|]; [contradiction|]. apply orb_false_r. }
        specialize (IH Hx). destruct (mapM D (filter (fresh n1) (map p_name l))) as [new|w|]; cbn [bind]; auto.
        destruct IH as (h' & a' & E & Hr'). exists h', a'. split; auto. rewrite <- app_assoc in Hr'. exact Hr'.
  Qed.

  Lemma mapM_D_langs l : forall ds, mapM D l = Ok ds -> map d_lang ds = l.
  Proof.
    induction l as [|g l IH]; intros ds H; cbn in H.
    - injection H as <-. auto.
    - apply bind_ok in H as (y & Hy & H). apply bind_ok in H as (ys' & Hys & H). injection H as <-.
      cbn. f_equal; auto. apply D_lang. auto.
  Qed.

  Lemma sourcefile_diff_ok : NoDup (map p_name from) -> NoDup (map p_name to) ->
    match mapM D (first_occ (map p_name from ++ map p_name to)) with
    | Ok ds => exists h lst addrs, sourcefile_diff slack difftool from to = Ok (h, lst) /\ rep h lst addrs ds
    | Ub w => sourcefile_diff slack difftool from to = Ub w
    | OutOfFuel => sourcefile_diff slack difftool from to = OutOfFuel
    end.
  Proof.
    intros N1 N2. rewrite first_occ_app, !first_occ_nodup by auto. rewrite mapM_app.
    unfold sourcefile_diff. pose proof (rep_new (A := delta) []) as Hr0. destruct (node_new []) as [h0 lst] eqn:E0.
    assert (lst = 0%nat) as -> by (unfold node_new in E0; injection E0; auto). cbn [fst length] in Hr0.
    pose proof (diff_from_ok 0%nat from h0 [] [] Hr0 N1) as H1.
    destruct (mapM D (map p_name from)) as [ds1|w|] eqn:E1; cbn [bind]; try (rewrite H1; reflexivity).
    destruct H1 as (h1 & a1 & -> & Hr1). cbn [bind app] in *.
    pose proof (diff_to_ok 0%nat (map p_name from) to h1 a1 ds1 Hr1 N2) as H2.
    rewrite (mapM_D_langs _ _ E1) in H2. specialize (H2 (fun g _ => eq_refl)).
    destruct (mapM D (filter (fresh (map p_name from)) (map p_name to))) as [ds2|w|]; cbn [bind]; try (rewrite H2; reflexivity).
    destruct H2 as (h2 & a2 & -> & Hr2). cbn [bind]. eauto 6.
  Qed.
End Diff.

(** Compaction of a list with distinct languages. *)
Lemma dc_add_all_distinct ys : forall xs, NoDup (map d_lang xs ++ map d_lang ys) ->
  dc_add_all xs ys = Ok (xs ++ filter changed ys).
Proof.
  induction ys as [|y ys IH]; intros xs Hnd; cbn [dc_add_all filter map] in *; [rewrite app_nil_r; auto|].
  rewrite delta_is_changed_spec. destruct (changed y).
  - rewrite d_add_fresh.
    2:{ intros Hin. apply NoDup_remove_2 in Hnd. apply Hnd. apply in_app_iff. auto. }
    cbn [bind]. rewrite IH; [rewrite <- app_assoc; auto|]. rewrite map_app, <- app_assoc. auto.
  - cbn [bind]. apply IH. apply NoDup_remove_1 in Hnd. auto.
Qed.

Lemma compact_rep (h : heap delta) lst addrs ds : rep h lst addrs ds -> NoDup (map d_lang ds) ->
  exists h' lst' addrs', delta_list_new_compact h lst = Ok (h', lst') /\ rep h' lst' addrs' (filter changed ds).
Proof.
  intros Hr Hnd. unfold delta_list_new_compact. cbn [deref node_new].
  destruct (rep_head _ _ _ _ Hr) as (n & Hn & Hh & Hc). rewrite Hn. cbn [bind].
  destruct (rep_fuel _ _ _ _ Hr) as [Hfu Hln].
  set (h1 := h ++ [mkNode None None None None]) in *.
  assert (Hc1 : chain h1 (n_head n) addrs ds).
  { eapply chain_ext; [|exact Hc]. intros a Ha. apply nth_error_app1. eapply chain_bound; eauto. }
  assert (Hd : forall a, In a addrs -> ~ In a (footprint (length h) [])).
  { intros a Ha [<-|[]]. pose proof (chain_bound _ _ _ _ _ Hc Ha). lia. }
  pose proof (dcompact_loop_other addrs ds h1 (length h) [] [] (n_head n)
                (S (length h)) (rep_new h) Hc1 Hd ltac:(lia)) as Hs.
  rewrite dc_add_all_distinct in Hs by (cbn; auto). cbn [app] in Hs.
  destruct Hs as (h' & a' & E & Hr' & _). rewrite E. cbn [bind]. eauto.
Qed.

(** * From the parse results to the texts *)
Lemma find_pl_text text es l g blank : list_inv text es l -> ~ In 0 text -> fits text es ->
  plang_new g 0 = Ok blank ->
  area_string (p_code (find_pl l g blank)) = Ok (code_text (mkRev text es) g) /\
  area_string (p_comments (find_pl l g blank)) = Ok (comment_text (mkRev text es) g) /\
  p_blanks (find_pl l g blank) = blank_lines (mkRev text es) g.
Proof.
  intros [Hm Hl] Hz [F1 F2] Hb. unfold find_pl, code_text, comment_text, blank_lines. cbn [r_text r_events].
  destruct (find (fun pl => String.eqb g (p_name pl)) l) as [pl|] eqn:Ef.
  - apply find_some in Ef as [Hin He]. apply String.eqb_eq in He. subst g.
    destruct (Hl pl Hin) as (_ & _ & H3 & H4 & H5).
    pose proof (area_string_ok _ _ _ H3) as S3. pose proof (area_string_ok _ _ _ H4) as S4.
    rewrite upto_nul_id in S3 by (apply (lines_nonul text); auto).
    rewrite upto_nul_id in S4 by (apply (lines_nonul text); auto).
    rewrite kept_all in S3 by apply F1. rewrite kept_all in S4 by apply F2. auto.
  - assert (Hni : ~ In g (map e_lang es)).
    { intros Hin. apply in_first_occ in Hin. rewrite <- Hm in Hin. apply in_map_iff in Hin as (pl & <- & Hpl).
      apply (find_none _ _ Ef) in Hpl. rewrite String.eqb_refl in Hpl. discriminate. }
    assert (He : forall k, events_of g k es = []).
    { intros k. unfold events_of. clear -Hni. induction es as [|e es IH]; cbn; auto.
      rewrite is_event_other; [apply IH|]; cbn in Hni; tauto. }
    unfold lines_of. rewrite !He. cbn [map concat length].
    destruct (plang_new_ok [] [] g) as (pl & E & _ & _ & P3 & P4 & P5); [cbn; unfold int_max; lia|cbn; tauto|].
    cbn [length Z.of_nat] in E. rewrite E in Hb. injection Hb as ->.
    pose proof (area_string_ok _ _ _ P3) as S3. pose proof (area_string_ok _ _ _ P4) as S4. auto.
Qed.

Lemma calc_delta_spec slack tool t1 es1 l1 t2 es2 l2 g :
  list_inv t1 es1 l1 -> ~ In 0 t1 -> fits t1 es1 -> list_inv t2 es2 l2 -> ~ In 0 t2 -> fits t2 es2 ->
  Z.of_nat (length es1) <= int_max -> Z.of_nat (length es2) <= int_max ->
  calc_loc_delta slack tool l1 g l2 =
    ('(ca, cr) <- calc_diff slack tool (code_text (mkRev t1 es1) g) (code_text (mkRev t2 es2) g) ;;
     '(ma, mr) <- calc_diff slack tool (comment_text (mkRev t1 es1) g) (comment_text (mkRev t2 es2) g) ;;
     Ok (mkDelta g ca cr ma mr (Z.max 0 (blank_lines (mkRev t2 es2) g - blank_lines (mkRev t1 es1) g))
                               (Z.max 0 (blank_lines (mkRev t1 es1) g - blank_lines (mkRev t2 es2) g)))).
Proof.
  intros I1 Z1 F1 I2 Z2 F2 N1 N2. unfold calc_loc_delta.
  destruct (plang_new_ok [] [] g) as (blank & Eb & _); [cbn; unfold int_max; lia|cbn; tauto|].
  cbn [length Z.of_nat] in Eb. rewrite Eb. cbn [bind].
  destruct (find_pl_text t1 es1 l1 g blank I1 Z1 F1 Eb) as (A1 & B1 & C1).
  destruct (find_pl_text t2 es2 l2 g blank I2 Z2 F2 Eb) as (A2 & B2 & C2).
  rewrite A1, A2, B1, B2, C1, C2. cbn [bind].
  destruct (calc_diff slack tool (code_text (mkRev t1 es1) g) (code_text (mkRev t2 es2) g)) as [[ca cr]|w|]; cbn [bind]; auto.
  destruct (calc_diff slack tool (comment_text (mkRev t1 es1) g) (comment_text (mkRev t2 es2) g)) as [[ma mr]|w|]; cbn [bind]; auto.
  set (b1 := blank_lines (mkRev t1 es1) g). set (b2 := blank_lines (mkRev t2 es2) g).
  assert (0 <= b1 <= int_max /\ 0 <= b2 <= int_max).
  { unfold b1, b2, blank_lines. cbn [r_events]. pose proof (events_of_length g "lblank" es1). pose proof (events_of_length g "lblank" es2). lia. }
  destruct (Z.gtb_spec b1 b2); rewrite ckint_ok by (unfold int_min, int_max in *; lia); cbn [bind]; do 2 f_equal; lia.
Qed.
