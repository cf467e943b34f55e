(** Licence detection: which matches survive, and what is reported. *)
From Coq Require Import ZArith String List Bool Lia Wf_nat.
From Verif Require Import Base Arr ParsedModel DetectorSpec RegexModel RegexSpec LicenseTable LicenseModel LicenseSpec
  LicenseProofs.
Import ListNotations.
Open Scope Z_scope.
Open Scope list_scope.

(** ** Places *)
Definition inside (a b : Z * Z) : bool :=
  (fst b <=? fst a) && (snd a <=? snd b) && negb ((fst a =? fst b) && (snd a =? snd b)).

Lemma inside_iff a b : inside a b = true <-> part_of a b.
Proof.
  destruct a as [a0 a1], b as [b0 b1]. unfold inside, part_of. cbn.
  rewrite !andb_true_iff, !Z.leb_le, negb_true_iff, andb_false_iff, !Z.eqb_neq. split.
  - intros [[A B] C]. repeat split; auto. intros [= -> ->]. lia.
  - intros (A & B & C). repeat split; auto. destruct (Z.eq_dec a0 b0) as [->|]; [|auto]. right. intros ->. auto.
Qed.

Lemma inside_cpp a0 a1 b0 b1 : ((b0 <? a0) && (a1 <=? b1)) || ((b0 <=? a0) && (a1 <? b1)) = inside (a0, a1) (b0, b1).
Proof.
  apply eq_true_iff_eq. rewrite inside_iff. unfold part_of. cbn.
  rewrite orb_true_iff, !andb_true_iff, !Z.leb_le, !Z.ltb_lt. split.
  - intros [[A B]|[A B]]; repeat split; try lia; intros [= -> ->]; lia.
  - intros (A & B & C). destruct (Z.eq_dec a0 b0) as [->|]; [right|left]; [|lia].
    destruct (Z.eq_dec a1 b1) as [->|]; [congruence|lia].
Qed.

Lemma part_trans a b c : part_of a b -> part_of b c -> part_of a c.
Proof.
  destruct a as [a0 a1], b as [b0 b1], c as [c0 c1]. unfold part_of; cbn. intros (A & B & N) (C & D & M).
  repeat split; try lia. intros [= -> ->]. apply N. f_equal; lia.
Qed.

Definition Place (bound : Z) (m : Z * Z) : Prop := 0 <= fst m <= snd m /\ snd m <= bound.

(** Every place is part of a largest one. *)
Lemma largest bound (P : list (Z * Z)) : Forall (Place bound) P -> forall m, In m P ->
  exists m', In m' P /\ (m' = m \/ part_of m m') /\ forall x, In x P -> ~ part_of m' x.
Proof.
  intros F m. rewrite Forall_forall in F.
  remember (Z.to_nat (bound - (snd m - fst m))) as k eqn:K. revert m K.
  induction k as [k IH] using lt_wf_ind. intros m K I.
  destruct (existsb (inside m) P) eqn:E.
  - apply existsb_exists in E as (x & IX & PX). apply inside_iff in PX.
    destruct (IH (Z.to_nat (bound - (snd x - fst x)))) with (m := x) as (m' & IM & C & N); auto.
    + pose proof (F _ I) as [A1 A2]. pose proof (F _ IX) as [B1 B2]. destruct m as [m0 m1], x as [x0 x1].
      destruct PX as (P1 & P2 & P3). cbn in *. subst k.
      assert (~ (m0 = x0 /\ m1 = x1)) by (intros [-> ->]; auto). lia.
    + exists m'. repeat split; auto. right. destruct C as [-> |C]; [auto|]. eapply part_trans; eauto.
  - exists m. repeat split; auto. intros x IX PX. apply inside_iff in PX.
    assert (existsb (inside m) P = true) by (apply existsb_exists; eauto). congruence.
Qed.

(** ** The table of places *)
Notation none := (-1, -1).

Definition somes (ms : list (option (Z * Z))) : list (Z * Z) :=
  flat_map (fun m => match m with Some x => [x] | None => [] end) ms.

Lemma in_somes ms x : In x (somes ms) <-> In (Some x) ms.
Proof.
  unfold somes. rewrite in_flat_map. split.
  - intros ([y|] & I & H); [|destruct H]. destruct H as [-> |[]]. exact I.
  - intros I. exists (Some x). split; [exact I|left; reflexivity].
Qed.

(** The value of an entry when the matches [ms] are known. *)
Definition value (ms : list (option (Z * Z))) (m : option (Z * Z)) : Z * Z :=
  match m with
  | Some x => if existsb (inside x) (somes ms) then none else x
  | None => none
  end.

Lemma sweep_eq m0 m1 done : forall cur, sweep m0 m1 done cur =
  (map (fun k => if inside k (m0, m1) then none else k) done,
   if existsb (inside (m0, m1)) done then none else cur).
Proof.
  induction done as [|[s e] r IH]; intros cur; cbn [sweep map existsb]; [reflexivity|].
  rewrite !inside_cpp, IH. cbv zeta.
  destruct (inside (m0, m1) (s, e)); cbn [orb]; [|reflexivity].
  destruct (existsb _ r); reflexivity.
Qed.

Lemma existsb_app_ {A} (f : A -> bool) a b : existsb f (a ++ b) = existsb f a || existsb f b.
Proof. induction a; cbn; [reflexivity|]. rewrite IHa. apply orb_assoc. Qed.

(** One more entry. *)
Lemma sweep_value bound ms m : Forall (Place bound) (somes (ms ++ [Some m])) ->
  let '(d, c) := sweep (fst m) (snd m) (map (value ms) ms) m in
  d ++ [c] = map (value (ms ++ [Some m])) (ms ++ [Some m]).
Proof.
  intros F. rewrite sweep_eq, map_app. cbn [map].
  assert (SO : somes (ms ++ [Some m]) = somes ms ++ [m]) by (unfold somes; rewrite flat_map_app; reflexivity).
  rewrite SO in F. apply Forall_app in F as [F FM]. apply Forall_inv in FM.
  f_equal; [|f_equal].
  - rewrite map_map. apply map_ext_in. intros [x|] I; cbn [value].
    + rewrite SO, existsb_app_. cbn [existsb]. rewrite orb_false_r.
      destruct (existsb (inside x) (somes ms)) eqn:E; cbn [orb].
      * destruct m; destruct (inside none _); reflexivity.
      * destruct m; cbn [fst snd]. reflexivity.
    + destruct m; destruct (inside none _); reflexivity.
  - replace (fst m, snd m) with m by (destruct m; reflexivity). cbn [value]. rewrite SO, existsb_app_. cbn [existsb].
    assert (SELF : inside m m = false).
    { destruct (inside m m) eqn:E; [|reflexivity]. apply inside_iff in E. destruct E as (_ & _ & N). congruence. }
    rewrite SELF, !orb_false_r.
    destruct (existsb (inside m) (somes ms)) eqn:E.
    + apply existsb_exists in E as (x & I & PX). apply inside_iff in PX.
      destruct (largest bound (somes ms) F x I) as (y & IY & C & N).
      replace (existsb (inside m) (map (value ms) ms)) with true; [reflexivity|]. symmetry. apply existsb_exists.
      exists y. split.
      * apply in_map_iff. exists (Some y). split; [|apply in_somes; exact IY]. cbn [value].
        replace (existsb (inside y) (somes ms)) with false; [reflexivity|]. symmetry.
        destruct (existsb (inside y) (somes ms)) eqn:EY; [|reflexivity].
        apply existsb_exists in EY as (z & IZ & PZ). apply inside_iff in PZ. destruct (N z); auto.
      * apply inside_iff. destruct C as [-> |C]; [exact PX|]. eapply part_trans; eauto.
    + replace (existsb (inside m) (map (value ms) ms)) with false; [reflexivity|]. symmetry.
      destruct (existsb (inside m) (map (value ms) ms)) eqn:EY; [|reflexivity].
      apply existsb_exists in EY as (z & IZ & PZ). apply in_map_iff in IZ as ([x|] & V & IX).
      * cbn [value] in V. destruct (existsb (inside x) (somes ms)).
        -- subst z. apply inside_iff in PZ. destruct PZ as (A & B & _). destruct FM as [C D]. cbn in *. lia.
        -- subst z. rewrite <- E. symmetry. apply existsb_exists. exists x. split; [apply in_somes; exact IX|exact PZ].
      * cbn in V. subst z. apply inside_iff in PZ. destruct PZ as (A & B & _). destruct FM as [C D]. cbn in *. lia.
Qed.

Lemma value_none ms m : value (ms ++ [None]) m = value ms m.
Proof.
  destruct m as [x|]; [|reflexivity]. cbn [value].
  unfold somes. rewrite flat_map_app. cbn. rewrite app_nil_r. reflexivity.
Qed.

Section Engine.
  Variable exec : flags -> string -> list Z -> option (Z * Z).

  Lemma scan_length t ls : forall done found, scan exec t ls done = Ok found -> (length found = length done + length ls)%nat.
  Proof.
    induction ls as [|l ls IH]; intros done found; cbn [scan].
    - intros H. apply bind_ok in H || injection H as <-. cbn. lia.
    - intros H. apply bind_ok in H as ([[m0 m1]|] & C & H).
      + rewrite sweep_eq in H. apply IH in H. rewrite app_length, map_length in H. cbn in *. lia.
      + apply IH in H. rewrite app_length in H. cbn in *. lia.
  Qed.

  Hypothesis OKE : engine_ok exec.

  Lemma candidate_ok t l : exists m, candidate exec t l = Ok m /\ (forall x, m = Some x <-> mentioned exec t l x) /\
    match m with Some x => Place (Z.of_nat (length t)) x | None => True end.
  Proof.
    unfold candidate, mentioned. change (compile_flags (l_re_flags l)) with (options (l_re_flags l)).
    change (compile_flags (l_exclude_re_flags l)) with (options (l_exclude_re_flags l)).
    destruct (exec (options (l_re_flags l)) (l_re l) t) as [[m0 m1]|] eqn:E.
    2: { exists None. repeat split; try discriminate. intros [H _]. discriminate. }
    pose proof (OKE _ _ _ _ _ E) as [B1 B2].
    destruct (l_exclude_re l) as [x|].
    2: { exists (Some (m0, m1)). repeat split; cbn; try lia; try congruence. intros [H _]. exact H. }
    unfold stretch.
    replace (0 <=? m0) with true by (symmetry; apply Z.leb_le; lia).
    replace (m0 <=? m1) with true by (symmetry; apply Z.leb_le; lia).
    replace (m1 <=? Z.of_nat (length t)) with true by (symmetry; apply Z.leb_le; lia).
    cbn [andb bind].
    set (a := firstn (Z.to_nat m0) t). set (s := firstn (Z.to_nat (m1 - m0)) (skipn (Z.to_nat m0) t)).
    set (b := skipn (Z.to_nat (m1 - m0)) (skipn (Z.to_nat m0) t)).
    assert (T : t = a ++ s ++ b) by (unfold a, s, b; rewrite !firstn_skipn; reflexivity).
    assert (LA : length a = Z.to_nat m0) by (unfold a; apply firstn_length_le; lia).
    assert (LS : length s = Z.to_nat (m1 - m0)) by (unfold s; apply firstn_length_le; rewrite skipn_length; lia).
    destruct (exec _ x s) as [y|] eqn:X.
    - exists None. split; [reflexivity|]. split; [|exact I]. intros z. split; [discriminate|]. intros [H N].
      injection H as <-. rewrite (N x a s b) in X; try reflexivity; try discriminate; auto; cbn [fst snd]; lia.
    - exists (Some (m0, m1)). split; [reflexivity|]. split; [|split; cbn; lia]. intros z. split.
      + intros [= <-]. split; [reflexivity|]. intros x' a' s' b' [= <-] T' A' S'. cbn [fst snd] in *.
        assert (a = a' /\ s ++ b = s' ++ b') as [-> SB].
        { rewrite T in T'. clear -T' LA A'. assert (L : length a = length a') by lia. clear LA A'.
          revert a' T' L. induction a as [|q a IH]; intros [|q' a'] T' L; try discriminate; auto.
          injection T' as -> T'. injection L as L. destruct (IH _ T' L). subst. auto. }
        assert (s = s') as <-; [|exact X].
        assert (L : length s = length s') by lia. clear -SB L. revert s' SB L.
        induction s as [|q s IH]; intros [|q' s'] SB L; try discriminate; auto.
        injection SB as -> SB. injection L as L. f_equal; eauto.
      + intros [H _]. exact H.
  Qed.

  Lemma scan_ok t ls : forall ms, Forall (Place (Z.of_nat (length t))) (somes ms) ->
    exists ms', scan exec t ls (map (value ms) ms) = Ok (map (value (ms ++ ms')) (ms ++ ms')) /\
      Forall2 (fun l m => forall x, m = Some x <-> mentioned exec t l x) ls ms' /\
      Forall (Place (Z.of_nat (length t))) (somes (ms ++ ms')).
  Proof.
    induction ls as [|l ls IH]; intros ms F; cbn [scan].
    - exists []. rewrite app_nil_r. auto.
    - destruct (candidate_ok t l) as (m & C & M & P). rewrite C. cbn [bind].
      assert (F' : Forall (Place (Z.of_nat (length t))) (somes (ms ++ [m]))).
      { unfold somes in *. rewrite flat_map_app. apply Forall_app. split; [exact F|]. destruct m; cbn; auto. }
      destruct (IH (ms ++ [m]) F') as (ms' & S & F2 & FP).
      exists (m :: ms'). rewrite <- app_assoc in S, FP. cbn [app] in *. split; [|split; auto].
      rewrite <- S. destruct m as [[m0 m1]|].
      + pose proof (sweep_value _ ms (m0, m1) F') as W. cbn [fst snd] in W.
        destruct (sweep m0 m1 (map (value ms) ms) (m0, m1)) as [d c]. rewrite W. reflexivity.
      + rewrite map_app. cbn [map value]. f_equal. f_equal. apply map_ext. intros x. symmetry. apply value_none.
  Qed.

  Lemma scan_stands t : exists ms, scan exec t license_map [] = Ok (map (value ms) ms) /\
    Forall2 (fun l m => forall x, m = Some x <-> mentioned exec t l x) license_map ms /\
    Forall (Place (Z.of_nat (length t))) (somes ms).
  Proof. destruct (scan_ok t license_map []) as (ms & H); [constructor|]. exists ms. exact H. Qed.
End Engine.

Lemma Forall2_combine {A B} (R : A -> B -> Prop) a b : Forall2 R a b -> Forall (fun x => R (fst x) (snd x)) (combine a b).
Proof. induction 1; cbn; constructor; auto. Qed.

Lemma Forall2_in_l {A B} (R : A -> B -> Prop) a b x : Forall2 R a b -> In x a -> exists y, In (x, y) (combine a b) /\ R x y.
Proof.
  induction 1 as [|p q a b r F IH]; [intros []|]. intros [-> |I].
  - exists q. cbn. auto.
  - destruct (IH I) as (y & J & K). exists y. cbn. auto.
Qed.

Lemma combine_map_r {A B C} (f : B -> C) (a : list A) b : combine a (map f b) = map (fun x => (fst x, f (snd x))) (combine a b).
Proof. revert b; induction a as [|x a IH]; intros [|y b]; cbn; f_equal; auto. Qed.

(** What the table of places says about an entry. *)
Lemma alive_iff exec t ms : Forall2 (fun l m => forall x, m = Some x <-> mentioned exec t l x) license_map ms ->
  Forall (Place (Z.of_nat (length t))) (somes ms) ->
  forall l, In l license_map -> ((exists v, In (l, v) (combine license_map (map (value ms) ms)) /\ -1 < fst v)
    <-> exists m, stands exec t l m).
Proof.
  intros F P l I. rewrite combine_map_r. pose proof (Forall2_combine _ _ _ F) as FC. rewrite Forall_forall in FC. split.
  - intros (v & J & L). apply in_map_iff in J as ([l' m] & [= -> <-] & J). specialize (FC _ J). cbn [fst snd] in *.
    destruct m as [x|]; cbn [value] in L; [|cbn in L; lia].
    destruct (existsb (inside x) (somes ms)) eqn:E; [cbn in L; lia|].
    exists x. split; [apply FC; reflexivity|]. intros l' m' I' M' PO.
    destruct (Forall2_in_l _ _ _ _ F I') as (y & IY & RY). apply (proj2 (RY m')) in M'. subst y.
    assert (existsb (inside x) (somes ms) = true); [|congruence].
    apply existsb_exists. exists m'. split; [|apply inside_iff; exact PO].
    apply in_somes. eapply in_combine_r; eauto.
  - intros (m & M & N). destruct (Forall2_in_l _ _ _ _ F I) as (y & IY & RY). apply (proj2 (RY m)) in M. subst y.
    exists m. split.
    + apply in_map_iff. exists (l, Some m). split; [|exact IY]. cbn [fst snd value]. f_equal.
      destruct (existsb (inside m) (somes ms)) eqn:E; [|reflexivity].
      apply existsb_exists in E as (x & IX & PX). apply inside_iff in PX. apply in_somes in IX.
      exfalso.
      assert (exists l', In (l', Some x) (combine license_map ms)) as (l' & IL).
      { clear -F IX. induction F as [|p q a b r F IH]; [destruct IX|]. destruct IX as [-> |IX].
        - exists p. left. reflexivity.
        - destruct (IH IX) as (l' & H). exists l'. right. exact H. }
      apply (N l' x); auto; [eapply in_combine_l; eauto|]. apply (FC _ IL). reflexivity.
    + assert (IM : In m (somes ms)) by (apply in_somes; eapply in_combine_r; eauto).
      rewrite Forall_forall in P. specialize (P _ IM). destruct P as [P _]. lia.
Qed.

(** The table has every name once. *)
Lemma map_names : NoDup (map l_name license_map).
Proof.
  assert (H : forall l : list string, (fix nodup l := match l with [] => true | x :: r => negb (existsb (String.eqb x) r) && nodup r end) l = true -> NoDup l).
  { induction l as [|x l IH]; [constructor|]. intros H. apply andb_true_iff in H as [A B]. constructor; [|auto].
    intros I. rewrite negb_true_iff in A. assert (existsb (String.eqb x) l = true); [|congruence].
    apply existsb_exists. exists x. split; [exact I|apply String.eqb_refl]. }
  apply H. vm_compute. reflexivity.
Qed.

Lemma subsequence_filter {A B} (f : A * B -> bool) a b : length b = length a ->
  subsequence (map fst (filter f (combine a b))) a.
Proof.
  revert b; induction a as [|x a IH]; intros [|y b] L; try discriminate; cbn; [constructor|].
  injection L as L. destruct (f (x, y)); cbn; constructor; auto.
Qed.

Lemma overridden_iff all l : overridden all l = true <->
  exists x, In x all /\ -1 < fst (snd x) /\ In (l_name l, l_name (fst x)) more_specific.
Proof.
  unfold overridden, override. rewrite !orb_true_iff, !andb_true_iff, !existsb_exists, !String.eqb_eq.
  setoid_rewrite andb_true_iff. setoid_rewrite Z.ltb_lt. setoid_rewrite String.eqb_eq. unfold more_specific. cbn [In].
  split.
  - intros [[[(A & x & I & L & N)|(A & x & I & L & N)]|(A & x & I & L & N)]|(A & x & I & L & N)];
      exists x; (split; [exact I|]); (split; [exact L|]); rewrite A, N; auto 8.
  - intros (x & I & L & [E|[E|[E|[E|[]]]]]); injection E as E1 E2; symmetry in E1, E2.
    + left. left. left. eauto.
    + left. left. right. eauto.
    + left. right. eauto.
    + right. eauto.
Qed.

(** What is reported for one text. *)
Lemma report_iff exec t : engine_ok exec -> exists found, scan exec t license_map [] = Ok found /\
  forall l, In l (report found) <-> to_report exec t l.
Proof.
  intros OKE. destruct (scan_stands exec OKE t) as (ms & S & F & P). exists (map (value ms) ms). split; [exact S|].
  intros l. unfold report, to_report. cbv zeta. rewrite in_map_iff.
  pose proof (alive_iff exec t ms F P) as AL. set (all := combine license_map (map (value ms) ms)) in *. split.
  - intros ((l' & v) & E & H). cbn in E. subst l'. apply filter_In in H as [I H]. cbn [fst snd] in H.
    apply andb_true_iff in H as [A N]. apply Z.ltb_lt in A. apply negb_true_iff in N.
    assert (IL : In l license_map) by (unfold all in I; eapply in_combine_l; eauto).
    split; [exact IL|]. split; [apply AL; eauto|].
    intros (l' & m & I' & SP & ST).
    assert (overridden all l = true); [|congruence]. apply overridden_iff.
    destruct (proj2 (AL l' I')) as (v' & IV & LV); [eauto|]. exists (l', v'). auto.
  - intros (IL & ST & N). apply AL in ST as (v & I & L); [|exact IL]. exists (l, v). split; [reflexivity|].
    apply filter_In. split; [exact I|]. cbn [fst snd]. apply andb_true_iff. split; [apply Z.ltb_lt; exact L|].
    apply negb_true_iff. destruct (overridden all l) eqn:O; [|reflexivity].
    apply overridden_iff in O as ((l' & v') & I' & L' & SP). cbn [fst snd] in *.
    assert (IL' : In l' license_map) by (unfold all in I'; eapply in_combine_l; eauto).
    destruct N. destruct (proj1 (AL l' IL')) as (m & ST); [eauto|]. exists l', m. auto.
Qed.
