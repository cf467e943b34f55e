(** Licence detection: proofs. *)
From Coq Require Import ZArith String List Bool Lia Wf_nat.
From Verif Require Import Base Arr ParsedModel DetectorSpec RegexModel RegexSpec LicenseTable LicenseModel LicenseSpec.
Import ListNotations.
Open Scope Z_scope.
Open Scope list_scope.

(** ** Characters *)
Definition is_margin (x : Z) : bool := (x =? 32) || (x =? 9) || ispunct x.
Definition is_nl (x : Z) : bool := (x =? 13) || (x =? 10).

Lemma ispunct_iff c : ispunct c = true <-> Punct c.
Proof.
  unfold ispunct, Punct, Alnum, Digit, Lower, Upper. rewrite !orb_true_iff, !andb_true_iff, !Z.leb_le. lia.
Qed.

Lemma is_margin_iff c : is_margin c = true <-> Margin c.
Proof.
  unfold is_margin, Margin, Blank. rewrite !orb_true_iff, !Z.eqb_eq, ispunct_iff. tauto.
Qed.

Lemma is_nl_iff c : is_nl c = true <-> Newline c.
Proof. unfold is_nl, Newline. rewrite orb_true_iff, !Z.eqb_eq. reflexivity. Qed.

Lemma span f (t : list Z) : exists w r, t = w ++ r /\ Forall (fun c => f c = true) w /\
  (forall c r', r = c :: r' -> f c = false).
Proof.
  induction t as [|c t (w & r & -> & F & N)].
  - exists [], []. repeat split; auto. discriminate.
  - destruct (f c) eqn:E.
    + exists (c :: w), r. auto.
    + exists [], (c :: w ++ r). repeat split; auto. intros ? ? [= <- <-]. exact E.
Qed.

(** ** Reading *)
Lemma src_app a x r : src (a ++ x :: r) (Z.of_nat (length a)) = Ok x.
Proof.
  unfold src. replace (Z.of_nat (length a) <? 0) with false by (symmetry; apply Z.ltb_ge; lia).
  rewrite Nat2Z.id, nth_error_app2, Nat.sub_diag by lia. reflexivity.
Qed.

Lemma src_end a : src a (Z.of_nat (length a)) = Ok 0.
Proof.
  unfold src. replace (Z.of_nat (length a) <? 0) with false by (symmetry; apply Z.ltb_ge; lia).
  rewrite Nat2Z.id. rewrite (proj2 (nth_error_None a (length a))), Z.eqb_refl by lia. reflexivity.
Qed.

Lemma skip_lead_ok w : forall a r fuel, Forall (fun c => is_margin c = true) w ->
  (forall c r', r = c :: r' -> is_margin c = false) -> (length w < fuel)%nat ->
  skip_lead fuel (a ++ w ++ r) (Z.of_nat (length a)) = Ok (Z.of_nat (length (a ++ w))).
Proof.
  induction w as [|x w IH]; intros a r fuel F N L; (destruct fuel as [|k]; [cbn in L; lia|]); cbn [skip_lead].
  - rewrite app_nil_r. cbn [app]. destruct r as [|x r].
    + rewrite app_nil_r, src_end. reflexivity.
    + rewrite src_app. cbn [bind]. specialize (N _ _ eq_refl). unfold is_margin in N. rewrite N. reflexivity.
  - apply Forall_cons_iff in F as [E F]. cbn [app]. rewrite src_app. cbn [bind]. unfold is_margin in E. rewrite E.
    specialize (IH (a ++ [x]) r k F N). rewrite <- !app_assoc in IH. cbn [app] in IH.
    replace (Z.of_nat (length a) + 1) with (Z.of_nat (length (a ++ [x]))) by (rewrite app_length; cbn; lia).
    apply IH. cbn in L. lia.
Qed.

Lemma skip_newlines_ok w : forall a r fuel, Forall (fun c => is_nl c = true) w ->
  (forall c r', r = c :: r' -> is_nl c = false) -> (length w < fuel)%nat ->
  skip_newlines fuel (a ++ w ++ r) (Z.of_nat (length a)) = Ok (Z.of_nat (length (a ++ w))).
Proof.
  induction w as [|x w IH]; intros a r fuel F N L; (destruct fuel as [|k]; [cbn in L; lia|]); cbn [skip_newlines].
  - rewrite app_nil_r. cbn [app]. destruct r as [|x r].
    + rewrite app_nil_r, src_end. reflexivity.
    + rewrite src_app. cbn [bind]. specialize (N _ _ eq_refl). unfold is_nl in N. rewrite N. reflexivity.
  - apply Forall_cons_iff in F as [E F]. cbn [app]. rewrite src_app. cbn [bind]. unfold is_nl in E. rewrite E.
    specialize (IH (a ++ [x]) r k F N). rewrite <- !app_assoc in IH. cbn [app] in IH.
    replace (Z.of_nat (length a) + 1) with (Z.of_nat (length (a ++ [x]))) by (rewrite app_length; cbn; lia).
    apply IH. cbn in L. lia.
Qed.

(** ** Writing *)
(** The buffer, [n] bytes long, begins with [out]. *)
Definition written (n : Z) (b : arr) (out : list Z) : Prop :=
  asize b = n /\ forall i x, nth_error out i = Some x -> cell b (Z.of_nat i) = Some x.

Lemma written_new n : written n (anew n) [].
Proof. split; [reflexivity|]. intros [] ? ?; discriminate. Qed.

Lemma written_put n b out x : written n b out -> Z.of_nat (length out) < n ->
  exists b', aset b (Z.of_nat (length out)) x = Ok b' /\ written n b' (out ++ [x]).
Proof.
  intros [S W] L. destruct (aset_ex b (Z.of_nat (length out)) x) as (b' & E & S' & C & K); [lia|].
  exists b'. split; [exact E|]. split; [congruence|]. intros i y H.
  destruct (Nat.eq_dec i (length out)) as [-> |D].
  - rewrite nth_error_app2, Nat.sub_diag in H by lia. cbn in H. congruence.
  - rewrite K by lia. apply W. rewrite nth_error_app1 in H; [exact H|].
    assert (i < length (out ++ [x]))%nat by (apply nth_error_Some; congruence). rewrite app_length in *. cbn in *. lia.
Qed.

Lemma copy_line_ok n l : forall a r b out fuel, Forall (fun c => is_nl c = false) l ->
  (forall c r', r = c :: r' -> is_nl c = true) -> (length l < fuel)%nat ->
  written n b out -> Z.of_nat (length out + length l) < n ->
  exists b', copy_line fuel (a ++ l ++ r) (Z.of_nat (length (a ++ l ++ r))) n (Z.of_nat (length a)) b (Z.of_nat (length out))
    = Ok (Z.of_nat (length (a ++ l)), b', Z.of_nat (length (out ++ l))) /\ written n b' (out ++ l).
Proof.
  induction l as [|x l IH]; intros a r b out fuel F N L W Q; (destruct fuel as [|k]; [cbn in L; lia|]); cbn [copy_line].
  - exists b. rewrite !app_nil_r. split; [|exact W]. cbn [app]. destruct r as [|x r].
    + rewrite app_nil_r, Z.ltb_irrefl. reflexivity.
    + rewrite src_app. cbn [bind].
      replace (Z.of_nat (length a) <? Z.of_nat (length (a ++ x :: r))) with true
        by (symmetry; apply Z.ltb_lt; rewrite app_length; cbn; lia).
      specialize (N _ _ eq_refl). unfold is_nl in N. apply orb_true_iff in N.
      destruct (x =? 13), (x =? 10); cbn; try reflexivity. destruct N; discriminate.
  - apply Forall_cons_iff in F as [E F]. cbn [app].
    replace (Z.of_nat (length a) <? Z.of_nat (length (a ++ x :: l ++ r))) with true
      by (symmetry; apply Z.ltb_lt; rewrite app_length; cbn; lia).
    rewrite src_app. cbn [bind]. unfold is_nl in E. apply orb_false_iff in E as [E1 E2]. rewrite E1, E2.
    cbn in Q. replace (Z.of_nat (length out) <? n) with true by (symmetry; apply Z.ltb_lt; lia).
    cbn [negb andb]. destruct (written_put n b out x W) as (b' & P & W'); [lia|]. rewrite P. cbn [bind].
    specialize (IH (a ++ [x]) r b' (out ++ [x]) k F N). rewrite <- !app_assoc in IH. cbn [app] in IH.
    replace (Z.of_nat (length a) + 1) with (Z.of_nat (length (a ++ [x]))) by (rewrite app_length; cbn; lia).
    replace (Z.of_nat (length out) + 1) with (Z.of_nat (length (out ++ [x]))) by (rewrite app_length; cbn; lia).
    apply IH; [cbn in L; lia|exact W'|]. rewrite app_length; cbn; lia.
Qed.

Lemma read_bytes_ok n b out : written n b out -> Z.of_nat (length out) <= n ->
  read_bytes (length out) b 0 = Ok out.
Proof.
  intros [S W] L.
  assert (G : forall r i, (forall j x, nth_error r j = Some x -> cell b (Z.of_nat (i + j)) = Some x) ->
    Z.of_nat (i + length r) <= n -> read_bytes (length r) b (Z.of_nat i) = Ok r).
  { induction r as [|x r IH]; intros i H K; cbn [read_bytes length]; [reflexivity|]. cbn in K.
    rewrite (aget_ok b (Z.of_nat i) x).
    - cbn [bind]. replace (Z.of_nat i + 1) with (Z.of_nat (Datatypes.S i)) by lia. rewrite IH; [reflexivity| |lia].
      intros j y J. specialize (H (Datatypes.S j) y J). rewrite Nat.add_succ_r in H. exact H.
    - lia.
    - specialize (H 0%nat x eq_refl). rewrite Nat.add_0_r in H. exact H. }
  apply (G out 0%nat); [exact W|lia].
Qed.

(** ** Lines *)
Lemma lines_not_nil t : lines t <> [].
Proof.
  destruct t as [|c t]; cbn [lines]; [discriminate|]. destruct (_ || _); [discriminate|]. destruct (lines t); discriminate.
Qed.

Lemma lines_cut l c r : Forall (fun c => is_nl c = false) l -> is_nl c = true -> lines (l ++ c :: r) = l :: lines r.
Proof.
  intros F N. induction F as [|x l E F IH]; cbn [lines app].
  - unfold is_nl in N. rewrite N. reflexivity.
  - unfold is_nl in E. rewrite E, IH. reflexivity.
Qed.

Lemma lines_one l : Forall (fun c => is_nl c = false) l -> lines l = [l].
Proof.
  intros F. induction F as [|x l E F IH]; cbn [lines]; [reflexivity|].
  unfold is_nl in E. rewrite E, IH. reflexivity.
Qed.

(** Leading newlines only make empty lines. *)
Lemma lines_newlines nl r : Forall (fun c => is_nl c = true) nl -> (forall c r', r = c :: r' -> is_nl c = false) ->
  filter nonempty (lines (nl ++ r)) = kept_lines r.
Proof.
  intros F N. induction F as [|x nl E F IH]; cbn [app].
  - unfold kept_lines. destruct r as [|c r]; [reflexivity|]. specialize (N _ _ eq_refl).
    cbn [lines]. unfold is_nl in N. rewrite N. destruct (lines r); reflexivity.
  - cbn [lines]. unfold is_nl in E. rewrite E. cbn [filter nonempty]. exact IH.
Qed.

Lemma app_cons_last (a : list Z) x r : a ++ x :: r = (a ++ [x]) ++ r.
Proof. rewrite <- app_assoc. reflexivity. Qed.

Lemma kept_lines_eq r l ls : r <> [] -> lines r = l :: ls -> kept_lines r = l :: filter nonempty ls.
Proof. intros N E. unfold kept_lines. destruct r; [congruence|]. rewrite E. reflexivity. Qed.

(** ** The loop *)
Lemma loop_ok : forall fuel r a b out, (length r < fuel)%nat ->
  let c := a ++ r in let n := Z.of_nat (length c) + 1 in
  written n b out -> (length out <= length a)%nat ->
  exists b' m, normalise_loop fuel c (Z.of_nat (length c)) n (Z.of_nat (length a)) b (Z.of_nat (length out))
      = Ok (b', Z.of_nat (length (out ++ m))) /\ written n b' (out ++ m) /\ one_line r m /\
      (length (out ++ m) <= length c + 1)%nat.
Proof.
  induction fuel as [|k IH]; [lia|]. intros r a b out FU c n W LO. cbn [normalise_loop].
  assert (D : r = [] \/ exists x0 r0, r = x0 :: r0) by (destruct r; eauto).
  destruct D as [R|(x0 & r0 & R)].
  - subst r. subst c. rewrite app_nil_r in *. rewrite Z.ltb_irrefl. cbn [andb]. exists b, [].
    rewrite app_nil_r. repeat split; try apply W; try lia. exists []. split; [constructor|reflexivity].
  - assert (LT : (length a < length c)%nat) by (subst c r; rewrite app_length; cbn; lia).
    replace (Z.of_nat (length a) <? Z.of_nat (length c)) with true by (symmetry; apply Z.ltb_lt; lia).
    replace (Z.of_nat (length out) <? n) with true by (symmetry; apply Z.ltb_lt; lia).
    cbv [andb]. cbv zeta.
    destruct (span is_margin r) as (w & r1 & E1 & FW & NW).
    destruct (span (fun c => negb (is_nl c)) r1) as (l & r2 & E2 & FL & NL).
    destruct (span is_nl r2) as (nl & r3 & E3 & FN & NN).
    assert (FL' : Forall (fun c => is_nl c = false) l)
      by (eapply Forall_impl; [|exact FL]; intros ? HH; apply negb_true_iff; exact HH).
    assert (NL' : forall c r', r2 = c :: r' -> is_nl c = true)
      by (intros ? ? HH; apply negb_false_iff; eapply NL; exact HH).
    assert (WN : Forall (fun c => is_nl c = false) w).
    { eapply Forall_impl; [|exact FW]. intros x M. cbv beta in M. destruct (is_nl x) eqn:EX; [|reflexivity].
      unfold is_nl in EX. apply orb_true_iff in EX. rewrite !Z.eqb_eq in EX. destruct EX as [-> | ->]; discriminate M. }
    assert (EC : c = a ++ w ++ l ++ nl ++ r3) by (subst c; rewrite E1, E2, E3; reflexivity).
    assert (LC : length c = (length a + length w + length l + length nl + length r3)%nat)
      by (rewrite EC, !app_length; lia).
    assert (SKIP : skip_lead (S (S (length c))) c (Z.of_nat (length a)) = Ok (Z.of_nat (length (a ++ w)))).
    { rewrite EC at 2. apply skip_lead_ok; auto; [|rewrite LC; lia]. rewrite <- E3, <- E2. exact NW. }
    rewrite SKIP. cbn [bind].
    destruct (copy_line_ok n l (a ++ w) r2 b out (S (S (length c)))) as (b1 & CP & W1); auto.
    { rewrite LC; lia. }
    { subst n. rewrite LC. lia. }
    rewrite <- !app_assoc in CP. rewrite E3 in CP. rewrite <- EC in CP. rewrite CP. cbn [bind].
    assert (NLS : skip_newlines (S (S (length c))) c (Z.of_nat (length (a ++ w ++ l)))
                  = Ok (Z.of_nat (length (a ++ w ++ l ++ nl)))).
    { rewrite EC at 2. replace (a ++ w ++ l ++ nl ++ r3) with ((a ++ w ++ l) ++ nl ++ r3) by (rewrite <- !app_assoc; reflexivity).
      rewrite skip_newlines_ok; auto; [rewrite <- !app_assoc; reflexivity|]. rewrite LC; lia. }
    rewrite NLS. cbn [bind].
    assert (LOUT : (length (out ++ l) <= length (a ++ w ++ l))%nat) by (rewrite !app_length; lia).
    replace (Z.of_nat (length (out ++ l)) <? n) with true
      by (symmetry; apply Z.ltb_lt; subst n; rewrite !app_length in *; rewrite LC; lia).
    destruct (written_put n b1 (out ++ l) 32 W1) as (b2 & PUT & W2).
    { subst n. rewrite !app_length in *; rewrite LC; lia. }
    rewrite PUT. cbn [bind].
    replace (Z.of_nat (length (out ++ l)) + 1) with (Z.of_nat (length ((out ++ l) ++ [32])))
      by (rewrite (app_length _ [32]); cbn; lia).
    assert (NOTHING : w ++ l ++ nl = [] -> False).
    { intros H0. apply app_eq_nil in H0 as [W0 H0]. apply app_eq_nil in H0 as [L0 N0].
      assert (Q : r3 = x0 :: r0) by (rewrite <- R, E1, E2, E3, W0, L0, N0; reflexivity).
      assert (Q2 : r2 = x0 :: r0) by (rewrite E3, N0; exact Q).
      pose proof (NL' _ _ Q2). pose proof (NN _ _ Q). congruence. }
    destruct nl as [|y nl].
    + (* no newline: the end of the text *)
      destruct r3 as [|y r3].
      2: { cbn in E3. subst r2. pose proof (NL' _ _ eq_refl). pose proof (NN _ _ eq_refl). congruence. }
      cbn [app length] in *. rewrite !app_nil_r in *.
      exists b2, (l ++ [32]). rewrite <- app_assoc in W2 |- *.
      replace (length (a ++ w ++ l)) with (length c) by (rewrite EC; reflexivity).
      destruct k as [|k]; [rewrite E1, E2, E3, !app_length in FU; cbn in FU;
        destruct w; [destruct l; [destruct (NOTHING eq_refl)|cbn in FU; lia]|cbn in FU; lia]|].
      cbn [normalise_loop]. rewrite Z.ltb_irrefl. cbn [andb]. repeat split; try apply W2.
      * exists [l]. cbn. rewrite app_nil_r. split; [|reflexivity].
        assert (KL : kept_lines r = [r]).
        { rewrite (kept_lines_eq r r []); [reflexivity|rewrite R; discriminate|]. apply lines_one. rewrite E1, E2, E3, app_nil_r.
          apply Forall_app; split; auto. }
        rewrite KL. constructor; [|constructor]. exists w. rewrite E1, E2, E3, app_nil_r. repeat split; auto.
        -- eapply Forall_impl; [|exact FW]. intros ?. apply is_margin_iff.
        -- intros z r' -> M. apply is_margin_iff in M.
           rewrite (NW z r') in M by (rewrite E2, E3, app_nil_r; reflexivity). discriminate.
      * rewrite !app_length in *. cbn. rewrite LC. lia.
    + destruct (IH r3 (a ++ w ++ l ++ y :: nl) b2 ((out ++ l) ++ [32])) as (b3 & m & LP & W3 & OL & LE).
      { rewrite E1, E2, E3, !app_length in FU. cbn in FU. lia. }
      { replace ((a ++ w ++ l ++ y :: nl) ++ r3) with c by (rewrite EC, <- !app_assoc; reflexivity). exact W2. }
      { rewrite !app_length in *. cbn. lia. }
      replace ((a ++ w ++ l ++ y :: nl) ++ r3) with c in LP, W3, LE by (rewrite EC, <- !app_assoc; reflexivity).
      exists b3, ((l ++ [32]) ++ m).
      replace (out ++ (l ++ [32]) ++ m) with (((out ++ l) ++ [32]) ++ m) by (rewrite <- !app_assoc; reflexivity).
      repeat split; auto; try apply W3.
      destruct OL as (ps & F2 & ->). exists (l :: ps). split.
      * assert (KL : kept_lines r = (w ++ l) :: kept_lines r3).
        { apply Forall_cons_iff in FN as [EY FN].
          rewrite (kept_lines_eq r (w ++ l) (lines (nl ++ r3))); [|rewrite R; discriminate|].
          2: { replace r with ((w ++ l) ++ y :: nl ++ r3) by (rewrite E1, E2, E3, <- !app_assoc; reflexivity).
               apply lines_cut; auto. apply Forall_app; split; auto. }
          f_equal. apply lines_newlines; auto. }
        rewrite KL. constructor; [|exact F2]. exists w. repeat split; auto.
        -- eapply Forall_impl; [|exact FW]. intros ?. apply is_margin_iff.
        -- intros z r' -> M. apply is_margin_iff in M.
           rewrite (NW z (r' ++ r2)) in M by (rewrite E2; reflexivity). discriminate.
      * cbn. reflexivity.
Qed.

(** The normalisation stays within the buffer and makes one line. *)
Lemma normalise_ok c : Z.of_nat (length c) + 1 <= int_max ->
  exists n, normalise c = Ok n /\ one_line c n /\ (length n <= length c + 1)%nat.
Proof.
  intros L. unfold normalise. cbv zeta. rewrite ckint_ok by (unfold int_min; lia). cbn [bind].
  destruct (loop_ok (S (length c)) c [] (anew (Z.of_nat (length c) + 1)) []) as (b & m & E & W & O & K); try lia.
  { apply written_new. }
  cbn [app length] in *. change (Z.of_nat 0) with 0 in E. rewrite E. cbn [bind].
  exists m. repeat split; auto.
  destruct (Z.of_nat (length m) <? Z.of_nat (length c) + 1) eqn:Q.
  - apply Z.ltb_lt in Q. destruct (written_put _ _ _ 0 W Q) as (b' & P & W'). rewrite P. cbn [bind].
    rewrite Nat2Z.id. apply (read_bytes_ok (Z.of_nat (length c) + 1)); [|lia].
    destruct W' as [S' W']. split; [exact S'|]. intros i x X. apply W'. rewrite nth_error_app1; [exact X|].
    apply nth_error_Some. congruence.
  - cbn [bind]. rewrite Nat2Z.id. apply (read_bytes_ok (Z.of_nat (length c) + 1)); [exact W|lia].
Qed.

Lemma without_margin_fun l p p' : without_margin l p -> without_margin l p' -> p = p'.
Proof.
  intros (w & -> & F & N) (w' & E & F' & N'). revert w' E F'. induction F as [|x w M F IH]; intros w' E F'; cbn in E.
  - destruct F' as [|y w' M' F']; [exact E|]. destruct (N y (w' ++ p')); auto.
  - destruct F' as [|y w' M' F'].
    + destruct (N' x (w ++ p)); auto.
    + injection E as -> E. eauto.
Qed.

Lemma one_line_fun t n n' : one_line t n -> one_line t n' -> n = n'.
Proof.
  intros (ps & F & ->) (ps' & F' & ->). f_equal. f_equal. revert ps' F'.
  induction F as [|l p ls ps W F IH]; intros ps' F'; inversion F'; subst; [reflexivity|].
  f_equal; eauto using without_margin_fun.
Qed.
