(** Lemmas about the disambiguators fortran and m of DetectorModel, and termination. *)
From Coq Require Import ZArith String List Bool Lia Permutation.
From Verif Require Import Base ParsedModel PathModel Tables DetectorModel DetectorSpec DetectorProofs
  DisambProofs DisambProofs2 DisambProofs3 DisambProofs4 DisambProofs5.
Import ListNotations.
Open Scope string_scope.
Open Scope Z_scope.
Open Scope list_scope.

(** *** fortran *)
Lemma quoted_length q p i p' i' : quoted q p i = (p', i') -> (length p' <= length p)%nat.
Proof.
  unfold quoted. destruct (deref p =? q); intros [= <- <-]; [|lia].
  pose proof (skip_length (fun c => negb (c =? q) && negb (is_eol c)) (tl p)).
  destruct p; cbn [tl length] in *; lia.
Qed.
Lemma fortran_line_total fuel p i b : (length p < fuel)%nat ->
  exists q, fortran_line fuel p i b = Ok q /\ match q with Some p' => (length p' <= length p)%nat | None => True end.
Proof.
  revert p i b; induction fuel as [|k IH]; intros p i b L; [lia|]. cbn [fortran_line].
  destruct p as [|c r]; [exists (Some []); split; [reflexivity|cbn; lia]|]. cbn [length] in L. destruct (is_eol c); [eexists; split; [reflexivity|cbv beta iota; lia]|].
  cbv zeta.
  destruct ((i + 1 <=? 5) && _ && _ && _); [exists None; auto|]. destruct ((i + 1 =? 6) && _ && _ && _); [exists None; auto|].
  assert (REC : forall p' i' b', (length p' <= length r)%nat ->
     exists q, fortran_line k p' i' b' = Ok q /\ match q with Some p'' => (length p'' <= length (c :: r))%nat | None => True end).
  { intros p' i' b' L'. destruct (IH p' i' b') as (q & E & H); [lia|]. exists q. split; [exact E|].
    destruct q; cbn [length]; [lia|trivial]. }
  destruct ((deref r =? 33) && _); [apply REC, skip_length|].
  destruct (quoted 34 r (i + 1)) as [p1 i1] eqn:Q1. destruct (quoted 39 p1 i1) as [p2 i2] eqn:Q2.
  apply quoted_length in Q1, Q2. destruct (_ && _ && _); [exists None; auto|]. apply REC. lia.
Qed.
Lemma fortran_line_shrinks fuel c r i b p' : is_eol c = false -> (length r < fuel)%nat ->
  fortran_line (S fuel) (c :: r) i b = Ok (Some p') -> (length p' < length (c :: r))%nat.
Proof.
  intros C L. cbn [fortran_line]. rewrite C. cbv zeta.
  destruct ((i + 1 <=? 5) && _ && _ && _); [discriminate|]. destruct ((i + 1 =? 6) && _ && _ && _); [discriminate|].
  assert (REC : forall q i' b', (length q <= length r)%nat -> fortran_line fuel q i' b' = Ok (Some p') -> (length p' < length (c :: r))%nat).
  { intros q i' b' Lq H. destruct (fortran_line_total fuel q i' b') as (x & E & Hx); [lia|].
    rewrite E in H. injection H as ->. cbn [length]. lia. }
  destruct ((deref r =? 33) && _); [apply REC, skip_length|].
  destruct (quoted 34 r (i + 1)) as [p1 i1] eqn:Q1. destruct (quoted 39 p1 i1) as [p2 i2] eqn:Q2.
  apply quoted_length in Q1, Q2. destruct (_ && _ && _); [discriminate|]. apply REC. lia.
Qed.
Lemma fortran_total fuel p : (length p < fuel)%nat -> exists r, fortran_loop fuel p = Ok r.
Proof.
  revert p; induction fuel as [|k IH]; intros p L; [lia|]. cbn [fortran_loop].
  destruct p as [|c r]; [eauto|]. destruct (blank c || is_digit c) eqn:B.
  - destruct (fortran_line_total (S (length (c :: r))) (c :: r) (if c =? 9 then 5 else 1) (blank c)) as (q & E & H); [lia|].
    rewrite E. cbn [bind]. destruct q as [p'|]; [|eauto].
    apply fortran_line_shrinks in E; [|unfold blank, is_digit, is_eol in *; zb; lia|cbn [length]; lia].
    apply IH. pose proof (skip_length is_eol p'). lia.
  - destruct (existsb _ _) eqn:X; [|eauto].
    apply IH. set (f := fun c0 => negb (is_eol c0)).
    assert (N : f c = true).
    { unfold f, is_eol. apply existsb_exists in X as (y & I & E). apply Z.eqb_eq in E as ->. cbn in I.
      repeat (destruct I as [<-|I]; [reflexivity|]). destruct I. }
    cbn [skip length] in *. rewrite N. pose proof (skip_length f r). pose proof (skip_length is_eol (skip f r)). lia.
Qed.

(** How a line may start in fixed format. *)
Lemma fortran_line_rest fuel p i b p' : fortran_line fuel p i b = Ok (Some p') ->
  exists a, p = a ++ p' /\ Forall (fun c => is_eol c = false) a /\ (forall c r, p' = c :: r -> is_eol c = true).
Proof.
  revert p i b; induction fuel as [|k IH]; intros p i b; cbn [fortran_line]; [discriminate|].
  destruct p as [|c r].
  { intros [= <-]. exists []. split; [reflexivity|]. split; [constructor|discriminate]. }
  destruct (is_eol c) eqn:C.
  { intros [= <-]. exists []. split; [reflexivity|]. split; [constructor|]. intros ? ? [= <- <-]. exact C. }
  cbv zeta.
  destruct ((i + 1 <=? 5) && _ && _ && _); [discriminate|]. destruct ((i + 1 =? 6) && _ && _ && _); [discriminate|].
  assert (REC : forall q i' b' a, r = a ++ q -> Forall (fun c => is_eol c = false) a -> fortran_line k q i' b' = Ok (Some p') ->
    exists a, c :: r = a ++ p' /\ Forall (fun c => is_eol c = false) a /\ (forall c r, p' = c :: r -> is_eol c = true)).
  { intros q i' b' a -> F H. apply IH in H as (a' & -> & F' & H). exists (c :: a ++ a').
    split; [cbn [app]; rewrite app_assoc; reflexivity|]. split; [|exact H]. constructor; [exact C|]. apply Forall_app. auto. }
  assert (QQ : forall q p i p' i', q <> 13 -> q <> 10 -> quoted q p i = (p', i') -> exists a, p = a ++ p' /\ Forall (fun c => is_eol c = false) a).
  { clear. intros q p i p' i' N1 N2. unfold quoted. destruct (deref p =? q) eqn:D; intros [= <- _].
    - set (f := fun c => negb (c =? q) && negb (is_eol c)).
      destruct p as [|x p]; [exists []; split; [reflexivity|constructor]|]. cbn [tl].
      exists (x :: taken f p). split; [cbn [app]; rewrite <- (taken_skip f p); reflexivity|].
      unfold deref in D. cbn in D. apply Z.eqb_eq in D as ->. constructor; [unfold is_eol; zb; lia|].
      eapply Forall_impl; [|apply (taken_all f p)]. intros y Y. unfold f in Y. apply andb_true_iff in Y as [_ Y].
      apply negb_true_iff in Y. exact Y.
    - exists []. split; [reflexivity|constructor]. }
  destruct ((deref r =? 33) && _).
  { apply (REC _ _ _ (taken (fun c => negb (is_eol c)) r)); [apply taken_skip|].
    eapply Forall_impl; [|apply (taken_all (fun c => negb (is_eol c)) r)]. intros y Y. apply negb_true_iff in Y. exact Y. }
  destruct (quoted 34 r (i + 1)) as [p1 i1] eqn:Q1. destruct (quoted 39 p1 i1) as [p2 i2] eqn:Q2.
  apply QQ in Q1 as (a1 & -> & F1); [|lia|lia]. apply QQ in Q2 as (a2 & -> & F2); [|lia|lia].
  destruct (_ && _ && _); [discriminate|]. apply (REC _ _ _ (a1 ++ a2)); [apply app_assoc|apply Forall_app; auto].
Qed.

Lemma lines_head l r : Forall (fun c => is_eol c = false) l -> (forall c r', r = c :: r' -> is_eol c = true) ->
  forall x, In x (lines (l ++ r)) -> x = l \/ In x (lines (skip is_eol r)) \/ x = [].
Proof.
  intros F R x I. rewrite (lines_app l r F R) in I. destruct r as [|c r].
  - destruct I as [I|[]]; auto.
  - destruct I as [I|I]; [auto|]. right. cbn [skip]. rewrite (R _ _ eq_refl).
    clear R F. induction r as [|d r IH]; cbn [skip]; [auto|]. destruct (is_eol d) eqn:D; [|auto].
    cbn [lines] in I. unfold is_eol in D. rewrite D in I. destruct I as [<-|I]; auto.
Qed.
Lemma fortran_fixed_lines fuel p : fortran_loop fuel p = Ok true ->
  forall l c r, In l (lines p) -> l = c :: r -> fixed_start c.
Proof.
  revert p; induction fuel as [|k IH]; intros p; cbn [fortran_loop]; [discriminate|].
  destruct p as [|c r].
  { intros _ l c r [<-|[]]. discriminate. }
  destruct (blank c || is_digit c) eqn:B.
  - intros H. apply bind_ok in H as (q & E & H). destruct q as [p'|]; [|discriminate H].
    apply fortran_line_rest in E as (a & EP & F & R). rewrite EP. intros l y z I EL.
    apply lines_head in I as [-> | [I | -> ]]; [| |discriminate EL|exact F|exact R].
    + destruct a as [|x a]; [discriminate EL|]. cbn [app] in EP. injection EP as <- _. injection EL as <- _.
      apply orb_true_iff in B. unfold fixed_start. rewrite <- blank_iff, <- is_digit_iff. tauto.
    + exact (IH _ H _ _ _ I EL).
  - destruct (existsb _ _) eqn:X; [|discriminate]. intros H l y z I EL.
    rewrite (taken_skip (fun c => negb (is_eol c)) (c :: r)) in I.
    apply lines_head in I as [-> | [I | -> ]]; [| |discriminate EL| |].
    + cbn [taken] in EL. destruct (negb (is_eol c)); [|discriminate EL]. injection EL as <- _.
      right. right. apply existsb_exists in X as (x & I & E). apply Z.eqb_eq in E as ->. exact I.
    + exact (IH _ H _ _ _ I EL).
    + eapply Forall_impl; [|apply taken_all]. intros x Y. apply negb_true_iff in Y. exact Y.
    + intros x z' E. apply skip_head in E. apply negb_false_iff in E. exact E.
Qed.

Lemma fortran_text fuel i b c text r : 6 <= i -> (length (text ++ r) < fuel)%nat -> is_eol c = false ->
  Forall plain_text text -> (forall d r', r = d :: r' -> is_eol d = true) ->
  fortran_line (S fuel) (c :: text ++ r) i b = Ok (Some r).
Proof.
  intros Hi L C F R. revert fuel i c Hi L C. induction F as [|d text P F IH]; intros fuel i c Hi L C.
  - cbn [app] in *. cbn [fortran_line]. rewrite C. cbv zeta.
    replace (i + 1 <=? 5) with false by (symmetry; apply Z.leb_gt; lia).
    replace (i + 1 =? 6) with false by (symmetry; apply Z.eqb_neq; lia). cbn [andb].
    assert (D : deref r = 0 \/ deref r = 13 \/ deref r = 10).
    { destruct r as [|d r']; [auto|]. right. specialize (R _ _ eq_refl). unfold is_eol in R. unfold deref. cbn [hd]. zb. lia. }
    assert (D33 : deref r =? 33 = false) by (apply Z.eqb_neq; lia). rewrite D33. cbn [andb].
    unfold quoted. assert (D34 : deref r =? 34 = false) by (apply Z.eqb_neq; lia). rewrite D34.
    assert (D39 : deref r =? 39 = false) by (apply Z.eqb_neq; lia). rewrite D39.
    assert (D38 : deref r =? 38 = false) by (apply Z.eqb_neq; lia). rewrite D38, andb_false_r.
    destruct fuel as [|k]; [lia|]. cbn [fortran_line]. destruct r as [|d r']; [reflexivity|].
    rewrite (R _ _ eq_refl). reflexivity.
  - cbn [app] in *. cbn [fortran_line]. rewrite C. cbv zeta.
    replace (i + 1 <=? 5) with false by (symmetry; apply Z.leb_gt; lia).
    replace (i + 1 =? 6) with false by (symmetry; apply Z.eqb_neq; lia). cbn [andb].
    unfold plain_text in P. cbn in P. unfold deref. cbn [hd].
    assert (D33 : d =? 33 = false) by (apply Z.eqb_neq; lia). rewrite D33. cbn [andb].
    unfold quoted. unfold deref. cbn [hd].
    assert (D34 : d =? 34 = false) by (apply Z.eqb_neq; lia). rewrite D34. cbn [hd].
    assert (D39 : d =? 39 = false) by (apply Z.eqb_neq; lia). rewrite D39. cbn [hd].
    assert (D38 : d =? 38 = false) by (apply Z.eqb_neq; lia). rewrite D38, andb_false_r.
    destruct fuel as [|k]; [cbn [length] in L; lia|]. apply IH; [lia|cbn [length] in L; lia|].
    unfold is_eol. zb. lia.
Qed.

Lemma fortran_label fuel i b c label x text r : 1 <= i -> i + zlen label = 5 ->
  (length (label ++ x :: text ++ r) < fuel)%nat -> is_eol c = false ->
  Forall (fun c => c = 32 \/ Digit c) label -> (x = 32 \/ x = 48) -> Forall plain_text text ->
  (forall d r', r = d :: r' -> is_eol d = true) ->
  fortran_line (S fuel) (c :: label ++ x :: text ++ r) i b = Ok (Some r).
Proof.
  intros I1 I2 L C FL X FT R. revert fuel i b c I1 I2 L C. induction FL as [|d label D FL IH]; intros fuel i b c I1 I2 L C.
  - cbn [app] in *. change (zlen []) with 0 in I2. cbn [fortran_line]. rewrite C. cbv zeta.
    replace (i + 1 <=? 5) with false by (symmetry; apply Z.leb_gt; lia). cbn [andb].
    unfold deref. cbn [hd]. assert (E : negb (x =? 32) && negb (x =? 48) = false).
    { destruct X as [-> | ->]; reflexivity. }
    rewrite <- andb_assoc, E, andb_false_r.
    replace (i + 1 =? 6) with true by (symmetry; apply Z.eqb_eq; lia). cbn [negb]. rewrite andb_false_r.
    unfold quoted. unfold deref. cbn [hd].
    assert (D34 : x =? 34 = false) by (apply Z.eqb_neq; lia). rewrite D34. cbn [hd].
    assert (D39 : x =? 39 = false) by (apply Z.eqb_neq; lia). rewrite D39. cbn [hd].
    assert (D38 : x =? 38 = false) by (apply Z.eqb_neq; lia). rewrite D38, andb_false_r.
    destruct fuel as [|k]; [cbn [length] in L; lia|]. apply fortran_text; auto; [lia|cbn [length] in L; lia|].
    unfold is_eol. destruct X as [-> | ->]; reflexivity.
  - cbn [app] in *. unfold zlen in I2. cbn [length] in I2. cbn [fortran_line]. rewrite C. cbv zeta.
    unfold deref. cbn [hd]. unfold Digit in D.
    replace ((i + 1 <=? 5) && negb (is_digit d) && negb (d =? 32) && negb (d =? 33)) with false.
    2: { symmetry. destruct D as [-> | D]; [rewrite andb_false_r; reflexivity|].
         replace (is_digit d) with true; [rewrite andb_false_r; reflexivity|].
         symmetry. apply is_digit_iff. exact D. }
    replace (i + 1 =? 6) with false by (symmetry; apply Z.eqb_neq; lia). cbn [andb].
    assert (D33 : d =? 33 = false) by (apply Z.eqb_neq; lia). rewrite D33. cbn [andb].
    unfold quoted. unfold deref. cbn [hd].
    assert (D34 : d =? 34 = false) by (apply Z.eqb_neq; lia). rewrite D34. cbn [hd].
    assert (D39 : d =? 39 = false) by (apply Z.eqb_neq; lia). rewrite D39. cbn [hd].
    assert (D38 : d =? 38 = false) by (apply Z.eqb_neq; lia). rewrite D38, andb_false_r.
    destruct fuel as [|k]; [cbn [length] in L; lia|]. apply IH; [lia|unfold zlen; lia|cbn [length] in L; lia|].
    unfold is_eol. zb. lia.
Qed.

Lemma in_lines_tail l r x : Forall (fun c => is_eol c = false) l -> (forall c r', r = c :: r' -> is_eol c = true) ->
  In x (lines (skip is_eol r)) -> x = [] \/ In x (lines (l ++ r)).
Proof.
  intros F R I. rewrite (lines_app l r F R). destruct r as [|c r].
  - cbn in I. destruct I as [<-|[]]. auto.
  - right. right. cbn [skip] in I. rewrite (R _ _ eq_refl) in I. clear R F l. induction r as [|d r IH]; cbn [skip] in I; [exact I|].
    destruct (is_eol d) eqn:D; [|exact I]. cbn [lines]. unfold is_eol in D. rewrite D. right. exact (IH I).
Qed.

Lemma fortran_fixed fuel p : (length p < fuel)%nat ->
  (forall c r, p = c :: r -> is_eol c = false) ->
  (forall l, In l (lines p) -> l = [] \/ statement l \/ comment_line l) -> fortran_loop fuel p = Ok true.
Proof.
  revert p; induction fuel as [|k IH]; intros p L H0 H; [lia|]. cbn [fortran_loop].
  destruct p as [|c r0]; [reflexivity|]. specialize (H0 _ _ eq_refl).
  remember (c :: r0) as p eqn:EP.
  pose proof (taken_skip (fun c => negb (is_eol c)) p) as E.
  assert (F : Forall (fun c => is_eol c = false) (taken (fun c => negb (is_eol c)) p)).
  { eapply Forall_impl; [|apply taken_all]. intros x Y. apply negb_true_iff in Y. exact Y. }
  assert (R : forall d z, skip (fun c => negb (is_eol c)) p = d :: z -> is_eol d = true).
  { intros d z X. apply skip_head in X. apply negb_false_iff in X. exact X. }
  set (l := taken (fun c => negb (is_eol c)) p) in *. set (r := skip (fun c => negb (is_eol c)) p) in *.
  assert (NL : exists l', l = c :: l').
  { unfold l. rewrite EP. cbn [taken]. rewrite H0. eexists; reflexivity. }
  clearbody l r. destruct NL as (l' & NL).
  assert (IL : In l (lines p)) by (rewrite E, (lines_app l r F R); destruct r; cbn; auto).
  assert (NEXT : fortran_loop k (skip is_eol r) = Ok true).
  { apply IH.
    - pose proof (skip_length is_eol r). rewrite E, NL, app_length in L. cbn [length] in L. lia.
    - intros d z X. apply skip_head in X. exact X.
    - intros x I. apply (in_lines_tail l r x F R) in I as [-> | I]; [auto|]. apply H. rewrite E. exact I. }
  destruct (H l IL) as [X|[S|S]].
  - congruence.
  - destruct S as (label & x & text & ES & LL & FL & X & FT).
    destruct label as [|c' label]; [discriminate LL|]. rewrite NL in ES. cbn [app] in ES. injection ES as <- ES. subst l'.
    pose proof (Forall_inv FL) as Hc. assert (B : blank c || is_digit c = true).
    { rewrite orb_true_iff, blank_iff, is_digit_iff. unfold Blank. destruct Hc; auto. }
    rewrite B. assert (N9 : c =? 9 = false) by (apply Z.eqb_neq; unfold Digit in Hc; lia). rewrite N9.
    rewrite E, NL.
    assert (EQ : (c :: label ++ x :: text) ++ r = c :: label ++ x :: text ++ r) by (cbn [app]; rewrite <- app_assoc; reflexivity).
    rewrite EQ. rewrite fortran_label; [cbn [bind]; exact NEXT|lia|cbn [length] in LL; unfold zlen; lia|cbn [length]; lia|
      exact H0|inversion FL; assumption|exact X|exact FT|exact R].
  - destruct S as (c' & z & ES & I). rewrite NL in ES. injection ES as <- ->.
    assert (B : blank c || is_digit c = false).
    { cbn in I. repeat (destruct I as [<-|I]; [reflexivity|]). destruct I. }
    rewrite B. assert (X : existsb (Z.eqb c) [67; 99; 42; 33] = true).
    { apply existsb_exists. exists c. split; [exact I|apply Z.eqb_refl]. }
    rewrite X. replace (skip (fun c0 => negb (is_eol c0)) p) with r; [exact NEXT|].
    symmetry. rewrite E. apply skip_app.
    + eapply Forall_impl; [|exact F]. cbn. intros y ->. reflexivity.
    + intros d z' Y. rewrite (R _ _ Y). reflexivity.
Qed.
