(** Lemmas about the line based disambiguators of DetectorModel. *)
From Coq Require Import ZArith String List Bool Lia.
From Verif Require Import Base ParsedModel PathModel Tables DetectorModel DetectorSpec DetectorProofs DisambProofs.
Import ListNotations.
Open Scope string_scope.
Open Scope Z_scope.
Open Scope list_scope.

Lemma Forall_b (f : Z -> bool) (P : Z -> Prop) l : (forall c, f c = true <-> P c) ->
  (Forall (fun c => f c = true) l <-> Forall P l).
Proof. intros H. split; apply Forall_impl; intros c; apply H. Qed.

Lemma Ok_inj {A} (x y : A) : Ok x = Ok y -> x = y.
Proof. congruence. Qed.

(** *** A search over the lines *)
Section Search.
  Variable pl : platform.
  Variable step : list Z -> unit -> res (unit + option string).
  Variable test : list Z -> Prop.
  Variable g : option string.
  Hypothesis step_ok : forall l a x, (length l <= 81)%nat -> step l a = Ok x ->
    (x = inr g /\ test l) \/ (x = inl a /\ ~ test l).

  Lemma search_found ls a x : fold_lines pl step ls a = Ok x ->
    (x = inr g /\ exists l, In l ls /\ test (seen l)) \/ (x = inl a /\ forall l, In l ls -> ~ test (seen l)).
  Proof.
    induction ls as [|l ls IH]; cbn [fold_lines].
    - intros [= <-]. right. split; [reflexivity|]. intros l [].
    - intros H. apply bind_ok in H as (line & F & H). apply fetch_ok in F as ->.
      apply bind_ok in H as (y & S & H).
      apply step_ok in S as [(-> & T)|(-> & T)]; [| |apply seen_length].
      + injection H as <-. left. split; [reflexivity|]. exists l. cbn. auto.
      + apply IH in H as [(-> & l' & I & T')|(-> & N)].
        * left. split; [reflexivity|]. exists l'. cbn. auto.
        * right. split; [reflexivity|]. intros l' [<-|I]; auto.
  Qed.
End Search.

(** The loop is safe if lines fit and the step is. *)
Lemma fold_lines_safe {A} pl (step : list Z -> A -> res (A + option string)) ls :
  0 <= slack pl ->
  (forall l, In l ls -> zlen l <= 80 \/ 1 <= slack pl) ->
  (forall l a, In l ls -> exists x, step (seen l) a = Ok x) ->
  forall a, exists x, fold_lines pl step ls a = Ok x.
Proof.
  intros SO L S. induction ls as [|l ls IH]; intros a; cbn [fold_lines]; [eauto|].
  rewrite fetch_safe by (exact SO || (apply L; cbn; auto)). cbn [bind].
  destruct (S l a (or_introl eq_refl)) as (x & ->). cbn [bind].
  destruct x as [b|g]; [|eauto]. apply IH; intros; [apply L|apply S]; cbn; auto.
Qed.
Lemma fold_lines_fuel {A} pl (step : list Z -> A -> res (A + option string)) ls :
  (forall l a, step l a <> OutOfFuel) -> forall a, fold_lines pl step ls a <> OutOfFuel.
Proof.
  intros S. induction ls as [|l ls IH]; intros a; cbn [fold_lines]; [discriminate|].
  pose proof (fetch_not_fuel pl l). destruct (fetch pl l) as [line| |]; cbn [bind]; try discriminate; [|contradiction].
  pose proof (S line a). destruct (step line a) as [[b|g]| |]; cbn [bind]; try discriminate; auto.
Qed.

(** *** basic *)
Lemma numbered_iff line :
  (is_digit (deref line) && blank (deref (skip is_digit line))
   && is_alnum (deref (skip blank (skip is_digit line)))) = true <-> numbered line.
Proof.
  rewrite !andb_true_iff. split.
  - intros [[D B] X]. pose proof (taken_skip is_digit line) as E.
    pose proof (taken_skip blank (skip is_digit line)) as E2.
    exists (taken is_digit line), (taken blank (skip is_digit line)).
    destruct (skip blank (skip is_digit line)) as [|x r] eqn:S; [discriminate X|].
    exists x, r. split; [congruence|]. split.
    { intros N. rewrite N in E. cbn in E. rewrite <- E in B. unfold is_digit, blank in D, B. zb. lia. }
    split; [apply (Forall_b _ _ _ is_digit_iff), taken_all|]. split.
    { intros N. rewrite N in E2. cbn in E2. rewrite E2 in B. unfold deref in B, X. cbn in B, X.
      unfold is_alnum, is_digit, is_lower, is_upper, blank in X, B. zb. lia. }
    split; [apply (Forall_b _ _ _ blank_iff), taken_all|]. apply is_alnum_iff. exact X.
  - intros (d & b & x & r & -> & Nd & Fd & Nb & Fb & A).
    destruct d as [|d0 d]; [contradiction|]. destruct b as [|b0 b]; [contradiction|].
    assert (S : skip is_digit ((d0 :: d) ++ (b0 :: b) ++ x :: r) = (b0 :: b) ++ x :: r).
    { apply skip_app; [apply (Forall_b _ _ _ is_digit_iff); exact Fd|].
      intros c r' [= <- _]. inversion Fb; subst. apply (false_iff _ _ (is_digit_iff b0)).
      unfold Blank, Digit in *. lia. }
    assert (S2 : skip blank ((b0 :: b) ++ x :: r) = x :: r).
    { apply skip_app; [apply (Forall_b _ _ _ blank_iff); exact Fb|].
      intros c r' [= <- _]. apply (false_iff _ _ (blank_iff x)). unfold Alnum, Digit, Lower, Upper, Blank in *. lia. }
    rewrite S, S2. inversion Fd; subst. inversion Fb; subst.
    repeat split; unfold deref; cbn [hd app]; [apply is_digit_iff|apply blank_iff|apply is_alnum_iff]; auto.
Qed.

Lemma basic_line_ok l a x : (length l <= 81)%nat -> basic_line l a = Ok x ->
  (x = inr (Some "classic_basic") /\ numbered l) \/ (x = inl a /\ ~ numbered l).
Proof.
  intros _. rewrite <- numbered_iff. unfold basic_line.
  destruct (is_digit (deref l)); [|intros [= <-]; right; split; [reflexivity|discriminate]].
  cbn [andb]. destruct (blank (deref (skip is_digit l))); [|intros [= <-]; right; split; [reflexivity|discriminate]].
  cbn [andb]. destruct (is_alnum _); intros [= <-]; [left|right]; split; auto; discriminate.
Qed.
Lemma basic_line_total l a : exists x, basic_line l a = Ok x.
Proof.
  unfold basic_line. destruct (is_digit _); [|eauto]. destruct (blank _); [|eauto]. destruct (is_alnum _); eauto.
Qed.

(** The text after the last dot. *)
Lemma after_dot_none p : ~ In 46 p -> after_dot p = p.
Proof.
  destruct p as [|c p]; [reflexivity|]. intros N. cbn [after_dot].
  replace (existsb (Z.eqb 46) p) with false.
  - destruct (c =? 46) eqn:E; [|reflexivity]. apply Z.eqb_eq in E. subst. exfalso. apply N. cbn. auto.
  - symmetry. apply not_true_iff_false. rewrite existsb_exists. intros (x & I & E).
    apply Z.eqb_eq in E. subst. apply N. cbn. auto.
Qed.
Lemma existsb_dot p : existsb (Z.eqb 46) p = true <-> In 46 p.
Proof.
  rewrite existsb_exists. split.
  - intros (x & I & E). apply Z.eqb_eq in E. subst. exact I.
  - intros I. exists 46. auto.
Qed.
Lemma after_dot_some a e : ~ In 46 e -> after_dot (a ++ 46 :: e) = e.
Proof.
  intros N. induction a as [|c a IH]; cbn [app after_dot].
  - rewrite (proj2 (false_iff _ _ (existsb_dot e)) N). reflexivity.
  - replace (existsb (Z.eqb 46) (a ++ 46 :: e)) with true; [exact IH|].
    symmetry. apply existsb_dot, in_app_iff. cbn. auto.
Qed.
Lemma dot_split p : ~ In 46 p \/ exists a e, p = a ++ 46 :: e /\ ~ In 46 e.
Proof.
  induction p as [|c p [N|(a & e & -> & N)]].
  - left. auto.
  - destruct (Z.eq_dec c 46) as [->|D].
    + right. exists [], p. auto.
    + left. intros [E|I]; auto.
  - right. exists (c :: a), e. auto.
Qed.
Lemma after_dot_iff name e : ~ In 46 e ->
  (after_dot name = e <-> name = e \/ exists a, name = a ++ 46 :: e).
Proof.
  intros N. split.
  - destruct (dot_split name) as [M|(a & e' & -> & M)].
    + rewrite after_dot_none by exact M. auto.
    + rewrite after_dot_some by exact M. intros ->. eauto.
  - intros [->|(a & ->)]; [apply after_dot_none|apply after_dot_some]; exact N.
Qed.
Lemma not_in_b (x : Z) l : existsb (Z.eqb x) l = false -> ~ In x l.
Proof.
  intros H I. assert (existsb (Z.eqb x) l = true); [|congruence].
  apply existsb_exists. exists x. split; [exact I|apply Z.eqb_refl].
Qed.
Lemma is_vb_name_iff n : is_vb_name n = true <-> vb_file n.
Proof.
  unfold is_vb_name, vb_file. rewrite existsb_exists.
  split; intros (e & I & H); exists e; (split; [exact I|]).
  - apply zlist_eqb_eq in H. apply after_dot_iff; [|exact H].
    apply not_in_b. cbn in I. repeat (destruct I as [<-|I]; [reflexivity|]). destruct I.
  - apply zlist_eqb_eq. apply after_dot_iff; [|exact H].
    apply not_in_b. cbn in I. repeat (destruct I as [<-|I]; [reflexivity|]). destruct I.
Qed.

(** *** h: keywords *)
Definition kw (b : Z) (p : list Z) : Prop := keyword b p.
Lemma word_iff c : is_alnum c || (c =? 95) = true <-> Word c.
Proof. unfold Word. rewrite orb_true_iff, is_alnum_iff, Z.eqb_eq. tauto. Qed.
Lemma word_neg c : negb (is_alnum c) && negb (c =? 95) = true <-> ~ Word c.
Proof. rewrite <- negb_orb, negb_true_iff. apply false_iff, word_iff. Qed.
Lemma lower_word c : Lower c -> Word c.
Proof. unfold Word, Alnum. auto. Qed.
Lemma kw_lower w : In w ["class"; "namespace"; "template"; "typename"] -> Forall Lower (bytes w) /\ bytes w <> [].
Proof.
  intros I. cbn in I.
  assert (H : forallb is_lower (bytes w) = true /\ bytes w <> []).
  { repeat (destruct I as [<-|I]; [split; [reflexivity|discriminate]|]). destruct I. }
  destruct H as [H N]. split; [|exact N]. rewrite Forall_forall. rewrite forallb_forall in H.
  intros x J. apply is_lower_iff. auto.
Qed.
Lemma kw_nil b : ~ keyword b [].
Proof.
  intros (a & w & r & E & I & _). apply kw_lower in I as [_ N].
  symmetry in E. apply app_eq_nil in E as [_ E]. apply app_eq_nil in E as [E _]. auto.
Qed.
Lemma kw_cons b c p : (~ Lower c \/ Word b) -> (keyword b (c :: p) <-> keyword c p).
Proof.
  intros H. split.
  - intros (a & w & r & E & I & L & R). destruct (kw_lower w I) as [F N].
    destruct a as [|x a].
    + exfalso. destruct H as [H|H]; [|exact (L H)].
      destruct (bytes w) as [|y l]; [contradiction|]. cbn in E. injection E as -> _.
      inversion F; subst. auto.
    + cbn [app] in E. injection E as -> ->. exists a, w, r. repeat split; auto.
      destruct a as [|y a]; [exact L|]. replace (last (y :: a) x) with (last (x :: y :: a) b); [exact L|].
      change (last (x :: y :: a) b) with (last (y :: a) b). clear.
      revert y; induction a as [|z a IH]; intros y; [reflexivity|]. apply (IH z).
  - intros (a & w & r & -> & I & L & R). exists (c :: a), w, r. repeat split; auto.
    destruct a as [|y a]; [exact L|]. change (last (c :: y :: a) b) with (last (y :: a) b).
    replace (last (y :: a) b) with (last (y :: a) c); [exact L|]. clear.
    revert y; induction a as [|z a IH]; intros y; [reflexivity|]. apply (IH z).
Qed.
Lemma last_cons_ne {A} (x : A) l d d' : last (x :: l) d = last (x :: l) d'.
Proof. revert x; induction l as [|z a IH]; intros y; [reflexivity|]. apply (IH z). Qed.
Lemma last_app_ne {A} (a b : list A) d : b <> [] -> last (a ++ b) d = last b d.
Proof.
  intros N. induction a as [|x a IH]; [reflexivity|]. cbn [app]. rewrite <- IH.
  destruct (a ++ b) eqn:E; [|reflexivity]. apply app_eq_nil in E as [_ ->]. contradiction.
Qed.
Lemma last_in {A} (x : A) l d : In (last (x :: l) d) (x :: l).
Proof. revert x; induction l as [|y l IH]; intros x; [cbn; auto|]. right. apply (IH y). Qed.

Lemma app_split {A} (a b c d : list A) : a ++ b = c ++ d ->
  (exists e, a = c ++ e /\ d = e ++ b) \/ (exists e, c = a ++ e /\ b = e ++ d).
Proof.
  revert c; induction a as [|x a IH]; intros c E.
  - right. exists c. auto.
  - destruct c as [|y c].
    + left. exists (x :: a). auto.
    + cbn in E. injection E as -> E. destruct (IH _ E) as [(e & -> & ->)|(e & -> & ->)]; [left|right]; exists e; auto.
Qed.

Lemma kw_skip b p : ~ Word b -> (forall c r, p = c :: r -> Lower c) -> p <> [] ->
  (keyword b p <->
   (exists w, In w ["class"; "namespace"; "template"; "typename"] /\ bytes w = taken is_lower p /\
              ~ Word (deref (skip is_lower p)))
   \/ keyword (deref (skip is_lower p)) (tl (skip is_lower p))).
Proof.
  intros B Hp Np.
  pose proof (taken_skip is_lower p) as E.
  pose proof (proj1 (Forall_b _ _ _ is_lower_iff) (taken_all is_lower p)) as FL.
  pose proof (skip_head is_lower p) as SH.
  assert (Nt : taken is_lower p <> []).
  { destruct p as [|c r]; [contradiction|]. cbn. rewrite (proj2 (is_lower_iff c) (Hp c r eq_refl)). discriminate. }
  set (t := taken is_lower p) in *. set (s := skip is_lower p) in *. clearbody t s.
  assert (D0 : forall s, ~ Word (deref s) <-> (forall c r, s = c :: r -> ~ Word c)).
  { intros [|x r]; unfold deref; cbn.
    - split; [discriminate|]. intros _. unfold Word, Alnum, Digit, Lower, Upper. lia.
    - split; [intros H ? ? [= <- <-]; exact H|intros H; apply (H x r eq_refl)]. }
  split.
  - intros (a & w & r & E' & I & L & R). destruct (kw_lower w I) as [Fw Nw].
    rewrite E in E'. apply app_split in E' as [(e & -> & E2)|(e & -> & E2)].
    + (* t = a ++ e *)
      destruct a as [|x a].
      * (* the word starts here *)
        cbn [app] in *. apply app_split in E2 as [(f & E3 & E4)|(f & E3 & E4)].
        -- (* bytes w = e ++ f, s = f ++ r *)
           destruct f as [|y f]; [rewrite app_nil_r in E3; cbn in E4; subst; left; exists w; repeat split; auto; apply D0; auto|].
           exfalso. rewrite E3 in Fw. apply Forall_app in Fw as [_ Fw]. inversion Fw; subst.
           cbn in SH. specialize (SH _ _ eq_refl). apply is_lower_iff in H1. congruence.
        -- (* e = bytes w ++ f, r = f ++ s *)
           destruct f as [|y f]; [rewrite app_nil_r in E3; cbn in E4; subst; left; exists w; repeat split; auto; apply D0; auto|].
           exfalso. apply (R y (f ++ s)); [exact E4|]. apply lower_word. rewrite E3 in FL.
           apply Forall_app in FL as [_ FL]. inversion FL; auto.
      * exfalso. apply L. apply lower_word. rewrite (last_cons_ne _ _ b 0).
        apply Forall_app in FL as [FL _]. rewrite Forall_forall in FL. apply FL, last_in.
    + (* a = t ++ e *)
      destruct e as [|y e].
      * exfalso. apply L. rewrite app_nil_r. destruct t as [|x t]; [contradiction|].
        apply lower_word. rewrite Forall_forall in FL. apply FL, last_in.
      * right. rewrite E2. cbn. exists e, w, r. repeat split; auto.
        rewrite last_app_ne in L by discriminate.
        destruct e as [|z e]; [exact L|]. rewrite (last_cons_ne z e y b). exact L.
  - intros [(w & I & T & N)|K].
    + exists [], w, s. cbn [app]. repeat split; auto; [congruence|]. apply D0. exact N.
    + destruct s as [|y s]; [destruct (kw_nil _ K)|]. cbn in K.
      destruct K as (a & w & r & -> & I & L & R). exists (t ++ y :: a), w, r.
      split; [rewrite E, <- app_assoc; reflexivity|]. repeat split; auto.
      rewrite last_app_ne by discriminate. destruct a as [|z a]; [exact L|].
      change (last (y :: z :: a) b) with (last (z :: a) b). rewrite (last_cons_ne z a b y). exact L.
Qed.

Lemma keywords_ok pl fuel b p r : (length p < fuel)%nat -> h_keywords pl fuel (Some b) p = Ok r ->
  (r = true <-> keyword b p).
Proof.
  revert b p r; induction fuel as [|k IH]; intros b p r L; [lia|]. cbn [h_keywords].
  destruct p as [|c q].
  { intros [= <-]. split; [discriminate|]. intros H. destruct (kw_nil _ H). }
  cbn [length] in L. destruct (is_lower c) eqn:E.
  - apply is_lower_iff in E. destruct (negb (is_alnum b) && negb (b =? 95)) eqn:W.
    + apply word_neg in W. rewrite upto_skip.
      rewrite (kw_skip b (c :: q)); [|exact W|intros ? ? [= <- <-]; exact E|discriminate].
      intros H. apply bind_ok in H as (found & F & H).
      set (s := skip is_lower (c :: q)) in *. set (t := taken is_lower (c :: q)) in *.
      assert (LS : (length (tl s) < k)%nat).
      { assert (length s <= length q)%nat.
        { subst s. cbn [skip]. rewrite (proj2 (is_lower_iff c) E). apply skip_length. }
        destruct s; cbn [tl length] in *; lia. }
      assert (FO : found = true <-> exists w, In w ["class"; "namespace"; "template"; "typename"] /\
                    bytes w = t /\ ~ Word (deref s)).
      { destruct (negb (is_alnum (deref s)) && negb (deref s =? 95)) eqn:X.
        - apply word_neg in X. apply bind_ok in F as (? & _ & F). apply Ok_inj in F. rewrite <- F, existsb_exists.
          split; intros (w & I & Y); exists w.
          + apply zlist_eqb_eq in Y. auto.
          + destruct Y as [Y _]. split; [exact I|]. apply zlist_eqb_eq. auto.
        - apply not_true_iff_false in X. rewrite word_neg in X. injection F as <-.
          split; [discriminate|]. intros (w & _ & _ & Y). contradiction. }
      destruct found.
      * injection H as <-. split; [|reflexivity]. intros _. left. apply FO. reflexivity.
      * rewrite (IH _ _ _ LS H). split; [auto|]. intros [X|X]; [|exact X].
        apply FO in X. discriminate.
    + intros H. apply IH in H; [rewrite H|lia]. symmetry. apply kw_cons. right.
      apply not_true_iff_false in W. rewrite word_neg in W.
      destruct (is_alnum b || (b =? 95)) eqn:Y; [apply word_iff; exact Y|].
      exfalso. apply W. rewrite <- word_iff. congruence.
  - intros H. apply IH in H; [rewrite H|lia]. symmetry. apply kw_cons. left.
    rewrite <- is_lower_iff. congruence.
Qed.

Lemma keywords_safe pl fuel b p : (length p < fuel)%nat -> zlen p < 81 + slack pl ->
  exists r, h_keywords pl fuel (Some b) p = Ok r.
Proof.
  revert b p; induction fuel as [|k IH]; intros b p L Z; [lia|]. cbn [h_keywords].
  destruct p as [|c q]; [eauto|]. unfold zlen in Z. cbn [length] in L, Z.
  assert (Q : zlen q < 81 + slack pl) by (unfold zlen; lia).
  destruct (is_lower c) eqn:E; [|apply IH; [lia|exact Q]].
  destruct (negb (is_alnum b) && negb (b =? 95)); [|apply IH; [lia|exact Q]].
  rewrite upto_skip. set (s := skip is_lower (c :: q)). set (t := taken is_lower (c :: q)).
  assert (LT : length (c :: q) = (length t + length s)%nat).
  { rewrite (taken_skip is_lower (c :: q)) at 1. apply app_length. }
  cbn [length] in LT.
  assert (LS : (length s <= length q)%nat) by (subst s; cbn [skip]; rewrite E; apply skip_length).
  assert (LT' : (length (tl s) <= length s)%nat) by (destruct s; cbn [tl length]; lia).
  assert (exists f, (if negb (is_alnum (deref s)) && negb (deref s =? 95)
           then _ <- store pl 81 (zlen t) ;;
                Ok (existsb (fun w => zlist_eqb t (bytes w)) ["class"; "namespace"; "template"; "typename"])
           else Ok false) = Ok f) as (f & ->).
  { destruct (_ && _); [|eauto]. unfold store. replace (zlen t <? 81 + slack pl) with true; [cbn [bind]; eauto|].
    symmetry. apply Z.ltb_lt. unfold zlen. lia. }
  cbn [bind]. destruct f; [eauto|]. apply IH; [lia|unfold zlen in *; lia].
Qed.

Lemma keywords_fuel pl fuel b p : (length p < fuel)%nat -> h_keywords pl fuel b p <> OutOfFuel.
Proof.
  revert b p; induction fuel as [|k IH]; intros b p L; [lia|]. cbn [h_keywords].
  destruct p as [|c q]; [discriminate|]. cbn [length] in L.
  destruct (is_lower c) eqn:E; [|apply IH; lia]. destruct b as [b|]; [|discriminate].
  destruct (negb (is_alnum b) && negb (b =? 95)); [|apply IH; lia].
  set (s := skip is_lower (c :: q)).
  assert (LS : (length s <= length q)%nat) by (subst s; cbn [skip]; rewrite E; apply skip_length).
  assert (LT' : (length (tl s) <= length s)%nat) by (destruct s; cbn [tl length]; lia).
  destruct (negb (is_alnum (deref s)) && negb (deref s =? 95)); cbn [bind].
  - unfold store. destruct (_ <? _); cbn [bind]; [|discriminate].
    destruct (existsb _ _); [discriminate|]. apply IH. lia.
  - apply IH. lia.
Qed.
