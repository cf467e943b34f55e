(** Lemmas about DetectorModel. *)
From Coq Require Import ZArith String List Bool Lia.
From Verif Require Import Base ParsedModel PathModel Tables DetectorModel DetectorSpec.
Import ListNotations.
Open Scope string_scope.
Open Scope Z_scope.
Open Scope list_scope.

(** *** Bytes *)

Ltac zb := repeat (rewrite ?orb_true_iff, ?andb_true_iff, ?negb_true_iff, ?Z.eqb_eq, ?Z.leb_le,
                   ?Z.eqb_neq, ?Z.ltb_lt, ?Z.leb_gt, ?Z.ltb_ge in * ).

Lemma blank_iff c : blank c = true <-> Blank c.
Proof. unfold blank, Blank. zb. tauto. Qed.
Lemma is_eol_iff c : is_eol c = true <-> Newline c.
Proof. unfold is_eol, Newline. zb. tauto. Qed.
Lemma white_iff c : blank c || is_eol c = true <-> White c.
Proof. unfold White. rewrite orb_true_iff, blank_iff, is_eol_iff. tauto. Qed.
Lemma is_digit_iff c : is_digit c = true <-> Digit c.
Proof. unfold is_digit, Digit. zb. tauto. Qed.
Lemma is_lower_iff c : is_lower c = true <-> Lower c.
Proof. unfold is_lower, Lower. zb. tauto. Qed.
Lemma is_upper_iff c : is_upper c = true <-> Upper c.
Proof. unfold is_upper, Upper. zb. tauto. Qed.
Lemma is_alnum_iff c : is_alnum c = true <-> Alnum c.
Proof. unfold is_alnum, Alnum. rewrite !orb_true_iff, is_digit_iff, is_lower_iff, is_upper_iff. tauto. Qed.
Lemma to_lower_eq c : to_lower c = lower c.
Proof. reflexivity. Qed.
Lemma lower_0 c : lower c = 0 <-> c = 0.
Proof. unfold lower. destruct (_ && _) eqn:E; zb; lia. Qed.
Lemma map_to_lower l : map to_lower l = map lower l.
Proof. reflexivity. Qed.

Lemma false_iff (b : bool) (P : Prop) : (b = true <-> P) -> (b = false <-> ~ P).
Proof. destruct b; intuition congruence. Qed.

(** *** Scanning *)

Lemma taken_skip f p : p = taken f p ++ skip f p.
Proof. induction p as [|c r IH]; cbn; [reflexivity|]. destruct (f c); cbn; congruence. Qed.
Lemma taken_all f p : Forall (fun c => f c = true) (taken f p).
Proof. induction p as [|c r IH]; cbn; [constructor|]. destruct (f c) eqn:E; auto. Qed.
Lemma skip_head f p c r : skip f p = c :: r -> f c = false.
Proof.
  induction p as [|x p IH]; cbn; [discriminate|]. destruct (f x) eqn:E; auto.
  intros [= -> ->]. auto.
Qed.
Lemma skip_app f w p : Forall (fun c => f c = true) w -> (forall c r, p = c :: r -> f c = false) ->
  skip f (w ++ p) = p.
Proof.
  induction 1 as [|c w H _ IH]; intros Hp; cbn.
  - destruct p as [|c r]; cbn; [reflexivity|]. rewrite (Hp c r eq_refl). reflexivity.
  - rewrite H. auto.
Qed.
Lemma taken_app f w p : Forall (fun c => f c = true) w -> (forall c r, p = c :: r -> f c = false) ->
  taken f (w ++ p) = w.
Proof.
  induction 1 as [|c w H _ IH]; intros Hp; cbn.
  - destruct p as [|c r]; cbn; [reflexivity|]. rewrite (Hp c r eq_refl). reflexivity.
  - rewrite H. f_equal. auto.
Qed.
Lemma skip_length f p : (length (skip f p) <= length p)%nat.
Proof. induction p as [|c r IH]; cbn; [lia|]. destruct (f c); cbn; lia. Qed.
Lemma upto_skip f p : upto p (skip f p) = taken f p.
Proof.
  unfold upto. rewrite (taken_skip f p) at 1 3. rewrite app_length, Nat.add_sub.
  rewrite firstn_app, Nat.sub_diag, firstn_O, app_nil_r, firstn_all. reflexivity.
Qed.
Lemma upto_app a p : upto (a ++ p) p = a.
Proof.
  unfold upto. rewrite app_length, Nat.add_sub.
  rewrite firstn_app, Nat.sub_diag, firstn_O, app_nil_r, firstn_all. reflexivity.
Qed.

Lemma cstr_eq p : cstr p = before_nul p.
Proof.
  unfold cstr. induction p as [|c r IH]; cbn; [reflexivity|].
  destruct (c =? 0); cbn; congruence.
Qed.
Lemma before_nul_app p : exists b, p = before_nul p ++ b /\ (b = [] \/ exists r, b = 0 :: r).
Proof.
  induction p as [|c r (b & E & H)]; cbn; [exists []; auto|].
  destruct (c =? 0) eqn:C.
  - apply Z.eqb_eq in C. subst. exists (0 :: r). eauto.
  - exists b. split; [cbn; congruence|auto].
Qed.
Lemma before_nul_no0 p : Forall (fun c => c <> 0) (before_nul p).
Proof.
  induction p as [|c r IH]; cbn; [constructor|]. destruct (c =? 0) eqn:C; [constructor|].
  apply Z.eqb_neq in C. constructor; auto.
Qed.
Lemma before_nul_id p : Forall (fun c => c <> 0) p -> before_nul p = p.
Proof.
  induction 1 as [|c p H _ IH]; cbn; [reflexivity|]. apply Z.eqb_neq in H. rewrite H. congruence.
Qed.
Lemma before_nul_app_no0 a p : Forall (fun c => c <> 0) a -> before_nul (a ++ p) = a ++ before_nul p.
Proof.
  induction 1 as [|c a H _ IH]; cbn; [reflexivity|]. apply Z.eqb_neq in H. rewrite H. congruence.
Qed.
Lemma before_nul_idem p : before_nul (before_nul p) = before_nul p.
Proof. apply before_nul_id, before_nul_no0. Qed.

(** *** Prefixes and occurrences *)

Lemma starts_iff lit p : starts lit p = true <-> begins lit p.
Proof.
  revert p; induction lit as [|c lit IH]; intros p; cbn.
  - split; [intros _; exists p; reflexivity|reflexivity].
  - destruct p as [|x p]; [split; [discriminate|intros (b & E); discriminate]|].
    rewrite andb_true_iff, Z.eqb_eq, IH. split.
    + intros [-> (b & ->)]. exists b. reflexivity.
    + intros (b & [= -> ->]). split; [reflexivity|exists b; reflexivity].
Qed.
Lemma startsb_iff lit p : startsb lit p = true <-> begins (bytes lit) p.
Proof. apply starts_iff. Qed.

Lemma starts_nocase_iff lit p : starts_nocase lit p = true <->
  exists m b, p = m ++ b /\ map lower m = map lower lit.
Proof.
  revert p; induction lit as [|c lit IH]; intros p; cbn.
  - split; [intros _; exists [], p; auto|reflexivity].
  - destruct p as [|x p].
    + split; [discriminate|]. intros (m & b & E & H). destruct m; discriminate.
    + rewrite andb_true_iff, Z.eqb_eq, IH. split.
      * intros [E (m & b & -> & H)]. exists (x :: m), b. cbn. rewrite H. unfold to_lower in E.
        split; [reflexivity|]. f_equal. exact E.
      * intros (m & b & E & H). destruct m as [|y m]; [discriminate|].
        cbn in E, H. injection E as -> ->. injection H as H1 H2. split; [exact H1|eauto].
Qed.

Lemma begins_before_nul lit p : Forall (fun c => c <> 0) lit ->
  (begins lit p <-> begins lit (before_nul p)).
Proof.
  intros H. split.
  - intros (b & ->). rewrite before_nul_app_no0 by auto. eexists; reflexivity.
  - intros (b & E). destruct (before_nul_app p) as (r & -> & _). rewrite E, <- app_assoc.
    eexists; reflexivity.
Qed.

Lemma strstr_some p lit q : strstr p lit = Some q ->
  exists a, p = a ++ q /\ begins lit q /\ Forall (fun c => c <> 0) a /\
            forall a1 a2, a = a1 ++ a2 -> a2 <> [] -> ~ begins lit (a2 ++ q).
Proof.
  revert q; induction p as [|c p IH]; intros q; cbn [strstr].
  - destruct (starts lit []) eqn:S; [|discriminate]. intros [= <-].
    exists []. apply starts_iff in S. repeat split; auto.
    intros [|? ?] a2; cbn; [|discriminate]. intros <- N. contradiction.
  - destruct (starts lit (c :: p)) eqn:S.
    + intros [= <-]. exists []. apply starts_iff in S. repeat split; auto.
      intros [|? ?] a2; cbn; [|discriminate]. intros <- N. contradiction.
    + destruct (c =? 0) eqn:C; [discriminate|]. intros H.
      destruct (IH _ H) as (a & -> & B & N & M). exists (c :: a). apply Z.eqb_neq in C.
      repeat split; auto. intros [|x a1] a2; cbn.
      * intros <- _ B'. apply starts_iff in B'. cbn in B'. congruence.
      * intros [= <- ->] Ne. eauto.
Qed.

Lemma strstr_none p lit : Forall (fun c => c <> 0) lit -> lit <> [] ->
  (strstr p lit = None <-> ~ occurs lit (before_nul p)).
Proof.
  intros L Ne. induction p as [|c p IH]; cbn [strstr before_nul].
  - destruct (starts lit []) eqn:S.
    + apply starts_iff in S as (b & E). destruct lit; [contradiction|discriminate].
    + split; [|reflexivity]. intros _ (a & b & E). destruct a; cbn in E; [|discriminate].
      destruct lit; [contradiction|discriminate].
  - destruct (starts lit (c :: p)) eqn:S.
    + split; [discriminate|]. intros H. exfalso. apply H. apply starts_iff in S.
      apply begins_before_nul in S; auto. destruct S as (b & E). exists [], b. exact E.
    + destruct (c =? 0) eqn:C.
      * split; [|reflexivity]. intros _ (a & b & E). destruct a; cbn in E; [|discriminate].
        destruct lit; [contradiction|discriminate].
      * rewrite IH. split; intros H (a & b & E); apply H.
        -- destruct a as [|x a]; cbn in E; [|injection E as -> ->; exists a, b; reflexivity].
           exfalso. assert (B : begins lit (c :: p)).
           { apply begins_before_nul; auto. exists b. cbn. rewrite C. exact E. }
           apply starts_iff in B. congruence.
        -- exists (c :: a), b. cbn. congruence.
Qed.

Lemma has_iff p lit : Forall (fun c => c <> 0) (bytes lit) -> bytes lit <> [] ->
  (has p lit = true <-> occurs (bytes lit) (before_nul p)).
Proof.
  intros L Ne. unfold has. pose proof (strstr_none p _ L Ne) as H.
  destruct (strstr p (bytes lit)) as [q|] eqn:E.
  - split; [intros _|reflexivity]. destruct (strstr_some _ _ _ E) as (a & -> & B & N & _).
    rewrite before_nul_app_no0 by auto. apply begins_before_nul in B as (b & ->); auto.
    exists a, b. reflexivity.
  - split; [discriminate|]. intros O. exfalso. apply (proj1 H eq_refl O).
Qed.

Lemma occurs_cons lit c p : occurs lit (c :: p) <-> begins lit (c :: p) \/ occurs lit p.
Proof.
  split.
  - intros (a & b & E). destruct a as [|x a]; cbn in E; [left; exists b; exact E|].
    injection E as -> ->. right. exists a, b. reflexivity.
  - intros [(b & E)|(a & b & ->)]; [exists [], b; exact E|exists (c :: a), b; reflexivity].
Qed.
Lemma occurs_nil lit : occurs lit [] <-> lit = [].
Proof.
  split; [|intros ->; exists [], []; reflexivity].
  intros (a & b & E). destruct a, lit; cbn in E; congruence.
Qed.

(** *** White space *)

Lemma visible_cons_white t p c : White c -> (visible (c :: t) p <-> visible t p).
Proof.
  intros W. split.
  - intros (w & E & F & N). destruct w as [|x w]; cbn in E.
    + subst. exfalso. exact (N c t eq_refl W).
    + injection E as -> ->. inversion F; subst. exists w. auto.
  - intros (w & -> & F & N). exists (c :: w). auto.
Qed.
Lemma visible_cons t p c : ~ White c -> (visible (c :: t) p <-> p = c :: t).
Proof.
  intros W. split.
  - intros (w & E & F & N). destruct w as [|x w]; cbn in E; [congruence|].
    injection E as -> ->. inversion F; subst. contradiction.
  - intros ->. exists []. repeat split; auto. intros ? ? [= <- <-]. auto.
Qed.
Lemma visible_nil p : visible [] p <-> p = [].
Proof.
  split.
  - intros (w & E & _). destruct w; cbn in E; congruence.
  - intros ->. exists []. repeat split; auto. discriminate.
Qed.

(** *** Lines *)

Section Lines.
  Variable pl : platform.
  Hypothesis slack_ok : 0 <= slack pl.

  Fixpoint fold_lines {A} (step : list Z -> A -> res (A + option string)) (ls : list (list Z)) (a : A)
    : res (A + option string) :=
    match ls with
    | [] => Ok (inl a)
    | l :: r =>
      line <- fetch pl l ;;
      x <- step line a ;;
      match x with
      | inr g => Ok (inr g)
      | inl a => fold_lines step r a
      end
    end.

  Lemma fetch_nil : fetch pl [] = Ok [].
  Proof.
    unfold fetch, store. change (zlen []) with 0. change (0 <=? 81) with true. cbv iota.
    replace (0 <? 81 + slack pl) with true by (symmetry; apply Z.ltb_lt; lia). reflexivity.
  Qed.

  Lemma lines_app l r : Forall (fun c => is_eol c = false) l -> (forall c r', r = c :: r' -> is_eol c = true) ->
    lines (l ++ r) = match r with [] => [l] | _ :: r' => l :: lines r' end.
  Proof.
    induction 1 as [|c l H _ IH]; intros Hr; cbn [app].
    - destruct r as [|c r]; cbn; [reflexivity|]. specialize (Hr c r eq_refl).
      unfold is_eol in Hr. rewrite Hr. reflexivity.
    - cbn [lines]. unfold is_eol in H. rewrite H, (IH Hr). destruct r; reflexivity.
  Qed.

  Lemma lines_nonempty t : lines t <> [].
  Proof. destruct t; cbn; [discriminate|]. destruct (_ || _); [discriminate|]. destruct (lines t); discriminate. Qed.

  Lemma fold_lines_skip {A} (step : list Z -> A -> res (A + option string)) p a :
    (forall a, step [] a = Ok (inl a)) ->
    fold_lines step (lines p) a = fold_lines step (lines (skip is_eol p)) a.
  Proof.
    intros S. induction p as [|c p IH]; cbn [skip]; [reflexivity|].
    destruct (is_eol c) eqn:E; [|reflexivity]. cbn [lines]. unfold is_eol in E. rewrite E.
    cbn [fold_lines]. rewrite fetch_nil. cbn [bind]. rewrite S. cbn [bind]. exact IH.
  Qed.

  Lemma each_line_eq {A} (step : list Z -> A -> res (A + option string)) :
    (forall a, step [] a = Ok (inl a)) ->
    forall fuel p a, (length p < fuel)%nat ->
    each_line pl fuel step p a = fold_lines step (lines p) a.
  Proof.
    intros S. induction fuel as [|k IH]; intros p a L; [lia|].
    cbn [each_line]. destruct p as [|c p'].
    { cbn [lines fold_lines]. rewrite fetch_nil. cbn [bind]. rewrite S. reflexivity. }
    remember (c :: p') as p eqn:EP. assert (NP : (0 < length p)%nat) by (rewrite EP; cbn; lia). clear c p' EP.
    rewrite upto_skip.
    pose proof (taken_skip (fun c => negb (is_eol c)) p) as P.
    pose proof (taken_all (fun c => negb (is_eol c)) p) as HL.
    pose proof (skip_head (fun c => negb (is_eol c)) p) as HR.
    set (l := taken (fun c => negb (is_eol c)) p) in *. set (r := skip (fun c => negb (is_eol c)) p) in *.
    clearbody l r.
    assert (HL' : Forall (fun c => is_eol c = false) l).
    { eapply Forall_impl; [|exact HL]. cbn. intros x. rewrite negb_true_iff. auto. }
    assert (HR' : forall c r', r = c :: r' -> is_eol c = true).
    { intros x r' E. apply HR in E. apply negb_false_iff in E. exact E. }
    clear HL HR. rename HL' into HL. rename HR' into HR.
    assert (LP : length p = (length l + length r)%nat) by (rewrite P at 1; apply app_length).
    destruct p as [|c p']; [cbn in NP; lia|]. remember (c :: p') as p eqn:EP.
    replace (lines p) with (match r with [] => [l] | _ :: r' => l :: lines r' end)
      by (rewrite P; symmetry; apply lines_app; auto).
    assert (F : forall a, each_line pl k step (skip is_eol r) a =
                          fold_lines step (match r with [] => [] | _ :: r' => lines r' end) a).
    { intros b. assert (LR : (length (skip is_eol r) < k)%nat).
      { destruct r as [|x r'] eqn:R.
        - cbn [skip length]. lia.
        - cbn [skip]. rewrite (HR x r' eq_refl). pose proof (skip_length is_eol r').
          cbn [length] in LP. lia. }
      rewrite IH by exact LR. destruct r as [|x r'] eqn:R.
      - cbn [skip lines fold_lines]. rewrite fetch_nil. cbn [bind]. rewrite S. reflexivity.
      - cbn [skip]. rewrite (HR x r' eq_refl). symmetry. apply fold_lines_skip. exact S. }
    destruct r as [|x r'] eqn:R; cbn [fold_lines]; destruct (fetch pl l) as [line| |]; cbn [bind]; try reflexivity;
      destruct (step line a) as [[b|g]| |]; cbn [bind]; try reflexivity; apply F.
  Qed.

  Lemma lines_loop_eq {A} f (step : list Z -> A -> res (A + option string)) a :
    (forall a, step [] a = Ok (inl a)) ->
    lines_loop pl f step a = fold_lines step (lines (contents f)) a.
  Proof. intros S. apply each_line_eq; auto. Qed.

  (** What fetch gives. *)
  Lemma fetch_ok l line : fetch pl l = Ok line -> line = seen l.
  Proof.
    unfold fetch. destruct (store _ _ _); cbn [bind]; try discriminate. intros [= <-].
    unfold seen, zlen. rewrite cstr_eq. f_equal.
    destruct (Z.of_nat (length l) <=? 81) eqn:E.
    - apply Z.leb_le in E. rewrite Nat2Z.id, firstn_all, firstn_all2; [reflexivity|lia].
    - reflexivity.
  Qed.
  Lemma fetch_safe l : (zlen l <= 80 \/ 1 <= slack pl) -> fetch pl l = Ok (seen l).
  Proof.
    intros H. assert (exists x, fetch pl l = Ok x) as (x & E); [|rewrite E; f_equal; exact (fetch_ok _ _ E)].
    unfold fetch, store. destruct (zlen l <=? 81) eqn:E; zb;
      [destruct (zlen l <? 81 + slack pl) eqn:F|destruct (81 <? 81 + slack pl) eqn:F]; zb; cbn [bind]; eauto; lia.
  Qed.
  Lemma fetch_not_fuel l : fetch pl l <> OutOfFuel.
  Proof. unfold fetch, store. destruct (_ <? _); cbn [bind]; discriminate. Qed.
  Lemma seen_length l : (length (seen l) <= 81)%nat.
  Proof.
    unfold seen. destruct (before_nul_app (firstn 81 l)) as (b & E & _).
    assert (length (firstn 81 l) <= 81)%nat by apply firstn_le_length.
    rewrite E, app_length in H. lia.
  Qed.
End Lines.
