(** Lemmas about the disambiguators st and fs of DetectorModel. *)
From Coq Require Import ZArith String List Bool Lia.
From Verif Require Import Base ParsedModel PathModel Tables DetectorModel DetectorSpec DetectorProofs
  DisambProofs DisambProofs2.
Import ListNotations.
Open Scope string_scope.
Open Scope Z_scope.
Open Scope list_scope.

(** *** st *)
(** A colon, blanks and [x]. *)
Definition colon (x : Z) (p : list Z) : Prop := exists w, Forall Blank w /\ occurs ([58] ++ w ++ [x]) p.
Lemma colon_cons x c p : x <> 0 -> ~ Blank x ->
  (colon x (c :: p) <-> (c = 58 /\ deref (skip blank p) = x) \/ colon x p).
Proof.
  intros X B. split.
  - intros (w & F & O). cbn [app] in O. apply occurs_cons in O as [(z & E)|O]; [|right; exists w; auto].
    left. cbn [app] in E. injection E as -> ->. split; [reflexivity|]. rewrite <- app_assoc.
    rewrite skip_app; [reflexivity|apply (Forall_b _ _ _ blank_iff); exact F|].
    intros c r [= <- _]. apply (false_iff _ _ (blank_iff x)). exact B.
  - intros [[-> D]|(w & F & O)].
    + exists (taken blank p). split; [apply (Forall_b _ _ _ blank_iff), taken_all|].
      apply occurs_cons. left. destruct (skip blank p) as [|y r] eqn:S; [unfold deref in D; cbn in D; congruence|].
      unfold deref in D. cbn in D. subst y. exists r. rewrite (taken_skip blank p) at 1. rewrite S.
      cbn [app]. rewrite <- app_assoc. reflexivity.
    + exists w. split; [exact F|]. apply occurs_cons. auto.
Qed.
Lemma occurs_blank c0 pat w q : ~ Blank c0 -> Forall Blank w -> (occurs (c0 :: pat) (w ++ q) <-> occurs (c0 :: pat) q).
Proof.
  intros N F. induction F as [|x w Bx _ IH]; cbn [app]; [reflexivity|]. rewrite occurs_cons, IH.
  split; [|auto]. intros [X|X]; [|exact X]. apply begins_cons in X as [-> _]. contradiction.
Qed.
Lemma colon_blank x w q : Forall Blank w -> (colon x (w ++ q) <-> colon x q).
Proof.
  intros F. split; intros (v & Fv & O); exists v; (split; [exact Fv|]); cbn [app] in *;
    (apply (occurs_blank 58 (v ++ [x]) w q); [unfold Blank; lia|exact F|exact O]).
Qed.
Lemma colon_skip x p : colon x p <-> colon x (skip blank p).
Proof.
  rewrite (taken_skip blank p) at 1. apply colon_blank. apply (Forall_b _ _ _ blank_iff), taken_all.
Qed.
Lemma end_skip p : block_end p <-> block_end (skip blank p).
Proof.
  unfold block_end. rewrite (taken_skip blank p) at 1. apply occurs_blank; [unfold Blank; lia|].
  apply (Forall_b _ _ _ blank_iff), taken_all.
Qed.
Lemma colon_nil x : ~ colon x [].
Proof. intros (w & _ & O). apply occurs_nil in O. destruct w; discriminate O. Qed.
Lemma end_nil : ~ block_end [].
Proof. intros O. apply occurs_nil in O. discriminate O. Qed.
Lemma colon_tl x p : x <> 0 -> ~ Blank x -> (colon x (tl p) -> colon x p).
Proof. intros X B. destruct p; [auto|]. cbn [tl]. rewrite colon_cons by assumption. auto. Qed.
Lemma end_tl p : block_end (tl p) -> block_end p.
Proof. destruct p; [auto|]. unfold block_end. cbn [tl]. rewrite occurs_cons. auto. Qed.
Lemma end_cons c p : block_end (c :: p) <-> (c = 93 /\ deref p = 46) \/ block_end p.
Proof.
  unfold block_end. rewrite occurs_cons, begins_cons. split; intros [H|H]; auto; left; destruct H as [E B]; (split; [auto|]).
  - apply deref_iff in B; [|discriminate]. apply Z.eqb_eq in B. exact B.
  - apply deref_iff; [discriminate|]. apply Z.eqb_eq. exact B.
Qed.

Lemma nb61 : ~ Blank 61. Proof. unfold Blank. lia. Qed.
Lemma nb91 : ~ Blank 91. Proof. unfold Blank. lia. Qed.

Lemma hidden_iff p : hidden p <-> colon 58 p \/ colon 93 p.
Proof.
  unfold hidden, colon. split.
  - intros (w & x & F & [<-|[<-|[]]] & O); eauto.
  - intros [(w & F & O)|(w & F & O)]; [exists w, 58|exists w, 93]; cbn; auto.
Qed.

Lemma st_found fuel p a b c x : st_line fuel p (a, b, c) = Ok x ->
  match x with
  | inr g => g = Some "smalltalk" /\ (a = true \/ assignment p) /\ (b = true \/ block_start p) /\ (c = true \/ block_end p)
  | inl (a', b', c') =>
    (a' = true -> a = true \/ assignment p) /\ (b' = true -> b = true \/ block_start p) /\ (c' = true -> c = true \/ block_end p)
    /\ (~ hidden p -> (a && b && c = false) ->
        a' && b' && c' = false /\ (a = true \/ assignment p -> a' = true) /\ (b = true \/ block_start p -> b' = true)
        /\ (c = true \/ block_end p -> c' = true))
  end.
Proof.
  change assignment with (colon 61). change block_start with (colon 91).
  revert p a b c x; induction fuel as [|k IH]; intros p a b c x; cbn [st_line]; [discriminate|].
  destruct p as [|y r].
  { intros [= <-]. split; [auto|]. split; [auto|]. split; [auto|]. intros _ E. split; [exact E|].
    split; [|split]; intros [H|H]; auto; [destruct (colon_nil _ H)|destruct (colon_nil _ H)|destruct (end_nil H)]. }
  destruct (y =? 58) eqn:E58.
  - apply Z.eqb_eq in E58 as ->. cbv zeta.
    set (q := skip blank r).
    assert (A : colon 61 (58 :: r) <-> deref q = 61 \/ colon 61 q).
    { rewrite colon_cons by (discriminate || apply nb61). rewrite colon_skip. fold q. tauto. }
    assert (B : colon 91 (58 :: r) <-> deref q = 91 \/ colon 91 q).
    { rewrite colon_cons by (discriminate || apply nb91). rewrite (colon_skip 91). fold q. tauto. }
    assert (C : block_end (58 :: r) <-> block_end q).
    { rewrite end_cons, end_skip. fold q. intuition discriminate. }
    assert (TL : forall z, z <> 0 -> ~ Blank z -> colon z (tl q) -> colon z q) by (intros; apply colon_tl; auto).
    pose proof (end_tl q) as TE.
    assert (NH : ~ hidden (58 :: r) -> ~ hidden (tl q) /\ deref q <> 58 /\ deref q <> 93).
    { rewrite !hidden_iff, !(colon_cons _ 58 r) by (unfold Blank; lia). rewrite !(colon_skip _ r). fold q.
      intros N. split; [|split]; intros H; apply N; [destruct H as [H|H]|left|right]; auto;
        [left; right|right; right]; apply TL; auto; unfold Blank; lia. }
    assert (NA : forall z, z <> 0 -> ~ Blank z -> deref q <> 58 -> (colon z q <-> colon z (tl q))).
    { intros z Z1 Z2 D. destruct q as [|v q']; [reflexivity|]. cbn [tl]. rewrite colon_cons by auto.
      unfold deref in D. cbn in D. intuition. }
    assert (NE : deref q <> 93 -> (block_end q <-> block_end (tl q))).
    { intros D. destruct q as [|v q']; [reflexivity|]. cbn [tl]. rewrite end_cons.
      unfold deref in D. cbn in D. intuition. }
    clearbody q.
    assert (T61 := TL 61 ltac:(discriminate) nb61). assert (T91 := TL 91 ltac:(discriminate) nb91).
    assert (N61 := NA 61 ltac:(discriminate) nb61). assert (N91 := NA 91 ltac:(discriminate) nb91). clear TL NA.
    set (s := if deref q =? 61 then (true, b, c) else if deref q =? 91 then (a, true, c) else (a, b, c)).
    match goal with |- context [if deref q =? 61 then (q, ?u) else ?v] =>
      assert (T : (if deref q =? 61 then (q, u) else v) = (q, s))
        by (unfold s; destruct (deref q =? 61); [reflexivity|]; destruct (deref q =? 91); reflexivity);
      rewrite T; clear T end.
    destruct s as [[a1 b1] c1] eqn:S.
    assert (S1 : a1 = true <-> a = true \/ deref q = 61).
    { revert S. unfold s. clear. destruct (deref q =? 61) eqn:X; [|destruct (deref q =? 91) eqn:Y]; intros [= <- <- <-].
      - apply Z.eqb_eq in X. tauto.
      - apply Z.eqb_neq in X. tauto.
      - apply Z.eqb_neq in X. tauto. }
    assert (S2 : b1 = true <-> b = true \/ deref q = 91).
    { revert S. unfold s. clear. destruct (deref q =? 61) eqn:X; [|destruct (deref q =? 91) eqn:Y]; intros [= <- <- <-].
      - apply Z.eqb_eq in X. rewrite X. intuition discriminate.
      - apply Z.eqb_eq in Y. tauto.
      - apply Z.eqb_neq in Y. tauto. }
    assert (S3 : c1 = c).
    { revert S. unfold s. destruct (deref q =? 61); [|destruct (deref q =? 91)]; intros [= <- <- <-]; reflexivity. }
    clear s S. subst c1. cbv beta iota. unfold found_all. cbv beta iota. destruct (a1 && b1 && c) eqn:FA.
    + intros [= <-]. apply andb_true_iff in FA as [FA FC]. apply andb_true_iff in FA as [FA FB].
      split; [reflexivity|]. rewrite A, B. clear -FA FB FC S1 S2. tauto.
    + intros H. apply IH in H. destruct x as [[[a' b'] c']|g].
      * destruct H as (H1 & H2 & H3 & H4). rewrite A, B, C.
        split; [clear -H1 S1 T61; tauto|]. split; [clear -H2 S2 T91; tauto|]. split; [clear -H3 TE; tauto|].
        intros N F. destruct (NH N) as (K1 & K2 & K3). destruct (H4 K1 FA) as (G1 & G2 & G3 & G4).
        specialize (N61 K2). specialize (N91 K2). specialize (NE K3).
        split; [exact G1|]. split; [clear -G2 S1 N61; tauto|]. split; [clear -G3 S2 N91; tauto|]. clear -G4 NE; tauto.
      * rewrite A, B, C. destruct H as (H1 & H2 & H3 & H4). split; [exact H1|].
        split; [clear -H2 S1 T61; tauto|]. split; [clear -H3 S2 T91; tauto|]. clear -H4 TE; tauto.
  - apply Z.eqb_neq in E58.
    assert (A : colon 61 (y :: r) <-> colon 61 r) by (rewrite colon_cons by (discriminate || apply nb61); tauto).
    assert (B : colon 91 (y :: r) <-> colon 91 r) by (rewrite colon_cons by (discriminate || apply nb91); tauto).
    assert (NH : hidden (y :: r) <-> hidden r).
    { rewrite !hidden_iff, !(colon_cons _ y r) by (unfold Blank; lia). tauto. }
    pose proof (end_cons y r) as C.
    set (e := (y =? 93) && (deref r =? 46)).
    assert (E : e = true <-> y = 93 /\ deref r = 46) by (unfold e; rewrite andb_true_iff, !Z.eqb_eq; tauto).
    clearbody e.
    match goal with |- context [if e then ?u else ?v] =>
      assert (T : (if e then u else v) = (y :: r, (a, b, e || c) : found)) by (destruct e; reflexivity);
      rewrite T; clear T end.
    unfold found_all. cbn [tl]. destruct (a && b && (e || c)) eqn:FA.
    + intros [= <-]. apply andb_true_iff in FA as [FA FC]. apply andb_true_iff in FA as [FA FB].
      apply orb_true_iff in FC. split; [reflexivity|]. rewrite C. clear -FA FB FC E. tauto.
    + intros H. apply IH in H.
      assert (OC : e || c = true <-> (y = 93 /\ deref r = 46) \/ c = true) by (rewrite orb_true_iff; tauto).
      destruct x as [[[a' b'] c']|g].
      * rewrite A, B, C, NH. destruct H as (H1 & H2 & H3 & H4). split; [exact H1|]. split; [exact H2|]. split; [clear -H3 OC; tauto|].
        intros N F. destruct (H4 N FA) as (G1 & G2 & G3 & G4). split; [exact G1|]. split; [exact G2|]. split; [exact G3|].
        clear -G4 OC. tauto.
      * rewrite A, B, C. clear -H OC. tauto.
Qed.

Lemma st_total fuel p s : (length p < fuel)%nat -> exists x, st_line fuel p s = Ok x.
Proof.
  revert p s; induction fuel as [|k IH]; intros p s L; [lia|]. cbn [st_line].
  destruct p as [|c r]; [eauto|]. cbn [length] in L. destruct s as [[a b] e].
  assert (LS : (length (tl (skip blank r)) < k)%nat).
  { pose proof (skip_length blank r). destruct (skip blank r); cbn [tl length] in *; lia. }
  destruct (c =? 58).
  - cbv zeta. destruct (deref (skip blank r) =? 61); [|destruct (deref (skip blank r) =? 91)];
      cbv beta iota; destruct (found_all _); eauto.
  - destruct ((c =? 93) && _); cbv beta iota; destruct (found_all _); eauto; apply IH; cbn [tl]; lia.
Qed.

Definition st_step := fun line : list Z => st_line (S (length line)) line.

Lemma st_fold pl ls a b c x : fold_lines pl st_step ls (a, b, c) = Ok x ->
  let A := exists l, In l ls /\ assignment (seen l) in
  let B := exists l, In l ls /\ block_start (seen l) in
  let C := exists l, In l ls /\ block_end (seen l) in
  match x with
  | inr g => g = Some "smalltalk" /\ (a = true \/ A) /\ (b = true \/ B) /\ (c = true \/ C)
  | inl _ =>
    (forall l, In l ls -> ~ hidden (seen l)) -> a && b && c = false ->
    ~ ((a = true \/ A) /\ (b = true \/ B) /\ (c = true \/ C))
  end.
Proof.
  cbv zeta. revert a b c x; induction ls as [|l ls IH]; intros a b c x; cbn [fold_lines].
  - intros [= <-]. intros _ F ([HA|(? & [] & _)] & [HB|(? & [] & _)] & [HC|(? & [] & _)]). rewrite HA, HB, HC in F. discriminate F.
  - intros H. apply bind_ok in H as (line & F & H). apply fetch_ok in F as ->.
    apply bind_ok in H as (y & S & H). unfold st_step in S at 1. apply st_found in S.
    assert (CONS : forall P : list Z -> Prop, (exists l', In l' (l :: ls) /\ P (seen l')) <-> P (seen l) \/ exists l', In l' ls /\ P (seen l')).
    { intros P. split.
      - intros (l' & [<-|I] & Q); eauto.
      - intros [Q|(l' & I & Q)]; [exists l|exists l']; cbn; auto. }
    pose proof (CONS assignment) as CA. pose proof (CONS block_start) as CB. pose proof (CONS block_end) as CC. clear CONS.
    destruct y as [[[a' b'] c']|g].
    + destruct S as (S1 & S2 & S3 & S4). apply IH in H. destruct x as [st|g].
      * intros N FA. destruct (S4 (N l (or_introl eq_refl)) FA) as (G1 & G2 & G3 & G4).
        assert (N' : forall l, In l ls -> ~ hidden (seen l)) by (intros; apply N; cbn; auto).
        specialize (H N' G1). rewrite CA, CB, CC. clear -H G2 G3 G4. tauto.
      * rewrite CA, CB, CC. clear -H S1 S2 S3. tauto.
    + injection H as <-. rewrite CA, CB, CC. clear -S. tauto.
Qed.

(** *** fs *)
Lemma stripped_iff l p : stripped l p <-> p = skip blank l.
Proof.
  split.
  - intros (w & -> & F & N). symmetry. apply skip_app; [apply (Forall_b _ _ _ blank_iff); exact F|].
    intros c r E. apply (false_iff _ _ (blank_iff c)). eauto.
  - intros ->. exists (taken blank l). split; [apply taken_skip|]. split; [apply (Forall_b _ _ _ blank_iff), taken_all|].
    intros c r E. apply skip_head in E. rewrite <- blank_iff. congruence.
Qed.
Definition forthb (l : list Z) : bool := existsb (fun lit => startsb lit (skip blank l)) ["\ "; ": "].
Definition fsharpb (l : list Z) : bool := existsb (fun lit => startsb lit (skip blank l)) ["|"; "let "; "type "; "//"].
Lemma forthb_iff l : forthb l = true <-> forth_line l.
Proof.
  unfold forthb. rewrite <- in_lits. unfold forth_line. split.
  - intros (lit & I & B). exists (skip blank l), lit. split; [apply stripped_iff; reflexivity|auto].
  - intros (p & lit & S & B & I). apply stripped_iff in S as ->. eauto.
Qed.
Lemma fsharpb_iff l : fsharpb l = true <-> fsharp_line l.
Proof.
  unfold fsharpb. rewrite <- in_lits. unfold fsharp_line. split.
  - intros (lit & I & B). exists (skip blank l), lit. split; [apply stripped_iff; reflexivity|auto].
  - intros (p & lit & S & B & I). apply stripped_iff in S as ->. eauto.
Qed.
Definition cnt (f : list Z -> bool) (ls : list (list Z)) : Z := Z.of_nat (length (filter f ls)).
Lemma cnt_cons f l ls : cnt f (l :: ls) = (if f l then 1 else 0) + cnt f ls.
Proof. unfold cnt. cbn [filter]. destruct (f l); cbn [length]; lia. Qed.
Lemma cnt_nil f : cnt f [] = 0.
Proof. reflexivity. Qed.
Lemma count_iff f (P : list Z -> Prop) ls n : (forall l, f l = true <-> P l) -> (count P ls n <-> n = cnt f ls).
Proof.
  intros R. split.
  - induction 1 as [|l ls n p _ IH|l ls n p _ IH]; [reflexivity| |]; rewrite cnt_cons.
    + rewrite (proj2 (R l) p). lia.
    + rewrite (proj2 (false_iff _ _ (R l)) p). lia.
  - intros ->. induction ls as [|l ls IH]; [constructor|]. rewrite cnt_cons. destruct (f l) eqn:E.
    + rewrite Z.add_comm. constructor; [apply R; exact E|exact IH].
    + constructor; [rewrite <- R; congruence|exact IH].
Qed.
Lemma cnt_skip f u : f [] = false -> cnt f (lines u) = cnt f (lines (skip is_eol u)).
Proof.
  intros F. induction u as [|c u IH]; cbn [skip]; [reflexivity|]. destruct (is_eol c) eqn:E; [|reflexivity].
  cbn [lines]. unfold is_eol in E. rewrite E, cnt_cons, F. exact IH.
Qed.
Lemma skip_sub f g p : (forall c, f c = true -> g c = true) -> skip g (skip f p) = skip g p.
Proof.
  intros S. induction p as [|c p IH]; cbn [skip]; [reflexivity|]. destruct (f c) eqn:F; [|reflexivity].
  rewrite (S c F). exact IH.
Qed.
Lemma before_skip_eol r : before_nul (skip is_eol r) = skip is_eol (before_nul r).
Proof.
  induction r as [|c r IH]; cbn [skip before_nul]; [reflexivity|]. destruct (is_eol c) eqn:E.
  - assert (N : c =? 0 = false) by (unfold is_eol in E; zb; lia). rewrite N. cbn [skip]. rewrite E. exact IH.
  - cbn [before_nul]. destruct (c =? 0); [reflexivity|]. cbn [skip]. rewrite E. reflexivity.
Qed.
Definition inline (c : Z) : bool := negb (c =? 0) && negb (is_eol c).
Lemma starts_stop lit l r : Forall (fun c => inline c = true) lit -> (forall c r', r = c :: r' -> inline c = false) ->
  starts lit (l ++ r) = starts lit l.
Proof.
  intros F R. revert l; induction F as [|c lit C _ IH]; intros l; [reflexivity|]. cbn [starts].
  destruct l as [|x l]; cbn [app].
  - destruct r as [|x r]; [reflexivity|]. specialize (R _ _ eq_refl). destruct (x =? c) eqn:E; [|reflexivity].
    apply Z.eqb_eq in E. congruence.
  - rewrite IH. reflexivity.
Qed.
Lemma skip_blank_stop l r : (forall c r', r = c :: r' -> blank c = false) -> skip blank (l ++ r) = skip blank l ++ r.
Proof.
  intros R. induction l as [|c l IH]; cbn [app skip].
  - destruct r as [|c r]; [reflexivity|]. cbn [skip]. rewrite (R _ _ eq_refl). reflexivity.
  - destruct (blank c); [exact IH|reflexivity].
Qed.
Lemma inline_lit s : forallb inline (bytes s) = true -> Forall (fun c => inline c = true) (bytes s).
Proof. rewrite forallb_forall, Forall_forall. auto. Qed.

Lemma fs_count fuel p a b : (length p < fuel)%nat ->
  fs_loop fuel p a b = Ok (a + cnt forthb (lines (before_nul p)), b + cnt fsharpb (lines (before_nul p))).
Proof.
  revert p a b; induction fuel as [|k IH]; intros p a b L; [lia|]. cbn [fs_loop].
  destruct (deref p =? 0) eqn:D.
  { replace (before_nul p) with (@nil Z).
    - change (cnt forthb (lines [])) with 0. change (cnt fsharpb (lines [])) with 0. rewrite !Z.add_0_r. reflexivity.
    - destruct p as [|c r]; [reflexivity|]. unfold deref in D. cbn in D. cbn [before_nul]. rewrite D. reflexivity. }
  cbv zeta. fold inline.
  assert (SUB : forall c, blank c = true -> inline c = true) by (intros c H; unfold inline, is_eol; unfold blank in H; zb; lia).
  rewrite (skip_sub blank inline p SUB).
  pose proof (taken_skip inline p) as E. pose proof (taken_all inline p) as FL. pose proof (skip_head inline p) as SH.
  set (l := taken inline p) in *. set (r := skip inline p) in *.
  assert (LR : (length (skip is_eol r) < k)%nat).
  { assert (LP : length p = (length l + length r)%nat) by (rewrite E at 1; apply app_length).
    pose proof (skip_length is_eol r).
    destruct l as [|x l'] eqn:EL; [|cbn [length] in LP; lia].
    destruct r as [|x r'] eqn:ER; [cbn [skip length]; destruct p; [discriminate D|cbn [length] in *; lia]|].
    specialize (SH _ _ eq_refl). cbn [app] in E. rewrite E in D. unfold deref in D. cbn [hd] in D.
    unfold inline in SH. rewrite D in SH. cbn [negb andb] in SH. apply negb_false_iff in SH.
    cbn [skip]. rewrite SH. pose proof (skip_length is_eol r'). cbn [length] in LP. lia. }
  clearbody l r.
  assert (ST : forall s, forallb inline (bytes s) = true -> startsb s (skip blank p) = startsb s (skip blank l)).
  { intros s H. rewrite E. rewrite skip_blank_stop.
    - apply starts_stop; [apply inline_lit; exact H|exact SH].
    - intros c r' X. apply SH in X. apply not_true_iff_false. intros Y. apply SUB in Y. congruence. }
  rewrite !ST by reflexivity.
  set (q := if startsb "\ " (skip blank l) then _ else _).
  assert (Q : q = (a + (if forthb l then 1 else 0), b + (if fsharpb l then 1 else 0))).
  { unfold q, forthb, fsharpb. clear. set (m := skip blank l). clearbody m. destruct m as [|c m].
    - cbn. rewrite !Z.add_0_r. reflexivity.
    - lits.
      destruct (c =? 92) eqn:E1.
      { apply Z.eqb_eq in E1 as ->. cbn. destruct m as [|x m]; [|destruct (x =? 32)]; cbn; rewrite ?Z.add_0_r; reflexivity. }
      destruct (c =? 58) eqn:E2.
      { apply Z.eqb_eq in E2 as ->. cbn. destruct m as [|x m]; [|destruct (x =? 32)]; cbn; rewrite ?Z.add_0_r; reflexivity. }
      cbn [andb orb]. rewrite Z.add_0_r. destruct (c =? 124); [reflexivity|]. cbn [andb orb].
      destruct ((c =? 108) && _); [reflexivity|]. cbn [orb].
      destruct ((c =? 116) && _); [reflexivity|]. cbn [orb].
      destruct ((c =? 47) && _); [reflexivity|]. cbn [orb]. rewrite Z.add_0_r. reflexivity. }
  rewrite Q. clear q Q. rewrite IH by exact LR.
  assert (BN : before_nul p = l ++ before_nul r).
  { rewrite E. apply before_nul_app_no0. eapply Forall_impl; [|exact FL]. cbn. intros c H. unfold inline in H.
    apply andb_true_iff in H as [H _]. apply negb_true_iff, Z.eqb_neq in H. exact H. }
  assert (LN : lines (before_nul p) = match before_nul r with [] => [l] | _ :: r' => l :: lines r' end).
  { rewrite BN. apply lines_app.
    - eapply Forall_impl; [|exact FL]. cbn. intros c H. unfold inline in H.
      apply andb_true_iff in H as [_ H]. apply negb_true_iff in H. exact H.
    - intros c r' X. destruct r as [|y r0]; [discriminate X|]. specialize (SH _ _ eq_refl). cbn [before_nul] in X.
      destruct (y =? 0) eqn:Y; [discriminate X|]. injection X as <- _. unfold inline in SH. rewrite Y in SH.
      cbn [negb andb] in SH. apply negb_false_iff in SH. exact SH. }
  assert (CN : forall f, f [] = false -> cnt f (lines (before_nul p)) = (if f l then 1 else 0) + cnt f (lines (before_nul (skip is_eol r)))).
  { intros f F. rewrite LN, before_skip_eol. destruct (before_nul r) as [|x r'] eqn:X.
    - cbn [skip lines]. rewrite !cnt_cons, cnt_nil, F. lia.
    - rewrite cnt_cons. f_equal. destruct r as [|y r0]; [discriminate X|]. specialize (SH _ _ eq_refl). cbn [before_nul] in X.
      destruct (y =? 0) eqn:Y; [discriminate X|]. injection X as <- <-. unfold inline in SH. rewrite Y in SH.
      cbn [negb andb] in SH. apply negb_false_iff in SH. cbn [skip]. rewrite SH. apply cnt_skip. exact F. }
  rewrite !CN by reflexivity. do 2 f_equal; lia.
Qed.
