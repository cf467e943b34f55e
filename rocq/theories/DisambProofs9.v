(** Lemmas about disambiguate_m: the exact scores. *)
From Coq Require Import ZArith String List Bool Lia.
From Verif Require Import Base ParsedModel PathModel DetectorModel DetectorSpec DetectorProofs
  DisambProofs DisambProofs2 DisambProofs3 DisambProofs4 DisambProofs5 DisambProofs6 DisambProofs7 DisambSpec2.
Import ListNotations.
Open Scope string_scope.
Open Scope Z_scope.
Open Scope list_scope.

Definition b2z (b : bool) : Z := if b then 1 else 0.
Lemma one_if_b (b : bool) P : (b = true <-> P) -> one_if P (b2z b).
Proof.
  intros H. destruct b; [left; split; [now apply H|reflexivity]|right]. split; [|reflexivity].
  intros X. apply H in X. discriminate.
Qed.

(** *** Tell-tale lines *)
Definition hashb (p : list Z) : bool := (deref p =? 35) && blank (deref (skip (Z.eqb 35) p)).
Definition funcb (p : list Z) : bool := startsb "function" p && (deref (skip blank (skipn 8 p)) =? 40).
Definition objcb (p : list Z) : bool :=
  existsb (fun s => startsb s p) ["#import"; "//"; "/*"; "+"; "-"; "@implementation"; "@interface"].


Lemma telltale_eq line : m_telltale line s_zero =
  let p := skip blank line in
  mkScores 0 (b2z (startsb "%" p || hashb p || funcb p)) (b2z (objcb p)) (b2z (hashb p)) (hashb p).
Proof.
  unfold m_telltale, s_zero. cbv zeta. set (p := skip blank line). clearbody p. clear line.
  destruct p as [|c q]; [reflexivity|]. unfold hashb, funcb, objcb, startsb, deref. cbn [existsb].
  change (bytes "%") with [37]. change (bytes "#import") with (35 :: bytes "import").
  change (bytes "//") with (47 :: bytes "/"). change (bytes "/*") with (47 :: bytes "*"). change (bytes "+") with [43].
  change (bytes "-") with [45].
  change (bytes "@implementation") with (64 :: bytes "implementation").
  change (bytes "@interface") with (64 :: bytes "interface").
  change (bytes "function") with (102 :: bytes "unction").
  assert (I : starts (bytes "import") q = true -> blank (hd 0 (skip (Z.eqb 35) q)) = false).
  { intros S. apply starts_iff in S. destruct S as [r ->]. reflexivity. }
  set (k0 := bytes "import") in *. set (k1 := bytes "implementation"). set (k2 := bytes "interface"). set (k3 := bytes "unction").
  set (k4 := bytes "/"). set (k5 := bytes "*"). clearbody k0 k1 k2 k3 k4 k5.
  cbn [hd starts existsb]. rewrite !andb_true_r.
  destruct (Z.eqb_spec c 37) as [->|N37]; [reflexivity|].
  destruct (Z.eqb_spec c 35) as [->|N35].
  { cbn [andb orb Z.eqb Pos.eqb skip]. rewrite !orb_false_r.
    destruct (starts k0 q) eqn:S.
    - rewrite (I eq_refl). reflexivity.
    - destruct (blank (hd 0 (skip (Z.eqb 35) q))); reflexivity. }
  destruct (Z.eqb_spec c 47) as [->|N47].
  { cbn [andb orb Z.eqb Pos.eqb]. rewrite !orb_false_r. destruct (starts k4 q || starts k5 q); reflexivity. }
  destruct (Z.eqb_spec c 43) as [->|N43]; [reflexivity|].
  destruct (Z.eqb_spec c 45) as [->|N45]; [reflexivity|].
  destruct (Z.eqb_spec c 64) as [->|N64].
  { cbn [andb orb Z.eqb Pos.eqb]. rewrite orb_false_r. destruct (starts k1 q || starts k2 q); reflexivity. }
  cbn [andb orb]. destruct (c =? 102); cbn [andb]; [|reflexivity]. destruct (starts k3 q); [|reflexivity]. cbn [andb].
  match goal with |- context [if ?x then _ else _] => destruct x end; reflexivity.
Qed.

Lemma starts_with_iff lits l : starts_with lits l <-> existsb (fun s => startsb s (skip blank l)) lits = true.
Proof.
  rewrite existsb_exists. split.
  - intros (p & lit & S & I & B). apply stripped_iff in S. subst p. exists lit. rewrite startsb_iff. auto.
  - intros (lit & I & B). exists (skip blank l), lit. rewrite startsb_iff in B. rewrite stripped_iff. auto.
Qed.
Lemma hash_iff l : hash_comment l <-> hashb (skip blank l) = true.
Proof.
  unfold hashb. split.
  - intros (h & b & S & H & F & B). apply stripped_iff in S. rewrite <- S. destruct h as [|x h]; [contradiction|].
    inversion F as [|? ? X F']; subst x. apply andb_true_iff. split; [reflexivity|].
    rewrite skip_app.
    + apply blank_iff. unfold Blank, deref. destruct B as [[s ->]|[s ->]]; cbn; auto.
    + constructor; [reflexivity|]. eapply Forall_impl; [|exact F']. intros a <-. reflexivity.
    + intros c r ->. destruct B as [[s X]|[s X]]; injection X as -> _; reflexivity.
  - intros H. apply andb_true_iff in H. destruct H as [H1 H2]. set (p := skip blank l) in *.
    exists (taken (Z.eqb 35) p), (skip (Z.eqb 35) p). split; [|split; [|split]].
    + apply stripped_iff. fold p. symmetry. apply taken_skip.
    + destruct p as [|c q]; [discriminate|]. unfold deref in H1. cbn [hd] in H1. cbn [taken]. rewrite Z.eqb_sym, H1. discriminate.
    + eapply Forall_impl; [|apply taken_all]. intros a X. now apply Z.eqb_eq in X.
    + destruct (skip (Z.eqb 35) p) as [|c q]; [discriminate|]. unfold deref in H2. cbn [hd] in H2.
      apply blank_iff in H2. destruct H2 as [->| ->]; [left|right]; now exists q.
Qed.
Lemma nameless_iff l : nameless l <-> funcb (skip blank l) = true.
Proof.
  unfold funcb. rewrite andb_true_iff, startsb_iff. split.
  - intros (w & r & S & F). apply stripped_iff in S. rewrite <- S. split; [now exists (w ++ 40 :: r)|].
    change (skipn 8 (bytes "function" ++ w ++ 40 :: r)) with (w ++ 40 :: r). rewrite skip_app; [reflexivity| |].
    + eapply Forall_impl; [|exact F]. intros a. apply blank_iff.
    + intros c s [= <- _]. reflexivity.
  - intros [[q E] H]. set (p := skip blank l) in *. rewrite E in H. change (skipn 8 (bytes "function" ++ q)) with q in H.
    exists (taken blank q). destruct (skip blank q) as [|x r] eqn:X; [discriminate|]. unfold deref in H. cbn [hd] in H.
    apply Z.eqb_eq in H as ->. exists r. split.
    + apply stripped_iff. fold p. rewrite E. f_equal. rewrite <- X. symmetry. apply taken_skip.
    + eapply Forall_impl; [|apply taken_all]. intros a. apply blank_iff.
Qed.
Lemma telltale_exact line : exists ml ob li oc, m_telltale line s_zero = mkScores 0 ml ob li oc /\
  matlab_points line ml /\ objc_points line ob /\ one_if (hash_comment line) li /\ (oc = true <-> hash_comment line).
Proof.
  rewrite telltale_eq. cbv zeta. do 4 eexists. split; [reflexivity|]. split; [|split; [|split]].
  - apply one_if_b. unfold matlab_line. rewrite !orb_true_iff, starts_with_iff, hash_iff, nameless_iff. cbn [existsb].
    rewrite orb_false_r. tauto.
  - apply one_if_b. unfold objc_line. rewrite starts_with_iff. reflexivity.
  - apply one_if_b. symmetry. apply hash_iff.
  - symmetry. apply hash_iff.
Qed.

(** *** Keywords of Octave *)
Definition keywords_o := ["end_try_catch"; "end_unwind_protect"; "endfunction"; "endwhile"].
Definition in_word (c : Z) : bool := is_lower c || (c =? 95).
Lemma keyword_o w : In w keywords_o -> exists r, bytes w = 101 :: r /\ Forall (fun c => in_word c = true) (bytes w).
Proof.
  intros I. assert (F : Forall (fun c => in_word c = true) (bytes w)).
  { apply Forall_forall. apply forallb_forall. unfold keywords_o in I. cbn in I.
    repeat (destruct I as [<-|I]; [reflexivity|]). destruct I. }
  unfold keywords_o in I. cbn in I. repeat (destruct I as [<-|I]; [eexists; split; [reflexivity|exact F]|]). destruct I.
Qed.

Lemma octave_word_nil s : ~ octave_word s [].
Proof. intros (a & x & w & b & E & _). destruct a; discriminate. Qed.
Lemma octave_word_one s x : ~ octave_word s [x].
Proof.
  intros (a & y & w & b & E & I & _). destruct (keyword_o w I) as (r & W & _). rewrite W in E.
  destruct a as [|? [|? a]]; discriminate.
Qed.
Lemma octave_word_more s a l : octave_word s l -> octave_word s (a ++ l).
Proof. intros (u & x & w & b & -> & H). exists (a ++ u), x, w, b. rewrite <- app_assoc. auto. Qed.
Lemma octave_word_skip s b c r : (~ Lower c \/ Alnum b) -> octave_word s (b :: c :: r) -> octave_word s (c :: r).
Proof.
  intros H (a & x & w & e & E & I & X). destruct a as [|y a].
  - exfalso. destruct (keyword_o w I) as (v & W & _). rewrite W in E. cbn in E. injection E as <- -> _.
    destruct H as [H|H]; [apply H; unfold Lower; lia|tauto].
  - cbn in E. injection E as <- E. exists a, x, w, e. auto.
Qed.
Lemma word_split a x (w b' word s : list Z) : word ++ s = a ++ x :: w ++ b' -> Forall (fun c => in_word c = true) word ->
  in_word x = false -> exists a', s = a' ++ x :: w ++ b'.
Proof.
  revert a; induction word as [|c word IH]; intros a E F N; [now exists a|].
  inversion F as [|? ? C F']; subst. destruct a as [|y a]; cbn in E; injection E as <- E; [congruence|].
  now apply (IH a).
Qed.

Lemma octave_exact pl : forall fuel b p r, m_octave pl fuel (Some b) p = Ok r ->
  (r = true -> octave_word false (b :: p)) /\ (octave_word true (b :: p) -> r = true).
Proof.
  induction fuel as [|k IH]; intros b p r H; [discriminate|]. cbn [m_octave] in H.
  destruct p as [|c q].
  { injection H as <-. split; [discriminate|]. intros X. now apply octave_word_one in X. }
  destruct (is_lower c && negb (is_alnum b)) eqn:S.
  2: { destruct (IH _ _ _ H) as [A B]. split.
       - intros R. apply (octave_word_more _ [b]). auto.
       - intros X. apply B. revert X. apply octave_word_skip. apply andb_false_iff in S.
         rewrite negb_false_iff, is_alnum_iff in S. destruct S as [S|S]; [left; now apply (false_iff _ _ (is_lower_iff c))|now right]. }
  cbv zeta in H. rewrite upto_skip in H. fold in_word in H. change (fun c => is_lower c || (c =? 95)) with in_word in H.
  apply andb_true_iff in S. destruct S as [Sc Sb]. apply negb_true_iff in Sb.
  pose proof (taken_skip in_word (c :: q)) as E. pose proof (taken_all in_word (c :: q)) as F.
  pose proof (skip_head in_word (c :: q)) as G.
  set (word := taken in_word (c :: q)) in *. set (s := skip in_word (c :: q)) in *. clearbody word s. rewrite E. clear E.
  apply bind_ok in H as (found & Hf & H). apply bind_ok in H as (rest & Hr & H). apply Ok_inj in H. subst r.
  assert (FW : found = true <-> existsb (fun w => zlist_eqb word (bytes w)) keywords_o = true /\ is_alnum (deref s) = false).
  { destruct (is_alnum (deref s)); cbn [negb] in Hf.
    - apply Ok_inj in Hf. subst found. split; [discriminate|]. intros [_ X]. discriminate.
    - apply bind_ok in Hf as (u & _ & Hf). apply Ok_inj in Hf. subst found. unfold keywords_o. tauto. }
  assert (NA : ~ Alnum b) by now apply (false_iff _ _ (is_alnum_iff b)).
  split.
  - intros X. apply orb_true_iff in X. destruct X as [X|X].
    + apply FW in X. destruct X as [X Y]. apply existsb_exists in X. destruct X as (w & I & Z). apply zlist_eqb_eq in Z.
      exists [], b, w, s. rewrite <- Z. split; [reflexivity|]. split; [exact I|]. split; [exact NA|]. split; [discriminate|].
      intros d s' ->. specialize (G _ _ eq_refl). unfold in_word in G. apply orb_false_iff in G. destruct G as [_ G].
      unfold deref in Y. cbn [hd] in Y. intros [W|W]; [apply is_alnum_iff in W; congruence|]. apply Z.eqb_neq in G. contradiction.
    + destruct s as [|d s].
      * destruct k; [discriminate|]. cbn in Hr. injection Hr as <-. discriminate.
      * destruct (IH _ _ _ Hr) as [A _]. specialize (A X). change (deref (d :: s)) with d in A. cbn [tl] in A.
        apply (octave_word_more _ (b :: word)). exact A.
  - intros (a & x & w & e & E & I & X1 & X2 & X3). specialize (X2 eq_refl). apply orb_true_iff.
    destruct (keyword_o w I) as (v & W & FWd). destruct a as [|y a].
    + left. cbn in E. injection E as <- E. apply FW.
      assert (word = bytes w /\ s = e) as [-> ->].
      { assert (T : forall a b c d, a ++ b = c ++ d -> Forall (fun c => in_word c = true) a -> Forall (fun c => in_word c = true) c ->
                 (forall x y, b = x :: y -> in_word x = false) -> (forall x y, d = x :: y -> in_word x = false) -> a = c /\ b = d).
        { clear. induction a as [|x a IH]; intros b [|y c] d E Fa Fc B D; cbn in E.
          - auto.
          - exfalso. inversion Fc; subst. specialize (B _ _ eq_refl). congruence.
          - exfalso. inversion Fa; subst. specialize (D _ _ eq_refl). congruence.
          - injection E as <- E. inversion Fa; inversion Fc; subst. destruct (IH b c d) as [-> ->]; auto. }
        apply T; auto. intros d e' ->. specialize (X3 _ _ eq_refl). unfold in_word. apply orb_false_iff.
        split; [apply (false_iff _ _ (is_lower_iff d)); intros L; apply X3; left; right; now left|].
        apply Z.eqb_neq. intros ->. apply X3. now right. }
      split.
      * apply existsb_exists. exists w. split; [exact I|]. apply zlist_eqb_eq. reflexivity.
      * destruct e as [|d e]; [reflexivity|]. unfold deref. cbn [hd]. apply (false_iff _ _ (is_alnum_iff d)).
        intros A. apply (X3 d e eq_refl). now left.
    + right. cbn in E. injection E as <- E. apply word_split in E as (a' & ->); [|exact F|].
      2: { unfold in_word. apply orb_false_iff. split; [|now apply Z.eqb_neq].
           apply (false_iff _ _ (is_lower_iff x)). intros L. apply X1. right. now left. }
      destruct (a' ++ x :: bytes w ++ e) as [|d s] eqn:ES; [destruct a'; discriminate|].
      destruct (IH _ _ _ Hr) as [_ B]. change (deref (d :: s)) with d in B. cbn [tl] in B. apply B. rewrite <- ES.
      exists a', x, w, e. auto.
Qed.
Lemma octave_line pl fuel l r : m_octave pl fuel None l = Ok r ->
  (r = true -> octave_word false l) /\ (octave_word true l -> r = true).
Proof.
  destruct fuel as [|k]; [discriminate|]. destruct l as [|c q]; cbn [m_octave].
  - intros [= <-]. split; [discriminate|]. intros X. now apply octave_word_nil in X.
  - apply octave_exact.
Qed.

(** *** Declarations of Limbo *)
Lemma after_word (w p : list Z) b : p = w ++ b -> deref (skipn (length w) p) = deref b.
Proof. intros ->. now rewrite skipn_app, skipn_all, Nat.sub_diag. Qed.
Lemma not_alnum_head b : is_alnum (deref b) = false <-> forall c r, b = c :: r -> ~ Alnum c.
Proof.
  split.
  - intros H c r ->. now apply (false_iff _ _ (is_alnum_iff c)).
  - intros H. destruct b as [|c r]; [reflexivity|]. apply (false_iff _ _ (is_alnum_iff c)). now apply (H c r).
Qed.
Lemma declaration_iff p : m_declaration p = true <-> declaration p.
Proof.
  unfold m_declaration, declaration. rewrite !orb_true_iff, !andb_true_iff, !startsb_iff, !negb_true_iff.
  assert (W : forall w, (begins (bytes w) p /\ is_alnum (deref (skipn (length (bytes w)) p)) = false) <->
                        exists b, p = bytes w ++ b /\ (forall c r, b = c :: r -> ~ Alnum c)).
  { intros w. split.
    - intros [[b E] H]. exists b. rewrite (after_word _ _ _ E), not_alnum_head in H. auto.
    - intros (b & E & H). split; [now exists b|]. now rewrite (after_word _ _ _ E), not_alnum_head. }
  pose proof (W "module") as W1. pose proof (W "adt") as W2. change (length (bytes "module")) with 6%nat in W1.
  change (length (bytes "adt")) with 3%nat in W2. rewrite W1, W2. clear W W1 W2.
  assert (C : begins (bytes "con") p /\ blank (deref (skipn 3 p)) = true <-> exists b, Blank b /\ begins (bytes "con" ++ [b]) p).
  { split.
    - intros [[b E] H]. change 3%nat with (length (bytes "con")) in H. rewrite (after_word _ _ _ E) in H.
      destruct b as [|x b]; [discriminate|]. exists x. split; [now apply blank_iff|]. exists b. rewrite E. now rewrite <- app_assoc.
    - intros (x & X & b & E). rewrite <- app_assoc in E. split; [now exists ([x] ++ b)|].
      change 3%nat with (length (bytes "con")). rewrite (after_word _ _ _ E). now apply blank_iff. }
  rewrite C. clear C. split.
  - intros [[[(b & H)|(b & H)]|[H|H]]|H]; [left; exists "module", b; cbn; tauto|left; exists "adt", b; cbn; tauto|tauto..].
  - intros [(w & b & I & H)|[H|[H|H]]]; [|tauto..]. cbn in I. destruct I as [<-|[<-|[]]]; [left; left; left; eauto|left; left; right; eauto].
Qed.
Lemma limbo_exact : forall fuel p n, m_limbo fuel p = Ok n -> count declares (ends p) n.
Proof.
  induction fuel as [|k IH]; intros p n H; [discriminate|]. cbn [m_limbo] in H. destruct p as [|c r].
  { injection H as <-. constructor. }
  destruct ((c =? 58) && blank (deref r)) eqn:S.
  - apply andb_true_iff in S. destruct S as [S1 S2]. apply Z.eqb_eq in S1 as ->. destruct r as [|b q]; [discriminate|].
    unfold deref in S2. cbn [hd] in S2. apply blank_iff in S2. cbn [tl] in H.
    apply bind_ok in H as (m & Hm & H). apply Ok_inj in H. subst n. apply IH in Hm. cbn [ends].
    assert (Cb : count declares ((b :: q) :: ends q) m).
    { apply count_no; [|exact Hm]. intros (x & y & E & _). injection E as -> _. destruct S2; discriminate. }
    destruct (m_declaration q) eqn:D.
    + apply count_yes; [|exact Cb]. exists b, q. split; [reflexivity|]. split; [exact S2|]. now apply declaration_iff.
    + apply count_no; [|exact Cb]. intros (x & y & E & _ & Y). injection E as <- <-. apply declaration_iff in Y. congruence.
  - apply IH in H. cbn [ends]. apply count_no; [|exact H]. intros (x & y & E & X & _). injection E as -> ->.
    apply blank_iff in X. unfold deref in S. cbn [hd] in S. rewrite X in S. discriminate.
Qed.

(** *** Operators of Mathematica *)
Lemma operator_iff p : operator p <-> existsb (fun o => startsb o p) ["(*"; "/."; "__"; "@@"] = true.
Proof.
  rewrite existsb_exists. split; intros (o & I & H); exists o; [rewrite startsb_iff|rewrite startsb_iff in H]; auto.
Qed.
Lemma operator_points p : b2z (startsb "(*" p) + b2z (startsb "/." p) + b2z (startsb "__" p) + b2z (startsb "@@" p) =
  b2z (existsb (fun o => startsb o p) ["(*"; "/."; "__"; "@@"]).
Proof.
  cbn [existsb]. unfold startsb. change (bytes "(*") with [40; 42]. change (bytes "/.") with [47; 46].
  change (bytes "__") with [95; 95]. change (bytes "@@") with [64; 64]. destruct p as [|c p]; [reflexivity|]. cbn [starts].
  destruct (Z.eqb_spec c 40) as [->|]; [cbn; destruct p; cbn; [reflexivity|destruct (z =? 42); reflexivity]|].
  destruct (Z.eqb_spec c 47) as [->|]; [cbn; destruct p; cbn; [reflexivity|destruct (z =? 46); reflexivity]|].
  destruct (Z.eqb_spec c 95) as [->|]; [cbn; destruct p; cbn; [reflexivity|destruct (z =? 95); reflexivity]|].
  destruct (Z.eqb_spec c 64) as [->|]; [cbn; destruct p; cbn; [reflexivity|destruct (z =? 64); reflexivity]|]. reflexivity.
Qed.
Lemma count_operator p n : count operator (ends (tl p)) n -> p <> [] ->
  count operator (ends p) (b2z (existsb (fun o => startsb o p) ["(*"; "/."; "__"; "@@"]) + n).
Proof.
  intros H N. destruct p as [|c r]; [contradiction|]. cbn [tl ends] in *.
  destruct (existsb _ _) eqn:E; unfold b2z.
  - rewrite Z.add_comm. apply count_yes; [now apply operator_iff|exact H].
  - apply count_no; [|exact H]. intros X. apply operator_iff in X. congruence.
Qed.
Lemma count_blanks w p n : Forall (fun c => blank c = true) w -> count operator (ends p) n -> count operator (ends (w ++ p)) n.
Proof.
  induction 1 as [|c w B F IH]; intros H; [exact H|]. cbn [app ends]. apply count_no; [|auto].
  intros (o & I & s & E). apply blank_iff in B. cbn in I.
  repeat (destruct I as [<-|I]; [cbn in E; injection E as -> _; destruct B; discriminate|]). destruct I.
Qed.

Lemma mathematica_exact : forall fuel p n, m_mathematica fuel p = Ok n -> mathematica_points p n.
Proof.
  induction fuel as [|k IH]; intros p n H; [discriminate|]. cbn [m_mathematica] in H. destruct p as [|c r].
  { injection H as <-. exists 0, 0. split; [constructor|]. split; [constructor|reflexivity]. }
  cbv zeta in H. apply bind_ok in H as (m & Hm & H). apply Ok_inj in H. apply IH in Hm. destruct Hm as (a & b & A & B & ->).
  fold (b2z (startsb "(*" (if c =? 38 then skip blank r else c :: r))) in H.
  fold (b2z (startsb "/." (if c =? 38 then skip blank r else c :: r))) in H.
  fold (b2z (startsb "__" (if c =? 38 then skip blank r else c :: r))) in H.
  fold (b2z (startsb "@@" (if c =? 38 then skip blank r else c :: r))) in H.
  destruct (Z.eqb_spec c 38) as [->|N].
  - set (p' := skip blank r) in *. pose proof (operator_points p') as O.
    pose proof (taken_skip blank r) as E. pose proof (taken_all blank r) as F. fold p' in E. set (w := taken blank r) in *.
    assert (FB : Forall Blank w) by (eapply Forall_impl; [|exact F]; intros x; apply blank_iff).
    cbn [andb] in H.
    assert (K : forall n, count operator (ends p') n -> count operator (ends (38 :: r)) n).
    { intros m C. cbn [ends]. apply count_no; [|rewrite E; now apply count_blanks].
      intros (o & I & s & X). cbn in I. repeat (destruct I as [<-|I]; [discriminate|]). destruct I. }
    destruct p' as [|x q] eqn:EP.
    + cbn [tl] in *. inversion A; subst a. inversion B; subst b. cbn in H. subst n.
      exists 0, 0. split; [apply K; constructor|]. split; [|reflexivity]. rewrite E, app_nil_r. now constructor.
    + cbn [tl] in *. pose proof (count_operator (x :: q) a A) as C. specialize (C ltac:(discriminate)). rewrite <- O in C.
      assert (NB : ~ Blank x). { intros X. apply blank_iff in X. assert (Y : blank x = false) by (eapply (skip_head blank r); exact EP). congruence. }
      unfold deref in H. cbn [hd] in H. rewrite E.
      destruct (existsb (Z.eqb x) [44; 41; 93]) eqn:X.
      * exists (b2z (startsb "(*" (x :: q)) + b2z (startsb "/." (x :: q)) + b2z (startsb "__" (x :: q)) + b2z (startsb "@@" (x :: q)) + a), (1 + b).
        split; [rewrite <- E; now apply K|]. split; [|lia]. apply post_yes; auto.
        apply existsb_exists in X. destruct X as (y & I & X). apply Z.eqb_eq in X as ->. exact I.
      * exists (b2z (startsb "(*" (x :: q)) + b2z (startsb "/." (x :: q)) + b2z (startsb "__" (x :: q)) + b2z (startsb "@@" (x :: q)) + a), b.
        split; [rewrite <- E; now apply K|]. split; [|lia]. apply post_no; auto. now apply not_in_b.
  - cbn [andb tl] in *. exists (b2z (startsb "(*" (c :: r)) + b2z (startsb "/." (c :: r)) + b2z (startsb "__" (c :: r)) + b2z (startsb "@@" (c :: r)) + a), b.
    split; [rewrite operator_points; apply count_operator; [exact A|discriminate]|]. split; [now apply post_other|lia].
Qed.

(** *** A line, all lines *)
Definition line_scores (l : list Z) (d : scores) : Prop :=
  mathematica_points l (mathematica d) /\ matlab_points l (matlab d) /\ objc_points l (objc d) /\
  limbo_points l (limbo d) /\ (octave d = true -> hash_comment l \/ octave_word false l) /\
  (hash_comment l \/ octave_word true l -> octave d = true).

Lemma line_exact pl l x : m_line pl l s_zero = Ok x -> exists d, x = inl d /\ line_scores l d.
Proof.
  unfold m_line. cbv zeta. destruct (telltale_exact l) as (ml & ob & li & oc & -> & M & O & L & C).
  intros H. apply bind_ok in H as (o & Ho & H). apply bind_ok in H as (n & Hn & H). apply bind_ok in H as (m & Hm & H).
  apply Ok_inj in H. subst x. eexists. split; [reflexivity|]. cbn. unfold line_scores. cbn.
  apply octave_line in Ho. apply limbo_exact in Hn. apply mathematica_exact in Hm.
  split; [exact Hm|]. split; [exact M|]. split; [exact O|]. split; [now exists li, n|]. rewrite orb_true_iff. tauto.
Qed.

Lemma fold_exact pl : forall ls s x, fold_lines pl (m_line pl) ls s = Ok x ->
  exists ma ml ob li oc, x = inl (s_add (mkScores ma ml ob li oc) s) /\
    total mathematica_points (map seen ls) ma /\ total matlab_points (map seen ls) ml /\
    total objc_points (map seen ls) ob /\ total limbo_points (map seen ls) li /\
    (oc = true -> exists l, In l ls /\ (hash_comment (seen l) \/ octave_word false (seen l))) /\
    ((exists l, In l ls /\ (hash_comment (seen l) \/ octave_word true (seen l))) -> oc = true).
Proof.
  induction ls as [|l ls IH]; intros s x; cbn [fold_lines].
  - intros [= <-]. exists 0, 0, 0, 0, false. rewrite s_add_zero. split; [reflexivity|].
    split; [constructor|]. split; [constructor|]. split; [constructor|]. split; [constructor|]. split; [discriminate|].
    intros (l & [] & _).
  - intros H. apply bind_ok in H as (line & F & H). apply fetch_ok in F as ->. apply bind_ok in H as (y & S & H).
    apply m_line_add in S as (d & E & ->). apply line_exact in E as (d' & E' & D). injection E' as <-.
    apply IH in H as (ma & ml & ob & li & oc & -> & T1 & T2 & T3 & T4 & T5 & T6).
    destruct D as (D1 & D2 & D3 & D4 & D5 & D6).
    exists (mathematica d + ma), (matlab d + ml), (objc d + ob), (limbo d + li), (octave d || oc). split.
    + f_equal. rewrite s_add_assoc. f_equal. destruct d. unfold s_add. cbn. rewrite orb_comm. f_equal; lia.
    + cbn [map]. split; [now constructor|]. split; [now constructor|]. split; [now constructor|]. split; [now constructor|]. split.
      * intros X. apply orb_true_iff in X. destruct X as [X|X].
        -- exists l. split; [now left|auto].
        -- destruct (T5 X) as (z & I & Z). exists z. split; [now right|exact Z].
      * intros (z & [<-|I] & Z); apply orb_true_iff; [left; auto|right; apply T6; eauto].
Qed.

(** *** The directory *)
Lemma tail_iff n k (e : list Z) : length e = k -> (k <= length n)%nat ->
  (zlist_eqb (skipn (length n - k) n) e = true <-> exists a, n = a ++ e).
Proof.
  intros L K. rewrite zlist_eqb_eq. split.
  - intros <-. exists (firstn (length n - k) n). symmetry. apply firstn_skipn.
  - intros [a ->]. rewrite app_length, L, Nat.add_sub. now rewrite skipn_app, skipn_all, Nat.sub_diag.
Qed.
Lemma whole_iff n (e : list Z) : length e = length n -> (zlist_eqb (skipn (length n - length n) n) e = true <-> n = e).
Proof. intros L. rewrite Nat.sub_diag. cbn [skipn]. rewrite zlist_eqb_eq. reflexivity. Qed.

Lemma m_dir_one_cases n :
  (m_dir_one n = Some true <-> c_file n) /\ (m_dir_one n = Some false <-> n = bytes ".h").
Proof.
  unfold m_dir_one. cbv zeta.
  assert (LONG : forall e, In e [".cpp"; ".c++"; ".cxx"] -> length (bytes e) = 4%nat).
  { intros e I. cbn in I. repeat (destruct I as [<-|I]; [reflexivity|]). destruct I. }
  assert (SHORT : forall e, In e [".cc"; ".c"; ".C"] -> (length (bytes e) <= 3)%nat).
  { intros e I. cbn in I. repeat (destruct I as [<-|I]; [cbn; lia|]). destruct I. }
  destruct (Nat.leb_spec 4 (length n)) as [L4|L4].
  { assert (E : existsb (fun e => zlist_eqb (skipn (length n - 4) n) (bytes e)) [".cpp"; ".c++"; ".cxx"] = true <-> c_file n).
    { rewrite existsb_exists. split.
      - intros (e & I & H). apply tail_iff in H; [|now apply LONG|exact L4]. destruct H as [a H]. left. now exists a, e.
      - intros [(a & e & I & H)|(e & I & H)].
        + exists e. split; [exact I|]. apply tail_iff; [now apply LONG|exact L4|now exists a].
        + subst n. apply SHORT in I. lia. }
    assert (NH : n <> bytes ".h") by (intros ->; cbn in L4; lia).
    destruct (existsb _ _).
    - split; split; try discriminate; [intros _; now apply E|reflexivity|contradiction].
    - split; split; try discriminate; [intros H; apply E in H; discriminate|contradiction]. }
  assert (NL : ~ exists a e, In e [".cpp"; ".c++"; ".cxx"] /\ n = a ++ bytes e).
  { intros (a & e & I & ->). apply LONG in I. rewrite app_length in L4. lia. }
  destruct (Nat.leb_spec 3 (length n)) as [L3|L3].
  { assert (E3 : length n = 3%nat) by lia. pose proof (whole_iff n (bytes ".cc")) as W. rewrite E3 in W at 1 2. rewrite E3 in *.
    specialize (W eq_refl). destruct (zlist_eqb _ _).
    - assert (X : n = bytes ".cc") by now apply W. split; split; try discriminate; [|reflexivity|].
      + intros _. right. exists ".cc". cbn; auto.
      + intros ->. discriminate.
    - split; split; try discriminate.
      + intros [H|(e & I & ->)]; [contradiction|]. cbn in I. destruct I as [<-|[<-|[<-|[]]]]; [|discriminate|discriminate].
        exfalso. destruct W as [_ W]. specialize (W eq_refl). discriminate.
      + intros ->. discriminate. }
  destruct (Nat.leb_spec 2 (length n)) as [L2|L2].
  2: { split; split; try discriminate.
       - intros [H|(e & I & ->)]; [contradiction|]. cbn in I. destruct I as [<-|[<-|[<-|[]]]]; cbn in L2; lia.
       - intros ->. cbn in L2. lia. }
  assert (E2 : length n = 2%nat) by lia. rewrite E2. cbn [Nat.sub skipn].
  destruct (zlist_eqb n (bytes ".h")) eqn:H.
  { apply zlist_eqb_eq in H. split; split; try discriminate; auto.
    intros [X|(e & I & X)]; [contradiction|]. cbn in I. subst n. destruct I as [<-|[<-|[<-|[]]]]; discriminate. }
  assert (NH : n <> bytes ".h") by (intros X; apply zlist_eqb_eq in X; congruence).
  destruct (zlist_eqb n (bytes ".c") || zlist_eqb n (bytes ".C")) eqn:C.
  - apply orb_true_iff in C. rewrite !zlist_eqb_eq in C. split; split; try discriminate; try contradiction; try reflexivity.
    intros _. right. destruct C as [->| ->]; [exists ".c"|exists ".C"]; cbn; auto.
  - apply orb_false_iff in C. destruct C as [C1 C2]. split; split; try discriminate; try contradiction.
    intros [X|(e & I & X)]; [contradiction|]. subst n. cbn in I. destruct I as [<-|[<-|[<-|[]]]]; [discriminate|discriminate C1|discriminate C2].
Qed.
Lemma m_dir_one_c n : m_dir_one n = Some true <-> c_file n.
Proof. apply m_dir_one_cases. Qed.
Lemma m_dir_one_h n : m_dir_one n = Some false <-> n = bytes ".h".
Proof. apply m_dir_one_cases. Qed.
Lemma m_dir_exact dir : (let '(h, c) := match dir with Some n => m_dir n false | None => (false, false) end in h && negb c) = true
  <-> headers_only dir.
Proof.
  destruct dir as [names|]; [|split; [discriminate|intros (n & X & _); discriminate]].
  assert (G : forall names h, (let '(h', c) := m_dir names h in h' && negb c) = true <->
    (h = true \/ In (bytes ".h") names) /\ forall n, In n names -> ~ c_file n).
  { clear. induction names as [|n names IH]; intros h; cbn [m_dir].
    - rewrite andb_true_r. split; [intros ->; split; [now left|intros n []]|]. intros [[X|[]] _]. exact X.
    - destruct (m_dir_one n) as [[]|] eqn:M.
      + rewrite andb_false_r. split; [discriminate|]. intros [_ X]. exfalso. apply (X n); [now left|]. now apply m_dir_one_c.
      + rewrite IH. apply m_dir_one_h in M. subst n. split.
        * intros [_ X]. split; [right; now left|]. intros n [<-|I]; [|auto]. intros C. apply m_dir_one_c in C. discriminate.
        * intros [_ X]. split; [now left|]. intros n I. apply X. now right.
      + rewrite IH. assert (NC : ~ c_file n) by (intros C; apply m_dir_one_c in C; congruence).
        assert (NH : n <> bytes ".h") by (intros C; apply m_dir_one_h in C; congruence). split.
        * intros [X Y]. split; [destruct X; [now left|right; now right]|]. intros z [<-|I]; auto.
        * intros [X Y]. split; [destruct X as [X|[X|X]]; [now left|contradiction|now right]|]. intros z I. apply Y. now right. }
  rewrite G. split.
  - intros [[X|X] Y]; [discriminate|]. now exists names.
  - intros (n & [= <-] & X & Y). auto.
Qed.
