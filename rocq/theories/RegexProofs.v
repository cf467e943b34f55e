(** The backtracking search agrees with the meaning of expressions. *)
From Coq Require Import ZArith String List Bool Lia.
From Verif Require Import Base RegexModel DetectorSpec RegexSpec.
Import ListNotations.
Open Scope Z_scope.
Open Scope list_scope.

Lemma is_word_iff c : is_word c = true <-> Word c.
Proof.
  unfold is_word, Word, Alnum, Digit, Lower, Upper.
  rewrite !orb_true_iff, !andb_true_iff, !Z.leb_le, Z.eqb_eq. lia.
Qed.

Lemma item_has_iff i c : item_has i c = true <-> in_item i c.
Proof.
  destruct i; cbn [item_has in_item].
  - apply Z.eqb_eq.
  - rewrite andb_true_iff, !Z.leb_le. lia.
  - unfold WhiteSpace. rewrite orb_true_iff, andb_true_iff, !Z.leb_le, Z.eqb_eq. lia.
  - apply is_word_iff.
  - unfold Digit. rewrite andb_true_iff, !Z.leb_le. lia.
Qed.

Lemma other_case_same c : same_letter c (other_case c).
Proof.
  unfold other_case, same_letter, Upper, Lower.
  destruct ((65 <=? c) && (c <=? 90)) eqn:A.
  { apply andb_true_iff in A as [A B]. apply Z.leb_le in A, B. lia. }
  destruct ((97 <=? c) && (c <=? 122)) eqn:B; [|lia].
  apply andb_true_iff in B as [B C]. apply Z.leb_le in B, C. lia.
Qed.

Lemma same_letter_cases c c' : same_letter c c' -> c' = c \/ c' = other_case c.
Proof.
  unfold other_case, same_letter, Upper, Lower. intros [->|[[H ->]|[H ->]]]; [auto|right..].
  - replace (65 <=? c) with true by (symmetry; apply Z.leb_le; lia).
    replace (c <=? 90) with true by (symmetry; apply Z.leb_le; lia). reflexivity.
  - replace (c <=? 90) with false by (symmetry; apply Z.leb_gt; lia). rewrite andb_false_r.
    replace (97 <=? c) with true by (symmetry; apply Z.leb_le; lia).
    replace (c <=? 122) with true by (symmetry; apply Z.leb_le; lia). reflexivity.
Qed.

Lemma class_iff fl is c :
  existsb (fun i => item_has i c || (f_caseless fl && item_has i (other_case c))) is = true <-> in_class fl is c.
Proof.
  unfold in_class. rewrite existsb_exists. split.
  - intros (i & I & H). apply orb_true_iff in H as [H|H].
    + exists i, c. rewrite item_has_iff in H. auto.
    + apply andb_true_iff in H as [F H]. rewrite item_has_iff in H. exists i, (other_case c).
      auto using other_case_same.
  - intros (i & c' & I & H & E). exists i. split; [exact I|].
    rewrite <- item_has_iff in H. apply orb_true_iff.
    destruct E as [-> | [F E]]; [auto|]. apply same_letter_cases in E as [-> | ->]; [auto|].
    right. rewrite F, H. reflexivity.
Qed.

Lemma set_has_iff fl s c : set_has fl s c = true <-> in_set fl s c.
Proof.
  destruct s as [[]|]; cbn [set_has in_set].
  - rewrite <- class_iff. destruct (existsb _ _); cbn; split; intros H; congruence.
  - rewrite <- class_iff. destruct (existsb _ _); cbn; reflexivity.
  - rewrite orb_true_iff, negb_true_iff, Z.eqb_neq. reflexivity.
Qed.

Lemma word_first_post t : word_first t = true <-> begins_with_word t.
Proof.
  unfold begins_with_word. destruct t as [|c r]; cbn.
  - split; [discriminate|]. intros (c & r & [=] & _).
  - rewrite is_word_iff. split; [eauto|]. intros (? & ? & [= <- <-] & W). exact W.
Qed.

Lemma word_first_pre b : word_first b = true <-> ends_in_word (rev b).
Proof.
  unfold ends_in_word. destruct b as [|c r]; cbn.
  - split; [discriminate|]. intros (a & c & E & _). destruct a; discriminate.
  - rewrite is_word_iff. split; [eauto|]. intros (a & c' & E & W).
    apply app_inj_tail in E as [_ <-]. exact W.
Qed.

(** Repetition. *)
Lemma repeat_some A ok lo hi t : forall b k (a : A), repeat_set ok lo hi b t k = Some a ->
  exists w t', t = w ++ t' /\ Forall (fun c => ok c = true) w /\ (lo <= length w)%nat /\
    match hi with Some n => (length w <= n)%nat | None => True end /\ k (rev w ++ b) t' = Some a.
Proof.
  revert lo hi. induction t as [|c t IH]; intros lo hi b k a.
  - cbn [repeat_set]. intros H.
    assert (E : match lo with O => k b [] | S _ => None end = Some a) by (destruct hi as [[]|]; exact H).
    destruct lo; [|discriminate]. exists [], []. repeat split; cbn; auto. destruct hi; lia || exact I.
  - cbn [repeat_set].
    assert (STOP : match lo with O => k b (c :: t) | S _ => None end = Some a ->
      exists w t', c :: t = w ++ t' /\ Forall (fun c => ok c = true) w /\ (lo <= length w)%nat /\
        match hi with Some n => (length w <= n)%nat | None => True end /\ k (rev w ++ b) t' = Some a).
    { intros E. destruct lo; [|discriminate]. exists [], (c :: t). repeat split; cbn; auto. destruct hi; lia || exact I. }
    assert (H : hi = Some O \/ match hi with Some O => False | _ => True end) by (destruct hi as [[]|]; auto).
    destruct H as [-> |N]; [exact STOP|].
    assert (E : match hi with Some O => match lo with O => k b (c :: t) | S _ => None end
      | _ => if ok c then match repeat_set ok (pred lo) (option_map pred hi) (c :: b) t k with
                 | Some x => Some x | None => match lo with O => k b (c :: t) | S _ => None end end
             else match lo with O => k b (c :: t) | S _ => None end end
      = if ok c then match repeat_set ok (pred lo) (option_map pred hi) (c :: b) t k with
                 | Some x => Some x | None => match lo with O => k b (c :: t) | S _ => None end end
             else match lo with O => k b (c :: t) | S _ => None end) by (destruct hi as [[]|]; easy).
    rewrite E. clear E. destruct (ok c) eqn:O; [|exact STOP].
    destruct (repeat_set ok (pred lo) (option_map pred hi) (c :: b) t k) eqn:R; [|exact STOP].
    intros [= <-]. apply IH in R as (w & t' & -> & F & L & U & K).
    exists (c :: w), t'. repeat split; auto.
    + cbn. lia.
    + destruct hi as [[|n]|]; cbn in *; lia || easy.
    + cbn [rev]. rewrite <- app_assoc. exact K.
Qed.

Lemma repeat_none A ok lo hi t : forall b k, @repeat_set A ok lo hi b t k = None ->
  forall w t', t = w ++ t' -> Forall (fun c => ok c = true) w -> (lo <= length w)%nat ->
    match hi with Some n => (length w <= n)%nat | None => True end -> k (rev w ++ b) t' = None.
Proof.
  revert lo hi. induction t as [|c t IH]; intros lo hi b k H w t' E F L U.
  - destruct w; [|discriminate]. cbn in E, L. subst t'. destruct lo; [|lia].
    cbn [repeat_set] in H. destruct hi as [[]|]; exact H.
  - destruct w as [|x w].
    + cbn in E, L. subst t'. destruct lo; [|lia]. cbn [repeat_set] in H. cbn [rev app].
      destruct hi as [[]|]; [exact H|..]; destruct (ok c); try exact H;
        match type of H with match ?X with Some _ => _ | None => _ end = _ => destruct X end; easy.
    + injection E as <- E. apply Forall_cons_iff in F as [O F]. cbn in L.
      assert (R : repeat_set ok (pred lo) (option_map pred hi) (c :: b) t k = None).
      { cbn [repeat_set] in H. rewrite O in H. destruct hi as [[]|]; [cbn in U; lia|..];
          match type of H with match ?X with Some _ => _ | None => _ end = _ => destruct X end; easy. }
      cbn [rev]. rewrite <- app_assoc. eapply IH; eauto; [lia|]. destruct hi as [[]|]; cbn in *; lia.
Qed.

(** The search finds a match that lets the rest succeed, if there is one. *)
Lemma go_iff fl r : 
  (forall A b t k (a : A), go fl r b t k = Some a ->
    exists w t', t = w ++ t' /\ matches fl r (rev b) w t' /\ k (rev w ++ b) t' = Some a) /\
  (forall A b t k, @go A fl r b t k = None ->
    forall w t', t = w ++ t' -> matches fl r (rev b) w t' -> k (rev w ++ b) t' = None).
Proof.
  induction r as [|s|s lo hi| | |x [X1 X2] y [Y1 Y2]|x [X1 X2] y [Y1 Y2]|x [X1 X2]|x [X1 X2]]; cbn [go matches].
  - split; intros.
    + exists [], t. auto.
    + subst w. cbn in *. subst t. assumption.
  - split.
    + intros A b t k a H. destruct t as [|c t]; [discriminate|]. destruct (set_has fl s c) eqn:E; [|discriminate].
      exists [c], t. rewrite set_has_iff in E. repeat split; eauto.
    + intros A b t k H w t' E (c & -> & M). cbn in E. subst t. rewrite <- set_has_iff in M. rewrite M in H. exact H.
  - split.
    + intros A b t k a H. apply repeat_some in H as (w & t' & E & F & L & U & K). exists w, t'.
      repeat split; auto. eapply Forall_impl; [|exact F]. intros c. apply set_has_iff.
    + intros A b t k H w t' E (F & L & U). eapply repeat_none; eauto.
      eapply Forall_impl; [|exact F]. intros c. apply set_has_iff.
  - split.
    + intros A b t k a H. destruct (xorb _ _) eqn:E; [|discriminate]. exists [], t. repeat split; auto.
      rewrite <- word_first_pre, <- word_first_post. destruct (word_first b), (word_first t); cbn in E; intuition congruence.
    + intros A b t k H w t' E [-> M]. cbn in E. subst t'.
      rewrite <- word_first_pre, <- word_first_post in M.
      destruct (word_first b), (word_first t); cbn in *; intuition congruence.
  - split.
    + intros A b t k a H. destruct b as [|c b].
      * exists [], t. auto.
      * destruct (f_multiline fl) eqn:M; cbn in H; [|discriminate].
        destruct (c =? 10) eqn:C; [|discriminate]. apply Z.eqb_eq in C. subst c.
        destruct t as [|x t]; [discriminate|].
        exists [], (x :: t). repeat split; auto. right. split; auto. split; [discriminate|]. exists (rev b). reflexivity.
    + intros A b t k H w t' E [-> M]. cbn in E. subst t'. cbn. destruct b as [|c b]; [exact H|].
      destruct M as [M|[M [NE (a & E)]]].
      { cbn in M. destruct (rev b); discriminate. }
      cbn in E. apply app_inj_tail in E as [_ ->]. rewrite M in H. destruct t; [congruence|]. cbn in H. exact H.
  - split.
    + intros A b t k a H. apply X1 in H as (u & t1 & -> & MU & H). apply Y1 in H as (v & t2 & -> & MV & K).
      exists (u ++ v), t2. rewrite app_assoc. repeat split; auto.
      * exists u, v. repeat split; auto. rewrite rev_app_distr, rev_involutive in MV. exact MV.
      * rewrite rev_app_distr, <- app_assoc. exact K.
    + intros A b t k H w t' E (u & v & -> & MU & MV). rewrite <- app_assoc in E.
      pose proof (X2 _ _ _ _ H _ _ E MU) as H'. cbv beta in H'.
      rewrite rev_app_distr, <- app_assoc. eapply Y2; eauto. rewrite rev_app_distr, rev_involutive. exact MV.
  - split.
    + intros A b t k a H. destruct (go fl x b t k) eqn:G.
      * injection H as <-. apply X1 in G as (w & t' & E & M & K). eauto 6.
      * apply Y1 in H as (w & t' & E & M & K). eauto 6.
    + intros A b t k H w t' E [M|M]; destruct (go fl x b t k) eqn:G; try discriminate; eauto.
  - split.
    + intros A b t k a H. destruct (go fl x b t k) eqn:G.
      * injection H as <-. apply X1 in G as (w & t' & E & M & K). eauto 6.
      * exists [], t. auto.
    + intros A b t k H w t' E [-> |M]; destruct (go fl x b t k) eqn:G; try discriminate; eauto.
      cbn in *. subst t. exact H.
  - split.
    + intros A b t k a H. destruct (go fl x b t (fun _ _ => Some tt)) as [[]|] eqn:G; [discriminate|].
      exists [], t. repeat split; auto. intros (u & v & -> & M). specialize (X2 _ _ _ _ G _ _ eq_refl M). discriminate.
    + intros A b t k H w t' E [-> M]. cbn in E. subst t'. cbn.
      destruct (go fl x b t (fun _ _ => Some tt)) as [[]|] eqn:G; [|exact H].
      apply X1 in G as (u & v & -> & MU & _). destruct M. eauto.
Qed.

Lemma match_here_some fl r b t e : match_here fl r b t = Some e ->
  exists w t', t = w ++ t' /\ matches fl r (rev b) w t' /\ e = (length b + length w)%nat.
Proof.
  unfold match_here. intros H. apply go_iff in H as (w & t' & E & M & [= <-]).
  exists w, t'. repeat split; auto. rewrite app_length, rev_length. lia.
Qed.

Lemma match_here_none fl r b t w t' : match_here fl r b t = None -> t = w ++ t' -> ~ matches fl r (rev b) w t'.
Proof. intros H E M. unfold match_here in H. eapply go_iff in H; eauto. discriminate. Qed.

Lemma search_some fl r t : forall b s e, search fl r b t = Some (s, e) ->
  exists u w t', t = u ++ w ++ t' /\ matches fl r (rev b ++ u) w t' /\
    s = (length b + length u)%nat /\ e = (s + length w)%nat /\
    forall u1 x u2 w' t'', u = u1 ++ x :: u2 -> (x :: u2) ++ w ++ t' = w' ++ t'' -> ~ matches fl r (rev b ++ u1) w' t''.
Proof.
  induction t as [|c t IH]; intros b s e; cbn [search]; destruct (match_here fl r b _) eqn:M.
  1, 3: intros [= <- <-]; apply match_here_some in M as (w & t' & E & M & ->);
    exists [], w, t'; rewrite app_nil_r; repeat split; auto; cbn; try lia;
    intros [] ? ? ? ? ?; discriminate.
  - discriminate.
  - intros H. apply IH in H as (u & w & t' & -> & MM & -> & -> & FIRST).
    exists (c :: u), w, t'. repeat split; auto; try (cbn; lia).
    + cbn [rev] in MM. rewrite <- app_assoc in MM. exact MM.
    + intros [|y u1] x u2 w' t'' E E'.
      * injection E as <- <-. rewrite app_nil_r. eapply match_here_none; eauto.
      * injection E as <- E. cbn [rev] in FIRST. specialize (FIRST _ _ _ _ _ E E').
        rewrite <- app_assoc in FIRST. exact FIRST.
Qed.

Lemma search_none fl r t : forall b u w t', search fl r b t = None -> t = u ++ w ++ t' -> ~ matches fl r (rev b ++ u) w t'.
Proof.
  induction t as [|c t IH]; intros b u w t'; cbn [search]; destruct (match_here fl r b _) eqn:M; try discriminate.
  - intros _ E. destruct u; [|discriminate]. rewrite app_nil_r. eapply match_here_none; eauto.
  - intros H E. destruct u as [|x u].
    + rewrite app_nil_r. eapply match_here_none; eauto.
    + injection E as <- E. specialize (IH _ _ _ _ H E). cbn [rev] in IH. rewrite <- app_assoc in IH. exact IH.
Qed.

(** Case. *)
Lemma same_refl c : same_letter c c.
Proof. left; reflexivity. Qed.

Lemma same_sym a b : same_letter a b -> same_letter b a.
Proof. unfold same_letter, Upper, Lower. intros; lia. Qed.

Lemma same_word a b : same_letter a b -> is_word a = is_word b.
Proof.
  intros H. apply eq_true_iff_eq. rewrite !is_word_iff. unfold Word, Alnum, Digit, same_letter, Upper, Lower in *. lia.
Qed.

Lemma same_trans a b c : same_letter a b -> same_letter b c -> same_letter a c.
Proof. unfold same_letter, Upper, Lower. intros; lia. Qed.

Lemma same_class fl is a b : f_caseless fl = true -> same_letter a b -> in_class fl is a -> in_class fl is b.
Proof.
  intros C E (i & c' & I & H & K). exists i, c'. repeat split; auto. right. split; auto.
  apply same_sym in E. destruct K as [-> |[_ K]]; eauto using same_trans.
Qed.

Lemma same_set fl s a b : f_caseless fl = true -> same_letter a b -> set_has fl s a = set_has fl s b.
Proof.
  intros C E. apply eq_true_iff_eq. rewrite !set_has_iff. destruct s as [[]|]; cbn [in_set].
  - split; intros N H; apply N; eapply same_class; eauto using same_sym.
  - split; eapply same_class; eauto using same_sym.
  - assert (a = 10 <-> b = 10) by (unfold same_letter, Upper, Lower in E; lia). tauto.
Qed.

Notation same_text := (Forall2 same_letter).

Lemma same_length a b : same_text a b -> length a = length b.
Proof. induction 1; cbn; congruence. Qed.

Lemma word_first_same a b : same_text a b -> word_first a = word_first b.
Proof. intros [|x y l l' E _]; cbn; auto using same_word. Qed.

Lemma repeat_same A ok lo hi t t' : (forall a b, same_letter a b -> ok a = ok b) -> same_text t t' ->
  forall b b' (k k' : list Z -> list Z -> option A), same_text b b' ->
  (forall x x' y y', same_text x x' -> same_text y y' -> k x y = k' x' y') ->
  repeat_set ok lo hi b t k = repeat_set ok lo hi b' t' k'.
Proof.
  intros OK E. revert lo hi. induction E as [|c c' t t' EC E IH]; intros lo hi b b' k k' B K; cbn [repeat_set].
  - destruct hi as [[]|], lo; auto.
  - assert (ST : match lo with O => k b (c :: t) | S _ => None end = match lo with O => k' b' (c' :: t') | S _ => None end)
      by (destruct lo; auto).
    rewrite ST, (OK _ _ EC).
    destruct hi as [[]|]; auto; destruct (ok c'); auto; erewrite IH; eauto.
Qed.

Lemma go_same fl r : f_caseless fl = true -> forall A t t' b b' (k k' : list Z -> list Z -> option A),
  same_text t t' -> same_text b b' ->
  (forall x x' y y', same_text x x' -> same_text y y' -> k x y = k' x' y') ->
  go fl r b t k = go fl r b' t' k'.
Proof.
  intros C. induction r; intros A t t' b b' k k' T B K; cbn [go].
  - auto.
  - destruct T as [|c c' t t' EC T]; [reflexivity|]. rewrite (same_set fl s c c') by auto.
    destruct (set_has fl s c'); auto.
  - apply repeat_same; auto. intros. apply same_set; auto.
  - rewrite (word_first_same b b'), (word_first_same t t') by auto. destruct (xorb _ _); auto.
  - destruct B as [|c c' b b' EC B]; [auto|]. replace (c' =? 10) with (c =? 10).
    + replace (match t' with [] => true | _ => false end) with (match t with [] => true | _ => false end) by (destruct T; reflexivity).
      destruct (_ && _); auto.
    + apply eq_true_iff_eq. rewrite !Z.eqb_eq. unfold same_letter, Upper, Lower in EC. lia.
  - apply IHr1; auto.
  - rewrite (IHr1 _ t t' b b' k k'), (IHr2 _ t t' b b' k k') by auto. reflexivity.
  - rewrite (IHr _ t t' b b' k k') by auto. destruct (go fl r b' t' k'); auto.
  - rewrite (IHr unit t t' b b' _ (fun _ _ => Some tt)) by auto. destruct (go fl r b' t' _); auto.
Qed.

Lemma search_same fl r : f_caseless fl = true -> forall t t' b b', same_text t t' -> same_text b b' ->
  search fl r b t = search fl r b' t'.
Proof.
  intros C t t' b b' T. revert b b'. induction T as [|c c' t t' EC T IH]; intros b b' B; cbn [search].
  - unfold match_here. rewrite (go_same fl r C _ [] [] b b' _ (fun b _ => Some (length b))); auto.
    + rewrite (same_length _ _ B). reflexivity.
    + intros ? ? ? ? X _. f_equal. exact (same_length _ _ X).
  - unfold match_here. rewrite (go_same fl r C _ (c :: t) (c' :: t') b b' _ (fun b _ => Some (length b))); auto.
    + rewrite (same_length _ _ B), (IH (c :: b) (c' :: b')) by auto. reflexivity.
    + intros ? ? ? ? X _. f_equal. exact (same_length _ _ X).
Qed.

(** The library call. *)
Lemma exec_some fl s t a e : exec fl s t = Some (a, e) ->
  exists r u w v, compile s = Some r /\ t = u ++ w ++ v /\ matches fl r u w v /\
    a = Z.of_nat (length u) /\ e = a + Z.of_nat (length w).
Proof.
  unfold exec. destruct (compile s) as [r|]; [|discriminate].
  destruct (search fl r [] t) as [[x y]|] eqn:E; [|discriminate]. intros [= <- <-].
  apply search_some in E as (u & w & v & -> & M & -> & -> & _). cbn in *.
  exists r, u, w, v. repeat split; auto; lia.
Qed.

Lemma exec_none fl s t r u w v : exec fl s t = None -> compile s = Some r -> t = u ++ w ++ v -> ~ matches fl r u w v.
Proof.
  unfold exec. intros H E. rewrite E in H. destruct (search fl r [] t) as [[]|] eqn:S; [discriminate|].
  intros E'. apply (search_none fl r t [] u w v S E').
Qed.

(** Preference. *)
Fixpoint first_some {A B} (f : A -> option B) (l : list A) : option B :=
  match l with
  | [] => None
  | x :: r => match f x with Some y => Some y | None => first_some f r end
  end.

Lemma first_app A B (f : A -> option B) a b :
  first_some f (a ++ b) = match first_some f a with Some y => Some y | None => first_some f b end.
Proof. induction a as [|x a IH]; cbn; [reflexivity|]. destruct (f x); auto. Qed.

Lemma first_ext A B (f g : A -> option B) l : (forall x, In x l -> f x = g x) -> first_some f l = first_some g l.
Proof. induction l as [|x l IH]; intros H; cbn; [reflexivity|]. rewrite H by (left; reflexivity). rewrite IH by (intros; apply H; right; assumption). reflexivity. Qed.

Lemma first_flat A B C (f : B -> option C) (g : A -> list B) l :
  first_some f (flat_map g l) = first_some (fun x => first_some f (g x)) l.
Proof. induction l as [|x l IH]; cbn; [reflexivity|]. rewrite first_app, IH. reflexivity. Qed.

Lemma first_map A B C (f : B -> option C) (g : A -> B) l : first_some f (map g l) = first_some (fun x => f (g x)) l.
Proof. induction l as [|x l IH]; cbn; [reflexivity|]. rewrite IH. reflexivity. Qed.

Definition at_ {A} (b t : list Z) (k : list Z -> list Z -> option A) (i : nat) : option A :=
  k (rev (firstn i t) ++ b) (skipn i t).

Lemma down_shift lo n : down_to lo (S n) = map S (down_to (pred lo) n) ++ (match lo with O => [O] | _ => [] end).
Proof.
  revert lo. induction n as [|n IH]; intros lo.
  - destruct lo as [|[|lo]]; reflexivity.
  - change (down_to lo (S (S n))) with (if Nat.ltb (S (S n)) lo then [] else S (S n) :: down_to lo (S n)).
    change (down_to (pred lo) (S n)) with (if Nat.ltb (S n) (pred lo) then [] else S n :: down_to (pred lo) n).
    rewrite IH. destruct (Nat.ltb_spec (S (S n)) lo), (Nat.ltb_spec (S n) (pred lo)); destruct lo; cbn in *; try lia; reflexivity.
Qed.

Lemma down_zero lo : down_to lo 0 = match lo with O => [O] | _ => [] end.
Proof. destruct lo; reflexivity. Qed.

Lemma repeat_ways A ok t : forall lo hi b (k : list Z -> list Z -> option A),
  repeat_set ok lo hi b t k = first_some (at_ b t k) (down_to lo (match hi with Some m => Nat.min m (run_of ok t) | None => run_of ok t end)).
Proof.
  induction t as [|c t IH]; intros lo hi b k; cbn [repeat_set run_of].
  - replace (match hi with Some m => Nat.min m 0 | None => 0%nat end) with 0%nat by (destruct hi; lia).
    rewrite down_zero. destruct hi as [[]|], lo; cbn; unfold at_; cbn; try reflexivity; destruct (k b []); reflexivity.
  - assert (STOP : match lo with O => k b (c :: t) | S _ => None end = first_some (at_ b (c :: t) k) (match lo with O => [O] | _ => [] end)).
    { destruct lo; cbn; [unfold at_; cbn; destruct (k b (c :: t)); reflexivity|reflexivity]. }
    rewrite STOP. destruct (ok c) eqn:OK.
    + assert (STEP : forall h, match repeat_set ok (pred lo) h (c :: b) t k with Some x => Some x
          | None => first_some (at_ b (c :: t) k) (match lo with O => [O] | _ => [] end) end =
          first_some (at_ b (c :: t) k) (down_to lo (S (match h with Some m => Nat.min m (run_of ok t) | None => run_of ok t end)))).
      { intros h. rewrite IH, down_shift, first_app, first_map.
        rewrite (first_ext _ _ (at_ (c :: b) t k) (fun x => at_ b (c :: t) k (S x))); [reflexivity|].
        intros i _. unfold at_. cbn [firstn rev skipn]. rewrite <- app_assoc. reflexivity. }
      destruct hi as [[|m]|].
      * cbn [Nat.min]. rewrite down_zero. reflexivity.
      * exact (STEP (Some m)).
      * exact (STEP None).
    + replace (match hi with Some m => Nat.min m 0 | None => 0%nat end) with 0%nat by (destruct hi; lia).
      rewrite down_zero. destruct hi as [[]|]; reflexivity.
Qed.

Lemma ways_bound fl r : forall pre t i, In i (ways fl r pre t) -> (i <= length t)%nat.
Proof.
  induction r; intros pre t i; cbn [ways].
  - intros [<-|[]]. lia.
  - destruct t as [|c t]; [intros []|]. destruct (set_has fl s c); [|intros []]. intros [<-|[]]. cbn. lia.
  - assert (D : forall lo n, In i (down_to lo n) -> (i <= n)%nat).
    { intros lo n. induction n as [|n IH]; cbn [down_to]; destruct (Nat.ltb _ lo); cbn [In]; try tauto.
      - intros [<-|[]]. lia.
      - intros [<-|I]; [lia|]. apply IH in I. lia. }
    assert (R : (run_of (set_has fl s) t <= length t)%nat).
    { induction t as [|c t IHt]; cbn; [lia|]. destruct (set_has fl s c); lia. }
    intros I. apply D in I. destruct most; lia.
  - destruct (xorb _ _); [intros [<-|[]]; lia|intros []].
  - destruct (rev pre), t; cbn [In]; try (intros [<-|[]]; lia); try tauto.
    destruct (_ && _); [intros [<-|[]]; lia|intros []].
  - intros I. apply in_flat_map in I as (j & IJ & I). apply in_map_iff in I as (k & <- & IK).
    apply IHr1 in IJ. apply IHr2 in IK. rewrite skipn_length in IK. lia.
  - intros I. apply in_app_or in I as [I|I]; eauto.
  - intros I. apply in_app_or in I as [I|[<-|[]]]; eauto. lia.
  - destruct (ways fl r pre t); [intros [<-|[]]; lia|intros []].
Qed.

Lemma skip_skip i : forall j (t : list Z), skipn j (skipn i t) = skipn (i + j) t.
Proof. induction i as [|i IH]; intros j t; cbn; [reflexivity|]. destruct t; [apply skipn_nil|apply IH]. Qed.

Lemma go_ways fl r : forall A b t (k : list Z -> list Z -> option A),
  go fl r b t k = first_some (at_ b t k) (ways fl r (rev b) t).
Proof.
  assert (ONE : forall A b t (k : list Z -> list Z -> option A), k b t = first_some (at_ b t k) [0%nat]).
  { intros. cbn. unfold at_. cbn. destruct (k b t); reflexivity. }
  induction r; intros A b t k; cbn [go ways].
  - apply ONE.
  - destruct t as [|c t]; [reflexivity|]. destruct (set_has fl s c); [|reflexivity]. cbn. unfold at_. cbn. destruct (k _ _); reflexivity.
  - apply repeat_ways.
  - rewrite rev_involutive. destruct (xorb _ _); [apply ONE|reflexivity].
  - rewrite rev_involutive. destruct b as [|c b]; [apply ONE|]. destruct t as [|x t]; [rewrite andb_false_r; reflexivity|].
    rewrite andb_true_r. destruct (_ && _); [apply ONE|reflexivity].
  - rewrite IHr1, first_flat. apply first_ext. intros i I. unfold at_ at 1. rewrite IHr2, first_map.
    rewrite rev_app_distr, rev_involutive. apply first_ext. intros j J. unfold at_.
    pose proof (ways_bound _ _ _ _ _ I) as L. f_equal.
    + rewrite app_assoc, <- rev_app_distr. f_equal. f_equal.
      rewrite <- (firstn_skipn i t) at 3. rewrite firstn_app, firstn_firstn, firstn_length.
      replace (Nat.min (i + j) i) with i by lia. replace (i + j - Nat.min i (length t))%nat with j by lia. reflexivity.
    + apply skip_skip.
  - rewrite first_app, IHr1, IHr2. reflexivity.
  - rewrite first_app, IHr, <- ONE. reflexivity.
  - rewrite IHr. destruct (ways fl r (rev b) t); [apply ONE|]. cbn. reflexivity.
Qed.

Lemma match_here_ways fl r b t : match_here fl r b t =
  match ways fl r (rev b) t with i :: _ => Some (length b + i)%nat | [] => None end.
Proof.
  unfold match_here. rewrite go_ways. destruct (ways fl r (rev b) t) as [|i l] eqn:E; [reflexivity|]. cbn. unfold at_.
  assert (i <= length t)%nat by (apply (ways_bound fl r (rev b) t); rewrite E; left; reflexivity).
  rewrite app_length, rev_length, firstn_length. f_equal. lia.
Qed.
