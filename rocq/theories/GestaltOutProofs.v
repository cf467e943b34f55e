(** Proofs about the printed list of gestalts. *)
From Coq Require Import String Ascii List ZArith Bool Permutation Sorted Lia.
From Verif Require Import Base DetectorModel PrintModel PrintSpec PrintProofs GestaltModel GestaltOutModel.
Import ListNotations.
Open Scope string_scope.
Open Scope list_scope.
Open Scope Z_scope.

Lemma sc_trans : forall a b c, String.compare a b = Lt -> String.compare b c = Lt -> String.compare a c = Lt.
Proof.
  induction a as [| x a IH]; intros [| y b] [| z c]; cbn; try congruence.
  unfold Ascii.compare. intros H1 H2.
  destruct (N.compare_spec (N_of_ascii x) (N_of_ascii y)) as [E1 | L1 | G1]; try discriminate;
    destruct (N.compare_spec (N_of_ascii y) (N_of_ascii z)) as [E2 | L2 | G2]; try discriminate;
    destruct (N.compare_spec (N_of_ascii x) (N_of_ascii z)) as [E3 | L3 | G3]; try reflexivity; try (exfalso; lia); eauto.
Qed.
Lemma sc_eq : forall a b, String.compare a b = Eq <-> a = b.
Proof.
  intros a b. split; [apply String.compare_eq_iff |]. intros ->. induction b as [| x b IH]; [reflexivity |].
  cbn. unfold Ascii.compare. now rewrite N.compare_refl.
Qed.
Lemma sc_opp : forall a b, String.compare a b = CompOpp (String.compare b a).
Proof. exact String.compare_antisym. Qed.
Lemma sc_refl : forall a, String.compare a a = Eq.
Proof. intros a. now apply sc_eq. Qed.

Lemma before_eq : forall a b, before a b = Eq <-> a = b.
Proof.
  intros [t n c] [t' n' c']. unfold before. cbn.
  destruct (String.eqb_spec t t') as [-> | Ht]; cbn.
  - destruct (Z.eqb_spec c c') as [-> | Hc]; cbn.
    + rewrite sc_eq. split; [now intros -> | congruence].
    + split; [| congruence]. destruct (Z.compare_spec c c'); cbn; congruence.
  - rewrite sc_eq. split; congruence.
Qed.
Lemma before_opp : forall a b, before b a = CompOpp (before a b).
Proof.
  intros [t n c] [t' n' c']. unfold before. cbn. rewrite (String.eqb_sym t' t), (Z.eqb_sym c' c).
  destruct (String.eqb t t'); cbn; [| apply sc_opp]. destruct (c =? c'); cbn; [apply sc_opp |].
  rewrite (Z.compare_antisym c c'). reflexivity.
Qed.
(** Strictly before: in words. *)
Lemma before_lt : forall a b, before a b = Lt <->
  String.compare (g_type a) (g_type b) = Lt \/
  (g_type a = g_type b /\ (g_count b < g_count a \/
     (g_count a = g_count b /\ String.compare (g_name a) (g_name b) = Lt))).
Proof.
  intros [t n c] [t' n' c']. unfold before. cbn.
  destruct (String.eqb_spec t t') as [-> | Ht]; cbn.
  - rewrite sc_refl. destruct (Z.eqb_spec c c') as [-> | Hc]; cbn.
    + split; [right; split; [reflexivity | right; auto] |]. intros [H | [_ [H | [_ H]]]]; [discriminate | lia | exact H].
    + destruct (Z.compare_spec c c') as [E | L | G]; cbn; try congruence.
      * split; [discriminate |]. intros [H | [_ [H | [H _]]]]; try discriminate; lia.
      * split; [right; split; [reflexivity | left; lia] | reflexivity].
  - split; [now left |]. intros [H | [H _]]; [exact H | congruence].
Qed.
Lemma before_trans : forall a b c, before a b = Lt -> before b c = Lt -> before a c = Lt.
Proof.
  intros a b c. rewrite !before_lt. intros [H1 | [E1 H1]] [H2 | [E2 H2]].
  - left. eapply sc_trans; eauto.
  - left. now rewrite <- E2.
  - left. now rewrite E1.
  - right. split; [congruence |]. destruct H1 as [L1 | [C1 N1]], H2 as [L2 | [C2 N2]]; try (left; lia).
    right. split; [congruence | eapply sc_trans; eauto].
Qed.

Definition le (a b : gestalt) : Prop := before a b <> Gt.
Lemma le_cases : forall a b, le a b <-> a = b \/ before a b = Lt.
Proof.
  intros a b. unfold le. rewrite <- (before_eq a b). destruct (before a b); intuition congruence.
Qed.
Lemma le_trans : forall a b c, le a b -> le b c -> le a c.
Proof.
  intros a b c. rewrite !le_cases. intros [-> | H1] [-> | H2]; auto. right. eapply before_trans; eauto.
Qed.
Lemma le_antisym : forall a b, le a b -> le b a -> a = b.
Proof.
  intros a b. unfold le. rewrite (before_opp a b). intros H1 H2. apply before_eq. destruct (before a b); cbn in *; congruence.
Qed.
Lemma sorted_unique : forall l l', StronglySorted le l -> StronglySorted le l' -> Permutation l l' -> l = l'.
Proof.
  induction l as [| a l IH]; intros [| b l'] H1 H2 HP; auto.
  - apply Permutation_nil in HP. discriminate.
  - apply Permutation_sym, Permutation_nil in HP. discriminate.
  - inversion H1 as [| ? ? S1 F1]; inversion H2 as [| ? ? S2 F2]; subst. rewrite Forall_forall in F1, F2.
    assert (a = b) as ->.
    { assert (In a (b :: l')) as Ha by (eapply Permutation_in; eauto; now left).
      assert (In b (a :: l)) as Hb by (eapply Permutation_in; [apply Permutation_sym; eauto | now left]).
      destruct Ha as [-> | Ha]; [reflexivity |]. destruct Hb as [-> | Hb]; [reflexivity |].
      apply le_antisym; auto. }
    f_equal. apply IH; auto. now apply Permutation_cons_inv in HP.
Qed.
Lemma strongly : forall l, Sorted le l -> StronglySorted le l.
Proof. intros l. apply Sorted_StronglySorted. exact le_trans. Qed.
Lemma may_sort_unique : forall l l1 l2 l', Permutation l l' -> may_sort l l1 -> may_sort l' l2 -> l1 = l2.
Proof.
  intros l l1 l2 l' HP [P1 S1] [P2 S2]. apply sorted_unique; auto using strongly.
  rewrite <- P1, HP. exact P2.
Qed.

Fixpoint insert (a : gestalt) (l : list gestalt) : list gestalt :=
  match l with
  | [] => [a]
  | b :: r => match before a b with Gt => b :: insert a r | _ => a :: l end
  end.
Lemma insert_perm : forall a l, Permutation (a :: l) (insert a l).
Proof.
  intros a l. induction l as [| b r IH]; [reflexivity |]. cbn. destruct (before a b); try reflexivity.
  rewrite perm_swap. now constructor.
Qed.
Lemma insert_sorted : forall a l, Sorted le l -> Sorted le (insert a l).
Proof.
  intros a l H. induction H as [| b r Hr IH Hh]; [repeat constructor |]. cbn. destruct (before a b) eqn:E.
  - constructor; [now constructor |]. constructor. unfold le. congruence.
  - constructor; [now constructor |]. constructor. unfold le. congruence.
  - constructor; [exact IH |]. destruct r as [| c r]; cbn.
    + constructor. unfold le. rewrite before_opp, E. discriminate.
    + destruct (before a c); constructor; try (unfold le; rewrite before_opp, E; discriminate).
      now inversion Hh.
Qed.
Lemma may_sort_exists : forall l, exists l', may_sort l l'.
Proof.
  induction l as [| a l (l' & P & S)]; [exists []; repeat constructor |].
  exists (insert a l'). split; [| now apply insert_sorted]. rewrite P. apply insert_perm.
Qed.

(** * Reading back *)

Lemma bytes_inj : forall a b, bytes a = bytes b -> a = b.
Proof.
  induction a as [| x a IH]; intros [| y b]; cbn; try discriminate; auto.
  intros E. injection E as E1 E2. f_equal; auto.
  rewrite <- (ascii_N_embedding x), <- (ascii_N_embedding y). f_equal. now apply N2Z.inj.
Qed.
Lemma split_at : forall (c : Z) a a' b b', ~ In c a -> ~ In c a' -> a ++ c :: b = a' ++ c :: b' -> a = a' /\ b = b'.
Proof.
  intros c. induction a as [| x a IH]; intros [| y a'] b b' H H' E; cbn in *.
  - injection E as ->. auto.
  - injection E as -> _. exfalso; auto.
  - injection E as -> _. exfalso; auto.
  - injection E as -> E. destruct (IH a' b b') as [-> ->]; auto.
Qed.
Lemma digits_no : forall n c, 0 <= n -> ~ 48 <= c <= 57 -> c <> 32 -> ~ In c (pad_left 8 (decimal n)).
Proof.
  intros n c Hn Hc H32 H. destruct (decimal_numeral n Hn) as (_ & F & _). rewrite Forall_forall in F.
  apply pad_left_in in H as [-> | H]; [congruence | apply Hc; auto].
Qed.
Lemma padded_inj : forall n m, 0 <= n -> 0 <= m -> pad_left 8 (decimal n) = pad_left 8 (decimal m) -> n = m.
Proof.
  intros n m Hn Hm E. pose proof (decimal_numeral n Hn) as Nn. pose proof (decimal_numeral m Hm) as Nm.
  pose proof (words_left_last _ 8 (numeral_word _ _ Nn)) as Wn.
  pose proof (words_left_last _ 8 (numeral_word _ _ Nm)) as Wm. rewrite E, Wm in Wn. injection Wn as En.
  destruct Nn as (_ & _ & <- & _). destruct Nm as (_ & _ & <- & _). now rewrite En.
Qed.

(** A gestalt whose type and name fit on a line. *)
Definition fair (g : gestalt) : Prop :=
  ~ In 9 (bytes (g_type g)) /\ ~ In 10 (bytes (g_type g)) /\ ~ In 10 (bytes (g_name g)) /\ 0 <= g_count g.
Definition row (g : gestalt) : list Z :=
  bytes (g_type g) ++ 9 :: pad_left 8 (decimal (g_count g)) ++ 9 :: bytes (g_name g).

Lemma line_row : forall g, line g = row g ++ [10].
Proof. intros g. unfold line, row. repeat (rewrite <- app_assoc || rewrite <- app_comm_cons). reflexivity. Qed.
Lemma row_inj : forall a b, fair a -> fair b -> row a = row b -> a = b.
Proof.
  intros [t n c] [t' n' c'] (T1 & _ & _ & C1) (T2 & _ & _ & C2) E. unfold row in E. cbn in *.
  apply split_at in E as [Et E]; auto. apply split_at in E as [Ec En]; try (apply digits_no; lia).
  apply bytes_inj in Et. apply bytes_inj in En. apply padded_inj in Ec; auto. congruence.
Qed.
Lemma lines_made_of : forall l, Forall fair l -> made_of (map row l) (flat_map line l).
Proof.
  intros l H. split.
  - induction H as [| g l Hg _ IH]; [reflexivity |]. cbn [map flat_map]. rewrite <- IH, line_row. reflexivity.
  - apply Forall_map. eapply Forall_impl; [| exact H]. intros g (_ & T & N & C). unfold row.
    intros Hin. apply in_app_iff in Hin as [Hin | [Hin | Hin]]; [auto | discriminate |].
    apply in_app_iff in Hin as [Hin | [Hin | Hin]]; [| discriminate | auto]. revert Hin. apply digits_no; lia.
Qed.
Lemma rows_inj : forall l l', Forall fair l -> Forall fair l' -> map row l = map row l' -> l = l'.
Proof.
  induction l as [| a l IH]; intros [| b l'] H H' E; try discriminate; auto.
  cbn in E. injection E as E1 E2. inversion H; inversion H'; subst. f_equal; [apply row_inj | apply IH]; auto.
Qed.
