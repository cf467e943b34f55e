(** Lemmas about disambiguate_fortran: the exact source form. *)
From Coq Require Import ZArith String List Bool Lia.
From Verif Require Import Base ParsedModel PathModel DetectorModel DetectorSpec DetectorProofs
  DisambProofs DisambProofs2 DisambProofs3 DisambProofs4 DisambProofs5 DisambProofs6 DisambSpec2.
Import ListNotations.
Open Scope string_scope.
Open Scope Z_scope.
Open Scope list_scope.

(** *** Ampersands *)
Lemma no_piece_nil : ~ piece [].
Proof. intros H. inversion H. Qed.

Lemma continued_nil k : ~ continued k [].
Proof. intros (ps & r & E & _). destruct (concat ps); discriminate. Qed.

Lemma continued_comment k t : ~ continued k (33 :: t).
Proof.
  intros (ps & r & E & F & _). destruct ps as [|p ps]; [discriminate|]. inversion F as [|? ? P _]; subst.
  inversion P as [c H|q u H U]; subst; cbn in E; injection E as <- _; cbn in H; lia.
Qed.

Lemma continued_plain k d t : ~ In d [33; 34; 39] ->
  (continued k (d :: t) <-> (d = 38 /\ 7 <= k <= 72) \/ continued (k + 1) t).
Proof.
  intros D. split.
  - intros (ps & r & E & F & B). destruct ps as [|p ps].
    + cbn in E, B. injection E as -> ->. left. split; [reflexivity|lia].
    + inversion F as [|? ? P F']; subst. inversion P as [c H|q u H U]; subst.
      * right. cbn in E. injection E as <- ->. exists ps, r. cbn [concat app length] in B.
        split; [reflexivity|]. split; [exact F'|]. lia.
      * exfalso. cbn in E. injection E as <- _. cbn in *. lia.
  - intros [[-> B]|(ps & r & -> & F & B)].
    + exists (@nil (list Z)), t. cbn. split; [reflexivity|]. split; [constructor|lia].
    + exists ([d] :: ps), r. split; [reflexivity|]. split; [constructor; [now constructor|exact F]|].
      cbn [concat app length]. lia.
Qed.

Lemma two_splits (q : Z) u v u' v' : ~ In q u -> ~ In q u' -> u ++ q :: v = u' ++ q :: v' -> u = u' /\ v = v'.
Proof.
  revert u'; induction u as [|a u IH]; intros [|b u'] N N' E; cbn in *.
  - injection E as <-. auto.
  - injection E as <- _. exfalso. apply N'. now left.
  - injection E as -> _. exfalso. apply N. now left.
  - injection E as <- E. destruct (IH u') as [-> ->]; auto.
Qed.

Lemma continued_quoted k q u v : In q [34; 39] -> ~ In q u ->
  (continued k (q :: u ++ q :: v) <-> continued (k + 2 + Z.of_nat (length u)) v).
Proof.
  intros Q U. split.
  - intros (ps & r & E & F & B). destruct ps as [|p ps].
    + cbn in E. injection E as -> _. cbn in Q. lia.
    + inversion F as [|? ? P F']; subst. inversion P as [c H|q' u' H U']; subst.
      * exfalso. cbn in E. injection E as <- _. cbn in *. lia.
      * cbn in E. injection E as <- E. rewrite <- !app_assoc in E. cbn in E.
        destruct (two_splits q u v u' _ U U' E) as [-> ->]. exists ps, r. split; [reflexivity|]. split; [exact F'|].
        cbn [concat] in B. rewrite !app_length in B. cbn [length] in B. rewrite app_length in B. cbn in B. lia.
  - intros (ps & r & -> & F & B). exists ((q :: u ++ [q]) :: ps), r. split.
    + cbn. rewrite <- !app_assoc. reflexivity.
    + split; [constructor; [now constructor|exact F]|].
      cbn [concat]. rewrite app_length. cbn [length]. rewrite app_length. cbn. lia.
Qed.

Lemma continued_open k q u : In q [34; 39] -> ~ In q u -> ~ continued k (q :: u).
Proof.
  intros Q U (ps & r & E & F & _). destruct ps as [|p ps].
  - cbn in E. injection E as -> _. cbn in Q. lia.
  - inversion F as [|? ? P F']; subst. inversion P as [c H|q' u' H U']; subst; cbn in E; injection E as <- E.
    + cbn in *. lia.
    + rewrite E in U. apply U. rewrite <- app_assoc. apply in_or_app. left. apply in_or_app. right. now left.
Qed.

Lemma open_or_closed (q : Z) t : ~ In q t \/ exists u v, t = u ++ q :: v /\ ~ In q u.
Proof.
  induction t as [|a t IH]; [now left|]. destruct (Z.eq_dec a q) as [->|N].
  - right. exists [], t. auto.
  - destruct IH as [IH|(u & v & -> & U)].
    + left. intros [E|I]; auto.
    + right. exists (a :: u), v. split; [reflexivity|]. intros [E|I]; auto.
Qed.

Lemma continued_dec : forall n t k, (length t <= n)%nat -> continued k t \/ ~ continued k t.
Proof.
  induction n as [|n IH]; intros t k L.
  { destruct t; [|cbn in L; lia]. right. apply continued_nil. }
  destruct t as [|d t]; [right; apply continued_nil|]. cbn [length] in L.
  destruct (Z.eq_dec d 33) as [->|N]; [right; apply continued_comment|].
  destruct (in_dec Z.eq_dec d [34; 39]) as [Q|Q].
  - destruct (open_or_closed d t) as [O|(u & v & -> & U)]; [right; now apply continued_open|].
    rewrite continued_quoted by assumption. apply IH. rewrite app_length in L. cbn [length] in L. lia.
  - rewrite continued_plain by (cbn in *; lia). destruct (IH t (k + 1)) as [H|H]; [lia|auto|].
    destruct (Z.eq_dec d 38) as [->|]; [|right; tauto].
    destruct (Z_le_dec 7 k); [destruct (Z_le_dec k 72)|]; [left; left; lia|right; intros [[_ X]|X]; [lia|tauto]..].
Qed.

(** *** A line *)
(** What follows a line. *)
Definition line_end (r : list Z) : Prop := forall c s, r = c :: s -> is_eol c = true.
Definition in_line (l : list Z) : Prop := Forall (fun c => is_eol c = false) l.

Lemma deref_end r : line_end r -> deref r = 0 \/ deref r = 13 \/ deref r = 10.
Proof.
  intros R. destruct r as [|c r]; [now left|]. right. specialize (R _ _ eq_refl). unfold is_eol in R. unfold deref. cbn [hd]. zb. lia.
Qed.
Lemma line_at_end fuel r i b : line_end r -> fortran_line (S fuel) r i b = Ok (Some r).
Proof. intros R. cbn [fortran_line]. destruct r as [|c s]; [reflexivity|]. now rewrite (R _ _ eq_refl). Qed.

Lemma skip_to_end (P : Z -> bool) l r : Forall (fun c => P c = true) l -> (forall c s, r = c :: s -> P c = false) ->
  skip P (l ++ r) = r.
Proof.
  induction 1 as [|c l H F IH]; intros R; cbn [app skip].
  - destruct r as [|c s]; [reflexivity|]. cbn [skip]. now rewrite (R _ _ eq_refl).
  - rewrite H. auto.
Qed.

(** A quoted part that is closed, or not. *)
Lemma quoted_closed q u v r i : In q [34; 39] -> ~ In q u -> in_line u ->
  quoted q (q :: u ++ q :: v ++ r) i = (q :: v ++ r, i + 1 + Z.of_nat (length u)).
Proof.
  intros Q U F. unfold quoted. unfold deref. cbn [hd tl]. rewrite Z.eqb_refl.
  rewrite (skip_to_end _ u (q :: v ++ r)).
  - f_equal. unfold zlen. cbn [length]. rewrite app_length. cbn [length]. lia.
  - apply Forall_forall. intros c I. unfold in_line in F. rewrite Forall_forall in F. rewrite (F c I).
    destruct (Z.eqb_spec c q) as [->|]; [contradiction|reflexivity].
  - intros c s [= <- _]. now rewrite Z.eqb_refl.
Qed.
Lemma quoted_open q u r i : In q [34; 39] -> ~ In q u -> in_line u -> line_end r ->
  exists j, quoted q (q :: u ++ r) i = (r, j).
Proof.
  intros Q U F R. unfold quoted. unfold deref. cbn [hd tl]. rewrite Z.eqb_refl.
  rewrite (skip_to_end _ u r); [eauto| |].
  - apply Forall_forall. intros c I. unfold in_line in F. rewrite Forall_forall in F. rewrite (F c I).
    destruct (Z.eqb_spec c q) as [->|]; [contradiction|reflexivity].
  - intros c s E. rewrite (R _ _ E). apply andb_false_r.
Qed.
Lemma quoted_other q p i : deref p <> q -> quoted q p i = (p, i).
Proof. intros H. unfold quoted. destruct (Z.eqb_spec (deref p) q); [contradiction|reflexivity]. Qed.

(** The text from column [i + 1] on. *)
Lemma body_exact : forall n t, (length t <= n)%nat -> forall fuel i b c r,
  (length (t ++ r) < fuel)%nat -> 5 <= i -> is_eol c = false -> in_line t -> line_end r ->
  (i = 5 -> (b = true \/ begins [32] t \/ begins [48] t) /\ ~ begins [33] t) ->
  (continued (i + 1) t -> fortran_line (S fuel) (c :: t ++ r) i b = Ok None) /\
  (~ continued (i + 1) t -> fortran_line (S fuel) (c :: t ++ r) i b = Ok (Some r)).
Proof.
  induction n as [|n IH]; intros t Ht fuel i b c r Hf Hi C T R H6.
  { destruct t; [|cbn in Ht; lia]. split; [intros X; now apply continued_nil in X|]. intros _.
    cbn [app] in *. cbn [fortran_line]. rewrite C. cbv zeta.
    replace (i + 1 <=? 5) with false by (symmetry; apply Z.leb_gt; lia). cbn [andb].
    pose proof (deref_end r R) as D.
    replace ((i + 1 =? 6) && negb b && negb (deref r =? 32) && negb (deref r =? 48)) with false.
    2: { destruct (Z.eqb_spec (i + 1) 6) as [E|]; [|reflexivity]. destruct H6 as [[->|[[? X]|[? X]]] _]; [lia|reflexivity|discriminate|discriminate]. }
    replace (deref r =? 33) with false by (symmetry; apply Z.eqb_neq; lia). cbn [andb].
    rewrite quoted_other by lia. rewrite quoted_other by lia.
    replace (deref r =? 38) with false by (symmetry; apply Z.eqb_neq; lia). rewrite andb_false_r.
    destruct fuel as [|k]; [lia|]. now apply line_at_end. }
  destruct t as [|d t]; [apply IH; auto; cbn; lia|]. cbn [length] in Ht.
  apply Forall_cons_iff in T. destruct T as [Dn T].
  assert (E : fortran_line (S fuel) (c :: (d :: t) ++ r) i b =
    if (d =? 33) && negb (i + 1 =? 6) then
      fortran_line fuel (skip (fun c => negb (is_eol c)) (d :: t ++ r)) (i + 1) b
    else
      let '(p, j) := quoted 34 (d :: t ++ r) (i + 1) in
      let '(p, j) := quoted 39 p j in
      if (6 <? j) && (j <=? 72) && (deref p =? 38) then Ok None else fortran_line fuel p j b).
  { cbn [app]. cbn [fortran_line]. rewrite C. cbv zeta. change (deref (d :: t ++ r)) with d.
    replace (i + 1 <=? 5) with false by (symmetry; apply Z.leb_gt; lia). cbn [andb].
    replace ((i + 1 =? 6) && negb b && negb (d =? 32) && negb (d =? 48)) with false; [reflexivity|].
    destruct (Z.eqb_spec (i + 1) 6) as [E|]; [|reflexivity].
    destruct H6 as [[->|[[? X]|[? X]]] _]; [lia|reflexivity| |]; injection X as -> _; [now rewrite andb_false_r|now rewrite andb_false_r]. }
  rewrite E. clear E.
  destruct (Z.eqb_spec d 33) as [->|N33]; cbn [andb].
  - (* a comment *)
    assert (I6 : i <> 5). { intros ->. destruct H6 as [_ H6]; [reflexivity|]. apply H6. now exists t. }
    replace (i + 1 =? 6) with false by (symmetry; apply Z.eqb_neq; lia). cbn [negb].
    split; [intros X; now apply continued_comment in X|]. intros _.
    change (33 :: t ++ r) with ((33 :: t) ++ r). rewrite skip_to_end.
    + destruct fuel as [|k]; [lia|]. now apply line_at_end.
    + constructor; [reflexivity|]. eapply Forall_impl; [|exact T]. cbn. now intros a ->.
    + intros a s Ea. now rewrite (R _ _ Ea).
  - destruct (in_dec Z.eq_dec d [34; 39]) as [Q|Q].
    + (* a quote *)
      destruct (open_or_closed d t) as [O|(u & v & -> & U)].
      * split; [intros X; now apply continued_open in X|]. intros _.
        assert (QQ : exists j, (let '(p, j) := quoted 34 (d :: t ++ r) (i + 1) in quoted 39 p j) = (r, j)).
        { pose proof (deref_end r R) as D. cbn in Q. destruct Q as [<-|[<-|[]]].
          - destruct (quoted_open 34 t r (i + 1)) as [j Hj]; auto; [cbn; auto|]. rewrite Hj. rewrite quoted_other by lia. eauto.
          - rewrite quoted_other by (unfold deref; cbn; lia). apply quoted_open; auto. cbn; auto. }
        destruct QQ as [j QQ]. destruct (quoted 34 (d :: t ++ r) (i + 1)) as [p1 j1]. rewrite QQ.
        pose proof (deref_end r R) as D. replace (deref r =? 38) with false by (symmetry; apply Z.eqb_neq; lia).
        rewrite andb_false_r. destruct fuel as [|k]; [lia|]. now apply line_at_end.
      * unfold in_line in T. apply Forall_app in T. destruct T as [Tu Tv]. apply Forall_cons_iff in Tv. destruct Tv as [_ Tv].
        rewrite continued_quoted by assumption.
        assert (EA : d :: (u ++ d :: v) ++ r = d :: u ++ d :: v ++ r) by now rewrite <- app_assoc.
        rewrite EA.
        assert (QQ : (let '(p, j) := quoted 34 (d :: u ++ d :: v ++ r) (i + 1) in quoted 39 p j)
                     = (d :: v ++ r, i + 1 + 1 + Z.of_nat (length u))).
        { cbn in Q. destruct Q as [<-|[<-|[]]].
          - rewrite quoted_closed by (cbn; auto). rewrite quoted_other by (unfold deref; cbn; lia). reflexivity.
          - rewrite quoted_other by (unfold deref; cbn; lia). apply quoted_closed; auto. cbn; auto. }
        destruct (quoted 34 (d :: u ++ d :: v ++ r) (i + 1)) as [p1 j1]. rewrite QQ.
        replace (deref (d :: v ++ r) =? 38) with false
          by (symmetry; apply Z.eqb_neq; unfold deref; cbn [hd]; cbn in Q; lia).
        rewrite andb_false_r. destruct fuel as [|k]; [lia|].
        replace (i + 1 + 2 + Z.of_nat (length u)) with (i + 1 + 1 + Z.of_nat (length u) + 1) by lia.
        rewrite !app_length in *. cbn [length] in *. rewrite ?app_length in *. cbn [length] in *.
        apply IH; auto; [lia|rewrite app_length; lia|lia|lia].
    + (* an ordinary character *)
      cbn in Q. rewrite continued_plain by (cbn; lia).
      rewrite quoted_other by (unfold deref; cbn [hd]; lia). rewrite quoted_other by (unfold deref; cbn [hd]; lia).
      unfold deref. cbn [hd]. destruct fuel as [|k]; [lia|]. cbn [length app] in Hf.
      assert (REC := IH t ltac:(lia) k (i + 1) b d r ltac:(lia) ltac:(lia) Dn T R ltac:(lia)).
      destruct ((6 <? i + 1) && (i + 1 <=? 72) && (d =? 38)) eqn:A.
      * split; [reflexivity|]. intros N. exfalso. apply N. left. zb. lia.
      * destruct REC as [R1 R2]. split.
        -- intros [[-> B]|X]; [|auto]. exfalso. zb. lia.
        -- intros N. apply R2. tauto.
Qed.

(** Column 6 and the text after it. *)
Lemma column6_exact fuel b c t r : (length (t ++ r) < fuel)%nat -> is_eol c = false -> in_line t -> line_end r ->
  ((b = true \/ begins [32] t \/ begins [48] t) /\ ~ continued 6 (column6 t) ->
   fortran_line (S fuel) (c :: t ++ r) 5 b = Ok (Some r)) /\
  (~ ((b = true \/ begins [32] t \/ begins [48] t) /\ ~ continued 6 (column6 t)) ->
   fortran_line (S fuel) (c :: t ++ r) 5 b = Ok None).
Proof.
  intros Hf C T R.
  assert (B : (b = true \/ begins [32] t \/ begins [48] t) \/ (b = false /\ deref (t ++ r) <> 32 /\ deref (t ++ r) <> 48)).
  { destruct b; [auto|]. destruct t as [|x t].
    - right. pose proof (deref_end r R). cbn [app]. lia.
    - unfold deref. cbn [app hd]. destruct (Z.eq_dec x 32) as [->|]; [left; right; left; now exists t|].
      destruct (Z.eq_dec x 48) as [->|]; [left; right; right; now exists t|]. auto. }
  destruct B as [B|(-> & B1 & B2)].
  - assert (X : (exists t', t = 33 :: t') \/ ~ begins [33] t).
    { destruct t as [|x t]; [right; intros [? X]; discriminate|]. destruct (Z.eq_dec x 33) as [->|]; [eauto|].
      right. intros [? X]. injection X as -> _. contradiction. }
    destruct X as [[t' ->]|X].
    + assert (Hb : b = true) by (destruct B as [B|[[? B]|[? B]]]; [exact B|discriminate|discriminate]). subst b.
      cbn [column6]. apply Forall_cons_iff in T. destruct T as [_ T].
      assert (E : fortran_line (S fuel) (c :: (33 :: t') ++ r) 5 true = fortran_line fuel (33 :: t' ++ r) 6 true).
      { cbn [app]. cbn [fortran_line]. rewrite C. reflexivity. }
      rewrite E. destruct fuel as [|k]; [lia|]. cbn [app length] in Hf.
      destruct (body_exact (length t') t' (le_n _) k 6 true 33 r) as [R1 R2]; auto; [lia|lia|lia|].
      rewrite continued_plain by (cbn; lia). change (6 + 1) with 7 in *. split.
      * intros [_ N]. apply R2. tauto.
      * intros N. apply R1. destruct (continued_dec _ t' 7 (le_n _)) as [Y|Y]; [exact Y|].
        exfalso. apply N. split; [exact B|]. intros [[W _]|W]; [discriminate|contradiction].
    + replace (column6 t) with t.
      2: { unfold column6. destruct t as [|x t]; [reflexivity|]. destruct (Z.eq_dec x 33) as [->|N]; [exfalso; apply X; now exists t|].
           destruct x as [|x|x]; try reflexivity. repeat (destruct x as [x|x|]; try reflexivity). exfalso. now apply N. }
      destruct (body_exact (length t) t (le_n _) fuel 5 b c r) as [R1 R2]; auto; [lia|]. change (5 + 1) with 6 in *. split.
      * intros [_ N]. auto.
      * intros N. apply R1. destruct (continued_dec _ t 6 (le_n _)) as [Y|Y]; [exact Y|]. exfalso. apply N. auto.
  - assert (E : fortran_line (S fuel) (c :: t ++ r) 5 false = Ok None).
    { cbn [fortran_line]. rewrite C. change (5 + 1) with 6. cbn [Z.leb Z.compare Pos.compare Pos.compare_cont andb Z.eqb Pos.eqb negb].
      replace (deref (t ++ r) =? 32) with false by (symmetry; now apply Z.eqb_neq).
      replace (deref (t ++ r) =? 48) with false by (symmetry; now apply Z.eqb_neq). reflexivity. }
    rewrite E. split; [|reflexivity]. intros [[X|[[s ->]|[s ->]]] _]; [discriminate| |];
      unfold deref in *; cbn in *; congruence.
Qed.

(** The label field: columns [i] to 5, of which [c] is the first. *)
Definition label_ok (i : Z) (b : bool) (l : list Z) : Prop :=
  exists label rest, l = label ++ rest /\ Forall (fun d => d = 32 \/ Digit d) label /\
    let column := i + Z.of_nat (length label) in
    (column < 5 /\ begins [33] rest)
    \/ (column = 5 /\ ((b = true /\ Forall (fun d => d = 32) label) \/ begins [32] rest \/ begins [48] rest) /\
        ~ continued 6 (column6 rest)).

Lemma label_at5 b l : label_ok 5 b l <-> (b = true \/ begins [32] l \/ begins [48] l) /\ ~ continued 6 (column6 l).
Proof.
  split.
  - intros (label & rest & -> & F & [[X _]|[X H]]); [lia|]. destruct label; [|cbn [length] in X; lia]. cbn [app]. tauto.
  - intros H. exists [], l. split; [reflexivity|]. split; [constructor|]. right. cbn [length]. split; [reflexivity|].
    destruct H as [[->|H] N]; split; auto.
Qed.
Lemma label_nil i b : i < 5 -> ~ label_ok i b [].
Proof.
  intros I (label & rest & E & F & H). destruct label; [|discriminate]. destruct rest; [|discriminate]. cbn [length] in H.
  destruct H as [[_ [s H]]|[H _]]; [discriminate|lia].
Qed.
Lemma label_comment i b l : i < 5 -> label_ok i b (33 :: l).
Proof. intros I. exists [], (33 :: l). split; [reflexivity|]. split; [constructor|]. left. cbn [length]. split; [lia|now exists l]. Qed.
Lemma label_bad i b d l : i < 5 -> d <> 33 -> d <> 32 -> ~ Digit d -> ~ label_ok i b (d :: l).
Proof.
  intros I N1 N2 N3 (label & rest & E & F & H). destruct label as [|x label].
  - cbn [app length] in *. subst rest. destruct H as [[_ [s H]]|[H _]]; [injection H as -> _; contradiction|lia].
  - cbn in E. injection E as <- _. apply Forall_inv in F. tauto.
Qed.
Lemma label_next i b d l : i < 5 -> d = 32 \/ Digit d ->
  (label_ok i b (d :: l) <-> label_ok (i + 1) (b && (d =? 32)) l).
Proof.
  intros I D. split.
  - intros (label & rest & E & F & H). destruct label as [|x label].
    + cbn [app length] in *. subst rest. destruct H as [[_ [s H]]|[H _]]; [injection H as -> _; unfold Digit in D; lia|lia].
    + cbn in E. injection E as <- ->. exists label, rest. split; [reflexivity|]. apply Forall_cons_iff in F. destruct F as [_ F].
      split; [exact F|]. cbn [length] in H. destruct H as [[H1 H2]|(H1 & H2 & H3)]; [left; split; [lia|exact H2]|right].
      split; [lia|]. split; [|exact H3]. destruct H2 as [[-> H2]|H2]; [left|now right].
      apply Forall_cons_iff in H2. destruct H2 as [-> H2]. auto.
  - intros (label & rest & -> & F & H). exists (d :: label), rest. split; [reflexivity|]. split; [now constructor|].
    cbn [length]. destruct H as [[H1 H2]|(H1 & H2 & H3)]; [left; split; [lia|exact H2]|right].
    split; [lia|]. split; [|exact H3]. destruct H2 as [[H2 H4]|H2]; [left|now right].
    apply andb_true_iff in H2. destruct H2 as [-> H2]. apply Z.eqb_eq in H2 as ->. split; [reflexivity|now constructor].
Qed.

Lemma label_dec : forall n t i b, i + Z.of_nat n = 5 -> label_ok i b t \/ ~ label_ok i b t.
Proof.
  induction n as [|n IH]; intros t i b I.
  { replace i with 5 by lia. rewrite label_at5.
    assert (B : forall x, begins [x] t \/ ~ begins [x] t).
    { intros x. destruct t as [|y t]; [right; intros [? X]; discriminate|].
      destruct (Z.eq_dec x y) as [->|N]; [left; now exists t|]. right. intros [? X]. injection X as -> _. contradiction. }
    destruct (continued_dec _ (column6 t) 6 (le_n _)) as [C|C]; [right; tauto|].
    destruct b; [left; auto|]. destruct (B 32); [left; auto|]. destruct (B 48); [left; auto|]. right.
    intros [[X|[X|X]] _]; [discriminate|contradiction|contradiction]. }
  destruct t as [|d t]; [right; apply label_nil; lia|].
  destruct (Z.eq_dec d 33) as [->|N33]; [left; apply label_comment; lia|].
  assert (D : (d = 32 \/ Digit d) \/ (d <> 32 /\ ~ Digit d)) by (unfold Digit; lia).
  destruct D as [D|[D1 D2]]; [|right; apply label_bad; auto; lia].
  rewrite label_next; [|lia|exact D]. apply IH. lia.
Qed.

Lemma label_exact : forall n t fuel i b c r, i + Z.of_nat n = 5 -> 1 <= i ->
  (length (t ++ r) < fuel)%nat -> is_eol c = false -> in_line t -> line_end r ->
  (label_ok i b t -> fortran_line (S fuel) (c :: t ++ r) i b = Ok (Some r)) /\
  (~ label_ok i b t -> fortran_line (S fuel) (c :: t ++ r) i b = Ok None).
Proof.
  induction n as [|n IH]; intros t fuel i b c r I I1 Hf C T R.
  { replace i with 5 by lia. rewrite label_at5. apply column6_exact; auto. }
  assert (E : fortran_line (S fuel) (c :: t ++ r) i b =
    if negb (is_digit (deref (t ++ r))) && negb (deref (t ++ r) =? 32) && negb (deref (t ++ r) =? 33) then Ok None
    else if deref (t ++ r) =? 33 then
      fortran_line fuel (skip (fun c => negb (is_eol c)) (t ++ r)) (i + 1) (b && (deref (t ++ r) =? 32))
    else fortran_line fuel (t ++ r) (i + 1) (b && (deref (t ++ r) =? 32))).
  { cbn [fortran_line]. rewrite C. cbv zeta.
    replace (i + 1 <=? 5) with true by (symmetry; apply Z.leb_le; lia). cbn [andb].
    replace (i + 1 =? 6) with false by (symmetry; apply Z.eqb_neq; lia). cbn [andb negb]. rewrite andb_true_r.
    destruct (negb (is_digit (deref (t ++ r))) && negb (deref (t ++ r) =? 32) && negb (deref (t ++ r) =? 33)) eqn:X; [reflexivity|].
    destruct (deref (t ++ r) =? 33) eqn:Y; [reflexivity|].
    assert (Z : Digit (deref (t ++ r)) \/ deref (t ++ r) = 32).
    { cbn [negb] in X. rewrite andb_true_r in X. apply andb_false_iff in X. rewrite !negb_false_iff in X.
      rewrite is_digit_iff, Z.eqb_eq in X. exact X. }
    unfold Digit in Z. rewrite quoted_other by lia. rewrite quoted_other by lia.
    replace (6 <? i + 1) with false by (symmetry; apply Z.ltb_ge; lia). reflexivity. }
  rewrite E. clear E. destruct t as [|d t].
  - cbn [app]. pose proof (deref_end r R) as D.
    replace (is_digit (deref r)) with false.
    2: { symmetry. apply (false_iff _ _ (is_digit_iff (deref r))). unfold Digit. lia. }
    replace (deref r =? 32) with false by (symmetry; apply Z.eqb_neq; lia).
    replace (deref r =? 33) with false by (symmetry; apply Z.eqb_neq; lia). cbn [negb andb].
    split; [intros X; exfalso; revert X; apply label_nil; lia|reflexivity].
  - unfold deref. cbn [app hd]. apply Forall_cons_iff in T. destruct T as [Dn T].
    destruct (Z.eqb_spec d 33) as [->|N33].
    + cbn [is_digit negb andb Z.eqb Pos.eqb Z.leb Z.compare Pos.compare Pos.compare_cont].
      rewrite andb_false_r. split; [|intros X; exfalso; apply X, label_comment; lia]. intros _.
      change (33 :: t ++ r) with ((33 :: t) ++ r). rewrite skip_to_end.
      * destruct fuel as [|k]; [lia|]. now apply line_at_end.
      * constructor; [reflexivity|]. eapply Forall_impl; [|exact T]. cbn. now intros a ->.
      * intros a s Ea. now rewrite (R _ _ Ea).
    + cbn [negb]. rewrite andb_true_r.
      destruct (negb (is_digit d) && negb (d =? 32)) eqn:X.
      * apply andb_true_iff in X. rewrite !negb_true_iff in X. destruct X as [X1 X2].
        split; [intros Y; exfalso; revert Y; apply label_bad; [lia|exact N33|now apply Z.eqb_neq|]|reflexivity].
        now apply (false_iff _ _ (is_digit_iff d)).
      * assert (D : d = 32 \/ Digit d).
        { apply andb_false_iff in X. rewrite !negb_false_iff in X. rewrite is_digit_iff, Z.eqb_eq in X. tauto. }
        rewrite label_next; [|lia|exact D]. destruct fuel as [|k]; [lia|]. cbn [app length] in Hf.
        apply IH; auto; lia.
Qed.

Lemma statement_label c t : Blank c \/ Digit c ->
  fixed_statement (c :: t) <-> label_ok (if c =? 9 then 5 else 1) (blank c) t.
Proof.
  intros B. split.
  - intros (c' & label & rest & E & _ & F & H). injection E as <- ->. exists label, rest. pose proof (blank_iff c). cbv zeta in *. tauto.
  - intros (label & rest & -> & F & H). exists c, label, rest. pose proof (blank_iff c). cbv zeta in *. tauto.
Qed.
Lemma statement_dec c t : Blank c \/ Digit c -> fixed_statement (c :: t) \/ ~ fixed_statement (c :: t).
Proof.
  intros B. rewrite (statement_label c t B). destruct (c =? 9); [apply (label_dec 0)|apply (label_dec 4)]; lia.
Qed.
Lemma statement_exact fuel c t r : (length (t ++ r) < fuel)%nat -> Blank c \/ Digit c -> is_eol c = false ->
  in_line t -> line_end r ->
  (fixed_statement (c :: t) -> fortran_line (S fuel) (c :: t ++ r) (if c =? 9 then 5 else 1) (blank c) = Ok (Some r)) /\
  (~ fixed_statement (c :: t) -> fortran_line (S fuel) (c :: t ++ r) (if c =? 9 then 5 else 1) (blank c) = Ok None).
Proof.
  intros Hf B C T R.
  rewrite (statement_label c t B). destruct (Z.eqb_spec c 9) as [->|N].
  - apply (label_exact 0); auto; lia.
  - apply (label_exact 4); auto; lia.
Qed.

(** *** A file *)
Lemma fixed_exact : forall fuel p, (length p < fuel)%nat ->
  (fixed_format p <-> fortran_loop fuel p = Ok true).
Proof.
  induction fuel as [|k IH]; intros p L; [lia|]. cbn [fortran_loop].
  destruct p as [|c r0].
  { split; [reflexivity|]. intros _. split; [discriminate|]. intros l [<-|[]]. now left. }
  destruct (is_eol c) eqn:H0.
  { assert (B : blank c || is_digit c = false /\ existsb (Z.eqb c) [67; 99; 42; 33] = false).
    { apply is_eol_iff in H0. destruct H0 as [->| ->]; auto. }
    destruct B as [-> ->]. split; [|discriminate]. intros [N _]. exfalso. apply (N c r0 eq_refl). now apply is_eol_iff. }
  remember (c :: r0) as p eqn:EP.
  pose proof (taken_skip (fun c => negb (is_eol c)) p) as E.
  assert (F : Forall (fun c => is_eol c = false) (taken (fun c => negb (is_eol c)) p)).
  { eapply Forall_impl; [|apply taken_all]. intros x Y. apply negb_true_iff in Y. exact Y. }
  assert (R : forall d z, skip (fun c => negb (is_eol c)) p = d :: z -> is_eol d = true).
  { intros d z X. apply skip_head in X. apply negb_false_iff in X. exact X. }
  assert (NL : exists l', taken (fun c => negb (is_eol c)) p = c :: l').
  { rewrite EP. cbn [taken]. rewrite H0. eexists; reflexivity. }
  destruct NL as (l' & NL). rewrite NL in *. set (r := skip (fun c => negb (is_eol c)) p) in *.
  assert (IL : In (c :: l') (lines p)) by (rewrite E, (lines_app _ r F R); destruct r; cbn; auto).
  assert (Lr : (length (skip is_eol r) < k)%nat).
  { pose proof (skip_length is_eol r). rewrite E, app_length in L. cbn [length] in L. lia. }
  specialize (IH (skip is_eol r) Lr).
  assert (G : fixed_format p <-> (comment_line (c :: l') \/ fixed_statement (c :: l')) /\ fixed_format (skip is_eol r)).
  { split.
    - intros [_ H]. split.
      + destruct (H _ IL) as [X|X]; [discriminate|exact X].
      + split.
        * intros d z X N. apply skip_head in X. apply is_eol_iff in N. congruence.
        * intros x I. apply (in_lines_tail _ r x F R) in I as [-> | I]; [auto|]. apply H. rewrite E. exact I.
    - intros [X [_ H]]. split.
      + intros d z Y N. rewrite EP in Y. injection Y as <- <-. apply is_eol_iff in N. congruence.
      + intros x I. rewrite E in I. apply lines_head in I as [-> | [I | -> ]]; auto. }
  rewrite G. clear G. apply Forall_cons_iff in F. destruct F as [_ F].
  destruct (blank c || is_digit c) eqn:B.
  - assert (B' : Blank c \/ Digit c) by (apply orb_true_iff in B; rewrite blank_iff, is_digit_iff in B; exact B).
    assert (NC : ~ comment_line (c :: l')).
    { intros (x & z & X & I). injection X as <- _. cbn in I. unfold Blank, Digit in B'. lia. }
    rewrite E. cbn [app].
    destruct (statement_exact (length (c :: l' ++ r)) c l' r ltac:(cbn [length]; lia) B' H0 F R) as [S1 S2].
    set (x := fortran_line (S (length (c :: l' ++ r))) (c :: l' ++ r) (if c =? 9 then 5 else 1) (blank c)) in *.
    destruct (fortran_line_total (S (length (c :: l' ++ r))) (c :: l' ++ r) (if c =? 9 then 5 else 1) (blank c)) as (q & Q & _); [lia|].
    fold x in Q. split.
    + intros [[X|X] H]; [contradiction|]. rewrite (S1 X). cbn [bind]. now apply IH.
    + intros H. rewrite Q in H. cbn [bind] in H. destruct q as [p'|]; [|discriminate].
      destruct (statement_dec c l' B') as [X|X]; [|rewrite (S2 X) in Q; discriminate].
      split; [now right|]. rewrite (S1 X) in Q. injection Q as <-. now apply IH.
  - assert (NS : ~ fixed_statement (c :: l')).
    { intros (x & z & y & X & Y & _). injection X as <- _. apply orb_false_iff in B. rewrite <- blank_iff, <- is_digit_iff in Y. destruct B. destruct Y; congruence. }
    assert (EC : comment_line (c :: l') <-> existsb (Z.eqb c) [67; 99; 42; 33] = true).
    { rewrite existsb_exists. split.
      - intros (x & z & X & I). injection X as <- _. exists c. split; [exact I|apply Z.eqb_refl].
      - intros (x & I & X). apply Z.eqb_eq in X as ->. exists x, l'. auto. }
    rewrite EC. destruct (existsb _ _).
    + rewrite <- IH. tauto.
    + split; [|discriminate]. intros [[X|X] _]; [discriminate|contradiction].
Qed.
