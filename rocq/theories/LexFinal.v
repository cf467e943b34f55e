(** A line feed after the last line. *)
From Coq Require Import ZArith String List Bool Lia.
From Verif Require Import Base ParsedModel RagelSyntax RagelBuild RagelRun ParserTable.
From Verif Require Import LineSpec LexSpec LexCheck LexFacts LexBytes LexLines LexHeads LexConcat.
Import ListNotations.
Open Scope string_scope.
Open Scope Z_scope.
Open Scope list_scope.

Local Notation zlen l := (Z.of_nat (length l)).

(** ** Statements *)

(** The last byte is no line end and no backslash. *)
Definition open_end (s : list Z) : Prop := exists k c, s = k ++ [c] /\ newline_byte c = false /\ c <> 92.

(** The reports when a line feed is put after a text that ends at [T]: the last line gets
    longer; there is a blank line more if it had not been reported. *)
Definition with_final (lang : string) (T : Z) (l : list event) : list event :=
  if existsb (fun e => e_end e =? T) l
  then map (fun e => if e_end e =? T then mkEvent (e_lang e) (e_entity e) (e_start e) (T + 1) else e) l
  else l ++ [mkEvent lang "lblank" T (T + 1)].

(** A pattern without line feed. *)
Definition no_lf (p : list (list Z)) : bool := match p with [] => false | _ => forallb (fun u => negb (among 10 u)) p end.
(** No pattern has a line feed, and the line end closes nothing that has to be closed. *)
Definition final_region (g : region) : bool :=
  no_lf (g_open g ++ g_ahead g) && no_lf (g_open g) && forallb no_lf (g_close g) && forallb no_lf (g_never g)
  && negb (g_must g && match g_nl g with Cut => true | _ => false end).
Definition final_ok (x : lexis) : bool :=
  forallb no_lf (x_never x ++ x_head x) && forallb (fun w => no_lf (fst (fst w))) (x_words x)
  && forallb final_region (x_regions x).

(** ** Proofs *)
Lemma open_cons s : open_end s -> exists c r, s = c :: r.
Proof. intros (k & c & -> & _). destruct k; cbn; eauto. Qed.
Lemma open_tail c r : open_end (c :: r) -> r = [] /\ newline_byte c = false /\ c <> 92 \/ open_end r.
Proof.
  intros (k & d & E & H1 & H2). destruct k as [|y k]; cbn in E; injection E as -> ->; [left; auto|right; exists k, d; auto].
Qed.
Lemma open_skip n s : open_end s -> skipn n s = [] \/ open_end (skipn n s).
Proof.
  intros (k & c & -> & H). destruct (Nat.leb_spec n (length k)).
  - right. exists (skipn n k), c. rewrite skipn_app. replace (n - length k)%nat with O by lia. auto.
  - left. apply skipn_all2. rewrite app_length. cbn. lia.
Qed.

Lemma has_final p : no_lf p = true -> forall s, has p (s ++ [10]) = has p s.
Proof.
  intros H. assert (H' : forallb (fun u => negb (among 10 u)) p = true) by (destruct p; [discriminate|exact H]). clear H.
  induction p as [|u p IH]; intros s; [destruct s; reflexivity|]. cbn [forallb] in H'. apply andb_prop in H' as [Hu Hp].
  destruct s as [|c s]; cbn [app has].
  - apply negb_true_iff in Hu. rewrite Hu. reflexivity.
  - rewrite IH by auto. reflexivity.
Qed.
Lemma has_lf p : no_lf p = true -> has p [10] = false.
Proof. intros H. change [10] with ([] ++ [10]). rewrite has_final by auto. destruct p; [discriminate|reflexivity]. Qed.
Lemma find_none {A} (f : A -> bool) l : (forall y, In y l -> f y = false) -> find f l = None.
Proof. induction l as [|y l IH]; cbn; auto. intros H. rewrite (H y), IH by auto. reflexivity. Qed.
Lemma existsb_none {A} (f : A -> bool) l : (forall y, In y l -> f y = false) -> existsb f l = false.
Proof. induction l as [|y l IH]; cbn; auto. intros H. rewrite (H y), IH by auto. reflexivity. Qed.
Lemma line_end_final s : open_end s -> line_end (s ++ [10]) = line_end s.
Proof.
  intros Hs. destruct (open_cons _ Hs) as (c & r & ->). destruct (open_tail _ _ Hs) as [(-> & Hc & _)|Hr].
  - cbn. unfold newline_byte in Hc. apply orb_false_elim in Hc as [-> H13]. rewrite H13. reflexivity.
  - destruct (open_cons _ Hr) as (d & r' & ->). reflexivity.
Qed.

Lemma body_final g n s : final_region g = true -> open_end s -> body g n (s ++ [10]) = body g n s.
Proof.
  intros Hg Hs. unfold final_region in Hg. dand.
  repeat match goal with H : forallb _ _ = true |- _ => rewrite forallb_forall in H end.
  destruct (open_cons _ Hs) as (c & r & ->). unfold body. cbn [app]. change (c :: r ++ [10]) with ((c :: r) ++ [10]).
  rewrite (find_ext (fun p => has p ((c :: r) ++ [10])) (fun p => has p (c :: r))) by (intros; apply has_final; auto).
  rewrite (existsb_ext (fun p => has p ((c :: r) ++ [10])) (fun p => has p (c :: r))) by (intros; apply has_final; auto).
  rewrite has_final by auto. rewrite (line_end_final (c :: r)) by auto.
  destruct (open_tail _ _ Hs) as [(-> & Hc & H92)|Hr].
  - apply Z.eqb_neq in H92. rewrite H92, !andb_false_r. destruct (find _ _), n; reflexivity.
  - rewrite line_end_final by auto. destruct (open_cons _ Hr) as (d & r' & ->). reflexivity.
Qed.
Lemma body_lf g n : final_region g = true -> body g n [10] =
  match g_nl g with Cut => Some (Ends 1 Blank false Out) | Inner => Some (Ends 1 Blank true (Inside g n)) | Deny => None end.
Proof.
  intros Hg. unfold final_region in Hg. dand.
  repeat match goal with H : forallb _ _ = true |- _ => rewrite forallb_forall in H end.
  unfold body. rewrite find_none by (intros; apply has_lf; auto). rewrite existsb_none by (intros; apply has_lf; auto).
  rewrite has_lf by auto. rewrite andb_false_r. reflexivity.
Qed.

Lemma stops_last k : forall pos c, newline_byte c = false -> ~ In (pos + zlen (k ++ [c])) (line_stops pos (k ++ [c])).
Proof.
  induction k as [|b k IH]; intros pos c Hc; cbn [app]; rewrite stops_cons.
  - unfold newline_byte in Hc. apply orb_false_elim in Hc as [-> _]. cbn. auto.
  - intros H. apply in_app_iff in H as [H|H].
    + assert (E : pos + zlen (b :: k ++ [c]) = pos + 1).
      { destruct (_ || _); [destruct H as [H|[]]; auto|]. destruct (k ++ [c]); [destruct H|]. destruct (_ && _); [destruct H as [H|[]]; auto|destruct H]. }
      cbn [length] in E. rewrite app_length in E. cbn [length] in E. lia.
    + apply (IH (pos + 1) c Hc). replace (pos + 1 + zlen (k ++ [c])) with (pos + zlen (b :: k ++ [c])) by (cbn [length]; lia). exact H.
Qed.
Lemma ends_left s n k i w : open_end s -> piece_lines s (Ends n k i w) -> skipn n s <> [].
Proof.
  intros (q & c & -> & Hc & _) [Hn H] E. specialize (H 0). rewrite E in H.
  assert (n = length (q ++ [c])) as -> by (apply (f_equal (@length Z)) in E; rewrite skipn_length in E; cbn [length] in E; lia).
  apply (stops_last q 0 c Hc). rewrite H. left. reflexivity.
Qed.

Lemma closed_final g : final_region g = true -> g_must g = true -> tidy_region g ->
  forall f n s, s = [] \/ open_end s -> closed f g n (s ++ [10]) = closed f g n s.
Proof.
  intros Hg Hm Ht. induction f as [|f IH]; intros n s Hs; [reflexivity|]. destruct Hs as [-> |Hs].
  - cbn [app closed]. rewrite body_lf by auto. unfold final_region in Hg. rewrite Hm in Hg. dand.
    destruct (g_nl g); [discriminate| |reflexivity]. cbn [body]. destruct f; reflexivity.
  - cbn [closed]. rewrite body_final by auto. destruct (body g n s) as [[k kd w|k kd i w]|] eqn:Eb; [| |reflexivity];
      (destruct w as [|g' n']; [reflexivity|]); pose proof (body_lines _ _ _ _ Ht Eb) as [Hk _];
      rewrite skip_more by lia; apply IH; apply open_skip; auto.
Qed.

Section Final.
  Variable x : lexis.
  Variable lang : string.
  Hypothesis Hsane : sane x = true.
  Hypothesis Htidy : tidy x = true.
  Hypothesis Hfinal : final_ok x = true.

  Lemma final_in g : In g (x_regions x) -> final_region g = true.
  Proof. intros H. unfold final_ok in Hfinal. apply andb_prop in Hfinal as [_ Hl]. rewrite forallb_forall in Hl. exact (Hl _ H). Qed.

  Lemma opens_final g s : In g (x_regions x) -> open_end s -> opens g (s ++ [10]) = opens g s.
  Proof.
    intros Hin Hs. pose proof (final_in _ Hin) as Hl. pose proof (region_tidy x Htidy g Hin) as Ht.
    assert (Hh : has (g_open g ++ g_ahead g) (s ++ [10]) = has (g_open g ++ g_ahead g) s).
    { apply has_final; auto. unfold final_region in Hl. dand. auto. }
    unfold opens. rewrite Hh. destruct (has (g_open g ++ g_ahead g) s) eqn:E; [|reflexivity].
    apply has_app in E. pose proof (has_len _ _ E) as Hlen. cbn [andb]. destruct (g_must g) eqn:Em; [|reflexivity]. cbn [negb orb]. cbv zeta.
    rewrite skip_more by auto. set (r := skipn (length (g_open g)) s) in *.
    rewrite closed_final by (auto; apply open_skip; auto). pose proof (sane_region x Hsane g Hin) as Hne.
    destruct (closed (length r) g 0 r) eqn:Ec.
    - eapply closed_more; [|exact Ec]. rewrite app_length. lia.
    - destruct (closed (length (r ++ [10])) g 0 r) eqn:Ec'; [|reflexivity].
      rewrite (Cl_length g 0 r Hne) in Ec; [discriminate|]. eexists. exact Ec'.
  Qed.

  Lemma barred_lf h p : In p (barred x h) -> no_lf p = true.
  Proof.
    pose proof Hfinal as Hlo. unfold final_ok in Hlo. dand. rewrite forallb_forall in *. intros Hy. apply H.
    unfold barred in Hy. apply in_app_iff in Hy as [Hy|Hy]; apply in_app_iff; auto. destruct (n_start h); [auto|destruct Hy].
  Qed.
  Lemma word_lf w : In w (x_words x) -> no_lf (fst (fst w)) = true.
  Proof. pose proof Hfinal as Hlo. unfold final_ok in Hlo. dand. rewrite forallb_forall in *. auto. Qed.

  Lemma outside_final h s : open_end s -> outside x h (s ++ [10]) = outside x h s.
  Proof.
    intros Hs. destruct (open_cons _ Hs) as (c & r & ->).
    unfold outside. cbn [app]. change (c :: r ++ [10]) with ((c :: r) ++ [10]).
    rewrite (existsb_ext (fun p => has p ((c :: r) ++ [10])) (fun p => has p (c :: r))) by (intros; apply has_final; eapply barred_lf; eauto).
    rewrite (find_ext (fun p => has (fst (fst p)) ((c :: r) ++ [10])) (fun p => has (fst (fst p)) (c :: r))) by (intros; apply has_final, word_lf; auto).
    rewrite (find_ext (fun g => suits h g && opens g ((c :: r) ++ [10])) (fun g => suits h g && opens g (c :: r)))
      by (intros; rewrite opens_final; auto).
    rewrite line_end_final by auto. reflexivity.
  Qed.
  Lemma outside_lf h : outside x h [10] = Some (Ends 1 Blank false Out).
  Proof.
    unfold outside. rewrite existsb_none by (intros; apply has_lf; eapply barred_lf; eauto).
    rewrite find_none by (intros; apply has_lf, word_lf; auto). rewrite find_none; [reflexivity|]. intros g Hg.
    pose proof (final_in _ Hg) as Hl. unfold opens. unfold final_region in Hl. dand. rewrite has_lf by auto. apply andb_false_r.
  Qed.

  Lemma piece_final w h s : known_place x w -> open_end s -> piece_of x w h (s ++ [10]) = piece_of x w h s.
  Proof.
    destruct w as [|g n]; cbn [known_place piece_of]; intros Hw Hs; [apply outside_final; auto|].
    apply body_final; auto. apply final_in. auto.
  Qed.

  Lemma with_before T e l : e_end e <> T -> with_final lang T (e :: l) = e :: with_final lang T l.
  Proof.
    intros H. apply Z.eqb_neq in H. unfold with_final. cbn [existsb map]. rewrite H. cbn [orb]. destruct (existsb _ l); reflexivity.
  Qed.

  Lemma account_final f : forall w L p h s l, account f x lang w L p h s = Some l -> known_place x w ->
    s = [] \/ open_end s -> Acc x lang w L p h (s ++ [10]) (with_final lang (p + zlen s) l).
  Proof.
    induction f as [|f IH]; intros w L p h s l H Hw Hs; [discriminate|]. destruct Hs as [-> |Hs].
    - assert (HN : Acc x lang w L p h [] l) by (eexists; exact H). apply Acc_nil in HN as [He ->]. cbn [app length]. rewrite Z.add_0_r.
      assert (Hp : piece_of x w h [10] = Some (Ends 1 Blank false Out)).
      { destruct w as [|g n]; cbn [piece_of]; [apply outside_lf|]. rewrite body_lf by (apply final_in; auto).
        destruct g as [? ? ? ? ? ? [] ? ? ? ? ? ?]; cbn in *; try discriminate; reflexivity. }
      assert (HE : Acc x lang Out (p + Z.of_nat 1) (p + Z.of_nat 1) (fresh (LexSpec.starts 1 [10])) (skipn 1 [10]) []) by (exists 1%nat; reflexivity).
      pose proof (Acc_e x lang w L p h [10] [] 1 Blank false Out Hp HE) as HA.
      unfold with_final. unfold kind_now in *. cbn [mark n_code n_comment] in HA.
      destruct (n_code h), (n_comment h); cbn [existsb e_end map e_lang e_entity e_start orb app]; rewrite ?Z.eqb_refl; exact HA.
    - cbn [account] in H. destruct (open_cons _ Hs) as (c & r & E). rewrite E in H. rewrite <- E in H. clear c r E.
      destruct (piece_of x w h s) as [pc|] eqn:Ep; [|discriminate].
      pose proof (piece_lines_ok x Htidy _ _ _ _ Hw Ep) as HL.
      pose proof (piece_pos x Hsane Htidy _ _ _ _ Hw Ep) as Hpos.
      pose proof (piece_place x _ _ _ _ Hw Ep) as Hw'. rewrite <- (piece_final _ _ _ Hw Hs) in Ep.
      destruct pc as [n k w'|n k i w'].
      + destruct HL as [Hn _]. eapply Acc_b; [exact Ep|]. rewrite skip_more by auto.
        assert (Hst : LexSpec.starts n (s ++ [10]) = LexSpec.starts n s) by (unfold LexSpec.starts; rewrite app_nth1 by lia; reflexivity).
        rewrite Hst. replace (p + zlen s) with (p + Z.of_nat n + zlen (skipn n s)) by (rewrite skipn_length; lia).
        apply IH; auto. apply open_skip; auto.
      + pose proof (ends_left _ _ _ _ _ Hs HL) as Hne. destruct HL as [Hn _].
        destruct (account f x lang w' _ _ _ _) as [l0|] eqn:Ea; [|discriminate]. injection H as <-.
        assert (Hlt : (n < length s)%nat).
        { destruct (Nat.eq_dec n (length s)) as [-> |]; [|lia]. exfalso. apply Hne. apply skipn_all. }
        rewrite with_before by (cbn [e_end]; lia).
        apply (Acc_e x lang w L p h (s ++ [10]) (with_final lang (p + zlen s) l0) n k i w'); [exact Ep|]. rewrite skip_more by lia.
        assert (Hst : LexSpec.starts n (s ++ [10]) = LexSpec.starts n s) by (unfold LexSpec.starts; rewrite app_nth1 by lia; reflexivity).
        rewrite Hst. replace (p + zlen s) with (p + Z.of_nat n + zlen (skipn n s)) by (rewrite skipn_length; lia).
        apply IH; auto. apply open_skip; auto.
  Qed.
End Final.
