(** Recording all reports gives the same as recording those that fit. *)
From Coq Require Import ZArith String List Bool Lia.
From Verif Require Import Base LocModel LocSpec LocProofs ParsedModel ParsedSpec ParsedProofs FileDiffSpec RecordSpec.
Import ListNotations.
Open Scope string_scope.
Open Scope Z_scope.
Open Scope list_scope.

Lemma with_lang_same size g f l : In g (map p_name l) -> NoDup (map p_name l) ->
  (forall pl, In pl l -> p_name pl = g -> f pl = Ok pl) -> with_lang size g f l = Ok l.
Proof.
  induction l as [|x l IH]; intros Hin Hnd Hf; [destruct Hin|]. cbn [with_lang].
  destruct (String.eqb_spec (p_name x) g) as [E|E].
  - rewrite Hf by (cbn; auto). reflexivity.
  - inversion Hnd; subst. rewrite IH; auto.
    + destruct Hin; [congruence|auto].
    + intros pl H'. apply Hf. cbn. auto.
Qed.

Lemma fits_nil text : fits text [].
Proof. split; intros g; cbn; lia. Qed.

Lemma fits_snoc text done e : good_event text e -> fits text done -> has_room text done e = true -> fits text (done ++ [e]).
Proof.
  intros (Hk & _) [F1 F2] H. unfold has_room in H. apply orb_true_iff in H.
  split; intros g; rewrite lines_of_snoc; unfold is_event;
    (destruct (String.eqb_spec (e_lang e) g) as [<-|]; cbn [andb]; [|rewrite app_nil_r; auto]).
  - destruct (String.eqb_spec (e_entity e) "lcode") as [E|]; [|rewrite app_nil_r; auto].
    rewrite E in H. destruct H as [H|H]; [discriminate|]. apply Z.leb_le in H. exact H.
  - destruct (String.eqb_spec (e_entity e) "lcomment") as [E|]; [|rewrite app_nil_r; auto].
    rewrite E in H. destruct H as [H|H]; [discriminate|]. apply Z.leb_le in H. exact H.
Qed.

Lemma strip_length l : (length (strip_blanks l) <= length l)%nat.
Proof. induction l as [|c l IH]; cbn; auto. destruct (blank c); cbn; lia. Qed.
Lemma slice_length text s e : (length (slice text s e) <= length text)%nat.
Proof. unfold slice. rewrite firstn_length, skipn_length. lia. Qed.

(** A report that does not fit has no effect. *)
Lemma callback_full text done l e : good_event text e -> fits text done -> list_inv text done l ->
  has_room text done e = false -> parser_callback text l e = Ok l.
Proof.
  intros (Hk & Hr & Hle & Hnb) [F1 F2] [Hm Hl] Hfull. unfold has_room in Hfull. apply orb_false_iff in Hfull as [Hb Hfull].
  apply Z.leb_gt in Hfull. rewrite volume_app, volume_one in Hfull.
  assert (Hin : In (e_lang e) (map e_lang done)).
  { destruct (lines_of text (e_lang e) (e_entity e) done) as [|x xs] eqn:E.
    - change (volume []) with 0 in Hfull.
      pose proof (strip_length (slice text (e_start e) (e_end e))). pose proof (slice_length text (e_start e) (e_end e)). lia.
    - unfold lines_of in E. destruct (events_of (e_lang e) (e_entity e) done) as [|y ys] eqn:E'; [discriminate|].
      assert (In y (events_of (e_lang e) (e_entity e) done)) as Hy by (rewrite E'; cbn; auto).
      apply filter_In in Hy as [Hy1 Hy2]. apply andb_prop in Hy2 as [Hy2 _]. apply String.eqb_eq in Hy2. rewrite <- Hy2.
      apply in_map. exact Hy1. }
  unfold parser_callback. fold (callback_body text e). apply with_lang_same.
  - rewrite Hm. apply in_first_occ. exact Hin.
  - rewrite Hm. apply nodup_first_occ.
  - intros pl Hpl Hn. destruct (Hl pl Hpl) as (_ & H2 & H3 & H4 & _). rewrite Hn in H3, H4. unfold callback_body.
    rewrite kept_all in H3 by apply F1. rewrite kept_all in H4 by apply F2.
    destruct H3 as (_ & H3 & _). destruct H4 as (_ & H4 & _).
    assert (Hs : e_entity e <> "lblank").
    { intros E. rewrite E in Hb. discriminate. }
    destruct (skip_span text (e_start e) (e_end e)) as (p & Ep & Hp & Hsl); auto.
    assert (Hlen : e_end e - p = Z.of_nat (length (strip_blanks (slice text (e_start e) (e_end e))))).
    { rewrite <- Hsl. unfold slice. rewrite firstn_length, skipn_length. lia. }
    rewrite Ep. cbn [bind]. unfold add_code, add_comment, area_add.
    destruct Hk as [Hk|[Hk|Hk]]; [| |congruence]; rewrite Hk in *; cbn [String.eqb Ascii.eqb Bool.eqb].
    + destruct (Z.ltb_spec (a_cur (p_code pl) + (e_end e - p)) (p_size pl + 5)) as [L|L]; [lia|].
      cbn [bind]. destruct pl; reflexivity.
    + destruct (Z.ltb_spec (a_cur (p_comments pl) + (e_end e - p)) (p_size pl + 5)) as [L|L]; [lia|].
      cbn [bind]. destruct pl; reflexivity.
Qed.

Lemma recorded_same text es : forall done l, Forall (good_event text) es -> fits text done ->
  Z.of_nat (length (done ++ es)) <= int_max -> Z.of_nat (length text) + 5 <= int_max -> list_inv text done l ->
  run_callbacks text l es = run_callbacks text l (recorded_after text done es) /\ fits text (done ++ recorded_after text done es) /\
  Forall (good_event text) (recorded_after text done es) /\ (length (recorded_after text done es) <= length es)%nat.
Proof.
  induction es as [|e es IH]; intros done l Hg Hf Hn Hs Hl; cbn [recorded_after].
  - rewrite app_nil_r. auto.
  - inversion Hg as [|? ? Hge Hgr]; subst. rewrite app_length in Hn. cbn [length] in Hn.
    destruct (has_room text done e) eqn:E.
    + destruct (callback_ok text done e l) as (l1 & E1 & H1); auto; [lia|].
      destruct (IH (done ++ [e]) l1) as (E2 & F2 & G2 & L2); auto.
      { apply fits_snoc; auto. } { rewrite !app_length. cbn [length]. lia. }
      cbn [run_callbacks length]. rewrite E1. cbn [bind]. rewrite <- app_assoc in F2. cbn [app] in F2. repeat split; auto; try apply F2; lia.
    + pose proof (callback_full text done l e Hge Hf Hl E) as E1.
      destruct (IH done l) as (E2 & F2 & G2 & L2); auto. { rewrite app_length. lia. }
      cbn [run_callbacks length]. rewrite E1. cbn [bind]. repeat split; auto; try apply F2; lia.
Qed.

Lemma recorded_good text es : ~ In 0 text -> Forall (good_event text) es -> Z.of_nat (length es) <= int_max ->
  Z.of_nat (length text) + 5 <= int_max ->
  good_revision (mkRev text (recorded text es)) /\ run_callbacks text [] es = run_callbacks text [] (recorded text es).
Proof.
  intros Hz Hg Hn Hs. destruct (recorded_same text es [] [] Hg (fits_nil text) Hn Hs) as (E & F & G & L).
  { split; [reflexivity|intros pl []]. }
  split; [|exact E]. cbn [app] in F. unfold recorded. repeat split; cbn [r_text r_events]; auto; try lia; apply F.
Qed.

(** If all lines fit, all are recorded. *)
Lemma recorded_all text es : forall done, fits text (done ++ es) -> Forall (good_event text) es -> recorded_after text done es = es.
Proof.
  induction es as [|e es IH]; intros done [F1 F2] Hg; [reflexivity|]. cbn [recorded_after]. inversion Hg as [|? ? Hge Hgr]; subst.
  replace (done ++ e :: es) with ((done ++ [e]) ++ es) in F1, F2 by (rewrite <- app_assoc; reflexivity).
  assert (has_room text done e = true) as ->.
  { unfold has_room. destruct (String.eqb_spec (e_entity e) "lblank") as [|Hb]; [reflexivity|]. cbn [orb]. apply Z.leb_le.
    assert (M : forall k, volume (lines_of text (e_lang e) k ((done ++ [e]) ++ es)) <= Z.of_nat (length text) + 4 -> e_entity e = k ->
      volume (lines_of text (e_lang e) (e_entity e) done ++ [strip_blanks (slice text (e_start e) (e_end e))]) <= Z.of_nat (length text) + 4).
    { intros k H <-. unfold lines_of at 1 in H. unfold events_of in H. rewrite filter_app, map_app in H.
      fold (events_of (e_lang e) (e_entity e) (done ++ [e])) in H. fold (lines_of text (e_lang e) (e_entity e) (done ++ [e])) in H.
      rewrite volume_app, lines_of_snoc in H. unfold is_event in H. rewrite !String.eqb_refl in H. cbn [andb] in H.
      etransitivity; [|exact H]. match goal with |- ?a <= ?a + volume ?x => pose proof (volume_nonneg x) end. lia. }
    destruct Hge as [[K|[K|K]] _]; [eapply (M "lcode"); eauto|eapply (M "lcomment"); eauto|congruence]. }
  f_equal. apply IH; auto. split; auto.
Qed.
