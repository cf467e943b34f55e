(** Counting a text after another. *)
From Coq Require Import ZArith String List Bool Lia.
From Verif Require Import Base ParsedModel RagelSyntax RagelBuild RagelRun ParserTable.
From Verif Require Import LineSpec LexSpec LexCheck LexFacts LexBytes LexLines LexHeads.
Import ListNotations.
Open Scope string_scope.
Open Scope Z_scope.
Open Scope list_scope.

Local Notation zlen l := (Z.of_nat (length l)).

(** ** Statements *)

(** A pattern that does not go on after a line feed. *)
Definition one_line (p : list (list Z)) : bool := forallb (fun s => negb (among 10 s)) (removelast p).
Definition lone (x : lexis) : bool :=
  forallb one_line (x_never x ++ x_head x) && forallb (fun w => one_line (fst (fst w))) (x_words x)
  && forallb (fun g => one_line (g_open g ++ g_ahead g) && one_line (g_open g) && forallb one_line (g_close g)
                       && forallb one_line (g_never g)) (x_regions x).

(** A comment or string that ends with its line or is none if it does not. *)
Definition flat_region (g : region) : bool :=
  match g_nl g with Inner => false | _ => true end && match g_escnl g with None => true | _ => false end.

(** Where [s] stands outside: no comment or string is passed over because it is not
    closed, unless it would have to be closed on its line. *)
Definition sure (x : lexis) (s : list Z) : bool :=
  forallb (fun g => flat_region g || negb (has (g_open g ++ g_ahead g) s) || opens g s) (x_regions x).
(** The text ends outside of comments and strings and none has been passed over. *)
Fixpoint settled (fuel : nat) (x : lexis) (w : place) (h : now) (s : list Z) : bool :=
  match fuel with
  | O => false
  | S fuel =>
    match s with
    | [] => match w with Out => true | Inside _ _ => false end
    | _ =>
      match w with Out => sure x s | Inside _ _ => true end
      && match piece_of x w h s with
         | None => false
         | Some (Bytes n k w') => settled fuel x w' (mark k (LexSpec.starts n s) h) (skipn n s)
         | Some (Ends n _ _ w') => settled fuel x w' (fresh (LexSpec.starts n s)) (skipn n s)
         end
    end
  end.
Definition settled_text (x : lexis) (s : list Z) : bool := settled (S (length s)) x Out (fresh true) s.

Definition ended (s : list Z) : Prop := exists k, s = k ++ [10].

(** ** Proofs *)
Lemma ended_skip n s : ended s -> skipn n s <> [] -> ended (skipn n s).
Proof.
  intros (k & ->) H. destruct (Nat.leb_spec n (length k)).
  - exists (skipn n k). rewrite skipn_app. replace (n - length k)%nat with O by lia. reflexivity.
  - exfalso. apply H. apply skipn_all2. rewrite app_length. cbn. lia.
Qed.
Lemma ended_tail c s : ended (c :: s) -> s = [] /\ c = 10 \/ ended s.
Proof.
  intros (k & E). destruct k as [|y k]; cbn in E; injection E as -> ->; [left; auto|right; exists k; reflexivity].
Qed.
Lemma ended_cons s : ended s -> exists c r, s = c :: r.
Proof. intros (k & ->). destruct k; cbn; eauto. Qed.
Lemma skip_more {A} n (s b : list A) : (n <= length s)%nat -> skipn n (s ++ b) = skipn n s ++ b.
Proof. intros H. rewrite skipn_app. replace (n - length s)%nat with O by lia. reflexivity. Qed.

Lemma ended_stops s pos : ended s -> line_stops pos s <> [].
Proof.
  intros (k & ->). revert pos. induction k as [|c k IH]; intros pos; cbn [app].
  - cbn. discriminate.
  - rewrite stops_cons. specialize (IH (pos + 1)). intros H. apply app_eq_nil in H as [_ H]. contradiction.
Qed.

Section Concat.
  Variable b : list Z.

  Lemma has_more p : one_line p = true -> forall s, ended s -> has p (s ++ b) = has p s.
  Proof.
    induction p as [|u p IH]; intros Hp s Hs; [destruct s; reflexivity|].
    destruct (ended_cons _ Hs) as (c & r & ->). cbn [app has].
    destruct (ended_tail _ _ Hs) as [[-> ->]|Hr].
    - destruct p as [|v p]; [reflexivity|]. unfold one_line in Hp. cbn [removelast forallb] in Hp.
      apply andb_prop in Hp as [Hp _]. apply negb_true_iff in Hp. rewrite Hp. reflexivity.
    - rewrite IH; auto. unfold one_line in *. destruct p as [|v p]; [reflexivity|].
      cbn [removelast forallb] in Hp. apply andb_prop in Hp as [_ Hp]. exact Hp.
  Qed.
  Lemma find_ext {A} (f g : A -> bool) l : (forall y, In y l -> f y = g y) -> find f l = find g l.
  Proof. induction l as [|y l IH]; cbn; auto. intros H. rewrite (H y), IH by auto. reflexivity. Qed.
  Lemma existsb_ext {A} (f g : A -> bool) l : (forall y, In y l -> f y = g y) -> existsb f l = existsb g l.
  Proof. induction l as [|y l IH]; cbn; auto. intros H. rewrite (H y), IH by auto. reflexivity. Qed.
  Lemma line_end_more s : ended s -> line_end (s ++ b) = line_end s.
  Proof.
    intros Hs. destruct (ended_cons _ Hs) as (c & r & ->). destruct (ended_tail _ _ Hs) as [[-> ->]|Hr]; [reflexivity|].
    destruct (ended_cons _ Hr) as (d & r' & ->). reflexivity.
  Qed.

  Definition lone_region (g : region) : bool :=
    one_line (g_open g ++ g_ahead g) && one_line (g_open g) && forallb one_line (g_close g) && forallb one_line (g_never g).

  Lemma body_more g n s : lone_region g = true -> ended s -> body g n (s ++ b) = body g n s.
  Proof.
    intros Hg Hs. unfold lone_region in Hg. dand.
    repeat match goal with H : forallb _ _ = true |- _ => rewrite forallb_forall in H end.
    destruct (ended_cons _ Hs) as (c & r & ->). unfold body. cbn [app]. change (c :: r ++ b) with ((c :: r) ++ b).
    rewrite (find_ext (fun p => has p ((c :: r) ++ b)) (fun p => has p (c :: r))) by (intros; apply has_more; auto).
    rewrite (existsb_ext (fun p => has p ((c :: r) ++ b)) (fun p => has p (c :: r))) by (intros; apply has_more; auto).
    rewrite has_more by auto. rewrite (line_end_more (c :: r)) by auto.
    destruct (ended_tail _ _ Hs) as [[-> ->]|Hr].
    - destruct (find _ _), n; reflexivity.
    - rewrite line_end_more by auto. destruct (ended_cons _ Hr) as (d & r' & ->). reflexivity.
  Qed.

  Lemma flat_ends g n s k kd i w : flat_region g = true -> body g n s = Some (Ends k kd i w) -> w = Out.
  Proof.
    unfold flat_region. intros H. apply andb_prop in H as [H1 H2]. unfold body.
    destruct s as [|c r]; [discriminate|]. destruct (g_escnl g); [discriminate|]. destruct (g_nl g); try discriminate.
    - destruct (find _ _), n; try discriminate; destruct (existsb _ _); try discriminate; destruct (_ && has _ _); try discriminate;
        destruct (c =? 92); destruct (line_end r), (line_end (c :: r)); try (intros [= <- <- <- <-]; reflexivity);
        destruct (c =? 13); try discriminate; destruct (g_esc g); cbn [andb]; try discriminate;
        destruct r as [|d r]; try discriminate; destruct (newline_byte d); discriminate.
    - destruct (find _ _), n; try discriminate; destruct (existsb _ _); try discriminate; destruct (_ && has _ _); try discriminate;
        destruct (c =? 92); destruct (line_end r), (line_end (c :: r)); try discriminate;
        destruct (c =? 13); try discriminate; destruct (g_esc g); cbn [andb]; try discriminate;
        destruct r as [|d r]; try discriminate; destruct (newline_byte d); discriminate.
  Qed.

  Lemma bytes_left s n k w : ended s -> piece_lines s (Bytes n k w) -> skipn n s <> [].
  Proof. intros Hs [_ H] E. specialize (H 0). rewrite E in H. cbn in H. exact (ended_stops _ _ Hs H). Qed.

  Lemma closed_app g : lone_region g = true -> flat_region g = true -> tidy_region g ->
    forall f n s, ended s -> closed f g n (s ++ b) = closed f g n s.
  Proof.
    intros Hl Hf Ht. induction f as [|f IH]; intros n s Hs; [reflexivity|]. cbn [closed]. rewrite body_more by auto.
    destruct (body g n s) as [[k kd w|k kd i w]|] eqn:Eb; [| |reflexivity].
    - destruct w as [|g' n']; [reflexivity|]. pose proof (body_lines _ _ _ _ Ht Eb) as HP.
      pose proof (bytes_left _ _ _ _ Hs HP) as Hne. destruct HP as [Hk _]. rewrite skip_more by auto.
      apply IH. apply ended_skip; auto.
    - rewrite (flat_ends _ _ _ _ _ _ _ Hf Eb). reflexivity.
  Qed.

  Lemma closed_on g : lone_region g = true -> tidy_region g ->
    forall f n s, ended s -> closed f g n s = true -> closed f g n (s ++ b) = true.
  Proof.
    intros Hl Ht. induction f as [|f IH]; intros n s Hs H; [discriminate|]. cbn [closed] in *. rewrite body_more by auto.
    destruct (body g n s) as [[k kd w|k kd i w]|] eqn:Eb; [| |discriminate]; (destruct w as [|g' n']; [reflexivity|]);
      pose proof (body_lines _ _ _ _ Ht Eb) as HP.
    - pose proof (bytes_left _ _ _ _ Hs HP) as Hne. destruct HP as [Hk _]. rewrite skip_more by auto.
      apply IH; auto. apply ended_skip; auto.
    - destruct HP as [Hk _]. rewrite skip_more by lia. apply IH; auto. apply ended_skip; auto. intros E. rewrite E in H.
      destruct f; discriminate.
  Qed.

  Variable x : lexis.
  Variable lang : string.
  Hypothesis Hsane : sane x = true.
  Hypothesis Htidy : tidy x = true.
  Hypothesis Hlone : lone x = true.

  Lemma lone_in g : In g (x_regions x) -> lone_region g = true.
  Proof. intros H. unfold lone in Hlone. apply andb_prop in Hlone as [_ Hl]. rewrite forallb_forall in Hl. exact (Hl _ H). Qed.

  Lemma opens_more g s : In g (x_regions x) ->
    flat_region g || negb (has (g_open g ++ g_ahead g) s) || opens g s = true -> ended s ->
    opens g (s ++ b) = opens g s.
  Proof.
    intros Hin Hf Hs. pose proof (lone_in _ Hin) as Hl. pose proof (region_tidy x Htidy g Hin) as Ht.
    assert (Hh : has (g_open g ++ g_ahead g) (s ++ b) = has (g_open g ++ g_ahead g) s).
    { apply has_more; auto. unfold lone_region in Hl. dand. auto. }
    unfold opens in *. rewrite Hh. destruct (has (g_open g ++ g_ahead g) s) eqn:E; [|reflexivity]. cbn [negb] in Hf. rewrite orb_false_r in Hf.
    apply has_app in E. pose proof (sane_region x Hsane g Hin) as Hne.
    pose proof (has_len _ _ E) as Hlen. cbn [andb] in *. destruct (g_must g); [|reflexivity]. cbn [negb orb] in *. cbv zeta in *.
    rewrite skip_more by auto. set (r := skipn (length (g_open g)) s) in *.
    assert (Hr : ended r).
    { pose proof (bytes_left s (length (g_open g)) Code Out Hs) as HB. apply ended_skip; auto. apply HB. apply plain_piece; auto.
      apply has_plain; auto. destruct Ht as [Ht _]. exact Ht. }
    destruct (closed (length r) g 0 r) eqn:Ec.
    - apply closed_on; auto. eapply closed_more; [|exact Ec]. rewrite app_length. lia.
    - rewrite orb_false_r in Hf. rewrite closed_app by auto.
      destruct (closed (length (r ++ b)) g 0 r) eqn:Ec'; [|reflexivity].
      rewrite (Cl_length g 0 r Hne) in Ec; [discriminate|]. eexists. exact Ec'.
  Qed.

  Lemma outside_more h s : sure x s = true -> ended s -> outside x h (s ++ b) = outside x h s.
  Proof.
    intros Hf Hs. pose proof Hlone as Hlo. unfold lone in Hlo. dand. repeat match goal with H : forallb _ _ = true |- _ => rewrite forallb_forall in H end.
    destruct (ended_cons _ Hs) as (c & r & ->). unfold sure in Hf. rewrite forallb_forall in Hf.
    unfold outside. cbn [app]. change (c :: r ++ b) with ((c :: r) ++ b).
    rewrite (existsb_ext (fun p => has p ((c :: r) ++ b)) (fun p => has p (c :: r))).
    2:{ intros y Hy. apply has_more; auto. apply H. unfold barred in Hy. apply in_app_iff in Hy as [Hy|Hy]; apply in_app_iff; auto.
        destruct (n_start h); [auto|destruct Hy]. }
    rewrite (find_ext (fun p => has (fst (fst p)) ((c :: r) ++ b)) (fun p => has (fst (fst p)) (c :: r))) by (intros; apply has_more; auto).
    rewrite (find_ext (fun g => suits h g && opens g ((c :: r) ++ b)) (fun g => suits h g && opens g (c :: r)))
      by (intros; rewrite opens_more; auto).
    rewrite line_end_more by auto. reflexivity.
  Qed.

  Lemma piece_more w h s : known_place x w -> match w with Out => sure x s | Inside _ _ => true end = true -> ended s ->
    piece_of x w h (s ++ b) = piece_of x w h s.
  Proof.
    destruct w as [|g n]; cbn [known_place piece_of]; intros Hw Hf Hs; [apply outside_more; auto|].
    apply body_more; auto. apply lone_in. apply Hw.
  Qed.

  Lemma concat_ok lb f : forall w L p h s l, account f x lang w L p h s = Some l -> known_place x w ->
    settled f x w h s = true ->
    (ended s \/ s = [] /\ h = fresh true /\ L = p) ->
    Acc x lang Out (p + zlen s) (p + zlen s) (fresh true) b lb ->
    Acc x lang w L p h (s ++ b) (l ++ lb).
  Proof.
    induction f as [|f IH]; intros w L p h s l H Hw Hf Hs Hb; [discriminate|]. cbn [account settled] in H, Hf.
    destruct Hs as [Hs|(-> & -> & ->)].
    2:{ destruct w; [|discriminate]. cbn in H. injection H as <-. cbn [length app] in *. rewrite Z.add_0_r in Hb. exact Hb. }
    destruct (ended_cons _ Hs) as (c & r & E). rewrite E in H, Hf. rewrite <- E in H, Hf.
    apply andb_prop in Hf as [Hsu Hf].
    destruct (piece_of x w h s) as [pc|] eqn:Ep; [|discriminate].
    pose proof (piece_lines_ok x Htidy _ _ _ _ Hw Ep) as HL.
    pose proof (piece_pos x Hsane Htidy _ _ _ _ Hw Ep) as Hpos.
    pose proof (piece_place x _ _ _ _ Hw Ep) as Hw'. rewrite <- (piece_more _ _ _ Hw Hsu Hs) in Ep.
    destruct pc as [n k w'|n k i w'].
    - pose proof (bytes_left _ _ _ _ Hs HL) as Hne. destruct HL as [Hn _].
      eapply Acc_b; [exact Ep|]. rewrite skip_more by auto.
      assert (Hst : LexSpec.starts n (s ++ b) = LexSpec.starts n s) by (unfold LexSpec.starts; rewrite app_nth1 by lia; reflexivity).
      rewrite Hst. eapply IH; [exact H|exact Hw'|exact Hf|left; apply ended_skip; auto|].
      rewrite skipn_length. replace (p + Z.of_nat n + Z.of_nat (length s - n)) with (p + zlen s) by lia. exact Hb.
    - destruct HL as [Hn _].
      destruct (account f x lang w' _ _ _ _) as [l0|] eqn:Ea; [|discriminate]. injection H as <-. cbn [app].
      apply (Acc_e x lang w L p h (s ++ b) (l0 ++ lb) n k i w'); [exact Ep|]. rewrite skip_more by lia.
      assert (Hst : LexSpec.starts n (s ++ b) = LexSpec.starts n s) by (unfold LexSpec.starts; rewrite app_nth1 by lia; reflexivity).
      rewrite Hst. eapply IH; [exact Ea|exact Hw'|exact Hf| |].
      + destruct (skipn n s) as [|y ys] eqn:Esk; [right|left; rewrite <- Esk; apply ended_skip; auto; congruence].
        split; auto. split; auto. f_equal.
        assert (n = length s) as -> by (apply (f_equal (@length Z)) in Esk; rewrite skipn_length in Esk; cbn in Esk; lia).
        destruct Hs as (kk & ->). unfold LexSpec.starts. rewrite app_length, app_nth2 by (cbn [length]; lia). cbn [length].
        replace (length kk + 1 - 1 - length kk)%nat with O by lia. reflexivity.
      + rewrite skipn_length. replace (p + Z.of_nat n + Z.of_nat (length s - n)) with (p + zlen s) by lia. exact Hb.
  Qed.
End Concat.
