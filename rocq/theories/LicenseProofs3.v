(** Licence names in comments. *)
From Coq Require Import ZArith String Ascii List Bool Lia.
From Verif Require Import Base Arr ParsedModel DetectorSpec RegexModel RegexSpec RegexProofs LicenseTable LicenseModel
  LicenseSpec LicenseProofs LicenseProofs2.
Import ListNotations.
Open Scope Z_scope.
Open Scope list_scope.

(** ** One line, character by character *)
Inductive st := Lead | Body | Ended.

Definition step (s : st) (c : Z) : st * list Z :=
  match s with
  | Lead => if is_nl c then (Ended, [32]) else if is_margin c then (Lead, []) else (Body, [c])
  | Body => if is_nl c then (Ended, [32]) else (Body, [c])
  | Ended => if is_nl c then (Ended, []) else if is_margin c then (Lead, []) else (Body, [c])
  end.

Fixpoint feed (s : st) (t : list Z) : st * list Z :=
  match t with
  | [] => (s, [])
  | c :: r => let '(s1, o1) := step s c in let '(s2, o2) := feed s1 r in (s2, o1 ++ o2)
  end.

Definition finish (s : st) : list Z := match s with Ended => [] | _ => [32] end.

Definition run (s : st) (t : list Z) : list Z := let '(s', o) := feed s t in o ++ finish s'.

Lemma feed_app a : forall s b, feed s (a ++ b) = (fst (feed (fst (feed s a)) b), snd (feed s a) ++ snd (feed (fst (feed s a)) b)).
Proof.
  induction a as [|c a IH]; intros s b; cbn [app feed].
  - cbn. destruct (feed s b); reflexivity.
  - destruct (step s c) as [s1 o1]. rewrite IH. destruct (feed s1 a) as [s2 o2]. cbn. rewrite app_assoc. reflexivity.
Qed.

Lemma run_app s a b : run s (a ++ b) = snd (feed s a) ++ run (fst (feed s a)) b.
Proof.
  unfold run. rewrite feed_app. destruct (feed (fst (feed s a)) b) as [s2 o2]. cbn [fst snd]. rewrite <- app_assoc. reflexivity.
Qed.

Lemma run_cons s c r : run s (c :: r) = snd (step s c) ++ run (fst (step s c)) r.
Proof.
  unfold run. cbn [feed]. destruct (step s c) as [s1 o1]. cbn [fst snd].
  destruct (feed s1 r) as [s2 o2]. rewrite <- app_assoc. reflexivity.
Qed.

Lemma feed_margin w : Forall (fun c => is_margin c = true) w -> Forall (fun c => is_nl c = false) w ->
  feed Lead w = (Lead, []).
Proof.
  induction w as [|c w IH]; intros M N; cbn [feed]; [reflexivity|].
  apply Forall_cons_iff in M as [MC M]. apply Forall_cons_iff in N as [NC N].
  unfold step. rewrite NC, MC, IH by auto. reflexivity.
Qed.

Lemma feed_body l : Forall (fun c => is_nl c = false) l -> feed Body l = (Body, l).
Proof.
  induction l as [|c l IH]; intros N; cbn [feed]; [reflexivity|].
  apply Forall_cons_iff in N as [NC N]. unfold step. rewrite NC, IH by auto. reflexivity.
Qed.

Lemma margin_not_nl c : is_margin c = true -> is_nl c = false.
Proof.
  intros M. destruct (is_nl c) eqn:E; [|reflexivity]. unfold is_nl in E. apply orb_true_iff in E.
  rewrite !Z.eqb_eq in E. destruct E as [-> | ->]; discriminate.
Qed.

Lemma margins_not_nl w : Forall (fun c => is_margin c = true) w -> Forall (fun c => is_nl c = false) w.
Proof. intros F. eapply Forall_impl; [|exact F]. intros ?. apply margin_not_nl. Qed.

(** A line that does not start in the middle. *)
Lemma feed_line w l : Forall (fun c => is_margin c = true) w -> Forall (fun c => is_nl c = false) l ->
  (forall c r, l = c :: r -> is_margin c = false) ->
  snd (feed Lead (w ++ l)) = l /\ fst (feed Lead (w ++ l)) <> Ended.
Proof.
  intros M N H. rewrite feed_app, feed_margin by auto using margins_not_nl. cbn [fst snd app].
  destruct l as [|c l]; [split; [reflexivity|discriminate]|].
  specialize (H _ _ eq_refl). apply Forall_cons_iff in N as [NC N]. cbn [feed step]. rewrite NC, H.
  rewrite feed_body by auto. cbn. split; [reflexivity|discriminate].
Qed.

Lemma feed_newlines nl : Forall (fun c => is_nl c = true) nl -> feed Ended nl = (Ended, []).
Proof.
  induction nl as [|c l IH]; intros N; cbn [feed]; [reflexivity|].
  apply Forall_cons_iff in N as [NC N]. unfold step. rewrite NC, IH by auto. reflexivity.
Qed.

Lemma run_lead_ended r : (forall c r', r = c :: r' -> is_nl c = false) -> r <> [] -> run Ended r = run Lead r.
Proof.
  intros N H. destruct r as [|c r]; [congruence|]. rewrite !run_cons. cbn [step]. rewrite (N _ _ eq_refl). reflexivity.
Qed.

Definition norm (t : list Z) : list Z := match t with [] => [] | _ => run Lead t end.

Lemma norm_one_line : forall k t, (length t <= k)%nat -> one_line t (norm t).
Proof.
  induction k as [|k IH]; intros t L.
  { destruct t; [|cbn in L; lia]. exists []. split; [constructor|reflexivity]. }
  assert (D : t = [] \/ exists x0 r0, t = x0 :: r0) by (destruct t; eauto).
  destruct D as [-> |(x0 & r0 & T)]; [exists []; split; [constructor|reflexivity]|].
  destruct (span is_margin t) as (w & r1 & E1 & FW & NW).
  destruct (span (fun c => negb (is_nl c)) r1) as (l & r2 & E2 & FL & NL).
  destruct (span is_nl r2) as (nl & r3 & E3 & FN & NN).
  assert (FL' : Forall (fun c => is_nl c = false) l)
    by (eapply Forall_impl; [|exact FL]; intros ? HH; apply negb_true_iff; exact HH).
  assert (NL' : forall c r', r2 = c :: r' -> is_nl c = true)
    by (intros ? ? HH; apply negb_false_iff; eapply NL; exact HH).
  assert (WM : without_margin (w ++ l) l).
  { exists w. repeat split; auto.
    - eapply Forall_impl; [|exact FW]. intros ?. apply is_margin_iff.
    - intros z r' -> M. apply is_margin_iff in M. rewrite (NW z (r' ++ r2)) in M by (rewrite E2; reflexivity). discriminate. }
  assert (HL : forall c r, l = c :: r -> is_margin c = false) by (intros c r ->; apply (NW c (r ++ r2)); rewrite E2; reflexivity).
  destruct (feed_line w l FW FL' HL) as [O1 S1].
  assert (WL : Forall (fun c => is_nl c = false) (w ++ l)) by (apply Forall_app; split; auto using margins_not_nl).
  assert (NT : norm t = run Lead t) by (rewrite T; reflexivity). rewrite NT.
  replace t with ((w ++ l) ++ nl ++ r3) in * by (rewrite E1, E2, E3, <- !app_assoc; reflexivity).
  rewrite run_app, O1. destruct nl as [|y nl].
  - destruct r3 as [|y r3].
    2: { cbn in E3. subst r2. pose proof (NL' _ _ eq_refl). pose proof (NN _ _ eq_refl). congruence. }
    cbn [app] in *. rewrite !app_nil_r in *. exists [l]. split.
    + rewrite (kept_lines_eq (w ++ l) (w ++ l) []); [|rewrite T; discriminate|apply lines_one; auto].
      constructor; [exact WM|constructor].
    + cbn. rewrite app_nil_r. f_equal. unfold run. cbn. destruct (fst (feed Lead (w ++ l))); [reflexivity..|congruence].
  - apply Forall_cons_iff in FN as [NY FN].
    assert (ST : step (fst (feed Lead (w ++ l))) y = (Ended, [32])).
    { destruct (fst (feed Lead (w ++ l))); cbn [step]; rewrite NY; [reflexivity..|congruence]. }
    cbn [app]. rewrite run_cons, ST. cbn [fst snd]. rewrite run_app, feed_newlines by auto. cbn [fst snd app].
    assert (R3 : run Ended r3 = norm r3).
    { destruct r3 as [|z r3]; [reflexivity|]. rewrite run_lead_ended; [reflexivity|auto|discriminate]. }
    rewrite R3. destruct (IH r3) as (ps & F2 & E).
    { rewrite !app_length in L. cbn in L. lia. }
    exists (l :: ps). split.
    + rewrite (kept_lines_eq _ (w ++ l) (lines (nl ++ r3))).
      * rewrite lines_newlines by auto. constructor; auto.
      * destruct (w ++ l); discriminate.
      * cbn [app]. apply lines_cut; auto.
    + cbn. rewrite <- E. rewrite <- app_assoc. reflexivity.
Qed.

Lemma norm_fun t n : one_line t n -> n = norm t.
Proof. intros H. eapply one_line_fun; [exact H|]. apply (norm_one_line (length t)). lia. Qed.

(** ** Names *)
(** Begins with a letter or digit and has no line end. *)
Definition wordy (w : string) : Prop := (exists c r, bytes w = c :: r /\ Alnum c) /\ Forall (fun c => is_nl c = false) (bytes w).

Lemma same_alnum a b : same_letter a b -> Alnum a -> Alnum b.
Proof. unfold same_letter, Alnum, Digit, Upper, Lower. lia. Qed.

Lemma same_nl a b : same_letter a b -> is_nl a = is_nl b.
Proof.
  intros H. apply eq_true_iff_eq. rewrite !is_nl_iff. unfold same_letter, Newline, Upper, Lower in *. lia.
Qed.

Lemma alnum_plain c : Alnum c -> is_margin c = false /\ is_nl c = false.
Proof.
  intros H. split.
  - destruct (is_margin c) eqn:E; [|reflexivity]. apply is_margin_iff in E.
    unfold Margin, Blank, Punct in E. unfold Alnum, Digit, Lower, Upper in *. lia.
  - destruct (is_nl c) eqn:E; [|reflexivity]. apply is_nl_iff in E. unfold Newline, Alnum, Digit, Lower, Upper in *. lia.
Qed.

(** A word is copied as it is, wherever it stands. *)
Lemma feed_word s w x : wordy w -> same_text (bytes w) x -> feed s x = (Body, x).
Proof.
  intros [(c & r & E & A) N] F. rewrite E in *. inversion F as [|? c' ? x' H F' EC EX]; subst.
  destruct (alnum_plain c') as [M L]; [eapply same_alnum; eauto|].
  cbn [feed]. assert (ST : step s c' = (Body, [c'])) by (destruct s; cbn [step]; rewrite L, ?M; reflexivity).
  rewrite ST, feed_body; [reflexivity|]. apply Forall_cons_iff in N as [_ N]. clear -N F'.
  induction F' as [|a b l l' H F IH]; [constructor|]. apply Forall_cons_iff in N as [NA N].
  constructor; auto. rewrite <- (same_nl a b); auto.
Qed.

Definition all_white (g : list Z) : Prop := Forall WhiteSpace g.

Lemma feed_blanks b : Forall Blank b -> feed Body b = (Body, b).
Proof.
  intros F. apply feed_body. eapply Forall_impl; [|exact F]. intros c [-> | ->]; reflexivity.
Qed.

(** Between two words a gap of the comment is white space. *)
Lemma feed_gap g : comment_gap g -> all_white (snd (feed Body g)) /\ (g <> [] -> snd (feed Body g) <> []).
Proof.
  induction 1 as [b F|g c m G [IH IN] C M].
  - rewrite feed_blanks by auto. cbn. split; [|auto].
    eapply Forall_impl; [|exact F]. unfold WhiteSpace. intros c [-> | ->]; lia.
  - assert (C' : is_nl c = true) by (apply is_nl_iff; exact C).
    assert (M' : Forall (fun c => is_margin c = true) m) by (eapply Forall_impl; [|exact M]; intros ?; apply is_margin_iff).
    change (g ++ c :: m) with (g ++ [c] ++ m). rewrite !feed_app.
    assert (FM : forall s, s = Ended \/ s = Lead -> snd (feed s m) = []).
    { clear -M'. induction M' as [|x m E F IH]; intros s S; [reflexivity|]. cbn [feed].
      assert (ST : step s x = (Lead, [])).
      { destruct S as [-> | ->]; cbn [step]; rewrite (margin_not_nl x E), E; reflexivity. }
      rewrite ST. specialize (IH Lead (or_intror eq_refl)). destruct (feed Lead m). cbn in *. exact IH. }
    cbn [feed]. destruct (fst (feed Body g)) eqn:S; cbn [step]; rewrite C'; cbn [fst snd app]; rewrite FM by auto;
      cbn; rewrite ?app_nil_r.
    + split; [apply Forall_app; split; [exact IH|repeat constructor; unfold WhiteSpace; lia]|].
      intros _ X. apply app_eq_nil in X as [_ X]. discriminate.
    + split; [apply Forall_app; split; [exact IH|repeat constructor; unfold WhiteSpace; lia]|].
      intros _ X. apply app_eq_nil in X as [_ X]. discriminate.
    + split; [exact IH|]. intros _. apply IN. intros ->. discriminate S.
Qed.

Lemma feed_spelled n ws x : (forall w, In w ws -> wordy w) ->
  spelled (fun g => comment_gap g /\ (n <= length g)%nat) ws x -> (n <= 1)%nat -> forall s,
  fst (feed s x) = Body /\ spelled (white_gap n) ws (snd (feed s x)).
Proof.
  intros W S N. induction S as [w x F|w ws x g r F [G LG] S IH]; intros s.
  - rewrite (feed_word s w x) by (auto; apply W; left; reflexivity). cbn. split; [reflexivity|constructor; exact F].
  - rewrite feed_app, (feed_word s w x) by (auto; apply W; left; reflexivity). cbn [fst snd].
    rewrite feed_app. cbn [fst snd]. destruct (feed_gap g G) as [A B].
    destruct (IH ltac:(intros; apply W; right; assumption) (fst (feed Body g))) as [I1 I2].
    split; [exact I1|]. constructor; [exact F| |exact I2]. split; [exact A|].
    destruct n as [|[|n]]; [lia| |lia]. destruct g; [cbn in LG; lia|].
    destruct (snd (feed Body (z :: g))) eqn:Q; [|cbn; lia]. exfalso. apply B; [discriminate|reflexivity].
Qed.

(** What has been written so far ends like the text, or in a blank. *)
Lemma feed_last t : let '(s, o) := feed Lead t in
  match s with
  | Body => exists a b c, o = a ++ [c] /\ t = b ++ [c]
  | _ => o = [] \/ exists a, o = a ++ [32]
  end.
Proof.
  induction t as [|c t IH] using rev_ind; [left; reflexivity|]. rewrite feed_app.
  destruct (feed Lead t) as [s o]. cbn [fst snd feed]. destruct s; cbn [step].
  - destruct (is_nl c); [right; exists o; reflexivity|]. destruct (is_margin c).
    + cbn. rewrite app_nil_r. exact IH.
    + cbn. exists o, t, c. auto.
  - destruct (is_nl c); [right; exists o; reflexivity|]. cbn. exists o, t, c. auto.
  - destruct (is_nl c).
    + cbn. rewrite app_nil_r. exact IH.
    + destruct (is_margin c); cbn.
      * rewrite app_nil_r. exact IH.
      * exists o, t, c. auto.
Qed.

Lemma ends_snoc a c : ends_in_word (a ++ [c]) <-> Word c.
Proof.
  unfold ends_in_word. split; [|eauto]. intros (a' & c' & E & W). apply app_inj_tail in E as [_ ->]. exact W.
Qed.

Lemma feed_before t : ~ ends_in_word t -> ~ ends_in_word (snd (feed Lead t)).
Proof.
  pose proof (feed_last t) as H. destruct (feed Lead t) as [s o]. cbn [snd]. intros N.
  assert (B : (o = [] \/ exists a, o = a ++ [32]) -> ~ ends_in_word o).
  { intros [-> |(a & ->)] W.
    - destruct W as ([] & ? & [=] & _).
    - apply ends_snoc in W. unfold Word, Alnum, Digit, Lower, Upper in W. lia. }
  destruct s; auto. destruct H as (a & b & c & -> & ->). rewrite ends_snoc in *. exact N.
Qed.

Lemma run_after t : ~ begins_with_word t -> ~ begins_with_word (run Body t).
Proof.
  intros N (c & r & E & W). destruct t as [|x t].
  - cbn in E. injection E as <- _. unfold Word, Alnum, Digit, Lower, Upper in W. lia.
  - rewrite run_cons in E. cbn [step] in E. destruct (is_nl x); cbn in E; injection E as <- _.
    + unfold Word, Alnum, Digit, Lower, Upper in W. lia.
    + apply N. unfold begins_with_word. eauto.
Qed.

Lemma spelled_nonempty sep ws x : (forall w, In w ws -> wordy w) -> spelled sep ws x -> x <> [].
Proof.
  intros W S. destruct S as [w x F|w ws x g r F _ _]; destruct (W w (or_introl eq_refl)) as [(c & r' & E & _) _];
    rewrite E in F; inversion F; subst; discriminate.
Qed.

(** A name spread over the lines of a comment is a name in the one line. *)
Lemma named_norm n ws c : (forall w, In w ws -> wordy w) -> (n <= 1)%nat ->
  named (fun g => comment_gap g /\ (n <= length g)%nat) ws c -> named (white_gap n) ws (norm c).
Proof.
  intros W N (pre & x & post & -> & S & P & Q).
  assert (E : norm (pre ++ x ++ post) = run Lead (pre ++ x ++ post)).
  { pose proof (spelled_nonempty _ _ _ W S). destruct pre; [destruct x; [congruence|]|]; reflexivity. }
  rewrite E, !run_app. destruct (feed_spelled n ws x W S N (fst (feed Lead pre))) as [B SP]. rewrite B.
  exists (snd (feed Lead pre)), (snd (feed (fst (feed Lead pre)) x)), (run Body post).
  repeat split; auto using feed_before, run_after.
Qed.

(** ** Expressions for names *)
Definition lit (c : Z) : re := Char (Class false [Chr c]).

Fixpoint lits (w : list Z) (k : re) : re :=
  match w with
  | [] => k
  | c :: r => Seq (lit c) (lits r k)
  end.

Fixpoint words (n : nat) (ws : list string) : re :=
  match ws with
  | [] => Seq Bound Empty
  | [w] => lits (bytes w) (Seq Bound Empty)
  | w :: r => lits (bytes w) (Seq (Rep (Class false [Space]) n None) (words n r))
  end.

Definition shape (n : nat) (ws : list string) : re := Seq Bound (words n ws).

Lemma lits_matches fl w : f_caseless fl = true -> forall x k pre v post, same_text w x ->
  matches fl k (pre ++ x) v post -> matches fl (lits w k) pre (x ++ v) post.
Proof.
  intros C x k pre v post F. revert pre. induction F as [|c y w x E F IH]; intros pre M; cbn [lits app].
  - rewrite app_nil_r in M. exact M.
  - cbn [matches]. exists [y], (x ++ v). split; [reflexivity|]. split.
    + exists y. split; [reflexivity|]. cbn. exists (Chr c), c. split; [left; reflexivity|]. split; [reflexivity|].
      right. split; [exact C|]. apply same_sym. exact E.
    + apply IH. rewrite <- app_assoc. exact M.
Qed.

(** The last character of a word is a word character. *)
Definition ends_wordy (w : string) : Prop := ends_in_word (bytes w).

Lemma same_ends w x : same_text w x -> ends_in_word w -> ends_in_word x.
Proof.
  intros F (a & c & -> & W). apply Forall2_app_inv_l in F as (x1 & x2 & F1 & F2 & ->).
  inversion F2 as [|? y ? ? E F3]; subst. inversion F3; subst. apply ends_snoc.
  apply is_word_iff. rewrite <- (same_word c y E). apply is_word_iff. exact W.
Qed.

Lemma ends_app a b : ends_in_word b -> ends_in_word (a ++ b).
Proof. intros (x & c & -> & W). rewrite app_assoc. apply ends_snoc. exact W. Qed.

Lemma words_matches fl n ws x : f_caseless fl = true -> spelled (white_gap n) ws x ->
  (forall w, In w ws -> ends_wordy w) -> forall pre post, ~ begins_with_word post ->
  matches fl (words n ws) pre x post.
Proof.
  intros C S. induction S as [w x F|w ws x g r F [G L] S IH]; intros W pre post Q.
  - cbn [words]. rewrite <- (app_nil_r x). apply lits_matches; auto.
    cbn [matches]. exists [], []. repeat split; auto. left. split; [|exact Q].
    apply ends_app. eapply same_ends; [exact F|]. apply (W w). left. reflexivity.
  - assert (NE : ws <> []) by (destruct S; discriminate).
    change (words n (w :: ws)) with
      (match ws with [] => lits (bytes w) (Seq Bound Empty)
       | _ => lits (bytes w) (Seq (Rep (Class false [Space]) n None) (words n ws)) end).
    destruct ws as [|w' ws]; [congruence|]. apply lits_matches; auto.
    cbn [matches]. exists g, r. repeat split; auto.
    + eapply Forall_impl; [|exact G]. intros c H. cbn. exists Space, c. repeat split; auto. left. reflexivity.
    + apply IH; auto. intros v I. apply W. right. exact I.
Qed.

Lemma spelled_begins sep ws x post : (forall w, In w ws -> wordy w) -> spelled sep ws x -> begins_with_word (x ++ post).
Proof.
  intros W S. destruct S as [w x F|w ws x g r F _ _]; destruct (W w (or_introl eq_refl)) as [(c & r' & E & A) _];
    rewrite E in F; inversion F as [|? y ? ? H]; subst; eexists; eexists; (split; [reflexivity|]);
    left; eapply same_alnum; eauto.
Qed.

Lemma shape_matches fl n ws t : f_caseless fl = true -> (forall w, In w ws -> wordy w /\ ends_wordy w) ->
  named (white_gap n) ws t -> exists pre x post, t = pre ++ x ++ post /\ matches fl (shape n ws) pre x post.
Proof.
  intros C W (pre & x & post & -> & S & P & Q). exists pre, x, post. split; [reflexivity|].
  unfold shape. cbn [matches]. exists [], x. split; [reflexivity|]. split.
  - split; [reflexivity|]. right. split; [exact P|]. eapply spelled_begins; [|exact S]. intros. apply W. assumption.
  - rewrite app_nil_r. apply words_matches; auto. intros. apply W. assumption.
Qed.

(** The alternatives of an expression. *)
Fixpoint alternatives (r : re) : list re :=
  match r with
  | Or a b => alternatives a ++ alternatives b
  | Seq a Empty => r :: alternatives a
  | _ => [r]
  end.

Lemma alternatives_ok fl r : forall x pre w post, In x (alternatives r) -> matches fl x pre w post -> matches fl r pre w post.
Proof.
  induction r as [|s|s lo hi| | |a IHa b IHb|a IHa b IHb|a IHa|a IHa]; intros x pre w post I M; cbn [alternatives] in I;
    try (destruct I as [<-|[]]; exact M).
  - assert (D : In x [Seq a b] \/ (b = Empty /\ In x (alternatives a))).
    { destruct b; try (left; exact I). destruct I as [<-|I]; [left; left; reflexivity|right; auto]. }
    destruct D as [[<-|[]]|[-> I']]; [exact M|]. cbn [matches]. exists w, []. rewrite app_nil_r. repeat split; eauto.
  - apply in_app_or in I as [I|I]; cbn [matches]; eauto.
Qed.

Definition re_eq_dec (a b : re) : {a = b} + {a <> b}.
Proof. repeat decide equality. Defined.

(** The table entry knows the name. *)
Definition knows (n : nat) (ws : list string) (l : license) : bool :=
  o_caseless (l_re_flags l) && match l_exclude_re l with None => true | _ => false end &&
  match compile (l_re l) with
  | Some r => existsb (fun x => if re_eq_dec x (shape n ws) then true else false) (alternatives r)
  | None => false
  end.

Definition wordyb (w : string) : bool :=
  match bytes w with
  | c :: _ => (is_word c) && negb (c =? 95) && forallb (fun c => negb (is_nl c)) (bytes w) && word_first (rev (bytes w))
  | [] => false
  end.

Lemma wordyb_ok w : wordyb w = true -> wordy w /\ ends_wordy w.
Proof.
  unfold wordyb, wordy, ends_wordy. destruct (bytes w) as [|c r] eqn:E; [discriminate|].
  rewrite !andb_true_iff, negb_true_iff, Z.eqb_neq, is_word_iff, forallb_forall. intros [[[W U] N] L].
  repeat split.
  - exists c, r. split; [reflexivity|]. destruct W as [W|W]; [exact W|congruence].
  - apply Forall_forall. intros x I. apply negb_true_iff, N, I.
  - apply word_first_pre in L. rewrite rev_involutive in L. exact L.
Qed.

Lemma names_known : forallb (fun '(name, n, ws) => (n <=? 1)%nat && forallb wordyb ws &&
  existsb (fun l => String.eqb (l_name l) name && knows n ws l) license_map) names_of_licenses = true.
Proof. vm_compute. reflexivity. Qed.

(** A licence whose name is in the comments is mentioned. *)
Lemma name_mentioned name n ws c : In (name, n, ws) names_of_licenses ->
  named (fun g => comment_gap g /\ (n <= length g)%nat) ws c ->
  exists l m, In l license_map /\ l_name l = name /\ mentioned exec (norm c) l m.
Proof.
  intros I H. pose proof names_known as K. rewrite forallb_forall in K. specialize (K _ I). cbn beta iota in K.
  apply andb_true_iff in K as [K K3]. apply andb_true_iff in K as [K1 K2].
  apply Nat.leb_le in K1. rewrite forallb_forall in K2.
  apply existsb_exists in K3 as (l & IL & K3). apply andb_true_iff in K3 as [K3 K4]. apply String.eqb_eq in K3.
  unfold knows in K4. apply andb_true_iff in K4 as [K4 K5]. apply andb_true_iff in K4 as [K4 K6].
  destruct (compile (l_re l)) as [r|] eqn:CO; [|discriminate].
  apply existsb_exists in K5 as (x & IX & EX). destruct (re_eq_dec x (shape n ws)) as [-> |]; [|discriminate].
  apply named_norm in H; [|intros w J; apply (wordyb_ok w); auto|exact K1].
  destruct (shape_matches (options (l_re_flags l)) n ws (norm c)) as (pre & w & post & T & M); auto.
  { intros w J. apply wordyb_ok; auto. }
  apply (alternatives_ok _ r) in M; [|exact IX].
  destruct (exec (options (l_re_flags l)) (l_re l) (norm c)) as [m|] eqn:E.
  - exists l, m. repeat split; auto. intros y a s b Y. rewrite Y in K6. discriminate.
  - exfalso. eapply exec_none; eauto.
Qed.
