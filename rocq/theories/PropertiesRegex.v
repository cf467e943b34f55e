(** Properties C45-C48: regular expressions, and what they give for licences and languages. *)
From Coq Require Import ZArith String Ascii List Bool Lia.
From Verif Require Import Base RegexSyntax RegexProofs3 Arr ParsedModel LocSpec LocProofs ParsedSpec ParsedProofs FileDiffSpec
  Tables DetectorModel DetectorSpec PropertiesDisamb RegexModel RegexSpec RegexProofs RegexProofs2
  LicenseTable LicenseModel LicenseSpec LicenseProofs LicenseProofs2 LicenseProofs3 PropertiesLicense.
Import ListNotations.
Open Scope string_scope.
Open Scope Z_scope.
Open Scope list_scope.

(** ** C45 *)
(** The matcher finds a match exactly if there is one; it is the leftmost one. *)
Theorem C45_found : forall fl s r t, compile s = Some r ->
  (exec fl s t = None <-> forall u w v, t = u ++ w ++ v -> ~ matches fl r u w v).
Proof.
  intros fl s r t C. split.
  - intros H u w v E. eapply exec_none; eauto.
  - intros H. destruct (exec fl s t) as [[a e]|] eqn:X; [|reflexivity].
    apply exec_some in X as (r' & u & w & v & C' & E & M & _). rewrite C in C'. injection C' as <-. destruct (H _ _ _ E M).
Qed.
Print Assumptions C45_found.

Theorem C45_leftmost : forall fl s t m0 m1, exec fl s t = Some (m0, m1) ->
  exists r u w v, compile s = Some r /\ t = u ++ w ++ v /\ matches fl r u w v /\
    m0 = Z.of_nat (length u) /\ m1 = Z.of_nat (length u + length w) /\
    forall u' w' v', t = u' ++ w' ++ v' -> matches fl r u' w' v' -> (length u <= length u')%nat.
Proof.
  intros fl s t m0 m1 H. unfold exec in H. destruct (compile s) as [r|]; [|discriminate].
  destruct (search fl r [] t) as [[x y]|] eqn:E; [|discriminate]. injection H as <- <-.
  apply search_some in E as (u & w & v & -> & M & -> & -> & L). cbn [rev app length] in *.
  exists r, u, w, v. repeat split; auto; try lia. intros u' w' v' E M'.
  destruct (Nat.le_gt_cases (length u) (length u')) as [?|LT]; [assumption|]. exfalso.
  assert (P : exists x u2, u = u' ++ x :: u2 /\ (x :: u2) ++ w ++ v = w' ++ v').
  { clear -E LT. revert u E LT. induction u' as [|c u' IH]; intros u E LT.
    - destruct u as [|x u2]; [cbn in LT; lia|]. exists x, u2. split; [reflexivity|exact E].
    - destruct u as [|x u]; [cbn in LT; lia|]. cbn [app length] in *. injection E as -> E.
      destruct (IH u E ltac:(lia)) as (y & u2 & -> & E2). exists y, u2. auto. }
  destruct P as (x & u2 & E1 & E2). exact (L _ _ _ _ _ E1 E2 M').
Qed.
Print Assumptions C45_leftmost.

(** Of the matches at one place it is the preferred one: the first of [ways]. *)
Theorem C45_preferred : forall fl r u t, match_here fl r (rev u) t =
  match ways fl r u t with i :: _ => Some (length u + i)%nat | [] => None end.
Proof. intros fl r u t. rewrite match_here_ways, rev_involutive, rev_length. reflexivity. Qed.
Print Assumptions C45_preferred.

(** An expression is read exactly if the grammar has it, and as what the grammar says; so the
    grammar is not ambiguous. *)
Theorem C45_syntax : forall s r, compile s = Some r <-> RegexSyntax.alternatives s r.
Proof. exact RegexProofs3.compile_iff. Qed.
Print Assumptions C45_syntax.

(** All expressions of the program are in the supported part of the syntax. *)
Definition compiles (s : string) : bool := match compile s with Some _ => true | None => false end.
Theorem C45_supported :
  (forall l, In l license_map -> compiles (l_re l) = true /\ forall x, l_exclude_re l = Some x -> compiles x = true) /\
  (forall s, In s [re_puppet1; re_puppet2; re_perl] -> compiles s = true).
Proof.
  assert (H : forallb (fun l => compiles (l_re l) && match l_exclude_re l with Some x => compiles x | None => true end) license_map = true)
    by (vm_compute; reflexivity).
  rewrite forallb_forall in H. split.
  - intros l I. specialize (H l I). apply andb_true_iff in H as [A B]. split; [exact A|]. intros x E. rewrite E in B. exact B.
  - intros s [<-|[<-|[<-|[]]]]; vm_compute; reflexivity.
Qed.
Print Assumptions C45_supported.

(** So the statements C35 and C36 about engines hold for this one. *)
Theorem C45_engine : engine_ok exec.
Proof. exact exec_engine_ok. Qed.
Print Assumptions C45_engine.

Example C45_case :
  let fl := mkFlags true false false in
  exec fl "\b(lgpl|gpl)\s*v?[23]" (bytes "MYGPL 2, GPL  v3") = Some (9, 16) /\
  exec fl "a{2,3}(?!b)" (bytes "xaab aaaab") = Some (5, 8) /\
  exec fl "(a|ab)(c|bcd)?" (bytes "zabcd") = Some (1, 5) /\
  exec fl "x.{0,3}y" (bytes "xy-y-y-y") = Some (0, 4) /\
  exec fl "[a-f0-2_-]{2,}[^a-z]" (bytes "Ag3-2f_B1") = Some (3, 9).
Proof. vm_compute. auto 6. Qed.

(** ** C46 *)
Lemma same_norm t t' : Forall2 same_letter t t' -> Forall2 same_letter (norm t) (norm t').
Proof.
  assert (NL : forall c c', same_letter c c' -> is_nl c = is_nl c').
  { intros c c' H. apply eq_true_iff_eq. rewrite !is_nl_iff. unfold Newline, same_letter, Upper, Lower in *. lia. }
  assert (MA : forall c c', same_letter c c' -> is_margin c = is_margin c').
  { intros c c' H. apply eq_true_iff_eq. rewrite !is_margin_iff.
    unfold Margin, Blank, Punct, Alnum, Digit, same_letter, Upper, Lower in *. lia. }
  assert (R : forall t t', Forall2 same_letter t t' -> forall s, Forall2 same_letter (run s t) (run s t')).
  { induction 1 as [|c c' a a' E F IH]; intros s.
    - unfold run. cbn. destruct s; repeat constructor; left; reflexivity.
    - rewrite !run_cons. assert (ST : fst (step s c) = fst (step s c') /\ Forall2 same_letter (snd (step s c)) (snd (step s c'))).
      { unfold step. rewrite (NL _ _ E), (MA _ _ E). destruct s, (is_nl c'), (is_margin c'); cbn; split; auto; repeat constructor; auto; left; reflexivity. }
      destruct ST as [-> ST]. apply Forall2_app; [exact ST|apply IH]. }
  intros F. destruct F; [constructor|]. unfold norm. apply R. constructor; assumption.
Qed.

Lemma exec_same fl s t t' : f_caseless fl = true -> Forall2 same_letter t t' -> exec fl s t = exec fl s t'.
Proof. intros C E. unfold exec. destruct (compile s); [|reflexivity]. rewrite (search_same fl r C t t' [] []) by auto. reflexivity. Qed.

Lemma mentioned_same l t t' m : In l license_map -> o_caseless (l_re_flags l) = true -> Forall2 same_letter t t' ->
  mentioned exec t l m -> mentioned exec t' l m.
Proof.
  intros I C E [M X].
  assert (EX : forall x, l_exclude_re l = Some x -> o_caseless (l_exclude_re_flags l) = true).
  { assert (H : forallb (fun l => negb (o_caseless (l_re_flags l)) || match l_exclude_re l with Some _ => o_caseless (l_exclude_re_flags l) | None => true end) license_map = true)
      by (vm_compute; reflexivity).
    rewrite forallb_forall in H. specialize (H l I). rewrite C in H. cbn in H. intros x EX. rewrite EX in H. exact H. }
  split.
  - rewrite <- (exec_same _ _ t t'); auto.
  - intros x a s b EL -> A B. specialize (EX x EL).
    assert (SP : exists a0 s0 b0, t = a0 ++ s0 ++ b0 /\ length a0 = length a /\ length s0 = length s /\ Forall2 same_letter s0 s).
    { apply Forall2_app_inv_r in E as (a0 & r0 & FA & FR & ->). apply Forall2_app_inv_r in FR as (s0 & b0 & FS & FB & ->).
      exists a0, s0, b0. split; [reflexivity|]. split; [eapply same_length; eauto|]. split; [eapply same_length; eauto|exact FS]. }
    destruct SP as (a0 & s0 & b0 & -> & LA & LS & FS).
    rewrite <- (exec_same _ _ s0 s); auto. eapply X; eauto; rewrite ?LA, ?LS; auto.
Qed.

(** Whether a licence is mentioned, and where, does not depend on the case of letters, except
    for the two whose expressions are case-sensitive. *)
Theorem C46_case_of_letters : forall c c' t t' l m, Forall2 same_letter c c' -> one_line c t -> one_line c' t' ->
  In l license_map -> ~ In (l_name l) ["bsd_ish"; "bsd_2clause_ish"] ->
  (mentioned exec t l m <-> mentioned exec t' l m).
Proof.
  intros c c' t t' l m E O O' I N.
  assert (C : o_caseless (l_re_flags l) = true).
  { assert (H : forallb (fun l => o_caseless (l_re_flags l) || String.eqb (l_name l) "bsd_ish" || String.eqb (l_name l) "bsd_2clause_ish") license_map = true)
      by (vm_compute; reflexivity).
    rewrite forallb_forall in H. specialize (H l I). rewrite !orb_true_iff, !String.eqb_eq in H. cbn in N.
    destruct H as [[H|H]|H]; [exact H| |]; exfalso; apply N; auto. }
  rewrite (norm_fun _ _ O), (norm_fun _ _ O'). pose proof (same_norm _ _ E) as F. split; apply mentioned_same; auto.
  clear -F. induction F; constructor; auto using same_sym.
Qed.
Print Assumptions C46_case_of_letters.

(** If those two are not mentioned, the whole report is the same. *)
Theorem C46_same_report : forall c c' t t', Forall2 same_letter c c' -> one_line c t -> one_line c' t' ->
  (forall l m, In l license_map -> In (l_name l) ["bsd_ish"; "bsd_2clause_ish"] ->
     ~ mentioned exec t l m /\ ~ mentioned exec t' l m) ->
  forall l, to_report exec t l <-> to_report exec t' l.
Proof.
  intros c c' t t' E O O' N.
  assert (M : forall l m, In l license_map -> (mentioned exec t l m <-> mentioned exec t' l m)).
  { intros l m I. destruct (in_dec string_dec (l_name l) ["bsd_ish"; "bsd_2clause_ish"]) as [J|J].
    - destruct (N l m I J). tauto.
    - apply (C46_case_of_letters c c'); auto. }
  assert (S : forall l m, In l license_map -> (stands exec t l m <-> stands exec t' l m)).
  { intros l m I. unfold stands. rewrite M by exact I. split; intros [A B]; (split; [exact A|]); intros l' m' I' M'; apply (B l' m'); auto; apply M; auto. }
  intros l. unfold to_report. split; intros (I & (m & ST) & X); (split; [exact I|]); (split; [exists m; apply S; auto|]);
    intros (l' & m' & I' & P & ST'); apply X; exists l', m'; (split; [exact I'|split; [exact P|apply S; auto]]).
Qed.
Print Assumptions C46_same_report.

(** A check for examples. *)
Fixpoint same_b (a b : list Z) : bool :=
  match a, b with
  | [], [] => true
  | x :: a, y :: b => (lower x =? lower y) && same_b a b
  | _, _ => false
  end.
Lemma same_b_ok a : forall b, same_b a b = true -> Forall2 same_letter a b.
Proof.
  induction a as [|x a IH]; intros [|y b]; cbn; try discriminate; [constructor|].
  intros H. apply andb_true_iff in H as [E H]. constructor; [|auto]. apply Z.eqb_eq in E. unfold lower in E.
  unfold same_letter, Upper, Lower. destruct ((65 <=? x) && (x <=? 90)) eqn:X, ((65 <=? y) && (y <=? 90)) eqn:Y;
    rewrite ?andb_true_iff, ?andb_false_iff, ?Z.leb_le, ?Z.leb_gt in X, Y; lia.
Qed.
Ltac same := apply same_b_ok; vm_compute; reflexivity.

Example C46_case : let a := line "// Apache license, VERSION 2.0" in let b := line "// APACHE LICENSE, version 2.0" in
  Forall2 same_letter a b /\
  (exists ls, detect exec [a] = Ok ls /\ map l_name ls = ["apache_2"]) /\ detect exec [a] = detect exec [b].
Proof.
  cbv zeta. split.
  - same.
  - split; [eexists; split; vm_compute; reflexivity|vm_compute; reflexivity].
Qed.

(** ** C47 *)
(** A licence named in the comments, whatever the case of the letters and the line breaks, is
    reported, unless the first mention is part of that of another licence or a more
    specific licence is there; something is reported anyway. *)
Theorem C47_names : forall r g nm n ws, good_revision r -> r_events r <> [] -> (forall e, In e (r_events r) -> e_lang e = g) ->
  In (nm, n, ws) names_of_licenses ->
  named (fun gap => comment_gap gap /\ (n <= length gap)%nat) ws (comment_text r g) ->
  exists pls ls t l m, run_callbacks (r_text r) [] (r_events r) = Ok pls /\ ohcount_detect_license exec pls = Ok ls /\
    one_line (comment_text r g) t /\ In l license_map /\ l_name l = nm /\ mentioned exec t l m /\ ls <> [] /\
    (In l ls \/ (exists l' m', In l' license_map /\ mentioned exec t l' m' /\ part_of m m')
     \/ exists l' m', In l' license_map /\ In (l_name l, l_name l') more_specific /\ mentioned exec t l' m').
Proof.
  intros r g nm n ws G NE ONE I NM. destruct (C36_one_language exec r g exec_engine_ok G NE ONE) as (pls & ls & t & E & D & O & R).
  destruct (name_mentioned nm n ws (comment_text r g) I NM) as (l & m & IL & NL & M). rewrite <- (norm_fun _ _ O) in M.
  exists pls, ls, t, l, m. repeat (split; [assumption|]). split.
  - destruct (C35_something exec t l m exec_engine_ok IL M) as (l' & RE). apply R in RE. intros ->. destruct RE.
  - destruct (stands_exists exec t l m exec_engine_ok IL M) as (l' & m' & I' & S & [-> |P]).
    + assert (ST : stands exec t l m) by (split; [exact M|apply S]).
      destruct (to_report_dec exec t l m exec_engine_ok IL ST) as [RE|(l2 & m2 & I2 & P2 & [M2 _])].
      * left. apply R. exact RE.
      * right. right. exists l2, m2. auto.
    + right. left. exists l', m'. split; [exact I'|]. split; [apply S|exact P].
Qed.
Print Assumptions C47_names.

Example C47_case : let r := file [ ("c", "lcomment", line "/* See the Common Development"); ("c", "lcomment", line " * and Distribution");
    ("c", "lcomment", line " *"); ("c", "lcomment", line " *  LICENSE */") ] in
  good_revision r /\ (forall e, In e (r_events r) -> e_lang e = "c") /\
  named (fun gap => comment_gap gap /\ (0 <= length gap)%nat) ["common"; "development"; "and"; "distribution"; "license"] (comment_text r "c").
Proof.
  cbv zeta. split; [good|]. split.
  - vm_compute. intros e [<-|[<-|[<-|[<-|[]]]]]; reflexivity.
  - exists (bytes "/* See the "), (bytes "Common Development" ++ [10] ++ bytes "* and Distribution" ++ [10] ++ bytes "*" ++ [10] ++ bytes "*  LICENSE"), (line " */").
    split; [vm_compute; reflexivity|]. split; [|split].
    + assert (SP : forall w ws x g r y, y = x ++ g ++ r -> Forall2 same_letter (bytes w) x -> comment_gap g ->
        spelled (fun gap => comment_gap gap /\ (0 <= length gap)%nat) ws r -> spelled (fun gap => comment_gap gap /\ (0 <= length gap)%nat) (w :: ws) y).
      { intros. subst. constructor; auto. split; [assumption|lia]. }
      assert (B : comment_gap [32]) by (apply gap_blanks; repeat constructor).
      assert (LN : forall w, Forall Margin w -> comment_gap (10 :: w)).
      { intros w F. apply (gap_line [] 10 w); [apply gap_blanks; constructor|right; reflexivity|exact F]. }
      assert (M32 : Margin 32) by (left; left; reflexivity).
      assert (M42 : Margin 42) by (right; unfold Punct, Alnum, Digit, Lower, Upper; lia).
      apply (SP _ _ (bytes "Common") [32] (bytes "Development" ++ [10] ++ bytes "* and Distribution" ++ [10] ++ bytes "*" ++ [10] ++ bytes "*  LICENSE")); [reflexivity|same|exact B|].
      apply (SP _ _ (bytes "Development") ([10] ++ bytes "* ") (bytes "and Distribution" ++ [10] ++ bytes "*" ++ [10] ++ bytes "*  LICENSE")); [reflexivity|same|apply LN; vm_compute; auto|].
      apply (SP _ _ (bytes "and") [32] (bytes "Distribution" ++ [10] ++ bytes "*" ++ [10] ++ bytes "*  LICENSE")); [reflexivity|same|exact B|].
      apply (SP _ _ (bytes "Distribution") ([10] ++ bytes "*" ++ [10] ++ bytes "*  ") (bytes "LICENSE")); [reflexivity|same| |].
      * change ([10] ++ bytes "*" ++ [10] ++ bytes "*  ") with ((10 :: bytes "*") ++ 10 :: bytes "*  ").
        apply gap_line; [apply LN; vm_compute; auto|right; reflexivity|vm_compute; auto 8].
      * constructor. same.
    + intros (a & c & E & W). apply (f_equal (@rev Z)) in E. rewrite rev_app_distr in E. vm_compute in E. injection E as <- _.
      unfold Word, Alnum, Digit, Lower, Upper in W. lia.
    + intros (c & r & E & W). vm_compute in E. injection E as <- _. unfold Word, Alnum, Digit, Lower, Upper in W. lia.
Qed.

(** Expected: the licence with the rude name is found by its full name.  Its expression has
    \fuck, which is a form feed and three letters, so it never is. *)
Theorem C47_wtfpl_refuted : exists c, named (white_gap 1) ["what"; "the"; "fuck"; "public"; "license"] c /\ detect exec [c] = Ok [].
Proof.
  exists (bytes "what the fuck public license"). split; [|vm_compute; reflexivity].
  exists [], (bytes "what the fuck public license"), []. split; [vm_compute; reflexivity|]. split; [|split].
  - assert (W : white_gap 1 [32]) by (split; [repeat constructor; right; reflexivity|cbn; lia]).
    assert (SP : forall w ws r, spelled (white_gap 1) ws r -> spelled (white_gap 1) (w :: ws) (bytes w ++ [32] ++ r)).
    { intros. constructor; auto. clear. induction (bytes w); constructor; auto. left. reflexivity. }
    apply (SP "what" _ (bytes "the fuck public license")), (SP "the" _ (bytes "fuck public license")),
      (SP "fuck" _ (bytes "public license")), (SP "public" _ (bytes "license")). constructor.
    clear. induction (bytes "license"); constructor; auto. left. reflexivity.
  - intros (a & c & E & _). destruct a; discriminate.
  - intros (c & r & E & _). discriminate.
Qed.
Print Assumptions C47_wtfpl_refuted.

(** ** C48 *)
(** The library as the detector calls it. *)
Definition detector_pcre (s : string) (t : list Z) : bool :=
  if String.eqb s re_perl then exec_anchored (mkFlags true false false) s t
  else match exec (mkFlags false true false) s t with Some _ => true | None => false end.

(** A .pp file is Puppet exactly if, in its first 10000 bytes, a line starts with an attribute
    or a definition. *)
Theorem C48_pp : forall pl magic f g c, extension_says (d_ext f) (ambiguous "pp") -> d_contents f = Some c ->
  ohcount_detect_language pl magic detector_pcre f = Ok g ->
  let t := firstn (Z.to_nat 10000) (before_nul c) in
  (puppet t /\ g = Some "puppet") \/ (~ puppet t /\ g = Some "pascal").
Proof.
  intros pl magic f g c E C H t. apply (C32_pp pl magic detector_pcre f g c E C) in H. cbv zeta in H. fold t in H.
  assert (P1 : detector_pcre re_puppet1 t = true <-> starts_a_line attribute t).
  { rewrite <- puppet1_iff. unfold detector_pcre. change (re_puppet1 =? re_perl)%string with false. cbv iota.
    destruct (exec _ re_puppet1 t); split; congruence. }
  assert (P2 : detector_pcre re_puppet2 t = true <-> starts_a_line construct t).
  { rewrite <- puppet2_iff. unfold detector_pcre. change (re_puppet2 =? re_perl)%string with false. cbv iota.
    destruct (exec _ re_puppet2 t); split; congruence. }
  unfold puppet. rewrite <- P1, <- P2. destruct H as [[-> H]|(-> & H1 & H2)]; [left; auto|right]. split; [|reflexivity].
  intros [X|X]; congruence.
Qed.
Print Assumptions C48_pp.

(** A .pl file is Prolog exactly if it has a rule and no Perl interpreter line. *)
Theorem C48_pl : forall pl magic f g c, extension_says (d_ext f) (ambiguous "pl") -> d_contents f = Some c ->
  ohcount_detect_language pl magic detector_pcre f = Ok g ->
  let script := perl_script (firstn 100 (before_nul c)) in
  let rule := prolog_rule (before_nul c) in
  (~ script /\ rule /\ g = Some "prolog") \/ ((script \/ ~ rule) /\ g = Some "perl").
Proof. intros pl magic f g c. apply C32_pl. exact perl_iff. Qed.
Print Assumptions C48_pl.

Ltac each := apply Forall_forall; intros c I; vm_compute in I;
  repeat (destruct I as [<-|I]; [unfold NameChar, Word, Alnum, Digit, Lower, Upper, WhiteSpace; lia|]); destruct I.
Example C48_case : puppet (bytes "# x" ++ [10; 10] ++ bytes "  class  apache::php inherits apache" ++ [10] ++ bytes "{").
Proof.
  right. exists (bytes "# x" ++ [10]), ([10] ++ bytes "  "), (bytes "class" ++ bytes "  " ++ bytes "apache::php" ++ bytes " " ++ bytes "inherits" ++ bytes " " ++ bytes "apache" ++ [10] ++ [123]), [].
  split; [vm_compute; reflexivity|]. split; [right; exists (bytes "# x"); reflexivity|]. split.
  - each.
  - constructor; try (split; [|discriminate]); try each. cbn. auto.
Qed.
