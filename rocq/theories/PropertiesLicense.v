(** Properties C34-C37: licence detection.  The statements of C34 to C37 hold for any regular
    expression engine whose matches lie within the text; the examples and refutations use the
    engine of RegexModel. *)
From Coq Require Import ZArith String Ascii List Bool Lia.
From Verif Require Import Base Arr ParsedModel LocSpec LocProofs ParsedSpec ParsedProofs FileDiffSpec PropertiesFileDiff DetectorSpec
  RegexModel RegexSpec RegexProofs LicenseTable LicenseModel LicenseSpec LicenseProofs LicenseProofs2 LicenseProofs3.
Import ListNotations.
Open Scope string_scope.
Open Scope Z_scope.
Open Scope list_scope.

(** The comments of a file, as the licence detector gets them: languages in order of first
    appearance. *)
Definition comment_texts (r : revision) : list (list Z) := map (comment_text r) (first_occ (FileDiffSpec.languages r)).

Lemma comments_ok r : good_revision r -> exists pls, run_callbacks (r_text r) [] (r_events r) = Ok pls /\
  comments pls = Ok (comment_texts r) /\ (pls = [] <-> r_events r = []).
Proof.
  intros (Hz & Hs & Hn & Hg & F1 & F2).
  destruct (run_callbacks_ok (r_text r) (r_events r) [] [] Hg Hn Hs) as (l & E & Hm & Hl).
  { split; [reflexivity|intros pl []]. }
  cbn [app] in *. exists l. split; [exact E|]. split.
  - unfold comment_texts, FileDiffSpec.languages. rewrite <- Hm. clear E Hm.
    induction l as [|pl l IH]; [reflexivity|]. cbn [comments map].
    destruct (Hl pl (or_introl eq_refl)) as (_ & _ & _ & H4 & _).
    pose proof (area_string_ok _ _ _ H4) as S4.
    rewrite upto_nul_id in S4 by (apply (lines_nonul (r_text r)); auto).
    rewrite kept_all in S4 by apply F2. rewrite S4. cbn [bind].
    rewrite IH by (intros p I; apply Hl; right; exact I). reflexivity.
  - split.
    + intros ->. destruct (r_events r) as [|e es]; [reflexivity|discriminate Hm].
    + intros H. rewrite H in Hm. destruct l; [reflexivity|discriminate Hm].
Qed.

Lemma comment_size r g : good_revision r -> Z.of_nat (length (comment_text r g)) + 1 <= int_max.
Proof.
  intros (_ & H & _ & _ & _ & F). specialize (F g). unfold comment_text.
  replace (Z.of_nat (length (concat (lines_of (r_text r) g "lcomment" (r_events r)))))
    with (volume (lines_of (r_text r) g "lcomment" (r_events r))) by reflexivity. lia.
Qed.

(** ** C34 *)
(** Whatever the engine does, the report is a selection of the table, in its order and without
    repetition. *)
Theorem C34_report : forall exec pls ls, ohcount_detect_license exec pls = Ok ls ->
  subsequence ls license_map /\ NoDup (map l_name ls).
Proof.
  intros exec pls ls H. unfold ohcount_detect_license in H. apply bind_ok in H as (cs & _ & H).
  assert (S : subsequence ls license_map).
  { unfold detect in H. destruct cs as [|c cs]; [injection H as <-; constructor|].
    apply bind_ok in H as (found & L & H). injection H as <-. unfold report. cbv zeta. apply subsequence_filter.
    assert (G : forall cs f found, languages exec cs f = Ok found -> cs <> [] -> length found = length license_map).
    { clear. induction cs as [|c cs IH]; intros f found H N; [congruence|]. cbn [languages] in H.
      apply bind_ok in H as (t & _ & H). apply bind_ok in H as (f' & S & H).
      destruct cs as [|c' cs]; [|eapply IH; eauto; discriminate].
      cbn in H. injection H as <-. apply scan_length in S. exact S. }
    eapply G; eauto. discriminate. }
  split; [exact S|]. pose proof map_names as N.
  assert (G : forall a b : list license, subsequence a b -> (forall x, In x (map l_name a) -> In x (map l_name b)) /\
    (NoDup (map l_name b) -> NoDup (map l_name a))).
  { clear. induction 1 as [l|x a l S [I N]|x a l S [I N]]; cbn.
    - split; [intros ? []|constructor].
    - split; [intros y [->|J]; auto|]. intros D. inversion D as [|? ? D1 D2]; subst. constructor; auto.
    - split; [intros y J; auto|]. intros D. inversion D as [|? ? D1 D2]; subst. auto. }
  apply (G _ _ S). exact N.
Qed.
Print Assumptions C34_report.

(** A file without languages has no licences. *)
Theorem C34_no_languages : forall exec, ohcount_detect_license exec [] = Ok [].
Proof. reflexivity. Qed.
Print Assumptions C34_no_languages.

(** ** C37 *)
(** Normalisation ends, stays within its buffer (writing at most one byte more than it
    reads) and puts the lines, without their margins, on one line. *)
Theorem C37_one_line : forall c, Z.of_nat (length c) + 1 <= int_max ->
  exists n, normalise c = Ok n /\ one_line c n /\ (length n <= length c + 1)%nat.
Proof. exact normalise_ok. Qed.
Print Assumptions C37_one_line.

(** [one_line] says what the result is. *)
Theorem C37_one_line_determined : forall c n n', one_line c n -> one_line c n' -> n = n'.
Proof. exact one_line_fun. Qed.
Print Assumptions C37_one_line_determined.

(** No line ends remain; so multi-line mode and its dot make no difference. *)
Theorem C37_no_line_ends : forall c n, one_line c n -> forall x, In x n -> ~ Newline x.
Proof.
  intros c n (ps & F & ->) x I N. apply in_concat in I as (p & IP & IX). apply in_map_iff in IP as (q & <- & IQ).
  apply in_app_or in IX as [IX|[<-|[]]]; [|unfold Newline in N; lia].
  assert (G : forall l, In l (kept_lines c) -> ~ In x l).
  { intros l IL J. assert (IL' : In l (lines c)).
    { unfold kept_lines in IL. destruct c as [|y c]; [destruct IL|]. destruct (lines (y :: c)) as [|l0 ls]; [destruct IL|].
      destruct IL as [->|IL]; [left; reflexivity|]. apply filter_In in IL as [IL _]. right. exact IL. }
    clear -IL' J N. revert l IL' J. induction c as [|y c IH]; intros l IL J.
    - destruct IL as [<-|[]]. destruct J.
    - cbn [lines] in IL. destruct ((y =? 13) || (y =? 10)) eqn:E.
      + destruct IL as [<-|IL]; [destruct J|]. eauto.
      + destruct (lines c) as [|l0 ls]; [destruct IL as [<-|[]]; destruct J as [->|[]]|
          destruct IL as [<-|IL]; [destruct J as [->|J]|]].
        * apply (proj2 (is_nl_iff x)) in N. unfold is_nl in N. congruence.
        * apply (proj2 (is_nl_iff x)) in N. unfold is_nl in N. congruence.
        * eapply IH; [left; reflexivity|exact J].
        * eapply IH; [right; exact IL|exact J]. }
  assert (K : forall ls ps, Forall2 without_margin ls ps -> In q ps -> exists l, In l ls /\ without_margin l q).
  { clear. induction 1 as [|l p ls ps W F IH]; [intros []|]. intros [->|I]; [exists l; cbn; auto|].
    destruct (IH I) as (l' & J & W'). exists l'. cbn. auto. }
  destruct (K _ _ F IQ) as (l & IL & w & -> & _). apply (G _ IL). apply in_or_app. right. exact IX.
Qed.
Print Assumptions C37_no_line_ends.

Example C37_case :
  normalise (bytes "/* GNU General" ++ [10] ++ bytes " *  Public License" ++ [13; 10] ++ bytes " */")
  = Ok (bytes "GNU General Public License  ").
Proof. vm_compute. reflexivity. Qed.

(** The last line fills the buffer to the last byte; then it has no terminating NUL (its
    length is passed to the library). *)
Example C37_full : normalise (bytes "GPL") = Ok (bytes "GPL ").
Proof. vm_compute. reflexivity. Qed.

Fixpoint two_blanks (c : list Z) : bool :=
  match c with x :: ((y :: _) as c') => ((x =? 32) && (y =? 32)) || two_blanks c' | _ => false end.
Lemma two_blanks_true c a b : c = a ++ [32; 32] ++ b -> two_blanks c = true.
Proof.
  revert c. induction a as [|x a IH]; intros c ->; [reflexivity|]. specialize (IH _ eq_refl). cbn [app] in *.
  destruct (a ++ 32 :: 32 :: b) as [|y c] eqn:Q; [destruct a; discriminate|]. cbn [two_blanks]. cbn [two_blanks] in IH.
  rewrite IH. apply orb_true_r.
Qed.

(** Expected: separators never become two blanks.  They do where a line has only a margin, so
    expressions with single blanks (GNU GENERAL PUBLIC LICENSE of gpl3) do not match across
    such a line. *)
Theorem C37_single_blank_refuted : exists c n a b, normalise c = Ok n /\ n = a ++ [32; 32] ++ b /\ ~ occurs [32; 32] c.
Proof.
  exists (bytes "# GNU" ++ [10] ++ bytes "#" ++ [10] ++ bytes "# GENERAL" ++ [10]), (bytes "GNU  GENERAL "),
    (bytes "GNU"), (bytes "GENERAL ").
  split; [vm_compute; reflexivity|]. split; [reflexivity|]. intros (a & b & E). apply two_blanks_true in E. discriminate E.
Qed.
Print Assumptions C37_single_blank_refuted.

(** ** C35 *)
Lemma languages_last exec cs c : engine_ok exec -> (forall x, In x (cs ++ [c]) -> Z.of_nat (length x) + 1 <= int_max) ->
  exists t found, one_line c t /\ scan exec t license_map [] = Ok found /\
    forall f, languages exec (cs ++ [c]) f = Ok found.
Proof.
  intros OKE. induction cs as [|x cs IH]; intros L.
  - destruct (normalise_ok c (L c (or_introl eq_refl))) as (t & E & O & _).
    destruct (report_iff exec t OKE) as (found & S & _). exists t, found. repeat split; auto.
    intros f. cbn [app languages]. rewrite E. cbn [bind]. rewrite S. reflexivity.
  - destruct IH as (t & found & O & S & G); [intros y I; apply L; right; exact I|].
    exists t, found. repeat split; auto. intros f. cbn [app languages].
    destruct (normalise_ok x (L x (or_introl eq_refl))) as (t' & E & _ & _). rewrite E. cbn [bind].
    destruct (report_iff exec t' OKE) as (found' & S' & _). rewrite S'. cbn [bind]. apply G.
Qed.

Lemma texts_last r : r_events r <> [] -> exists cs, comment_texts r = cs ++ [last (comment_texts r) []].
Proof.
  intros N. assert (comment_texts r <> []).
  { unfold comment_texts, FileDiffSpec.languages. destruct (r_events r) as [|e es]; [congruence|]. discriminate. }
  exists (removelast (comment_texts r)). apply app_removelast_last. assumption.
Qed.

(** Exactly the licences that stand (mentioned, not as part of another mention) and are not
    superseded by a more specific one that stands are reported, for the comments of the
    language that appeared last. *)
Theorem C35_reported : forall exec r, engine_ok exec -> good_revision r -> r_events r <> [] ->
  exists pls ls t, run_callbacks (r_text r) [] (r_events r) = Ok pls /\ ohcount_detect_license exec pls = Ok ls /\
    one_line (last (comment_texts r) []) t /\ forall l, In l ls <-> to_report exec t l.
Proof.
  intros exec r OKE G N. destruct (comments_ok r G) as (pls & E & C & _).
  destruct (texts_last r N) as (cs & CS).
  destruct (languages_last exec cs (last (comment_texts r) []) OKE) as (t & found & O & S & L).
  { rewrite <- CS. unfold comment_texts. intros x I. apply in_map_iff in I as (g & <- & _). apply comment_size. exact G. }
  rewrite <- CS in L.
  exists pls, (report found), t. split; [exact E|]. split; [|split; [exact O|]].
  - unfold ohcount_detect_license. rewrite C. cbn [bind]. unfold detect. destruct (comment_texts r) eqn:D.
    + destruct cs; discriminate.
    + rewrite L. reflexivity.
  - destruct (report_iff exec t OKE) as (found' & S' & R). rewrite S in S'. injection S' as <-. exact R.
Qed.
Print Assumptions C35_reported.

(** A licence and one that is more specific are never both reported. *)
Theorem C35_exclusive : forall exec r pls ls, engine_ok exec -> good_revision r ->
  run_callbacks (r_text r) [] (r_events r) = Ok pls -> ohcount_detect_license exec pls = Ok ls ->
  forall l l', In l ls -> In l' ls -> ~ In (l_name l, l_name l') more_specific.
Proof.
  intros exec r pls ls OKE G E D l l' I I' SP.
  destruct (r_events r) as [|e es] eqn:EV.
  { cbn in E. injection E as <-. injection D as <-. destruct I. }
  rewrite <- EV in *. destruct (C35_reported exec r OKE G) as (pls' & ls' & t & E' & D' & O & R); [rewrite EV; discriminate|].
  rewrite E in E'. injection E' as <-. rewrite D in D'. injection D' as <-.
  apply R in I as (_ & _ & N). apply R in I' as (IN & (m & ST) & _). apply N. exists l', m. auto.
Qed.
Print Assumptions C35_exclusive.

(** If a licence is mentioned at all, something is reported. *)
Lemma stands_exists exec t l m : engine_ok exec -> In l license_map -> mentioned exec t l m ->
  exists l' m', In l' license_map /\ stands exec t l' m' /\ (m' = m \/ part_of m m').
Proof.
  intros OKE I M. destruct (scan_stands exec OKE t) as (ms & _ & F & P).
  destruct (Forall2_in_l _ _ _ _ F I) as (y & IY & RY). pose proof (proj2 (RY m) M) as ->.
  assert (IM : In m (somes ms)) by (apply in_somes; eapply in_combine_r; eauto).
  destruct (largest _ _ P m IM) as (m' & IM' & C & N). apply in_somes in IM'.
  assert (exists l', In (l', Some m') (combine license_map ms)) as (l' & IL).
  { clear -F IM'. induction F as [|p q a b r F IH]; [destruct IM'|]. destruct IM' as [-> |IX].
    - exists p. left. reflexivity.
    - destruct (IH IX) as (l' & H). exists l'. right. exact H. }
  pose proof (Forall2_combine _ _ _ F) as FC. rewrite Forall_forall in FC. specialize (FC _ IL). cbn in FC.
  exists l', m'. split; [eapply in_combine_l; eauto|]. split; [|exact C]. split; [apply FC; reflexivity|].
  intros l2 m2 I2 M2. apply N. destruct (Forall2_in_l _ _ _ _ F I2) as (y2 & IY2 & RY2).
  apply (proj2 (RY2 m2)) in M2. subst y2. apply in_somes. eapply in_combine_r; eauto.
Qed.

Lemma to_report_dec exec t l m : engine_ok exec -> In l license_map -> stands exec t l m ->
  to_report exec t l \/ exists l' m', In l' license_map /\ In (l_name l, l_name l') more_specific /\ stands exec t l' m'.
Proof.
  intros OKE I S. destruct (report_iff exec t OKE) as (found & _ & R).
  destruct (in_dec (fun a b : license => ltac:(repeat decide equality) : {a = b} + {a <> b}) l (report found)) as [J|J].
  - left. apply R. exact J.
  - right. destruct (scan_stands exec OKE t) as (ms & SC & F & P).
    pose proof (alive_iff exec t ms F P) as AL.
    destruct (overridden (combine license_map (map (value ms) ms)) l) eqn:O.
    + apply overridden_iff in O as ((l' & v) & I' & L & SP). cbn [fst snd] in *.
      assert (IL' : In l' license_map) by (eapply in_combine_l; eauto).
      destruct (proj1 (AL l' IL')) as (m' & ST); [eauto|]. exists l', m'. auto.
    + exfalso. apply J. apply R. split; [exact I|]. split; [eauto|]. intros (l' & m' & I' & SP & ST).
      assert (overridden (combine license_map (map (value ms) ms)) l = true); [|congruence]. apply overridden_iff.
      destruct (proj2 (AL l' I')) as (v & IV & LV); [eauto|]. exists (l', v). auto.
Qed.

Theorem C35_something : forall exec t l m, engine_ok exec -> In l license_map -> mentioned exec t l m ->
  exists l', to_report exec t l'.
Proof.
  intros exec t l m OKE I M. destruct (stands_exists exec t l m OKE I M) as (l0 & m0 & I0 & S0 & _).
  destruct (to_report_dec exec t l0 m0 OKE I0 S0) as [R|(l1 & m1 & I1 & P1 & S1)]; [eauto|].
  destruct (to_report_dec exec t l1 m1 OKE I1 S1) as [R|(l2 & m2 & I2 & P2 & S2)]; [eauto|].
  destruct (to_report_dec exec t l2 m2 OKE I2 S2) as [R|(l3 & m3 & I3 & P3 & S3)]; [eauto|]. exfalso.
  unfold more_specific in *. cbn [In] in *.
  repeat match goal with H : _ \/ _ |- _ => destruct H as [H|H] | H : False |- _ => destruct H end;
  injection P1 as A1 B1; injection P2 as A2 B2; injection P3 as A3 B3; congruence.
Qed.
Print Assumptions C35_something.

(** ** C36 *)
(** The comments of the other languages do not matter. *)
Theorem C36_last_language_only : forall exec r r' pls pls' ls ls', engine_ok exec -> good_revision r -> good_revision r' ->
  r_events r <> [] -> r_events r' <> [] -> last (comment_texts r) [] = last (comment_texts r') [] ->
  run_callbacks (r_text r) [] (r_events r) = Ok pls -> run_callbacks (r_text r') [] (r_events r') = Ok pls' ->
  ohcount_detect_license exec pls = Ok ls -> ohcount_detect_license exec pls' = Ok ls' -> ls = ls'.
Proof.
  intros exec r r' pls pls' ls ls' OKE G G' N N' L E E' D D'.
  destruct (comments_ok r G) as (x & X & C & _). rewrite E in X. injection X as <-.
  destruct (comments_ok r' G') as (x & X & C' & _). rewrite E' in X. injection X as <-.
  destruct (texts_last r N) as (cs & CS). destruct (texts_last r' N') as (cs' & CS').
  destruct (languages_last exec cs (last (comment_texts r) []) OKE) as (t & found & O & S & LA).
  { rewrite <- CS. unfold comment_texts. intros y I. apply in_map_iff in I as (g & <- & _). apply comment_size. exact G. }
  destruct (languages_last exec cs' (last (comment_texts r') []) OKE) as (t' & found' & O' & S' & LA').
  { rewrite <- CS'. unfold comment_texts. intros y I. apply in_map_iff in I as (g & <- & _). apply comment_size. exact G'. }
  rewrite <- CS in LA. rewrite <- CS' in LA'. rewrite L in O. pose proof (one_line_fun _ _ _ O O') as ->.
  rewrite S in S'. injection S' as <-.
  unfold ohcount_detect_license in D, D'. rewrite C in D. rewrite C' in D'. cbn [bind] in D, D'. unfold detect in D, D'.
  destruct (comment_texts r) eqn:Q; [destruct cs; discriminate|]. destruct (comment_texts r') eqn:Q'; [destruct cs'; discriminate|].
  rewrite LA in D. rewrite LA' in D'. cbn [bind] in *. congruence.
Qed.
Print Assumptions C36_last_language_only.

(** With one language all its comments count. *)
Theorem C36_one_language : forall exec r g, engine_ok exec -> good_revision r -> r_events r <> [] ->
  (forall e, In e (r_events r) -> e_lang e = g) ->
  exists pls ls t, run_callbacks (r_text r) [] (r_events r) = Ok pls /\ ohcount_detect_license exec pls = Ok ls /\
    one_line (comment_text r g) t /\ forall l, In l ls <-> to_report exec t l.
Proof.
  intros exec r g OKE G N A. destruct (C35_reported exec r OKE G N) as (pls & ls & t & E & D & O & R).
  exists pls, ls, t. repeat split; auto; try apply R.
  replace (comment_text r g) with (last (comment_texts r) []); [exact O|].
  assert (H : first_occ (FileDiffSpec.languages r) = [g]).
  { unfold FileDiffSpec.languages. pose proof (nodup_first_occ (map e_lang (r_events r))) as ND.
    assert (F : forall x, In x (first_occ (map e_lang (r_events r))) -> x = g).
    { intros x I. apply (proj1 (in_first_occ _ _)) in I. apply in_map_iff in I as (e & <- & I). auto. }
    destruct (first_occ (map e_lang (r_events r))) as [|x l] eqn:Q.
    - destruct (r_events r); [congruence|discriminate].
    - rewrite (F x (or_introl eq_refl)) in *. destruct l as [|y l]; [reflexivity|].
      rewrite (F y (or_intror (or_introl eq_refl))) in ND. inversion ND as [|? ? ND1 _]. cbn in ND1. tauto. }
  unfold comment_texts. rewrite H. reflexivity.
Unshelve. all: auto.
Qed.
Print Assumptions C36_one_language.

(** ** Cases, with the engine of RegexModel *)
Lemma exec_engine_ok : engine_ok exec.
Proof.
  intros fl x t m0 m1 H. apply exec_some in H as (r & u & w & v & _ & -> & _ & -> & ->).
  rewrite !app_length. lia.
Qed.

(** A file whose lines are [ls] (language, kind, text). *)
Fixpoint spans (p : Z) (ls : list (string * string * list Z)) : list event :=
  match ls with
  | [] => []
  | (g, k, t) :: r => let e := p + Z.of_nat (length t) in mkEvent g k p e :: spans e r
  end.
Definition file (ls : list (string * string * list Z)) : revision := mkRev (concat (map snd ls)) (spans 0 ls).
Definition line (x : string) : list Z := bytes x ++ [10].

Definition licenses_of (r : revision) : res (list string) :=
  pls <- run_callbacks (r_text r) [] (r_events r) ;; ls <- ohcount_detect_license exec pls ;; Ok (map l_name ls).

(** A check that a file is as the parsers report it. *)
Definition event_good (text : list Z) (e : event) : bool :=
  ((String.eqb (e_entity e) "lcode" || String.eqb (e_entity e) "lcomment")
     && existsb (fun c => negb (blank c)) (slice text (e_start e) (e_end e + 1))
   || String.eqb (e_entity e) "lblank")
  && (0 <=? e_start e) && (e_start e <=? e_end e) && (e_end e <=? Z.of_nat (length text)).
Fixpoint events_ordered (from : Z) (es : list event) : bool :=
  match es with
  | [] => true
  | e :: r => (from <=? e_start e) && (e_start e <=? e_end e) && events_ordered (e_end e) r
  end.
Definition revision_good (r : revision) : bool :=
  forallb (fun c => negb (c =? 0)) (r_text r) && (Z.of_nat (length (r_text r)) + 5 <=? int_max) &&
  (Z.of_nat (length (r_events r)) <=? int_max) && forallb (event_good (r_text r)) (r_events r) &&
  events_ordered 0 (r_events r).

Lemma revision_good_ok r : revision_good r = true -> good_revision r.
Proof.
  unfold revision_good. rewrite !andb_true_iff, !Z.leb_le. intros [[[[A B] C] D] E].
  rewrite forallb_forall in A, D. apply ordered_good; auto.
  - intros I. specialize (A _ I). discriminate.
  - apply Forall_forall. intros e I. specialize (D e I). unfold event_good in D.
    rewrite !andb_true_iff, orb_true_iff, andb_true_iff, orb_true_iff, !String.eqb_eq, !Z.leb_le in D.
    destruct D as [[[D1 D2] D3] D4]. split; [tauto|]. split; [lia|]. split; [lia|]. intros N.
    destruct D1 as [[_ D1]|D1]; [|congruence]. apply existsb_exists in D1 as (c & IC & NC).
    right. exists c. split; [exact IC|]. destruct (blank c); [discriminate|reflexivity].
  - clear -E. revert E. generalize 0. induction (r_events r) as [|e es IH]; intros f; cbn; [auto|].
    rewrite !andb_true_iff, !Z.leb_le. intros [[H1 H2] H3]. split; [lia|]. apply IH. exact H3.
Qed.
Ltac good := apply revision_good_ok; vm_compute; reflexivity.

Definition ex_gpl : revision := file
  [ ("c", "lcomment", line "/* You may copy this under the terms of the gnu");
    ("c", "lcomment", line " *   General Public LICENSE, version");
    ("c", "lcomment", line " * 2, or the MIT license.");
    ("c", "lcomment", line " */");
    ("c", "lcode", line "int mit_license;") ].
Example C35_case : good_revision ex_gpl /\ licenses_of ex_gpl = Ok ["gpl"; "mit"].
Proof. split; [good|vm_compute; reflexivity]. Qed.

(** The more specific one wins. *)
Definition ex_gpl3 : revision := file
  [ ("c", "lcomment", line "// GNU General Public License version 3 or");
    ("c", "lcomment", line "// (at your option) any later version") ].
Example C35_case_gpl3 : good_revision ex_gpl3 /\ licenses_of ex_gpl3 = Ok ["gpl3_or_later"].
Proof. split; [good|vm_compute; reflexivity]. Qed.

(** Expected: a licence mentioned on its own is reported whatever else is mentioned, unless a
    more specific one is reported.  But only the first match of each expression is looked at:
    the GPL in Lesser GPL is part of another mention, and the later one is not seen. *)
Theorem C35_every_mention_refuted : exists above line l,
  good_revision (file [line]) /\ good_revision (file (above ++ [line])) /\
  (exists ls, licenses_of (file [line]) = Ok ls /\ In l ls) /\
  (exists ls, licenses_of (file (above ++ [line])) = Ok ls /\ ~ In l ls /\
     forall l', In l' ls -> ~ In (l, l') more_specific).
Proof.
  exists [("c", "lcomment", line "// The library is under the Lesser GPL,")],
    ("c", "lcomment", line "// the program under the GPL."), "gpl".
  split; [good|]. split; [good|]. split.
  - exists ["gpl"]. split; [vm_compute; reflexivity|left; reflexivity].
  - exists ["lgpl"]. split; [vm_compute; reflexivity|]. split.
    + intros [H|[]]; discriminate.
    + intros l' [<-|[]] H. cbn in H. repeat (destruct H as [H|H]; [discriminate H|]). exact H.
Qed.
Print Assumptions C35_every_mention_refuted.

(** Expected: the licences mentioned in the comments of every language are reported.  Only the
    language that appeared last counts: here the comment at the top is in another one. *)
Theorem C36_all_languages_refuted : exists r g t l,
  good_revision r /\ In g (FileDiffSpec.languages r) /\ one_line (comment_text r g) t /\ to_report exec t l /\
  licenses_of r = Ok [].
Proof.
  set (r := file [ ("html", "lcomment", line "<!-- Released under the MIT license. -->");
                   ("javascript", "lcode", line "f();") ]).
  assert (G : good_revision r) by good.
  assert (G' : good_revision (file [("html", "lcomment", line "<!-- Released under the MIT license. -->")])) by good.
  destruct (C36_one_language exec _ "html" exec_engine_ok G') as (pls & ls & t & E & D & O & R);
    [discriminate|intros e [<-|[]]; reflexivity|].
  assert (M : exists l, In l ls).
  { assert (licenses_of (file [("html", "lcomment", line "<!-- Released under the MIT license. -->")]) = Ok ["mit"])
      by (vm_compute; reflexivity).
    unfold licenses_of in H. rewrite E in H. cbn [bind] in H. rewrite D in H. cbn [bind] in H.
    destruct ls as [|l ls]; [discriminate|]. exists l. left. reflexivity. }
  destruct M as (l & M). exists r, "html", t, l. split; [exact G|]. split; [left; reflexivity|].
  split; [exact O|]. split; [apply R; exact M|]. vm_compute. reflexivity.
Qed.
Print Assumptions C36_all_languages_refuted.

(** The hypotheses of C36_last_language_only are met by files that differ in the first language. *)
Example C36_case :
  let r := file [("html", "lcomment", line "<!-- MIT license -->"); ("css", "lcomment", line "/* BSD license */")] in
  let r' := file [("css", "lcomment", line "/* BSD license */")] in
  good_revision r /\ good_revision r' /\ last (comment_texts r) [] = last (comment_texts r') [] /\
  licenses_of r = Ok ["bsd"] /\ licenses_of r' = Ok ["bsd"].
Proof. cbv zeta. split; [good|]. split; [good|]. repeat split; vm_compute; reflexivity. Qed.
