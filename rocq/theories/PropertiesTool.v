(** C57 - C61: the command line tool. *)
From Coq Require Import ZArith String Ascii List Bool Lia Permutation Sorting.Sorted.
From Verif Require Import LicenseTable LicenseModel LicenseSpec PropertiesLicense.
From Verif Require Import Base Arr LocModel LocSpec LocProofs ParsedModel ParsedSpec ParsedProofs FileDiffSpec PathModel DirModel DirSpec.
From Verif Require Import LineSpec LexSpec LexTable Tables TablesSpec DetectorModel DetectorSpec ScanSpec.
From Verif Require Import ReportModel ReportSpec PropertiesReport ToolModel ToolSpec ToolProofs.
Import ListNotations.
Open Scope string_scope.
Open Scope Z_scope.
Open Scope list_scope.

Section Tool.
  Variable pl : platform.
  Variable magic : DetectorModel.file -> list Z.
  Variable pcre : string -> list Z -> bool.
  Variable exec : RegexModel.flags -> string -> list Z -> option (Z * Z).
  Variable found : list Z -> target.
  Variable content : list Z -> option (list Z).
  Variable fuel : nat.
  Notation main := (main pl magic pcre exec found content fuel).

  Definition run (c : command) (fs : list item) : res (list output) :=
    match c with
    | Annotate => annotate pl magic pcre content fuel fs
    | Detect => detect pl magic pcre content fs
    | Help => Ok [HelpText]
    | Individual => individual pl magic pcre content fuel fs
    | Licenses => licenses pl magic pcre exec content fuel fs
    | RawEntities => raw_entities pl magic pcre content fuel fs
    | Summary => summary pl magic pcre content fuel fs
    end.

  Lemma main_eq args c paths : asks args c paths ->
    main args = ('(fs, bad) <- gather found paths ;; os <- run c fs ;; Ok (bad ++ os)).
  Proof.
    intros [a c' ps H|ps H].
    - unfold ToolModel.main. apply flag_option in H. rewrite H. reflexivity.
    - unfold ToolModel.main. destruct ps as [|a ps]; [reflexivity|].
      destruct (command_from_flag a) as [c'|] eqn:E; [|reflexivity]. apply flag_option in E. destruct (H a ps c' eq_refl E).
  Qed.

  (** What the theorems assume of an invocation: the directories are proper, every file
      named has a text with an account or the extension of a binary file, and the parsers
      are given the steps they need (C18). *)
  Definition plain_invocation (paths : list (list Z)) : Prop :=
    found [46] <> IsFile /\ Forall (proper found) (places paths) /\
    forall a p, In a (places paths) -> names_file found a p ->
      exists r, plain_file content p r /\ step_bound (r_text r) <= Z.of_nat fuel.

  Lemma invocation_ok paths : plain_invocation paths ->
    exists parts fs files, gather found paths = Ok (fs, complaints found paths) /\
      files_of found (places paths) parts /\ map fst fs = List.concat parts /\
      Forall2 (plain_file content) (List.concat parts) files /\
      Forall (fun r => step_bound (r_text r) <= Z.of_nat fuel) files /\
      Forall (fun f => sourcefile_new (fst f) = Ok (snd f)) fs.
  Proof.
    intros (H1 & H2 & H3).
    destruct (gather_ok found content paths H1 H2) as (parts & fs & E & Hf & Hm & Hs).
    { intros a p Ha Hp. destruct (H3 a p Ha Hp) as (r & Hr & _). eapply plain_split; eauto. }
    destruct (for_each fs (fun p r => plain_file content p r /\ step_bound (r_text r) <= Z.of_nat fuel)) as (files & HF).
    { intros p Hp. rewrite Hm in Hp. apply in_concat in Hp as (ps & Hps & Hp).
      assert (exists a, In a (places paths) /\ names_file found a p) as (a & Ha & Hn); [|eauto].
      clear - Hf Hps Hp. unfold files_of in Hf. induction Hf as [|a q ps' qs [_ Hq] _ IH]; [destruct Hps|].
      destruct Hps as [->|Hps]; [exists a; split; [cbn; auto|apply Hq; auto]|].
      destruct (IH Hps) as (b & Hb & Hn). exists b. cbn. auto. }
    exists parts, fs, files. split; [exact E|]. split; [exact Hf|]. split; [exact Hm|]. rewrite <- Hm.
    split; [|split; auto].
    - clear -HF. induction HF as [|p r ps rs [H _] _ IH]; constructor; auto.
    - clear -HF. induction HF as [|p r ps rs [_ H] _ IH]; constructor; auto.
  Qed.

  Lemma all_good ps files : Forall2 (plain_file content) ps files ->
    Forall (fun r => step_bound (r_text r) <= Z.of_nat fuel) files -> Forall good_revision files.
  Proof.
    induction 1 as [|p r ps rs H _ IH]; intros Hb; constructor; inversion Hb; subst; auto. eapply good_plain; eauto.
  Qed.

  (** ** C58 *)

  Theorem C58_summary_of_invocation :
    forall args paths, asks args Summary paths -> plain_invocation paths ->
    exists parts files,
      (* the files found, and what they contain *)
      files_of found (places paths) parts /\ Forall2 (plain_file content) (List.concat parts) files /\
      (Z.of_nat (length files) <= int_max -> events_total files <= int_max ->
       exists r, main args = Ok (complaints found paths ++ [SummaryReport r]) /\
         r_count r = Z.of_nat (length (List.concat parts)) /\
         Permutation (map (fun g => with_lines (entry files g)) (languages_all files)) (r_rows r) /\
         StronglySorted code_ge (map fst (r_rows r)) /\
         r_total r = mkLoc "Total" (over l_code (map (entry files) (languages_all files)))
                           (over l_comments (map (entry files) (languages_all files)))
                           (over l_blanks (map (entry files) (languages_all files)))
                           (over l_files (map (entry files) (languages_all files))) /\
         r_lines r = l_code (r_total r) + l_comments (r_total r) + l_blanks (r_total r)).
  Proof.
    intros args paths Ha Hp. destruct (invocation_ok _ Hp) as (parts & fs & files & E & Hf & Hm & HF & Hb & Hs).
    exists parts, files. split; [exact Hf|]. split; [exact HF|]. intros Hn He.
    pose proof HF as HF'. rewrite <- Hm in HF'.
    destruct (records_ok pl magic pcre content fuel fs files HF' Hs Hb) as (ls & El & HL).
    destruct (C39_summary_report files ls (all_good _ _ HF Hb) HL Hn He) as (r & Er & R1 & R2).
    exists r. rewrite (main_eq _ _ _ Ha), E. cbn [bind run]. unfold summary. rewrite El. cbn [bind]. rewrite Er. cbn [bind].
    split; [reflexivity|]. split; [|exact R2]. rewrite R1. f_equal. clear -HF. induction HF; cbn; auto.
  Qed.

  Theorem C58_individual_of_invocation :
    forall args paths, asks args Individual paths -> plain_invocation paths ->
    exists parts files,
      files_of found (places paths) parts /\ Forall2 (plain_file content) (List.concat parts) files /\
      (Z.of_nat (length files) <= int_max ->
       exists rs, main args = Ok (complaints found paths ++ [IndividualReport (Z.of_nat (length files)) (combine (List.concat parts) rs)]) /\
         Forall2 (fun f r =>
           Permutation (map (fun g => with_lines (entry [f] g)) (languages_all [f])) r /\
           StronglySorted name_le (map fst r)) files rs).
  Proof.
    intros args paths Ha Hp. destruct (invocation_ok _ Hp) as (parts & fs & files & E & Hf & Hm & HF & Hb & Hs).
    exists parts, files. split; [exact Hf|]. split; [exact HF|]. intros Hn.
    pose proof HF as HF'. rewrite <- Hm in HF'.
    destruct (records_ok pl magic pcre content fuel fs files HF' Hs Hb) as (ls & El & HL).
    destruct (C39_individual_report files ls (all_good _ _ HF Hb) HL Hn) as (rs & Er & R).
    exists rs. rewrite (main_eq _ _ _ Ha), E. cbn [bind run]. unfold individual. rewrite El. cbn [bind]. rewrite Er. cbn [bind].
    rewrite Hm. split; [reflexivity|exact R].
  Qed.

  (** ** C57 *)

  Lemma events_of_one g k es : Forall (fun e => e_lang e = g) es -> Z.of_nat (length (events_of g k es)) = count k es.
  Proof.
    intros H. unfold events_of, count. do 2 f_equal. induction H as [|e es He _ IH]; [reflexivity|].
    cbn [filter]. unfold is_event at 1. rewrite He, String.eqb_refl. cbn [andb]. rewrite IH. reflexivity.
  Qed.
  Lemma first_occ_one g es : Forall (fun e => e_lang e = g) es -> es <> [] -> first_occ (map e_lang es) = [g].
  Proof.
    intros H Hn. destruct es as [|e es]; [congruence|]. clear Hn. inversion H as [|? ? He H']; subst. clear H.
    assert (G : incl (first_occ (map e_lang (e :: es))) [e_lang e]).
    { intros x Hx. apply -> in_first_occ in Hx. apply in_map_iff in Hx as (e' & <- & [<-|Hin]); [cbn; auto|].
      rewrite Forall_forall in H'. rewrite (H' _ Hin). cbn. auto. }
    assert (G' : In (e_lang e) (first_occ (map e_lang (e :: es)))) by (apply in_first_occ; cbn; auto).
    pose proof (nodup_first_occ (map e_lang (e :: es))) as N.
    destruct (first_occ (map e_lang (e :: es))) as [|x [|y l]].
    - destruct G'.
    - destruct (G x) as [->|[]]; cbn; auto.
    - destruct (G x) as [Ex|[]]; [cbn; auto|]. destruct (G y) as [Ey|[]]; [cbn; auto|].
      exfalso. inversion N as [|? ? Hx _]; subst. apply Hx. left. congruence.
  Qed.

  Definition the_row (g : string) (es : list event) : list (loc * Z) :=
    match es with
    | [] => []
    | _ => let code := count "lcode" es in let comments := count "lcomment" es in let blanks := count "lblank" es in
           [(mkLoc g code comments blanks 1, code + comments + blanks)]
    end.

  Theorem C57_one_file :
    forall path g r flag, found path = IsFile -> source_file content path g r ->
    step_bound (r_text r) <= Z.of_nat fuel -> option_for flag Individual -> found [46] <> IsFile ->
    main [flag; path] = Ok [IndividualReport 1 [(path, the_row g (r_events r))]] /\
    (whole_lines (r_text r) ->
     count "lcode" (r_events r) + count "lcomment" (r_events r) + count "lblank" (r_events r) = line_ends (r_text r)).
  Proof.
    intros path g r flag Hfd Hs Hb Ho Hdot.
    assert (Hl : Forall (fun e => e_lang e = g) (r_events r)).
    { pose proof (source_text content g path r Hs) as Hf. destruct Hs as (e & _ & _ & _ & _ & _ & _ & Ha).
      apply (account_ok _ _ _ _ Ha Hf Hb). }
    assert (Hk : Forall (good_event (r_text r)) (r_events r)) by (eapply good_source; eauto).
    split.
    - destruct (plain_split content path r ltac:(left; eauto)) as (s & Es).
      rewrite (main_eq [flag; path] Individual [path]) by (constructor; exact Ho). cbn [gather collect]. rewrite Hfd.
      unfold add_file. rewrite Es. cbn [bind app run]. unfold individual. cbn [each].
      destruct (record_plain pl magic pcre content fuel path s r ltac:(left; eauto) Es Hb) as (E1 & l & E2).
      rewrite E1, E2. cbn [bind].
      destruct (C39_individual_report [r] [l]) as (rs & Er & HR); [constructor; [eapply good_source; eauto|constructor] | constructor; [exact E2|constructor] | cbn; unfold int_max; lia |].
      rewrite Er. cbn [bind app map combine length]. inversion HR as [|? row ? ? [HP _] HR']; subst. inversion HR'; subst.
      do 4 f_equal. f_equal. f_equal. unfold languages_all in HP. cbn [map List.concat] in HP. rewrite app_nil_r in HP.
      unfold FileDiffSpec.languages in HP. unfold the_row. destruct (r_events r) as [|e es] eqn:Ee.
      + cbn in HP. apply Permutation_nil in HP. exact HP.
      + rewrite <- Ee in *. rewrite (first_occ_one g) in HP; [|auto|congruence]. cbn [map] in HP. apply Permutation_length_1_inv in HP.
        rewrite HP. unfold with_lines, entry, lines_all, lines_in. cbn [map zsum l_code l_comments l_blanks fold_right].
        rewrite !(events_of_one g) by auto. cbn [map]. rewrite !Z.add_0_r. rewrite Ee, <- Ee. unfold files_with. cbn [filter].
        replace (existsb (String.eqb g) (FileDiffSpec.languages r)) with true; [reflexivity|].
        symmetry. apply existsb_exists. exists g. split; [|apply String.eqb_refl]. unfold FileDiffSpec.languages. apply in_map_iff.
        exists e. rewrite Ee in *. split; [inversion Hl; auto|cbn; auto].
    - intros Hw. pose proof (source_text content g path r Hs) as Hf. destruct Hs as (e & _ & _ & _ & _ & _ & _ & Ha).
      rewrite <- (account_lines _ _ _ _ Ha Hf Hb Hw). clear - Hk. unfold count.
      induction Hk as [|ev es (H & _) _ IH]; [reflexivity|]. cbn [filter length].
      destruct H as [-> |[-> | ->]]; cbn [String.eqb Ascii.eqb Bool.eqb length]; lia.
  Qed.

  (** ** C59 *)

  (** The table of options is the documented one. *)
  Theorem C59_option_table : forall a c, command_from_flag a = Some c <-> option_for a c.
  Proof. apply flag_option. Qed.

  (** Every invocation asks for exactly one thing. *)
  Theorem C59_one_command :
    forall args, exists c paths, asks args c paths /\ forall c' paths', asks args c' paths' -> c' = c /\ paths' = paths.
  Proof.
    intros args. destruct args as [|a args].
    - exists Summary, []. split; [constructor; discriminate|]. intros c' ps' H. inversion H; subst; auto.
    - destruct (command_from_flag a) as [c|] eqn:E.
      + exists c, args. apply flag_option in E. split; [constructor; exact E|]. intros c' ps' H.
        inversion H as [a' c'' ps Ho|ps Hn]; subst.
        * split; auto. apply flag_option in E, Ho. congruence.
        * destruct (Hn a args c eq_refl E).
      + exists Summary, (a :: args).
        assert (Hn : forall c, ~ option_for a c) by (intros c H; apply flag_option in H; congruence).
        split; [constructor; intros a' r c H; injection H as -> ->; apply Hn|].
        intros c' ps' H. inversion H as [a' c'' ps Ho|ps H']; subst; [destruct (Hn _ Ho)|auto].
  Qed.

  (** Help is help, whatever else is named. *)
  Theorem C59_help :
    forall args paths, asks args Help paths -> plain_invocation paths ->
    main args = Ok (complaints found paths ++ [HelpText]).
  Proof.
    intros args paths Ha Hp. destruct (invocation_ok _ Hp) as (parts & fs & files & E & _).
    rewrite (main_eq _ _ _ Ha), E. reflexivity.
  Qed.

  (** An argument that is neither a known option nor a file is complained about and
      otherwise without effect, if a path follows. *)
  Theorem C59_unknown_argument :
    forall a b paths s os, (forall c, ~ option_for a c) -> found a = Nothing -> option_for s Summary ->
    (forall c, ~ option_for b c) -> main (s :: b :: paths) = Ok os ->
    main (a :: b :: paths) = Ok (BadArgument a :: os).
  Proof.
    intros a b paths s os Ha Hf Hs Hb. rewrite (main_eq (s :: b :: paths) Summary (b :: paths)) by (constructor; exact Hs).
    rewrite (main_eq (a :: b :: paths) Summary (a :: b :: paths)).
    2:{ constructor. intros x r c E. injection E as <- <-. apply Ha. }
    cbn [gather]. intros H. remember (b :: paths) as ps. clear Heqps Hb b paths. cbn [collect]. rewrite Hf. cbn [app].
    assert (G : forall fs bad bad', collect found ps fs (bad ++ bad') =
      match collect found ps fs bad' with Ok (fs, bs) => Ok (fs, bad ++ bs) | Ub u => Ub u | OutOfFuel => OutOfFuel end).
    { clear. induction ps as [|x ps IH]; intros fs bad bad'; [reflexivity|]. cbn [collect].
      destruct (found x) as [t| |].
      - destruct (add_directory t x fs); cbn [bind]; auto.
      - destruct (add_file fs x); cbn [bind]; auto.
      - rewrite <- app_assoc. apply IH. }
    change [BadArgument a] with ([BadArgument a] ++ []) at 1. rewrite (G [] [BadArgument a] []). destruct (collect found ps [] []) as [[fs bad]| |]; cbn [bind] in *; try discriminate.
    destruct (run Summary fs) as [rs| |]; cbn [bind] in *; try discriminate. injection H as <-. reflexivity.
  Qed.

  (** But alone it does not leave the current directory to be counted. *)
  Theorem C59_unknown_alone_refuted :
    forall a, (forall c, ~ option_for a c) -> found a = Nothing ->
    main [a] = Ok [BadArgument a; SummaryReport (mkReport 0 [] (mkLoc "Total" 0 0 0 0) 0)].
  Proof.
    intros a Ha Hf. rewrite (main_eq [a] Summary [a]).
    2:{ constructor. intros x r c E. injection E as <- <-. apply Ha. }
    cbn [gather collect]. rewrite Hf. reflexivity.
  Qed.

  (** ** C60 *)

  Lemma annotate_ub text e : 0 <= e_start e < e_end e -> e_end e <= Z.of_nat (length text) ->
    annotate_callback text e = Ub OutOfBounds.
  Proof.
    intros H1 H2. unfold annotate_callback. destruct (Z.leb_spec (e_end e - e_start e) 0) as [L|L]; [lia|].
    destruct (strncpy_ok text (Z.to_nat (e_end e - e_start e)) (anew (e_end e - e_start e)) 0 (e_start e) false) as (b & -> & Hs & _);
      [lia|cbn; lia|lia|]. cbn [bind]. unfold aset, inb. rewrite Hs. cbn [asize anew].
    rewrite (proj2 (Z.ltb_ge _ _)) by lia. rewrite andb_false_r. reflexivity.
  Qed.

  Lemma plain_unique p r r' : plain_file content p r -> plain_file content p r' ->
    step_bound (r_text r') <= Z.of_nat fuel -> r_events r = r_events r'.
  Proof.
    intros H H' Hb. destruct (plain_split content p r H) as (s & Es). destruct H as [[g H]|H], H' as [[g' H']|H'].
    - pose proof (language_source pl magic pcre content p s g r H Es) as L. rewrite (language_source pl magic pcre content p s g' r' H' Es) in L.
      injection L as ->. assert (Et : r_text r = r_text r').
      { destruct H as (? & _ & _ & _ & E & _). destruct H' as (? & _ & _ & _ & E' & _). congruence. }
      pose proof (source_text content _ _ _ H') as Hf. destruct H as (? & _ & _ & _ & _ & _ & _ & A). destruct H' as (? & _ & _ & _ & _ & _ & _ & A').
      rewrite Et in A. destruct (account_ok _ _ _ _ A Hf Hb) as (E & _). destruct (account_ok _ _ _ _ A' Hf Hb) as (E' & _). congruence.
    - pose proof (language_source pl magic pcre content p s g r H Es) as L.
      rewrite (language_binary pl magic pcre content p s r' H' Es) in L. discriminate.
    - pose proof (language_source pl magic pcre content p s g' r' H' Es) as L.
      rewrite (language_binary pl magic pcre content p s r H Es) in L. discriminate.
    - destruct H as (? & _ & _ & ->), H' as (? & _ & _ & ->). reflexivity.
  Qed.

  (** With -a, every invocation about a file with a line writes out of bounds. *)
  Theorem C60_annotate_refuted :
    forall args paths, asks args Annotate paths -> plain_invocation paths ->
    (exists a p r, In a (places paths) /\ names_file found a p /\ plain_file content p r /\ r_events r <> []) ->
    main args = Ub OutOfBounds.
  Proof.
    intros args paths Ha Hp (a & p & r & Hin & Hn & Hr & He).
    destruct (invocation_ok _ Hp) as (parts & fs & files & E & Hf & Hm & HF & Hb & Hs).
    rewrite (main_eq _ _ _ Ha), E. cbn [bind run]. unfold annotate.
    enough (each (fun f => es <- reports_of pl magic pcre content fuel f ;; each (annotate_callback (text_of content f)) es) fs = Ub OutOfBounds) as ->
      by reflexivity.
    assert (Hp' : In p (map fst fs)).
    { rewrite Hm. apply in_concat. clear - Hf Hin Hn. unfold files_of in Hf. induction Hf as [|b q ps qs [_ Hq] _ IH]; [destruct Hin|].
      destruct Hin as [->|Hin]; [exists q; split; [cbn; auto|apply Hq; auto]|].
      destruct (IH Hin) as (q' & H1 & H2). exists q'. cbn. auto. }
    rewrite <- Hm in HF. clear - Hp' HF Hb Hs Hr He. revert files HF Hb. induction fs as [|[q s] fs IH]; [destruct Hp'|].
    intros files HF Hb. cbn [map fst] in *. inversion HF as [|? r' ? files' Hr' HF']; subst.
    inversion Hs as [|? ? Es Hs']; subst. inversion Hb as [|? ? Hb1 Hb2]; subst. cbn [fst snd] in *.
    assert (Hrep : reports_of pl magic pcre content fuel (q, s) = Ok (r_events r')).
    { destruct Hr' as [[g H]|H]; [eapply reports_source; eauto|eapply reports_binary; eauto]. }
    cbn [each]. rewrite Hrep. cbn [bind]. destruct (r_events r') as [|e es] eqn:Ee.
    - cbn [each bind]. assert (Hin : In p (map fst fs)).
      { destruct Hp' as [<-|Hp']; [|exact Hp']. exfalso. apply He. rewrite <- Ee. eapply plain_unique; eauto. }
      erewrite IH; eauto.
    - cbn [each]. destruct Hr' as [[g H]|(? & _ & _ & ->)]; [|discriminate Ee].
      rewrite (text_source content q s g r' H).
      pose proof (source_text content g q r' H) as Hf. destruct H as (? & _ & _ & _ & _ & _ & _ & Hacc).
      destruct (account_ok _ _ _ _ Hacc Hf Hb1) as (Ep & Ho & Hne & _). pose proof (PropertiesTail.parse_good _ _ _ _ Hf Ep) as Hg.
      rewrite Ee in *. inversion Hne; inversion Hg as [|? ? (_ & G1 & G2 & _) _]; subst.
      rewrite annotate_ub; [reflexivity|lia|lia].
  Qed.

  (** ** C61 *)

  (** With -d, the language and the path of every file, if all of them are source files. *)
  Theorem C61_detect :
    forall args paths, asks args Detect paths -> plain_invocation paths ->
    (forall a p, In a (places paths) -> names_file found a p -> exists g r, source_file content p g r) ->
    exists parts gs, files_of found (places paths) parts /\
      Forall2 (fun p g => exists r, source_file content p g r) (List.concat parts) gs /\
      main args = Ok (complaints found paths ++ map (fun x => Detected (snd x) (fst x)) (combine (List.concat parts) gs)).
  Proof.
    intros args paths Ha Hp Hsrc. destruct (invocation_ok _ Hp) as (parts & fs & files & E & Hf & Hm & _ & _ & Hs).
    assert (G : exists gs, Forall2 (fun p g => exists r, source_file content p g r) (map fst fs) gs).
    { assert (Hall : forall p, In p (map fst fs) -> exists g r, source_file content p g r).
      { intros p H. rewrite Hm in H. apply in_concat in H as (ps & Hps & H). clear - Hf Hsrc Hps H.
        revert Hsrc. unfold files_of in Hf. induction Hf as [|a q ps' qs [_ Hq] _ IH]; [destruct Hps|]. intros Hsrc.
        destruct Hps as [->|Hps]; [apply (Hsrc a); [cbn; auto|apply Hq; auto]|].
        apply IH; auto. intros b p' Hb. apply Hsrc. cbn. auto. }
      clear - Hall. induction fs as [|f fs IH]; [exists []; constructor|].
      destruct (Hall (fst f)) as (g & Hg); [cbn; auto|]. destruct IH as (gs & H); [intros p H; apply Hall; cbn; auto|].
      exists (g :: gs). constructor; auto. }
    destruct G as (gs & HG). exists parts, gs. split; [exact Hf|]. rewrite <- Hm. split; [exact HG|].
    rewrite (main_eq _ _ _ Ha), E. cbn [bind run].
    enough (detect pl magic pcre content fs = Ok (map (fun x => Detected (snd x) (fst x)) (combine (map fst fs) gs))) as -> by reflexivity.
    unfold detect. clear - HG Hs. revert gs HG. induction Hs as [|[p s] fs Es _ IH]; intros gs HG; inversion HG as [|? g ? gs' [r Hr] HG']; subst; [reflexivity|].
    cbn [each]. cbn [fst snd] in *. rewrite (language_source pl magic pcre content p s g r Hr Es). cbn [bind].
    rewrite (IH _ HG'). reflexivity.
  Qed.

  (** But a file of a known binary kind makes it print a null pointer. *)
  Theorem C61_detect_refuted :
    forall args paths, asks args Detect paths -> plain_invocation paths ->
    (exists a p r, In a (places paths) /\ names_file found a p /\ binary_file p r) ->
    main args = Ub NullDeref.
  Proof.
    intros args paths Ha Hp (a & p & r & Hin & Hn & Hr).
    destruct (invocation_ok _ Hp) as (parts & fs & files & E & Hf & Hm & HF & Hb & Hs).
    rewrite (main_eq _ _ _ Ha), E. cbn [bind run].
    enough (detect pl magic pcre content fs = Ub NullDeref) as -> by reflexivity. unfold detect.
    assert (Hp' : In p (map fst fs)).
    { rewrite Hm. apply in_concat. clear - Hf Hin Hn. unfold files_of in Hf. induction Hf as [|b q ps qs [_ Hq] _ IH]; [destruct Hin|].
      destruct Hin as [->|Hin]; [exists q; split; [cbn; auto|apply Hq; auto]|].
      destruct (IH Hin) as (q' & H1 & H2). exists q'. cbn. auto. }
    rewrite <- Hm in HF. clear - Hp' HF Hs Hr. revert files HF. induction fs as [|[q s] fs IH]; [destruct Hp'|].
    intros files HF. cbn [map fst] in *. inversion HF as [|? r' ? files' Hr' HF']; subst.
    inversion Hs as [|? ? Es Hs']; subst. cbn [fst snd each] in *. destruct Hr' as [[g H]|H].
    - rewrite (language_source pl magic pcre content q s g r' H Es). cbn [bind].
      assert (Hin : In p (map fst fs)).
      { destruct Hp' as [<-|Hp']; [|exact Hp']. exfalso.
        pose proof (language_source pl magic pcre content q s g r' H Es) as L.
        rewrite (language_binary pl magic pcre content q s r Hr Es) in L. discriminate. }
      erewrite IH; eauto.
    - rewrite (language_binary pl magic pcre content q s r' H Es). reflexivity.
  Qed.

  (** ** C62 *)

  Lemma license_lines_printed f ls : license_lines f ls = printed f ls.
  Proof.
    induction ls as [|l ls IH]; [reflexivity|]. cbn [license_lines]. rewrite IH. destruct ls as [|l' ls]; [reflexivity|].
    unfold printed. change (removelast (l :: l' :: ls)) with (l :: removelast (l' :: ls)). cbn [map app]. f_equal. f_equal.
    cbn [rev]. destruct (rev ls) as [|x xs]; reflexivity.
  Qed.

  (** The licences that a file mentions in its comments. *)
  Definition licenses_in (p : list Z) (ls : list license) : Prop :=
    exists r, plain_file content p r /\
      ((r_events r = [] /\ ls = []) \/
       exists g t, source_file content p g r /\ one_line (comment_text r g) t /\
         subsequence ls license_map /\ forall l, In l ls <-> to_report exec t l).

  Theorem C62_licenses :
    forall args paths, engine_ok exec -> asks args Licenses paths -> plain_invocation paths ->
    exists parts names lss, files_of found (places paths) parts /\
      Forall2 base_name (List.concat parts) names /\ Forall2 licenses_in (List.concat parts) lss /\
      main args = Ok (complaints found paths ++ List.concat (map (fun x => printed (fst x) (snd x)) (combine names lss))).
  Proof.
    intros args paths Hx Ha Hp. destruct (invocation_ok _ Hp) as (parts & fs & files & E & Hf & Hm & HF & Hb & Hs).
    exists parts. rewrite (main_eq _ _ _ Ha), E. cbn [bind run]. rewrite <- Hm in *.
    assert (G : exists names lss, Forall2 base_name (map fst fs) names /\ Forall2 licenses_in (map fst fs) lss /\
      each (fun f => r <- record_of pl magic pcre content fuel f ;; ls <- ohcount_detect_license exec r ;;
                     Ok (license_lines (filename_of (fst f) (snd f)) ls)) fs
      = Ok (map (fun x => printed (fst x) (snd x)) (combine names lss))).
    { clear - HF Hb Hs Hx. revert files HF Hb. induction Hs as [|[p s] fs Es _ IH]; intros files HF Hb; inversion HF as [|? r ? files' Hr HF']; subst.
      - exists [], []. repeat split; constructor.
      - inversion Hb as [|? ? Hb1 Hb2]; subst. destruct (IH _ HF' Hb2) as (names & lss & H1 & H2 & H3). cbn [fst snd] in *.
        destruct (record_plain pl magic pcre content fuel p s r Hr Es Hb1) as (E1 & l & E2).
        assert (L : exists ls, ohcount_detect_license exec l = Ok ls /\ licenses_in p ls).
        { destruct (r_events r) as [|e es] eqn:Ee.
          - cbn in E2. injection E2 as <-. exists []. split; [reflexivity|]. exists r. rewrite Ee. auto.
          - pose proof Hr as Hr'. destruct Hr as [[g Hg]|(? & _ & _ & ->)]; [|discriminate].
            assert (Hl : Forall (fun e => e_lang e = g) (r_events r)).
            { pose proof (source_text content g p r Hg) as Hft. destruct Hg as (? & _ & _ & _ & _ & _ & _ & Hacc).
              apply (account_ok _ _ _ _ Hacc Hft Hb1). }
            rewrite <- Ee in E2.
            destruct (C36_one_language exec r g Hx (good_source content fuel p g r Hg Hb1)) as (pls & ls & t & F1 & F2 & F3 & F4).
            { congruence. } { apply Forall_forall. exact Hl. }
            rewrite F1 in E2. injection E2 as <-. exists ls. split; [exact F2|]. exists r. split; [exact Hr'|]. right. exists g, t.
            split; [exact Hg|]. split; [exact F3|]. split; [apply (C34_report _ _ _ F2)|exact F4]. }
        destruct L as (ls & L1 & L2). exists (filename_of p s :: names), (ls :: lss).
        split; [|split].
        + constructor; [|exact H1].
          destruct (PropertiesPath.C25_path_split p) as (s' & Es' & S1 & S2 & _).
          { destruct Hr as [[g (e & (fr & -> & _) & _)]|(e & (fr & -> & _) & _)]; exists 46; (split; [apply in_app_iff; cbn; auto|left; reflexivity]). }
          rewrite Es in Es'. injection Es' as <-. split.
          * intros c Hc. specialize (S1 _ Hc). unfold PropertiesPath.separator in S1. split; intros ->; apply S1; auto.
          * destruct S2 as [[S2 _]|(c & Hc & S2)]; [left; exact S2|right; eauto].
        + constructor; auto.
        + cbn [each]. rewrite E1, E2. cbn [bind]. rewrite L1. cbn [bind]. rewrite H3. cbn [bind fst snd combine map].
          rewrite license_lines_printed. reflexivity. }
    destruct G as (names & lss & H1 & H2 & H3). exists names, lss. split; [exact Hf|]. split; [exact H1|]. split; [exact H2|].
    unfold licenses. rewrite H3. reflexivity.
  Qed.
End Tool.

Print Assumptions C57_one_file.
Print Assumptions C58_summary_of_invocation.
Print Assumptions C58_individual_of_invocation.
Print Assumptions C59_option_table.
Print Assumptions C59_one_command.
Print Assumptions C59_help.
Print Assumptions C59_unknown_argument.
Print Assumptions C59_unknown_alone_refuted.
Print Assumptions C60_annotate_refuted.
Print Assumptions C61_detect.
Print Assumptions C61_detect_refuted.
Print Assumptions C62_licenses.

(** ** A case *)

Definition nl : string := String "010"%char "".
(** A directory "t" with two C files and an image, and a file "x.rb" beside it. *)
Definition ex_dir : fsnode :=
  Dir (Some [ (bytes ".", Dir None); (bytes "..", Dir None); (bytes "a.c", Reg); (bytes "i.png", Reg);
              (bytes "lib", Dir (Some [(bytes "m.c", Reg)])) ]).
Definition ex_found (a : list Z) : target :=
  if list_eq_dec Z.eq_dec a (bytes "t") then IsDir ex_dir
  else if list_eq_dec Z.eq_dec a (bytes "x.rb") then IsFile else Nothing.
Definition ex_text (p : list Z) : string :=
  if list_eq_dec Z.eq_dec p (bytes "t/a.c") then "/* x */" ++ nl ++ "int a;" ++ nl ++ nl
  else if list_eq_dec Z.eq_dec p (bytes "t/lib/m.c") then "f(); // y" ++ nl
  else if list_eq_dec Z.eq_dec p (bytes "x.rb") then "# z" ++ nl ++ "puts 1" ++ nl else "".
Definition ex_content (p : list Z) : option (list Z) := Some (bytes (ex_text p)).
Definition ex_fuel : nat := Z.to_nat 50000.
Definition ex_main : list (list Z) -> res (list output) :=
  main strict (fun _ => []) (fun _ _ => false) (fun _ _ _ => None) ex_found ex_content ex_fuel.

Lemma known_extension k v : find (fun p => String.eqb (fst p) k && String.eqb (snd p) v) extensions = Some (k, v) ->
  extension_says (bytes k) v.
Proof. intros H. apply find_some in H as [H _]. exists k. auto. Qed.
Lemma known_language k l : find (fun p => String.eqb (fst p) k) languages = Some (k, l) -> is_language (l_name l).
Proof. intros H. apply find_some in H as [H _]. exists k, l. auto. Qed.
Lemma known_lexis g x : find (fun p => String.eqb (fst p) g) lexes = Some (g, x) -> In (g, x) lexes.
Proof. intros H. apply find_some in H as [H _]. exact H. Qed.

Lemma ex_source p front e g es : p = front ++ [46] ++ bytes e ->
  forallb (fun c => negb (c =? 46) && negb (c =? 47) && negb (c =? 92)) (bytes e) = true ->
  find (fun p => String.eqb (fst p) e && String.eqb (snd p) g) extensions = Some (e, g) ->
  match find (fun p => String.eqb (fst p) g) languages with Some (k, l) => k = g /\ l_name l = g | None => False end ->
  match find (fun p => String.eqb (fst p) g) lexes with
  | Some (k, x) => k = g /\ lex_lines x g (bytes (ex_text p)) = Some es
  | None => False
  end ->
  forallb (fun c => (0 <? c) && (c <? 256)) (bytes (ex_text p)) && (step_bound (bytes (ex_text p)) <=? 50000) = true ->
  source_file ex_content p g (mkRev (bytes (ex_text p)) es).
Proof.
  intros Hp He Hs Hl Hx Hc. apply andb_prop in Hc as [Hc Hb]. apply Z.leb_le in Hb.
  destruct (find _ languages) as [[k l]|] eqn:El; [|contradiction]. destruct Hl as [-> Hg].
  destruct (find _ lexes) as [[k x]|] eqn:Ex; [|contradiction]. destruct Hx as [-> Hes].
  exists (bytes e). split; [|split; [|split; [|split; [|split; [|split]]]]].
  - exists front. split; [exact Hp|]. rewrite forallb_forall in He. intros c H. specialize (He _ H).
    apply andb_prop in He as [He H3]. apply andb_prop in He as [H1 H2]. apply negb_true_iff, Z.eqb_neq in H1, H2, H3. auto.
  - apply known_extension. exact Hs.
  - rewrite <- Hg. eapply known_language. exact El.
  - reflexivity.
  - rewrite forallb_forall in Hc. intros c H. specialize (Hc _ H). apply andb_prop in Hc as [H1 H2]. apply Z.ltb_lt in H1, H2. auto.
  - cbn [r_text]. unfold step_bound in Hb. unfold int_max. nia.
  - right. exists x. split; [eapply known_lexis; exact Ex|exact Hes].
Qed.

Definition ev (g k : string) (s e : Z) : event := mkEvent g k s e.
Definition ex_a : revision :=
  mkRev (bytes (ex_text (bytes "t/a.c"))) [ev "c" "lcomment" 0 8; ev "c" "lcode" 8 15; ev "c" "lblank" 15 16].
Definition ex_m : revision := mkRev (bytes (ex_text (bytes "t/lib/m.c"))) [ev "c" "lcode" 0 10].
Definition ex_x : revision := mkRev (bytes (ex_text (bytes "x.rb"))) [ev "ruby" "lcomment" 0 4; ev "ruby" "lcode" 4 11].

Lemma ex_files :
  source_file ex_content (bytes "t/a.c") "c" ex_a /\ source_file ex_content (bytes "t/lib/m.c") "c" ex_m /\
  source_file ex_content (bytes "x.rb") "ruby" ex_x /\ binary_file (bytes "t/i.png") (mkRev [] []).
Proof.
  split; [|split; [|split]].
  - apply (ex_source (bytes "t/a.c") (bytes "t/a") "c" "c"); vm_compute; auto.
  - apply (ex_source (bytes "t/lib/m.c") (bytes "t/lib/m") "c" "c"); vm_compute; auto.
  - apply (ex_source (bytes "x.rb") (bytes "x") "rb" "ruby"); vm_compute; auto.
  - exists (bytes "png"). split; [|split; [apply known_extension; vm_compute; reflexivity|reflexivity]].
    exists (bytes "t/i"). split; [reflexivity|]. intros c H. vm_compute in H. intuition lia.
Qed.

Definition ex_paths : list (list Z) := [bytes "t"; bytes "x.rb"; bytes "none"].
Lemma ex_plain : plain_invocation ex_found ex_content ex_fuel ex_paths.
Proof.
  assert (F : forall p, names_file ex_found (bytes "t") p -> p = bytes "t/a.c" \/ p = bytes "t/i.png" \/ p = bytes "t/lib/m.c").
  { unfold names_file. change (ex_found (bytes "t")) with (IsDir ex_dir). unfold ex_dir. intros p H.
    inversion H as [d es name Hin|d es name sub p' Hin Hh Hb]; subst; cbn [In] in Hin;
      repeat (destruct Hin as [Hin|Hin]; [injection Hin as <- <- || injection Hin as <-|]); try contradiction; try discriminate; auto.
    - exfalso. apply Hh. exists []. reflexivity.
    - exfalso. apply Hh. exists [46]. reflexivity.
    - inversion Hb as [d es name Hin|d es name sub p' Hin Hh' Hb']; subst; cbn [In] in Hin;
        repeat (destruct Hin as [Hin|Hin]; [injection Hin as <- || injection Hin as <- <-|]); try contradiction; try discriminate; auto. }
  destruct ex_files as (Fa & Fm & Fx & Fi).
  assert (B : forall t, In t [ex_a; ex_m; ex_x; mkRev [] []] -> step_bound (r_text t) <= Z.of_nat ex_fuel).
  { intros t Ht. unfold ex_fuel. rewrite Z2Nat.id by lia. apply Z.leb_le. revert t Ht. apply Forall_forall.
    repeat constructor; vm_compute; reflexivity. }
  split; [discriminate|]. split.
  - apply Forall_cons; [|apply Forall_cons; [exact I|apply Forall_cons; [exact I|apply Forall_nil]]]. unfold proper.
    change (ex_found (bytes "t")) with (IsDir ex_dir). unfold ex_dir. split; [|split; [vm_compute; intuition discriminate|]].
    + repeat (first [ apply real_reg | apply real_unreadable |
        (apply real_dir;
         [ repeat (constructor; [vm_compute; intuition discriminate|]); constructor
         | intros name st Hin; cbn [In] in Hin;
           repeat (destruct Hin as [Hin|Hin]; [injection Hin as <- <-; split; [discriminate|];
              split; [vm_compute; intuition discriminate|]; split; [vm_compute; intuition discriminate|] |]);
           try contradiction ]) ]).
    + repeat (first [ (apply fits_unreadable; vm_compute; reflexivity)
        | (apply fits_dir; [vm_compute; reflexivity|];
           intros name st Hin; cbn [In] in Hin;
           repeat (destruct Hin as [Hin|Hin]; [injection Hin as <- <-; split; [vm_compute; reflexivity|];
             intros sub Hs Hh; clear Hh; first [discriminate | injection Hs as <-] |]);
           try contradiction) ]).
  - intros a p Ha Hn. cbn [places ex_paths In] in Ha. destruct Ha as [<-|[<-|[<-|[]]]].
    + destruct (F p Hn) as [-> |[-> | ->]]; [exists ex_a|exists (mkRev [] [])|exists ex_m]; (split; [|apply B; cbn; auto]).
      * left. eauto.
      * right. exact Fi.
      * left. eauto.
    + cbn in Hn. subst p. exists ex_x. split; [left; eauto|apply B; cbn; auto].
    + destruct Hn.
Qed.

(** The reports of the three commands; the image is counted as a file but has no lines. *)
Example C58_case :
  plain_invocation ex_found ex_content ex_fuel ex_paths /\
  ex_main ex_paths =
    Ok [BadArgument (bytes "none");
        SummaryReport (mkReport 4 [(mkLoc "c" 2 1 1 2, 4); (mkLoc "ruby" 1 1 0 1, 2)] (mkLoc "Total" 3 2 1 3) 6)] /\
  ex_main (bytes "--individual" :: ex_paths) =
    Ok [BadArgument (bytes "none");
        IndividualReport 4 [ (bytes "t/a.c", [(mkLoc "c" 1 1 1 1, 3)]); (bytes "t/i.png", []);
                             (bytes "t/lib/m.c", [(mkLoc "c" 1 0 0 1, 1)]); (bytes "x.rb", [(mkLoc "ruby" 1 1 0 1, 2)]) ]].
Proof. split; [apply ex_plain|]. vm_compute. auto. Qed.

Example C57_case :
  source_file ex_content (bytes "x.rb") "ruby" ex_x /\ whole_lines (r_text ex_x) /\ option_for (bytes "-i") Individual /\
  ex_main [bytes "-i"; bytes "x.rb"] = Ok [IndividualReport 1 [(bytes "x.rb", [(mkLoc "ruby" 1 1 0 1, 2)])]].
Proof.
  split; [apply ex_files|]. split; [right; exists (bytes ("# z" ++ nl ++ "puts 1")), 10; split; [reflexivity|auto]|].
  split; [apply C59_option_table; reflexivity|vm_compute; reflexivity].
Qed.

Example C59_case :
  ex_main [bytes "-h"; bytes "none"] = Ok [BadArgument (bytes "none"); HelpText] /\
  ex_main [bytes "-v"; bytes "x.rb"] =
    Ok [BadArgument (bytes "-v"); SummaryReport (mkReport 1 [(mkLoc "ruby" 1 1 0 1, 2)] (mkLoc "Total" 1 1 0 1) 2)] /\
  ex_main [bytes "-v"] = Ok [BadArgument (bytes "-v"); SummaryReport (mkReport 0 [] (mkLoc "Total" 0 0 0 0) 0)].
Proof. vm_compute. auto. Qed.

Example C60_case : ex_main [bytes "-a"; bytes "x.rb"] = Ub OutOfBounds.
Proof. vm_compute. reflexivity. Qed.

Example C61_case :
  ex_main [bytes "-d"; bytes "x.rb"] = Ok [Detected "ruby" (bytes "x.rb")] /\
  ex_main [bytes "-d"; bytes "t"] = Ub NullDeref.
Proof. vm_compute. auto. Qed.

(** A file with two licences, searched by the matcher of RegexModel (C45). *)
Example C62_case :
  engine_ok RegexModel.exec /\
  main strict (fun _ => []) (fun _ _ => false) RegexModel.exec (fun _ => IsFile)
    (fun _ => Some (bytes ("# Under the GPL" ++ nl ++ "# or the MIT" ++ nl ++ "#  license." ++ nl ++ "puts 1" ++ nl)))
    ex_fuel [bytes "-l"; bytes "d/x.rb"] =
  Ok [License "gpl" true (bytes "x.rb"); License "mit" false (bytes "x.rb")].
Proof. split; [apply exec_engine_ok|vm_compute; reflexivity]. Qed.
