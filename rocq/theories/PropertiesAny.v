(** C68: the command line tool on any files. *)
From Coq Require Import ZArith String Ascii List Bool Lia Permutation Sorting.Sorted.
From Verif Require Import LicenseTable LicenseModel LicenseSpec PropertiesLicense.
From Verif Require Import Base Arr LocModel LocSpec LocProofs ParsedModel ParsedSpec ParsedProofs FileDiffSpec PathModel DirModel DirSpec.
From Verif Require Import Tables DetectorModel ScanSpec PropertiesScan PropertiesTail EntitySpec PropertiesEntity RecordSpec RecordProofs.
From Verif Require Import ReportModel ReportSpec PropertiesReport ToolModel ToolSpec ToolProofs PropertiesTool.
From Verif Require ParserTable PropertiesPath PropertiesParsed.
Import ListNotations.
Open Scope string_scope.
Open Scope Z_scope.
Open Scope list_scope.

(** Of the reports of a parser about any file, those that find room are recorded, and the
    others have no effect at all; all of them if they fit. *)
Theorem C68_recorded :
  forall name text fuel es, ScanSpec.file text -> ~ In 0 text -> Z.of_nat (length text) + 5 <= int_max ->
  ParserTable.ohcount_parse (Some name) text fuel = Some (Ok es) -> Z.of_nat (length es) <= int_max ->
  (exists l, run_callbacks text [] es = Ok l /\ run_callbacks text [] (recorded text es) = Ok l) /\
  fits text (recorded text es) /\ (fits text es -> recorded text es = es).
Proof.
  intros name text fuel es Hf Hz Hs H Hn. pose proof (parse_good _ _ _ _ Hf H) as Hg.
  destruct (recorded_good text es Hz Hg Hn Hs) as ((_ & _ & G3 & G4 & G5) & E). cbn [r_text r_events] in *.
  split; [|split; [exact G5|]].
  - destruct (PropertiesParsed.C17_loc_list_of_events text (recorded text es)) as (l & _ & _ & El & _); auto; try apply G5.
    exists l. split; congruence.
  - intros F. apply recorded_all; auto.
Qed.
Print Assumptions C68_recorded.

Example C68_recorded_case :
  let text := bytes "abcdefgh" in let es := [mkEvent "c" "lcode" 0 8; mkEvent "c" "lcode" 1 8; mkEvent "c" "lcode" 6 8] in
  recorded text es = [mkEvent "c" "lcode" 0 8; mkEvent "c" "lcode" 6 8].
Proof. vm_compute. reflexivity. Qed.

Section Tool.
  Variable pl : platform.
  Variable magic : DetectorModel.file -> list Z.
  Variable pcre : string -> list Z -> bool.
  Variable exec : RegexModel.flags -> string -> list Z -> option (Z * Z).
  Variable found : list Z -> target.
  Variable content : list Z -> option (list Z).
  Variable fuel : nat.
  Notation main := (main pl magic pcre exec found content fuel).

  (** What is read of a file: nothing of one that cannot be opened. *)
  Definition text_at (p : list Z) : list Z := match content p with Some t => t | None => [] end.

  (** Detection has an answer (C33 says when). *)
  Definition detected (p : list Z) (g : option string) : Prop :=
    exists s, sourcefile_new p = Ok s /\ language_of pl magic pcre content (p, s) = Ok g.

  (** The reports of the parser of the detected language, none if there is none. *)
  Definition parsed_as (g : option string) (text : list Z) (es : list event) : Prop :=
    match ParserTable.ohcount_parse g text fuel with Some r => r = Ok es | None => es = [] end.

  (** A file of which any text is known; the reports that find room are recorded. *)
  Definition any_file (p : list Z) (r : revision) : Prop :=
    exists g es, detected p g /\ r_text r = text_at p /\ parsed_as g (text_at p) es /\ r_events r = recorded (text_at p) es.

  (** What the theorems assume of a file, besides its name having a dot or separator:
      detection has an answer, which is none of the languages whose parsers fail (C44);
      there are no NUL bytes; the file is smaller than an int, and the number of reports
      (C56) and the steps that the parser needs (C18) are within their bounds. *)
  Definition usual_file (p : list Z) : Prop :=
    (exists c, In c p /\ (c = PropertiesPath.dot \/ PropertiesPath.separator c)) /\
    (forall c, In c (text_at p) -> 0 < c < 256) /\ Z.of_nat (length (text_at p)) + 5 <= int_max /\
    step_bound (text_at p) <= Z.of_nat fuel /\
    exists g, detected p g /\ (forall h, g = Some h -> ~ In h html_like /\ h <> "rebol") /\
      forall es, parsed_as g (text_at p) es -> Z.of_nat (length es) <= int_max.

  Definition usual_invocation (paths : list (list Z)) : Prop :=
    found [46] <> IsFile /\ Forall (proper found) (places paths) /\
    forall a p, In a (places paths) -> names_file found a p -> usual_file p.

  (** ** One file *)

  Lemma text_read p s : text_of content (p, s) = text_at p.
  Proof. unfold text_of, contents_of, text_at. cbn [fst]. destruct (content p) as [[|c t]|]; reflexivity. Qed.

  Lemma usual_text p : usual_file p -> ScanSpec.file (text_at p).
  Proof. intros (_ & H & L & _). split; [|lia]. intros c Hc. specialize (H _ Hc). lia. Qed.

  Lemma usual_parsed p g : usual_file p -> (forall h, g = Some h -> ~ In h html_like /\ h <> "rebol") ->
    exists es, parsed_as g (text_at p) es /\ Forall (good_event (text_at p)) es.
  Proof.
    intros Hu Hg. pose proof (usual_text _ Hu) as Hf. destruct Hu as (_ & _ & _ & Hb & _). unfold parsed_as.
    destruct g as [h|]; [|exists []; split; [reflexivity|constructor]]. destruct (Hg h eq_refl) as [G1 G2].
    destruct (ParserTable.find_entry h) as [en|] eqn:E.
    - destruct (C44_scanners_safe h (text_at p) fuel) as (es & Ep); auto; [congruence|].
      exists es. rewrite Ep. split; [reflexivity|]. eapply parse_good; eauto.
    - exists []. unfold ParserTable.ohcount_parse. rewrite E. split; [reflexivity|constructor].
  Qed.

  Lemma usual_any p : usual_file p -> exists r, any_file p r.
  Proof.
    intros Hu. pose proof Hu as (_ & _ & _ & _ & g & Hd & Hg & _). destruct (usual_parsed p g Hu Hg) as (es & He & _).
    exists (mkRev (text_at p) (recorded (text_at p) es)), g, es. auto.
  Qed.

  Lemma detected_unique p g g' : detected p g -> detected p g' -> g = g'.
  Proof. intros (s & E & D) (s' & E' & D'). rewrite E in E'. injection E' as <-. congruence. Qed.

  Lemma parsed_unique g text es es' : parsed_as g text es -> parsed_as g text es' -> es = es'.
  Proof. unfold parsed_as. destruct (ParserTable.ohcount_parse g text fuel); congruence. Qed.

  Lemma any_good p r s : usual_file p -> any_file p r -> sourcefile_new p = Ok s ->
    good_revision r /\ record_of pl magic pcre content fuel (p, s) = run_callbacks (r_text r) [] (r_events r).
  Proof.
    intros Hu (g & es & Hd & Et & Hp & Er) Es. pose proof Hu as (_ & Hc & Hl & _ & g' & Hd' & Hg & Hn).
    assert (g' = g) by (eapply detected_unique; eauto). subst g'.
    destruct (usual_parsed p g Hu Hg) as (es' & Hp' & G). assert (es' = es) by (eapply parsed_unique; eauto). subst es'.
    destruct (recorded_good (text_at p) es) as (H1 & H2); auto.
    { intros H0. apply Hc in H0. lia. }
    destruct r as [t evs]. cbn [r_text r_events] in *. subst t evs. split; [exact H1|]. rewrite <- H2.
    unfold record_of, reports_of. destruct Hd as (s' & Es' & Hd). rewrite Es in Es'. injection Es' as <-. rewrite Hd. cbn [bind].
    rewrite text_read. unfold parsed_as in Hp. destruct (ParserTable.ohcount_parse g (text_at p) fuel) as [x|]; subst; reflexivity.
  Qed.

  (** ** The list of files *)

  Lemma usual_ok paths : usual_invocation paths ->
    exists parts fs files, gather found paths = Ok (fs, complaints found paths) /\
      files_of found (places paths) parts /\ map fst fs = List.concat parts /\
      Forall2 any_file (List.concat parts) files /\ Forall usual_file (List.concat parts) /\
      Forall (fun f => sourcefile_new (fst f) = Ok (snd f)) fs.
  Proof.
    intros (H1 & H2 & H3).
    destruct (gather_ok found content paths H1 H2) as (parts & fs & E & Hf & Hm & Hs).
    { intros a p Ha Hp. destruct (H3 a p Ha Hp) as (Hsep & _). destruct (PropertiesPath.C25_path_split p Hsep) as (s & Es & _). eauto. }
    assert (HU : forall p, In p (List.concat parts) -> usual_file p).
    { intros p Hp. apply in_concat in Hp as (ps & Hps & Hp).
      assert (exists a, In a (places paths) /\ names_file found a p) as (a & Ha & Hn); [|eauto].
      clear - Hf Hps Hp. unfold files_of in Hf. induction Hf as [|a q ps' qs [_ Hq] _ IH]; [destruct Hps|].
      destruct Hps as [->|Hps]; [exists a; split; [cbn; auto|apply Hq; auto]|].
      destruct (IH Hps) as (b & Hb & Hn). exists b. cbn. auto. }
    destruct (for_each fs any_file) as (files & HF).
    { intros p Hp. rewrite Hm in Hp. apply usual_any. auto. }
    exists parts, fs, files. rewrite Hm in HF. split; [exact E|]. split; [exact Hf|]. split; [exact Hm|]. split; [exact HF|].
    split; [apply Forall_forall; exact HU|exact Hs].
  Qed.

  Lemma any_records fs files : Forall2 any_file (map fst fs) files -> Forall usual_file (map fst fs) ->
    Forall (fun f => sourcefile_new (fst f) = Ok (snd f)) fs ->
    Forall good_revision files /\
    exists ls, each (record_of pl magic pcre content fuel) fs = Ok ls /\ parsed files ls.
  Proof.
    revert files. induction fs as [|[p s] fs IH]; intros files HF HU Hs; inversion HF as [|? r ? files' Hr HF']; subst.
    - split; [constructor|]. exists []. split; [reflexivity|constructor].
    - inversion HU as [|? ? U1 U2]; subst. inversion Hs as [|? ? S1 S2]; subst. cbn [fst snd] in *.
      destruct (IH _ HF' U2 S2) as (G & ls & E & HL). destruct (any_good p r s U1 Hr S1) as (Gr & Er).
      split; [constructor; auto|]. pose proof Gr as (G1 & G2 & G3 & G4 & G5 & G6).
      destruct (PropertiesParsed.C17_loc_list_of_events _ _ G2 G3 G4 G5 G6) as (l & _ & _ & El & _).
      exists (l :: ls). cbn [each]. rewrite Er, El. cbn [bind]. rewrite E. split; [reflexivity|constructor; auto].
  Qed.

  (** ** C68 *)

  (** Whatever the files contain, the summary is made, of the reports recorded. *)
  Theorem C68_summary_of_any :
    forall args paths, asks args Summary paths -> usual_invocation paths ->
    exists parts files,
      files_of found (places paths) parts /\ Forall2 any_file (List.concat parts) files /\
      (Z.of_nat (length files) <= int_max -> events_total files <= int_max ->
       exists r, main args = Ok (complaints found paths ++ [SummaryReport r]) /\
         r_count r = Z.of_nat (length (List.concat parts)) /\
         Permutation (map (fun g => with_lines (entry files g)) (languages_all files)) (r_rows r) /\
         StronglySorted code_ge (map fst (r_rows r)) /\
         r_total r = mkLoc "Total" (over l_code (map (entry files) (languages_all files)))
                           (over l_comments (map (entry files) (languages_all files)))
                           (over l_blanks (map (entry files) (languages_all files)))
                           (over l_files (map (entry files) (languages_all files))) /\
         r_lines r = l_code (r_total r) + l_comments (r_total r) + l_blanks (r_total r)).
  Proof.
    intros args paths Ha Hp. destruct (usual_ok _ Hp) as (parts & fs & files & E & Hf & Hm & HF & HU & Hs).
    exists parts, files. split; [exact Hf|]. split; [exact HF|]. intros Hn He.
    pose proof HF as HF'. rewrite <- Hm in HF', HU. destruct (any_records fs files HF' HU Hs) as (HG & ls & El & HL).
    destruct (C39_summary_report files ls HG HL Hn He) as (r & Er & R1 & R2).
    exists r. rewrite (main_eq pl magic pcre exec found content fuel _ _ _ Ha), E. cbn [bind run]. unfold summary.
    rewrite El. cbn [bind]. rewrite Er. cbn [bind].
    split; [reflexivity|]. split; [|exact R2]. rewrite R1. f_equal. clear -HF. induction HF; cbn; auto.
  Qed.

  Theorem C68_individual_of_any :
    forall args paths, asks args Individual paths -> usual_invocation paths ->
    exists parts files,
      files_of found (places paths) parts /\ Forall2 any_file (List.concat parts) files /\
      (Z.of_nat (length files) <= int_max ->
       exists rs, main args = Ok (complaints found paths ++ [IndividualReport (Z.of_nat (length files)) (combine (List.concat parts) rs)]) /\
         Forall2 (fun f r =>
           Permutation (map (fun g => with_lines (entry [f] g)) (languages_all [f])) r /\
           StronglySorted name_le (map fst r)) files rs).
  Proof.
    intros args paths Ha Hp. destruct (usual_ok _ Hp) as (parts & fs & files & E & Hf & Hm & HF & HU & Hs).
    exists parts, files. split; [exact Hf|]. split; [exact HF|]. intros Hn.
    pose proof HF as HF'. rewrite <- Hm in HF', HU. destruct (any_records fs files HF' HU Hs) as (HG & ls & El & HL).
    destruct (C39_individual_report files ls HG HL Hn) as (rs & Er & R).
    exists rs. rewrite (main_eq pl magic pcre exec found content fuel _ _ _ Ha), E. cbn [bind run]. unfold individual.
    rewrite El. cbn [bind]. rewrite Er. cbn [bind].
    rewrite Hm. split; [reflexivity|exact R].
  Qed.

  (** The licences of the comments recorded of the language that comes last (C36). *)
  Definition licenses_at (p : list Z) (ls : list license) : Prop :=
    exists r, any_file p r /\
      ((r_events r = [] /\ ls = []) \/
       exists t, one_line (last (comment_texts r) []) t /\ subsequence ls license_map /\
         forall l, In l ls <-> to_report exec t l).

  Theorem C68_licenses_of_any :
    forall args paths, engine_ok exec -> asks args Licenses paths -> usual_invocation paths ->
    exists parts names lss, files_of found (places paths) parts /\
      Forall2 base_name (List.concat parts) names /\ Forall2 licenses_at (List.concat parts) lss /\
      main args = Ok (complaints found paths ++ List.concat (map (fun x => printed (fst x) (snd x)) (combine names lss))).
  Proof.
    intros args paths Hx Ha Hp. destruct (usual_ok _ Hp) as (parts & fs & files & E & Hf & Hm & HF & HU & Hs).
    exists parts. rewrite (main_eq pl magic pcre exec found content fuel _ _ _ Ha), E. cbn [bind run]. rewrite <- Hm in *.
    assert (G : exists names lss, Forall2 base_name (map fst fs) names /\ Forall2 licenses_at (map fst fs) lss /\
      each (fun f => r <- record_of pl magic pcre content fuel f ;; ls <- ohcount_detect_license exec r ;;
                     Ok (license_lines (filename_of (fst f) (snd f)) ls)) fs
      = Ok (map (fun x => printed (fst x) (snd x)) (combine names lss))).
    { clear - HF HU Hs Hx. revert files HF HU. induction Hs as [|[p s] fs Es _ IH]; intros files HF HU; inversion HF as [|? r ? files' Hr HF']; subst.
      - exists [], []. repeat split; constructor.
      - inversion HU as [|? ? U1 U2]; subst. destruct (IH _ HF' U2) as (names & lss & H1 & H2 & H3). cbn [fst snd] in *.
        destruct (any_good p r s U1 Hr Es) as (Gr & Er).
        assert (L : exists l ls, run_callbacks (r_text r) [] (r_events r) = Ok l /\ ohcount_detect_license exec l = Ok ls /\ licenses_at p ls).
        { destruct (r_events r) as [|e es] eqn:Ee.
          - exists [], []. split; [reflexivity|]. split; [reflexivity|]. exists r. rewrite Ee. auto.
          - rewrite <- Ee. destruct (C35_reported exec r Hx Gr) as (pls & ls & t & F1 & F2 & F3 & F4); [congruence|].
            exists pls, ls. split; [exact F1|]. split; [exact F2|]. exists r. split; [exact Hr|]. right. exists t.
            split; [exact F3|]. split; [apply (C34_report _ _ _ F2)|exact F4]. }
        destruct L as (l & ls & L0 & L1 & L2). exists (filename_of p s :: names), (ls :: lss).
        split; [|split].
        + constructor; [|exact H1]. destruct U1 as (Hsep & _).
          destruct (PropertiesPath.C25_path_split p Hsep) as (s' & Es' & S1 & S2 & _).
          rewrite Es in Es'. injection Es' as <-. split.
          * intros c Hc. specialize (S1 _ Hc). unfold PropertiesPath.separator in S1. split; intros ->; apply S1; auto.
          * destruct S2 as [[S2 _]|(c & Hc & S2)]; [left; exact S2|right; eauto].
        + constructor; auto.
        + cbn [each]. rewrite Er, L0. cbn [bind]. rewrite L1. cbn [bind]. rewrite H3. cbn [bind fst snd combine map].
          rewrite license_lines_printed. reflexivity. }
    destruct G as (names & lss & H1 & H2 & H3). exists names, lss. split; [exact Hf|]. split; [exact H1|]. split; [exact H2|].
    unfold licenses. rewrite H3. reflexivity.
  Qed.

  (** ** C69 *)

  (** The entities of a file. *)
  Definition entities_at (p : list Z) (es : list event) : Prop :=
    exists g, detected p g /\
      match ParserTable.ohcount_parse_entities g (text_at p) fuel with Some r => r = Ok es | None => es = [] end.

  Theorem C69_entities_of_any :
    forall args paths, asks args RawEntities paths -> usual_invocation paths ->
    (forall a p, In a (places paths) -> names_file found a p -> ~ detected p (Some "limbo")) ->
    exists parts ess, files_of found (places paths) parts /\ Forall2 entities_at (List.concat parts) ess /\
      main args = Ok (complaints found paths ++
                      map (fun e => Entity (e_lang e) (e_entity e) (e_start e) (e_end e)) (List.concat ess)).
  Proof.
    intros args paths Ha Hp Hlimbo. destruct (usual_ok _ Hp) as (parts & fs & files & E & Hf & Hm & _ & HU & Hs).
    assert (HL : Forall (fun p => ~ detected p (Some "limbo")) (List.concat parts)).
    { apply Forall_forall. intros p Hin. apply in_concat in Hin as (ps & Hps & Hin).
      assert (exists a, In a (places paths) /\ names_file found a p) as (a & Ha' & Hn); [|eauto].
      clear - Hf Hps Hin. unfold files_of in Hf. induction Hf as [|a q ps' qs [_ Hq] _ IH]; [destruct Hps|].
      destruct Hps as [->|Hps]; [exists a; split; [cbn; auto|apply Hq; auto]|].
      destruct (IH Hps) as (b & Hb & Hn). exists b. cbn. auto. }
    exists parts. rewrite (main_eq pl magic pcre exec found content fuel _ _ _ Ha), E. cbn [bind run]. rewrite <- Hm in *.
    assert (G : exists ess, Forall2 entities_at (map fst fs) ess /\
      raw_entities pl magic pcre content fuel fs = Ok (map (fun e => Entity (e_lang e) (e_entity e) (e_start e) (e_end e)) (List.concat ess))).
    { unfold raw_entities. clear - HU Hs HL. induction Hs as [|[p s] fs Es _ IH]; [exists []; split; [constructor|reflexivity]|].
      inversion HU as [|? ? U1 U2]; subst. inversion HL as [|? ? L1 L2]; subst. destruct (IH U2 L2) as (ess & H1 & H2). cbn [fst snd] in *.
      pose proof U1 as (_ & _ & _ & Hb & g & Hd & Hg & _). pose proof (usual_text _ U1) as Hft.
      assert (X : exists es, match ParserTable.ohcount_parse_entities g (text_at p) fuel with Some r => r = Ok es | None => es = [] end).
      { destruct g as [h|]; [|exists []; reflexivity]. destruct (Hg h eq_refl) as [G1 G2].
        destruct (ParserTable.find_entry h) as [en|] eqn:Een.
        - destruct (C63_entities_safe h (text_at p) fuel) as (es & ->); auto; [congruence| |eauto]. intros ->. auto.
        - exists []. unfold ParserTable.ohcount_parse_entities. rewrite Een. reflexivity. }
      destruct X as (es & Hes). exists (es :: ess). split; [constructor; [exists g; auto|exact H1]|].
      cbn [each]. destruct Hd as (s' & Es' & Hd). rewrite Es in Es'. injection Es' as <-. rewrite Hd. cbn [bind]. rewrite text_read.
      match type of H2 with context [each ?f fs] => destruct (each f fs) as [os| |] end; cbn [bind] in H2; try discriminate.
      injection H2 as H2.
      destruct (ParserTable.ohcount_parse_entities g (text_at p) fuel) as [x|].
      - subst x. cbn [bind List.concat]. rewrite H2, map_app. reflexivity.
      - subst es. cbn [bind List.concat app]. rewrite H2. reflexivity. }
    destruct G as (ess & H1 & H2). exists ess. split; [exact Hf|]. split; [exact H1|]. rewrite H2. reflexivity.
  Qed.
End Tool.
Print Assumptions C68_summary_of_any.
Print Assumptions C68_individual_of_any.
Print Assumptions C68_licenses_of_any.
Print Assumptions C69_entities_of_any.

(** ** A case *)

(** A comment that is never closed is reported as comment and as code (C56); the code of
    the second file has no account (C49), its text ends within a string. *)
Definition any_found (a : list Z) : target :=
  if list_eq_dec Z.eq_dec a (bytes "a.c") then IsFile
  else if list_eq_dec Z.eq_dec a (bytes "b.py") then IsFile else Nothing.
Definition any_content (p : list Z) : option (list Z) :=
  if list_eq_dec Z.eq_dec p (bytes "a.c") then Some (bytes ("  /* a" ++ nl ++ "b" ++ nl))
  else if list_eq_dec Z.eq_dec p (bytes "b.py") then Some (bytes ("c = ""d" ++ nl ++ "  # e" ++ nl)) else None.
Definition any_fuel : nat := Z.to_nat 60000.
Definition any_paths : list (list Z) := [bytes "a.c"; bytes "b.py"].
Definition any_main (flag : string) : res (list output) :=
  main strict (fun _ => []) (fun _ _ => false) (fun _ _ _ => None) any_found any_content any_fuel (bytes flag :: any_paths).

Lemma any_usual p g : detected strict (fun _ => []) (fun _ _ => false) any_content p (Some g) ->
  existsb (fun c => c =? 46) p && forallb (fun c => (0 <? c) && (c <? 256)) (text_at any_content p)
  && (step_bound (text_at any_content p) <=? 60000)
  && negb (existsb (String.eqb g) html_like) && negb (String.eqb g "rebol")
  && match ParserTable.ohcount_parse (Some g) (text_at any_content p) any_fuel with
     | Some (Ok es) => Z.of_nat (length es) <=? 1000
     | _ => false end = true ->
  usual_file strict (fun _ => []) (fun _ _ => false) any_content any_fuel p.
Proof.
  intros Hd H. repeat (apply andb_prop in H as [H ?]).
  apply existsb_exists in H as (c & Hc & E). apply Z.eqb_eq in E. subst c.
  rewrite forallb_forall in H4. apply Z.leb_le in H3.
  split; [exists 46; split; [exact Hc|left; reflexivity]|]. split.
  { intros c Hin. specialize (H4 _ Hin). lia. }
  split; [unfold step_bound, int_max in *; lia|]. split; [unfold any_fuel; lia|].
  exists (Some g). split; [exact Hd|]. split.
  - intros h [= <-]. split.
    + intros X. apply negb_true_iff in H2. assert (existsb (String.eqb g) html_like = true); [|congruence].
      apply existsb_exists. exists g. split; [exact X|apply String.eqb_refl].
    + intros ->. discriminate.
  - intros es He. unfold parsed_as in He. destruct (ParserTable.ohcount_parse (Some g) (text_at any_content p) any_fuel) as [[x| |]|]; try discriminate.
    injection He as <-. apply Z.leb_le in H0. unfold int_max. lia.
Qed.

Example C68_case :
  usual_invocation strict (fun _ => []) (fun _ _ => false) any_found any_content any_fuel any_paths /\
  asks (bytes "-s" :: any_paths) Summary any_paths /\
  any_main "-s" = Ok [SummaryReport (mkReport 2
    [(mkLoc "c" 2 1 0 1, 3); (mkLoc "python" 1 1 0 1, 2)] (mkLoc "Total" 3 2 0 2) 5)] /\
  any_main "-i" = Ok [IndividualReport 2
    [(bytes "a.c", [(mkLoc "c" 2 1 0 1, 3)]); (bytes "b.py", [(mkLoc "python" 1 1 0 1, 2)])]] /\
  any_main "-l" = Ok [].
Proof.
  split; [|split; [constructor; exists ["-s"; "--summary"], "-s"; cbn; tauto|split; [vm_compute; reflexivity|split; vm_compute; reflexivity]]].
  split; [discriminate|]. split; [repeat constructor|].
  intros a p Ha Hn. cbn [any_paths places In] in Ha. destruct Ha as [<-|[<-|[]]]; unfold names_file in Hn; cbn in Hn; subst p.
  - apply any_usual with (g := "c"); [eexists; split; vm_compute; reflexivity|vm_compute; reflexivity].
  - apply any_usual with (g := "python"); [eexists; split; vm_compute; reflexivity|vm_compute; reflexivity].
Qed.

Example C69_case :
  any_main "-re" = Ok
    [Entity "c" "space" 0 2; Entity "c" "comment" 2 3; Entity "c" "operator" 3 4; Entity "c" "space" 4 5;
     Entity "c" "any" 5 6; Entity "c" "space" 6 7; Entity "c" "any" 7 8; Entity "c" "space" 8 9;
     Entity "python" "space" 1 2; Entity "python" "space" 3 4; Entity "python" "space" 6 9;
     Entity "python" "comment" 9 12; Entity "python" "space" 12 13].
Proof. vm_compute. reflexivity. Qed.
