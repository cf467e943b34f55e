(** C74 - C77: the characters that the tool prints. *)
From Coq Require Import ZArith String Ascii List Bool Lia Permutation Sorting.Sorted.
From Verif Require Import Base LocModel LocSpec LocProofs ParsedModel ParsedSpec FileDiffSpec LicenseModel PathModel DirModel DirSpec.
From Verif Require Import Tables TablesSpec DetectorModel DetectorSpec ScanSpec.
From Verif Require Import ReportModel ReportSpec PropertiesReport ToolModel ToolSpec ToolProofs PropertiesTool.
From Verif Require Import RecordSpec PropertiesScan PropertiesAny PrintModel PrintSpec PrintProofs.
From Verif Require ParserTable LicenseTable.
Import ListNotations.
Open Scope string_scope.
Open Scope Z_scope.
Open Scope list_scope.

(** ** C74 *)

(** What the first lines of the summary are. *)
Definition examining (n : Z) (line : list Z) : Prop :=
  exists w, numeral n w /\ line = bytes "Examining " ++ w ++ bytes " file(s)".

Lemma examining_line n rest ls : 0 <= n -> made_of ls rest ->
  exists l, examining n l /\ made_of (l :: ls) (bytes "Examining " ++ decimal n ++ ln " file(s)" ++ rest).
Proof.
  intros H M. exists (bytes "Examining " ++ decimal n ++ bytes " file(s)"). split.
  - exists (decimal n). split; [now apply decimal_numeral|reflexivity].
  - replace (bytes "Examining " ++ decimal n ++ ln " file(s)" ++ rest)
      with ((bytes "Examining " ++ decimal n ++ bytes " file(s)") ++ [10] ++ rest)
      by (unfold ln; rewrite <- !app_assoc; reflexivity).
    apply made_of_cons; [|exact M]. rewrite !in_app_iff. intros [I|[I|I]].
    + cbn in I. lia.
    + now apply (decimal_no_nl n).
    + cbn in I. lia.
Qed.

Lemma summary_line r : word (bytes (l_lang (fst r))) -> not_negative r ->
  exists line, summary_row r = line ++ [10] /\ ~ In 10 line /\ summary_says r line /\
    (narrow r -> length line = 78%nat).
Proof.
  intros W (H1 & H2 & H3 & H4 & H5). destruct r as [l t]. cbn [fst snd] in *.
  exists (pad_right 16 (bytes (l_lang l)) ++ [32] ++ pad_left 6 (decimal (l_files l)) ++ print_counts "       0.0%" l t).
  assert (N : numeral (l_files l) (decimal (l_files l))) by now apply decimal_numeral.
  split; [unfold summary_row; cbn [fst snd]; now rewrite <- !app_assoc|]. split; [|split].
  - rewrite !in_app_iff. destruct W as (_ & _ & W).
    pose proof (pad_right_no_nl 16 _ W). pose proof (pad_left_no_nl 6 _ (decimal_no_nl _ H4)).
    assert (~ In 10 [32]) by (cbn; lia).
    pose proof (counts_no_nl "       0.0%" l t ltac:(cbn; lia) H1 H2 H3 H5). tauto.
  - destruct (words_counts "       0.0%" l t H1 H2 H3 H5) as (code & comments & ps & blanks & tot & E & N1 & N2 & N3 & N4 & F1 & F2).
    { exists (bytes "      0.0%"). split; reflexivity. }
    assert (P : exists p, ps = [p]).
    { destruct (Z.eq_dec (l_comments l + l_code l) 0) as [Z0|NZ].
      - rewrite (F2 Z0). exists (bytes "0.0%"). reflexivity.
      - destruct F1 as (p & -> & _); [lia|]. eauto. }
    destruct P as (p & ->). exists (decimal (l_files l)), code, comments, p, blanks, tot. cbn [fst snd].
    split.
    + cbn [app]. rewrite words_right by exact W. f_equal.
      unfold print_counts at 1. cbn [app]. rewrite words_left by now apply (numeral_word (l_files l)).
      f_equal. exact E.
    + repeat (split; [assumption|]). split.
      * intros Pz. destruct (F1 Pz) as (q & [= ->] & Q). exact Q.
      * intros Pz. specialize (F2 Pz). injection F2 as ->. reflexivity.
  - intros (_ & B1 & B2 & B3 & B4 & B5 & B6). cbn [fst snd] in *. rewrite !app_length.
    rewrite pad_right_length by exact B6.
    rewrite pad_left_length by (apply (numeral_length _ _ 6 N); [cbn; lia|lia]).
    rewrite length_counts by (try reflexivity; lia). reflexivity.
Qed.

(** The summary is six lines of heading, one line for each language with its name and
    its numbers as words, a rule, and the totals in the same form. *)
Theorem C74_summary_readable :
  forall r, 0 <= r_count r -> Forall (fun x => word (bytes (l_lang (fst x))) /\ not_negative x) (r_rows r) ->
  word (bytes (l_lang (r_total r))) -> not_negative (r_total r, r_lines r) ->
  exists first title head dashes lines dashes' last,
    made_of ([first; []; title; []; head; dashes] ++ lines ++ [dashes'; last]) (print (SummaryReport r)) /\
    examining (r_count r) first /\ words title = map bytes ["Ohloh"; "Line"; "Count"; "Summary"] /\
    words head = map bytes ["Language"; "Files"; "Code"; "Comment"; "Comment"; "%"; "Blank"; "Total"] /\
    Forall2 summary_says (r_rows r) lines /\ summary_says (r_total r, r_lines r) last /\
    (* and everything below the title is equally wide if the numbers are not too large *)
    (Forall narrow (r_rows r) -> narrow (r_total r, r_lines r) ->
     Forall (fun l => length l = 78%nat) (head :: dashes :: lines ++ [dashes'; last])).
Proof.
  intros r Hn HR HT NT. cbn [print]. unfold print_summary.
  destruct (summary_line (r_total r, r_lines r) HT NT) as (last & El & Nl & Sl & Wl).
  assert (L : exists lines, flat_map summary_row (r_rows r) = flat_map (fun l => l ++ [10]) lines /\
    Forall (fun l => ~ In 10 l) lines /\ Forall2 summary_says (r_rows r) lines /\
    (Forall narrow (r_rows r) -> Forall (fun l => length l = 78%nat) lines)).
  { induction HR as [|x rows [W N] HR IH]; [exists []; auto|].
    destruct IH as (lines & E & F & S & A). destruct (summary_line x W N) as (line & Ex & Nx & Sx & Wx).
    exists (line :: lines). cbn. rewrite E, Ex. split; [reflexivity|]. split; [constructor; auto|].
    split; [constructor; auto|]. intros B. inversion B; subst. constructor; auto. }
  destruct L as (lines & E & F & S & A).
  set (title := bytes "                          Ohloh Line Count Summary                          ").
  set (head := bytes "Language          Files       Code    Comment  Comment %      Blank      Total").
  assert (M : made_of ([[]; title; []; head; bytes rule] ++ lines ++ [bytes rule; last])
    ([10] ++ ln "                          Ohloh Line Count Summary                          " ++ [10] ++
     ln "Language          Files       Code    Comment  Comment %      Blank      Total" ++ ln rule ++
     flat_map summary_row (r_rows r) ++ ln rule ++ summary_row (r_total r, r_lines r))).
  { rewrite E, El. split.
    - rewrite !flat_map_app. unfold ln. cbn [flat_map]. rewrite ?app_nil_r, <- ?app_assoc. reflexivity.
    - apply Forall_app. split; [|apply Forall_app; split; [exact F|]].
      + unfold title, head, rule. repeat constructor; cbn; lia.
      + unfold rule. repeat constructor; [cbn; lia|exact Nl]. }
  destruct (examining_line (r_count r) _ _ Hn M) as (first & X & M').
  exists first, title, head, (bytes rule), lines, (bytes rule), last.
  split; [exact M'|]. split; [exact X|]. split; [reflexivity|]. split; [reflexivity|]. split; [exact S|]. split; [exact Sl|].
  intros B1 B2. repeat constructor. apply Forall_app. split; [auto|]. repeat constructor. auto.
Qed.
Print Assumptions C74_summary_readable.

(** A text has only one division into lines, so the ones above are the lines. *)
Theorem C74_lines_unique : forall a b text, made_of a text -> made_of b text -> a = b.
Proof. exact made_of_unique. Qed.
Print Assumptions C74_lines_unique.

(** The names of all languages are words, and fit in their column with two exceptions. *)
Theorem C74_names :
  forall g, is_language g -> word (bytes g) /\
  ((length (bytes g) <= 16)%nat <-> g <> "clearsilver_template" /\ g <> "metapost_with_tex").
Proof.
  assert (C : forallb (fun kl => let w := bytes (Tables.l_name (snd kl)) in
    negb (Nat.eqb (length w) 0) && forallb (fun c => negb (c =? 32) && negb (c =? 10)) w &&
    Bool.eqb (Nat.leb (length w) 16)
      (negb (String.eqb (Tables.l_name (snd kl)) "clearsilver_template") &&
       negb (String.eqb (Tables.l_name (snd kl)) "metapost_with_tex"))) languages = true)
    by (vm_compute; reflexivity).
  intros g (k & l & I & <-). rewrite forallb_forall in C. specialize (C _ I). cbn [snd] in C. cbv zeta in C.
  apply andb_true_iff in C as [C L]. apply andb_true_iff in C as [C1 C2]. rewrite forallb_forall in C2. split.
  - split; [intros E; rewrite E in C1; discriminate|]. split; intros J; specialize (C2 _ J); discriminate.
  - apply eqb_prop in L. rewrite <- Nat.leb_le, L, andb_true_iff, !negb_true_iff, !String.eqb_neq. reflexivity.
Qed.
Print Assumptions C74_names.

Lemma zsum_map_nonneg {A} (f : A -> Z) l : (forall x, In x l -> 0 <= f x) -> 0 <= zsum (map f l).
Proof. intros H. apply zsum_nonneg. intros x I. apply in_map_iff in I as (y & <- & I). auto. Qed.

Lemma entry_nonneg files g : let l := entry files g in
  0 <= ReportSpec.lines_all g "lcode" files /\ 0 <= ReportSpec.lines_all g "lcomment" files /\
  0 <= ReportSpec.lines_all g "lblank" files /\ 0 <= files_with g files.
Proof.
  cbv zeta. unfold ReportSpec.lines_all, files_with.
  repeat split; try (apply zsum_map_nonneg; intros; unfold lines_in; lia). lia.
Qed.

(** What the summary of some files is: after the first line and the headings one line for
    each language, that says how many files and lines of it there are. *)
Definition summary_text (files : list revision) (text : list Z) : Prop :=
  exists first heading lines dashes last entries,
    made_of (first :: heading ++ lines ++ [dashes; last]) text /\
    examining (Z.of_nat (length files)) first /\ length heading = 5%nat /\
    Permutation (map (entry files) (languages_all files)) entries /\ StronglySorted code_ge entries /\
    Forall2 (fun l => summary_says (with_lines l)) entries lines /\
    summary_says (with_lines (mkLoc "Total" (over l_code entries) (over l_comments entries)
                                (over l_blanks entries) (over l_files entries))) last.

Lemma summary_text_of files r : (forall g, In g (languages_all files) -> word (bytes g)) ->
  r_count r = Z.of_nat (length files) ->
  Permutation (map (fun g => with_lines (entry files g)) (languages_all files)) (r_rows r) ->
  StronglySorted code_ge (map fst (r_rows r)) ->
  r_total r = mkLoc "Total" (over l_code (map (entry files) (languages_all files)))
                    (over l_comments (map (entry files) (languages_all files)))
                    (over l_blanks (map (entry files) (languages_all files)))
                    (over l_files (map (entry files) (languages_all files))) ->
  r_lines r = l_code (r_total r) + l_comments (r_total r) + l_blanks (r_total r) ->
  summary_text files (print (SummaryReport r)).
Proof.
  intros HW R1 R2 R3 R4 R5.
  assert (RR : r_rows r = map with_lines (map fst (r_rows r))).
  { rewrite map_map. rewrite <- (map_id (r_rows r)) at 1. apply map_ext_in. intros x I.
    apply (Permutation_in _ (Permutation_sym R2)) in I. apply in_map_iff in I as (g & <- & _). reflexivity. }
  assert (P : Permutation (map (entry files) (languages_all files)) (map fst (r_rows r))).
  { apply (Permutation_map fst) in R2. rewrite map_map in R2. cbn [fst with_lines] in R2. exact R2. }
  assert (NN : forall l, In l (map fst (r_rows r)) ->
    word (bytes (l_lang l)) /\ 0 <= l_code l /\ 0 <= l_comments l /\ 0 <= l_blanks l /\ 0 <= l_files l).
  { intros l I. apply (Permutation_in _ (Permutation_sym P)) in I. apply in_map_iff in I as (g & <- & I).
    split; [exact (HW g I)|]. apply (entry_nonneg files g). }
  assert (SUM : forall f, over f (map (entry files) (languages_all files)) = over f (map fst (r_rows r))).
  { intros f. unfold over. apply zsum_perm. now apply Permutation_map. }
  rewrite !SUM in R4.
  assert (T : forall f, (forall l, In l (map fst (r_rows r)) -> 0 <= f l) -> 0 <= over f (map fst (r_rows r))).
  { intros f Hf. unfold over. now apply zsum_map_nonneg. }
  assert (T1 := T l_code ltac:(intros l I; now destruct (NN l I) as (_ & ? & ? & ? & ?))).
  assert (T2 := T l_comments ltac:(intros l I; now destruct (NN l I) as (_ & ? & ? & ? & ?))).
  assert (T3 := T l_blanks ltac:(intros l I; now destruct (NN l I) as (_ & ? & ? & ? & ?))).
  assert (T4 := T l_files ltac:(intros l I; now destruct (NN l I) as (_ & ? & ? & ? & ?))).
  destruct (C74_summary_readable r) as (first & title & head & dashes & lines & dashes' & last & M & Y1 & _ & _ & Y4 & Y5 & _).
  - rewrite R1. lia.
  - rewrite RR. apply Forall_forall. intros x I. apply in_map_iff in I as (l & <- & I).
    destruct (NN l I) as (L & N1 & N2 & N3 & N4). split; [exact L|]. unfold not_negative. cbn. lia.
  - rewrite R4. split; [discriminate|]. cbn. lia.
  - rewrite R5, R4. unfold not_negative. cbn. lia.
  - exists first, [[]; title; []; head; dashes], lines, dashes', last, (map fst (r_rows r)).
    split; [exact M|]. split; [now rewrite <- R1|]. split; [reflexivity|]. split; [exact P|]. split; [exact R3|]. split.
    + clear - Y4 RR. rewrite RR in Y4. remember (map fst (r_rows r)) as ls eqn:EL. clear EL RR. revert lines Y4.
      induction ls as [|l ls IH]; intros lines H; inversion H; subst; constructor; auto.
    + rewrite R5, R4 in Y5. exact Y5.
Qed.

(** A line for each path that names nothing. *)
Definition complaint_text (paths : list (list Z)) : list Z :=
  flat_map (fun a => bytes "Bad argument: " ++ a ++ [10]) paths.
Lemma complaints_printed found paths : print_all (complaints found paths) = complaint_text (filter (nothing_at found) paths).
Proof.
  unfold complaints, print_all, complaint_text. induction (filter (nothing_at found) paths) as [|a l IH]; [reflexivity|].
  cbn [map flat_map]. now rewrite IH.
Qed.
Lemma print_all_app a b : print_all (a ++ b) = print_all a ++ print_all b.
Proof. apply flat_map_app. Qed.
Lemma print_all_one o : print_all [o] = print o.
Proof. unfold print_all. cbn [flat_map]. apply app_nil_r. Qed.

(** The languages of what is counted are words, for the files with accounts and for all. *)
Lemma plain_words content ps files : Forall2 (plain_file content) ps files ->
  forall g, In g (languages_all files) -> is_language g.
Proof.
  intros H g I. unfold languages_all in I. apply (proj1 (in_first_occ _ _)) in I.
  apply in_concat in I as (gs & I & J). apply in_map_iff in I as (f & <- & I).
  induction H as [|p r ps rs Hr _ IH]; [destruct I|]. destruct I as [->|I]; [|auto]. clear IH.
  destruct Hr as [(g' & Hs)|(e & _ & _ & ->)]; [|destruct J].
  pose proof (source_text content g' p f Hs) as Hf. destruct Hs as (e & _ & _ & Hl & _ & _ & _ & Ha).
  destruct (account_ok _ _ _ (Z.to_nat (step_bound (r_text f))) Ha Hf) as (_ & _ & _ & Hg).
  { rewrite Z2Nat.id; [lia|]. unfold step_bound. nia. }
  unfold FileDiffSpec.languages in J. apply in_map_iff in J as (x & <- & J). rewrite Forall_forall in Hg.
  rewrite (Hg x J). exact Hl.
Qed.

Lemma recorded_incl text : forall es done, incl (recorded_after text done es) es.
Proof.
  induction es as [|e es IH]; intros done x I; [destruct I|]. cbn [recorded_after] in I.
  destruct (has_room text done e); [destruct I as [<-|I]; [now left|]|]; right; eapply IH; eauto.
Qed.

Definition wordy (w : list Z) : bool :=
  negb (Nat.eqb (length w) 0) && forallb (fun c => negb (c =? 32) && negb (c =? 10) && negb (c =? 9)) w.
Lemma wordy_word w : wordy w = true -> word w /\ ~ In 9 w.
Proof.
  unfold wordy. intros H. apply andb_true_iff in H as [H1 H2]. rewrite forallb_forall in H2.
  split; [split; [intros ->; discriminate|split]|]; intros I; specialize (H2 _ I); discriminate.
Qed.

Lemma reported_word name text fuel es e : ScanSpec.file text -> ParserTable.ohcount_parse (Some name) text fuel = Some (Ok es) ->
  In e es -> word (bytes (e_lang e)).
Proof.
  intros Hf H I. pose proof (C19_reports_inside_file name text fuel es Hf H) as F. rewrite Forall_forall in F.
  destruct (F e I) as (L & _).
  assert (X : exists en, ParserTable.find_entry name = Some en).
  { unfold ParserTable.ohcount_parse in H. destruct (ParserTable.find_entry name); [eauto|discriminate]. }
  destruct X as (en & E). unfold ParserTable.find_entry in E. apply find_some in E as [In' E]. apply String.eqb_eq in E. subst name.
  assert (C : forallb (fun en => forallb (fun g => wordy (bytes g)) (may_report (ParserTable.en_name en))) ParserTable.entries = true)
    by (vm_compute; reflexivity).
  rewrite forallb_forall in C. specialize (C _ In'). rewrite forallb_forall in C. now apply wordy_word, C.
Qed.

(** The files that an invocation names, counted and printed, after the complaints. *)
Section Tool.
  Variable pl : platform.
  Variable magic : DetectorModel.file -> list Z.
  Variable pcre : string -> list Z -> bool.
  Variable exec : RegexModel.flags -> string -> list Z -> option (Z * Z).
  Variable found : list Z -> target.
  Variable content : list Z -> option (list Z).
  Variable fuel : nat.
  Notation main := (main pl magic pcre exec found content fuel).
  Notation any_file := (any_file pl magic pcre content fuel).
  Notation usual_invocation := (usual_invocation pl magic pcre found content fuel).

  Lemma any_words ps files : Forall2 any_file ps files -> Forall (fun p => ScanSpec.file (text_at content p)) ps ->
    forall g, In g (languages_all files) -> word (bytes g).
  Proof.
    intros H U g I. unfold languages_all in I. apply (proj1 (in_first_occ _ _)) in I.
    apply in_concat in I as (gs & I & J). apply in_map_iff in I as (f & <- & I).
    induction H as [|p r ps rs Hr _ IH]; [destruct I|]. inversion U as [|? ? U1 U2]; subst.
    destruct I as [->|I]; [|auto]. clear IH. destruct Hr as (h & es & _ & _ & Hp & Er).
    unfold FileDiffSpec.languages in J. apply in_map_iff in J as (x & <- & J). rewrite Er in J.
    apply recorded_incl in J. unfold parsed_as in Hp. destruct h as [h|]; [|cbn in Hp; subst es; destruct J].
    destruct (ParserTable.ohcount_parse (Some h) (text_at content p) fuel) as [y|] eqn:E; [|subst es; destruct J].
    subst y. eapply reported_word; eauto.
  Qed.

  Theorem C74_summary_printed :
    forall args paths, asks args Summary paths -> plain_invocation found content fuel paths ->
    exists parts files,
      files_of found (places paths) parts /\ Forall2 (plain_file content) (List.concat parts) files /\
      (Z.of_nat (length files) <= int_max -> events_total files <= int_max ->
       exists os text, main args = Ok os /\
         print_all os = complaint_text (filter (nothing_at found) paths) ++ text /\ summary_text files text).
  Proof.
    intros args paths Ha Hp.
    destruct (C58_summary_of_invocation pl magic pcre exec found content fuel args paths Ha Hp) as (parts & files & F1 & F2 & X).
    exists parts, files. split; [exact F1|]. split; [exact F2|]. intros Hn He.
    destruct (X Hn He) as (r & E & R1 & R2 & R3 & R4 & R5). clear X.
    eexists. exists (print (SummaryReport r)). split; [exact E|].
    rewrite print_all_app, print_all_one, complaints_printed. split; [reflexivity|].
    apply summary_text_of; auto.
    - intros g I. apply C74_names. exact (plain_words _ _ _ F2 g I).
    - rewrite R1. f_equal. clear - F2. induction F2; cbn; auto.
  Qed.

  Lemma usual_texts paths parts : files_of found (places paths) parts -> usual_invocation paths ->
    Forall (fun p => ScanSpec.file (text_at content p)) (List.concat parts).
  Proof.
    intros Hf (_ & _ & H3). apply Forall_forall. intros p Hp. apply in_concat in Hp as (ps & Hps & Hp).
    assert (exists a, In a (places paths) /\ names_file found a p) as (a & Ha & Hn).
    { clear - Hf Hps Hp. unfold files_of in Hf. induction Hf as [|a q ps' qs [_ Hq] _ IH]; [destruct Hps|].
      destruct Hps as [->|Hps]; [exists a; split; [cbn; auto|apply Hq; auto]|].
      destruct (IH Hps) as (b & Hb & Hn). exists b. cbn. auto. }
    eapply usual_text; eauto.
  Qed.

  (** The same whatever the files contain. *)
  Theorem C74_any_summary_printed :
    forall args paths, asks args Summary paths -> usual_invocation paths ->
    exists parts files,
      files_of found (places paths) parts /\ Forall2 any_file (List.concat parts) files /\
      (Z.of_nat (length files) <= int_max -> events_total files <= int_max ->
       exists os text, main args = Ok os /\
         print_all os = complaint_text (filter (nothing_at found) paths) ++ text /\ summary_text files text).
  Proof.
    intros args paths Ha Hp.
    destruct (C68_summary_of_any pl magic pcre exec found content fuel args paths Ha Hp) as (parts & files & F1 & F2 & X).
    exists parts, files. split; [exact F1|]. split; [exact F2|]. intros Hn He.
    destruct (X Hn He) as (r & E & R1 & R2 & R3 & R4 & R5). clear X.
    eexists. exists (print (SummaryReport r)). split; [exact E|].
    rewrite print_all_app, print_all_one, complaints_printed. split; [reflexivity|].
    apply summary_text_of; auto.
    - exact (any_words _ _ F2 (usual_texts _ _ F1 Hp)).
    - rewrite R1. f_equal. clear - F2. induction F2; cbn; auto.
  Qed.
End Tool.
Print Assumptions C74_summary_printed.
Print Assumptions C74_any_summary_printed.

(** Two columns are too narrow: a name of twenty letters, a million files. *)
Theorem C74_width_refuted :
  exists r, is_language (l_lang (fst r)) /\ not_negative r /\ l_files (fst r) <= int_max /\
    length (summary_row r) = 83%nat.
Proof.
  exists (mkLoc "clearsilver_template" 1 1 1 1, 3). split; [|split; [unfold not_negative; cbn; lia|split; [vm_compute; discriminate|reflexivity]]].
  destruct (find (fun kl => String.eqb (Tables.l_name (snd kl)) "clearsilver_template") languages) as [[k l]|] eqn:E; [|vm_compute in E; discriminate].
  exists k, l. apply find_some in E as [I E]. apply String.eqb_eq in E. auto.
Qed.
Print Assumptions C74_width_refuted.

Example C74_ex :
  made_of (map bytes
    ["Examining 2 file(s)"; ""; "                          Ohloh Line Count Summary                          "; "";
     "Language          Files       Code    Comment  Comment %      Blank      Total"; rule;
     "c                     2       1200          3       0.2%         10       1213";
     "make                  1          0          0       0.0%          1          1"; rule;
     "Total                 3       1200          3       0.2%         11       1214"])
    (print (SummaryReport (mkReport 2 [(mkLoc "c" 1200 3 10 2, 1213); (mkLoc "make" 0 0 1 1, 1)] (mkLoc "Total" 1200 3 11 3) 1214))).
Proof. split; [vm_compute; reflexivity|]. repeat constructor; cbn; lia. Qed.

(** An invocation that meets the hypotheses of C74_summary_printed. *)
Example C74_printed_ex :
  plain_invocation ex_found ex_content ex_fuel ex_paths /\
  exists os, ex_main ex_paths = Ok os /\ made_of (map bytes
    ["Bad argument: none"; "Examining 4 file(s)"; ""; "                          Ohloh Line Count Summary                          "; "";
     "Language          Files       Code    Comment  Comment %      Blank      Total"; rule;
     "c                     2          2          1      33.3%          1          4";
     "ruby                  1          1          1      50.0%          0          2"; rule;
     "Total                 3          3          2      40.0%          1          6"]) (print_all os).
Proof.
  split; [apply ex_plain|]. eexists. split; [vm_compute; reflexivity|]. split; [vm_compute; reflexivity|]. repeat constructor; cbn; lia.
Qed.

(** ** C75 *)

(** The percentage of comments is that of the counts, to a tenth, in any case between
    0.0 and 100.0. *)
Theorem C75_percentage :
  forall a b, 0 <= a -> 0 <= b -> 0 < a + b ->
  exists p, print_percent a b = [32] ++ spaces (10 - length p) ++ p /\ percentage a b p /\ (length p <= 10)%nat.
Proof. intros a b H1 H2 H3. destruct (print_percent_ok a b H1 H2 H3) as (p & E & P & _ & L). eauto. Qed.
Print Assumptions C75_percentage.

(** It is exact at both ends. *)
Theorem C75_ends :
  forall n, 0 < n -> print_percent 0 n = bytes "       0.0%" /\ print_percent n 0 = bytes "     100.0%".
Proof.
  intros n H.
  assert (E : tenths 0 n = 0 /\ tenths n 0 = 1000).
  { pose proof (tenths_close 0 n ltac:(lia) ltac:(lia) ltac:(lia)). pose proof (tenths_close n 0 ltac:(lia) ltac:(lia) ltac:(lia)). nia. }
  unfold tenths in E. unfold print_percent. destruct (percent 0 n), (percent n 0). destruct E as [-> ->]. split; reflexivity.
Qed.
Print Assumptions C75_ends.

(** But not only there: a few comments in much code are 0.0%, little code under many
    comments is 100.0%; and a half is rounded to even, not up. *)
Theorem C75_only_ends_refuted :
  print_percent 1 2000 = print_percent 0 2000 /\ print_percent 2001 1 = print_percent 2001 0 /\
  print_percent 1 15 = bytes "       6.2%" /\ print_percent 3 13 = bytes "      18.8%".
Proof. vm_compute. repeat split. Qed.
Print Assumptions C75_only_ends_refuted.

(** ** C76 *)

Lemma individual_line path r : word (bytes (l_lang (fst r))) -> not_negative r ->
  exists row, individual_row path r = (row ++ [32; 32] ++ path) ++ [10] /\ ~ In 10 row /\
    individual_says path r (row ++ [32; 32] ++ path) /\ (narrow r -> length row = 71%nat).
Proof.
  intros W (H1 & H2 & H3 & H4 & H5). destruct r as [l t]. cbn [fst snd] in *.
  exists (pad_right 16 (bytes (l_lang l)) ++ print_counts "           " l t).
  split; [unfold individual_row; cbn [fst snd]; now rewrite <- !app_assoc|]. split; [|split].
  - rewrite !in_app_iff. destruct W as (_ & _ & W). pose proof (pad_right_no_nl 16 _ W).
    pose proof (counts_no_nl "           " l t ltac:(cbn; lia) H1 H2 H3 H5). tauto.
  - destruct (words_counts "           " l t H1 H2 H3 H5) as (code & comments & ps & blanks & tot & E & N1 & N2 & N3 & N4 & F1 & F2).
    { exists (bytes "          "). split; reflexivity. }
    exists (pad_right 16 (bytes (l_lang l)) ++ print_counts "           " l t), code, comments, ps, blanks, tot. cbn [fst snd].
    split; [reflexivity|]. split.
    + unfold print_counts at 1. cbn [app]. rewrite words_right by exact W. cbn [app]. f_equal. exact E.
    + repeat (split; [assumption|]). intros Pz. rewrite (F2 Pz). reflexivity.
  - intros (_ & B1 & B2 & B3 & B4 & B5 & B6). cbn [fst snd] in *. rewrite !app_length.
    rewrite pad_right_length by exact B6. rewrite length_counts by (try reflexivity; lia). reflexivity.
Qed.

(** The report on single files: four lines of heading, then for each file and each of its
    languages the numbers as words, then the path in column 74 if the numbers are not too
    large; these are lines if the paths are. *)
Theorem C76_individual_readable :
  forall n rows, 0 <= n ->
  Forall (fun f => Forall (fun x => word (bytes (l_lang (fst x))) /\ not_negative x) (snd f)) rows ->
  exists heading groups,
    print (IndividualReport n rows) = flat_map (fun l => l ++ [10]) (heading ++ List.concat groups) /\
    length heading = 4%nat /\ Forall (fun l => ~ In 10 l) heading /\ examining n (hd [] heading) /\
    Forall2 (fun f => Forall2 (fun r line => individual_says (fst f) r line /\
                                 (narrow r -> skipn 73 line = fst f) /\ (~ In 10 (fst f) -> ~ In 10 line)) (snd f))
            rows groups.
Proof.
  intros n rows Hn HR. cbn [print]. unfold print_individual.
  assert (L : exists groups, flat_map (fun f => flat_map (individual_row (fst f)) (snd f)) rows =
      flat_map (fun l => l ++ [10]) (List.concat groups) /\
    Forall2 (fun f => Forall2 (fun r line => individual_says (fst f) r line /\
      (narrow r -> skipn 73 line = fst f) /\ (~ In 10 (fst f) -> ~ In 10 line)) (snd f)) rows groups).
  { induction HR as [|[path rs] rows HX HR IH]; [exists []; split; [reflexivity|constructor]|].
    destruct IH as (groups & E & F). cbn [fst snd] in *.
    assert (G : exists lines, flat_map (individual_row path) rs = flat_map (fun l => l ++ [10]) lines /\
      Forall2 (fun r line => individual_says path r line /\ (narrow r -> skipn 73 line = path) /\ (~ In 10 path -> ~ In 10 line)) rs lines).
    { clear - HX. induction HX as [|x rs [W N] HX IH]; [exists []; split; [reflexivity|constructor]|].
      destruct IH as (lines & E & F). destruct (individual_line path x W N) as (row & Ex & Nx & Sx & Wx).
      exists ((row ++ [32; 32] ++ path) :: lines). cbn [flat_map]. rewrite E, Ex. split; [reflexivity|].
      constructor; [|exact F]. split; [exact Sx|]. split.
      - intros B. specialize (Wx B). rewrite app_assoc.
        replace 73%nat with (length (row ++ [32; 32])) by (rewrite app_length, Wx; reflexivity).
        now rewrite skipn_app, skipn_all, Nat.sub_diag.
      - intros Np. rewrite !in_app_iff. cbn [In]. intuition lia. }
    destruct G as (lines & E' & F'). exists (lines :: groups). cbn [flat_map List.concat fst snd]. rewrite flat_map_app, E, E'.
    split; [reflexivity|]. constructor; auto. }
  destruct L as (groups & E & F).
  set (title := bytes "                              Ohloh Line Count                              ").
  set (head := bytes "Language               Code    Comment  Comment %      Blank      Total  File").
  set (dashes := bytes "----------------  ---------  ---------  ---------  ---------  ---------  -----------------------------------------------").
  exists [bytes "Examining " ++ decimal n ++ bytes " file(s)"; title; head; dashes], groups.
  split; [|split; [reflexivity|split; [|split; [|exact F]]]].
  - rewrite E, flat_map_app. unfold ln. cbn [flat_map app]. rewrite <- !app_assoc. reflexivity.
  - unfold title, head, dashes. repeat constructor; try (cbn; lia).
    rewrite !in_app_iff. intros [I|[I|I]]; [cbn in I; lia|now apply (decimal_no_nl n)|cbn in I; lia].
  - exists (decimal n). split; [now apply decimal_numeral|reflexivity].
Qed.
Print Assumptions C76_individual_readable.

(** What the report on some files is. *)
Definition individual_text (paths : list (list Z)) (files : list revision) (text : list Z) : Prop :=
  exists heading groups,
    text = flat_map (fun l => l ++ [10]) (heading ++ List.concat groups) /\ length heading = 4%nat /\
    Forall (fun l => ~ In 10 l) heading /\ examining (Z.of_nat (length files)) (hd [] heading) /\
    length groups = length files /\
    forall i path file lines, nth_error paths i = Some path -> nth_error files i = Some file -> nth_error groups i = Some lines ->
      exists entries, Permutation (map (entry [file]) (languages_all [file])) entries /\ StronglySorted name_le entries /\
        Forall2 (fun l => individual_says path (with_lines l)) entries lines /\
        (~ In 10 path -> Forall (fun l => ~ In 10 l) lines).

Lemma same_length {A B} (R : A -> B -> Prop) a b : Forall2 R a b -> length a = length b.
Proof. induction 1; cbn; congruence. Qed.

Lemma languages_one f files g : In f files -> In g (languages_all [f]) -> In g (languages_all files).
Proof.
  intros I J. unfold languages_all in *. apply (proj1 (in_first_occ _ _)) in J. apply in_first_occ.
  cbn [map List.concat] in J. rewrite app_nil_r in J. apply in_concat. eexists. split; [|exact J]. now apply in_map.
Qed.

Lemma individual_text_of paths files rs : (forall g, In g (languages_all files) -> word (bytes g)) ->
  length paths = length files ->
  Forall2 (fun f r => Permutation (map (fun g => with_lines (entry [f] g)) (languages_all [f])) r /\
                      StronglySorted name_le (map fst r)) files rs ->
  individual_text paths files (print (IndividualReport (Z.of_nat (length files)) (combine paths rs))).
Proof.
  intros HW HL HF.
  assert (RR : forall f r, In f files -> Permutation (map (fun g => with_lines (entry [f] g)) (languages_all [f])) r ->
    r = map with_lines (map fst r) /\ Permutation (map (entry [f]) (languages_all [f])) (map fst r) /\
    Forall (fun x => word (bytes (l_lang (fst x))) /\ not_negative x) r).
  { intros f r If R.
    assert (E : r = map with_lines (map fst r)).
    { rewrite map_map. rewrite <- (map_id r) at 1. apply map_ext_in. intros x I.
      apply (Permutation_in _ (Permutation_sym R)) in I. apply in_map_iff in I as (g & <- & _). reflexivity. }
    split; [exact E|]. split.
    - apply (Permutation_map fst) in R. rewrite map_map in R. exact R.
    - apply Forall_forall. intros x I. apply (Permutation_in _ (Permutation_sym R)) in I. apply in_map_iff in I as (g & <- & I).
      split; [apply HW; eapply languages_one; eauto|]. pose proof (entry_nonneg [f] g). unfold not_negative. cbn in *. lia. }
  destruct (C76_individual_readable (Z.of_nat (length files)) (combine paths rs) ltac:(lia)) as (heading & groups & E & H1 & H2 & H3 & H4).
  { apply Forall_forall. intros [p r] I. cbn [snd]. apply in_combine_r in I. clear - RR I HF.
    assert (Q : exists f, In f files /\ Permutation (map (fun g => with_lines (entry [f] g)) (languages_all [f])) r).
    { clear RR. induction HF as [|f r' fs rs [H _] HF IH]; [destruct I|]. destruct I as [->|I]; [exists f; split; [now left|auto]|].
      destruct (IH I) as (f' & I' & Q). exists f'. split; [now right|auto]. }
    destruct Q as (f & If & Q). now apply (RR f r). }
  exists heading, groups. split; [exact E|]. split; [exact H1|]. split; [exact H2|]. split; [exact H3|]. split.
  - pose proof (same_length _ _ _ H4) as Q. pose proof (same_length _ _ _ HF). rewrite combine_length in Q. lia.
  - clear E H1 H2 H3. intros i path f lines Np Nf Ng. revert i groups paths HL H4 Np Nf Ng.
    induction HF as [|f' r fs rs [HP HS] HF IH]; intros i groups paths HL H4 Np Nf Ng; [destruct i; discriminate|].
    destruct paths as [|p paths]; [discriminate|]. cbn [combine] in H4. inversion H4 as [|? g ? gs G H4']; subst.
    destruct i as [|i]; cbn [nth_error] in *.
    + injection Np as ->. injection Nf as ->. injection Ng as ->. cbn [fst snd] in G.
      destruct (RR f r ltac:(now left) HP) as (Er & P & _). exists (map fst r). split; [exact P|]. split; [exact HS|]. split.
      * rewrite Er in G. clear - G. remember (map fst r) as ls eqn:EL. clear EL. revert lines G.
        induction ls as [|l ls IHl]; intros lines G; inversion G as [|? ? ? ? [X _] G']; subst; constructor; auto.
      * intros Np. clear - G Np. induction G as [|? ? ? ? (_ & _ & X) G IHG]; constructor; auto.
    + eapply (IH ltac:(intros g0 I0; apply HW; clear - I0; unfold languages_all in *; apply (proj1 (in_first_occ _ _)) in I0; apply in_first_occ; cbn [map List.concat]; apply in_or_app; auto)
                 ltac:(intros f0 r0 I0; apply RR; now right) i gs paths); eauto.
Qed.

Section Tool.
  Variable pl : platform.
  Variable magic : DetectorModel.file -> list Z.
  Variable pcre : string -> list Z -> bool.
  Variable exec : RegexModel.flags -> string -> list Z -> option (Z * Z).
  Variable found : list Z -> target.
  Variable content : list Z -> option (list Z).
  Variable fuel : nat.
  Notation main := (main pl magic pcre exec found content fuel).
  Notation any_file := (any_file pl magic pcre content fuel).
  Notation usual_invocation := (usual_invocation pl magic pcre found content fuel).

  Theorem C76_individual_printed :
    forall args paths, asks args Individual paths -> plain_invocation found content fuel paths ->
    exists parts files,
      files_of found (places paths) parts /\ Forall2 (plain_file content) (List.concat parts) files /\
      (Z.of_nat (length files) <= int_max ->
       exists os text, main args = Ok os /\
         print_all os = complaint_text (filter (nothing_at found) paths) ++ text /\
         individual_text (List.concat parts) files text).
  Proof.
    intros args paths Ha Hp.
    destruct (C58_individual_of_invocation pl magic pcre exec found content fuel args paths Ha Hp) as (parts & files & F1 & F2 & X).
    exists parts, files. split; [exact F1|]. split; [exact F2|]. intros Hn. destruct (X Hn) as (rs & E & R). clear X.
    eexists. eexists. split; [exact E|].
    rewrite print_all_app, print_all_one, complaints_printed. split; [reflexivity|].
    apply individual_text_of; auto.
    - intros g I. apply C74_names. exact (plain_words _ _ _ F2 g I).
    - exact (same_length _ _ _ F2).
  Qed.

  Theorem C76_any_individual_printed :
    forall args paths, asks args Individual paths -> usual_invocation paths ->
    exists parts files,
      files_of found (places paths) parts /\ Forall2 any_file (List.concat parts) files /\
      (Z.of_nat (length files) <= int_max ->
       exists os text, main args = Ok os /\
         print_all os = complaint_text (filter (nothing_at found) paths) ++ text /\
         individual_text (List.concat parts) files text).
  Proof.
    intros args paths Ha Hp.
    destruct (C68_individual_of_any pl magic pcre exec found content fuel args paths Ha Hp) as (parts & files & F1 & F2 & X).
    exists parts, files. split; [exact F1|]. split; [exact F2|]. intros Hn. destruct (X Hn) as (rs & E & R). clear X.
    eexists. eexists. split; [exact E|].
    rewrite print_all_app, print_all_one, complaints_printed. split; [reflexivity|].
    apply individual_text_of; auto.
    - exact (any_words pl magic pcre content fuel _ _ F2 (usual_texts pl magic pcre found content fuel _ _ F1 Hp)).
    - exact (same_length _ _ _ F2).
  Qed.
End Tool.
Print Assumptions C76_individual_printed.
Print Assumptions C76_any_individual_printed.

(** Not every row has the same number of words: without code and comments there is no
    percentage, unlike in the summary. *)
Theorem C76_percentage_missing_refuted :
  exists r, not_negative r /\ snd r = l_code (fst r) + l_comments (fst r) + l_blanks (fst r) /\
    length (words (summary_row r)) = 7%nat /\
    individual_row (bytes "x") r = bytes "make                      0          0                     3          3  x" ++ [10].
Proof.
  exists (mkLoc "make" 0 0 3 1, 3). split; [unfold not_negative; cbn; lia|]. split; [reflexivity|]. vm_compute. split; reflexivity.
Qed.
Print Assumptions C76_percentage_missing_refuted.

(** A name with a line end in it prints as two files. *)
Theorem C76_forged_refuted :
  exists path path1 path2 r1 r2, ~ In 0 path /\ not_negative r1 /\ not_negative r2 /\
    print (IndividualReport 1 [(path, [r1])]) = print (IndividualReport 1 [(path1, [r1]); (path2, [r2])]).
Proof.
  exists (bytes "a.c" ++ [10] ++ bytes "c                        99          1       1.0%          0        100  b.c"), (bytes "a.c"), (bytes "b.c").
  exists (mkLoc "c" 1 0 0 1, 1), (mkLoc "c" 99 1 0 1, 100).
  split; [vm_compute; intuition discriminate|]. split; [unfold not_negative; cbn; lia|]. split; [unfold not_negative; cbn; lia|].
  vm_compute. reflexivity.
Qed.
Print Assumptions C76_forged_refuted.

Example C76_ex :
  made_of (map bytes
    ["Examining 2 file(s)"; "                              Ohloh Line Count                              ";
     "Language               Code    Comment  Comment %      Blank      Total  File";
     "----------------  ---------  ---------  ---------  ---------  ---------  -----------------------------------------------";
     "css                       2          0       0.0%          0          2  t/a b.html";
     "html                      6          3      33.3%          1         10  t/a b.html"])
    (print (IndividualReport 2 [(bytes "t/a b.html", [(mkLoc "css" 2 0 0 1, 2); (mkLoc "html" 6 3 1 1, 10)]); (bytes "t/x.png", [])])).
Proof. split; [vm_compute; reflexivity|]. repeat constructor; cbn; lia. Qed.

(** ** C77 *)

(** What the lines of the other commands are made of: paths without line ends, names
    that are words, positions that are not negative. *)
Definition clean (c : command) (o : output) : Prop :=
  match c, o with
  | _, BadArgument a => ~ In 10 a
  | Detect, Detected g p => word (bytes g) /\ ~ In 9 (bytes g) /\ ~ In 10 p
  | RawEntities, Entity g k s e =>
    word (bytes g) /\ ~ In 9 (bytes g) /\ word (bytes k) /\ ~ In 9 (bytes k) /\ 0 <= s /\ 0 <= e
  | Licenses, License n _ f => In n (map LicenseTable.l_name LicenseTable.license_map) /\ ~ In 10 f
  | _, _ => False
  end.

Definition line_of (o : output) : list Z := removelast (print o).

Lemma bytes_inj a : forall b, bytes a = bytes b -> a = b.
Proof.
  induction a as [|c a IH]; intros [|d b] H; try discriminate; [reflexivity|]. cbn [bytes] in H. injection H as H1 H2.
  f_equal; [|now apply IH]. unfold byte_of_ascii in H1.
  rewrite <- (ascii_N_embedding c), <- (ascii_N_embedding d). f_equal. lia.
Qed.

Lemma split_first c a : forall b a' b' : list Z, ~ In c a -> ~ In c a' -> a ++ c :: b = a' ++ c :: b' -> a = a' /\ b = b'.
Proof.
  induction a as [|x a IH]; intros b [|y a'] b' H H' E; cbn in E.
  - injection E as ->. auto.
  - injection E as -> _. exfalso. apply H'. now left.
  - injection E as -> _. exfalso. apply H. now left.
  - injection E as -> E. destruct (IH b a' b') as [-> ->]; auto; cbn in *; tauto.
Qed.

Lemma numeral_inj n m : 0 <= n -> 0 <= m -> decimal n = decimal m -> n = m.
Proof.
  intros Hn Hm E. destruct (decimal_numeral n Hn) as (_ & _ & V & _). destruct (decimal_numeral m Hm) as (_ & _ & V' & _). congruence.
Qed.
Lemma numeral_no_tab n : 0 <= n -> ~ In 9 (decimal n).
Proof. intros Hn I. destruct (decimal_numeral n Hn) as (_ & D & _). rewrite Forall_forall in D. apply D in I. lia. Qed.

Lemma license_name n : In n (map LicenseTable.l_name LicenseTable.license_map) ->
  word (bytes n) /\ ~ In 44 (bytes n) /\ n <> "Bad".
Proof.
  assert (C : forallb (fun l => wordy (bytes (LicenseTable.l_name l)) && forallb (fun c => negb (c =? 44)) (bytes (LicenseTable.l_name l)) &&
    negb (String.eqb (LicenseTable.l_name l) "Bad")) LicenseTable.license_map = true) by (vm_compute; reflexivity).
  intros I. apply in_map_iff in I as (l & <- & I). rewrite forallb_forall in C. specialize (C _ I).
  apply andb_true_iff in C as [C C3]. apply andb_true_iff in C as [C1 C2]. rewrite forallb_forall in C2.
  split; [now apply wordy_word|]. split; [intros J; specialize (C2 _ J); discriminate|].
  intros E. rewrite E in C3. discriminate.
Qed.

Lemma clean_line c o : clean c o -> exists l, print o = l ++ [10] /\ ~ In 10 l /\ line_of o = l.
Proof.
  intros H. unfold line_of.
  assert (G : exists l, print o = l ++ [10] /\ ~ In 10 l).
  { destruct o as [a|g k t|g p| | |n m f|g k s e|r]; cbn [print].
    - exists (bytes "Bad argument: " ++ a). split; [now rewrite <- app_assoc|]. assert (~ In 10 a) by now destruct c.
      rewrite in_app_iff. cbn. intuition lia.
    - destruct c; destruct H.
    - destruct c; cbn in H; try contradiction. destruct H as ((_ & _ & H1) & _ & H2). exists (bytes g ++ [9] ++ p).
      split; [now rewrite <- !app_assoc|]. rewrite !in_app_iff. cbn. intuition lia.
    - destruct c; destruct H.
    - destruct c; destruct H.
    - destruct c; cbn in H; try contradiction. destruct H as (H1 & H2). apply license_name in H1 as ((_ & _ & H1) & _).
      exists (bytes n ++ (if m then [44] else []) ++ [32] ++ f). split; [now rewrite <- !app_assoc|]. rewrite !in_app_iff.
      destruct m; cbn; intuition lia.
    - destruct c; cbn in H; try contradiction. destruct H as ((_ & _ & H1) & _ & (_ & _ & H2) & _ & H3 & H4).
      exists (bytes g ++ [9] ++ bytes k ++ [9] ++ decimal s ++ [9] ++ decimal e).
      split; [now rewrite <- !app_assoc|]. pose proof (decimal_no_nl s H3). pose proof (decimal_no_nl e H4).
      rewrite !in_app_iff. cbn. intuition lia.
    - destruct c; destruct H. }
  destruct G as (l & E & N). exists l. rewrite E, removelast_last. auto.
Qed.

Lemma clean_print_inj c o o' : clean c o -> clean c o' -> print o = print o' -> o = o'.
Proof.
  intros H H' E.
  assert (BAD : forall w rest a, ~ In 32 w -> bytes "Bad argument: " ++ a = w ++ 9 :: rest -> False).
  { intros w rest a Hw X. change (bytes "Bad argument: ") with (bytes "Bad" ++ 32 :: bytes "argument: ") in X.
    rewrite <- app_assoc in X. cbn [app] in X.
    assert (Y : In 32 (firstn (length w) (w ++ 9 :: rest)) \/ (length w <= 3)%nat).
    { destruct (le_lt_dec (length w) 3); [now right|left]. rewrite <- X.
      replace (length w) with (4 + (length w - 4))%nat by lia. cbn. auto. }
    destruct Y as [Y|Y].
    - rewrite firstn_app, Nat.sub_diag, firstn_O, app_nil_r, firstn_all in Y. auto.
    - destruct w as [|a1 [|a2 [|a3 [|]]]]; cbn in X, Y; try discriminate; lia. }
  destruct o as [a|g k t|g p| | |n m f|g k s e|r]; destruct o' as [a'|g' k' t'|g' p'| | |n' m' f'|g' k' s' e'|r'];
    try (destruct c; cbn in H, H'; contradiction).
  - cbn [print] in E. apply app_inv_head, app_inv_tail in E. now subst.
  - exfalso. destruct c; cbn in H'; try contradiction. destruct H' as ((_ & H' & _) & _).
    cbn [print app] in E. rewrite <- (app_nil_r [10]), app_assoc in E. eapply BAD; [exact H'|]. rewrite <- app_assoc in E. exact E.
  - exfalso. destruct c; cbn in H'; try contradiction. destruct H' as (I & _). apply license_name in I as ((_ & NS & _) & NC & NB).
    cbn [print] in E. change (bytes "Bad argument: ") with (bytes "Bad" ++ 32 :: bytes "argument: ") in E.
    rewrite <- app_assoc in E. cbn [app] in E. destruct m'.
    + rewrite (app_assoc (bytes n')) in E. apply split_first in E as [E _]; [|cbn; lia|rewrite in_app_iff; cbn; intuition lia].
      assert (J : In 44 (bytes "Bad")) by (rewrite E, in_app_iff; cbn; auto). cbn in J. lia.
    + cbn [app] in E. apply split_first in E as [E _]; [|cbn; lia|exact NS]. apply NB. symmetry. now apply bytes_inj.
  - exfalso. destruct c; cbn in H'; try contradiction. destruct H' as ((_ & H' & _) & _).
    cbn [print app] in E. eapply BAD; [exact H'|]. exact E.
  - exfalso. destruct c; cbn in H; try contradiction. destruct H as ((_ & H & _) & _).
    cbn [print app] in E. symmetry in E. eapply BAD; [exact H|]. exact E.
  - destruct c; cbn in H, H'; try contradiction. destruct H as (_ & H1 & _), H' as (_ & H1' & _). cbn [print app] in E.
    apply split_first in E as [E1 E2]; auto. apply app_inv_tail in E2. apply bytes_inj in E1. now subst.
  - exfalso. destruct c; cbn in H; try contradiction. destruct H as (I & _). apply license_name in I as ((_ & NS & _) & NC & NB).
    cbn [print] in E. symmetry in E. change (bytes "Bad argument: ") with (bytes "Bad" ++ 32 :: bytes "argument: ") in E.
    rewrite <- app_assoc in E. cbn [app] in E. destruct m.
    + rewrite (app_assoc (bytes n)) in E. apply split_first in E as [E _]; [|cbn; lia|rewrite in_app_iff; cbn; intuition lia].
      assert (J : In 44 (bytes "Bad")) by (rewrite E, in_app_iff; cbn; auto). cbn in J. lia.
    + cbn [app] in E. apply split_first in E as [E _]; [|cbn; lia|exact NS]. apply NB. symmetry. now apply bytes_inj.
  - destruct c; cbn in H, H'; try contradiction. destruct H as (I & _), H' as (I' & _).
    apply license_name in I as ((_ & NS & _) & NC & _). apply license_name in I' as ((_ & NS' & _) & NC' & _).
    cbn [print] in E. rewrite !app_assoc in E. cbn [app] in E. apply app_inv_tail in E. rewrite <- !app_assoc in E.
    rewrite (app_assoc (bytes n)), (app_assoc (bytes n')) in E.
    apply split_first in E as [E1 E2].
    + subst f'. destruct m, m'.
      * apply app_inv_tail in E1. apply bytes_inj in E1. now subst.
      * exfalso. apply NC'. rewrite app_nil_r in E1. rewrite <- E1, in_app_iff. cbn. auto.
      * exfalso. apply NC. rewrite app_nil_r in E1. rewrite E1, in_app_iff. cbn. auto.
      * rewrite !app_nil_r in E1. apply bytes_inj in E1. now subst.
    + rewrite in_app_iff. destruct m; cbn; intuition lia.
    + rewrite in_app_iff. destruct m'; cbn; intuition lia.
  - exfalso. destruct c; cbn in H; try contradiction. destruct H as ((_ & H & _) & _).
    cbn [print app] in E. symmetry in E. eapply BAD; [exact H|]. exact E.
  - destruct c; cbn in H, H'; try contradiction. destruct H as (_ & H1 & _ & H2 & H3 & H4), H' as (_ & H1' & _ & H2' & H3' & H4').
    cbn [print app] in E. apply split_first in E as [E1 E]; auto. apply split_first in E as [E2 E]; auto.
    apply split_first in E as [E3 E4]; try now apply numeral_no_tab. apply app_inv_tail in E4.
    apply bytes_inj in E1, E2. apply numeral_inj in E3, E4; auto. now subst.
Qed.

(** From what -d, -l or -re print the items can be read, if no path has a line end in it. *)
Theorem C77_unambiguous :
  forall c os os', Forall (clean c) os -> Forall (clean c) os' -> print_all os = print_all os' -> os = os'.
Proof.
  intros c os os' H H' E.
  assert (M : forall os, Forall (clean c) os -> made_of (map line_of os) (print_all os)).
  { clear. intros os H. induction H as [|o os Ho _ IH]; [apply made_of_nil|].
    destruct (clean_line c o Ho) as (l & E & N & El). unfold print_all. cbn [map flat_map]. rewrite E, El, <- app_assoc.
    now apply made_of_cons. }
  pose proof (M _ H) as M1. pose proof (M _ H') as M2. rewrite <- E in M2. pose proof (made_of_unique _ _ _ M1 M2) as L.
  clear M M1 M2 E. revert os' H' L. induction H as [|o os Ho _ IH]; intros os' H' L; destruct os' as [|o' os']; try discriminate; [reflexivity|].
  inversion H' as [|? ? Ho' Hos']; subst. cbn [map] in L. injection L as L1 L2. f_equal; [|now apply IH].
  apply (clean_print_inj c); auto. destruct (clean_line c o Ho) as (l & E & _ & El). destruct (clean_line c o' Ho') as (l' & E' & _ & El').
  congruence.
Qed.
Print Assumptions C77_unambiguous.

(** The lines of the commands: the fields are what is between the tabs. *)
Theorem C77_lines :
  (forall g p, print (Detected g p) = bytes g ++ [9] ++ p ++ [10]) /\
  (forall g k s e, 0 <= s -> 0 <= e -> exists a b, numeral s a /\ numeral e b /\
     print (Entity g k s e) = bytes g ++ [9] ++ bytes k ++ [9] ++ a ++ [9] ++ b ++ [10]) /\
  (forall f ls, map print (printed f ls) =
     map (fun l => bytes (LicenseTable.l_name l) ++ bytes ", " ++ f ++ [10]) (removelast ls) ++
     map (fun l => bytes (LicenseTable.l_name l) ++ [32] ++ f ++ [10]) (skipn (length ls - 1) ls)).
Proof.
  split; [reflexivity|]. split.
  - intros g k s e Hs He. exists (decimal s), (decimal e). split; [now apply decimal_numeral|]. split; [now apply decimal_numeral|reflexivity].
  - intros f ls. unfold printed. rewrite map_app, map_map. f_equal.
    destruct ls as [|x ls _] using rev_ind; [reflexivity|]. rewrite rev_app_distr, app_length. cbn [rev app length].
    replace (length ls + 1 - 1)%nat with (length ls + 0)%nat by lia. rewrite skipn_app.
    replace (length ls + 0 - length ls)%nat with O by lia. rewrite skipn_all2 by lia. reflexivity.
Qed.
Print Assumptions C77_lines.

(** What -d prints of an invocation, read back. *)
Section Tool.
  Variable pl : platform.
  Variable magic : DetectorModel.file -> list Z.
  Variable pcre : string -> list Z -> bool.
  Variable exec : RegexModel.flags -> string -> list Z -> option (Z * Z).
  Variable found : list Z -> target.
  Variable content : list Z -> option (list Z).
  Variable fuel : nat.
  Notation main := (main pl magic pcre exec found content fuel).

  Theorem C77_detect_printed :
    forall args paths, asks args Detect paths -> plain_invocation found content fuel paths ->
    (forall a p, In a (places paths) -> names_file found a p -> exists g r, source_file content p g r) ->
    (forall a, In a paths -> ~ In 10 a) -> (forall a p, In a (places paths) -> names_file found a p -> ~ In 10 p) ->
    exists parts gs os, files_of found (places paths) parts /\
      Forall2 (fun p g => exists r, source_file content p g r) (List.concat parts) gs /\
      main args = Ok os /\
      print_all os = complaint_text (filter (nothing_at found) paths) ++
                     flat_map (fun x => bytes (snd x) ++ [9] ++ fst x ++ [10]) (combine (List.concat parts) gs) /\
      (* nothing else that -d may print looks like this *)
      forall os', Forall (clean Detect) os' -> print_all os' = print_all os -> os' = os.
  Proof.
    intros args paths Ha Hp Hs Hn1 Hn2.
    destruct (C61_detect pl magic pcre exec found content fuel args paths Ha Hp Hs) as (parts & gs & F1 & F2 & E).
    exists parts, gs. eexists. split; [exact F1|]. split; [exact F2|]. split; [exact E|]. split.
    - rewrite print_all_app, complaints_printed. f_equal. unfold print_all. rewrite flat_map_concat_map, map_map, <- flat_map_concat_map. reflexivity.
    - intros os' H' EQ. apply (C77_unambiguous Detect); auto. apply Forall_app. split.
      + unfold complaints. apply Forall_forall. intros o I. apply in_map_iff in I as (a & <- & I). apply filter_In in I as [I _]. cbn. auto.
      + apply Forall_forall. intros o I. apply in_map_iff in I as ([p g] & <- & I). cbn [clean fst snd].
        assert (Ip := in_combine_l _ _ _ _ I).
        assert (G : is_language g).
        { clear - F2 I. induction F2 as [|p' g' ps gs (r & Hr) F2 IH]; [destruct I|]. destruct I as [[= -> ->]|I]; [|auto].
          destruct Hr as (e & _ & _ & Hl & _). exact Hl. }
        assert (W : word (bytes g) /\ ~ In 9 (bytes g)).
        { assert (C : forallb (fun kl => wordy (bytes (Tables.l_name (snd kl)))) languages = true) by (vm_compute; reflexivity).
          destruct G as (k & l & Il & <-). rewrite forallb_forall in C. specialize (C _ Il). now apply wordy_word in C. }
        destruct W as [W1 W2]. split; [exact W1|]. split; [exact W2|].
        apply in_concat in Ip as (ps & Hps & Ip).
        assert (exists a, In a (places paths) /\ names_file found a p) as (a & Ha' & Hn).
        { clear - F1 Hps Ip. unfold files_of in F1. induction F1 as [|a q ps' qs [_ Hq] _ IH]; [destruct Hps|].
          destruct Hps as [->|Hps]; [exists a; split; [cbn; auto|apply Hq; auto]|].
          destruct (IH Hps) as (b & Hb & Hn). exists b. cbn. auto. }
        eauto.
  Qed.
End Tool.
Print Assumptions C77_detect_printed.

(** With a line end in a path there are two readings. *)
Theorem C77_newline_refuted :
  exists p p1 p2 g, ~ In 0 p /\ print_all [Detected g p] = print_all [Detected g p1; Detected g p2].
Proof.
  exists (bytes "a.c" ++ [10] ++ bytes "c" ++ [9] ++ bytes "b.c"), (bytes "a.c"), (bytes "b.c"), "c".
  split; [vm_compute; intuition discriminate|reflexivity].
Qed.
Print Assumptions C77_newline_refuted.

Example C77_ex :
  Forall (clean RawEntities) [BadArgument (bytes "x"); Entity "c" "comment" 0 17; Entity "c" "newline" 17 18] /\
  print_all [BadArgument (bytes "x"); Entity "c" "comment" 0 17; Entity "c" "newline" 17 18] =
    bytes "Bad argument: x" ++ [10] ++ bytes "c" ++ [9] ++ bytes "comment" ++ [9] ++ bytes "0" ++ [9] ++ bytes "17" ++ [10] ++
    bytes "c" ++ [9] ++ bytes "newline" ++ [9] ++ bytes "17" ++ [9] ++ bytes "18" ++ [10].
Proof.
  split; [|vm_compute; reflexivity].
  repeat constructor; try (vm_compute; intuition discriminate); cbn; intuition (try discriminate; lia).
Qed.
Example C77_licenses_ex :
  print_all (License "gpl" true (bytes "a.c") :: [License "mit" false (bytes "a.c")]) = bytes "gpl, a.c" ++ [10] ++ bytes "mit a.c" ++ [10].
Proof. reflexivity. Qed.

(** Help is the text of ohcount.c, without the paths. *)
Example C77_help_ex : length (print HelpText) = 1669%nat /\ words (firstn 34 (print HelpText)) = map bytes ["Usage:"; "ohcount"; "[option]"; "[paths...]"].
Proof. vm_compute. split; reflexivity. Qed.
