(** Lemmas about the command line tool. *)
From Coq Require Import ZArith String List Bool Lia.
From Verif Require Import Base Arr LocModel LocSpec ParsedModel ParsedSpec ParsedProofs FileDiffSpec PathModel PropertiesPath DirModel DirSpec PropertiesDir.
From Verif Require Import LineSpec LineProofs PropertiesLines LexSpec LexTable LexLines PropertiesLex.
From Verif Require Import Tables TablesSpec DetectorModel DetectorSpec PropertiesDetect.
From Verif Require Import ParserTable ScanSpec PropertiesScan PropertiesTail PropertiesParsed PropertiesFileDiff.
From Verif Require Import ToolModel ToolSpec.
Import ListNotations.
Open Scope string_scope.
Open Scope Z_scope.
Open Scope list_scope.

(** ** Options *)

Lemma flag_option a c : command_from_flag a = Some c <-> option_for a c.
Proof.
  unfold command_from_flag, option_for. split.
  - destruct (find _ options) as [[o c']|] eqn:E; [|discriminate]. intros H. injection H as ->.
    apply find_some in E as [E1 E2]. cbn [fst] in E2. destruct (list_eq_dec Z.eq_dec (bytes o) a) as [<-|]; [|discriminate].
    cbn [options In] in E1.
    repeat (destruct E1 as [E1|E1]; [injection E1 as <- <-; eexists; eexists; split; [|split; [|reflexivity]];
      [first [left; reflexivity | do 1 right; left; reflexivity | do 2 right; left; reflexivity | do 3 right; left; reflexivity
       | do 4 right; left; reflexivity | do 5 right; left; reflexivity | do 6 right; left; reflexivity] | cbn; tauto]|]). destruct E1.
  - intros (os & o & H1 & H2 & ->). cbn [documented In] in H1.
    repeat (destruct H1 as [H1|H1]; [injection H1 as <- <-; cbn [In] in H2;
      repeat (destruct H2 as [<-|H2]; [reflexivity|]); destruct H2|]). destruct H1.
Qed.

(** ** Extensions *)

Lemma last_unique (P : Z -> Prop) a c b a' c' b' : a ++ [c] ++ b = a' ++ [c'] ++ b' -> P c -> P c' ->
  (forall x, In x b -> ~ P x) -> (forall x, In x b' -> ~ P x) -> b = b'.
Proof.
  intros E Hc Hc' Hb Hb'. apply app_eq_app in E as (l & [[-> E]|[-> E]]); destruct l as [|x l]; cbn in E.
  - injection E; auto.
  - injection E as <- ->. exfalso. apply (Hb' c); auto. apply in_app_iff. cbn. auto.
  - injection E; auto.
  - injection E as <- ->. exfalso. apply (Hb c'); auto. apply in_app_iff. cbn. auto.
Qed.

Lemma extension_split p e : has_extension p e -> exists s, sourcefile_new p = Ok s /\ ext_of p s = e.
Proof.
  intros (front & Ep & He).
  assert (Hp : exists c, In c p /\ (c = dot \/ separator c)).
  { exists 46. split; [rewrite Ep; apply in_app_iff; cbn; auto|left; reflexivity]. }
  destruct (C25_path_split p Hp) as (s & Es & Hsep & Hdir & Hext). exists s. split; auto.
  assert (Hf : exists x, filename_of p s = x ++ [46] ++ e).
  { destruct Hdir as [[Hd _]|(c & Hc & Hd)]; [exists front; congruence|].
    rewrite Ep in Hd at 1. apply app_eq_app in Hd as (l & [[Hd E]|[Hd E]]); destruct l as [|x l]; cbn in E.
    - injection E as -> ->. destruct Hc; discriminate.
    - injection E as <- E. exists l. exact E.
    - injection E as <- _. destruct Hc; discriminate.
    - injection E as <- E. exfalso. assert (In c e) as Hin by (rewrite E; apply in_app_iff; cbn; auto).
      destruct (He _ Hin) as (_ & N1 & N2). destruct Hc; auto. }
  destruct Hf as (x & Hf). destruct Hext as [(base & Hb & Hn)|[Hn _]].
  - apply (last_unique (fun c => c = 46) base dot _ x 46 e); [congruence|reflexivity|reflexivity| |].
    + intros c Hc ->. auto.
    + intros c Hc ->. destruct (He _ Hc). auto.
  - exfalso. apply Hn. rewrite Hf. apply in_app_iff. cbn. auto.
Qed.

(** ** Accounts *)

Lemma line_reports_lang st g pos c e : Forall (fun ev => e_lang ev = g) (line_reports st g pos c e).
Proof. unfold line_reports. destruct (line_kind st c), e; repeat constructor. Qed.
Lemma file_reports_lang n st g : forall pos l, Forall (fun ev => e_lang ev = g) (file_reports n st g pos l).
Proof.
  induction n as [|n IH]; intros pos [|b l]; try constructor. cbn [file_reports].
  destruct (first_line (b :: l)) as [[c e] t]. apply Forall_app. split; [apply line_reports_lang|apply IH].
Qed.

Lemma sorted_ordered es : Sorted.StronglySorted before es -> forall from,
  Forall (fun e => from <= e_start e < e_end e) es -> ordered_spans from es.
Proof.
  induction 1 as [|e es Hs IH Hb]; intros from HF; [exact I|]. inversion HF as [|? ? He HF']; subst. cbn.
  split; [lia|]. apply IH. rewrite Forall_forall in *. intros e' H'. specialize (Hb _ H'). specialize (HF' _ H').
  unfold before in Hb. lia.
Qed.
Lemma tiled_ordered es : forall from, tiled from es -> ordered_spans from es.
Proof.
  induction es as [|e es IH]; intros from; cbn; auto. intros (H1 & H2 & H3). split; [|auto]. destruct H1; lia.
Qed.
Lemma tiled_nonempty es : forall from, tiled from es -> Forall (fun e => e_start e < e_end e) es.
Proof. induction es as [|e es IH]; intros from; cbn; auto. intros (H1 & H2 & H3). constructor; eauto. Qed.

Lemma account_ok g text es fuel : accounted g text es -> file text -> step_bound text <= Z.of_nat fuel ->
  ohcount_parse (Some g) text fuel = Some (Ok es) /\ ordered_spans 0 es /\
  Forall (fun e => e_start e < e_end e) es /\ Forall (fun e => e_lang e = g) es.
Proof.
  intros [(st & H1 & H2 & ->)|(x & H1 & H2)] Hf Hb.
  - assert (Hr : Forall (fun e => 0 <= e_start e < e_end e) (count_lines st g text)).
    { apply Forall_forall. intros e He. apply (F_range st g (length text)) in He; lia. }
    split; [apply C21_lines_classified; auto|]. split; [|split].
    + apply sorted_ordered; auto. apply (F_sorted st g (length text)). lia.
    + rewrite Forall_forall in *. intros e He. specialize (Hr _ He). lia.
    + apply file_reports_lang.
  - pose proof (C49_lexical_structure_decides _ _ _ _ _ H1 Hf H2 Hb) as E.
    destruct (C50_one_report_per_line _ _ _ _ _ H1 Hf H2 Hb) as (es' & tl & E' & _ & _ & Ht).
    rewrite E in E'. injection E' as <-. split; [exact E|]. split; [apply tiled_ordered; auto|]. split; [eapply tiled_nonempty; eauto|].
    unfold lex_lines in H2. pose proof (account_lang g g _ _ _ _ _ _ _ _ H2) as E2. rewrite H2 in E2. injection E2 as E2.
    apply Forall_forall. intros e He. rewrite E2 in He. apply in_map_iff in He as (e' & <- & _). reflexivity.
Qed.

Lemma ordered_length es : forall from n, ordered_spans from es -> Forall (fun e => e_start e < e_end e) es ->
  Forall (fun e => e_end e <= n) es -> from <= n -> Z.of_nat (length es) <= n - from.
Proof.
  induction es as [|e es IH]; intros from n H1 H2 H3 H4; [cbn; lia|].
  inversion H2; inversion H3; subst. cbn [ordered_spans] in H1. destruct H1 as [H1 H1'].
  specialize (IH _ n H1' ltac:(auto) ltac:(auto) ltac:(lia)). cbn [length]. lia.
Qed.

(** For whole lines, one report per line end. *)
Lemma account_lines g text es fuel : accounted g text es -> file text -> step_bound text <= Z.of_nat fuel ->
  whole_lines text -> Z.of_nat (length es) = line_ends text.
Proof.
  intros H Hf Hb Hw. unfold line_ends. f_equal. rewrite <- (map_length e_end es). f_equal.
  destruct (account_ok _ _ _ _ H Hf Hb) as (E & _). destruct H as [(st & H1 & H2 & ->)|(x & H1 & H2)].
  - destruct (C20_one_report_per_line _ _ _ _ H1 Hf H2 Hb) as (es & E' & Hm). rewrite E in E'. injection E' as <-.
    rewrite Hm. replace (last_part text) with (@nil Z); [cbn; apply app_nil_r|]. symmetry. unfold last_part.
    destruct Hw as [-> |(k & b & -> & Hb')]; [reflexivity|]. rewrite (last_stop k b Hb' 0). apply skipn_all2.
    rewrite app_length. cbn [length]. lia.
  - destruct (C50_whole_lines _ _ _ _ _ H1 Hf Hw H2 Hb) as (es' & E' & Hm). rewrite E in E'. injection E' as <-. exact Hm.
Qed.

Section Tool.
  Variable pl : platform.
  Variable magic : DetectorModel.file -> list Z.
  Variable pcre : string -> list Z -> bool.
  Variable found : list Z -> target.
  Variable content : list Z -> option (list Z).
  Variable fuel : nat.
  Notation language_of := (language_of pl magic pcre content).
  Notation reports_of := (reports_of pl magic pcre content fuel).
  Notation record_of := (record_of pl magic pcre content fuel).
  Notation text_of := (text_of content).

  (** ** One file *)

  Lemma language_source p s g r : source_file content p g r -> sourcefile_new p = Ok s ->
    language_of (p, s) = Ok (Some g).
  Proof.
    intros (e & He & Hs & Hl & _) Es. destruct (extension_split _ _ He) as (s' & Es' & Ee).
    rewrite Es in Es'. injection Es' as <-. unfold ToolModel.language_of. apply C31_extension_decides; auto. cbn. congruence.
  Qed.
  Lemma language_binary p s r : binary_file p r -> sourcefile_new p = Ok s -> language_of (p, s) = Ok None.
  Proof.
    intros (e & He & Hs & _) Es. destruct (extension_split _ _ He) as (s' & Es' & Ee).
    rewrite Es in Es'. injection Es' as <-. unfold ToolModel.language_of. apply C31_binary_extension. cbn. rewrite Ee. exact Hs.
  Qed.
  Lemma text_source p s g r : source_file content p g r -> text_of (p, s) = r_text r.
  Proof.
    intros (e & _ & _ & _ & Ec & _). unfold ToolModel.text_of, contents_of. cbn [fst]. rewrite Ec.
    destruct (r_text r); reflexivity.
  Qed.
  Lemma source_text g p r : source_file content p g r -> file (r_text r).
  Proof. intros (e & _ & _ & _ & _ & Hc & Hn & _). split; [|lia]. intros c Hin. specialize (Hc _ Hin). lia. Qed.

  Lemma reports_source p s g r : source_file content p g r -> sourcefile_new p = Ok s ->
    step_bound (r_text r) <= Z.of_nat fuel -> reports_of (p, s) = Ok (r_events r).
  Proof.
    intros H Es Hb. unfold ToolModel.reports_of. rewrite (language_source _ _ _ _ H Es). cbn [bind].
    rewrite (text_source _ _ _ _ H). pose proof (source_text _ _ _ H) as Hf. destruct H as (e & _ & _ & _ & _ & _ & _ & Ha).
    destruct (account_ok _ _ _ _ Ha Hf Hb) as (-> & _). reflexivity.
  Qed.
  Lemma reports_binary p s r : binary_file p r -> sourcefile_new p = Ok s -> reports_of (p, s) = Ok (r_events r).
  Proof.
    intros H Es. unfold ToolModel.reports_of. rewrite (language_binary _ _ _ H Es). cbn [bind].
    destruct H as (e & _ & _ & ->). reflexivity.
  Qed.

  Lemma good_source p g r : source_file content p g r -> step_bound (r_text r) <= Z.of_nat fuel -> good_revision r.
  Proof.
    intros H Hb. pose proof (source_text _ _ _ H) as Hf. destruct H as (e & _ & _ & _ & _ & Hc & Hn & Ha).
    destruct (account_ok _ _ _ _ Ha Hf Hb) as (E & Ho & Hne & _). pose proof (parse_good _ _ _ _ Hf E) as Hg.
    apply ordered_good; auto.
    - intros H0. apply Hc in H0. lia.
    - enough (Z.of_nat (length (r_events r)) <= Z.of_nat (length (r_text r)) - 0) by lia.
      eapply ordered_length; eauto; [|lia]. eapply Forall_impl; [|exact Hg]. intros ev (_ & _ & H & _). exact H.
  Qed.
  Lemma good_plain p r : plain_file content p r -> step_bound (r_text r) <= Z.of_nat fuel -> good_revision r.
  Proof.
    intros [[g H]|(e & _ & _ & ->)] Hb; [eapply good_source; eauto|]. apply ordered_good; cbn; auto; unfold int_max; lia.
  Qed.

  Lemma record_plain p s r : plain_file content p r -> sourcefile_new p = Ok s -> step_bound (r_text r) <= Z.of_nat fuel ->
    record_of (p, s) = run_callbacks (r_text r) [] (r_events r) /\ exists l, run_callbacks (r_text r) [] (r_events r) = Ok l.
  Proof.
    intros H Es Hb. pose proof (good_plain _ _ H Hb) as (G1 & G2 & G3 & G4 & G5 & G6).
    destruct (C17_loc_list_of_events _ _ G2 G3 G4 G5 G6) as (l & _ & _ & El & _). split; [|eauto].
    unfold ToolModel.record_of. destruct H as [[g H]|H].
    - rewrite (reports_source _ _ _ _ H Es Hb), (text_source _ _ _ _ H). reflexivity.
    - rewrite (reports_binary _ _ _ H Es). destruct H as (e & _ & _ & ->). reflexivity.
  Qed.

  Lemma plain_split p r : plain_file content p r -> exists s, sourcefile_new p = Ok s.
  Proof. intros [[g (e & He & _)]|(e & He & _)]; destruct (extension_split _ _ He) as (s & E & _); eauto. Qed.

  (** ** The list of files *)

  Lemma add_place a fs : proper found a -> (forall p, names_file found a p -> exists s, sourcefile_new p = Ok s) ->
    exists fs',
      (match found a with IsDir t => add_directory t a fs | IsFile => add_file fs a | Nothing => Ok fs end) = Ok (fs ++ fs') /\
      NoDup (map fst fs') /\ (forall p, In p (map fst fs') <-> names_file found a p) /\
      Forall (fun f => sourcefile_new (fst f) = Ok (snd f)) fs'.
  Proof.
    intros Hp Hf. unfold proper, names_file in *. destruct (found a) as [t| |].
    - destruct Hp as (H1 & H2 & H3). destruct (C40_directory_traversal t a fs H1 H2 H3) as (fs' & E & Hi & Hn & Hs).
      exists fs'. split; [exact E|]. split; [exact Hn|]. split; [exact Hi|]. apply Forall_forall. intros [p s] H. apply Hs. exact H.
    - destruct (Hf a eq_refl) as (s & Es). exists [(a, s)].
      split; [unfold add_file; rewrite Es; reflexivity|]. split; [cbn; constructor; [tauto|constructor]|].
      split; [cbn; intros p; intuition congruence|]. constructor; auto.
    - exists []. rewrite app_nil_r. split; [reflexivity|]. split; [constructor|]. split; [cbn; tauto|constructor].
  Qed.

  Lemma collect_ok paths : forall fs bad, Forall (proper found) paths ->
    (forall a p, In a paths -> names_file found a p -> exists s, sourcefile_new p = Ok s) ->
    exists parts fs', collect found paths fs bad = Ok (fs ++ fs', bad ++ complaints found paths) /\
      files_of found paths parts /\ map fst fs' = List.concat parts /\
      Forall (fun f => sourcefile_new (fst f) = Ok (snd f)) fs'.
  Proof.
    induction paths as [|a paths IH]; intros fs bad Hp Hf.
    - exists [], []. cbn. rewrite !app_nil_r. repeat split; constructor.
    - inversion Hp as [|? ? Ha Hp']; subst.
      destruct (add_place a fs Ha (fun p H => Hf a p (or_introl eq_refl) H)) as (fs1 & E & Hn & Hi & Hs).
      destruct (IH (fs ++ fs1) (if nothing_at found a then bad ++ [BadArgument a] else bad) Hp' (fun b p H => Hf b p (or_intror H)))
        as (parts & fs2 & E2 & H2 & H3 & H4).
      exists (map fst fs1 :: parts), (fs1 ++ fs2). split; [|split; [|split]].
      + cbn [collect]. unfold complaints in *. cbn [filter]. unfold nothing_at in E2 |- * at 1.
        destruct (found a) eqn:Ea.
        * rewrite E. cbn [bind]. rewrite app_assoc. exact E2.
        * rewrite E. cbn [bind]. rewrite app_assoc. exact E2.
        * injection E as E. assert (fs1 = []) as ->.
          { apply (f_equal (@length _)) in E. rewrite app_length in E. destruct fs1; [reflexivity|cbn in E; lia]. }
          rewrite app_nil_r in E2. rewrite E2. cbn [map app]. rewrite <- app_assoc. reflexivity.
      + constructor; auto.
      + rewrite map_app, H3. reflexivity.
      + apply Forall_app. auto.
  Qed.

  (** The files and the complaints of an invocation. *)
  Definition gather (paths : list (list Z)) : res (list item * list output) :=
    match paths with
    | [] => fs <- match found [46] with IsDir t => add_directory t [46] [] | _ => Ok [] end ;; Ok (fs, [])
    | _ => collect found paths [] []
    end.

  Lemma gather_ok paths : found [46] <> IsFile -> Forall (proper found) (places paths) ->
    (forall a p, In a (places paths) -> names_file found a p -> exists s, sourcefile_new p = Ok s) ->
    exists parts fs, gather paths = Ok (fs, complaints found paths) /\
      files_of found (places paths) parts /\ map fst fs = List.concat parts /\
      Forall (fun f => sourcefile_new (fst f) = Ok (snd f)) fs.
  Proof.
    intros Hdot Hp Hf. destruct paths as [|a paths].
    - cbn [places] in *. inversion Hp as [|? ? Ha _]; subst.
      destruct (add_place [46] [] Ha (fun p H => Hf _ p (or_introl eq_refl) H)) as (fs & E & Hn & Hi & Hs).
      exists [map fst fs], fs. cbn [gather]. split; [|split; [|split]]; auto.
      + destruct (found [46]) as [t| |]; [|congruence|]; rewrite ?E; [reflexivity|]. injection E as <-. reflexivity.
      + constructor; auto.
      + cbn. rewrite app_nil_r. reflexivity.
    - destruct (collect_ok (a :: paths) [] [] Hp Hf) as (parts & fs & E & H). exists parts, fs. auto.
  Qed.

  (** Something for every file of the list. *)
  Lemma for_each fs (P : list Z -> revision -> Prop) : (forall p, In p (map fst fs) -> exists r, P p r) ->
    exists files, Forall2 P (map (@fst (list Z) split) fs) files.
  Proof.
    induction fs as [|f fs IH]; intros H; [exists []; constructor|].
    destruct (H (fst f)) as (r & Hr); [cbn; auto|]. destruct IH as (files & HF); [intros p Hp; apply H; cbn; auto|].
    exists (r :: files). cbn. constructor; auto.
  Qed.

  Lemma records_ok fs files : Forall2 (plain_file content) (map fst fs) files ->
    Forall (fun f => sourcefile_new (fst f) = Ok (snd f)) fs ->
    Forall (fun r => step_bound (r_text r) <= Z.of_nat fuel) files ->
    exists ls, each record_of fs = Ok ls /\ Forall2 (fun f l => run_callbacks (r_text f) [] (r_events f) = Ok l) files ls.
  Proof.
    revert files. induction fs as [|[p s] fs IH]; intros files HF Hs Hb; inversion HF as [|? r ? files' Hr HF']; subst.
    - exists []. split; [reflexivity|constructor].
    - inversion Hs as [|? ? Hs1 Hs2]; subst. inversion Hb as [|? ? Hb1 Hb2]; subst. cbn [fst snd] in *.
      destruct (IH _ HF' Hs2 Hb2) as (ls & E & HL). destruct (record_plain _ _ _ Hr Hs1 Hb1) as (E1 & l & E2).
      exists (l :: ls). cbn [each]. rewrite E1, E2. cbn [bind]. rewrite E. split; [reflexivity|constructor; auto].
  Qed.
End Tool.
