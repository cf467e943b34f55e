(** Property C103: what is printed about a source file does not depend on its layout. *)
From Coq Require Import ZArith String Ascii List Bool Lia Permutation.
From Verif Require Import Checked Base ParsedModel RagelSyntax RagelBuild RagelRun ParserTable ScanSpec PropertiesScan.
From Verif Require Import LocModel LocSpec ParsedSpec ParsedProofs FileDiffSpec PathModel DirModel DirSpec Tables TablesSpec DetectorModel DetectorSpec.
From Verif Require Import ReportModel ReportSpec ToolModel ToolSpec ToolProofs PropertiesTool.
From Verif Require Import LineSpec LineProofs PropertiesLines LexSpec LexCheck LexTable LexLines LexHeads LexConcat LexEnds LexSpaces LexIndent.
From Verif Require Import PropertiesLex PropertiesEnds PropertiesSpaces PropertiesIndent PropertiesMisread PropertiesOrder.
Import ListNotations.
Open Scope string_scope.
Open Scope Z_scope.
Open Scope list_scope.

(** Two texts of language [g] that differ in line ends, in the number of blanks, in the
    indentation, or in the order of lines, in languages in which these do not matter. *)
Inductive layout (g : string) : list Z -> list Z -> Prop :=
| lay_ends s s' : (forall x, In (g, x) lexes -> eol x = true) -> LexEnds.alike s s' -> layout g s s'
| lay_blanks s s' : (forall x, In (g, x) lexes -> spaced x = true) -> respaced s s' -> layout g s s'
| lay_indentation s s' : (forall x, In (g, x) lexes -> indent_ok x = true) -> led s s' -> layout g s s'
| lay_order st ls ls' : In (g, st) styles -> single ls -> Permutation ls ls' -> ~ In 11 (of_lines ls) ->
  layout g (of_lines ls) (of_lines ls').

(** ** Lemmas *)
Lemma filter_perm {A} (f : A -> bool) l l' : Permutation l l' -> length (filter f l) = length (filter f l').
Proof.
  induction 1 as [|a l l' _ IH|a b l|l l' l'' _ IH _ IH']; cbn [filter]; auto.
  - destruct (f a); cbn [length]; auto.
  - destruct (f a), (f b); reflexivity.
  - congruence.
Qed.
Lemma count_shape k es : count k es = Z.of_nat (length (filter (fun p => String.eqb (snd p) k) (map shape es))).
Proof.
  unfold count. f_equal. induction es as [|e es IH]; [reflexivity|]. cbn [map filter]. unfold shape at 1. cbn [snd].
  destruct (String.eqb (e_entity e) k); cbn [length]; congruence.
Qed.
Lemma row_shape g es es' : Permutation (map shape es) (map shape es') -> the_row g es = the_row g es'.
Proof.
  intros H. assert (Hc : forall k, count k es = count k es') by (intros k; rewrite !count_shape; f_equal; apply filter_perm; exact H).
  pose proof (Permutation_length H) as Hl. rewrite !map_length in Hl. unfold the_row. rewrite !Hc.
  destruct es, es'; try discriminate; reflexivity.
Qed.
Lemma layout_shapes g s s' es es' fuel : layout g s s' -> accounted g s es -> accounted g s' es' -> ScanSpec.file s -> ScanSpec.file s' ->
  step_bound s <= Z.of_nat fuel -> step_bound s' <= Z.of_nat fuel -> Permutation (map shape es) (map shape es').
Proof.
  intros HL Ha Ha' Hf Hf' Hb Hb'. destruct (account_ok _ _ _ _ Ha Hf Hb) as [E _]. destruct (account_ok _ _ _ _ Ha' Hf' Hb') as [E' _].
  assert (G : exists l l', ohcount_parse (Some g) s fuel = Some (Ok l) /\ ohcount_parse (Some g) s' fuel = Some (Ok l') /\ Permutation (map shape l) (map shape l')).
  { destruct HL as [s s' Hx H|s s' Hx H|s s' Hx H|st ls ls' Hs H1 H2 H3].
    - destruct Ha as [(st & A1 & A2 & _)|(x & A1 & A2)].
      + destruct (C96_line_ends_of_lines g st s s' fuel A1 H Hf Hf' A2 Hb Hb') as (l & l' & P & P' & M). exists l, l'. rewrite M. auto.
      + destruct (C96_line_ends_do_not_matter g x s s' fuel A1 (Hx _ A1) H Hf Hf') as (l & l' & P & P' & M); auto; [congruence|]. exists l, l'. rewrite M. auto.
    - destruct Ha as [(st & A1 & A2 & _)|(x & A1 & A2)].
      + destruct (C97_blanks_of_lines g st s s' fuel A1 H Hf Hf' A2 Hb Hb') as (l & l' & P & P' & M). exists l, l'. rewrite M. auto.
      + destruct (C97_blanks_do_not_matter g x s s' fuel A1 (Hx _ A1) H Hf Hf') as (l & l' & P & P' & M); auto; [congruence|]. exists l, l'. rewrite M. auto.
    - destruct Ha as [(st & A1 & A2 & _)|(x & A1 & A2)].
      + destruct (C100_indentation_of_lines g st s s' fuel A1 H Hf Hf' A2 Hb Hb') as (l & l' & P & P' & M). exists l, l'. rewrite M. auto.
      + destruct (C100_indentation_does_not_matter g x s s' fuel A1 (Hx _ A1) H Hf Hf') as (l & l' & P & P' & M); auto; [congruence|]. exists l, l'. rewrite M. auto.
    - destruct (C102_order_does_not_matter g st ls ls' fuel Hs H1 H2 Hf H3 Hb) as (l & l' & P & P' & M). exists l, l'. auto. }
  destruct G as (l & l' & P & P' & HP). rewrite E in P. rewrite E' in P'. injection P as <-. injection P' as <-. exact HP.
Qed.

(** ** C103 *)

(** One path, two versions of the file there: the same is printed. *)
Theorem C103_layout_does_not_matter :
  forall pl magic pcre exec found content content' fuel path g r r' flag,
  found path = IsFile -> found [46] <> IsFile -> option_for flag Individual ->
  source_file content path g r -> source_file content' path g r' ->
  layout g (r_text r) (r_text r') ->
  step_bound (r_text r) <= Z.of_nat fuel -> step_bound (r_text r') <= Z.of_nat fuel ->
  main pl magic pcre exec found content fuel [flag; path] = main pl magic pcre exec found content' fuel [flag; path].
Proof.
  intros pl magic pcre exec found content content' fuel path g r r' flag Hp Hd Ho Hs Hs' HL Hb Hb'.
  destruct (C57_one_file pl magic pcre exec found content fuel path g r flag Hp Hs Hb Ho Hd) as [-> _].
  destruct (C57_one_file pl magic pcre exec found content' fuel path g r' flag Hp Hs' Hb' Ho Hd) as [-> _].
  pose proof (source_text content g path r Hs) as Hf. pose proof (source_text content' g path r' Hs') as Hf'.
  destruct Hs as (e & _ & _ & _ & _ & _ & _ & Ha). destruct Hs' as (e' & _ & _ & _ & _ & _ & _ & Ha').
  rewrite (row_shape g (r_events r) (r_events r')); [reflexivity|]. eapply layout_shapes; eauto.
Qed.
Print Assumptions C103_layout_does_not_matter.

(** ** Many files *)
Section Trees.
  Variable pl : platform.
  Variable magic : DetectorModel.file -> list Z.
  Variable pcre : string -> list Z -> bool.
  Variable exec : RegexModel.flags -> string -> list Z -> option (Z * Z).
  Variable found : list Z -> target.
  Variables content content' : list Z -> option (list Z).
  Variable fuel : nat.

  (** Two versions of a file, [r] and [r']. *)
  Definition twins (p : list Z) (r r' : revision) : Prop :=
    (exists g, source_file content p g r /\ source_file content' p g r' /\ layout g (r_text r) (r_text r') /\
       step_bound (r_text r) <= Z.of_nat fuel /\ step_bound (r_text r') <= Z.of_nat fuel) \/
    binary_file p r /\ r' = r /\ step_bound (r_text r) <= Z.of_nat fuel.
  (** Nothing but the layout differs in the files of an invocation. *)
  Definition relaid (paths : list (list Z)) : Prop :=
    found [46] <> IsFile /\ Forall (proper found) (places paths) /\
    forall a p, In a (places paths) -> names_file found a p -> exists r r', twins p r r'.

  Definition akin (r r' : revision) : Prop :=
    Permutation (map shape (r_events r)) (map shape (r_events r')) /\ FileDiffSpec.languages r = FileDiffSpec.languages r'.

  Lemma same_langs g es es' : Forall (fun e => e_lang e = g) es -> Forall (fun e => e_lang e = g) es' -> length es = length es' ->
    map e_lang es = map e_lang es'.
  Proof.
    intros H. revert es'. induction H as [|e es He _ IH]; intros [|e' es'] H' Hl; try discriminate; [reflexivity|].
    inversion H' as [|? ? He' H'']; subst. cbn [map]. f_equal; [congruence|]. apply IH; auto.
  Qed.
  Lemma twins_ok p r r' : twins p r r' -> plain_file content p r /\ plain_file content' p r' /\
    step_bound (r_text r) <= Z.of_nat fuel /\ step_bound (r_text r') <= Z.of_nat fuel /\ akin r r'.
  Proof.
    intros [(g & H & H' & HL & B & B')|(H & -> & B)].
    - split; [left; eauto|]. split; [left; eauto|]. split; auto. split; auto.
      pose proof (source_text content g p r H) as Hf. pose proof (source_text content' g p r' H') as Hf'.
      destruct H as (e & _ & _ & _ & _ & _ & _ & Ha). destruct H' as (e' & _ & _ & _ & _ & _ & _ & Ha').
      assert (HP : Permutation (map shape (r_events r)) (map shape (r_events r'))) by (eapply layout_shapes; eauto).
      split; auto. destruct (account_ok _ _ _ _ Ha Hf B) as (_ & _ & _ & G). destruct (account_ok _ _ _ _ Ha' Hf' B') as (_ & _ & _ & G').
      apply (same_langs g); auto. apply Permutation_length in HP. rewrite !map_length in HP. exact HP.
    - split; [right; auto|]. split; [right; auto|]. split; auto. split; auto. split; auto.
  Qed.

  Lemma akin_lines g k r r' : akin r r' -> lines_in g k r = lines_in g k r'.
  Proof.
    intros [H _]. unfold lines_in, events_of. f_equal.
    assert (G : forall es, length (filter (is_event g k) es) = length (filter (fun p => String.eqb (fst p) g && String.eqb (snd p) k) (map shape es))).
    { induction es as [|e es IH]; [reflexivity|]. cbn [map filter]. change (fst (shape e)) with (e_lang e). change (snd (shape e)) with (e_entity e).
      fold (is_event g k e). destruct (is_event g k e); cbn [length]; rewrite IH; reflexivity. }
    rewrite !G. apply filter_perm. exact H.
  Qed.
  (** What is recorded of a file for the lists of counts. *)
  Lemma recorded r l : good_revision r -> run_callbacks (r_text r) [] (r_events r) = Ok l ->
    map loc_of l = map (fun g => mkLoc g (lines_in g "lcode" r) (lines_in g "lcomment" r) (lines_in g "lblank" r) 1) (first_occ (FileDiffSpec.languages r)).
  Proof.
    intros (_ & Hs & Hn & Hg & Hfit) E0. destruct (run_callbacks_ok (r_text r) (r_events r) [] [] Hg Hn Hs) as (l' & E & Hm & Hl).
    { split; [reflexivity|intros x []]. }
    cbn [app] in *. rewrite E0 in E. injection E as <-. unfold FileDiffSpec.languages. rewrite <- Hm, map_map. apply map_ext_in. intros x Hx.
    destruct (Hl x Hx) as (_ & _ & G3 & G4 & G5). destruct G3 as (_ & _ & _ & _ & _ & G3). destruct G4 as (_ & _ & _ & _ & _ & G4).
    rewrite kept_all in G3 by apply Hfit. rewrite kept_all in G4 by apply Hfit. unfold lines_of in G3, G4.
    rewrite map_length in G3, G4. unfold loc_of, lines_in. rewrite G3, G4, G5. reflexivity.
  Qed.
  Lemma akin_recorded r r' l l' : akin r r' -> good_revision r -> good_revision r' ->
    run_callbacks (r_text r) [] (r_events r) = Ok l -> run_callbacks (r_text r') [] (r_events r') = Ok l' -> map loc_of l = map loc_of l'.
  Proof.
    intros HA G G' E E'. rewrite (recorded _ _ G E), (recorded _ _ G' E'). destruct HA as [HP HL]. rewrite HL. apply map_ext. intros g.
    rewrite !(akin_lines g _ r r' (conj HP HL)). reflexivity.
  Qed.
  Lemma add_same l : forall l' h n, map loc_of l = map loc_of l' -> add_locs h n l = add_locs h n l'.
  Proof.
    induction l as [|x l IH]; intros [|x' l'] h n H; try discriminate; [reflexivity|]. cbn [map] in H. injection H as H1 H2 H3 H4 Hr. cbn [add_locs].
    rewrite H1, H2, H3, H4. destruct (loc_list_add_loc h n _); cbn [bind]; auto.
  Qed.
  Definition sames (ls ls' : list (list plang)) : Prop := Forall2 (fun l l' => map loc_of l = map loc_of l') ls ls'.
  Lemma analyze_same ls ls' : sames ls ls' -> forall h n, analyze_loop h n ls = analyze_loop h n ls'.
  Proof.
    induction 1 as [|l l' ls ls' H _ IH]; intros h n; [reflexivity|]. cbn [analyze_loop]. destruct (node_new h) as [h1 lst].
    rewrite (add_same _ _ _ _ H). destruct (add_locs h1 lst l'); cbn [bind]; auto. destruct (loc_list_add_loc_list _ _ _ _); cbn [bind]; auto.
  Qed.
  Lemma count_same {A} (ls ls' : list A) : length ls = length ls' -> forall n, count_files n ls = count_files n ls'.
  Proof.
    revert ls'. induction ls as [|x ls IH]; intros [|x' ls'] H n; try discriminate; [reflexivity|]. cbn [count_files]. destruct (ckint (n + 1)); cbn [bind]; auto.
  Qed.
  Lemma sames_length ls ls' : sames ls ls' -> length ls = length ls'.
  Proof. induction 1; cbn [length]; congruence. Qed.
  Lemma summary_same ls ls' : sames ls ls' -> summary_report ls = summary_report ls'.
  Proof.
    intros H. unfold summary_report, analyze_languages. rewrite (count_same _ _ (sames_length _ _ H)). destruct (node_new []) as [h n].
    rewrite (analyze_same _ _ H). reflexivity.
  Qed.
  Lemma individual_same ls ls' : sames ls ls' -> individual_report ls = individual_report ls'.
  Proof.
    intros H. unfold individual_report. rewrite (count_same _ _ (sames_length _ _ H)).
    replace (individual_files ls') with (individual_files ls); [reflexivity|].
    induction H as [|l l' ls ls' H _ IH]; [reflexivity|]. cbn [individual_files]. rewrite IH. unfold individual_rows, get_loc_list.
    destruct (node_new []) as [h n]. rewrite (add_same _ _ _ _ H). reflexivity.
  Qed.

  (** The same output for two such trees, in all bytes. *)
  Theorem C103_same_output :
    forall args c paths, asks args c paths -> c = Summary \/ c = Individual -> relaid paths ->
    main pl magic pcre exec found content fuel args = main pl magic pcre exec found content' fuel args /\
    exists parts files, files_of found (places paths) parts /\ Forall2 (fun p r => exists r', twins p r r') (List.concat parts) files.
  Proof.
    intros args c paths Ha Hc (H1 & H2 & H3).
    destruct (gather_ok found content paths H1 H2) as (parts & fs & E & Hf & Hm & Hs).
    { intros a p Hi Hp. destruct (H3 a p Hi Hp) as (r & r' & Hr). destruct (twins_ok _ _ _ Hr) as (Hr' & _). eapply plain_split; eauto. }
    destruct (for_each fs (fun p r => exists r', twins p r r')) as (files & HF).
    { intros p Hp. rewrite Hm in Hp. apply in_concat in Hp as (ps & Hps & Hp).
      assert (exists a, In a (places paths) /\ names_file found a p) as (a & Hi & Hn); [|destruct (H3 a p Hi Hn) as (r & r' & Hr); eauto].
      clear - Hf Hps Hp. unfold files_of in Hf. induction Hf as [|a q ps' qs [_ Hq] _ IH]; [destruct Hps|].
      destruct Hps as [->|Hps]; [exists a; split; [cbn; auto|apply Hq; auto]|].
      destruct (IH Hps) as (b & Hb & Hn). exists b. cbn. auto. }
    split; [|exists parts, files; split; auto; rewrite <- Hm; exact HF].
    assert (G : exists files', Forall2 (plain_file content) (map fst fs) files /\ Forall2 (plain_file content') (map fst fs) files' /\
      Forall (fun r => step_bound (r_text r) <= Z.of_nat fuel) files /\ Forall (fun r => step_bound (r_text r) <= Z.of_nat fuel) files' /\ Forall2 akin files files').
    { clear - HF. induction HF as [|p r ps rs [r' Hr] _ (rs' & I1 & I2 & I3 & I4 & I5)]; [exists []; auto 8|].
      destruct (twins_ok _ _ _ Hr) as (T1 & T2 & T3 & T4 & T5). exists (r' :: rs'). repeat split; constructor; auto. }
    destruct G as (files' & P & P' & B & B' & HA).
    destruct (records_ok pl magic pcre content fuel fs files P Hs B) as (ls & El & HL).
    destruct (records_ok pl magic pcre content' fuel fs files' P' Hs B') as (ls' & El' & HL').
    pose proof (all_good _ _ _ _ P B) as G. pose proof (all_good _ _ _ _ P' B') as G'.
    assert (HS : sames ls ls').
    { clear - HA HL HL' G G'. revert ls ls' HL HL'. induction HA as [|r r' rs rs' Hr _ IH]; intros ls ls' HL HL'; inversion HL; inversion HL'; subst; constructor.
      - inversion G; inversion G'; subst. eapply akin_recorded; eauto.
      - inversion G; inversion G'; subst. apply IH; auto. }
    rewrite !(main_eq _ _ _ _ _ _ _ _ _ _ Ha), E. cbn [bind]. destruct Hc as [-> | ->]; cbn [PropertiesTool.run].
    - unfold summary. rewrite El, El'. cbn [bind]. rewrite (summary_same _ _ HS). reflexivity.
    - unfold individual. rewrite El, El'. cbn [bind]. rewrite (individual_same _ _ HS). reflexivity.
  Qed.
End Trees.
Print Assumptions C103_same_output.

(** ** Cases *)
Definition holds (t : list Z) : list Z -> option (list Z) := fun _ => Some t.
Definition ex_at (p : list Z) (a : list Z) : target := if list_eq_dec Z.eq_dec a p then IsFile else Nothing.
Definition ex_run (p t : list Z) : res (list output) :=
  main strict (fun _ => []) (fun _ _ => false) (fun _ _ _ => None) (ex_at p) (holds t) ex_fuel [bytes "-i"; p].

Lemma held_source p t front e g es : p = front ++ [46] ++ bytes e ->
  forallb (fun c => negb (c =? 46) && negb (c =? 47) && negb (c =? 92)) (bytes e) = true ->
  find (fun p => String.eqb (fst p) e && String.eqb (snd p) g) extensions = Some (e, g) ->
  match find (fun p => String.eqb (fst p) g) languages with Some (k, l) => k = g /\ l_name l = g | None => False end ->
  match find (fun p => String.eqb (fst p) g) lexes with
  | Some (k, x) => k = g /\ lex_lines x g t = Some es
  | None => False
  end ->
  forallb (fun c => (0 <? c) && (c <? 256)) t && (step_bound t <=? 50000) = true ->
  source_file (holds t) p g (mkRev t es).
Proof.
  intros Hp He Hs Hl Hx Hc. apply andb_prop in Hc as [Hc Hb]. apply Z.leb_le in Hb.
  destruct (find _ languages) as [[k l]|] eqn:El; [|contradiction]. destruct Hl as [-> Hg].
  destruct (find _ lexes) as [[k x]|] eqn:Ex; [|contradiction]. destruct Hx as [-> Hes].
  exists (bytes e). split; [|split; [|split; [|split; [|split; [|split]]]]].
  - exists front. split; [exact Hp|]. rewrite forallb_forall in He. intros c H. specialize (He _ H).
    apply andb_prop in He as [He H3]. apply andb_prop in He as [H1 H2]. apply negb_true_iff, Z.eqb_neq in H1, H2, H3. auto.
  - apply known_extension. exact Hs.
  - rewrite <- Hg. eapply known_language. exact El.
  - reflexivity.
  - rewrite forallb_forall in Hc. intros c H. specialize (Hc _ H). apply andb_prop in Hc as [H1 H2]. apply Z.ltb_lt in H1, H2. auto.
  - cbn [r_text]. unfold step_bound in Hb. unfold int_max. nia.
  - right. exists x. split; [eapply known_lexis; exact Ex|exact Hes].
Qed.

Definition ex_left : list Z := bytes ("/* a" ++ nl ++ "b */" ++ nl ++ "c;" ++ nl).
Lemma indents_c x : In ("java", x) lexes -> indent_ok x = true.
Proof.
  intros H. assert (C : forallb (fun e => negb (String.eqb (fst e) "java") || indent_ok (snd e)) lexes = true) by (vm_compute; reflexivity).
  rewrite forallb_forall in C. specialize (C _ H). exact C.
Qed.
Example C103_case : exists es es',
  source_file (holds ex_left) (bytes "x.java") "java" (mkRev ex_left es) /\
  source_file (holds (moved ex_left)) (bytes "x.java") "java" (mkRev (moved ex_left) es') /\
  layout "java" ex_left (moved ex_left) /\ option_for (bytes "-i") Individual /\
  step_bound ex_left <= Z.of_nat ex_fuel /\ step_bound (moved ex_left) <= Z.of_nat ex_fuel /\ es <> es' /\
  ex_run (bytes "x.java") ex_left = Ok [IndividualReport 1 [(bytes "x.java", [(mkLoc "java" 1 2 0 1, 3)])]] /\
  ex_run (bytes "x.java") (moved ex_left) = ex_run (bytes "x.java") ex_left.
Proof.
  exists [ev "java" "lcomment" 0 5; ev "java" "lcomment" 5 10; ev "java" "lcode" 10 13], [ev "java" "lcomment" 0 6; ev "java" "lcomment" 6 12; ev "java" "lcode" 12 16].
  split; [apply (held_source (bytes "x.java") _ (bytes "x") "java" "java"); vm_compute; auto|].
  split; [apply (held_source (bytes "x.java") _ (bytes "x") "java" "java"); vm_compute; auto|].
  split; [apply lay_indentation; [exact indents_c|apply C100_moved; vm_compute; intuition discriminate]|].
  split; [apply C59_option_table; reflexivity|]. split; [unfold ex_fuel; rewrite Z2Nat.id; vm_compute; congruence|].
  split; [unfold ex_fuel; rewrite Z2Nat.id; vm_compute; congruence|]. split; [discriminate|]. split; vm_compute; reflexivity.
Qed.

Example C103_tree_case : relaid (ex_at (bytes "x.java")) (holds ex_left) (holds (moved ex_left)) ex_fuel [bytes "x.java"] /\
  asks [bytes "-s"; bytes "x.java"] Summary [bytes "x.java"] /\
  main strict (fun _ => []) (fun _ _ => false) (fun _ _ _ => None) (ex_at (bytes "x.java")) (holds (moved ex_left)) ex_fuel [bytes "-s"; bytes "x.java"] =
    Ok [SummaryReport (mkReport 1 [(mkLoc "java" 1 2 0 1, 3)] (mkLoc "Total" 1 2 0 1) 3)].
Proof.
  split; [|split; [constructor; apply C59_option_table; reflexivity|vm_compute; reflexivity]].
  split; [discriminate|]. split; [constructor; [exact I|constructor]|]. intros a p [<-|[]] Hn. assert (Ep : p = bytes "x.java") by exact Hn. subst p.
  destruct C103_case as (es & es' & S1 & S2 & S3 & _ & S4 & S5 & _). eexists. eexists. left. exists "java". split; [exact S1|]. split; [exact S2|]. auto.
Qed.

(** In Perl the same change is printed: documentation becomes code. *)
Theorem C103_layout_refuted :
  let t := bytes ("=a" ++ nl ++ "b" ++ nl) in
  led t (moved t) /\
  ex_run (bytes "x.pm") t = Ok [IndividualReport 1 [(bytes "x.pm", [(mkLoc "perl" 0 2 0 1, 2)])]] /\
  ex_run (bytes "x.pm") (moved t) = Ok [IndividualReport 1 [(bytes "x.pm", [(mkLoc "perl" 2 0 0 1, 2)])]].
Proof. split; [apply C100_moved; vm_compute; intuition discriminate|]. split; vm_compute; reflexivity. Qed.
Print Assumptions C103_layout_refuted.
