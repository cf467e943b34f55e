(** Property C32: the disambiguators decide by stated properties of the contents.

    All statements are about ohcount_detect_language, for any libmagic, any regular
    expression engine (unless said otherwise) and any platform on which the run has a defined
    outcome [Ok g]; C33 says when it has. *)
From Coq Require Import ZArith String Ascii List Bool Lia Permutation.
From Verif Require Import Base ParsedModel PathModel Tables TablesSpec PropertiesTables DetectorModel DetectorSpec DetectorProofs
  DisambProofs DisambProofs2 DisambProofs3 DisambProofs4 DisambProofs5 DisambProofs6 DisambProofs7 DetectProofs.
Import ListNotations.
Open Scope string_scope.
Open Scope Z_scope.
Open Scope list_scope.

(** A file for the examples. *)
Definition ex (path ext contents : string) (dir : list string) : file :=
  mkFile (bytes path) (bytes ext) (bytes path) true (Some (bytes contents)) (Some (map bytes dir)).
Definition no_magic (_ : file) : list Z := [].
Definition no_pcre (_ : string) (_ : list Z) : bool := false.
(** A platform as met in practice. *)
Definition usual : platform := mkPlatform 8 (Some 0) (Some 0) true.

Ltac call W D := rewrite (detect_call _ _ _ W D) by (discriminate || reflexivity || assumption); unfold run.

(** .asx: nothing if the first visible byte is '<', NUL or starts a byte order mark,
    assembler otherwise. *)
Theorem C32_asx : forall pl magic pcre f g, extension_says (d_ext f) (ambiguous "asx") ->
  ohcount_detect_language pl magic pcre f = Ok g ->
  (asx_xml (contents f) /\ g = None) \/ (~ asx_xml (contents f) /\ g = Some "assembler").
Proof.
  intros pl magic pcre f g E. call "asx" F_asx. unfold disambiguate_asx. intros [= <-].
  rewrite <- asx_none. rewrite (asx_iff (contents f)). destruct (asx_loop (contents f)); [right|left]; split; auto; discriminate.
Qed.
Print Assumptions C32_asx.

(** .dat: AMPL by its first word; the byte 1 (!) or nothing otherwise. *)
Theorem C32_dat : forall pl magic pcre f g, extension_says (d_ext f) (ambiguous "dat") ->
  ohcount_detect_language pl magic pcre f = Ok g ->
  (dat_ampl (contents f) /\ g = Some "ampl") \/ (dat_undecided (contents f) /\ g = None)
  \/ (~ dat_ampl (contents f) /\ ~ dat_undecided (contents f) /\ g = Some (String "001"%char "")).
Proof.
  intros pl magic pcre f g E. call "dat" F_dat. unfold disambiguate_dat. intros H. apply Ok_inj in H. subst g.
  rewrite <- dat_ampl_iff, <- dat_none_iff.
  destruct (dat_values (contents f)) as [X|[X|X]]; rewrite X; [left|right; left|right; right]; auto.
  split; [discriminate|]. split; [discriminate|reflexivity].
Qed.
Print Assumptions C32_dat.

(** .def: Modula-2 by its first word. *)
Theorem C32_def : forall pl magic pcre f g, extension_says (d_ext f) (ambiguous "def") ->
  ohcount_detect_language pl magic pcre f = Ok g ->
  (def_modula (contents f) /\ g = Some "modula2") \/ (~ def_modula (contents f) /\ g = None).
Proof.
  intros pl magic pcre f g E. call "def" F_def. unfold disambiguate_def. intros H. apply Ok_inj in H. subst g.
  rewrite <- def_iff. destruct (def_values (contents f)) as [X|X]; rewrite X; [left|right]; split; auto; discriminate.
Qed.
Print Assumptions C32_def.

(** .mod: Modula-2 by its first word, AMPL unless the first byte is '(', 'I' or 'M'. *)
Theorem C32_mod : forall pl magic pcre f g, extension_says (d_ext f) (ambiguous "mod") ->
  ohcount_detect_language pl magic pcre f = Ok g ->
  (mod_modula (contents f) /\ g = Some "modula2") \/ (mod_ampl (contents f) /\ g = Some "ampl")
  \/ (~ mod_modula (contents f) /\ ~ mod_ampl (contents f) /\ g = None).
Proof.
  intros pl magic pcre f g E. call "mod" F_mod. unfold disambiguate_mod. intros H. apply Ok_inj in H. subst g.
  rewrite <- mod_modula_iff, <- mod_ampl_iff.
  destruct (mod_values (contents f)) as [X|[X|X]]; rewrite X; [left|right; left|right; right]; auto.
  split; [discriminate|]. split; [discriminate|reflexivity].
Qed.
Print Assumptions C32_mod.

(** .inc: PHP if "?php" occurs before the first NUL. *)
Theorem C32_inc : forall pl magic pcre f g, extension_says (d_ext f) (ambiguous "inc") ->
  ohcount_detect_language pl magic pcre f = Ok g ->
  (occurs (bytes "?php") (before_nul (contents f)) /\ g = Some "php")
  \/ (~ occurs (bytes "?php") (before_nul (contents f)) /\ g = None).
Proof.
  intros pl magic pcre f g E. call "inc" F_inc. unfold disambiguate_inc, contents. destruct (d_contents f) as [c|].
  - intros H. apply Ok_inj in H. subst g. rewrite cstr_eq, inc_iff.
    pose proof (has_iff c "?php" ltac:(no0) ltac:(discriminate)) as P.
    destruct (has c "?php"); [left|right]; (split; [|reflexivity]); [apply P; reflexivity|].
    intros X. apply P in X. discriminate X.
  - intros [= <-]. right. split; [|reflexivity]. intros X. apply occurs_nil in X. discriminate X.
Qed.
Print Assumptions C32_inc.

(** .pro: a qmake project if it mentions SOURCES or CONFIG with "+=". *)
Theorem C32_pro : forall pl magic pcre f g, extension_says (d_ext f) (ambiguous "pro") ->
  ohcount_detect_language pl magic pcre f = Ok g ->
  let qmake := exists w, In w ["SOURCES +="; "SOURCES+="; "CONFIG +="; "CONFIG+="] /\ occurs (bytes w) (contents f) in
  (qmake /\ g = Some "make") \/ (~ qmake /\ g = Some "idl_pvwave").
Proof.
  intros pl magic pcre f g E. call "pro" F_pro. unfold disambiguate_pro. intros H. apply Ok_inj in H. subst g.
  cbv zeta. rewrite <- pro_iff. destruct (pro_loop (contents f)); [left|right]; split; auto; discriminate.
Qed.
Print Assumptions C32_pro.

(** .r: REBOL if the word occurs, in any case, not at the very end. *)
Theorem C32_r : forall pl magic pcre f g, extension_says (d_ext f) (ambiguous "r") ->
  ohcount_detect_language pl magic pcre f = Ok g ->
  (mentions_rebol (contents f) /\ g = Some "rebol") \/ (~ mentions_rebol (contents f) /\ g = Some "r").
Proof.
  intros pl magic pcre f g E. call "r" F_r. unfold disambiguate_r, contents. intros H. rewrite <- r_iff.
  destruct (d_contents f) as [c|]; apply Ok_inj in H; subst g.
  - destruct (r_loop c); [left|right]; split; auto; discriminate.
  - right. split; [discriminate|reflexivity].
Qed.
Print Assumptions C32_r.

(** .rs: Rust, unless it is a Renderscript (no language here). *)
Theorem C32_rs : forall pl magic pcre f g, extension_says (d_ext f) (ambiguous "rs") ->
  ohcount_detect_language pl magic pcre f = Ok g ->
  (renderscript (contents f) /\ g = None) \/ (~ renderscript (contents f) /\ g = Some "rust").
Proof.
  intros pl magic pcre f g E. call "rs" F_rs. unfold disambiguate_rs, contents, renderscript. intros H.
  rewrite <- rs_iff. change (bytes "#pragma version") with (map lower (bytes "#pragma version")) at 1 2.
  rewrite <- (starts_nocase_iff (bytes "#pragma version")).
  destruct (d_contents f) as [c|].
  - destruct (starts_nocase (bytes "#pragma version") c); apply Ok_inj in H; subst g.
    + left. auto.
    + destruct (rs_loop c); [left|right]; split; auto. intros [X|X]; discriminate X.
  - apply Ok_inj in H. subst g. right. split; [|reflexivity]. intros [X|X]; discriminate X.
Qed.
Print Assumptions C32_rs.

(** .cs: a Clearsilver template if "<?cs" occurs before the first NUL. *)
Theorem C32_cs : forall pl magic pcre f g, extension_says (d_ext f) (ambiguous "cs") ->
  ohcount_detect_language pl magic pcre f = Ok g ->
  (occurs (bytes "<?cs") (before_nul (contents f)) /\ g = Some "clearsilver_template")
  \/ (~ occurs (bytes "<?cs") (before_nul (contents f)) /\ g = Some "csharp").
Proof.
  intros pl magic pcre f g E. call "cs" F_cs. unfold disambiguate_cs, contents. destruct (d_contents f) as [c|].
  - intros H. apply Ok_inj in H. subst g.
    pose proof (has_iff c "<?cs" ltac:(no0) ltac:(discriminate)) as P.
    destruct (has c "<?cs"); [left|right]; (split; [|reflexivity]); [apply P; reflexivity|].
    intros X. apply P in X. discriminate X.
  - intros [= <-]. right. split; [|reflexivity]. intros X. apply occurs_nil in X. discriminate X.
Qed.
Print Assumptions C32_cs.

(** .pl: with a correct regular expression engine, Prolog if there is no Perl interpreter
    line in the first 100 bytes and ":-" followed by a blank or newline occurs. *)
Theorem C32_pl : forall pl magic pcre f g c,
  (forall t, pcre re_perl t = true <-> perl_script t) ->
  extension_says (d_ext f) (ambiguous "pl") -> d_contents f = Some c ->
  ohcount_detect_language pl magic pcre f = Ok g ->
  let script := perl_script (firstn 100 (before_nul c)) in
  let rule := prolog_rule (before_nul c) in
  (~ script /\ rule /\ g = Some "prolog") \/ ((script \/ ~ rule) /\ g = Some "perl").
Proof.
  intros pl magic pcre f g c R E C. call "pl" F_pl. unfold disambiguate_pl. rewrite C. cbv zeta. intros H.
  unfold text_for_pcre in H. rewrite cstr_eq in H. change (Z.to_nat 100) with 100%nat in H. rewrite <- R.
  destruct (pcre re_perl (firstn 100 (before_nul c))).
  { apply Ok_inj in H. subst g. right. auto. }
  assert (RULE : prolog_rule (before_nul c) <-> has c ":- " = true \/ strstr c [58; 45; 10] <> None).
  { rewrite has_iff by (no0 || discriminate). rewrite strstr_none by (no0 || discriminate). unfold prolog_rule. split.
    - intros (x & [<-|[<-|[]]] & O); auto.
    - intros [O|O]; [exists 32|exists 10]; (split; [cbn; auto|]); [exact O|].
      destruct (strstr c [58; 45; 10]) as [q|] eqn:S; [|exfalso; apply O; apply strstr_none in S; [exact S|no0|discriminate]].
      apply strstr_split in S as (a & b & EB & _); [|no0|discriminate]. exists a, b. exact EB. }
  rewrite RULE. destruct (has c ":- ").
  { apply Ok_inj in H. subst g. left. split; [discriminate|auto]. }
  destruct (strstr c [58; 45; 10]); apply Ok_inj in H; subst g.
  - left. split; [discriminate|]. split; [right; discriminate|reflexivity].
  - right. split; [|reflexivity]. right. intros [X|X]; [discriminate X|apply X; reflexivity].
Qed.
Print Assumptions C32_pl.

(** .pp: Puppet if one of the two expressions matches the first 10000 bytes, else Pascal. *)
Theorem C32_pp : forall pl magic pcre f g c, extension_says (d_ext f) (ambiguous "pp") -> d_contents f = Some c ->
  ohcount_detect_language pl magic pcre f = Ok g ->
  let t := firstn (Z.to_nat 10000) (before_nul c) in
  (g = Some "puppet" /\ (pcre re_puppet1 t = true \/ pcre re_puppet2 t = true))
  \/ (g = Some "pascal" /\ pcre re_puppet1 t = false /\ pcre re_puppet2 t = false).
Proof.
  intros pl magic pcre f g c E C. call "pp" F_pp. unfold disambiguate_pp. rewrite C. cbv zeta. intros H.
  unfold text_for_pcre in H. rewrite cstr_eq in H. apply Ok_inj in H. subst g.
  destruct (pcre re_puppet1 _); [left; auto|]. destruct (pcre re_puppet2 _); [left|right]; auto.
Qed.
Print Assumptions C32_pp.

(** .fs: Forth or F#, whichever has more telling lines before the first NUL. *)
Theorem C32_fs : forall pl magic pcre f g c n m, extension_says (d_ext f) (ambiguous "fs") -> d_contents f = Some c ->
  count forth_line (lines (before_nul c)) n -> count fsharp_line (lines (before_nul c)) m ->
  ohcount_detect_language pl magic pcre f = Ok g ->
  (n > m /\ g = Some "forth") \/ (n < m /\ g = Some "fsharp") \/ (n = m /\ g = None).
Proof.
  intros pl magic pcre f g c n m E C N M. call "fs" F_fs. unfold disambiguate_fs. rewrite C.
  rewrite fs_count by lia. cbn [bind]. intros H. apply Ok_inj in H. subst g.
  apply (count_iff forthb) in N; [|apply forthb_iff]. apply (count_iff fsharpb) in M; [|apply fsharpb_iff]. subst n m.
  rewrite !Z.add_0_l.
  destruct (cnt forthb _ >? cnt fsharpb _) eqn:G; [left|].
  { rewrite Z.gtb_ltb in G. apply Z.ltb_lt in G. split; [lia|reflexivity]. }
  rewrite Z.gtb_ltb in G. apply Z.ltb_ge in G. right.
  destruct (cnt forthb _ <? cnt fsharpb _) eqn:G2; [left|right].
  { apply Z.ltb_lt in G2. split; [lia|reflexivity]. }
  apply Z.ltb_ge in G2. split; [lia|reflexivity].
Qed.
Print Assumptions C32_fs.
(** The counts exist for every text. *)
Theorem C32_fs_counts_exist : forall c, (exists n, count forth_line (lines c) n) /\ (exists m, count fsharp_line (lines c) m).
Proof.
  intros c. split; eexists; [apply (count_iff forthb); [apply forthb_iff|reflexivity]|apply (count_iff fsharpb); [apply fsharpb_iff|reflexivity]].
Qed.
Print Assumptions C32_fs_counts_exist.

(** .bas and .bi: classic if a line (of which 81 bytes count) starts with a line number,
    otherwise Visual Basic if the directory has a file of a project, otherwise structured. *)
Definition basic_decision (f : file) (g : option string) : Prop :=
  let classic := exists l, In l (lines (contents f)) /\ numbered (seen l) in
  let visual := exists names n, d_dir f = Some names /\ In n names /\ vb_file n in
  (classic /\ g = Some "classic_basic") \/ (~ classic /\ visual /\ g = Some "visualbasic")
  \/ (~ classic /\ ~ visual /\ g = Some "structured_basic").
Lemma basic_ok pl f g : 0 <= slack pl -> disambiguate_basic pl f = Ok g -> basic_decision f g.
Proof.
  intros S. unfold disambiguate_basic. rewrite lines_loop_eq by (exact S || (intros []; reflexivity)).
  intros H. apply bind_ok in H as (x & F & H). unfold basic_decision. cbv zeta.
  apply (search_found pl basic_line numbered (Some "classic_basic")) in F as [(-> & l & I & T)|(-> & N)];
    [| |apply basic_line_ok].
  - apply Ok_inj in H. subst g. left. split; [eauto|reflexivity].
  - right. assert (NC : ~ exists l, In l (lines (contents f)) /\ numbered (seen l)) by (intros (l & I & T); exact (N l I T)).
    destruct (d_dir f) as [names|].
    + destruct (existsb is_vb_name names) eqn:V; apply Ok_inj in H; subst g; [left|right]; (split; [exact NC|]).
      * apply existsb_exists in V as (n & I & V1). apply is_vb_name_iff in V1. split; [eauto|reflexivity].
      * split; [|reflexivity]. intros (ns & n & [= <-] & I & V1). apply is_vb_name_iff in V1.
        assert (existsb is_vb_name names = true); [|congruence]. apply existsb_exists. eauto.
    + apply Ok_inj in H. subst g. right. split; [exact NC|]. split; [|reflexivity]. intros (ns & n & X & _). discriminate X.
Qed.
Theorem C32_basic : forall pl magic pcre f g, 0 <= slack pl -> extension_says (d_ext f) (ambiguous "basic") ->
  ohcount_detect_language pl magic pcre f = Ok g -> basic_decision f g.
Proof. intros pl magic pcre f g S E. call "basic" F_basic. apply basic_ok. exact S. Qed.
Print Assumptions C32_basic.

(** .b: Limbo only where a Limbo construct is, otherwise as for Basic. *)
Theorem C32_b : forall pl magic pcre f g, 0 <= slack pl -> extension_says (d_ext f) (ambiguous "b") ->
  ohcount_detect_language pl magic pcre f = Ok g ->
  (g = Some "limbo" /\ exists a p, contents f = a ++ p /\ limbo_at p) \/ basic_decision f g.
Proof.
  intros pl magic pcre f g S E. call "b" F_b. unfold disambiguate_b. intros H. apply bind_ok in H as (r & B & H). destruct r.
  - apply Ok_inj in H. subst g. left. split; [reflexivity|]. apply b_sound in B. exact B.
  - right. apply basic_ok in H; auto.
Qed.
Print Assumptions C32_b.
(** Without "include" the decision for Limbo is exact. *)
Theorem C32_b_complete : forall pl magic pcre f g, extension_says (d_ext f) (ambiguous "b") ->
  ~ (exists w, Blank w /\ occurs (bytes "include" ++ [w]) (contents f)) ->
  (exists a p, contents f = a ++ p /\ limbo_at p) ->
  ohcount_detect_language pl magic pcre f = Ok g -> g = Some "limbo".
Proof.
  intros pl magic pcre f g E N X. call "b" F_b. unfold disambiguate_b. intros H. apply bind_ok in H as (r & B & H).
  apply b_complete in B; auto. subst r. apply Ok_inj in H. auto.
Qed.
Print Assumptions C32_b_complete.
(** The first "include" decides for Limbo if the blanks after it are followed by a quote and a
    semicolon. *)
Theorem C32_b_include : forall pl magic pcre f g a w z, extension_says (d_ext f) (ambiguous "b") ->
  contents f = a ++ bytes "include" ++ w ++ bytes """;" ++ z -> w <> [] -> Forall Blank w ->
  ~ (exists b, Blank b /\ occurs (bytes "include" ++ [b]) (a ++ bytes "include")) ->
  ohcount_detect_language pl magic pcre f = Ok g -> g = Some "limbo".
Proof.
  intros pl magic pcre f g a w z E C Nw Fw N. call "b" F_b. unfold disambiguate_b. intros H. apply bind_ok in H as (r & B & H).
  rewrite C in B. apply b_include in B; auto. subst r. apply Ok_inj in H. auto.
Qed.
Print Assumptions C32_b_include.

(** .aspx: Visual Basic if the first directive is a page directive with that language. *)
Theorem C32_aspx : forall pl magic pcre f g, extension_says (d_ext f) (ambiguous "aspx") ->
  ohcount_detect_language pl magic pcre f = Ok g ->
  (g = Some "vb_aspx" /\ exists d, directive (contents f) d /\ vb_page d)
  \/ (g = Some "cs_aspx" /\ forall d, directive (contents f) d -> ~ vb_page d).
Proof. intros pl magic pcre f g E. call "aspx" F_aspx. apply aspx_ok. Qed.
Print Assumptions C32_aspx.

(** .h: Objective-C by a companion .m file, C++ by a line that includes a C++ header or has
    one of four keywords, C otherwise.  [b] is the byte in memory before the line buffer. *)
Theorem C32_h : forall pl magic pcre f g b, 0 <= slack pl -> before_line pl = Some b ->
  d_ext f = bytes "h" -> d_filename f <> [] ->
  ohcount_detect_language pl magic pcre f = Ok g ->
  let cpp := exists l, In l (lines (contents f)) /\ cpp_line b (seen l) in
  (companion (d_dir f) (d_filename f) /\ g = Some "objective_c")
  \/ (~ companion (d_dir f) (d_filename f) /\ cpp /\ g = Some "cpp")
  \/ (~ companion (d_dir f) (d_filename f) /\ ~ cpp /\ g = Some "c").
Proof.
  intros pl magic pcre f g b S B E NE. cbv zeta.
  assert (X : extension_says (d_ext f) (ambiguous "h")).
  { apply says_iff. unfold by_extension. rewrite E. vm_compute. reflexivity. }
  rewrite (detect_call _ _ _ "h" F_h) by (discriminate || reflexivity || assumption). unfold run, disambiguate_h.
  rewrite (proj2 (zlist_eqb_eq (d_ext f) (bytes "h")) E).
  intros H. apply bind_ok in H as (o & HO & H). apply bind_ok in HO as (_ & _ & HO). cbv zeta in HO. apply Ok_inj in HO.
  assert (CO : o = true <-> companion (d_dir f) (d_filename f)).
  { destruct (exists_last NE) as (stem & x & EF).
    assert (EP : firstn (length (d_filename f) - 1) (d_filename f) ++ [109] = stem ++ bytes "m").
    { rewrite EF, app_length. cbn [length]. rewrite Nat.add_sub, firstn_app, firstn_all, Nat.sub_diag. cbn [firstn].
      rewrite app_nil_r. reflexivity. }
    rewrite EP in HO. rewrite <- HO. unfold companion. split.
    - destruct (d_dir f) as [names|]; [|discriminate]. intros I. apply existsb_exists in I as (n & I & Q).
      apply zlist_eqb_eq in Q. subst n. exists names, stem, x. auto.
    - intros (names & stem' & x' & -> & EF' & I). rewrite EF in EF'. apply app_inj_tail in EF' as [<- <-].
      apply existsb_exists. exists (stem ++ bytes "m"). split; [exact I|apply zlist_eqb_refl]. }
  destruct o.
  { apply Ok_inj in H. subst g. left. split; [apply CO; reflexivity|reflexivity]. }
  right. assert (NC : ~ companion (d_dir f) (d_filename f)) by (intros Y; apply CO in Y; discriminate Y).
  rewrite lines_loop_eq in H; [|exact S|intros []; apply h_line_nil; exact S].
  apply bind_ok in H as (y & F & H).
  apply (search_found pl (h_line pl) (cpp_line b) (Some "cpp")) in F as [(-> & l & I & T)|(-> & N)].
  - apply Ok_inj in H. subst g. left. split; [exact NC|]. split; [eauto|reflexivity].
  - apply Ok_inj in H. subst g. right. split; [exact NC|]. split; [|reflexivity]. intros (l & I & T). exact (N l I T).
  - intros l a z L HL. apply (h_line_ok pl b l a z B L HL).
Qed.
Print Assumptions C32_h.

(** .st: Smalltalk only if there are an assignment, a block start and a block end; this is
    exact when no colon is hidden by another one or by a closing bracket. *)
Theorem C32_st : forall pl magic pcre f g, 0 <= slack pl -> extension_says (d_ext f) (ambiguous "st") ->
  ohcount_detect_language pl magic pcre f = Ok g ->
  let some (P : list Z -> Prop) := exists l, In l (lines (contents f)) /\ P (seen l) in
  (g = Some "smalltalk" /\ some assignment /\ some block_start /\ some block_end)
  \/ (g = None /\ ((forall l, In l (lines (contents f)) -> ~ hidden (seen l)) ->
                   ~ (some assignment /\ some block_start /\ some block_end))).
Proof.
  intros pl magic pcre f g S E. call "st" F_st. unfold disambiguate_st. fold st_step.
  rewrite lines_loop_eq; [|exact S|intros [[a b] c]; reflexivity].
  intros H. apply bind_ok in H as (x & F & H). apply st_fold in F. cbv zeta in F |- *.
  destruct x as [s|y]; apply Ok_inj in H; subst g.
  - right. split; [reflexivity|]. intros N. specialize (F N eq_refl). clear -F. tauto.
  - left. destruct F as (-> & A & B & C). split; [reflexivity|].
    destruct A as [A|A]; [discriminate A|]. destruct B as [B|B]; [discriminate B|]. destruct C as [C|C]; [discriminate C|]. auto.
Qed.
Print Assumptions C32_st.

(** Fortran: in fixed format every line starts with a blank, a digit or a comment mark; files
    of plain statements and comments are taken as fixed format. *)
Theorem C32_fortran : forall pl magic pcre f g, extension_says (d_ext f) (ambiguous "fortran") ->
  ohcount_detect_language pl magic pcre f = Ok g ->
  (g = Some "fortranfixed" \/ g = Some "fortranfree")
  /\ (g = Some "fortranfixed" -> forall l c r, In l (lines (contents f)) -> l = c :: r -> fixed_start c)
  /\ ((forall c r, contents f = c :: r -> ~ Newline c) ->
      (forall l, In l (lines (contents f)) -> l = [] \/ statement l \/ comment_line l) -> g = Some "fortranfixed").
Proof.
  intros pl magic pcre f g E. call "fortran" F_fortran. unfold disambiguate_fortran. intros H.
  apply bind_ok in H as (x & F & H). apply Ok_inj in H. subst g. split; [destruct x; auto|]. split.
  - destruct x; [|discriminate]. intros _. exact (fortran_fixed_lines _ _ F).
  - intros N L. rewrite fortran_fixed in F; [apply Ok_inj in F; subst x; reflexivity|lia| |exact L].
    intros c r X. specialize (N _ _ X). apply (false_iff _ _ (is_eol_iff c)). exact N.
Qed.
Print Assumptions C32_fortran.
(** Expected: blank lines do not matter.  Refuted: a line of two blanks, or an empty first
    line, makes the file free format. *)
Theorem C32_fortran_blank_refuted : exists c1 c2 c3,
  ohcount_detect_language usual no_magic no_pcre (mkFile (bytes "x.f") (bytes "f") (bytes "x.f") true (Some c1) None)
    = Ok (Some "fortranfixed") /\
  ohcount_detect_language usual no_magic no_pcre (mkFile (bytes "x.f") (bytes "f") (bytes "x.f") true (Some c2) None)
    = Ok (Some "fortranfree") /\ c2 = [32; 32; 10] ++ c1 /\
  ohcount_detect_language usual no_magic no_pcre (mkFile (bytes "x.f") (bytes "f") (bytes "x.f") true (Some c3) None)
    = Ok (Some "fortranfree") /\ c3 = [10] ++ c1.
Proof.
  exists (bytes "      call x"), ([32; 32; 10] ++ bytes "      call x"), ([10] ++ bytes "      call x").
  repeat split; vm_compute; reflexivity.
Qed.
Print Assumptions C32_fortran_blank_refuted.

(** .m: one of five languages; the order of the lines does not matter; the directory matters
    only through names of two bytes. *)
Lemma m_ok pl f g : 0 <= slack pl -> disambiguate_m pl f = Ok g ->
  exists s, s = s_add (m_sum pl (lines (contents f)))
                      (mkScores 0 0 (let '(h, c) := match d_dir f with Some n => m_dir n false | None => (false, false) end in
                                     if h && negb c then 5 else 0) 0 false) /\
  g = Some (if (limbo s >? objc s) && (limbo s >? matlab s) && (limbo s >? mathematica s) then "limbo"
         else if (objc s >? matlab s) && (objc s >? mathematica s) then "objective_c"
         else if mathematica s >? matlab s then "mathematica"
         else if octave s then "octave" else "matlab").
Proof.
  intros S. unfold disambiguate_m.
  destruct (match d_dir f with Some n => m_dir n false | None => (false, false) end) as [h c].
  rewrite lines_loop_eq.
  - intros H. apply bind_ok in H as (x & F & H). apply m_fold in F as ->. apply Ok_inj in H. eexists. split; [reflexivity|].
    symmetry. exact H.
  - exact S.
  - intros [a1 a2 a3 a4 a5]. unfold m_line. cbn. rewrite !Z.add_0_r, orb_false_r. reflexivity.
Qed.
Theorem C32_m_values : forall pl magic pcre f g, 0 <= slack pl -> extension_says (d_ext f) (ambiguous "m") ->
  ohcount_detect_language pl magic pcre f = Ok g ->
  exists v, g = Some v /\ In v ["limbo"; "objective_c"; "mathematica"; "octave"; "matlab"].
Proof.
  intros pl magic pcre f g S E. call "m" F_m. intros H. apply m_ok in H as (s & _ & ->); [|exact S].
  eexists. split; [reflexivity|].
  destruct (_ && _ && _); [cbn; tauto|]. destruct (_ && _); [cbn; tauto|]. destruct (_ >? _); [cbn; tauto|].
  destruct (octave s); cbn; tauto.
Qed.
Print Assumptions C32_m_values.
Theorem C32_m_line_order : forall pl magic pcre f1 f2 g1 g2, 0 <= slack pl ->
  extension_says (d_ext f1) (ambiguous "m") -> extension_says (d_ext f2) (ambiguous "m") ->
  Permutation (lines (contents f1)) (lines (contents f2)) -> d_dir f1 = d_dir f2 ->
  ohcount_detect_language pl magic pcre f1 = Ok g1 -> ohcount_detect_language pl magic pcre f2 = Ok g2 -> g1 = g2.
Proof.
  intros pl magic pcre f1 f2 g1 g2 S E1 E2 P D.
  rewrite (detect_call _ _ _ "m" F_m f1) by (discriminate || reflexivity || assumption).
  rewrite (detect_call _ _ _ "m" F_m f2) by (discriminate || reflexivity || assumption). unfold run.
  intros H1 H2. apply m_ok in H1 as (s1 & E & ->); [|exact S]. apply m_ok in H2 as (s2 & E' & ->); [|exact S].
  rewrite D, (m_sum_perm _ _ _ P) in E. rewrite <- E' in E. subst s1. reflexivity.
Qed.
Print Assumptions C32_m_line_order.
Lemma m_dir_none names h : ~ In (bytes ".h") names -> fst (m_dir names h) = h.
Proof.
  revert h; induction names as [|n names IH]; intros h N; [reflexivity|]. cbn [m_dir].
  destruct (m_dir_one n) as [[]|] eqn:M; [reflexivity| |].
  - exfalso. apply N. left. unfold m_dir_one in M.
    destruct (4 <=? length n)%nat; [destruct (existsb _ _); discriminate M|].
    destruct (3 <=? length n)%nat eqn:L3; [destruct (zlist_eqb _ _); discriminate M|].
    destruct (2 <=? length n)%nat eqn:L2; [|discriminate M].
    destruct (zlist_eqb (skipn (length n - 2) n) (bytes ".h")) eqn:Z.
    + apply zlist_eqb_eq in Z. assert (LE : length n = 2%nat).
      { apply Nat.leb_le in L2. apply Nat.leb_gt in L3. lia. }
      rewrite LE in Z. exact Z.
    + destruct (_ || _); discriminate M.
  - apply IH. intros I. apply N. right. exact I.
Qed.
Theorem C32_m_directory : forall pl magic pcre f1 f2 g1 g2 names1 names2, 0 <= slack pl ->
  extension_says (d_ext f1) (ambiguous "m") -> extension_says (d_ext f2) (ambiguous "m") ->
  contents f1 = contents f2 -> d_dir f1 = Some names1 -> d_dir f2 = Some names2 ->
  ~ In (bytes ".h") names1 -> ~ In (bytes ".h") names2 ->
  ohcount_detect_language pl magic pcre f1 = Ok g1 -> ohcount_detect_language pl magic pcre f2 = Ok g2 -> g1 = g2.
Proof.
  intros pl magic pcre f1 f2 g1 g2 names1 names2 S E1 E2 C D1 D2 N1 N2.
  rewrite (detect_call _ _ _ "m" F_m f1) by (discriminate || reflexivity || assumption).
  rewrite (detect_call _ _ _ "m" F_m f2) by (discriminate || reflexivity || assumption). unfold run.
  intros H1 H2. apply m_ok in H1 as (s1 & E & ->); [|exact S]. apply m_ok in H2 as (s2 & E' & ->); [|exact S].
  rewrite D1 in E. rewrite D2 in E'. pose proof (m_dir_none names1 false N1) as M1. pose proof (m_dir_none names2 false N2) as M2.
  destruct (m_dir names1 false) as [h1 c1]. destruct (m_dir names2 false) as [h2 c2]. cbn [fst] in M1, M2. subst h1 h2.
  cbn [andb] in E, E'. rewrite C, <- E' in E. subst s1. reflexivity.
Qed.
Print Assumptions C32_m_directory.
(** Expected: headers and no C files in the directory are a sign of Objective-C.  Refuted:
    only a file named ".h" counts. *)
Theorem C32_m_headers_refuted : exists f1 f2,
  d_contents f1 = d_contents f2 /\ d_dir f1 = Some [bytes "x.m"; bytes "x.h"; bytes "y.h"] /\ d_dir f2 = Some [bytes "x.m"; bytes ".h"] /\
  ohcount_detect_language strict no_magic no_pcre f1 = Ok (Some "matlab") /\
  ohcount_detect_language strict no_magic no_pcre f2 = Ok (Some "objective_c").
Proof.
  exists (ex "x.m" "m" "x" ["x.m"; "x.h"; "y.h"]), (ex "x.m" "m" "x" ["x.m"; ".h"]).
  repeat split; vm_compute; reflexivity.
Qed.
Print Assumptions C32_m_headers_refuted.

(** .in: the language of the file without the suffix (and up to the first NUL). *)
Theorem C32_in : forall pl magic pcre f stem c s, 1 <= slack pl ->
  extension_says (d_ext f) (ambiguous "in") -> d_path f = stem ++ bytes ".in" -> d_contents f = Some c ->
  sourcefile_new stem = Ok s ->
  ohcount_detect_language pl magic pcre f =
  ohcount_detect_language pl magic pcre
    (mkFile stem (ext_of stem s) (filename_of stem s) (d_disk f) (Some (before_nul c)) (d_dir f)).
Proof.
  intros pl magic pcre f stem c s S E P C SN. unfold ohcount_detect_language at 1.
  rewrite detect_eq, (guess_says pl magic f _ E). cbn [bind].
  change (is_ambiguous (ambiguous "in")) with true. cbv iota.
  change (lookup disambiguators (bytes (ambiguous_what (ambiguous "in")))) with (Some F_in). cbv iota.
  unfold run_in. rewrite P. cbv zeta.
  assert (Z : zlen (stem ++ bytes ".in") - 3 = zlen stem).
  { unfold zlen. rewrite app_length. change (length (bytes ".in")) with 3%nat. lia. }
  rewrite Z.
  assert (EARLY : (match strstr (stem ++ bytes ".in") (bytes ".") with
             | Some q => zlen (stem ++ bytes ".in") - zlen q <=? zlen stem | None => true end) = true).
  { destruct (strstr (stem ++ bytes ".in") (bytes ".")) as [q|] eqn:ST; [|reflexivity].
    apply strstr_some in ST as (a & EA & B & _ & M). apply Z.leb_le.
    apply app_split in EA as [(e & ES & EQ)|(e & EA & EQ)].
    - subst q. unfold zlen. rewrite ES, !app_length. lia.
    - destruct e as [|x e].
      + rewrite app_nil_r in EA. subst a. cbn [app] in EQ. subst q. unfold zlen. rewrite app_length. lia.
      + exfalso. apply (M stem (x :: e) EA); [discriminate|]. rewrite <- EQ. exists (bytes "in"). reflexivity. }
  rewrite EARLY. unfold vla, store. destruct (zlen stem <? 0) eqn:N; [apply Z.ltb_lt in N; unfold zlen in N; lia|].
  destruct (zlen stem <? zlen stem + slack pl) eqn:N2; [|apply Z.ltb_ge in N2; lia]. cbn [bind]. rewrite C.
  assert (FN : firstn (Z.to_nat (zlen stem)) (stem ++ bytes ".in") = stem).
  { unfold zlen. rewrite Nat2Z.id, firstn_app, firstn_all, Nat.sub_diag. cbn [firstn]. apply app_nil_r. }
  rewrite FN. unfold path_fields. rewrite SN. cbn [bind]. rewrite cstr_eq.
  unfold ohcount_detect_language. apply detect_irrel; cbn [d_path]; rewrite ?app_length; change (length (bytes ".in")) with 3%nat; lia.
Qed.
Print Assumptions C32_in.

(** Cases. *)
Example C32_cases :
  (* ext, contents, directory, result *)
  forallb (fun t => let '(p, e, c, d, g) := t in
    match ohcount_detect_language usual no_magic no_pcre (ex p e c d) with
    | Ok (Some v) => (v =? g)%string
    | Ok None => (g =? "")%string
    | _ => false
    end)
  [("x.asx", "asx", " <asx>", [], ""); ("x.asx", "asx", "  mov", [], "assembler");
   ("x.dat", "dat", "param n := 3;", [], "ampl"); ("x.dat", "dat", "12 13", [], String "001"%char "");
   ("x.def", "def", "DEFINITION MODULE", [], "modula2"); ("x.def", "def", "EXPORTS", [], "");
   ("x.mod", "mod", "MODULE x", [], "modula2"); ("x.mod", "mod", "set S", [], "ampl"); ("x.mod", "mod", "Mx", [], "");
   ("x.inc", "inc", "<?php x", [], "php"); ("x.inc", "inc", "x", [], "");
   ("x.pro", "pro", "a CONFIG += b", [], "make"); ("x.pro", "pro", "pro x", [], "idl_pvwave");
   ("x.r", "r", "x REBOL []", [], "rebol"); ("x.r", "r", "x rebol", [], "r");
   ("x.rs", "rs", "#PRAGMA version(1)", [], ""); ("x.rs", "rs", "fn main", [], "rust");
   ("x.cs", "cs", "<?cs x", [], "clearsilver_template"); ("x.cs", "cs", "class", [], "csharp");
   ("x.pl", "pl", "a :- b.", [], "prolog"); ("x.pl", "pl", "use x;", [], "perl");
   ("x.fs", "fs", "let x", [], "fsharp"); ("x.fs", "fs", ": sq dup", [], "forth"); ("x.fs", "fs", "x", [], "");
   ("x.bas", "bas", "10 PRINT", [], "classic_basic"); ("x.bas", "bas", "PRINT", ["y.frm"], "visualbasic");
   ("x.bas", "bas", "PRINT", ["y"], "structured_basic");
   ("x.b", "b", "implement X;", [], "limbo"); ("x.b", "b", "x include 	"";", [], "limbo"); ("x.b", "b", "10 PRINT", [], "classic_basic");
   ("x.aspx", "aspx", "<%@ Page Language=""VB"" %>", [], "vb_aspx");
   ("x.aspx", "aspx", "<%@ Import %><%@ Page Language=""VB"" %>", [], "cs_aspx");
   ("x.h", "h", "int x;", ["x.h"; "x.m"], "objective_c"); ("x.h", "h", "#include <vector>", [], "cpp");
   ("x.h", "h", "#include ""y.hpp""", [], "cpp"); ("x.h", "h", "class X", [], "cpp"); ("x.h", "h", "myclass x", [], "c");
   ("x.st", "st", "a := [ :b | c ]. d :[", [], "smalltalk"); ("x.st", "st", "a := b", [], "");
   ("x.f", "f", "C comment", [], "fortranfixed"); ("x.f", "f", "program x", [], "fortranfree");
   ("x.m", "m", "% comment", [], "matlab"); ("x.m", "m", "#import <x.h>", [], "objective_c");
   ("x.m", "m", "(* comment", [], "mathematica"); ("x.m", "m", "x : con 1", [], "limbo");
   ("x.m", "m", "  endfunction", [], "octave");
   ("x.bas.in", "in", "10 PRINT", [], "classic_basic")] = true.
Proof. vm_compute. reflexivity. Qed.
