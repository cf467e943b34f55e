(** Properties C30 (detection gives a known language or none), C31 (the order of the tests)
    and C33 (memory safety and termination of detection). *)
From Coq Require Import ZArith String Ascii List Bool Lia.
From Verif Require Import Base ParsedModel PathModel Tables TablesSpec PropertiesTables DetectorModel DetectorSpec DetectorProofs
  DisambProofs DisambProofs2 DisambProofs3 DisambProofs4 DisambProofs5 DisambProofs6 DisambProofs7 DetectProofs DetectProofs2
  PropertiesDisamb.
Import ListNotations.
Open Scope string_scope.
Open Scope Z_scope.
Open Scope list_scope.

(** ** C30 *)
Definition none_or_language (g : option string) : Prop := forall v, g = Some v -> is_language v.
Lemma none_ok : none_or_language None.
Proof. intros v H. discriminate H. Qed.
Lemma some_ok v : is_languageb v = true -> none_or_language (Some v).
Proof. intros H w [= <-]. apply is_languageb_ok. exact H. Qed.
Ltac known := first [apply none_ok | apply some_ok; vm_compute; reflexivity].

Lemma run_value pl pcre d f g : 0 <= slack pl -> d <> F_dat -> d <> F_in -> run pl pcre d f = Ok g -> none_or_language g.
Proof.
  intros S ND NI.
  assert (BAS : forall f g, disambiguate_basic pl f = Ok g -> none_or_language g).
  { intros f0 g0 H. apply basic_ok in H; [|exact S]. destruct H as [[_ ->]|[(_ & _ & ->)|(_ & _ & ->)]]; known. }
  destruct d; unfold run; intros H; try contradiction.
  - apply aspx_ok in H as [(-> & _)|(-> & _)]; known.
  - unfold disambiguate_asx in H. apply Ok_inj in H. subst g. rewrite asx_iff.
    destruct (match asx_loop (contents f) with Some _ => false | None => true end); known.
  - unfold disambiguate_b in H. apply bind_ok in H as (r & _ & H). destruct r; [apply Ok_inj in H; subst g; known|eauto].
  - eauto.
  - unfold disambiguate_cs in H. destruct (d_contents f) as [c|]; apply Ok_inj in H; subst g; [destruct (has c "<?cs")|]; known.
  - unfold disambiguate_def in H. apply Ok_inj in H. subst g. destruct (def_values (contents f)) as [-> | -> ]; known.
  - unfold disambiguate_fortran in H. apply bind_ok in H as (x & _ & H). apply Ok_inj in H. subst g. destruct x; known.
  - unfold disambiguate_fs in H. destruct (d_contents f) as [c|]; [|apply Ok_inj in H; subst g; known].
    apply bind_ok in H as ([x y] & _ & H). apply Ok_inj in H. subst g.
    destruct (x >? y); [known|]. destruct (x <? y); known.
  - unfold disambiguate_h in H. apply bind_ok in H as (o & _ & H). destruct o; [apply Ok_inj in H; subst g; known|].
    rewrite lines_loop_eq in H; [|exact S|intros []; apply h_line_nil; exact S].
    apply bind_ok in H as (y & F & H).
    assert (V : y = inr (Some "cpp") \/ exists a, y = inl a).
    { clear H. generalize dependent tt. induction (lines (contents f)) as [|l ls IH]; cbn [fold_lines]; intros a F.
      - apply Ok_inj in F. subst y. eauto.
      - apply bind_ok in F as (line & _ & F). apply bind_ok in F as (z & HL & F).
        assert (HZ : z = inr (Some "cpp") \/ exists a, z = inl a).
        { unfold h_line in HL. apply bind_ok in HL as (i & _ & HL). destruct i; [apply Ok_inj in HL; subst z; auto|].
          apply bind_ok in HL as (k & _ & HL). destruct k; apply Ok_inj in HL; subst z; eauto. }
        destruct HZ as [-> |(a' & ->)]; [apply Ok_inj in F; auto|eauto]. }
    destruct V as [-> |(a & ->)]; apply Ok_inj in H; subst g; known.
  - unfold disambiguate_inc in H. destruct (d_contents f) as [c|]; apply Ok_inj in H; subst g; [|known].
    rewrite cstr_eq, inc_iff. destruct (has c "?php"); known.
  - apply m_ok in H as (s & _ & ->); [|exact S].
    destruct (_ && _ && _); [known|]. destruct (_ && _); [known|]. destruct (_ >? _); [known|]. destruct (octave s); known.
  - unfold disambiguate_mod in H. apply Ok_inj in H. subst g. destruct (mod_values (contents f)) as [-> |[-> | -> ]]; known.
  - unfold disambiguate_pl in H. destruct (d_contents f) as [c|]; [|apply Ok_inj in H; subst g; known].
    destruct (pcre _ _); [apply Ok_inj in H; subst g; known|]. destruct (has _ _); [apply Ok_inj in H; subst g; known|].
    destruct (strstr _ _); apply Ok_inj in H; subst g; known.
  - unfold disambiguate_pp in H. destruct (d_contents f) as [c|]; [|apply Ok_inj in H; subst g; known].
    apply Ok_inj in H. subst g. destruct (_ || _); known.
  - unfold disambiguate_pro in H. apply Ok_inj in H. subst g. destruct (pro_loop _); known.
  - unfold disambiguate_r in H. destruct (d_contents f) as [c|]; apply Ok_inj in H; subst g; [destruct (r_loop c)|]; known.
  - unfold disambiguate_rs in H. destruct (d_contents f) as [c|]; [|apply Ok_inj in H; subst g; known].
    destruct (starts_nocase _ _); [apply Ok_inj in H; subst g; known|]. apply Ok_inj in H; subst g. destruct (rs_loop c); known.
  - unfold disambiguate_st in H. fold st_step in H. rewrite lines_loop_eq in H; [|exact S|intros [[a b] c]; reflexivity].
    apply bind_ok in H as (x & F & H). apply st_fold in F. cbv zeta in F.
    destruct x as [s|y]; apply Ok_inj in H; subst g; [known|]. destruct F as (-> & _). known.
Qed.

Lemma value_language v : value_ok v -> is_ambiguous v = false -> is_binary v = false -> is_language v.
Proof. intros [g _ L| |id d I] A B; [exact L|discriminate B|discriminate A]. Qed.
Lemma value_disamb v : value_ok v -> is_ambiguous v = true -> exists d, lookup disambiguators (bytes (ambiguous_what v)) = Some d.
Proof.
  assert (C : forallb (fun p => match lookup disambiguators (bytes (fst p)) with Some _ => true | None => false end)
                disambiguators = true) by (vm_compute; reflexivity).
  rewrite forallb_forall in C.
  intros [g _ L| |id d I] A; [destruct (language_plain g L); congruence|discriminate A|].
  specialize (C _ I). cbn [fst] in C. cbn [ambiguous_what ambiguous]. destruct (lookup disambiguators (bytes id)); [eauto|discriminate C].
Qed.

(** The answer is nothing, a language of the language table (which has a parser, C29), or the
    marker of binary files. *)
Theorem C30_known_or_marker : forall pl magic pcre f g, 0 <= slack pl ->
  ohcount_detect_language pl magic pcre f = Ok (Some g) -> is_language g \/ g = binary.
Proof.
  intros pl magic pcre f g SL. unfold ohcount_detect_language. generalize (S (length (d_path f))). intros n.
  revert f; induction n as [|n IH]; intros f; [discriminate|]. rewrite detect_eq.
  intros H. apply bind_ok in H as ([v|] & G & H); [|discriminate H]. apply guess_value in G.
  destruct (is_ambiguous v) eqn:A.
  - destruct (value_disamb v G A) as (d & LD). rewrite LD in H.
    assert (DEC : d = F_dat \/ d = F_in \/ (d <> F_dat /\ d <> F_in)).
    { destruct d; auto; right; right; split; discriminate. }
    destruct DEC as [-> |[-> |(N1 & N2)]].
    + unfold run, disambiguate_dat in H. apply Ok_inj in H.
      destruct (dat_values (contents f)) as [X|[X|X]]; rewrite X in H; [|discriminate H|].
      * injection H as <-. left. apply is_languageb_ok. vm_compute. reflexivity.
      * injection H as <-. right. reflexivity.
    + unfold run_in in H. cbv zeta in H. destruct (match strstr (d_path f) (bytes ".") with Some q => _ | None => _ end); [|discriminate H].
      apply bind_ok in H as (_ & _ & H). destruct (d_contents f); [|discriminate H].
      apply bind_ok in H as ([e m] & _ & H). apply IH in H. exact H.
    + left. assert (R : run pl pcre d f = Ok (Some g)) by (destruct d; auto; contradiction).
      apply run_value in R; auto.
  - apply Ok_inj in H. destruct (is_binary v) eqn:B; [discriminate H|]. injection H as <-. left. apply value_language; auto.
Qed.
Print Assumptions C30_known_or_marker.

(** Expected: nothing or a language.  Refuted: the marker leaves the detector. *)
Theorem C30_known_refuted : exists f g, ohcount_detect_language strict no_magic no_pcre f = Ok (Some g) /\ ~ is_language g /\ ~ has_parser g.
Proof.
  exists (ex "x.dat" "dat" "12 13" []), binary. split; [vm_compute; reflexivity|].
  assert (N : ~ is_language binary).
  { intros (k & l & I & E).
    assert (C : forallb (fun e => negb (l_name (snd e) =? binary)%string) languages = true) by (vm_compute; reflexivity).
    rewrite forallb_forall in C. specialize (C _ I). cbn [snd] in C. rewrite E, String.eqb_refl in C. discriminate C. }
  split; [exact N|]. intros P. apply N. apply C29_languages_have_parsers. exact P.
Qed.
Print Assumptions C30_known_refuted.

(** It holds for every extension of the table other than dat and in, *)
Theorem C30_known_or_none : forall pl magic pcre f v g, 0 <= slack pl -> extension_says (d_ext f) v ->
  v <> ambiguous "dat" -> v <> ambiguous "in" ->
  ohcount_detect_language pl magic pcre f = Ok (Some g) -> is_language g.
Proof.
  intros pl magic pcre f v g S E N1 N2. unfold ohcount_detect_language. rewrite detect_eq, (guess_says pl magic f v E). cbn [bind].
  assert (V : value_ok v).
  { apply (guess_value pl magic f). apply guess_says. exact E. }
  destruct (is_ambiguous v) eqn:A.
  - destruct (value_disamb v V A) as (d & LD). rewrite LD.
    assert (EV : v = ambiguous (ambiguous_what v)) by (destruct V as [x _ L| |]; [destruct (language_plain x L); congruence|discriminate A|reflexivity]).
    assert (C : forallb (fun e => match snd e with F_dat => (fst e =? "dat")%string | F_in => (fst e =? "in")%string | _ => true end)
                  disambiguators = true) by (vm_compute; reflexivity).
    rewrite forallb_forall in C. apply lookup_in in LD as (s & EB & I). apply C in I. cbn [fst snd] in I.
    assert (ES : s = ambiguous_what v).
    { clear -EB. revert EB. generalize (ambiguous_what v). induction s as [|x s IH]; intros [|y t]; cbn; try discriminate; [reflexivity|].
      intros [= E1 E2]. f_equal; [|auto]. rewrite <- (ascii_N_embedding x), <- (ascii_N_embedding y).
      f_equal. apply N2Z.inj. exact E1. }
    assert (D : d <> F_dat /\ d <> F_in).
    { split; intros ->; apply String.eqb_eq in I; rewrite <- ES, I in EV; contradiction. }
    destruct D as [D1 D2]. intros H. assert (R : run pl pcre d f = Ok (Some g)) by (destruct d; auto; contradiction).
    apply run_value in R; auto.
  - intros H. apply Ok_inj in H. destruct (is_binary v) eqn:B; [discriminate H|]. injection H as <-. apply value_language; auto.
Qed.
Print Assumptions C30_known_or_none.

(** and if the extension is unknown and the file has no mode line. *)
Theorem C30_known_without_extension : forall pl magic pcre f g, 0 <= slack pl -> extension_unknown (d_ext f) ->
  ~ occurs (bytes "-*-") (contents f) ->
  ohcount_detect_language pl magic pcre f = Ok (Some g) -> is_language g.
Proof.
  intros pl magic pcre f g S U N. unfold ohcount_detect_language. rewrite detect_eq.
  intros H. apply bind_ok in H as ([v|] & G & H); [|discriminate H].
  assert (L : is_language v).
  { unfold first_guess in G. apply unknown_iff in U. rewrite U in G. apply bind_ok in G as ([w|] & E & G).
    - exfalso. unfold emacs_mode in E. apply bind_ok in E as (arr & EA & E).
      apply mode_array_part in EA.
      assert (O : ~ occurs (bytes "-*-") (before_nul arr)).
      { destruct EA as [EA|EA]; [rewrite EA; intros X; apply occurs_nil in X; discriminate X|auto]. }
      rewrite (proj2 (strstr_none arr (bytes "-*-") ltac:(no0) ltac:(discriminate)) O) in E. discriminate E.
    - destruct (lookup filenames (d_filename f)) as [w|] eqn:LF.
      + apply Ok_inj in G. injection G as <-. exact (proj2 (C29_filenames_closed _ _ LF)).
      + unfold detect_magic in G. destruct (d_disk f); [exact (magic_language _ _ G)|].
        destruct (d_contents f); [exact (magic_language _ _ G)|discriminate G]. }
  destruct (language_plain v L) as [A B]. rewrite A, B in H. apply Ok_inj in H. injection H as <-. exact L.
Qed.
Print Assumptions C30_known_without_extension.

(** ** C31 *)
(** An extension that stands for a language decides, whatever the file contains and whatever
    libmagic says. *)
Theorem C31_extension_decides : forall pl magic pcre f g, extension_says (d_ext f) g -> is_language g ->
  ohcount_detect_language pl magic pcre f = Ok (Some g).
Proof. intros pl magic pcre f g E L. apply detect_plain; [apply guess_says; exact E|exact L]. Qed.
Print Assumptions C31_extension_decides.
Theorem C31_binary_extension : forall pl magic pcre f, extension_says (d_ext f) binary ->
  ohcount_detect_language pl magic pcre f = Ok None.
Proof.
  intros pl magic pcre f E. unfold ohcount_detect_language. rewrite detect_eq, (guess_says pl magic f _ E). reflexivity.
Qed.
Print Assumptions C31_binary_extension.
(** The extension table says at most one thing. *)
Theorem C31_extension_function : forall e v w, extension_says e v -> extension_says e w -> v = w.
Proof.
  intros e v w. set (f := mkFile [] e [] false None None). change e with (d_ext f). rewrite !says_iff. congruence.
Qed.
Print Assumptions C31_extension_function.

(** Otherwise the mode line decides ... *)
Theorem C31_mode_line_decides : forall pl magic pcre f l rest name g, 0 <= slack pl ->
  extension_unknown (d_ext f) ->
  contents f = l ++ rest -> (forall c r, rest = c :: r -> Newline c) -> Forall (fun c => c <> 0 /\ ~ Newline c) l ->
  zlen l <= 80 -> ~ begins (bytes "#!") l -> mode_line l name -> mode_says name g -> is_language g ->
  ohcount_detect_language pl magic pcre f = Ok (Some g).
Proof.
  intros pl magic pcre f l rest name g S U EC HR HL LL NB M MS L. apply detect_plain; [|exact L].
  unfold first_guess. apply unknown_iff in U. rewrite U. rewrite (mode_found pl f l rest name g) by assumption. reflexivity.
Qed.
Print Assumptions C31_mode_line_decides.

(** ... then the file name ... *)
Definition fits (pl : platform) (f : file) : Prop :=
  0 <= slack pl /\ (1 <= slack pl \/ forall l, In l (lines (contents f)) -> zlen l <= 80).
Lemma filename_lookup k g : In (k, g) filenames -> lookup filenames (bytes k) = Some g.
Proof.
  assert (C : forallb (fun p => match lookup filenames (bytes (fst p)) with Some v => (v =? snd p)%string | None => false end)
                filenames = true) by (vm_compute; reflexivity).
  rewrite forallb_forall in C. intros I. specialize (C _ I). cbn [fst snd] in C.
  destruct (lookup filenames (bytes k)); [|discriminate C]. apply String.eqb_eq in C. congruence.
Qed.
Theorem C31_filename_decides : forall pl magic pcre f k g, fits pl f -> extension_unknown (d_ext f) ->
  ~ occurs (bytes "-*-") (contents f) -> In (k, g) filenames -> d_filename f = bytes k ->
  ohcount_detect_language pl magic pcre f = Ok (Some g).
Proof.
  intros pl magic pcre f k g [S F] U N I E. pose proof (filename_lookup k g I) as L.
  apply detect_plain; [|exact (proj2 (C29_filenames_closed _ _ L))].
  unfold first_guess. apply unknown_iff in U. rewrite U, (no_mode pl f S F N). cbn [bind]. rewrite E, L. reflexivity.
Qed.
Print Assumptions C31_filename_decides.

(** ... then the answer of libmagic: the word before "script" or "xml" in its first 79 bytes,
    otherwise nothing. *)
Definition unnamed (f : file) : Prop := forall k g, In (k, g) filenames -> d_filename f <> bytes k.
Definition by_magic (pl : platform) (f : file) : Prop :=
  fits pl f /\ extension_unknown (d_ext f) /\ ~ occurs (bytes "-*-") (contents f) /\ unnamed f /\
  (d_disk f = true \/ exists c, d_contents f = Some c).
Lemma by_magic_eq pl magic f : by_magic pl f -> first_guess pl magic f = magic_parse (firstn 79 (magic f)).
Proof.
  intros ([S F] & U & N & UN & D). unfold first_guess. apply unknown_iff in U. rewrite U, (no_mode pl f S F N). cbn [bind].
  destruct (lookup filenames (d_filename f)) as [g|] eqn:L.
  - exfalso. apply lookup_in in L as (k & E & I). exact (UN k g I (eq_sym E)).
  - unfold detect_magic. destruct (d_disk f); [reflexivity|]. destruct D as [D|(c & D)]; [discriminate D|]. rewrite D. reflexivity.
Qed.
Theorem C31_magic_script : forall pl magic pcre f a k l r key, by_magic pl f -> Forall (fun c => c <> 0) (magic f) ->
  map lower (firstn 79 (magic f)) = a ++ k ++ bytes " script" ++ r ->
  ~ occurs (bytes "script") (a ++ k ++ bytes " scrip") ->
  Forall Alnum k -> (forall a' x, a = a' ++ [x] -> ~ Alnum x /\ x <> 45) ->
  In (key, l) languages -> k = bytes key ->
  ohcount_detect_language pl magic pcre f = Ok (Some (l_name l)).
Proof.
  intros pl magic pcre f a k l r key B NZ E N K A I EK. apply detect_plain; [|exists key, l; auto].
  rewrite (by_magic_eq pl magic f B), (magic_word _ a k r E); auto.
  - unfold language_named. rewrite EK. apply lang_lookup in I as (l' & -> & ->). reflexivity.
  - rewrite <- (firstn_skipn 79 (magic f)) in NZ. apply Forall_app in NZ as [NZ _]. exact NZ.
  - intros ->. assert (C : forallb (fun e => negb (zlist_eqb (bytes (fst e)) [])) languages = true) by (vm_compute; reflexivity).
    rewrite forallb_forall in C. apply C in I. cbn [fst] in I. rewrite <- EK in I. discriminate I.
Qed.
Print Assumptions C31_magic_script.
Theorem C31_magic_plain : forall pl magic pcre f, by_magic pl f -> Forall (fun c => c <> 0) (magic f) ->
  let t := map lower (firstn 79 (magic f)) in
  ~ occurs (bytes "script") t ->
  (occurs (bytes "xml") t /\ ohcount_detect_language pl magic pcre f = Ok (Some "xml"))
  \/ (~ occurs (bytes "xml") t /\ ohcount_detect_language pl magic pcre f = Ok None).
Proof.
  intros pl magic pcre f B NZ t N.
  assert (NZ1 : Forall (fun c => c <> 0) (firstn 79 (magic f))).
  { rewrite <- (firstn_skipn 79 (magic f)) in NZ. apply Forall_app in NZ as [NZ _]. exact NZ. }
  pose proof (by_magic_eq pl magic f B) as G. rewrite (magic_plain _ NZ1 N) in G. fold t in G.
  assert (NT : before_nul t = t).
  { apply before_nul_id. unfold t. clear -NZ1. induction NZ1 as [|c l C _ IH]; cbn [map]; constructor; auto.
    intros X. exact (C (proj1 (lower_0 c) X)). }
  pose proof (has_iff t "xml" ltac:(no0) ltac:(discriminate)) as H. rewrite NT in H.
  destruct (has t "xml").
  - left. split; [apply H; reflexivity|]. apply detect_plain; [exact G|]. apply is_languageb_ok. vm_compute. reflexivity.
  - right. split; [intros X; apply H in X; discriminate X|]. unfold ohcount_detect_language. rewrite detect_eq, G. reflexivity.
Qed.
Print Assumptions C31_magic_plain.

(** is_binary_filename looks at the last extension only. *)
Theorem C31_is_binary_filename : forall pl name b, is_binary_filename pl name = Ok b ->
  (b = true <-> exists a e, name = a ++ 46 :: e /\ ~ In 46 e /\ extension_says e binary).
Proof.
  intros pl name b. unfold is_binary_filename. destruct (existsb (Z.eqb 46) name) eqn:D.
  - assert (SP : exists a, name = a ++ 46 :: after_dot name /\ ~ In 46 (after_dot name)).
    { clear -D. induction name as [|c r IH]; [discriminate D|]. cbn [existsb] in D. cbn [after_dot].
      destruct (existsb (Z.eqb 46) r) eqn:E.
      - destruct (IH eq_refl) as (a & EA & N). exists (c :: a). cbn [app]. rewrite <- EA. auto.
      - rewrite orb_false_r in D. rewrite Z.eqb_sym in D. rewrite D. apply Z.eqb_eq in D. subst c. exists []. split; [reflexivity|].
        intros I. assert (existsb (Z.eqb 46) r = true); [|congruence]. apply existsb_exists. exists 46. split; [exact I|reflexivity]. }
    destruct SP as (a & EA & NA). cbv zeta. set (e := after_dot name) in *. clearbody e. clear D.
    set (f := mkFile [] e [] false None None).
    assert (UNIQ : (exists a e0, name = a ++ 46 :: e0 /\ ~ In 46 e0 /\ extension_says e0 binary) <-> by_extension f = Some binary).
    { rewrite <- says_iff. cbn [d_ext f]. split; [|intros X; exists a, e; auto].
      intros (a2 & e2 & E2 & N2 & X). assert (e2 = e); [|subst; exact X].
      rewrite EA in E2. clear -E2 N2 NA. revert a2 E2. induction a as [|c a IH]; intros a2 E2.
      - destruct a2 as [|c2 a2]; cbn in E2; injection E2 as E2; [auto|]. exfalso. apply NA. rewrite H. apply in_or_app. right. left. reflexivity.
      - destruct a2 as [|c2 a2]; cbn in E2; injection E2 as E2 E3; [|eauto]. exfalso. apply N2. rewrite <- E3. apply in_or_app. right. left. reflexivity. }
    rewrite UNIQ. unfold by_extension. cbn [d_ext f].
    assert (VB : forall v, lookup extensions v = Some binary <-> exists w, lookup extensions v = Some w /\ is_binary w = true).
    { intros v. split; [eauto|]. intros (w & E & B). rewrite E. f_equal. apply value_ok_binary; [|exact B]. exact (C29_extensions_closed _ _ E). }
    destruct (lookup extensions e) as [v|] eqn:L.
    + intros H. apply Ok_inj in H. subst b. specialize (VB e). rewrite L in VB. rewrite VB. split; [eauto|].
      intros (w & [= <-] & B). exact B.
    + intros H. apply bind_ok in H as (_ & _ & H). specialize (VB (map to_lower e)).
      destruct (lookup extensions (map to_lower e)) as [v|].
      * apply Ok_inj in H. subst b. rewrite VB. split; [eauto|]. intros (w & [= <-] & B). exact B.
      * apply Ok_inj in H. subst b. split; discriminate.
  - intros H. apply Ok_inj in H. subst b. split; [discriminate|]. intros (a & e & -> & _). exfalso.
    assert (existsb (Z.eqb 46) (a ++ 46 :: e) = true); [|congruence]. apply existsb_exists. exists 46. split; [|reflexivity].
    apply in_or_app. right. left. reflexivity.
Qed.
Print Assumptions C31_is_binary_filename.

(** Cases. *)
Definition says (t : string) (_ : file) : list Z := bytes t.
Example C31_cases :
  forallb (fun t => let '(p, e, c, m, g) := t in
    match ohcount_detect_language usual (says m) no_pcre (ex p e c []) with
    | Ok (Some v) => (v =? g)%string
    | Ok None => (g =? "")%string
    | _ => false
    end)
  [("x.py", "py", "-*- c -*-", "perl script", "python"); ("x.PY", "PY", "", "", "python"); ("x.png", "png", "-*- c -*-", "", "");
   ("x", "", "/* -*- mode: C; y -*- */", "", "c"); ("x", "", "# -*- Ruby -*-", "", "ruby"); ("Makefile", "", "all:", "", "make");
   ("x", "", "", "a Python script text", "python"); ("x", "", "", "a /usr/bin/perl -w script text", "perl");
   ("x", "", "", "XML document", "xml"); ("x", "", "", "ASCII text", "")] = true.
Proof. vm_compute. reflexivity. Qed.
Example C31_cases_binary :
  is_binary_filename usual (bytes "x.tar.GZ") = Ok true /\ is_binary_filename usual (bytes "gz") = Ok false /\
  is_binary_filename usual (bytes "x.gz.c") = Ok false.
Proof. vm_compute. auto. Qed.
(** The hypotheses on mode lines can be met. *)
Example C31_case_mode : mode_line (bytes "/* -*- mode: C; y -*- */") (bytes "C") /\ mode_says (bytes "C") "c"
  /\ extension_unknown [].
Proof.
  split; [|split].
  - refine (Mode (bytes "/* ") (bytes " ") (bytes "mode: ") (bytes "C") 59 (bytes " y -*- */") _ _ _ _ _ _).
    + intros O. apply (has_iff (bytes "/* " ++ bytes "-*") "-*-" ltac:(no0) ltac:(discriminate)) in O. discriminate O.
    + repeat constructor.
    + right. exists (bytes "mode"), (bytes ": "). split; [reflexivity|]. split; [reflexivity|].
      repeat constructor; unfold Blank; lia.
    + discriminate.
    + constructor; [|constructor]. left. right. right. split; discriminate.
    + left. cbn. auto.
  - left. auto.
  - apply (unknown_iff (mkFile [] [] [] true None None)). vm_compute. reflexivity.
Qed.

(** ** C33 *)
(** Detection ends, on every platform. *)
Theorem C33_terminates : forall pl magic pcre f, ohcount_detect_language pl magic pcre f <> OutOfFuel.
Proof. intros pl magic pcre f. apply detect_fuel. lia. Qed.
Print Assumptions C33_terminates.

(** Extensions that stand for a language, for no language, or for one of these disambiguators
    are safe, whatever the file contains. *)
Theorem C33_safe : forall pl magic pcre f v, extension_says (d_ext f) v ->
  ~ In v (map ambiguous ["aspx"; "b"; "basic"; "h"; "in"; "m"; "st"]) ->
  exists g, ohcount_detect_language pl magic pcre f = Ok g.
Proof.
  intros pl magic pcre f v E N.
  destruct (is_ambiguous v) eqn:A.
  2: { unfold ohcount_detect_language. rewrite detect_eq, (guess_says pl magic f v E). cbn [bind]. rewrite A. eauto. }
  assert (V : value_ok v) by (apply (guess_value pl magic f); apply guess_says; exact E).
  destruct V as [x _ L| |id d I]; [destruct (language_plain x L); congruence|discriminate A|].
  assert (C : forallb (fun e => existsb (String.eqb (fst e)) ["aspx"; "b"; "basic"; "h"; "in"; "m"; "st"]
                  || match lookup disambiguators (bytes (fst e)) with
                     | Some (F_asx | F_cs | F_dat | F_def | F_fortran | F_fs | F_inc | F_mod | F_pl | F_pp | F_pro | F_r | F_rs) => true
                     | _ => false end) disambiguators = true) by (vm_compute; reflexivity).
  rewrite forallb_forall in C. apply C in I. cbn [fst] in I. apply orb_true_iff in I as [I|I].
  { exfalso. apply N. apply existsb_exists in I as (s & I & X). apply String.eqb_eq in X. subst s. apply in_map. exact I. }
  destruct (lookup disambiguators (bytes id)) as [d'|] eqn:LD; [|discriminate I].
  rewrite (detect_call pl magic pcre id d' f); [|destruct d'; discriminate|exact LD|exact E].
  destruct d'; try discriminate I; clear; unfold run.
  - unfold disambiguate_asx. eauto.
  - unfold disambiguate_cs. destruct (d_contents f); eauto.
  - unfold disambiguate_dat. eauto.
  - unfold disambiguate_def. eauto.
  - unfold disambiguate_fortran. destruct (fortran_total (S (length (contents f))) (contents f)) as (r & ->); [lia|]. cbn [bind]. eauto.
  - unfold disambiguate_fs. destruct (d_contents f); [|eauto]. rewrite fs_count by lia. cbn [bind]. eauto.
  - unfold disambiguate_inc. destruct (d_contents f); eauto.
  - unfold disambiguate_mod. eauto.
  - unfold disambiguate_pl. destruct (d_contents f); [|eauto]. destruct (pcre _ _); [eauto|]. destruct (has _ _); [eauto|]. destruct (strstr _ _); eauto.
  - unfold disambiguate_pp. destruct (d_contents f); eauto.
  - unfold disambiguate_pro. eauto.
  - unfold disambiguate_r. destruct (d_contents f); eauto.
  - unfold disambiguate_rs. destruct (d_contents f); [|eauto]. destruct (starts_nocase _ _); eauto.
Qed.
Print Assumptions C33_safe.

Lemma seen_zlen l : zlen (seen l) <= 81.
Proof. pose proof (seen_length l). unfold zlen. lia. Qed.
Lemma seen_short l : zlen (seen l) <= zlen l.
Proof.
  unfold seen, zlen. destruct (before_nul_app (firstn 81 l)) as (b & E & _). apply (f_equal (@length Z)) in E.
  rewrite app_length, firstn_length in E. lia.
Qed.
Lemma fits_line pl f l : fits pl f -> In l (lines (contents f)) -> (zlen l <= 80 \/ 1 <= slack pl) /\ zlen (seen l) < 81 + slack pl.
Proof.
  intros [S [F|F]] I; pose proof (seen_zlen l); pose proof (seen_short l); [split; [auto|lia]|]. specialize (F l I). split; [auto|lia].
Qed.
Lemma basic_safe pl f : fits pl f -> exists g, disambiguate_basic pl f = Ok g.
Proof.
  intros F. unfold disambiguate_basic. pose proof (proj1 F) as S. rewrite lines_loop_eq by (exact S || (intros []; reflexivity)).
  destruct (fold_lines_safe pl basic_line (lines (contents f)) S) with (a := tt) as (x & ->).
  - intros l I. apply (fits_line pl f l F I).
  - intros l a _. apply basic_line_total.
  - cbn [bind]. destruct x; [|eauto]. destruct (d_dir f); [destruct (existsb _ _)|]; eauto.
Qed.

(** The disambiguators that copy lines are safe if the lines have at most 80 bytes or if one
    byte after an array can be written. *)
Theorem C33_safe_short_lines : forall pl magic pcre f w, fits pl f -> extension_says (d_ext f) (ambiguous w) ->
  In w ["b"; "basic"; "m"; "st"] -> exists g, ohcount_detect_language pl magic pcre f = Ok g.
Proof.
  intros pl magic pcre f w F E I. pose proof (proj1 F) as S. cbn in I. destruct I as [<-|[<-|[<-|[<-|[]]]]].
  - call "b" F_b. unfold disambiguate_b. destruct (b_total (Datatypes.S (length (contents f))) (contents f)) as (r & ->); [lia|]. cbn [bind].
    destruct r; [eauto|]. apply basic_safe. exact F.
  - call "basic" F_basic. apply basic_safe. exact F.
  - call "m" F_m. unfold disambiguate_m. destruct (match d_dir f with Some _ => _ | None => _ end) as [h c].
    rewrite lines_loop_eq; [|exact S|intros [a1 a2 a3 a4 a5]; unfold m_line; cbn; rewrite !Z.add_0_r, orb_false_r; reflexivity].
    destruct (fold_lines_safe pl (m_line pl) (lines (contents f)) S) with (a := mkScores 0 0 (if h && negb c then 5 else 0) 0 false) as (x & ->).
    + intros l I. apply (fits_line pl f l F I).
    + intros l a I. destruct (m_line_safe pl (seen l) a) as (d & ->); [apply (fits_line pl f l F I)|eauto].
    + cbn [bind]. destruct x; eauto.
  - call "st" F_st. unfold disambiguate_st. fold st_step. rewrite lines_loop_eq; [|exact S|intros [[a b] c]; reflexivity].
    destruct (fold_lines_safe pl st_step (lines (contents f)) S) with (a := (false, false, false) : found) as (x & E1).
    + intros l I. apply (fits_line pl f l F I).
    + intros l a _. unfold st_step. apply st_total. lia.
    + unfold found in *. rewrite E1. cbn [bind]. destruct x; eauto.
Qed.
Print Assumptions C33_safe_short_lines.

(** On a platform that lets one byte after an array be written and one byte before it be read,
    and where the comparison of unrelated pointers ends the loop of disambiguate_aspx, every
    known extension other than in is safe. *)
Theorem C33_safe_tolerant : forall pl magic pcre f v b, 1 <= slack pl -> before_line pl = Some b -> loop_ends pl = true ->
  extension_says (d_ext f) v -> v <> ambiguous "in" -> exists g, ohcount_detect_language pl magic pcre f = Ok g.
Proof.
  intros pl magic pcre f v b S B L E N.
  assert (F : fits pl f) by (split; [lia|auto]).
  destruct (in_dec string_dec v (map ambiguous ["aspx"; "b"; "basic"; "h"; "in"; "m"; "st"])) as [I|I]; [|apply C33_safe with v; auto].
  cbn [map In] in I. destruct I as [<-|[<-|[<-|[<-|[<-|[<-|[<-|[]]]]]]]]; try (apply (C33_safe_short_lines pl magic pcre f _ F E); cbn; tauto).
  - call "aspx" F_aspx. apply aspx_safe; auto.
  - call "h" F_h. unfold disambiguate_h.
    assert (V : vla pl (zlen (d_filename f)) = Ok tt).
    { unfold vla, store. destruct (zlen (d_filename f) <? 0) eqn:Q; [apply Z.ltb_lt in Q; unfold zlen in Q; lia|].
      destruct (zlen (d_filename f) <? zlen (d_filename f) + slack pl) eqn:Q2; [reflexivity|apply Z.ltb_ge in Q2; lia]. }
    assert (R : exists g, (r <- lines_loop pl f (h_line pl) tt ;; match r with inr g => Ok g | inl _ => Ok (Some "c") end) = Ok g).
    { rewrite lines_loop_eq; [|lia|intros []; apply h_line_nil; lia].
      destruct (fold_lines_safe pl (h_line pl) (lines (contents f))) with (a := tt) as (x & ->); [lia| | |].
      + intros l I. apply (fits_line pl f l F I).
      + intros l a I. apply (h_line_safe pl b); [exact B|apply (fits_line pl f l F I)].
      + cbn [bind]. destruct x; eauto. }
    rewrite V. cbn [bind]. destruct (zlist_eqb _ _); cbn [bind]; [|exact R].
    cbv zeta. destruct (match d_dir f with Some _ => _ | None => _ end); [eauto|exact R].
Qed.
Print Assumptions C33_safe_tolerant.

(** Without a known extension: safe if no mode line is in the file and libmagic does not speak
    of a script. *)
Theorem C33_safe_unknown : forall pl magic pcre f, fits pl f -> extension_unknown (d_ext f) ->
  ~ occurs (bytes "-*-") (contents f) -> Forall (fun c => c <> 0) (magic f) ->
  ~ occurs (bytes "script") (map lower (firstn 79 (magic f))) ->
  exists g, ohcount_detect_language pl magic pcre f = Ok g.
Proof.
  intros pl magic pcre f F U N NZ NS. unfold ohcount_detect_language. rewrite detect_eq. unfold first_guess.
  pose proof (proj1 (unknown_iff f) U) as U'. rewrite U', (no_mode pl f (proj1 F) (proj2 F) N). cbn [bind].
  assert (NZ1 : Forall (fun c => c <> 0) (firstn 79 (magic f))).
  { rewrite <- (firstn_skipn 79 (magic f)) in NZ. apply Forall_app in NZ as [NZ _]. exact NZ. }
  assert (P : forall v, is_language v -> exists g, (if is_ambiguous v then match lookup disambiguators (bytes (ambiguous_what v)) with
      | Some F_in => run_in pl magic pcre (length (d_path f)) f | Some d => run pl pcre d f | None => Ok (Some v) end
      else Ok (if is_binary v then None else Some v)) = Ok g).
  { intros v L. destruct (language_plain v L) as [-> ->]. eauto. }
  destruct (lookup filenames (d_filename f)) as [v|] eqn:LF.
  { cbn [bind]. apply P. exact (proj2 (C29_filenames_closed _ _ LF)). }
  assert (M : detect_magic magic f = Ok None \/ detect_magic magic f = Ok (Some "xml")).
  { unfold detect_magic. rewrite (magic_plain _ NZ1 NS). destruct (has _ _); destruct (d_disk f); auto; destruct (d_contents f); auto. }
  destruct M as [-> | -> ]; cbn [bind]; [eauto|]. apply P. apply is_languageb_ok. vm_compute. reflexivity.
Qed.
Print Assumptions C33_safe_unknown.

(** *** What goes wrong *)
(** A first line of 81 bytes or more writes behind the array. *)
Theorem C33_long_line_refuted : forall pl magic pcre f w l ls, slack pl = 0 ->
  extension_says (d_ext f) (ambiguous w) -> In w ["basic"; "m"; "st"] -> lines (contents f) = l :: ls -> 81 <= zlen l ->
  ohcount_detect_language pl magic pcre f = Ub OutOfBounds.
Proof.
  intros pl magic pcre f w l ls S E I EL L.
  assert (FT : forall A (step : list Z -> A -> res (A + option string)) a, fold_lines pl step (l :: ls) a = Ub OutOfBounds).
  { intros A step a. cbn [fold_lines].
    assert (X : fetch pl l = Ub OutOfBounds); [|rewrite X; reflexivity]. unfold fetch, store. rewrite S.
    destruct (zlen l <=? 81) eqn:Q; [apply Z.leb_le in Q; destruct (zlen l <? 81 + 0) eqn:Q2; [apply Z.ltb_lt in Q2; lia|reflexivity]|reflexivity]. }
  cbn in I. destruct I as [<-|[<-|[<-|[]]]].
  - call "basic" F_basic. unfold disambiguate_basic. rewrite lines_loop_eq by (lia || (intros []; reflexivity)). rewrite EL, FT. reflexivity.
  - call "m" F_m. unfold disambiguate_m. destruct (match d_dir f with Some _ => _ | None => _ end) as [h c].
    rewrite lines_loop_eq; [|lia|intros [a1 a2 a3 a4 a5]; unfold m_line; cbn; rewrite !Z.add_0_r, orb_false_r; reflexivity].
    rewrite EL, FT. reflexivity.
  - call "st" F_st. unfold disambiguate_st. fold st_step. rewrite lines_loop_eq; [|lia|intros [[a b] c]; reflexivity].
    rewrite EL. unfold found. rewrite FT. reflexivity.
Qed.
Print Assumptions C33_long_line_refuted.

(** Every .h file writes behind the copy of its name. *)
Theorem C33_header_refuted : forall pl magic pcre f, slack pl = 0 -> d_ext f = bytes "h" ->
  ohcount_detect_language pl magic pcre f = Ub OutOfBounds.
Proof.
  intros pl magic pcre f S E.
  assert (X : extension_says (d_ext f) (ambiguous "h")).
  { apply says_iff. unfold by_extension. rewrite E. vm_compute. reflexivity. }
  rewrite (detect_call _ _ _ "h" F_h) by (discriminate || reflexivity || assumption). unfold run, disambiguate_h.
  rewrite (proj2 (zlist_eqb_eq (d_ext f) (bytes "h")) E). unfold vla, store. rewrite S.
  destruct (zlen (d_filename f) <? 0) eqn:Q; [apply Z.ltb_lt in Q; unfold zlen in Q; lia|].
  destruct (zlen (d_filename f) <? zlen (d_filename f) + 0) eqn:Q2; [apply Z.ltb_lt in Q2; lia|reflexivity].
Qed.
Print Assumptions C33_header_refuted.

(** Even with room behind it, a line that starts with a keyword of lower case letters reads
    the byte before the array. *)
Theorem C33_header_before_refuted : exists f, d_ext f = bytes "h" /\
  forall pl magic pcre, 1 <= slack pl -> before_line pl = None -> ohcount_detect_language pl magic pcre f = Ub OutOfBounds.
Proof.
  exists (ex "x.h" "h" "int x;" []). split; [reflexivity|]. intros [s bl bp le] magic pcre S B. cbn [slack before_line] in S, B. subst bl.
  assert (X : extension_says (d_ext (ex "x.h" "h" "int x;" [])) (ambiguous "h")).
  { apply says_iff. vm_compute. reflexivity. }
  rewrite (detect_call _ _ _ "h" F_h) by (discriminate || reflexivity || assumption). unfold run, disambiguate_h.
  change (zlist_eqb (d_ext (ex "x.h" "h" "int x;" [])) (bytes "h")) with true. cbv iota.
  unfold vla, store. change (zlen (d_filename (ex "x.h" "h" "int x;" []))) with 3. change (3 <? 0) with false. cbn [slack].
  replace (3 <? 3 + s) with true by (symmetry; apply Z.ltb_lt; lia). cbn [bind].
  cbv zeta. match goal with |- context [match d_dir ?x with Some _ => _ | None => _ end] => change (match d_dir x with Some names => existsb (zlist_eqb (firstn (length (d_filename x) - 1) (d_filename x) ++ [109])) names | None => false end) with false end. cbv iota.
  rewrite lines_loop_eq; [|cbn [slack]; lia|intros []; apply h_line_nil; cbn [slack]; lia].
  change (lines (contents (ex "x.h" "h" "int x;" []))) with [bytes "int x;"]. cbn [fold_lines].
  rewrite fetch_safe by (cbn [slack]; first [lia | right; lia]). change (seen (bytes "int x;")) with (bytes "int x;"). cbn [bind].
  reflexivity.
Qed.
Print Assumptions C33_header_before_refuted.

(** Every directive of an .aspx file writes behind its copy. *)
Theorem C33_aspx_refuted : forall pl magic pcre f d, slack pl = 0 -> extension_says (d_ext f) (ambiguous "aspx") ->
  directive (contents f) d -> ohcount_detect_language pl magic pcre f = Ub OutOfBounds.
Proof.
  intros pl magic pcre f d S E D. call "aspx" F_aspx. unfold disambiguate_aspx.
  destruct (contents f) as [|c0 c]; [apply directive_find in D as (? & ? & X & _); discriminate X|].
  apply directive_find in D as (p & pe & S1 & S2 & _). rewrite S1, S2. unfold vla, store. rewrite S. cbv zeta.
  destruct (_ <? 0) eqn:Q; [|].
  - exfalso. apply Z.ltb_lt in Q. revert Q.
    apply strstr_some in S2 as (a & EA & B & _ & _). apply strstr_some in S1 as (a1 & _ & (b1 & B1) & _ & _).
    destruct B as (b & B). assert (EQ : a ++ pe = 60 :: 37 :: 64 :: b1) by (rewrite <- EA; exact B1). clear B1. subst p pe.
    destruct a as [|x1 [|x2 [|x3 a]]]; cbn in EQ; try discriminate EQ.
    cbn [app skipn]. unfold zlen. rewrite app_length. lia.
  - destruct (zlen (skipn 3 p) - zlen pe <? zlen (skipn 3 p) - zlen pe + 0) eqn:Q2; [apply Z.ltb_lt in Q2; lia|reflexivity].
Qed.
Print Assumptions C33_aspx_refuted.

(** Every .in file writes behind the copy of its name. *)
Theorem C33_in_refuted : forall pl magic pcre f stem, slack pl = 0 -> extension_says (d_ext f) (ambiguous "in") ->
  d_path f = stem ++ bytes ".in" -> (forall c, In c stem -> c <> 46 /\ c <> 0) ->
  ohcount_detect_language pl magic pcre f = Ub OutOfBounds.
Proof.
  intros pl magic pcre f stem S E P NS. unfold ohcount_detect_language. rewrite detect_eq, (guess_says pl magic f _ E). cbn [bind].
  change (is_ambiguous (ambiguous "in")) with true. cbv iota.
  change (lookup disambiguators (bytes (ambiguous_what (ambiguous "in")))) with (Some F_in). cbv iota.
  unfold run_in. rewrite P. cbv zeta.
  assert (Z : zlen (stem ++ bytes ".in") - 3 = zlen stem).
  { unfold zlen. rewrite app_length. change (length (bytes ".in")) with 3%nat. lia. }
  rewrite Z.
  assert (BN : before_nul (stem ++ bytes ".in") = stem ++ bytes "." ++ bytes "in").
  { rewrite before_nul_id; [reflexivity|]. apply Forall_app. split; [|no0]. apply Forall_forall. intros c I. apply (NS c I). }
  apply strstr_first in BN as (z & EZ & ->); [|no0|discriminate|].
  2: { cbn [removelast bytes map]. intros (a & b & O). cbn in O. rewrite app_nil_r in O.
       apply (proj1 (NS 46 ltac:(rewrite O; apply in_or_app; right; left; reflexivity)) eq_refl). }
  assert (z = []) as ->.
  { apply app_inv_head in EZ. cbn in EZ. injection EZ as EZ. auto. }
  change (zlen (bytes "." ++ bytes "in" ++ [])) with 3. rewrite Z, Z.leb_refl.
  unfold vla, store. rewrite S. destruct (zlen stem <? 0) eqn:Q; [apply Z.ltb_lt in Q; unfold zlen in Q; lia|].
  destruct (zlen stem <? zlen stem + 0) eqn:Q2; [apply Z.ltb_lt in Q2; lia|reflexivity].
Qed.
Print Assumptions C33_in_refuted.

(** A mode line that names in makes an array of negative length, on every platform. *)
Theorem C33_mode_in_refuted : exists f, forall pl magic pcre, 0 <= slack pl ->
  ohcount_detect_language pl magic pcre f = Ub NegLength.
Proof.
  exists (ex "x" "" "-*- in -*-" []). intros pl magic pcre S. unfold ohcount_detect_language. rewrite detect_eq.
  assert (G : first_guess pl magic (ex "x" "" "-*- in -*-" []) = Ok (Some (ambiguous "in"))).
  { unfold first_guess. change (by_extension (ex "x" "" "-*- in -*-" [])) with (@None string).
    rewrite (mode_found pl (ex "x" "" "-*- in -*-" []) (bytes "-*- in -*-") [] (bytes "in") (ambiguous "in")); [reflexivity|exact S|reflexivity| | | | | |].
    - intros c r X. discriminate X.
    - apply Forall_forall. intros c I. assert (C : forallb (fun c => negb (c =? 0) && negb (is_eol c)) (bytes "-*- in -*-") = true) by reflexivity.
      rewrite forallb_forall in C. apply C in I. apply andb_true_iff in I as [I1 I2]. apply negb_true_iff in I1, I2.
      apply Z.eqb_neq in I1. split; [exact I1|]. apply (false_iff _ _ (is_eol_iff c)). exact I2.
    - vm_compute. discriminate.
    - intros B. apply startsb_iff in B. discriminate B.
    - refine (Mode [] (bytes " ") [] (bytes "in") 32 (bytes "-*-") _ _ _ _ _ _).
      + intros O. apply (has_iff (bytes "-*") "-*-" ltac:(no0) ltac:(discriminate)) in O. discriminate O.
      + repeat constructor.
      + left. split; [reflexivity|]. intros (y & b & X & Y).
        assert (T : starts_nocase (bytes "mode") (bytes "in" ++ 32 :: bytes "-*-") = true) by (apply starts_nocase_iff; exists y, b; auto).
        discriminate T.
      + discriminate.
      + constructor; [|constructor; [|constructor]]; left; right; left; split; discriminate.
      + left. cbn. auto.
    - right. split; [discriminate|]. left. apply names_iff. vm_compute. reflexivity. }
  rewrite G. cbn [bind]. change (is_ambiguous (ambiguous "in")) with true. cbv iota.
  change (lookup disambiguators (bytes (ambiguous_what (ambiguous "in")))) with (Some F_in). cbv iota.
  reflexivity.
Qed.
Print Assumptions C33_mode_in_refuted.

(** A mode line without end is read past the end of the array, on every platform. *)
Theorem C33_open_mode_line_refuted : forall pl magic pcre f name, 0 <= slack pl -> extension_unknown (d_ext f) ->
  contents f = bytes "-*-" ++ name -> Forall Alnum name -> zlen name <= 77 ->
  ohcount_detect_language pl magic pcre f = Ub OutOfBounds.
Proof.
  intros pl magic pcre f name S U EC A L. unfold ohcount_detect_language. rewrite detect_eq. unfold first_guess.
  pose proof (proj1 (unknown_iff f) U) as U'. rewrite U'. unfold emacs_mode.
  assert (HA : forall c, Alnum c -> c <> 0 /\ ~ Newline c /\ is_space c || (c =? 59) || (c =? 45) = false).
  { unfold Alnum, Digit, Lower, Upper, Newline, is_space. intros c C. split; [lia|]. split; [lia|].
    apply orb_false_iff; split; [apply orb_false_iff; split; [apply orb_false_iff; split|]|]; try (apply Z.eqb_neq; lia).
    destruct (9 <=? c) eqn:Q; [|reflexivity]. cbn [andb]. apply Z.leb_gt. apply Z.leb_le in Q. lia. }
  rewrite (mode_array_line pl f (bytes "-*-" ++ name) []); [|exact S|rewrite app_nil_r; exact EC|intros c r X; discriminate X| | |discriminate|].
  - cbn [bind]. set (z := repeat 0 _).
    change (strstr ((bytes "-*-" ++ name) ++ z) (bytes "-*-")) with (Some (bytes "-*-" ++ name ++ z)). cbv iota zeta.
    change (skipn 3 (bytes "-*-" ++ name ++ z)) with (name ++ z).
    set (P := fun c => is_space c || (c =? 59) || (c =? 45) = false).
    assert (F : Forall P (name ++ z)).
    { apply Forall_app. split; [eapply Forall_impl; [|exact A]; intros c C; apply (HA c C)|].
      unfold z. apply Forall_forall. intros c I. apply repeat_spec in I. subst c. reflexivity. }
    assert (SK : forall g p, Forall P p -> Forall P (skip g p)).
    { intros g p Q. rewrite (taken_skip g p) in Q. apply Forall_app in Q. apply Q. }
    assert (SN : forall n p, Forall P p -> Forall P (skipn n p)).
    { intros n p Q. rewrite <- (firstn_skipn n p) in Q. apply Forall_app in Q. apply Q. }
    assert (FN : forall n p, Forall P p -> Forall P (firstn n p)).
    { intros n p Q. rewrite <- (firstn_skipn n p) in Q. apply Forall_app in Q. apply Q. }
    assert (ME : forall p, Forall P p -> mode_end p = Ub OutOfBounds).
    { intros p Q. induction Q as [|c p C Q IH]; [reflexivity|]. cbn [mode_end]. unfold P in C. apply orb_false_iff in C as [C D].
      rewrite C. destruct (startsb "-*-" (c :: p)) eqn:X; [|exact IH]. exfalso. apply startsb_iff in X as (b & X).
      cbn in X. injection X as X _. subst c. discriminate D. }
    rewrite ME; [reflexivity|]. apply FN. destruct (starts_nocase _ _); auto.
  - apply Forall_app. split.
    + change (bytes "-*-") with [45; 42; 45]. unfold Newline. constructor; [lia|]. constructor; [lia|]. constructor; [lia|]. constructor.
    + eapply Forall_impl; [|exact A]. intros c C. destruct (HA c C) as (Q & R & _). auto.
  - unfold zlen in *. rewrite app_length. change (length (bytes "-*-")) with 3%nat. lia.
  - intros B. apply startsb_iff in B. discriminate B.
Qed.
Print Assumptions C33_open_mode_line_refuted.

(** An answer of libmagic that starts with "script" makes the detector read before its array. *)
Theorem C33_magic_refuted : forall pl magic pcre f r, by_magic pl f -> Forall (fun c => c <> 0) (magic f) ->
  map lower (magic f) = bytes "script" ++ r -> ~ begins (bytes " text") r ->
  ohcount_detect_language pl magic pcre f = Ub OutOfBounds.
Proof.
  intros pl magic pcre f r B NZ E N. unfold ohcount_detect_language. rewrite detect_eq, (by_magic_eq pl magic f B).
  assert (EL : map lower (firstn 79 (magic f)) = bytes "script" ++ firstn 73 r).
  { rewrite <- firstn_map, E. reflexivity. }
  unfold magic_parse. rewrite map_to_lower, EL. cbv zeta.
  assert (S1 : startsb "script text" (bytes "script" ++ firstn 73 r) = false).
  { destruct (startsb "script text" _) eqn:S; [|reflexivity]. exfalso. apply startsb_iff in S as (b & S).
    change (bytes "script text" ++ b) with (bytes "script" ++ bytes " text" ++ b) in S. apply app_inv_head in S.
    apply N. exists (b ++ skipn 73 r). rewrite <- (firstn_skipn 73 r) at 1. rewrite S, <- app_assoc. reflexivity. }
  rewrite S1. change (strstr (bytes "script" ++ firstn 73 r) (bytes "script")) with (Some (bytes "script" ++ firstn 73 r)).
  cbv iota. rewrite Z.sub_diag. reflexivity.
Qed.
Print Assumptions C33_magic_refuted.

(** The hypotheses of the theorems on libmagic can be met. *)
Example C31_case_magic : by_magic strict (ex "x" "" "ls" []) /\
  ohcount_detect_language strict (says "a Python script text") no_pcre (ex "x" "" "ls" []) = Ok (Some "python") /\
  ohcount_detect_language strict (says "script for x") no_pcre (ex "x" "" "ls" []) = Ub OutOfBounds.
Proof.
  assert (B : by_magic strict (ex "x" "" "ls" [])).
  { split; [|split; [|split; [|split]]].
    - split; [cbn; lia|]. right. intros l I. cbn in I. destruct I as [<-|[]]. vm_compute. discriminate.
    - apply (unknown_iff (ex "x" "" "ls" [])). vm_compute. reflexivity.
    - intros O. apply (has_iff (bytes "ls") "-*-" ltac:(no0) ltac:(discriminate)) in O. discriminate O.
    - intros k g I E. pose proof (filename_lookup k g I) as L. rewrite <- E in L. vm_compute in L. discriminate L.
    - left. reflexivity. }
  split; [exact B|]. split.
  - assert (I : exists l, In ("python", l) languages /\ l_name l = "python").
    { assert (X : existsb (fun e => (fst e =? "python")%string && (l_name (snd e) =? "python")%string) languages = true) by (vm_compute; reflexivity).
      apply existsb_exists in X as ([k l] & I & X). cbn [fst snd] in X. apply andb_true_iff in X as [X Y].
      apply String.eqb_eq in X, Y. subst k. exists l. auto. }
    destruct I as (l & I & EL). rewrite <- EL.
    apply (C31_magic_script strict (says "a Python script text") no_pcre _ (bytes "a ") (bytes "python") l (bytes " text") "python" B).
    + no0.
    + vm_compute. reflexivity.
    + intros O. apply (has_iff (bytes "a python scrip") "script" ltac:(no0) ltac:(discriminate)) in O. discriminate O.
    + apply Forall_forall. intros c J. apply is_alnum_iff. revert c J. apply forallb_forall. reflexivity.
    + intros a' x E. change (bytes "a ") with ([97] ++ [32]) in E. apply app_inj_tail in E as [_ <-]. split; [|discriminate].
      unfold Alnum, Digit, Lower, Upper. lia.
    + exact I.
    + reflexivity.
  - apply (C33_magic_refuted strict (says "script for x") no_pcre _ (bytes " for x") B).
    + no0.
    + reflexivity.
    + intros X. apply (starts_iff (bytes " text")) in X. discriminate X.
Qed.
Example C33_cases :
  ohcount_detect_language strict no_magic no_pcre (ex "x.h" "h" "int x;" []) = Ub OutOfBounds /\
  ohcount_detect_language usual no_magic no_pcre (ex "x.h" "h" "int x;" []) = Ok (Some "c") /\
  ohcount_detect_language usual no_magic no_pcre (ex "x" "" "-*-c" []) = Ub OutOfBounds /\
  ohcount_detect_language strict no_magic no_pcre (ex "x.aspx" "aspx" "<%@ Page %>" []) = Ub OutOfBounds /\
  ohcount_detect_language strict no_magic no_pcre (ex "x.c.in" "in" "" []) = Ub OutOfBounds /\
  ohcount_detect_language usual no_magic no_pcre (ex "x.c.in" "in" "" []) = Ok (Some "c").
Proof. vm_compute. auto 10. Qed.
