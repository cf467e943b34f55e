(** Properties C23, C49 to C53: the languages with comments and strings over several
    lines. *)
From Coq Require Import ZArith String List Bool Lia.
From Verif Require Import Checked Base ParsedModel RagelSyntax RagelBuild RagelRun ParserTable ScanSpec PropertiesScan.
From Verif Require Import LineSpec LexSpec LexCheck LexFacts LexProofs LexBytes LexTable LexCerts LexLines LexHeads PropertiesLines.
Import ListNotations.
Open Scope string_scope.
Open Scope Z_scope.
Open Scope list_scope.

Lemma lex_cert name x : In (name, x) lexes -> exists en m tb,
  find_entry name = Some en /\ compile (en_parser en) = Some m /\ value (en_vars en) (m_lang m) = name
  /\ lex_check x (m_lang m) (reps x m) m tb = true.
Proof.
  intros H. destruct (all_checked_in _ _ _ _ lex_certs H) as (tb & C).
  unfold lex_certified in C. cbn [fst snd] in C.
  destruct (find_entry name) as [en|]; [|discriminate]. destruct (compile (en_parser en)) as [m|] eqn:Em; [|discriminate].
  apply andb_prop in C as [C1 C2]. exists en, m, tb.
  split; [auto|]. split; [auto|]. split; [apply String.eqb_eq; auto|auto].
Qed.

Lemma lexes_safe name x : In (name, x) lexes -> find_entry name <> None /\ name <> "rebol".
Proof.
  intros H.
  assert (C : forallb (fun x => found (fst x) && negb (String.eqb (fst x) "rebol")) lexes = true)
    by (vm_compute; reflexivity).
  rewrite forallb_forall in C. specialize (C _ H). cbn [fst] in C. apply andb_prop in C as [C1 C2].
  split; [unfold found in C1; destruct (find_entry name); congruence|].
  apply negb_true_iff in C2. intros ->. discriminate C2.
Qed.

Lemma lexes_tidy name x : In (name, x) lexes ->
  sane x = true /\ tidy x = true /\ simple x = true /\ calm x 9 = true /\ calm x 32 = true /\ calm x 10 = true.
Proof.
  intros H.
  assert (C : forallb (fun e => sane (snd e) && tidy (snd e) && simple (snd e) && calm (snd e) 9 && calm (snd e) 32 && calm (snd e) 10) lexes = true)
    by (vm_compute; reflexivity).
  rewrite forallb_forall in C. specialize (C _ H). cbn [snd] in C. dand. auto 7.
Qed.

(** ** C49 *)

(** For each of the languages of [lexes] and every file that the account of LexSpec.v
    accepts (its comments and strings are closed): the reports are those of the account. *)
Theorem C49_lexical_structure_decides :
  forall name x text l fuel, In (name, x) lexes -> file text -> lex_lines x name text = Some l ->
  step_bound text <= Z.of_nat fuel ->
  ohcount_parse (Some name) text fuel = Some (Ok l).
Proof.
  intros name x text l fuel Hx Hf Hl Hb. destruct (lexes_safe _ _ Hx) as (H1 & H2).
  destruct (lex_cert _ _ Hx) as (en & m & tb & E1 & E2 & E3 & E4).
  destruct (PropertiesScan.run_ok _ _ _ E1 Hf _ Hb) as (r & Hr & Hk).
  unfold lex_lines in Hl. rewrite <- E3 in Hl. rewrite account_rename in Hl.
  change (option_map (map (rename (en_vars en))) (lex_lines x (m_lang m) text) = Some l) in Hl.
  destruct (lex_lines x (m_lang m) text) as [l0|] eqn:El; [|discriminate]. injection Hl as <-.
  pose proof (lex_check_all_null _ _ _ _ _ fuel _ E4 (proj1 Hf) El) as Hn.
  rewrite Hr. unfold ohcount_parse, run_entry in Hr. rewrite E1, E2 in Hr. injection Hr as <-.
  destruct (parse m text fuel) as [es0|u|] eqn:Ep; cbn [bind] in *.
  - do 3 f_equal. eapply lex_check_all; eauto. apply Hf.
  - destruct Hk as [(-> & _)|(_ & Hk)]; contradiction.
  - contradiction.
Qed.
Print Assumptions C49_lexical_structure_decides.

Lemma account_lang n1 n2 x f : forall w L p h s l, account f x n1 w L p h s = Some l ->
  account f x n2 w L p h s = Some (map (fun e => mkEvent n2 (e_entity e) (e_start e) (e_end e)) l).
Proof.
  induction f as [|f IH]; intros w L p h s l H; [discriminate|]. cbn [account] in *. destruct s as [|c s].
  - destruct w as [|[? ? ? ? ? ? [] ? ? ? ? ? ?] ?]; try discriminate; injection H as <-; destruct (kind_now h); reflexivity.
  - destruct (piece_of x w h (c :: s)) as [[n k w'|n k i w']|]; [auto| |discriminate].
    destruct (account f x n1 _ _ _ _ _) as [l0|] eqn:E; [|discriminate]. injection H as <-. rewrite (IH _ _ _ _ _ _ E). reflexivity.
Qed.

(** Languages with the same comments and strings are counted alike. *)
Theorem C49_same_structure_same_counts :
  forall n1 n2 x text l fuel, In (n1, x) lexes -> In (n2, x) lexes -> file text -> lex_lines x n1 text = Some l ->
  step_bound text <= Z.of_nat fuel ->
  exists es1 es2, ohcount_parse (Some n1) text fuel = Some (Ok es1) /\ ohcount_parse (Some n2) text fuel = Some (Ok es2)
    /\ map (fun e => (e_entity e, e_start e, e_end e)) es1 = map (fun e => (e_entity e, e_start e, e_end e)) es2.
Proof.
  intros n1 n2 x text l fuel H1 H2 Hf Hl Hb. exists l.
  assert (E : lex_lines x n2 text = Some (map (fun e => mkEvent n2 (e_entity e) (e_start e) (e_end e)) l)).
  { unfold lex_lines in *. apply (account_lang n1); auto. }
  eexists. split; [eapply C49_lexical_structure_decides; eauto|]. split; [eapply C49_lexical_structure_decides; eauto|].
  rewrite map_map. reflexivity.
Qed.
Print Assumptions C49_same_structure_same_counts.

(** ** C50 *)

(** The reports of an accepted file end at the line ends of the file, one for each, in
    order; there may be one more for what is after the last line end.  Each starts where
    the one before ended, unless it is blank. *)
Theorem C50_one_report_per_line :
  forall name x text l fuel, In (name, x) lexes -> file text -> lex_lines x name text = Some l ->
  step_bound text <= Z.of_nat fuel ->
  exists es tl, ohcount_parse (Some name) text fuel = Some (Ok es) /\
    map e_end es = line_stops 0 text ++ tl /\
    (tl = [] \/ tl = [zlen text] /\ last (line_stops 0 text) 0 < zlen text) /\
    tiled 0 es.
Proof.
  intros name x text l fuel Hx Hf Hl Hb. destruct (lexes_tidy _ _ Hx) as (H1 & H2 & _).
  pose proof Hl as Hl'. unfold lex_lines in Hl'. apply (acc_lines x name H1 H2) in Hl'; auto; try lia; [|exact I].
  destruct Hl' as (H3 & tl & H4 & H5). exists l, tl.
  split; [eapply C49_lexical_structure_decides; eauto|]. split; auto. split; auto.
  destruct H5 as [H5|(H5 & _ & H6)]; auto.
Qed.
Print Assumptions C50_one_report_per_line.

Lemma last_stop k b : b = 10 \/ b = 12 -> forall pos, last (line_stops pos (k ++ [b])) pos = pos + zlen k + 1.
Proof.
  intros Hb. induction k as [|c k IH]; intros pos.
  - cbn. destruct Hb as [-> | ->]; cbn; lia.
  - cbn [app]. rewrite line_stops_cons. specialize (IH (pos + 1)).
    assert (Hne : line_stops (pos + 1) (k ++ [b]) <> []).
    { intros E. rewrite E in IH. cbn [last] in IH. lia. }
    match goal with |- last (?a ++ ?b) _ = _ => assert (last (a ++ b) pos = last b (pos + 1)) as -> end.
    { generalize dependent (line_stops (pos + 1) (k ++ [b])). intros l _ Hne.
      match goal with |- last (?a ++ _) _ = _ => generalize a end. intros a. induction a as [|y a IHa]; [cbn; apply last_indep; auto|].
      cbn [app]. destruct (a ++ l) eqn:E; [destruct a; [contradiction|discriminate]|]. cbn [last]. cbn [last] in IHa. exact IHa. }
    rewrite IH. cbn [length]. lia.
Qed.

(** If the file ends with a line end, as many lines are reported as it has. *)
Theorem C50_whole_lines :
  forall name x text l fuel, In (name, x) lexes -> file text -> whole_lines text -> lex_lines x name text = Some l ->
  step_bound text <= Z.of_nat fuel ->
  exists es, ohcount_parse (Some name) text fuel = Some (Ok es) /\ map e_end es = line_stops 0 text.
Proof.
  intros name x text l fuel Hx Hf Hw Hl Hb.
  destruct (C50_one_report_per_line _ _ _ _ _ Hx Hf Hl Hb) as (es & tl & H1 & H2 & H3 & _). exists es. split; auto.
  rewrite H2. destruct H3 as [-> |[-> H3]]; [apply app_nil_r|]. exfalso. destruct Hw as [-> |(k & b & -> & Hb')].
  - cbn in H3. lia.
  - rewrite (last_stop k b Hb' 0) in H3. rewrite app_length in H3. cbn [length] in H3. lia.
Qed.
Print Assumptions C50_whole_lines.

(** ** C23 *)

(** A file without vertical tab, in which nothing starts that may run over several lines
    ([fits]: no block comment and no string that need not be closed on its line), is
    accepted; all of its lines are reported, once each. *)
Theorem C23_lines_counted_once :
  forall name x text fuel, In (name, x) lexes -> file text -> whole_lines text -> fits x text = true ->
  step_bound text <= Z.of_nat fuel ->
  exists es, ohcount_parse (Some name) text fuel = Some (Ok es) /\ map e_end es = line_stops 0 text.
Proof.
  intros name x text fuel Hx Hf Hw Hfit Hb. destruct (lexes_tidy _ _ Hx) as (H1 & H2 & H3 & _).
  destruct (fits_ok x name H1 H2 H3 (length text) Out text 0 0 (fresh true) (le_n _) Hfit I) as (l & Hl).
  apply lex_lines_Acc in Hl; auto. eapply C50_whole_lines; eauto.
Qed.
Print Assumptions C23_lines_counted_once.

(** ** C51 *)

Lemma comment_lines_blank lang ws : forallb blank_byte ws = true -> forall L p s,
  comment_lines lang L p false (ws ++ s) = comment_lines lang L (p + zlen ws) false s.
Proof.
  induction ws as [|c ws IH]; intros Hw L p s; [cbn; rewrite Z.add_0_r; reflexivity|]. cbn in Hw. apply andb_prop in Hw as [Hc Hw].
  assert (c = 9 \/ c = 32) as Hc' by (unfold blank_byte in Hc; destruct (Z.eqb_spec c 9), (Z.eqb_spec c 32); auto; discriminate).
  cbn [app comment_lines].
  replace ((c =? 10) || (c =? 12)) with false by (destruct Hc' as [-> | ->]; reflexivity).
  replace (c =? 13) with false by (destruct Hc' as [-> | ->]; reflexivity).
  cbn [andb orb]. rewrite Hc. cbn [orb negb]. rewrite (IH Hw). cbn [length]. f_equal. lia.
Qed.

(** A file that starts with a comment of several lines: blanks, the opening [o], a body
    in which the comment is not closed, the closing [c], a line end.  Whatever the body
    is, its lines are comments or blank, and the rest is counted as a file of its own. *)
Theorem C51_block_comment :
  forall name x j g ws o body c rest l fuel,
  In (name, x) lexes -> nth_error (x_regions x) j = Some g -> leads x j g = true -> block_comment g = true ->
  no_ws (g_open g) = true -> forallb blank_byte ws = true -> length o = length (g_open g) -> c <> [] ->
  has (g_open g ++ g_ahead g) (o ++ body ++ c ++ 10 :: rest) = true ->
  clean g body (c ++ 10 :: rest) = true ->
  (exists q, find (fun p => has p (c ++ 10 :: rest)) (g_close g) = Some q /\ length q = length c) ->
  lex_lines x name rest = Some l ->
  let head := ws ++ o ++ body ++ c ++ [10] in
  file (head ++ rest) -> step_bound (head ++ rest) <= Z.of_nat fuel ->
  ohcount_parse (Some name) (head ++ rest) fuel =
    Some (Ok (comment_lines name 0 0 false head ++ map (shift (zlen head)) l)).
Proof.
  intros name x j g ws o body c rest l fuel Hx Hj Hl Hg Hns Hws Ho Hcne Hh Hc Hcl Hr head Hf Hb.
  destruct (lexes_tidy _ _ Hx) as (H1 & H2 & H3 & H9 & H32 & H10).
  assert (Hne : g_open g <> []).
  { intros E. pose proof (sane_region x H1 g (nth_error_In _ _ Hj)) as [Hn _]. rewrite E in Hn. cbn in Hn. congruence. }
  eapply C49_lexical_structure_decides; eauto. apply lex_lines_Acc; auto.
  apply lex_lines_Acc in Hr; auto. apply (Acc_shift _ _ _ _ _ _ _ _ (zlen head)) in Hr. rewrite Z.add_0_l in Hr.
  unfold head at 1. rewrite <- !app_assoc. cbn [app]. apply blanks_ok; auto. intros st. unfold head at 1. rewrite comment_lines_blank by auto.
  eapply block_ok; eauto. unfold head in Hr. rewrite !app_length in Hr. cbn [length] in Hr.
  match goal with |- Acc _ _ _ ?q _ _ _ _ => replace q with (Z.of_nat (length ws + (length o + (length body + (length c + 1))))) by lia end.
  unfold head. rewrite !app_length. exact Hr.
Qed.
Print Assumptions C51_block_comment.

(** ** C52 *)

(** A file that starts with a line comment: its first line is a comment, whatever the
    body is, and the rest is counted as a file of its own. *)
Theorem C52_line_comment :
  forall name x j g ws o body rest l fuel,
  In (name, x) lexes -> nth_error (x_regions x) j = Some g -> leads x j g = true -> line_comment g = true ->
  forallb blank_byte ws = true -> length o = length (g_open g) ->
  has (g_open g ++ g_ahead g) (o ++ body ++ 10 :: rest) = true ->
  clean g body (10 :: rest) = true -> (forall b, In b body -> newline_byte b = false) ->
  lex_lines x name rest = Some l ->
  let head := ws ++ o ++ body ++ [10] in
  file (head ++ rest) -> step_bound (head ++ rest) <= Z.of_nat fuel ->
  ohcount_parse (Some name) (head ++ rest) fuel =
    Some (Ok (mkEvent name "lcomment" 0 (zlen head) :: map (shift (zlen head)) l)).
Proof.
  intros name x j g ws o body rest l fuel Hx Hj Hl Hg Hws Ho Hh Hc Hp Hr head Hf Hb.
  destruct (lexes_tidy _ _ Hx) as (H1 & H2 & H3 & H9 & H32 & H10).
  assert (Hne : g_open g <> []).
  { intros E. pose proof (sane_region x H1 g (nth_error_In _ _ Hj)) as [Hn _]. rewrite E in Hn. cbn in Hn. congruence. }
  eapply C49_lexical_structure_decides; eauto. apply lex_lines_Acc; auto.
  apply lex_lines_Acc in Hr; auto. apply (Acc_shift _ _ _ _ _ _ _ _ (zlen head)) in Hr. rewrite Z.add_0_l in Hr.
  unfold head at 1. rewrite <- !app_assoc. cbn [app]. apply blanks_ok; auto. intros st.
  assert (E : zlen head = 0 + zlen ws + zlen o + zlen body + 1) by (unfold head; rewrite !app_length; cbn [length]; lia).
  rewrite E in *. apply (line_comment_ok x name j g o body rest (map _ l) 0 (0 + zlen ws) false); auto.
  apply Forall_forall. intros b Hin. apply Hp; auto.
Qed.
Print Assumptions C52_line_comment.

(** ** C53 *)

(** A file that starts with a string on one line, with any body (comment marks, for
    instance): the line is code, and the rest is counted as a file of its own. *)
Theorem C53_string_literal :
  forall name x j g ws o body c rest l fuel,
  In (name, x) lexes -> nth_error (x_regions x) j = Some g -> leads x j g = true -> string_literal g = true ->
  forallb blank_byte ws = true -> length o = length (g_open g) ->
  has (g_open g ++ g_ahead g) (o ++ body ++ c ++ 10 :: rest) = true ->
  clean g body (c ++ 10 :: rest) = true -> (forall b, In b body -> newline_byte b = false) ->
  (exists q, find (fun p => has p (c ++ 10 :: rest)) (g_close g) = Some q /\ length q = length c) ->
  lex_lines x name rest = Some l ->
  let head := ws ++ o ++ body ++ c ++ [10] in
  file (head ++ rest) -> step_bound (head ++ rest) <= Z.of_nat fuel ->
  ohcount_parse (Some name) (head ++ rest) fuel =
    Some (Ok (mkEvent name "lcode" 0 (zlen head) :: map (shift (zlen head)) l)).
Proof.
  intros name x j g ws o body c rest l fuel Hx Hj Hl Hg Hws Ho Hh Hc Hp Hcl Hr head Hf Hb.
  destruct (lexes_tidy _ _ Hx) as (H1 & H2 & H3 & H9 & H32 & H10).
  eapply C49_lexical_structure_decides; eauto. apply lex_lines_Acc; auto.
  apply lex_lines_Acc in Hr; auto. apply (Acc_shift _ _ _ _ _ _ _ _ (zlen head)) in Hr. rewrite Z.add_0_l in Hr.
  unfold head at 1. rewrite <- !app_assoc. cbn [app]. apply blanks_ok; auto. intros st.
  assert (E : zlen head = 0 + zlen ws + zlen o + zlen body + zlen c + 1) by (unfold head; rewrite !app_length; cbn [length]; lia).
  rewrite E in *. eapply (string_ok x name j g o body c rest (map _ l) 0 (0 + zlen ws) false); eauto.
  - apply (sane_region x H1 g (nth_error_In _ _ Hj)).
  - apply Forall_forall. intros b Hin. apply Hp; auto.
Qed.
Print Assumptions C53_string_literal.

(** ** C54 *)

(** Expected: no line of a closed comment is code, and the line with its closing is not
    blank.  Not so for four and four languages; *)
Definition dquote : string := String (Ascii.ascii_of_nat 34) "".
Theorem C54_comment_body_refuted :
  Forall (fun e => let '(name, o, c) := e in
      ohcount_parse (Some name) (bytes (o ++ " a" ++ nl ++ "b" ++ nl ++ c ++ nl)) 800 =
        Some (Ok [mkEvent name "lcode" 0 5; mkEvent name "lcode" 5 7; mkEvent name "lcode" 7 10]))
    [("pascal", "(*", "*)"); ("puppet", "/*", "*/"); ("matlab", "%{", "%}"); ("octave", "%{", "%}")].
Proof. repeat constructor; vm_compute; reflexivity. Qed.
Print Assumptions C54_comment_body_refuted.
Theorem C54_comment_closing_refuted :
  Forall (fun e => let '(name, o, c) := e in
      ohcount_parse (Some name) (bytes (o ++ " a" ++ nl ++ c ++ nl)) 800 =
        Some (Ok [mkEvent name "lcomment" 0 4; mkEvent name "lblank" 5 6]))
    [("pascal", "{", "}"); ("sql", "{", "}"); ("forth", "(", ")"); ("smalltalk", dquote, dquote)].
Proof. repeat constructor; vm_compute; reflexivity. Qed.
Print Assumptions C54_comment_closing_refuted.
(** nor is the closing quote of a string always code, nor a name that starts like a
    comment. *)
Theorem C54_strings_and_names_refuted :
  ohcount_parse (Some "shell") (bytes ("a='x" ++ nl ++ "'" ++ nl)) 800 =
    Some (Ok [mkEvent "shell" "lcode" 0 5; mkEvent "shell" "lblank" 6 7])
  /\ ohcount_parse (Some "css") (bytes ("a{b:'x" ++ nl ++ "'" ++ nl)) 800 =
    Some (Ok [mkEvent "css" "lcode" 0 7; mkEvent "css" "lblank" 8 9])
  /\ ohcount_parse (Some "ruby") (bytes ("x =beginning" ++ nl ++ "y = 2" ++ nl ++ "z =ending" ++ nl)) 800 =
    Some (Ok [mkEvent "ruby" "lcode" 0 13; mkEvent "ruby" "lcomment" 13 19; mkEvent "ruby" "lcode" 19 29])
  /\ ohcount_parse (Some "blitzmax") (bytes ("Local remote = 1" ++ nl ++ "x = 2" ++ nl)) 800 =
    Some (Ok [mkEvent "blitzmax" "lcode" 0 17; mkEvent "blitzmax" "lcode" 6 17; mkEvent "blitzmax" "lcode" 17 23]).
Proof. vm_compute. auto. Qed.
Print Assumptions C54_strings_and_names_refuted.

(** ** Cases *)
Ltac is_file := split; [intros c Hc; vm_compute in Hc; intuition lia|vm_compute; discriminate].

Definition ex_c : list Z := bytes
  ("/* a" ++ nl ++ nl ++ " 'b */ x; // c" ++ nl ++ "s = " ++ dquote ++ "/* no */" ++ dquote ++ ";" ++ nl ++ "  // d" ++ nl ++ "t").
Example C49_case : In ("c", c_like) lexes /\ file ex_c /\
  lex_lines c_like "c" ex_c =
    Some [mkEvent "c" "lcomment" 0 5; mkEvent "c" "lblank" 5 6; mkEvent "c" "lcode" 6 21;
          mkEvent "c" "lcode" 21 37; mkEvent "c" "lcomment" 37 44; mkEvent "c" "lcode" 44 45] /\
  ohcount_parse (Some "c") ex_c 2000 =
    Some (Ok [mkEvent "c" "lcomment" 0 5; mkEvent "c" "lblank" 5 6; mkEvent "c" "lcode" 6 21;
          mkEvent "c" "lcode" 21 37; mkEvent "c" "lcomment" 37 44; mkEvent "c" "lcode" 44 45]).
Proof. split; [do 3 right; left; reflexivity|]. split; [is_file|]. vm_compute. auto. Qed.

Definition ex_ocaml : list Z := bytes ("(* a (* b" ++ nl ++ "*) c *) let x = 1" ++ nl ++ "(* d *)" ++ nl).
Definition ocaml_like : lexis := lex [nested "(*" "*)" []; str q2].
Example C49_nested_case : In ("ocaml", ocaml_like) lexes /\ file ex_ocaml /\
  lex_lines ocaml_like "ocaml" ex_ocaml =
    Some [mkEvent "ocaml" "lcomment" 0 10; mkEvent "ocaml" "lcode" 10 28; mkEvent "ocaml" "lcomment" 28 36] /\
  length lexes = 88%nat.
Proof. split; [do 68 right; left; reflexivity|]. split; [is_file|]. vm_compute. auto. Qed.

(** Documentation in Perl is not in the account; an equals sign elsewhere is passed over.
    In Vim script a quote starts a comment or a string, after code. *)
Definition perl_like : lexis :=
  with_head [wd "="] (with_words [(wd "=", 1%nat, Blank)] (lex [line "#"; str_q' q1; str_q' q2; str_q' "`"; str "/"])).
Definition ex_perl : list Z := bytes ("$x =~ /#/;" ++ nl ++ "# a" ++ nl ++ "print 'b" ++ nl ++ "';" ++ nl).
Example C49_perl_case : In ("perl", perl_like) lexes /\ file ex_perl /\
  lex_lines perl_like "perl" ex_perl =
    Some [mkEvent "perl" "lcode" 0 11; mkEvent "perl" "lcomment" 11 15; mkEvent "perl" "lcode" 15 24; mkEvent "perl" "lcode" 24 27] /\
  lex_lines perl_like "perl" (bytes ("$x" ++ nl ++ "=head" ++ nl)) = None.
Proof. split; [do 86 right; left; reflexivity|]. split; [is_file|]. vm_compute. auto. Qed.
Definition vim_like : lexis :=
  lex [only false (line q2); only true (mkRegion (wd q2) [] [wd q2] Code Code Code Deny [] true None false false None);
       mkRegion (wd q1) [] [wd q1] Code Code Code Deny [] true None false false None].
Definition ex_vim : list Z := bytes
  ("let x = " ++ dquote ++ "a" ++ dquote ++ " | let y = 'b'" ++ nl ++ "  " ++ dquote ++ " let" ++ nl ++ nl).
Example C49_vim_case : In ("vim", vim_like) lexes /\ file ex_vim /\
  lex_lines vim_like "vim" ex_vim =
    Some [mkEvent "vim" "lcode" 0 26; mkEvent "vim" "lcomment" 26 34; mkEvent "vim" "lblank" 34 35] /\
  lex_lines vim_like "vim" (bytes ("let x = 1 " ++ dquote ++ " a" ++ nl)) = None.
Proof. split; [do 87 right; left; reflexivity|]. split; [is_file|]. vm_compute. auto. Qed.

Example C50_case : line_stops 0 ex_c = [5; 6; 21; 37; 44] /\ zlen ex_c = 45 /\ whole_lines ex_ocaml
  /\ line_stops 0 ex_ocaml = [10; 28; 36].
Proof. split; [reflexivity|]. split; [reflexivity|]. split; [|reflexivity]. right. eexists (removelast ex_ocaml), 10. split; [reflexivity|auto]. Qed.

Definition ex_java : list Z := bytes ("// a" ++ nl ++ "s = '//' + " ++ dquote ++ "/" ++ dquote ++ ";" ++ nl ++ "it's" ++ nl).
Example C23_case : In ("java", java_like) lexes /\ file ex_java /\ whole_lines ex_java /\ fits java_like ex_java = true
  /\ ohcount_parse (Some "java") ex_java 2000 =
     Some (Ok [mkEvent "java" "lcomment" 0 5; mkEvent "java" "lcode" 5 21; mkEvent "java" "lcode" 21 26]).
Proof.
  split; [do 29 right; left; reflexivity|]. split; [is_file|]. split; [|vm_compute; auto].
  right. eexists (removelast ex_java), 10. split; [reflexivity|auto].
Qed.

(** The header of a C file, with code, quotes and other comment marks in it. *)
Definition ex_body : list Z := bytes (" if (x) it's //" ++ nl ++ "  " ++ nl ++ "/* y ").
Example C51_case : nth_error (x_regions c_like) 1 = Some (block "/*" "*/") /\ leads c_like 1 (block "/*" "*/") = true
  /\ block_comment (block "/*" "*/") = true /\ no_ws (g_open (block "/*" "*/")) = true
  /\ clean (block "/*" "*/") ex_body (bytes ("*/" ++ nl ++ "z")) = true
  /\ lex_lines c_like "c" (bytes "z") = Some [mkEvent "c" "lcode" 0 1]
  /\ ohcount_parse (Some "c") (bytes "  " ++ bytes "/*" ++ ex_body ++ bytes ("*/" ++ nl ++ "z")) 2000 =
       Some (Ok [mkEvent "c" "lcomment" 0 20; mkEvent "c" "lblank" 20 23; mkEvent "c" "lcomment" 23 31; mkEvent "c" "lcode" 31 32]).
Proof. vm_compute. auto 7. Qed.
Example C52_case : nth_error (x_regions (lex [line "#"; str_q q1; str_q q2])) 0 = Some (line "#")
  /\ In ("shell", lex [line "#"; str_q q1; str_q q2]) lexes
  /\ leads (lex [line "#"; str_q q1; str_q q2]) 0 (line "#") = true /\ line_comment (line "#") = true
  /\ clean (line "#") (bytes " it's") (bytes (nl ++ "z")) = true
  /\ ohcount_parse (Some "shell") (bytes (" # it's" ++ nl ++ "z")) 800 =
       Some (Ok [mkEvent "shell" "lcomment" 0 8; mkEvent "shell" "lcode" 8 9]).
Proof. split; [reflexivity|]. split; [do 48 right; left; reflexivity|]. vm_compute. auto. Qed.
Example C53_case : nth_error (x_regions java_like) 3 = Some (str q2) /\ leads java_like 3 (str q2) = true
  /\ string_literal (str q2) = true /\ clean (str q2) (bytes "/* // ") (bytes (dquote ++ nl ++ "z")) = true
  /\ ohcount_parse (Some "java") (bytes (dquote ++ "/* // " ++ dquote ++ nl ++ "z")) 800 =
       Some (Ok [mkEvent "java" "lcode" 0 9; mkEvent "java" "lcode" 9 10]).
Proof. vm_compute. auto. Qed.
