(** Property C100: indentation does not matter. *)
From Coq Require Import ZArith String List Bool Lia.
From Verif Require Import Checked Base ParsedModel RagelSyntax RagelBuild RagelRun ParserTable ScanSpec PropertiesScan.
From Verif Require Import LineSpec LineCheck LineProofs LineCerts PropertiesLines.
From Verif Require Import LexSpec LexCheck LexFacts LexProofs LexBytes LexTable LexCerts LexLines LexHeads LexConcat LexEnds LexSpaces LexIndent.
From Verif Require Import PropertiesLex PropertiesEnds PropertiesSpaces.
Import ListNotations.
Open Scope string_scope.
Open Scope Z_scope.
Open Scope list_scope.

(** ** Lemmas about lines *)
Lemma first_indented s : forall s', indented s s' -> exists c e t t',
  first_line s = (c, e, t) /\ first_line s' = (c, e, t') /\ led t t'.
Proof.
  induction s as [|b s IH]; intros s' H; destruct (ind_cons _ _ H) as [[E ->]|(c & t & t' & E & -> & G1 & G2 & G3)]; try discriminate.
  - exists [], [], [], []. repeat split; auto. apply indented_led. constructor.
  - injection E as <- <-. rewrite !first_cons. destruct (ind_ends _ _ H) as [[E0 E0']|(e & E1 & E2 & Ha & Hf)].
    + rewrite E0, E0'. assert (N : b <> 10) by (intros ->; discriminate E0).
      destruct (IH _ (G2 N)) as (c & e & u & u' & F1 & F2 & Hl). rewrite F1, F2. exists (b :: c), e, u, u'. auto.
    + rewrite E1, E2, Hf. eauto 8.
Qed.
Lemma line_kind_run st ws c : style_ok st = true -> forallb blank_byte ws = true -> line_kind st (ws ++ c) = line_kind st c.
Proof.
  intros Hst Hw. unfold style_ok in Hst. apply andb_prop in Hst as [Hs _]. apply andb_prop in Hs as [H9 H32].
  unfold line_kind. rewrite !strip_run by auto. reflexivity.
Qed.
Lemma led_nil s' : led [] s' -> forallb blank_byte s' = true.
Proof.
  intros (ws & ws' & t & t' & E & -> & B & B' & H). symmetry in E. apply app_eq_nil in E as [-> ->].
  destruct (ind_cons _ _ H) as [[_ ->]|(? & ? & ? & E & _)]; [rewrite app_nil_r; auto|discriminate].
Qed.
Lemma first_blank s : forallb blank_byte s = true -> first_line s = (s, [], []).
Proof. intros H. pose proof (first_run s [] [] [] [] H eq_refl) as F. rewrite app_nil_r in F. exact F. Qed.
Lemma reports_blank st lang n pos s : style_ok st = true -> forallb blank_byte s = true -> file_reports n st lang pos s = [].
Proof.
  intros Hst H. destruct n as [|n]; [reflexivity|]. destruct s as [|b s]; [reflexivity|]. cbn [file_reports]. rewrite first_blank by auto.
  unfold line_reports. rewrite <- (app_nil_r (b :: s)), line_kind_run by auto. cbn [line_kind strip]. destruct n; reflexivity.
Qed.
Lemma reports_led st lang n : style_ok st = true -> forall n' s s' pos pos', led s s' -> (length s <= n)%nat -> (length s' <= n')%nat ->
  map shape (file_reports n st lang pos s) = map shape (file_reports n' st lang pos' s').
Proof.
  intros Hst. induction n as [|n IH]; intros n' s s' pos pos' H Hn Hn'.
  - destruct s; [|cbn in Hn; lia]. rewrite (reports_blank st lang n' pos' s') by (auto using led_nil). reflexivity.
  - destruct s as [|b r]; [rewrite (reports_blank st lang n' pos' s') by (auto using led_nil); reflexivity|].
    destruct s' as [|b' r']; [rewrite (reports_blank st lang (S n) pos (b :: r)) by (auto using led_nil, led_sym); destruct n'; reflexivity|].
    destruct n' as [|n']; [cbn in Hn'; lia|]. destruct H as (ws & ws' & t & t' & Es & Es' & B & B' & H).
    destruct (first_indented _ _ H) as (c & e & u & u' & F1 & F2 & Hl).
    pose proof (first_run ws _ _ _ _ B F1) as E1. pose proof (first_run ws' _ _ _ _ B' F2) as E2. rewrite <- Es in E1. rewrite <- Es' in E2.
    cbn [file_reports]. rewrite E1, E2, !map_app.
    pose proof (first_shorter _ _ _ _ _ E1) as S1. pose proof (first_shorter _ _ _ _ _ E2) as S2. f_equal.
    + unfold line_reports. rewrite !line_kind_run by auto. destruct (line_kind st c); auto. destruct e; auto.
    + apply IH; auto; lia.
Qed.
Lemma led_in s s' b : led s s' -> blank_byte b = false -> In b s' -> In b s.
Proof.
  assert (Hi : forall t t', indented t t' -> blank_byte b = false -> In b t' -> In b t).
  { induction 1 as [|c t t' N1 N2 H IH|e ws ws' t t' He B B' H IH]; cbn [In]; intros Hb Hi; auto.
    - destruct Hi; auto.
    - rewrite !in_app_iff in *. destruct Hi as [Hi|[Hi|Hi]]; auto. rewrite forallb_forall in B'. rewrite (B' _ Hi) in Hb. discriminate. }
  intros (ws & ws' & t & t' & -> & -> & B & B' & H) Hb Hin. rewrite in_app_iff in *. destruct Hin as [Hin|Hin]; eauto.
  rewrite forallb_forall in B'. rewrite (B' _ Hin) in Hb. discriminate.
Qed.

(** ** C100 *)

(** Two files that differ only in the spaces and tabs at the start of their lines, be it
    within comments and strings: the same lines of the same kinds. *)
Theorem C100_indentation_does_not_matter :
  forall name x s s' fuel, In (name, x) lexes -> indent_ok x = true -> led s s' -> file s -> file s' ->
  lex_lines x name s <> None -> step_bound s <= Z.of_nat fuel -> step_bound s' <= Z.of_nat fuel ->
  exists l l', ohcount_parse (Some name) s fuel = Some (Ok l) /\ ohcount_parse (Some name) s' fuel = Some (Ok l') /\
    map shape l' = map shape l.
Proof.
  intros name x s s' fuel Hx He Ha Hf Hf' Hl Hb Hb'. destruct (lexes_tidy _ _ Hx) as (H1 & H2 & _ & H9 & H32 & _).
  destruct (lex_lines x name s) as [l|] eqn:El; [|congruence]. unfold lex_lines in El.
  destruct (account_led x H1 H2 He H9 H32 name _ _ _ _ _ _ _ _ (Nat.lt_succ_diag_r _) El I 0 0 (fresh true) _ (conj eq_refl eq_refl) Ha) as (l' & El' & Hm).
  assert (HA : lex_lines x name s' = Some l') by (apply lex_lines_Acc; auto).
  exists l, l'. split; [eapply C49_lexical_structure_decides; eauto|]. split; [eapply C49_lexical_structure_decides; eauto|exact Hm].
Qed.
Print Assumptions C100_indentation_does_not_matter.

Theorem C100_indentation_of_lines :
  forall name st s s' fuel, In (name, st) styles -> led s s' -> file s -> file s' -> no_tab s ->
  step_bound s <= Z.of_nat fuel -> step_bound s' <= Z.of_nat fuel ->
  exists l l', ohcount_parse (Some name) s fuel = Some (Ok l) /\ ohcount_parse (Some name) s' fuel = Some (Ok l') /\
    map shape l' = map shape l.
Proof.
  intros name st s s' fuel Hs Ha Hf Hf' Hn Hb Hb'.
  assert (Hn' : no_tab s') by (intros H; apply Hn; apply (led_in s s'); auto).
  exists (count_lines st name s), (count_lines st name s'). split; [apply C21_lines_classified; auto|].
  split; [apply C21_lines_classified; auto|]. symmetry. apply reports_led; eauto using styles_ok.
Qed.
Print Assumptions C100_indentation_of_lines.

(** Every line moved to the right. *)
Definition moved (s : list Z) : list Z := 32 :: flat_map (fun c => if c =? 10 then [10; 32] else [c]) s.
Theorem C100_moved : forall s, ~ In 13 s -> led s (moved s).
Proof.
  intros s H. exists [], [32], s, (flat_map (fun c => if c =? 10 then [10; 32] else [c]) s). repeat split; auto.
  induction s as [|c s IH]; [constructor|]. cbn [flat_map]. assert (IH' := IH (fun F => H (or_intror F))).
  destruct (Z.eqb_spec c 10) as [-> |N]; [apply (in_end [10] [] [32]); auto|]. cbn [app]. constructor; auto. intros ->. apply H. left. reflexivity.
Qed.
Print Assumptions C100_moved.

(** It does not hold for every language: the documentation of Perl starts at the start of a
    line; strings over several lines in Lisp, Mathematica and Stratego are counted by their
    first bytes.  Nor for a comment of C that is not closed. *)
Definition odd_indents : list (string * list Z * list string * list string) :=
  [("perl", bytes ("=a" ++ nl ++ "b" ++ nl), ["lcomment"; "lcomment"], ["lcode"; "lcode"]);
   ("lisp", bytes ("a" ++ dquote ++ nl ++ nl ++ "a" ++ dquote ++ nl), ["lcode"], ["lcode"; "lcode"]);
   ("mathematica", bytes (dquote ++ nl ++ dquote ++ nl), ["lcode"], ["lcode"; "lcode"]);
   ("stratego", bytes ("'" ++ nl ++ "'" ++ nl), ["lcode"], ["lcode"; "lcode"]);
   ("c", bytes ("/*" ++ nl), ["lcode"], ["lcomment"; "lcode"])].
Theorem C100_indentation_refuted : forall name s k k', In (name, s, k, k') odd_indents ->
  file s /\ file (moved s) /\ led s (moved s) /\
  exists l l', ohcount_parse (Some name) s 3000 = Some (Ok l) /\ ohcount_parse (Some name) (moved s) 3000 = Some (Ok l') /\
    map e_entity l = k /\ map e_entity l' = k' /\ k <> k'.
Proof.
  intros name s k k' H. unfold odd_indents in H. cbn [In] in H.
  repeat destruct H as [H|H]; try contradiction; injection H as <- <- <- <-;
    (split; [is_file|]); (split; [is_file|]); (split; [apply C100_moved; vm_compute; intuition discriminate|]); do 2 eexists;
    (split; [vm_compute; reflexivity|]); (split; [vm_compute; reflexivity|]); vm_compute; repeat split; discriminate.
Qed.
Print Assumptions C100_indentation_refuted.

(** ** Cases *)
Definition ex_margin : list Z := bytes ("/* a" ++ nl ++ "b */ x" ++ nl ++ "  y; // c" ++ nl ++ nl ++ "// d").
Example C100_case : In ("c", c_like) lexes /\ indent_ok c_like = true /\ led ex_margin (moved ex_margin) /\ file ex_margin /\ file (moved ex_margin) /\
  moved ex_margin = bytes (" /* a" ++ nl ++ " b */ x" ++ nl ++ "   y; // c" ++ nl ++ " " ++ nl ++ " // d") /\
  option_map (map shape) (lex_lines c_like "c" ex_margin) = Some [("c", "lcomment"); ("c", "lcode"); ("c", "lcode"); ("c", "lblank"); ("c", "lcomment")] /\
  option_map (map shape) (lex_lines c_like "c" (moved ex_margin)) = Some [("c", "lcomment"); ("c", "lcode"); ("c", "lcode"); ("c", "lblank"); ("c", "lcomment")].
Proof.
  split; [do 3 right; left; reflexivity|]. split; [vm_compute; reflexivity|]. split; [apply C100_moved; vm_compute; intuition discriminate|].
  split; [is_file|]. split; [is_file|]. vm_compute. auto.
Qed.
(** The languages it is about. *)
Example C100_languages_case :
  length (filter (fun e => indent_ok (snd e)) lexes) = 70%nat /\ length styles = 26%nat /\
  map fst (filter (fun e => negb (indent_ok (snd e))) lexes) =
    ["chaiscript"; "dylan"; "javascript"; "qml"; "typescript"; "stratego"; "lisp"; "scheme"; "emacslisp"; "racket"; "clojure";
     "blitzmax"; "haskell"; "elm"; "mathematica"; "autoconf"; "bfpp"; "perl"].
Proof. vm_compute. auto. Qed.
Example C100_lines_case : exists st, In ("fortranfixed", st) styles /\ no_tab (bytes ("C a" ++ nl ++ "x" ++ nl)) /\
  map shape (count_lines st "fortranfixed" (bytes ("C a" ++ nl ++ "x" ++ nl))) = [("fortranfixed", "lcomment"); ("fortranfixed", "lcode")] /\
  map shape (count_lines st "fortranfixed" (moved (bytes ("C a" ++ nl ++ "x" ++ nl)))) = [("fortranfixed", "lcomment"); ("fortranfixed", "lcode")].
Proof.
  destruct (find (fun e => String.eqb (fst e) "fortranfixed") styles) as [[n st]|] eqn:E; [|vm_compute in E; discriminate].
  exists st. pose proof (find_some _ _ E) as [Hin Hn]. cbn [fst] in Hn. apply String.eqb_eq in Hn as ->.
  split; auto. split; [vm_compute; intuition discriminate|]. vm_compute in E. injection E as <-. vm_compute. auto.
Qed.
