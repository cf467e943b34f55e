(** Property C97: how many blanks there are does not matter. *)
From Coq Require Import ZArith String List Bool Lia.
From Verif Require Import Checked Base ParsedModel RagelSyntax RagelBuild RagelRun ParserTable ScanSpec PropertiesScan.
From Verif Require Import LineSpec LineCheck LineProofs LineCerts PropertiesLines.
From Verif Require Import LexSpec LexCheck LexFacts LexProofs LexBytes LexTable LexCerts LexLines LexHeads LexConcat LexEnds LexSpaces.
From Verif Require Import PropertiesLex PropertiesEnds.
Import ListNotations.
Open Scope string_scope.
Open Scope Z_scope.
Open Scope list_scope.

Local Notation zlen l := (Z.of_nat (length l)).

(** ** Lemmas about lines *)
Lemma lead_first s c e t : first_line s = (c, e, t) -> lead_blank c = true -> lead_blank s = true.
Proof.
  destruct s as [|b r]; [cbn; intros H; injection H as <- <- <-; auto|]. rewrite first_cons. destruct (line_end (b :: r)).
  - destruct (first_line r) as [[a e0] t0]. intros H. injection H as <- <- <-. auto.
  - intros H. injection H as <- <- <-. discriminate.
Qed.
Lemma first_run ws s c e t : forallb blank_byte ws = true -> first_line s = (c, e, t) -> first_line (ws ++ s) = (ws ++ c, e, t).
Proof.
  intros Hw Hf. induction ws as [|b ws IH]; [exact Hf|]. cbn [forallb] in Hw. apply andb_prop in Hw as [Hb Hw]. cbn [app].
  rewrite first_cons. assert (E : line_end (b :: ws ++ s) = O) by (apply blank_two in Hb as [-> | ->]; reflexivity).
  rewrite E, (IH Hw). reflexivity.
Qed.
Lemma first_respaced s s' : respaced s s' -> exists c e t c' t',
  first_line s = (c, e, t) /\ first_line s' = (c', e, t') /\ respaced c c' /\ respaced t t'.
Proof.
  intros H. induction H as [|b s s' Hb Hl H IH|ws ws' s s' N N' B B' H IH].
  - exists [], [], [], [], []. cbn. repeat split; constructor.
  - assert (HB : respaced (b :: s) (b :: s')) by (constructor; auto). pose proof (end_same _ _ HB) as HE. rewrite !first_cons.
    destruct (end_respaced _ _ HB) as [[E1 E2]|(e & E1 & E2 & Ha & _)]; rewrite E1, E2 in *.
    + destruct IH as (c & e & t & c' & t' & F1 & F2 & Hc & Ht). rewrite F1, F2.
      exists (b :: c), e, t, (b :: c'), t'. repeat split; auto. constructor; auto. intros E. specialize (Hl E).
      destruct (lead_blank c) eqn:Ec; auto. rewrite (lead_first _ _ _ _ F1 Ec) in Hl. discriminate.
    + rewrite HE. exists [], (firstn (S e) (b :: s')), (skipn (S e) (b :: s)), [], (skipn (S e) (b :: s')). repeat split; auto. constructor.
  - destruct IH as (c & e & t & c' & t' & F1 & F2 & Hc & Ht). exists (ws ++ c), e, t, (ws' ++ c'), t'.
    repeat split; auto using first_run. constructor; auto.
Qed.

(** Patterns without blanks, but for one or more of them before something else. *)
Definition blank_set (cs : list Z) : bool := among 9 cs && among 32 cs && forallb blank_byte cs.
Fixpoint item_ok (p : list item) : bool :=
  match p with
  | [] => true
  | One cs :: p => apart [9; 32] cs && item_ok p
  | Many cs :: p =>
    (apart [9; 32] cs || blank_set cs && match p with One ds :: _ => apart [9; 32] ds | _ => false end) && item_ok p
  end.
Definition style_ok (st : style) : bool :=
  among 9 (st_lead st) && among 32 (st_lead st)
  && match st_rule st with Opens ps => forallb item_ok ps | Operators cs => apart [9; 32] cs end.

Lemma apart_among cs c : apart [9; 32] cs = true -> blank_byte c = true -> among c cs = false.
Proof. intros H Hc. apply apart_sp in H as [H1 H2]. apply blank_two in Hc as [-> | ->]; auto. Qed.
Lemma blank_among cs c : blank_set cs = true -> among c cs = blank_byte c.
Proof.
  intros H. unfold blank_set in H. dand. destruct (blank_byte c) eqn:E.
  - apply blank_two in E as [-> | ->]; auto.
  - apply not_true_is_false. intros Ha. unfold among in Ha. apply existsb_exists in Ha as (b & Hb & Ha). apply Z.eqb_eq in Ha as <-.
    rewrite forallb_forall in H0. rewrite (H0 _ Hb) in E. discriminate.
Qed.
Lemma starts_one cs p c s : LineSpec.starts (One cs :: p) (c :: s) = among c cs && LineSpec.starts p s.
Proof. reflexivity. Qed.
Lemma starts_many cs p c s : LineSpec.starts (Many cs :: p) (c :: s) = among c cs && (LineSpec.starts p s || LineSpec.starts (Many cs :: p) s).
Proof. reflexivity. Qed.
Lemma many_run cs p : blank_set cs = true -> match p with One ds :: _ => apart [9; 32] ds = true | _ => False end ->
  forall ws, ws <> [] -> forallb blank_byte ws = true -> forall s,
  LineSpec.starts (Many cs :: p) (ws ++ s) = LineSpec.starts p s || LineSpec.starts (Many cs :: p) s.
Proof.
  intros Hc Hp. induction ws as [|b ws IH]; intros N B s; [contradiction|]. cbn [forallb] in B. apply andb_prop in B as [Hb B]. cbn [app].
  rewrite starts_many, (blank_among _ _ Hc), Hb. cbn [andb]. destruct ws as [|d ws]; [reflexivity|]. rewrite IH by (auto; discriminate).
  destruct p as [|[ds|ds] p]; try contradiction. cbn [app]. rewrite starts_one. cbn [forallb] in B. apply andb_prop in B as [Hd _].
  rewrite (apart_among ds d) by auto. reflexivity.
Qed.
Lemma starts_respaced p : item_ok p = true -> forall s s', respaced s s' -> LineSpec.starts p s = true -> LineSpec.starts p s' = true.
Proof.
  induction p as [|[cs|cs] p IH]; intros Hp s s' H Hs; [destruct s'; reflexivity| |]; cbn [item_ok] in Hp; apply andb_prop in Hp as [Hc Hp].
  - destruct H as [|b s s' Hb Hl H|ws ws' s s' N N' B B' H]; [discriminate| |].
    + rewrite starts_one in *. apply andb_prop in Hs as [-> Hs]. rewrite (IH Hp _ _ H Hs). reflexivity.
    + destruct ws as [|b ws]; [contradiction|]. cbn [app forallb] in *. apply andb_prop in B as [B _].
      rewrite starts_one, apart_among in Hs by auto. discriminate.
  - apply orb_prop in Hc as [Hc|Hc].
    + induction H as [|b s s' Hb Hl H IHr|ws ws' s s' N N' B B' H IHr]; [discriminate| |].
      * rewrite starts_many in *. apply andb_prop in Hs as [-> Hs]. cbn [andb]. apply orb_prop in Hs as [Hs|Hs].
        -- rewrite (IH Hp _ _ H Hs). reflexivity.
        -- rewrite (IHr Hs). apply orb_true_r.
      * destruct ws as [|b ws]; [contradiction|]. cbn [app forallb] in *. apply andb_prop in B as [B _].
        rewrite starts_many, apart_among in Hs by auto. discriminate.
    + apply andb_prop in Hc as [Hc Ho].
      assert (Ho' : match p with One ds :: _ => apart [9; 32] ds = true | _ => False end) by (destruct p as [|[]]; auto; discriminate).
      induction H as [|b s s' Hb Hl H IHr|ws ws' s s' N N' B B' H IHr]; [discriminate| |].
      * rewrite starts_many, (blank_among _ _ Hc), Hb in Hs. discriminate.
      * rewrite many_run in * by auto. apply orb_prop in Hs as [Hs|Hs].
        -- rewrite (IH Hp _ _ H Hs). reflexivity.
        -- rewrite (IHr Hs). apply orb_true_r.
Qed.
Lemma starts_same p s s' : item_ok p = true -> respaced s s' -> LineSpec.starts p s = LineSpec.starts p s'.
Proof.
  intros Hp H. destruct (LineSpec.starts p s) eqn:E1; [symmetry; eapply starts_respaced; eauto|].
  destruct (LineSpec.starts p s') eqn:E2; auto. rewrite (starts_respaced p Hp s' s (respaced_sym _ _ H) E2) in E1. discriminate.
Qed.
Lemma strip_run lead ws s : among 9 lead = true -> among 32 lead = true -> forallb blank_byte ws = true -> strip lead (ws ++ s) = strip lead s.
Proof.
  intros H9 H32 Hw. induction ws as [|b ws IH]; auto. cbn [forallb] in Hw. apply andb_prop in Hw as [Hb Hw]. cbn [app strip].
  assert (E : among b lead = true) by (apply blank_two in Hb as [-> | ->]; auto). rewrite E. auto.
Qed.
Lemma strip_respaced lead s s' : among 9 lead = true -> among 32 lead = true -> respaced s s' -> respaced (strip lead s) (strip lead s').
Proof.
  intros H9 H32 H. induction H as [|b s s' Hb Hl H IH|ws ws' s s' N N' B B' H IH]; [constructor| |].
  - cbn [strip]. destruct (among b lead); auto. constructor; auto.
  - rewrite !strip_run by auto. exact IH.
Qed.
Lemma operators_run cs ws : apart [9; 32] cs = true -> forallb blank_byte ws = true -> existsb (fun c => among c cs) ws = false.
Proof.
  intros Hc Hw. induction ws as [|b ws IH]; auto. cbn [forallb existsb] in *. apply andb_prop in Hw as [Hb Hw].
  rewrite apart_among by auto. auto.
Qed.
Lemma text_kind_respaced st s s' : style_ok st = true -> respaced s s' -> text_kind (st_rule st) s = text_kind (st_rule st) s'.
Proof.
  intros Hst H. unfold style_ok in Hst. apply andb_prop in Hst as [_ Hst]. unfold text_kind. destruct (st_rule st) as [ps|cs].
  - rewrite forallb_forall in Hst. rewrite (existsb_ext (fun p => LineSpec.starts p s) (fun p => LineSpec.starts p s')); auto.
    intros p Hp. apply starts_same; auto.
  - assert (E : existsb (fun c => among c cs) s = existsb (fun c => among c cs) s'); [|rewrite E; reflexivity].
    induction H as [|b s s' Hb Hl H IH|ws ws' s s' N N' B B' H IH]; auto.
    + cbn [existsb]. rewrite IH. reflexivity.
    + rewrite !existsb_app, (operators_run cs ws), (operators_run cs ws') by auto. exact IH.
Qed.
Lemma line_kind_respaced st s s' : style_ok st = true -> respaced s s' -> line_kind st s = line_kind st s'.
Proof.
  intros Hst H. assert (Hs := Hst). unfold style_ok in Hs. apply andb_prop in Hs as [Hs _]. apply andb_prop in Hs as [H9 H32]. unfold line_kind.
  rewrite (text_kind_respaced st (strip (st_lead st) s) (strip (st_lead st) s') Hst) by (apply strip_respaced; auto).
  assert (HR : respaced (strip (13 :: st_lead st) s) (strip (13 :: st_lead st) s')) by (apply strip_respaced; auto).
  destruct (strip (13 :: st_lead st) s) as [|b r]; [rewrite (respaced_nil _ HR); reflexivity|].
  destruct (strip (13 :: st_lead st) s') as [|b' r']; [|reflexivity]. apply respaced_sym, respaced_nil in HR. discriminate.
Qed.
Lemma reports_respaced st lang n : style_ok st = true -> forall n' s s' pos pos', respaced s s' -> (length s <= n)%nat -> (length s' <= n')%nat ->
  map shape (file_reports n st lang pos s) = map shape (file_reports n' st lang pos' s').
Proof.
  intros Hst. induction n as [|n IH]; intros n' s s' pos pos' H Hn Hn'.
  - destruct s; [|cbn in Hn; lia]. rewrite (respaced_nil _ H). destruct n'; reflexivity.
  - destruct (first_respaced _ _ H) as (c & e & t & c' & t' & E1 & E2 & Hc & Ht).
    destruct s as [|b r]; [rewrite (respaced_nil _ H); destruct n'; reflexivity|].
    destruct s' as [|b' r']; [apply respaced_sym, respaced_nil in H; discriminate|].
    destruct n' as [|n']; [cbn in Hn'; lia|]. cbn [file_reports]. rewrite E1, E2. rewrite !map_app.
    pose proof (first_shorter _ _ _ _ _ E1) as S1. pose proof (first_shorter _ _ _ _ _ E2) as S2. f_equal.
    + unfold line_reports. rewrite <- (line_kind_respaced st c c') by auto. destruct (line_kind st c); auto. destruct e; auto.
    + apply IH; auto; lia.
Qed.
Lemma respaced_in s s' b : respaced s s' -> blank_byte b = false -> In b s' -> In b s.
Proof.
  induction 1 as [|c s s' Hc Hl H IH|ws ws' s s' N N' B B' H IH]; cbn; intros Hb Hi; auto.
  - destruct Hi; auto.
  - apply in_app_iff. apply in_app_iff in Hi as [Hi|Hi]; auto. rewrite forallb_forall in B'. rewrite (B' _ Hi) in Hb. discriminate.
Qed.
Lemma styles_ok name st : In (name, st) styles -> style_ok st = true.
Proof.
  intros H. assert (C : forallb (fun e => style_ok (snd e)) styles = true) by (vm_compute; reflexivity).
  rewrite forallb_forall in C. exact (C _ H).
Qed.

(** ** C97 *)

(** Two files that differ only in how many spaces and tabs there are where there are some,
    as at the start of a line: the same lines of the same kinds.  (None must follow a
    backslash.) *)
Theorem C97_blanks_do_not_matter :
  forall name x s s' fuel, In (name, x) lexes -> spaced x = true -> respaced s s' -> file s -> file s' ->
  lex_lines x name s <> None -> step_bound s <= Z.of_nat fuel -> step_bound s' <= Z.of_nat fuel ->
  exists l l', ohcount_parse (Some name) s fuel = Some (Ok l) /\ ohcount_parse (Some name) s' fuel = Some (Ok l') /\
    map shape l' = map shape l.
Proof.
  intros name x s s' fuel Hx He Ha Hf Hf' Hl Hb Hb'. destruct (lexes_tidy _ _ Hx) as (H1 & H2 & _ & H9 & H32 & _).
  destruct (lex_lines x name s) as [l|] eqn:El; [|congruence]. unfold lex_lines in El.
  destruct (account_respaced x H1 H2 He H9 H32 name _ _ _ _ _ _ _ _ (Nat.lt_succ_diag_r _) El I 0 0 _ Ha) as (l' & El' & Hm).
  assert (HA : lex_lines x name s' = Some l') by (apply lex_lines_Acc; auto).
  exists l, l'. split; [eapply C49_lexical_structure_decides; eauto|]. split; [eapply C49_lexical_structure_decides; eauto|exact Hm].
Qed.
Print Assumptions C97_blanks_do_not_matter.

Theorem C97_blanks_of_lines :
  forall name st s s' fuel, In (name, st) styles -> respaced s s' -> file s -> file s' -> no_tab s ->
  step_bound s <= Z.of_nat fuel -> step_bound s' <= Z.of_nat fuel ->
  exists l l', ohcount_parse (Some name) s fuel = Some (Ok l) /\ ohcount_parse (Some name) s' fuel = Some (Ok l') /\
    map shape l' = map shape l.
Proof.
  intros name st s s' fuel Hs Ha Hf Hf' Hn Hb Hb'.
  assert (Hn' : no_tab s') by (intros H; apply Hn; apply (respaced_in s s'); auto).
  exists (count_lines st name s), (count_lines st name s'). split; [apply C21_lines_classified; auto|].
  split; [apply C21_lines_classified; auto|]. symmetry. apply reports_respaced; eauto using styles_ok.
Qed.
Print Assumptions C97_blanks_of_lines.

(** A second space hides the end of a comment in BlitzMax (and then three lines are counted
    as six), and the number of spaces in a
    string matters in Lisp, Stratego and Mathematica. *)
Definition doubled (s : list Z) : list Z := flat_map (fun c => if c =? 32 then [32; 32] else [c]) s.
Definition odd_spaces : list (string * list Z) :=
  [("blitzmax", bytes ("rem" ++ nl ++ "end rem" ++ nl ++ "x" ++ nl));
   ("lisp", bytes (dquote ++ " " ++ nl ++ "a" ++ dquote ++ nl));
   ("stratego", bytes ("' '" ++ nl ++ "'" ++ nl));
   ("mathematica", bytes (dquote ++ " " ++ dquote ++ nl ++ dquote ++ nl))].
Lemma doubled_respaced s : ~ In 9 s -> ~ In 92 s -> respaced s (doubled s).
Proof.
  induction s as [|c s IH]; intros H9 H92; [constructor|]. cbn [doubled flat_map].
  assert (IH' : respaced s (doubled s)) by (apply IH; intros F; [apply H9|apply H92]; right; auto).
  destruct (Z.eqb_spec c 32) as [-> |N].
  - apply (rs_run [32] [32; 32]); auto; discriminate.
  - apply rs_byte; auto.
    + destruct (blank_byte c) eqn:E; auto. apply blank_two in E as [-> | ->]; [|congruence]. exfalso. apply H9. left. reflexivity.
    + intros ->. exfalso. apply H92. left. reflexivity.
Qed.
Theorem C97_blanks_refuted : forall name s, In (name, s) odd_spaces ->
  file s /\ file (doubled s) /\ respaced s (doubled s) /\
  exists l l', ohcount_parse (Some name) s 3000 = Some (Ok l) /\ ohcount_parse (Some name) (doubled s) 3000 = Some (Ok l') /\
    map shape l' <> map shape l.
Proof.
  intros name s H. unfold odd_spaces in H. cbn [In] in H.
  repeat destruct H as [H|H]; try contradiction; injection H as <- <-;
    (split; [is_file|]); (split; [is_file|]);
    (split; [apply doubled_respaced; vm_compute; intuition discriminate|]); do 2 eexists;
    (split; [vm_compute; reflexivity|]); (split; [vm_compute; reflexivity|]); vm_compute; discriminate.
Qed.
Print Assumptions C97_blanks_refuted.

(** ** Cases *)
Definition tab : string := String (Ascii.ascii_of_nat 9) "".
Definition ex_flat : list Z := bytes ("/* a" ++ nl ++ " b */ x" ++ nl ++ " y = ' '; // c" ++ nl ++ " " ++ nl).
Definition ex_deep : list Z := bytes ("/*  a" ++ nl ++ tab ++ "b */" ++ tab ++ "x" ++ nl ++ "    y  =   '  '; //" ++ tab ++ "c" ++ nl ++ tab ++ " " ++ nl).
Ltac show_respaced := repeat first
  [ apply rs_nil
  | apply rs_byte; [reflexivity|intros ?; first [discriminate|reflexivity]|]
  | apply (rs_run [32] [32; 32; 32; 32]); [discriminate|discriminate|reflexivity|reflexivity|]
  | apply (rs_run [32] [32; 32; 32]); [discriminate|discriminate|reflexivity|reflexivity|]
  | apply (rs_run [32] [32; 32]); [discriminate|discriminate|reflexivity|reflexivity|]
  | apply (rs_run [32] [9; 32]); [discriminate|discriminate|reflexivity|reflexivity|]
  | apply (rs_run [32] [32]); [discriminate|discriminate|reflexivity|reflexivity|]
  | apply (rs_run [32] [9]); [discriminate|discriminate|reflexivity|reflexivity|] ].
Example C97_case : In ("c", c_like) lexes /\ spaced c_like = true /\ respaced ex_flat ex_deep /\ file ex_flat /\ file ex_deep /\
  option_map (map shape) (lex_lines c_like "c" ex_flat) = Some [("c", "lcomment"); ("c", "lcode"); ("c", "lcode"); ("c", "lblank")] /\
  option_map (map shape) (lex_lines c_like "c" ex_deep) = Some [("c", "lcomment"); ("c", "lcode"); ("c", "lcode"); ("c", "lblank")].
Proof.
  split; [do 3 right; left; reflexivity|]. split; [vm_compute; reflexivity|].
  split. { unfold ex_flat, ex_deep. cbn. show_respaced. }
  split; [is_file|]. split; [is_file|]. split; vm_compute; reflexivity.
Qed.
(** The languages it is about. *)
Example C97_languages_case :
  length (filter (fun e => spaced (snd e)) lexes) = 72%nat /\ length styles = 26%nat /\
  map fst (filter (fun e => negb (spaced (snd e))) lexes) =
    ["chaiscript"; "dylan"; "javascript"; "qml"; "typescript"; "stratego"; "lisp"; "scheme"; "emacslisp"; "racket"; "clojure";
     "blitzmax"; "haskell"; "elm"; "mathematica"; "autoconf"].
Proof. vm_compute. auto. Qed.
Example C97_lines_case : exists st, In ("classic_basic", st) styles /\
  respaced (bytes ("10 rem a" ++ nl ++ "20 x" ++ nl)) (bytes ("10" ++ tab ++ "rem  a" ++ nl ++ "20  x" ++ nl)) /\
  no_tab (bytes ("10 rem a" ++ nl ++ "20 x" ++ nl)) /\
  map shape (count_lines st "classic_basic" (bytes ("10" ++ tab ++ "rem  a" ++ nl ++ "20  x" ++ nl))) =
    [("classic_basic", "lcomment"); ("classic_basic", "lcode")].
Proof.
  destruct (find (fun e => String.eqb (fst e) "classic_basic") styles) as [[n st]|] eqn:E; [|vm_compute in E; discriminate].
  exists st. pose proof (find_some _ _ E) as [Hin Hn]. cbn [fst] in Hn. apply String.eqb_eq in Hn as ->.
  split; auto. split. { cbn.
    do 2 (apply rs_byte; [reflexivity|intros ?; discriminate|]). apply (rs_run [32] [9]); [discriminate|discriminate|reflexivity|reflexivity|].
    do 3 (apply rs_byte; [reflexivity|intros ?; discriminate|]). apply (rs_run [32] [32; 32]); [discriminate|discriminate|reflexivity|reflexivity|].
    do 4 (apply rs_byte; [reflexivity|intros ?; discriminate|]). apply (rs_run [32] [32; 32]); [discriminate|discriminate|reflexivity|reflexivity|].
    do 2 (apply rs_byte; [reflexivity|intros ?; discriminate|]). constructor. }
  split; [vm_compute; intuition discriminate|]. vm_compute in E. injection E as <-. vm_compute. reflexivity.
Qed.
