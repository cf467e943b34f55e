(** Property C96: line ends LF and CR LF are counted alike. *)
From Coq Require Import ZArith String List Bool Lia.
From Verif Require Import Checked Base ParsedModel RagelSyntax RagelBuild RagelRun ParserTable ScanSpec PropertiesScan.
From Verif Require Import LineSpec LineCheck LineProofs LineCerts PropertiesLines.
From Verif Require Import LexSpec LexCheck LexFacts LexProofs LexBytes LexTable LexCerts LexLines LexHeads LexConcat LexEnds PropertiesLex.
Import ListNotations.
Open Scope string_scope.
Open Scope Z_scope.
Open Scope list_scope.

Local Notation zlen l := (Z.of_nat (length l)).

(** ** Lemmas *)
Lemma first_cons c r : first_line (c :: r) =
  match line_end (c :: r) with
  | S k => ([], firstn (S k) (c :: r), skipn (S k) (c :: r))
  | O => let '(a, e, t) := first_line r in (c :: a, e, t)
  end.
Proof. reflexivity. Qed.
Lemma first_alike s s' : alike s s' -> exists c e t e' t',
  first_line s = (c, e, t) /\ first_line s' = (c, e', t') /\ alike t t' /\ (e = [] <-> e' = []).
Proof.
  intros H. induction H as [|c s s' N1 N2 H IH|e e' s s' He He' H IH].
  - exists [], [], [], [], []. cbn. repeat split; auto; constructor.
  - destruct IH as (k & e & t & e' & t' & E1 & E2 & Ha & He). rewrite !first_cons. cbn [line_end].
    apply Z.eqb_neq in N1, N2. rewrite N1, N2. cbn [orb]. destruct (c =? 12).
    + exists [], [c], s, [c], s'. cbn. repeat split; auto; discriminate.
    + rewrite E1, E2. exists (c :: k), e, t, e', t'. auto.
  - exists [], e, s, e', s'. destruct He as [-> | ->], He' as [-> | ->]; cbn; repeat split; auto; discriminate.
Qed.
Lemma first_shorter r : forall c k e t, first_line (c :: r) = (k, e, t) -> (length t < length (c :: r))%nat.
Proof.
  induction r as [|d r IH]; intros c k e t H; rewrite first_cons in H; destruct (line_end _) as [|n] eqn:El.
  - cbn in H. injection H as <- <- <-. cbn. lia.
  - injection H as <- <- <-. cbn [skipn]. rewrite skipn_length. cbn. lia.
  - destruct (first_line (d :: r)) as [[k0 e0] t0] eqn:E. injection H as <- <- <-. specialize (IH _ _ _ _ E). cbn [length] in *. lia.
  - injection H as <- <- <-. cbn [skipn]. rewrite skipn_length. cbn [length]. lia.
Qed.
Lemma alike_empty s s' : alike s s' -> s = [] /\ s' = [] \/ s <> [] /\ s' <> [].
Proof.
  intros H. destruct H as [| |f f' u u' Hf Hf' H]; [left; auto|right; split; discriminate|right].
  destruct Hf as [-> | ->], Hf' as [-> | ->]; split; discriminate.
Qed.
Lemma reports_alike st lang n : forall n' s s' pos pos', alike s s' -> (length s <= n)%nat -> (length s' <= n')%nat ->
  map shape (file_reports n st lang pos s) = map shape (file_reports n' st lang pos' s').
Proof.
  induction n as [|n IH]; intros n' s s' pos pos' H Hn Hn'.
  - destruct (alike_empty _ _ H) as [[-> ->]|[N1 N2]]; [destruct n'; reflexivity|]. destruct s; [contradiction|cbn in Hn; lia].
  - destruct (first_alike _ _ H) as (c & e & t & e' & t' & E1 & E2 & Ha & He).
    destruct (alike_empty _ _ H) as [[-> ->]|[N1 N2]]; [destruct n'; reflexivity|].
    destruct s as [|b r], s' as [|b' r']; try contradiction. destruct n' as [|n']; [cbn in Hn'; lia|].
    cbn [file_reports]. rewrite E1, E2. rewrite !map_app.
    pose proof (first_shorter _ _ _ _ _ E1) as S1. pose proof (first_shorter _ _ _ _ _ E2) as S2. f_equal.
    + unfold line_reports. destruct (line_kind st c); auto. destruct e as [|u e], e' as [|u' e']; auto.
      * destruct He as [He _]. discriminate (He eq_refl).
      * destruct He as [_ He]. discriminate (He eq_refl).
    + apply IH; auto; lia.
Qed.
Lemma alike_in s s' b : alike s s' -> b <> 10 -> b <> 13 -> In b s' -> In b s.
Proof.
  induction 1 as [|c s s' N1 N2 H IH|e e' s s' He He' H IH]; cbn; intros B1 B2 Hb; auto.
  - destruct Hb; auto.
  - apply in_app_iff. apply in_app_iff in Hb as [Hb|Hb]; auto. exfalso.
    destruct He' as [-> | ->]; cbn in Hb; intuition congruence.
Qed.

(** ** C96 *)

(** Two files that differ only in their line ends, LF or CR LF, also mixed: the same
    lines of the same kinds. *)
Theorem C96_line_ends_do_not_matter :
  forall name x s s' fuel, In (name, x) lexes -> eol x = true -> alike s s' -> file s -> file s' ->
  lex_lines x name s <> None -> step_bound s <= Z.of_nat fuel -> step_bound s' <= Z.of_nat fuel ->
  exists l l', ohcount_parse (Some name) s fuel = Some (Ok l) /\ ohcount_parse (Some name) s' fuel = Some (Ok l') /\
    map shape l' = map shape l.
Proof.
  intros name x s s' fuel Hx He Ha Hf Hf' Hl Hb Hb'. destruct (lexes_tidy _ _ Hx) as (H1 & H2 & _).
  destruct (lex_lines x name s) as [l|] eqn:El; [|congruence]. unfold lex_lines in El.
  destruct (account_alike x H1 H2 He name _ _ _ _ _ _ _ El I 0 0 _ Ha) as (l' & El' & Hm).
  assert (HA : lex_lines x name s' = Some l') by (apply lex_lines_Acc; auto; eexists; exact El').
  exists l, l'. split; [eapply C49_lexical_structure_decides; eauto|]. split; [eapply C49_lexical_structure_decides; eauto|exact Hm].
Qed.
Print Assumptions C96_line_ends_do_not_matter.

Theorem C96_line_ends_of_lines :
  forall name st s s' fuel, In (name, st) styles -> alike s s' -> file s -> file s' -> no_tab s ->
  step_bound s <= Z.of_nat fuel -> step_bound s' <= Z.of_nat fuel ->
  exists l l', ohcount_parse (Some name) s fuel = Some (Ok l) /\ ohcount_parse (Some name) s' fuel = Some (Ok l') /\
    map shape l' = map shape l.
Proof.
  intros name st s s' fuel Hs Ha Hf Hf' Hn Hb Hb'.
  assert (Hn' : no_tab s') by (intros H; apply Hn; apply (alike_in s s'); auto; discriminate).
  exists (count_lines st name s), (count_lines st name s'). split; [apply C21_lines_classified; auto|].
  split; [apply C21_lines_classified; auto|]. symmetry. apply reports_alike; auto.
Qed.
Print Assumptions C96_line_ends_of_lines.

(** It does not hold for the parsers of Modelica, Lisp, Stratego, Mathematica and REBOL: a
    string over several lines has other lines with CR LF. *)
Definition odd_strings : list (string * list Z) :=
  [("modelica", bytes (dquote ++ nl ++ nl ++ dquote ++ nl)); ("lisp", bytes (dquote ++ nl ++ nl ++ dquote ++ nl));
   ("stratego", bytes ("'" ++ nl ++ "'" ++ nl)); ("mathematica", bytes (dquote ++ nl ++ dquote ++ nl));
   ("rebol", bytes (dquote ++ nl ++ dquote ++ nl))].
Fixpoint with_cr (s : list Z) : list Z :=
  match s with [] => [] | c :: s => if c =? 10 then 13 :: 10 :: with_cr s else c :: with_cr s end.
Lemma with_cr_alike s : ~ In 13 s -> alike s (with_cr s).
Proof.
  induction s as [|c s IH]; intros H; [constructor|]. cbn [with_cr]. assert (Hs : ~ In 13 s) by (intros F; apply H; right; auto).
  destruct (Z.eqb_spec c 10) as [-> |N].
  - apply (alike_end [10] [13; 10] s (with_cr s)); auto.
  - constructor; auto. intros ->. apply H. left. reflexivity.
Qed.
Theorem C96_line_ends_refuted : forall name s, In (name, s) odd_strings ->
  file s /\ file (with_cr s) /\ alike s (with_cr s) /\
  exists l l', ohcount_parse (Some name) s 3000 = Some (Ok l) /\ ohcount_parse (Some name) (with_cr s) 3000 = Some (Ok l') /\
    map shape l' <> map shape l.
Proof.
  intros name s H. unfold odd_strings in H. cbn [In] in H.
  repeat destruct H as [H|H]; try contradiction; injection H as <- <-;
    (split; [is_file|]); (split; [is_file|]);
    (split; [apply with_cr_alike; vm_compute; intuition discriminate|]); do 2 eexists;
    (split; [vm_compute; reflexivity|]); (split; [vm_compute; reflexivity|]); vm_compute; discriminate.
Qed.
Print Assumptions C96_line_ends_refuted.

(** ** Cases *)
Definition cr : string := String (Ascii.ascii_of_nat 13) "".
Definition ex_lf : list Z := bytes ("/* it's" ++ nl ++ nl ++ "*/ s = 1;" ++ nl ++ "// don't" ++ nl).
Definition ex_crlf : list Z := bytes ("/* it's" ++ cr ++ nl ++ nl ++ "*/ s = 1;" ++ cr ++ nl ++ "// don't" ++ cr ++ nl).
Ltac show_alike := repeat first
  [ apply alike_nil
  | apply alike_byte; [discriminate|discriminate|]
  | apply (alike_end [10] [10]); [left; reflexivity|left; reflexivity|]
  | apply (alike_end [10] [13; 10]); [left; reflexivity|right; reflexivity|] ].
Example C96_case : In ("c", c_like) lexes /\ eol c_like = true /\ alike ex_lf ex_crlf /\ file ex_lf /\ file ex_crlf /\
  option_map (map shape) (lex_lines c_like "c" ex_crlf) = Some [("c", "lcomment"); ("c", "lblank"); ("c", "lcode"); ("c", "lcomment")] /\
  length ex_lf = 28%nat /\ length ex_crlf = 31%nat.
Proof.
  split; [do 3 right; left; reflexivity|]. split; [vm_compute; reflexivity|].
  split. { unfold ex_lf, ex_crlf. cbn. show_alike. }
  split; [is_file|]. split; [is_file|]. vm_compute. auto.
Qed.
(** The languages it is about; the others have the parsers of the refutation. *)
Example C96_languages_case :
  length (filter (fun e => eol (snd e)) lexes) = 80%nat /\ length styles = 26%nat /\
  map fst (filter (fun e => negb (eol (snd e))) lexes) =
    ["stratego"; "lisp"; "scheme"; "emacslisp"; "racket"; "clojure"; "modelica"; "mathematica"].
Proof. vm_compute. auto. Qed.
Example C96_lines_case : exists st, In ("ada", st) styles /\ alike ex_lf ex_crlf /\ no_tab ex_lf /\
  map shape (count_lines st "ada" (bytes ("x -- a" ++ cr ++ nl ++ cr ++ nl ++ "-- b" ++ nl))) = [("ada", "lcode"); ("ada", "lblank"); ("ada", "lcomment")].
Proof.
  destruct (find (fun e => String.eqb (fst e) "ada") styles) as [[n st]|] eqn:E; [|vm_compute in E; discriminate].
  exists st. pose proof (find_some _ _ E) as [Hin Hn]. cbn [fst] in Hn. apply String.eqb_eq in Hn as ->.
  split; auto. split; [apply C96_case|]. split; [vm_compute; intuition discriminate|]. vm_compute in E. injection E as <-. vm_compute. reflexivity.
Qed.
