(** Property C95: the counts of a file are those of its parts. *)
From Coq Require Import ZArith String List Bool Lia Permutation.
From Verif Require Import Checked Base ParsedModel RagelSyntax RagelBuild RagelRun ParserTable ScanSpec PropertiesScan.
From Verif Require Import LineSpec LineCheck LineProofs LineCerts PropertiesLines.
From Verif Require Import LexSpec LexCheck LexFacts LexProofs LexBytes LexTable LexCerts LexLines LexHeads LexConcat PropertiesLex.
Import ListNotations.
Open Scope string_scope.
Open Scope Z_scope.
Open Scope list_scope.

Local Notation zlen l := (Z.of_nat (length l)).

(** ** Lemmas *)
Lemma settled_account x lang f : forall w L p h s, settled f x w h s = true -> exists l, account f x lang w L p h s = Some l.
Proof.
  induction f as [|f IH]; intros w L p h s H; [discriminate|]. cbn [settled account] in *. destruct s as [|c s].
  - destruct w; [eauto|discriminate].
  - apply andb_prop in H as [_ H]. destruct (piece_of x w h (c :: s)) as [[n k w'|n k i w']|]; [| |discriminate].
    + apply (IH _ L (p + Z.of_nat n) _ _ H).
    + destruct (IH _ (p + Z.of_nat n) (p + Z.of_nat n) _ _ H) as (l & ->). eauto.
Qed.

Lemma file_parts a b : file (a ++ b) -> file a /\ file b.
Proof.
  intros [H1 H2]. rewrite app_length in H2. split; split; try lia; intros c Hc; apply H1; apply in_app_iff; auto.
Qed.
Lemma bound_parts a b : step_bound a <= step_bound (a ++ b) /\ step_bound b <= step_bound (a ++ b).
Proof. unfold step_bound. rewrite app_length. nia. Qed.

Lemma reports_shift st lang d n : forall pos l,
  file_reports n st lang (pos + d) l = map (shift d) (file_reports n st lang pos l).
Proof.
  induction n as [|n IH]; intros pos l; [reflexivity|]. cbn [file_reports]. destruct l as [|c l]; [reflexivity|].
  destruct (first_line (c :: l)) as [[k e] t]. rewrite map_app. f_equal.
  - unfold line_reports. destruct (line_kind st k); try (destruct e; [reflexivity|]); cbn [map]; unfold shift; cbn [e_lang e_entity e_start e_end]; f_equal; f_equal; lia.
  - rewrite <- IH. f_equal. lia.
Qed.

(** ** C95 *)

(** A file is put together from two files.  The first ends with a line feed, outside of
    comments and strings, and has no opening that was passed over for want of an end.
    Then the reports are those of the first and, moved, those of the second. *)
Theorem C95_counts_add_up :
  forall name x a b fuel, In (name, x) lexes -> lone x = true -> file (a ++ b) ->
  ended a -> settled_text x a = true -> lex_lines x name b <> None ->
  step_bound (a ++ b) <= Z.of_nat fuel ->
  exists la lb,
    ohcount_parse (Some name) a fuel = Some (Ok la) /\ ohcount_parse (Some name) b fuel = Some (Ok lb) /\
    ohcount_parse (Some name) (a ++ b) fuel = Some (Ok (la ++ map (shift (zlen a)) lb)).
Proof.
  intros name x a b fuel Hx Hl Hf Ha Hst Hb Hfu. destruct (lexes_tidy _ _ Hx) as (H1 & H2 & _).
  destruct (settled_account x name _ _ 0 0 _ _ Hst) as (la & Hla).
  destruct (lex_lines x name b) as [lb|] eqn:Elb; [|congruence]. destruct (file_parts _ _ Hf) as [Fa Fb].
  destruct (bound_parts a b) as [Ba Bb]. exists la, lb.
  split; [eapply C49_lexical_structure_decides; eauto; lia|]. split; [eapply C49_lexical_structure_decides; eauto; lia|].
  eapply C49_lexical_structure_decides; eauto. apply lex_lines_Acc; auto.
  eapply concat_ok; eauto; [exact I|]. apply lex_lines_Acc in Elb; auto. apply (Acc_shift _ _ _ _ _ _ _ _ (zlen a)) in Elb. exact Elb.
Qed.
Print Assumptions C95_counts_add_up.

(** Two such texts in either order have the same lines of code, comment and blank lines. *)
Theorem C95_order_of_parts :
  forall name x a b fuel, In (name, x) lexes -> lone x = true -> file (a ++ b) ->
  ended a -> ended b -> settled_text x a = true -> settled_text x b = true ->
  step_bound (a ++ b) <= Z.of_nat fuel ->
  exists l l', ohcount_parse (Some name) (a ++ b) fuel = Some (Ok l) /\ ohcount_parse (Some name) (b ++ a) fuel = Some (Ok l') /\
    Permutation (map (fun e => (e_lang e, e_entity e, e_end e - e_start e)) l)
                (map (fun e => (e_lang e, e_entity e, e_end e - e_start e)) l').
Proof.
  intros name x a b fuel Hx Hl Hf Ha Hb Sa Sb Hfu.
  assert (Hs : forall s, settled_text x s = true -> lex_lines x name s <> None).
  { intros s Hs E. destruct (settled_account x name _ _ 0 0 _ _ Hs) as (l & Hl'). unfold lex_lines in E. congruence. }
  destruct (C95_counts_add_up _ _ a b fuel Hx Hl Hf Ha Sa (Hs _ Sb) Hfu) as (la & lb & A1 & B1 & E1).
  assert (Hf' : file (b ++ a)).
  { destruct (file_parts _ _ Hf) as [[F1 _] [F2 _]]. destruct Hf as [_ F3]. split.
    - intros c Hc. apply in_app_iff in Hc as [Hc|Hc]; auto.
    - rewrite app_length in *. lia. }
  assert (Hfu' : step_bound (b ++ a) <= Z.of_nat fuel) by (unfold step_bound in *; rewrite app_length in *; rewrite (Nat.add_comm (length b)); exact Hfu).
  destruct (C95_counts_add_up _ _ b a fuel Hx Hl Hf' Hb Sb (Hs _ Sa) Hfu') as (lb' & la' & B2 & A2 & E2).
  rewrite A1 in A2. rewrite B1 in B2. injection A2 as <-. injection B2 as <-.
  eexists. eexists. split; [exact E1|]. split; [exact E2|]. rewrite !map_app, !map_map.
  assert (Hm : forall d l, map (fun e => (e_lang (shift d e), e_entity (shift d e), e_end (shift d e) - e_start (shift d e))) l
                           = map (fun e => (e_lang e, e_entity e, e_end e - e_start e)) l).
  { intros d l. apply map_ext. intros e. unfold shift. cbn [e_lang e_entity e_start e_end]. f_equal. lia. }
  rewrite !Hm. apply Permutation_app_comm.
Qed.
Print Assumptions C95_order_of_parts.

(** Empty lines put between the parts are blank lines, and nothing else changes. *)
Fixpoint blank_lines (lang : string) (pos : Z) (k : nat) : list event :=
  match k with O => [] | S k => mkEvent lang "lblank" pos (pos + 1) :: blank_lines lang (pos + 1) k end.
Lemma blank_lines_ok x name k b : sane x = true -> tidy x = true -> calm x 10 = true -> forall p l,
  Acc x name Out (p + Z.of_nat k) (p + Z.of_nat k) (fresh true) b l ->
  Acc x name Out p p (fresh true) (repeat 10 k ++ b) (blank_lines name p k ++ l).
Proof.
  intros Hs Ht Hc. induction k as [|k IH]; intros p l H.
  - cbn [repeat app blank_lines] in *. cbn in H. rewrite Z.add_0_r in H. exact H.
  - cbn [repeat app blank_lines]. apply (newline_ok x name Hc _ p p (fresh true)). apply IH.
    replace (p + 1 + Z.of_nat k) with (p + Z.of_nat (S k)) by lia. exact H.
Qed.
Theorem C95_empty_lines :
  forall name x a b k fuel, In (name, x) lexes -> lone x = true -> file (a ++ repeat 10 k ++ b) ->
  ended a -> settled_text x a = true -> lex_lines x name b <> None ->
  step_bound (a ++ repeat 10 k ++ b) <= Z.of_nat fuel ->
  exists la lb,
    ohcount_parse (Some name) (a ++ b) fuel = Some (Ok (la ++ map (shift (zlen a)) lb)) /\
    ohcount_parse (Some name) (a ++ repeat 10 k ++ b) fuel =
      Some (Ok (la ++ blank_lines name (zlen a) k ++ map (shift (zlen a + Z.of_nat k)) lb)).
Proof.
  intros name x a b k fuel Hx Hl Hf Ha Hst Hb Hfu. destruct (lexes_tidy _ _ Hx) as (H1 & H2 & _ & _ & _ & H10).
  destruct (settled_account x name _ _ 0 0 _ _ Hst) as (la & Hla).
  destruct (lex_lines x name b) as [lb|] eqn:Elb; [|congruence]. apply lex_lines_Acc in Elb; auto. exists la, lb. split.
  - assert (Hf' : file (a ++ b)).
    { destruct Hf as [F1 F2]. rewrite !app_length in F2. split; [|rewrite app_length; lia].
      intros c Hc. apply F1. rewrite !in_app_iff in *. tauto. }
    assert (Hfu' : step_bound (a ++ b) <= Z.of_nat fuel) by (unfold step_bound in *; rewrite !app_length in *; nia).
    eapply C49_lexical_structure_decides; eauto. apply lex_lines_Acc; auto.
    eapply concat_ok; eauto; [exact I|]. apply (Acc_shift _ _ _ _ _ _ _ _ (zlen a)) in Elb. exact Elb.
  - eapply C49_lexical_structure_decides; eauto. apply lex_lines_Acc; auto.
    eapply concat_ok; eauto; [exact I|]. apply blank_lines_ok; auto.
    apply (Acc_shift _ _ _ _ _ _ _ _ (zlen a + Z.of_nat k)) in Elb. exact Elb.
Qed.
Print Assumptions C95_empty_lines.

(** The same for the languages that are counted line by line, without condition. *)
Theorem C95_lines_add_up :
  forall name st a b fuel, In (name, st) styles -> file (a ++ b) -> no_tab (a ++ b) -> whole_lines a ->
  step_bound (a ++ b) <= Z.of_nat fuel ->
  exists la lb,
    ohcount_parse (Some name) a fuel = Some (Ok la) /\ ohcount_parse (Some name) b fuel = Some (Ok lb) /\
    ohcount_parse (Some name) (a ++ b) fuel = Some (Ok (la ++ map (shift (zlen a)) lb)).
Proof.
  intros name st a b fuel Hs Hf Ht Hw Hfu. destruct (file_parts _ _ Hf) as [Fa Fb]. destruct (bound_parts a b) as [Ba Bb].
  assert (Ta : no_tab a) by (intros H; apply Ht, in_app_iff; auto). assert (Tb : no_tab b) by (intros H; apply Ht, in_app_iff; auto).
  exists (count_lines st name a), (count_lines st name b).
  split; [apply C21_lines_classified; auto; lia|]. split; [apply C21_lines_classified; auto; lia|].
  rewrite (C21_lines_classified _ _ _ _ Hs Hf Ht Hfu). do 2 f_equal. unfold count_lines. rewrite <- reports_shift.
  exact (F_prefix st name b (length a) a 0 (le_n _) Hw).
Qed.
Print Assumptions C95_lines_add_up.

(** It does not hold for every file: an apostrophe that is passed over in the first part
    may be closed in the second; the comment line there is then lost, one report covers both lines. *)
Theorem C95_apostrophe_refuted :
  exists a b la lb l, file (a ++ b) /\ ended a /\
    ohcount_parse (Some "c") a 2000 = Some (Ok la) /\ ohcount_parse (Some "c") b 2000 = Some (Ok lb) /\
    ohcount_parse (Some "c") (a ++ b) 2000 = Some (Ok l) /\
    map e_entity la = ["lcode"] /\ map e_entity lb = ["lcomment"] /\ l = [mkEvent "c" "lcode" 0 7].
Proof.
  exists (bytes ("x'" ++ nl)), (bytes ("//'" ++ nl)). do 3 eexists. split; [is_file|].
  split; [exists (bytes "x'"); reflexivity|]. split; [vm_compute; reflexivity|]. split; [vm_compute; reflexivity|].
  split; [vm_compute; reflexivity|]. vm_compute. auto.
Qed.
Print Assumptions C95_apostrophe_refuted.

(** ** Cases *)
Definition ex_first : list Z := bytes
  ("/* it's" ++ nl ++ nl ++ "*/ s = " ++ dquote ++ "/*" ++ dquote ++ ";" ++ nl ++ "// don't" ++ nl).
Definition ex_second : list Z := bytes ("  x = 'a';" ++ nl ++ " // b" ++ nl ++ "y").
Example C95_case : In ("c", c_like) lexes /\ lone c_like = true /\ file (ex_first ++ ex_second) /\ ended ex_first /\
  settled_text c_like ex_first = true /\ lex_lines c_like "c" ex_second <> None /\ zlen ex_first = 31 /\
  option_map (map (shift 31)) (lex_lines c_like "c" ex_second) =
    Some [mkEvent "c" "lcode" 31 42; mkEvent "c" "lcomment" 42 48; mkEvent "c" "lcode" 48 49] /\
  settled_text c_like (bytes ("s = 1;" ++ nl)) = true /\ blank_lines "c" 31 2 = [mkEvent "c" "lblank" 31 32; mkEvent "c" "lblank" 32 33] /\
  settled_text c_like (bytes ("x'" ++ nl)) = false /\ settled_text c_like (bytes ("// \" ++ nl)) = false.
Proof.
  split; [do 3 right; left; reflexivity|]. split; [vm_compute; reflexivity|]. split; [is_file|].
  split; [exists (removelast ex_first); vm_compute; reflexivity|]. vm_compute. repeat split; congruence.
Qed.
(** The languages it is about. *)
Example C95_languages_case :
  length (filter (fun e => lone (snd e)) lexes) = 81%nat /\ length styles = 26%nat /\
  map fst (filter (fun e => negb (lone (snd e))) lexes) =
    ["stratego"; "lisp"; "scheme"; "emacslisp"; "racket"; "clojure"; "mathematica"].
Proof. vm_compute. auto. Qed.
Example C95_lines_case : exists st, In ("ada", st) styles /\ whole_lines (bytes ("x -- a" ++ nl)) /\
  count_lines st "ada" (bytes ("x -- a" ++ nl ++ "-- b" ++ nl)) = [mkEvent "ada" "lcode" 0 7; mkEvent "ada" "lcomment" 7 12].
Proof.
  destruct (find (fun e => String.eqb (fst e) "ada") styles) as [[n st]|] eqn:E; [|vm_compute in E; discriminate].
  exists st. pose proof (find_some _ _ E) as [Hin Hn]. cbn [fst] in Hn. apply String.eqb_eq in Hn as ->.
  split; auto. split; [right; exists (bytes "x -- a"), 10; auto|]. vm_compute in E. injection E as <-. vm_compute. reflexivity.
Qed.
