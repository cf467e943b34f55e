(** Property C99: a line feed at the end of the file does not matter. *)
From Coq Require Import ZArith String List Bool Lia.
From Verif Require Import Checked Base ParsedModel RagelSyntax RagelBuild RagelRun ParserTable ScanSpec PropertiesScan.
From Verif Require Import LineSpec LineCheck LineProofs LineCerts PropertiesLines.
From Verif Require Import LexSpec LexCheck LexFacts LexProofs LexBytes LexTable LexCerts LexLines LexHeads LexConcat LexEnds LexFinal.
From Verif Require Import PropertiesLex PropertiesEnds.
Import ListNotations.
Open Scope string_scope.
Open Scope Z_scope.
Open Scope list_scope.

Local Notation zlen l := (Z.of_nat (length l)).

(** ** Lemmas about lines *)
Lemma first_final s : open_end s -> exists c e t, first_line s = (c, e, t) /\
  (e = [] /\ t = [] /\ c = s /\ first_line (s ++ [10]) = (c, [10], []) \/
   e <> [] /\ open_end t /\ first_line (s ++ [10]) = (c, e, t ++ [10])).
Proof.
  induction s as [|b s IH]; intros Hs; [destruct (open_cons _ Hs) as (? & ? & ?); discriminate|].
  pose proof (line_end_final _ Hs) as HE. cbn [app] in *. rewrite !first_cons, HE. destruct (line_end (b :: s)) as [|e] eqn:El.
  - destruct (open_tail _ _ Hs) as [(-> & _)|Hr].
    + exists [b], [], []. cbn. split; auto.
    + destruct (IH Hr) as (c & e & t & E & [(-> & -> & -> & E')|(He & Ht & E')]); rewrite E, E'.
      * exists (b :: s), [], []. split; auto.
      * exists (b :: c), e, t. split; auto.
  - pose proof (line_end_le (b :: s)) as Hle. rewrite El in Hle.
    assert (HL : piece_lines (b :: s) (Ends (S e) Blank false Out)) by (apply end_piece; auto).
    pose proof (ends_left _ _ _ _ _ Hs HL) as Hne. destruct (open_skip (S e) _ Hs) as [H|H]; [contradiction|].
    exists [], (firstn (S e) (b :: s)), (skipn (S e) (b :: s)). split; auto. right. split; [discriminate|]. split; auto.
    change (b :: s ++ [10]) with ((b :: s) ++ [10]). rewrite skip_more, firstn_app by auto.
    replace (S e - length (b :: s))%nat with O by lia. cbn [firstn]. rewrite app_nil_r. reflexivity.
Qed.
Lemma line_final st lang pos c : line_reports st lang pos c [10] = with_final lang (pos + zlen c) (line_reports st lang pos c []).
Proof.
  unfold line_reports, with_final. cbn [length]. rewrite Nat.add_0_r.
  replace (pos + Z.of_nat (length c + 1)) with (pos + zlen c + 1) by lia.
  destruct (line_kind st c); cbn [existsb map app e_end e_lang e_entity e_start orb]; rewrite ?Z.eqb_refl; reflexivity.
Qed.
Lemma reports_step n st lang pos b r c e t : first_line (b :: r) = (c, e, t) ->
  file_reports (S n) st lang pos (b :: r) = line_reports st lang pos c e ++ file_reports n st lang (pos + Z.of_nat (length c + length e)) t.
Proof. intros H. cbn [file_reports]. rewrite H. reflexivity. Qed.
Lemma reports_final st lang n : forall s pos, open_end s -> (length s <= n)%nat ->
  file_reports (S n) st lang pos (s ++ [10]) = with_final lang (pos + zlen s) (file_reports n st lang pos s).
Proof.
  induction n as [|n IH]; intros s pos Hs Hn; destruct (open_cons _ Hs) as (b & r & E); [subst; cbn in Hn; lia|].
  destruct (first_final _ Hs) as (c & e & t & E1 & E2). pose proof (first_shorter r b c e t) as Hsh. rewrite <- E in Hsh. specialize (Hsh E1).
  rewrite E in *. cbn [app] in *.
  destruct E2 as [(-> & -> & Hc & E2)|(He & Ht & E2)]; rewrite (reports_step _ _ _ _ _ _ _ _ _ E1), (reports_step _ _ _ _ _ _ _ _ _ E2).
  - rewrite line_final, Hc. replace (file_reports n st lang _ []) with (@nil event) by (destruct n; reflexivity). cbn [file_reports]. rewrite !app_nil_r. reflexivity.
  - rewrite IH by (auto; lia). pose proof (first_line_app _ _ _ _ E1) as HA. apply (f_equal (@length Z)) in HA. rewrite !app_length in HA.
    destruct (open_cons _ Ht) as (b' & r' & Et).
    assert (Hlt : (length c + length e < length (b :: r))%nat) by (rewrite HA, Et; cbn [length]; lia).
    replace (pos + Z.of_nat (length c + length e) + zlen t) with (pos + zlen (b :: r)) by lia.
    unfold line_reports. destruct (line_kind st c); (destruct e; [contradiction|]);
      cbn [app]; rewrite with_before by (cbn [e_end]; lia); reflexivity.
Qed.

(** ** C99 *)

(** A line feed is put after a text whose last byte is no line end and no backslash: the
    reports stay as they are, but for the last line, which is longer by one; if there was
    none for it because it is blank, there is one now. *)
Theorem C99_final_newline :
  forall name x s fuel, In (name, x) lexes -> final_ok x = true -> open_end s -> file (s ++ [10]) ->
  lex_lines x name s <> None -> step_bound (s ++ [10]) <= Z.of_nat fuel ->
  exists l, ohcount_parse (Some name) s fuel = Some (Ok l) /\
    ohcount_parse (Some name) (s ++ [10]) fuel = Some (Ok (with_final name (zlen s) l)).
Proof.
  intros name x s fuel Hx He Ho Hf Hl Hb. destruct (lexes_tidy _ _ Hx) as (H1 & H2 & _).
  destruct (lex_lines x name s) as [l|] eqn:El; [|congruence].
  assert (Hfs : file s) by (destruct Hf as [F1 F2]; split; [intros c Hc; apply F1, in_app_iff; auto|rewrite app_length in F2; lia]).
  assert (Hbs : step_bound s <= Z.of_nat fuel) by (unfold step_bound in *; rewrite app_length in Hb; nia).
  exists l. split; [eapply C49_lexical_structure_decides; eauto|].
  eapply C49_lexical_structure_decides; eauto. apply lex_lines_Acc; auto.
  unfold lex_lines in El. apply (account_final x name H1 H2 He _ _ _ _ _ _ _ El I). right. exact Ho.
Qed.
Print Assumptions C99_final_newline.

Theorem C99_final_newline_of_lines :
  forall name st s fuel, In (name, st) styles -> open_end s -> file (s ++ [10]) -> no_tab s ->
  step_bound (s ++ [10]) <= Z.of_nat fuel ->
  exists l, ohcount_parse (Some name) s fuel = Some (Ok l) /\
    ohcount_parse (Some name) (s ++ [10]) fuel = Some (Ok (with_final name (zlen s) l)).
Proof.
  intros name st s fuel Hs Ho Hf Hn Hb.
  assert (Hfs : file s) by (destruct Hf as [F1 F2]; split; [intros c Hc; apply F1, in_app_iff; auto|rewrite app_length in F2; lia]).
  assert (Hbs : step_bound s <= Z.of_nat fuel) by (unfold step_bound in *; rewrite app_length in Hb; nia).
  assert (Hn' : no_tab (s ++ [10])) by (intros H; apply in_app_iff in H as [H|[H|[]]]; [exact (Hn H)|discriminate]).
  exists (count_lines st name s). split; [apply C21_lines_classified; auto|].
  rewrite (C21_lines_classified _ _ _ _ Hs Hf Hn' Hb). do 2 f_equal. unfold count_lines.
  rewrite app_length, Nat.add_comm. cbn [length Nat.add]. rewrite reports_final by auto. reflexivity.
Qed.
Print Assumptions C99_final_newline_of_lines.

(** As many lines as before, of the same kinds, if the last line had been reported. *)
Theorem C99_same_kinds : forall lang T l, existsb (fun e => e_end e =? T) l = true ->
  map shape (with_final lang T l) = map shape l.
Proof.
  intros lang T l H. unfold with_final. rewrite H, map_map. apply map_ext. intros e. destruct (e_end e =? T); reflexivity.
Qed.
Print Assumptions C99_same_kinds.

(** It does not hold for every language.  The last line of a PHP file is HTML if it is not
    ended, and so with the other languages that are embedded; in Matlab, Octave, Haskell
    and Elm an empty comment is code if it is not ended. *)
Definition odd_finals : list (string * list Z * list (string * string) * list (string * string)) :=
  [("php", bytes ("<?php" ++ nl ++ "f();"), [("php", "lcode"); ("html", "lcode")], [("php", "lcode"); ("php", "lcode")]);
   ("php", bytes ("<?php" ++ nl ++ "// a"), [("php", "lcode"); ("html", "lcomment")], [("php", "lcode"); ("php", "lcomment")]);
   ("rhtml", bytes ("<%" ++ nl ++ "# a"), [("html", "lcode"); ("html", "lcomment")], [("html", "lcode"); ("ruby", "lcomment")]);
   ("matlab", bytes "%", [("matlab", "lcode")], [("matlab", "lcomment")]);
   ("octave", bytes "%", [("octave", "lcode")], [("octave", "lcomment")]);
   ("haskell", bytes "--", [("haskell", "lcode")], [("haskell", "lcomment")]);
   ("elm", bytes "--", [("elm", "lcode")], [("elm", "lcomment")])].
Theorem C99_final_newline_refuted : forall name s k k', In (name, s, k, k') odd_finals ->
  file (s ++ [10]) /\ open_end s /\ k <> k' /\
  exists l l', ohcount_parse (Some name) s 3000 = Some (Ok l) /\ ohcount_parse (Some name) (s ++ [10]) 3000 = Some (Ok l') /\
    map shape l = k /\ map shape l' = k'.
Proof.
  intros name s k k' H. unfold odd_finals in H. cbn [In] in H.
  repeat destruct H as [H|H]; try contradiction; injection H as <- <- <- <-;
    (split; [is_file|]); (split; [match goal with |- open_end ?s => exists (removelast s), (last s 0) end; vm_compute; repeat split; discriminate|]);
    (split; [discriminate|]); do 2 eexists;
    (split; [vm_compute; reflexivity|]); (split; [vm_compute; reflexivity|]); vm_compute; auto.
Qed.
Print Assumptions C99_final_newline_refuted.

(** ** Cases *)
Definition ex_open : list Z := bytes ("/* a" ++ nl ++ nl ++ "*/ x" ++ nl ++ "  // b").
Example C99_case : In ("c", c_like) lexes /\ final_ok c_like = true /\ open_end ex_open /\ file (ex_open ++ [10]) /\ zlen ex_open = 17 /\
  lex_lines c_like "c" ex_open =
    Some [mkEvent "c" "lcomment" 0 5; mkEvent "c" "lblank" 5 6; mkEvent "c" "lcode" 6 11; mkEvent "c" "lcomment" 11 17] /\
  lex_lines c_like "c" (ex_open ++ [10]) =
    Some [mkEvent "c" "lcomment" 0 5; mkEvent "c" "lblank" 5 6; mkEvent "c" "lcode" 6 11; mkEvent "c" "lcomment" 11 18] /\
  lex_lines c_like "c" (bytes ("x" ++ nl ++ "  ")) = Some [mkEvent "c" "lcode" 0 2] /\
  with_final "c" 4 [mkEvent "c" "lcode" 0 2] = [mkEvent "c" "lcode" 0 2; mkEvent "c" "lblank" 4 5].
Proof.
  split; [do 3 right; left; reflexivity|]. split; [vm_compute; reflexivity|].
  split; [exists (removelast ex_open), (last ex_open 0); vm_compute; repeat split; discriminate|].
  split; [is_file|]. vm_compute. auto 8.
Qed.
(** The languages it is about. *)
Example C99_languages_case :
  length (filter (fun e => final_ok (snd e)) lexes) = 70%nat /\ length styles = 26%nat /\
  map fst (filter (fun e => negb (final_ok (snd e))) lexes) =
    ["chaiscript"; "javascript"; "qml"; "typescript"; "matlab"; "octave"; "stratego"; "lisp"; "scheme"; "emacslisp"; "racket"; "clojure";
     "modelica"; "haskell"; "elm"; "mathematica"; "boo"; "bfpp"].
Proof. vm_compute. auto. Qed.
Example C99_lines_case : exists st, In ("ada", st) styles /\ open_end (bytes ("x -- a" ++ nl ++ "-- b")) /\
  count_lines st "ada" (bytes ("x -- a" ++ nl ++ "-- b")) = [mkEvent "ada" "lcode" 0 7; mkEvent "ada" "lcomment" 7 11] /\
  count_lines st "ada" (bytes ("x -- a" ++ nl ++ "-- b" ++ nl)) = [mkEvent "ada" "lcode" 0 7; mkEvent "ada" "lcomment" 7 12].
Proof.
  destruct (find (fun e => String.eqb (fst e) "ada") styles) as [[n st]|] eqn:E; [|vm_compute in E; discriminate].
  exists st. pose proof (find_some _ _ E) as [Hin Hn]. cbn [fst] in Hn. apply String.eqb_eq in Hn as ->.
  split; auto. split; [exists (bytes ("x -- a" ++ nl ++ "-- ")), 98; vm_compute; repeat split; discriminate|].
  vm_compute in E. injection E as <-. vm_compute. auto.
Qed.
