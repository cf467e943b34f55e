(** Property C101: lines that are counted against the definition of their language. *)
From Coq Require Import ZArith String List Bool Lia.
From Verif Require Import Checked Base ParsedModel RagelSyntax RagelBuild RagelRun ParserTable ScanSpec PropertiesScan.
From Verif Require Import LineSpec LineCheck LineProofs LineCerts PropertiesLines.
From Verif Require Import LexSpec LexCheck LexFacts LexProofs LexBytes LexTable LexCerts LexLines LexHeads LexConcat LexEnds LexSpaces.
From Verif Require Import PropertiesLex PropertiesEnds PropertiesSpaces PropertiesFinal.
Import ListNotations.
Open Scope string_scope.
Open Scope Z_scope.
Open Scope list_scope.

Local Notation zlen l := (Z.of_nat (length l)).

(** ** Lemmas about lines *)
Definition inner (b : Z) : bool := negb ((b =? 10) || (b =? 12) || (b =? 13)).
Lemma first_inner u r : forallb inner u = true -> first_line (u ++ 10 :: r) = (u, [10], r).
Proof.
  induction u as [|b u IH]; intros H; [reflexivity|]. cbn [forallb] in H. apply andb_prop in H as [Hb Hu]. cbn [app].
  assert (E : line_end (b :: u ++ 10 :: r) = O).
  { unfold inner in Hb. apply negb_true_iff in Hb. apply orb_false_iff in Hb as [Hb H3]. unfold line_end. rewrite Hb, H3. reflexivity. }
  rewrite first_cons, E, (IH Hu). reflexivity.
Qed.
Lemma blank_inner ws : forallb blank_byte ws = true -> forallb inner ws = true.
Proof.
  intros H. rewrite forallb_forall in *. intros b Hb. specialize (H _ Hb). apply blank_two in H as [-> | ->]; reflexivity.
Qed.
Lemma line_within st lang pos c e : Forall (fun v => pos <= e_start v /\ e_end v <= pos + Z.of_nat (length c + length e)) (line_reports st lang pos c e).
Proof. unfold line_reports. destruct (line_kind st c), e; repeat constructor; cbn [e_start e_end length]; lia. Qed.
Lemma reports_within st lang n : forall pos l, Forall (fun v => pos <= e_start v /\ e_end v <= pos + zlen l) (file_reports n st lang pos l).
Proof.
  induction n as [|n IH]; intros pos [|b r]; try (constructor; fail). destruct (first_line (b :: r)) as [[c e] t] eqn:E.
  rewrite (reports_step _ _ _ _ _ _ _ _ _ E). pose proof (first_line_app _ _ _ _ E) as HA. apply (f_equal (@length Z)) in HA. rewrite !app_length in HA.
  apply Forall_app. split; eapply Forall_impl; try apply line_within; try apply IH; cbn beta; intros v Hv; lia.
Qed.

(** ** C101 *)

(** Languages, beginnings of lines, and how every line that begins so is counted.
    Fixed-form Fortran: a statement that begins with C in column 7 or later is a statement
    (fortranfixed.rl:47 takes C in any column for the start of a comment), while comments
    may as well begin with c, an asterisk or an exclamation mark.  Erlang: a comment
    begins with one percent sign (erlang.rl:47 asks for two).  Basic and batch files: REM
    is a comment only if it is the whole word (bat.rl:47, structured_basic.rl:45,
    visual_basic.rl:47). *)
Definition misread : list (string * list Z * string) :=
  [ ("fortranfixed", bytes "CALL ", "lcomment");
    ("fortranfixed", bytes "CONTINUE", "lcomment");
    ("fortranfixed", bytes "COMMON", "lcomment");
    ("fortranfixed", bytes "CLOSE(", "lcomment");
    ("fortranfixed", bytes "c ", "lcode");
    ("fortranfixed", bytes "* ", "lcode");
    ("fortranfixed", bytes "! ", "lcode");
    ("erlang", bytes "% ", "lcode");
    ("bat", bytes "remove", "lcomment");
    ("structured_basic", bytes "remainder", "lcomment");
    ("visualbasic", bytes "RemoveItem", "lcomment") ].

Definition misread_kind (st : style) (w : list Z) (k : string) : Prop :=
  forall ws t, forallb blank_byte ws = true -> kind_name (line_kind st (ws ++ w ++ t)) = k.
Lemma misread_style name w k : In (name, w, k) misread ->
  exists st, In (name, st) styles /\ misread_kind st w k /\ forallb inner w = true /\ (k = "lcomment" \/ k = "lcode").
Proof.
  intros H. unfold misread in H. cbn [In] in H.
  repeat (destruct H as [H|H]; [injection H as <- <- <-;
    match goal with |- exists st, In (?n, st) _ /\ _ =>
      let s := eval vm_compute in (find (fun e => String.eqb (fst e) n) styles) in
      match s with Some (_, ?st) => exists st end end;
    split; [vm_compute; auto 40|]; split; [|split; [reflexivity|auto]];
    intros ws t Hw; unfold line_kind; do 2 rewrite (fun l => strip_run l ws) by (first [assumption|reflexivity]); reflexivity|]).
  contradiction.
Qed.

(** Wherever such a line stands in a file, with any indentation and any rest, it is
    counted as the table says, and as nothing else. *)
Theorem C101_misread_lines :
  forall name w k a ws t b fuel, In (name, w, k) misread -> whole_lines a ->
  forallb blank_byte ws = true -> forallb inner t = true ->
  file (a ++ (ws ++ w ++ t) ++ 10 :: b) -> no_tab (a ++ (ws ++ w ++ t) ++ 10 :: b) ->
  step_bound (a ++ (ws ++ w ++ t) ++ 10 :: b) <= Z.of_nat fuel ->
  exists la lb,
    ohcount_parse (Some name) (a ++ (ws ++ w ++ t) ++ 10 :: b) fuel =
      Some (Ok (la ++ mkEvent name k (zlen a) (zlen a + zlen (ws ++ w ++ t) + 1) :: lb)) /\
    Forall (fun e => e_end e <= zlen a) la /\ Forall (fun e => zlen a + zlen (ws ++ w ++ t) + 1 <= e_start e) lb.
Proof.
  intros name w k a ws t b fuel Hm Ha Hw Ht Hf Hn Hb. destruct (misread_style _ _ _ Hm) as (st & Hs & Hk & Hi & Hc).
  rewrite (C21_lines_classified _ _ _ _ Hs Hf Hn Hb). unfold count_lines.
  pose proof (F_prefix st name ((ws ++ w ++ t) ++ 10 :: b) (length a) a 0 (le_n _) Ha) as HF. unfold F in HF. rewrite HF, Z.add_0_l.
  assert (E : first_line ((ws ++ w ++ t) ++ 10 :: b) = (ws ++ w ++ t, [10], b)).
  { apply first_inner. rewrite !forallb_app, Hi, Ht, (blank_inner _ Hw). reflexivity. }
  pose proof (F_step st name _ (zlen a) _ _ _ E) as HS. unfold F in HS. rewrite HS.
  specialize (Hk ws t Hw). eexists _, _. split; [|split].
  - unfold line_reports at 1. cbn [length]. replace (zlen a + Z.of_nat (length (ws ++ w ++ t) + 1)) with (zlen a + zlen (ws ++ w ++ t) + 1) by lia.
    destruct (line_kind st (ws ++ w ++ t)); cbn [kind_name] in Hk; [destruct Hc; subst k; discriminate|rewrite <- Hk; reflexivity|rewrite <- Hk; reflexivity].
  - eapply Forall_impl; [|apply reports_within]. cbn beta. intros v Hv. lia.
  - eapply Forall_impl; [|apply reports_within]. cbn beta. cbn [length]. intros v Hv. lia.
Qed.
Print Assumptions C101_misread_lines.

(** Counting and entity search do not agree on what a comment is: the only line of the
    file is counted as code, while the entity search finds a comment that takes up all of
    it (erlang.rl:47 and 68; classic_basic.rl:47 and 63). *)
Definition torn : list (string * list Z) := [ ("erlang", bytes "% a"); ("classic_basic", bytes "' a"); ("classic_basic", bytes "rem a") ].
Theorem C101_machines_agree_refuted :
  forall name s, In (name, s) torn ->
    ohcount_parse (Some name) s 2000 = Some (Ok [mkEvent name "lcode" 0 (zlen s)]) /\
    exists l, ohcount_parse_entities (Some name) s 2000 = Some (Ok [mkEvent l "comment" 0 (zlen s)]).
Proof.
  intros name s H. cbn [torn In] in H.
  repeat (destruct H as [H|H]; [injection H as <- <-; split; [vm_compute; reflexivity|eexists; vm_compute; reflexivity]|]). contradiction.
Qed.
Print Assumptions C101_machines_agree_refuted.

(** A division that is continued on a second line of Python is a comment (python.rl:47). *)
Definition ex_division : list Z := bytes ("x = (7" ++ nl ++ "  // 2)" ++ nl).
Theorem C101_python_refuted :
  ohcount_parse (Some "python") ex_division 2000 = Some (Ok [mkEvent "python" "lcode" 0 7; mkEvent "python" "lcomment" 7 15]).
Proof. vm_compute. reflexivity. Qed.
Print Assumptions C101_python_refuted.

(** ** Cases *)
Definition ex_before : list Z := bytes (" X=1" ++ nl).
Definition ex_after : list Z := bytes ("C A" ++ nl ++ " END" ++ nl).
Definition ex_call : list Z := ex_before ++ (bytes "      " ++ bytes "CALL " ++ bytes "FOO(X)") ++ 10 :: ex_after.
Example C101_case : In ("fortranfixed", bytes "CALL ", "lcomment") misread /\ whole_lines ex_before /\ forallb blank_byte (bytes "      ") = true /\
  forallb inner (bytes "FOO(X)") = true /\ file ex_call /\ no_tab ex_call /\ step_bound ex_call <= Z.of_nat (Z.to_nat (step_bound ex_call)) /\
  ohcount_parse (Some "fortranfixed") ex_call 2000 = Some (Ok (map (fun e => mkEvent "fortranfixed" (fst (fst e)) (snd (fst e)) (snd e))
    [("lcode", 0, 5); ("lcomment", 5, 23); ("lcomment", 23, 27); ("lcode", 27, 32)])).
Proof.
  split; [cbn; auto|]. split; [right; exists (bytes " X=1"), 10; split; [vm_compute; reflexivity|auto]|]. split; [reflexivity|]. split; [reflexivity|].
  split; [split; [intros c Hc; vm_compute in Hc; repeat (destruct Hc as [<-|Hc]; [lia|]); contradiction|vm_compute; congruence]|].
  split; [vm_compute; intros H; repeat (destruct H as [H|H]; [discriminate|]); contradiction|]. split; [rewrite Z2Nat.id; vm_compute; congruence|vm_compute; reflexivity].
Qed.
