(** Property C94: a comment after code in Vim script, an equals sign in Perl. *)
From Coq Require Import ZArith String List Bool Lia.
From Verif Require Import Base ParsedModel RagelSyntax RagelBuild RagelRun ParserTable ScanSpec PropertiesScan LineSpec.
From Verif Require Import StopProofs.
Import ListNotations.
Open Scope string_scope.
Open Scope Z_scope.
Open Scope list_scope.

Definition quote : string := String (Ascii.ascii_of_nat 34) "".

(** Vim script takes the rest of a line after a double quote for a comment (it need not
    be closed).  Expected: each line is reported.  Not so: after code on the same line, a
    quote that is not closed before the end of the line makes the parser give up, and the
    rest of the file, whatever it is, is one line of code. *)
Definition head : list Z := bytes ("let x = 1 " ++ quote ++ " ").
Definition on_line (b : Z) : bool := negb (among b [10; 12; 13; 34; 92]).

Definition vim_machine : machine := Eval vm_compute in
  match find_entry "vim" with
  | Some en => match compile (en_parser en) with Some m => m | None => mkMachine (PM.empty _) [] "" end
  | None => mkMachine (PM.empty _) [] ""
  end.
Lemma vim_compiled : exists en, find_entry "vim" = Some en /\ compile (en_parser en) = Some vim_machine
  /\ value (en_vars en) (m_lang vim_machine) = "vim".
Proof. eexists. split; [vm_compute; reflexivity|]. split; [vm_compute; reflexivity|]. vm_compute. reflexivity. Qed.
Lemma vim_near : near vim_machine = true.
Proof. vm_compute. reflexivity. Qed.

(** The machine before the quote, at it, and behind it. *)
Definition before : rt := Eval vm_compute in
  match start vim_machine with Ok r => ahead 60 vim_machine (firstn 11 head) r | _ => mkRt 0 None None None None [] false false None 0 None false None false false [] [] [] end.
Definition next (c : Z) (r : rt) : rt := match step_on vim_machine c r with Ok (Go r') => r' | _ => r end.
Definition at_quote : rt := Eval vm_compute in next 34 before.
Definition in_quote : rt := Eval vm_compute in next 34 at_quote.
Definition behind : rt := Eval vm_compute in next 32 in_quote.
Lemma before_ok : exists r, start vim_machine = Ok r /\ ahead 60 vim_machine (firstn 11 head) r = before.
Proof. eexists. split; [vm_compute; reflexivity|]. vm_compute. reflexivity. Qed.
Definition place : nat * positive := Eval vm_compute in match r_cs behind with Some l => l | None => (O, 1%positive) end.
Lemma behind_passes : passes vim_machine (fst place) (snd place) on_line = true.
Proof. vm_compute. reflexivity. Qed.

Theorem C94_vim_comment_after_code_refuted :
  forall body rest fuel, let text := head ++ body ++ 10 :: rest in
  (forall b, In b body -> ~ In b [10; 12; 13; 34; 92]) -> file text -> step_bound text <= Z.of_nat fuel ->
  ohcount_parse (Some "vim") text fuel = Some (Ok [mkEvent "vim" "lcode" 0 (Z.of_nat (length text))]).
Proof.
  intros body rest fuel text Hbody Hf Hb. destruct vim_compiled as (en & E1 & E2 & E3).
  unfold ohcount_parse, run_entry. rewrite E1, E2. f_equal. unfold parse.
  destruct before_ok as (r0 & -> & Hahead). cbn [bind].
  assert (Hloop : loop vim_machine text fuel r0 = Ok (set_cs None (set_p (Z.of_nat (length (head ++ body))) behind))).
  { assert (Hfuel : exists k, fuel = (k + (60 + (3 + (length body + 1))))%nat).
    { exists (fuel - (60 + (3 + (length body + 1))))%nat. unfold step_bound in Hb.
      assert (H : Z.of_nat (length text) = 13 + Z.of_nat (length body) + Z.of_nat (length rest))
        by (unfold text; rewrite !app_length; cbn [length]; change (length head) with 12%nat; lia). nia. }
    destruct Hfuel as (k & ->). apply loop_more. unfold text. change (head ++ body ++ 10 :: rest) with (firstn 11 head ++ (32 :: body ++ 10 :: rest)). apply ahead_ok; [exact vim_near|].
    change (firstn 11 head ++ (32 :: body ++ 10 :: rest)) with (head ++ body ++ 10 :: rest). rewrite Hahead.
    cbn [Nat.add]. cbn [loop].
    rewrite (step_on_ok vim_machine _ 34 before (Go at_quote)) by (vm_compute; reflexivity || discriminate). cbn [bind].
    rewrite (step_on_ok vim_machine _ 34 at_quote (Go in_quote)) by (vm_compute; reflexivity || discriminate). cbn [bind].
    rewrite (step_on_ok vim_machine _ 32 in_quote (Go behind)) by (vm_compute; reflexivity || discriminate). cbn [bind].
    eapply (passes_run vim_machine (fst place) (snd place) on_line); [exact vim_near|exact behind_passes|reflexivity| |reflexivity|reflexivity|].
    - intros b Hin. split.
      + apply (proj1 Hf). unfold text. apply in_or_app. right. apply in_or_app. left. exact Hin.
      + unfold on_line. apply negb_true_iff. unfold among. apply not_true_iff_false. intros H.
        apply existsb_exists in H as (y & Hy & E). apply Z.eqb_eq in E. subst y. exact (Hbody _ Hin Hy).
    - cbn [loop]. set (p := Z.of_nat _).
      rewrite (step_on_ok vim_machine _ 10 (set_p p behind) (Stop (set_cs None (set_p p behind)))); [reflexivity|exact vim_near| | |].
      + cbn [r_p set_p]. unfold p. lia.
      + cbn [r_p set_p]. unfold p. rewrite Nat2Z.id, app_assoc, nth_error_app2, Nat.sub_diag by lia. reflexivity.
      + vm_compute. reflexivity. }
  rewrite Hloop. cbn [bind].
  change (process_last_line vim_machine text (set_cs None (set_p (Z.of_nat (length (head ++ body))) behind)))
    with (Ok (set_out [mkEvent (m_lang vim_machine) "lcode" 0 (Z.of_nat (length text))] (set_cs None (set_p (Z.of_nat (length (head ++ body))) behind)))).
  cbn [bind r_out set_out rev app map]. unfold rename. cbn [e_lang e_entity e_start e_end]. rewrite E3. reflexivity.
Qed.
Print Assumptions C94_vim_comment_after_code_refuted.

(** Perl: documentation starts with an equals sign and a letter at the start of a line.
    Expected: a line of which an equals sign is all is code, and so are lines after an
    assignment that starts a line.  Not so. *)
Theorem C94_perl_equals_sign_refuted :
  ohcount_parse (Some "perl") (bytes ("$x" ++ nl ++ "  =" ++ nl ++ "  1;" ++ nl)) 2000 =
    Some (Ok [mkEvent "perl" "lcode" 0 3; mkEvent "perl" "lblank" 6 7; mkEvent "perl" "lcode" 7 12])
  /\ ohcount_parse (Some "perl") (bytes ("$x" ++ nl ++ "= 5;" ++ nl ++ "$y = 1;" ++ nl)) 2000 =
    Some (Ok [mkEvent "perl" "lcode" 0 3; mkEvent "perl" "lcomment" 3 8; mkEvent "perl" "lcomment" 8 16]).
Proof. vm_compute. auto. Qed.
Print Assumptions C94_perl_equals_sign_refuted.

(** ** Cases *)
Definition ex_vim : list Z := head ++ bytes "one" ++ 10 :: bytes ("let y = 2" ++ nl ++ "let z = 3" ++ nl).
Example C94_case : (forall b, In b (bytes "one") -> ~ In b [10; 12; 13; 34; 92]) /\ file ex_vim
  /\ line_stops 0 ex_vim = [16; 26; 36]
  /\ ohcount_parse (Some "vim") ex_vim 2000 = Some (Ok [mkEvent "vim" "lcode" 0 36])
  (* on a line of its own the comment does no harm *)
  /\ ohcount_parse (Some "vim") (bytes ("let x = 1" ++ nl ++ quote ++ " one" ++ nl ++ "let y = 2" ++ nl)) 2000 =
       Some (Ok [mkEvent "vim" "lcode" 0 10; mkEvent "vim" "lcomment" 10 16; mkEvent "vim" "lcode" 16 26]).
Proof.
  split; [intros b Hb Hn; vm_compute in Hb, Hn; intuition lia|]. split.
  { split; [|vm_compute; discriminate]. intros c Hc. vm_compute in Hc. intuition lia. }
  vm_compute. auto.
Qed.
