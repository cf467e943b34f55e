(** Property C104: a division sign at the end of a line of JavaScript. *)
From Coq Require Import ZArith String List Bool Lia.
From Verif Require Import Base ParsedModel RagelSyntax RagelBuild RagelRun ParserTable ScanSpec PropertiesScan LineSpec.
From Verif Require Import StopProofs.
Import ListNotations.
Open Scope string_scope.
Open Scope Z_scope.
Open Scope list_scope.

Definition nl : string := String (Ascii.ascii_of_nat 10) "".

(** Expected: a text of two lines with a token on each is reported as two lines.  Not so
    where a slash ends the first: the pattern of a regular expression lets any byte but a
    slash or an asterisk stand behind the first slash, a line end too (javascript.rl:82,
    chaiscript.rl:83), and the newline is not counted inside it. *)
Definition with_regex : list string := ["javascript"; "typescript"; "qml"; "chaiscript"].
Definition divided : list Z := bytes ("a /" ++ nl ++ "b / c" ++ nl).
Definition remarked : list Z := bytes ("a /" ++ nl ++ "// b" ++ nl).

Theorem C104_slash_at_line_end_refuted :
  forall name, In name with_regex ->
    ohcount_parse (Some name) divided 2000 = Some (Ok [mkEvent name "lcode" 0 10]) /\
    ohcount_parse (Some name) remarked 2000 = Some (Ok [mkEvent name "lcode" 0 9]).
Proof.
  intros name H. cbn [with_regex In] in H.
  repeat (destruct H as [<-|H]; [split; vm_compute; reflexivity|]). contradiction.
Qed.
Print Assumptions C104_slash_at_line_end_refuted.

(** The same for any second line that starts with a letter and ends in a slash. *)
Definition head : list Z := bytes ("a /" ++ nl ++ "b").
Definition on_line (b : Z) : bool := negb (among b [10; 12; 13; 47; 92]).

(** The machine stops at the end of the text in this state and does nothing there. *)
Definition quiet (m : machine) (l : option loc) : bool :=
  match l with
  | Some (i, k) => match dfa_of m i with
                   | Ok d => match state_of d k with
                             | Ok q => match q_eof_to q, q_eof q with None, [] => true | _, _ => false end
                             | _ => false
                             end
                   | _ => false
                   end
  | None => false
  end.
Lemma eof_stops m text r : quiet m (r_cs r) = true -> r_p r = Z.of_nat (length text) -> step m text r = Ok (Stop r).
Proof.
  intros Hc Hp. unfold step, quiet in *. destruct (r_cs r) as [[i k]|]; [|discriminate].
  destruct (dfa_of m i) as [d| |]; try discriminate. cbn [bind]. destruct (state_of d k) as [q| |]; try discriminate. cbn [bind].
  rewrite Hp, Z.eqb_refl. destruct (q_eof_to q); try discriminate. destruct (q_eof q); [reflexivity|discriminate].
Qed.

(** What a machine does: [b] is its state at the start of the second line, [b1] the one
    behind the first letter of that line. *)
Record hides (m : machine) (b b1 : rt) : Prop := {
  hd_near : near m = true;
  hd_start : exists r0, start m = Ok r0 /\ ahead 60 m head r0 = b;
  hd_line : r_p b = 4 /\ step_on m 98 b = Ok (Go b1) /\ r_p b1 = 5;
  hd_pass : exists i k, r_cs b1 = Some (i, k) /\ passes m i k on_line = true;
  hd_close : forall q, exists r2 r3,
    step_on m 47 (set_p (Z.pos q) b1) = Ok (Go r2) /\ r_p r2 = Z.pos q + 1 /\
    step_on m 10 r2 = Ok (Go r3) /\ r_p r3 = Z.pos q + 1 + 1 /\
    quiet m (r_cs r3) = true /\ r_lcc r3 = false /\ r_wlc r3 = false /\ r_out r3 = [mkEvent (m_lang m) "lcode" 0 (Z.pos q + 1 + 1)] }.

Lemma hides_line name en m b b1 : find_entry name = Some en -> compile (en_parser en) = Some m -> value (en_vars en) (m_lang m) = name ->
  hides m b b1 -> forall body fuel, let text := head ++ body ++ [47; 10] in
  (forall c, In c body -> ~ In c [10; 12; 13; 47; 92]) -> file text -> step_bound text <= Z.of_nat fuel ->
  ohcount_parse (Some name) text fuel = Some (Ok [mkEvent name "lcode" 0 (Z.of_nat (length text))]).
Proof.
  intros E1 E2 E3 Hh body fuel text Hbody Hf Hb.
  unfold ohcount_parse, run_entry. rewrite E1, E2. f_equal. unfold parse.
  destruct (hd_start _ _ _ Hh) as (r0 & -> & Hahead). cbn [bind].
  destruct (hd_line _ _ _ Hh) as (Hp & Hs & Hp1).
  assert (Hlen : Z.of_nat (length text) = 7 + Z.of_nat (length body)) by (unfold text; rewrite !app_length; change (length head) with 5%nat; cbn [length]; lia).
  destruct (hd_close _ _ _ Hh (Pos.of_succ_nat (4 + length body))) as (r2 & r3 & C1 & C2 & C3 & C4 & C5 & D2 & D3 & D4).
  assert (Hq : Z.pos (Pos.of_succ_nat (4 + length body)) = Z.of_nat (length (head ++ body))) by (rewrite app_length; change (length head) with 5%nat; lia).
  assert (Hq2 : Z.pos (Pos.of_succ_nat (4 + length body)) = 5 + Z.of_nat (length body)) by lia.
  assert (Hloop : loop m text fuel r0 = Ok r3).
  { assert (Hfuel : exists n, fuel = (n + (60 + (1 + (length body + 3))))%nat).
    { exists (fuel - (60 + (1 + (length body + 3))))%nat. unfold step_bound in Hb. nia. }
    destruct Hfuel as (n & ->). apply loop_more. unfold text at 1. apply ahead_ok; [exact (hd_near _ _ _ Hh)|]. fold text. rewrite Hahead.
    cbn [Nat.add loop].
    rewrite (step_on_ok m text 98 b (Go b1) (hd_near _ _ _ Hh) ltac:(lia) ltac:(rewrite Hp; reflexivity) Hs). cbn [bind].
    destruct (hd_pass _ _ _ Hh) as (i & k & Hcs & Hpass).
    apply (passes_run m i k on_line text (hd_near _ _ _ Hh) Hpass body head [47; 10]); [reflexivity| |exact Hcs|exact Hp1|].
    - intros c Hin. split.
      + apply (proj1 Hf). unfold text. apply in_or_app. right. apply in_or_app. left. exact Hin.
      + unfold on_line. apply negb_true_iff. unfold among. apply not_true_iff_false. intros H.
        apply existsb_exists in H as (y & Hy & E). apply Z.eqb_eq in E. subst y. exact (Hbody _ Hin Hy).
    - fold (Z.of_nat (length (head ++ body))). rewrite <- Hq. cbn [loop].
      rewrite (step_on_ok m text 47 _ (Go r2) (hd_near _ _ _ Hh)); [|cbn [r_p set_p]; lia| |exact C1].
      2:{ cbn [r_p set_p]. rewrite Hq, Nat2Z.id. unfold text. rewrite app_assoc, nth_error_app2, Nat.sub_diag by lia. reflexivity. }
      cbn [bind]. rewrite (step_on_ok m text 10 r2 (Go r3) (hd_near _ _ _ Hh)); [|lia| |exact C3].
      2:{ rewrite C2, Hq. replace (Z.to_nat (Z.of_nat (length (head ++ body)) + 1)) with (length (head ++ body) + 1)%nat by lia.
          unfold text. rewrite app_assoc, nth_error_app2 by lia. replace (_ + 1 - _)%nat with 1%nat by lia. reflexivity. }
      cbn [bind]. rewrite (eof_stops m text r3 C5) by lia. reflexivity. }
  rewrite Hloop. cbn [bind].
  replace (process_last_line m text r3) with (Ok r3).
  2:{ unfold process_last_line. rewrite D2, D3. reflexivity. }
  cbn [bind]. rewrite D4. cbn [rev app map]. unfold rename. cbn [e_lang e_entity e_start e_end]. rewrite E3. do 4 f_equal. lia.
Qed.

Definition none : rt := mkRt 0 None None None None [] false false None 0 None false None false false [] [] [].
Definition machine_of (name : string) : machine :=
  match find_entry name with
  | Some en => match compile (en_parser en) with Some m => m | None => mkMachine (PM.empty _) [] "" end
  | None => mkMachine (PM.empty _) [] ""
  end.
Definition behind_slash (m : machine) : rt := match start m with Ok r => ahead 60 m head r | _ => none end.
Definition second (m : machine) : rt := match step_on m 98 (behind_slash m) with Ok (Go r) => r | _ => none end.

Ltac hide :=
  constructor;
  [ vm_compute; reflexivity
  | eexists; split; [vm_compute; reflexivity|]; vm_compute; reflexivity
  | split; [|split]; vm_compute; reflexivity
  | do 2 eexists; split; [vm_compute; reflexivity|]; vm_compute; reflexivity
  | intros; do 2 eexists; repeat (split; [vm_compute; reflexivity|]); vm_compute; reflexivity ].

Definition js_machine : machine := Eval vm_compute in machine_of "javascript".
Definition js_behind : rt := Eval vm_compute in behind_slash js_machine.
Definition js_second : rt := Eval vm_compute in second js_machine.
Lemma js_hides : hides js_machine js_behind js_second.
Proof. hide. Qed.
Lemma js_compiled : exists en, find_entry "javascript" = Some en /\ compile (en_parser en) = Some js_machine
  /\ value (en_vars en) (m_lang js_machine) = "javascript".
Proof. eexists. split; [vm_compute; reflexivity|]. split; vm_compute; reflexivity. Qed.

Definition ts_machine : machine := Eval vm_compute in machine_of "typescript".
Definition ts_behind : rt := Eval vm_compute in behind_slash ts_machine.
Definition ts_second : rt := Eval vm_compute in second ts_machine.
Lemma ts_hides : hides ts_machine ts_behind ts_second.
Proof. hide. Qed.
Lemma ts_compiled : exists en, find_entry "typescript" = Some en /\ compile (en_parser en) = Some ts_machine
  /\ value (en_vars en) (m_lang ts_machine) = "typescript".
Proof. eexists. split; [vm_compute; reflexivity|]. split; vm_compute; reflexivity. Qed.

Definition qml_machine : machine := Eval vm_compute in machine_of "qml".
Definition qml_behind : rt := Eval vm_compute in behind_slash qml_machine.
Definition qml_second : rt := Eval vm_compute in second qml_machine.
Lemma qml_hides : hides qml_machine qml_behind qml_second.
Proof. hide. Qed.
Lemma qml_compiled : exists en, find_entry "qml" = Some en /\ compile (en_parser en) = Some qml_machine
  /\ value (en_vars en) (m_lang qml_machine) = "qml".
Proof. eexists. split; [vm_compute; reflexivity|]. split; vm_compute; reflexivity. Qed.

Definition chai_machine : machine := Eval vm_compute in machine_of "chaiscript".
Definition chai_behind : rt := Eval vm_compute in behind_slash chai_machine.
Definition chai_second : rt := Eval vm_compute in second chai_machine.
Lemma chai_hides : hides chai_machine chai_behind chai_second.
Proof. hide. Qed.
Lemma chai_compiled : exists en, find_entry "chaiscript" = Some en /\ compile (en_parser en) = Some chai_machine
  /\ value (en_vars en) (m_lang chai_machine) = "chaiscript".
Proof. eexists. split; [vm_compute; reflexivity|]. split; vm_compute; reflexivity. Qed.

Theorem C104_hidden_line_refuted :
  forall name body fuel, let text := head ++ body ++ [47; 10] in
  In name with_regex -> (forall c, In c body -> ~ In c [10; 12; 13; 47; 92]) -> file text -> step_bound text <= Z.of_nat fuel ->
  ohcount_parse (Some name) text fuel = Some (Ok [mkEvent name "lcode" 0 (Z.of_nat (length text))]).
Proof.
  intros name body fuel text H. cbn [with_regex In] in H. destruct H as [<-|[<-|[<-|[<-|[]]]]].
  - destruct js_compiled as (en & E1 & E2 & E3). exact (hides_line _ _ _ _ _ E1 E2 E3 js_hides body fuel).
  - destruct ts_compiled as (en & E1 & E2 & E3). exact (hides_line _ _ _ _ _ E1 E2 E3 ts_hides body fuel).
  - destruct qml_compiled as (en & E1 & E2 & E3). exact (hides_line _ _ _ _ _ E1 E2 E3 qml_hides body fuel).
  - destruct chai_compiled as (en & E1 & E2 & E3). exact (hides_line _ _ _ _ _ E1 E2 E3 chai_hides body fuel).
Qed.
Print Assumptions C104_hidden_line_refuted.

(** ** Cases *)
(** The same tokens with the slash at the start of the second line are two lines, and a
    language with another pattern counts two lines in both texts. *)
Example C104_case : forall name, In name with_regex ->
  ohcount_parse (Some name) (bytes ("a" ++ nl ++ "/ b / c" ++ nl)) 2000 = Some (Ok [mkEvent name "lcode" 0 2; mkEvent name "lcode" 2 10]).
Proof. intros name H. cbn [with_regex In] in H. repeat (destruct H as [<-|H]; [vm_compute; reflexivity|]). contradiction. Qed.
Example C104_case_other :
  ohcount_parse (Some "actionscript") divided 2000 = Some (Ok [mkEvent "actionscript" "lcode" 0 4; mkEvent "actionscript" "lcode" 4 10]) /\
  ohcount_parse (Some "actionscript") remarked 2000 = Some (Ok [mkEvent "actionscript" "lcode" 0 4; mkEvent "actionscript" "lcomment" 4 9]).
Proof. split; vm_compute; reflexivity. Qed.
Definition ex_path : list Z := head ++ bytes " * c; d = 2 " ++ [47; 10].
Example C104_case_hidden : (forall c, In c (bytes " * c; d = 2 ") -> ~ In c [10; 12; 13; 47; 92]) /\ file ex_path /\ line_stops 0 ex_path = [4; 19] /\
  ohcount_parse (Some "javascript") ex_path 2000 = Some (Ok [mkEvent "javascript" "lcode" 0 19]) /\
  ohcount_parse (Some "actionscript") ex_path 2000 = Some (Ok [mkEvent "actionscript" "lcode" 0 4; mkEvent "actionscript" "lcode" 4 19]).
Proof.
  split; [intros c Hc Hn; vm_compute in Hc, Hn; intuition lia|]. split.
  { split; [|vm_compute; discriminate]. intros c Hc. vm_compute in Hc. intuition lia. }
  split; [vm_compute; reflexivity|]. split; vm_compute; reflexivity.
Qed.
