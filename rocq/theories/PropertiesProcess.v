(** Property C73: a file is scanned as if it were the first one. *)
From Coq Require Import ZArith String List Bool Lia.
From Verif Require Import Base ParsedModel RagelSyntax RagelBuild RagelRun ParserTable ScanSpec PropertiesScan
  PropertiesEntity ProcessModel ProcessProofs.
Import ListNotations.
Open Scope string_scope.
Open Scope Z_scope.
Open Scope list_scope.

(** What the call reports in a process that makes no other. *)
Definition alone (fuel : nat) (j : job) : option (res (list event)) :=
  if j_count j then ohcount_parse (j_language j) (j_text j) fuel
  else ohcount_parse_entities (j_language j) (j_text j) fuel.

Definition reports (fuel : nat) (j : job) (es : option (list event)) : Prop := alone fuel j = option_map Ok es.

Lemma call_alone : forall fuel g j,
  match call_in (j_count j) (j_language j) (j_text j) fuel g with
  | Ok (es, _) => alone fuel j = option_map Ok es
  | Ub u => alone fuel j = Some (Ub u)
  | OutOfFuel => alone fuel j = Some OutOfFuel
  end.
Proof.
  intros fuel g [count [name|] text]; unfold alone, call_in; cbn [j_count j_language j_text]; [|now destruct count].
  unfold ohcount_parse, ohcount_parse_entities. destruct (find_entry name) as [en|]; [|now destruct count].
  unfold run_entry, run_entities.
  destruct count.
  - destruct (compile (en_parser en)) as [m|]; [|reflexivity].
    pose proof (parse_in_alone true m text fuel g) as E. cbn in E. rewrite E.
    destruct (parse_in true m text fuel g) as [[es g']|u|]; reflexivity.
  - destruct (compile (en_entities en)) as [m|]; [|reflexivity].
    pose proof (parse_in_alone false m text fuel g) as E. cbn in E. rewrite E.
    destruct (parse_in false m text fuel g) as [[es g']|u|]; reflexivity.
Qed.

(** Whatever the scanners have been used for before, in whatever languages, completed
    or ended inside a comment: each call reports exactly what it reports alone. *)
Theorem C73_as_if_first :
  forall fuel g jobs ess, process fuel g jobs = Ok ess <-> Forall2 (reports fuel) jobs ess.
Proof.
  intros fuel g jobs. revert g. induction jobs as [|j js IH]; intros g ess.
  - cbn. split; [intros [= <-]; constructor|]. intros H. now inversion H.
  - cbn [process]. pose proof (call_alone fuel g j) as A.
    destruct (call_in (j_count j) (j_language j) (j_text j) fuel g) as [[es g']|u|]; cbn [bind].
    + destruct (process fuel g' js) as [rest|u|] eqn:P; cbn [bind].
      * split.
        -- intros [= <-]. constructor; [exact A|]. now apply (IH g').
        -- intros H. inversion H as [|? es2 ? rest2 H1 H2]; subst. unfold reports in H1. rewrite A in H1.
           apply (IH g') in H2. rewrite P in H2. injection H2 as <-.
           destruct es, es2; cbn in H1; congruence.
      * split; [discriminate|]. intros H. inversion H as [|? es2 ? rest2 H1 H2]; subst.
        apply (IH g') in H2. congruence.
      * split; [discriminate|]. intros H. inversion H as [|? es2 ? rest2 H1 H2]; subst.
        apply (IH g') in H2. congruence.
    + split; [discriminate|]. intros H. inversion H as [|? es2 ? rest2 H1 H2]; subst.
      unfold reports in H1. rewrite A in H1. destruct es2; discriminate.
    + split; [discriminate|]. intros H. inversion H as [|? es2 ? rest2 H1 H2]; subst.
      unfold reports in H1. rewrite A in H1. destruct es2; discriminate.
Qed.
Print Assumptions C73_as_if_first.

(** A counting process never gets stuck: it ends with a report for each file, whatever
    the order, unless a scanner of the html family or of rebol is in it. *)
Theorem C73_all_counted :
  forall jobs fuel g,
  Forall (fun j => j_count j = true /\ file (j_text j) /\ step_bound (j_text j) <= Z.of_nat fuel /\
                   exists name, j_language j = Some name /\ find_entry name <> None /\
                                ~ In name html_like /\ name <> "rebol") jobs ->
  exists ess, process fuel g jobs = Ok (map Some ess) /\
    Forall2 (fun j es => ohcount_parse (j_language j) (j_text j) fuel = Some (Ok es)) jobs ess.
Proof.
  intros jobs fuel g H.
  assert (K : exists ess, Forall2 (fun j es => j_count j = true /\ ohcount_parse (j_language j) (j_text j) fuel = Some (Ok es)) jobs ess).
  { induction H as [|j js (C & F & B & name & L & N & N1 & N2) H IH]; [exists []; constructor|].
    destruct IH as (ess & IH). destruct (C44_scanners_safe name (j_text j) fuel N N1 N2 F B) as (es & E).
    exists (es :: ess). constructor; [|exact IH]. rewrite L. auto. }
  destruct K as (ess & K). exists ess. split.
  - apply C73_as_if_first. clear H. induction K as [|j es js ess (C & E) K IH]; constructor; auto.
    unfold reports, alone. now rewrite C.
  - clear H. induction K as [|j es js ess (C & E) K IH]; constructor; auto.
Qed.
Print Assumptions C73_all_counted.

(** Something is left indeed: the lines of a string that is not closed stay in the queue
    and the start of its first line in the copies; the next file has a string that is
    closed. *)
Definition unclosed : job := mkJob true (Some "shell") (bytes "  'a" ++ [10] ++ bytes "b").
Definition closed : job := mkJob true (Some "perl") (bytes "'a" ++ [10] ++ bytes "b' # c" ++ [10]).
Definition fresh : globals := mkGlobals None false false [].
Example C73_left :
  bind (call_in true (j_language unclosed) (j_text unclosed) 100 fresh) (fun x => Ok (snd x)) =
  Ok (mkGlobals (Some 0) false false [mkEvent "SHELL_LANG" "lcode" 0 5]).
Proof. vm_compute. reflexivity. Qed.
Example C73_ex :
  process 100 fresh [closed; unclosed; closed; unclosed] =
  Ok (map (fun l => Some (map (fun '(n, k, a, b) => mkEvent n k a b) l))
       [[("perl", "lcode", 0, 3); ("perl", "lcode", 3, 10)];
        [("shell", "lcode", 0, 5); ("shell", "lcode", 5, 6)];
        [("perl", "lcode", 0, 3); ("perl", "lcode", 3, 10)];
        [("shell", "lcode", 0, 5); ("shell", "lcode", 5, 6)]]).
Proof. vm_compute. reflexivity. Qed.
