(** Properties C18, C19, C44: the line counting parsers of all languages, on every file. *)
From Coq Require Import ZArith String List Bool Lia.
From Verif Require Import Base ParsedModel RagelSyntax RagelBuild RagelRun ScanCheck ScanProofs.
From Verif Require Import ParserTable ScanSpec ScanCert ScanCerts1 ScanCerts2 ScanCerts3 ScanCerts4 TailCheck Checked.
Import ListNotations.
Open Scope string_scope.
Open Scope Z_scope.
Open Scope list_scope.

Lemma all_certified en : In en entries -> certified en.
Proof.
  unfold entries. rewrite !in_app_iff. intros [H|[H|[H|H]]].
  - exact (all_checked_in _ _ _ _ certs1 H).
  - exact (all_checked_in _ _ _ _ certs2 H).
  - exact (all_checked_in _ _ _ _ certs3 H).
  - exact (all_checked_in _ _ _ _ certs4 H).
Qed.

(** The values of the language variables are the languages of the specification. *)
Lemma vars_ok : forallb (fun en => forallb (fun v => mem (value (en_vars en) v) (may_report (en_name en))) (map fst (en_vars en))) entries = true.
Proof. vm_compute. reflexivity. Qed.

Lemma mem_in' s l : mem s l = true <-> In s l.
Proof.
  unfold mem. rewrite existsb_exists. split.
  - intros (x & H & E). apply String.eqb_eq in E. subst. auto.
  - intros H. exists s. split; auto. apply String.eqb_refl.
Qed.

Lemma html_like_ok n : In n html_like <-> mem n null_offset = true.
Proof. rewrite mem_in'. unfold html_like, null_offset. cbn. tauto. Qed.

Lemma rebol_not_html : ~ In "rebol" html_like.
Proof. intros H. cbn in H. repeat (destruct H as [H|H]; [discriminate H|]). destruct H. Qed.

Definition found (name : string) : bool := match find_entry name with Some _ => true | None => false end.
Lemma found_some name : found name = true -> exists en, find_entry name = Some en.
Proof. unfold found. destruct (find_entry name); [eauto|discriminate]. Qed.

Lemma lines_ok names : lines names line_kinds = true.
Proof. apply forallb_forall. intros l _. reflexivity. Qed.
Lemma line_kinds_ok l k : line_kinds l k = true -> k = "lcode" \/ k = "lcomment" \/ k = "lblank".
Proof. unfold line_kinds. rewrite mem_in'. cbn. intuition. Qed.

Lemma run_ok name en text : find_entry name = Some en -> file text ->
  forall fuel, step_bound text <= Z.of_nat fuel ->
  exists r, ohcount_parse (Some name) text fuel = Some r /\
    match r with
    | Ok es => Forall (line_report name text) es
    | Ub u => (u = NullDeref /\ In name html_like) \/ (u = IntOverflow /\ name = "rebol")
    | OutOfFuel => False
    end.
Proof.
  intros Hf (Hb & Hl) fuel Hfuel.
  assert (En : en_name en = name /\ In en entries).
  { unfold find_entry in Hf. apply find_some in Hf. destruct Hf as (Hi & E). apply String.eqb_eq in E. auto. }
  destruct En as (En & Hin). destruct (all_certified _ Hin) as (tb & Hc). unfold certified_by in Hc.
  unfold ohcount_parse, run_entry. rewrite Hf.
  destruct (compile (en_parser en)) as [m|]; [|discriminate].
  eexists. split; [reflexivity|].
  do 3 (apply andb_prop in Hc as [Hc _]).
  pose proof (parse_ok m _ _ _ _ text Hl _ Hc Hb fuel (lines_ok _) Hfuel) as Hp.
  destruct (parse m text fuel) as [es|u|]; cbn [bind]; cbn [okr] in Hp.
  - rewrite Forall_forall in Hp. apply Forall_forall. intros e He. apply in_map_iff in He.
    destruct He as (e0 & <- & He). destruct (Hp _ He) as (Hk & Hs & Hlen & Hn). apply line_kinds_ok in Hk.
    repeat split; cbn [rename e_lang e_entity e_start e_end]; try lia.
    + pose proof vars_ok as V. rewrite forallb_forall in V. specialize (V _ Hin).
      rewrite forallb_forall in V. specialize (V _ Hn). rewrite En in V. apply mem_in'. auto.
    + cbn. intuition.
  - destruct Hp as [(-> & Hlen)|(-> & Hcnt)].
    + left. split; auto. apply html_like_ok. congruence.
    + right. split; auto. rewrite En in Hcnt. apply mem_in' in Hcnt. cbn in Hcnt. intuition.
  - auto.
Qed.

(** ** C18 *)

(** The scanner of each language ends on every file, after a number of steps that is at
    most quadratic in the size of the file. *)
Theorem C18_scanners_terminate :
  forall name text fuel, find_entry name <> None -> file text -> step_bound text <= Z.of_nat fuel ->
  exists r, ohcount_parse (Some name) text fuel = Some r /\ r <> OutOfFuel.
Proof.
  intros name text fuel Hn Hf Hb. destruct (find_entry name) as [en|] eqn:E; [|congruence].
  destruct (run_ok _ _ _ E Hf _ Hb) as (r & Hr & H). exists r. split; auto.
  intros ->. exact H.
Qed.
Print Assumptions C18_scanners_terminate.

(** The result does not depend on the number of steps allowed. *)
Theorem C18_result_unique :
  forall name text f1 f2 r1 r2,
  ohcount_parse (Some name) text f1 = Some r1 -> ohcount_parse (Some name) text f2 = Some r2 ->
  r1 <> OutOfFuel -> r2 <> OutOfFuel -> r1 = r2.
Proof.
  intros name text f1 f2 r1 r2. unfold ohcount_parse, run_entry.
  destruct (find_entry name) as [en|]; [|discriminate].
  destruct (compile (en_parser en)) as [m|]; [|discriminate].
  intros [= <-] [= <-] H1 H2.
  assert (N1 : parse m text f1 <> OutOfFuel) by (intros X; rewrite X in H1; cbn in H1; congruence).
  assert (N2 : parse m text f2 <> OutOfFuel) by (intros X; rewrite X in H2; cbn in H2; congruence).
  pose proof (parse_more m text f1 f2 N1). pose proof (parse_more m text f2 f1 N2).
  rewrite (Nat.add_comm f2 f1) in *. congruence.
Qed.
Print Assumptions C18_result_unique.

(** ** C19 *)

(** Whatever a parser reports is a code, comment or blank line made of some bytes of the
    file, of the language of the file or one it embeds. *)
Theorem C19_reports_inside_file :
  forall name text fuel es, file text ->
  ohcount_parse (Some name) text fuel = Some (Ok es) -> Forall (line_report name text) es.
Proof.
  intros name text fuel es Hf H.
  destruct (find_entry name) as [en|] eqn:E.
  - destruct (run_ok _ _ _ E Hf (Z.to_nat (step_bound text)) ltac:(lia)) as (r & Hr & Hp).
    assert (r = Ok es).
    { eapply C18_result_unique; eauto; try discriminate. intros ->. exact Hp. }
    subst r. exact Hp.
  - unfold ohcount_parse in H. rewrite E in H. discriminate.
Qed.
Print Assumptions C19_reports_inside_file.

(** ** C44 *)

(** No invalid access, use of a NULL pointer, or overflow: for all languages but the
    html-like ones and rebol. *)
Theorem C44_scanners_safe :
  forall name text fuel, find_entry name <> None -> ~ In name html_like -> name <> "rebol" ->
  file text -> step_bound text <= Z.of_nat fuel ->
  exists es, ohcount_parse (Some name) text fuel = Some (Ok es).
Proof.
  intros name text fuel Hn H1 H2 Hf Hb. destruct (find_entry name) as [en|] eqn:E; [|congruence].
  destruct (run_ok _ _ _ E Hf _ Hb) as (r & Hr & H). destruct r as [es|u|].
  - exists es. auto.
  - intuition.
  - destruct H.
Qed.
Print Assumptions C44_scanners_safe.

(** In the html-like ones the use of NULL is all that can go wrong. *)
Theorem C44_html_like_safe_but_null :
  forall name text fuel, In name html_like -> file text -> step_bound text <= Z.of_nat fuel ->
  exists r, ohcount_parse (Some name) text fuel = Some r /\ (r = Ub NullDeref \/ is_ok r).
Proof.
  intros name text fuel Hn Hf Hb.
  assert (exists en, find_entry name = Some en) as (en & E).
  { apply found_some. assert (Ha : forallb found html_like = true) by (vm_compute; reflexivity).
    rewrite forallb_forall in Ha. auto. }
  destruct (run_ok _ _ _ E Hf _ Hb) as (r & Hr & H). exists r. split; auto. destruct r as [es|u|].
  - right. exists es. auto.
  - left. destruct H as [(-> & _)|(_ & ->)]; auto.
    exfalso. exact (rebol_not_html Hn).
  - destruct H.
Qed.
Print Assumptions C44_html_like_safe_but_null.

(** ... and rebol can only overflow its nesting counter. *)
Theorem C44_rebol_safe_but_overflow :
  forall text fuel, file text -> step_bound text <= Z.of_nat fuel ->
  exists r, ohcount_parse (Some "rebol") text fuel = Some r /\ (r = Ub IntOverflow \/ is_ok r).
Proof.
  intros text fuel Hf Hb. destruct (found_some "rebol") as (en & E); [vm_compute; reflexivity|].
  destruct (run_ok _ _ _ E Hf _ Hb) as (r & Hr & H). exists r. split; auto. destruct r as [es|u|].
  - right. exists es. auto.
  - left. destruct H as [(_ & H)|(-> & _)]; auto.
    exfalso. exact (rebol_not_html H).
  - destruct H.
Qed.
Print Assumptions C44_rebol_safe_but_overflow.

Definition nl : string := String (Ascii.ascii_of_nat 10) "".

(** The html-like ones do use NULL: in the closing tag of a style sheet, broken across
    lines, line_start is NULL when the newline is reported. *)
Definition broken_tag : list Z := bytes ("<style type='text/css'>" ++ nl ++ "</style" ++ nl ++ ">").

Theorem C44_style_end_tag_refuted :
  file broken_tag /\
  forall name, In name html_like -> exists text fuel, file text /\
    ohcount_parse (Some name) text fuel = Some (Ub NullDeref).
Proof.
  assert (Hf : file broken_tag).
  { split; [|vm_compute; discriminate]. intros c Hc. vm_compute in Hc. intuition lia. }
  split; auto.
  intros name Hn. exists broken_tag, 400%nat. split; auto.
  unfold html_like in Hn. cbn in Hn.
  repeat (destruct Hn as [<-|Hn]; [vm_compute; reflexivity|]). destruct Hn.
Qed.
Print Assumptions C44_style_end_tag_refuted.

(** ** Cases *)
Definition ex_c : list Z := bytes ("int x; // a" ++ nl ++ nl ++ "/* b" ++ nl ++ "*/" ++ nl ++ "y").

Example C18_case :
  find_entry "c" <> None /\ file ex_c /\
  ohcount_parse (Some "c") ex_c 400 =
    Some (Ok [mkEvent "c" "lcode" 0 12; mkEvent "c" "lblank" 12 13;
              mkEvent "c" "lcomment" 13 18; mkEvent "c" "lcomment" 18 21; mkEvent "c" "lcode" 21 22]).
Proof.
  split; [vm_compute; discriminate|]. split; [split; [|vm_compute; discriminate]|vm_compute; reflexivity].
  intros c Hc. vm_compute in Hc. intuition lia.
Qed.

Definition ex_php : list Z := bytes ("<p>" ++ nl ++ "<?php" ++ nl ++ "# x" ++ nl ++ "?>" ++ nl).
Example C19_case_embedded :
  ohcount_parse (Some "php") ex_php 400 =
    Some (Ok [mkEvent "html" "lcode" 0 4; mkEvent "php" "lcode" 4 10;
              mkEvent "php" "lcomment" 10 14; mkEvent "php" "lcode" 15 17])
  /\ ohcount_parse (Some "vala") (bytes "x") 400 = Some (Ok [mkEvent "vala" "lcode" 0 1])
  /\ ohcount_parse (Some "binary") (bytes "x") 400 = None /\ ohcount_parse None (bytes "x") 400 = None.
Proof. vm_compute. auto. Qed.

Example C44_case_rebol :
  ohcount_parse (Some "rebol") (bytes ("{ {a}" ++ nl ++ "b } ; c")) 400 =
    Some (Ok [mkEvent "rebol" "lcode" 0 6; mkEvent "rebol" "lcode" 6 13]).
Proof. vm_compute. reflexivity. Qed.
