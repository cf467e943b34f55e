(** Property C56: the number of reports, and what it does to the counters. *)
From Coq Require Import ZArith String List Bool Lia.
From Verif Require Import Base Arr LocModel LocSpec ParsedModel ParsedSpec ParsedProofs RagelSyntax RagelBuild RagelRun.
From Verif Require Import ParserTable ScanSpec PropertiesScan OpenComments.
Import ListNotations.
Open Scope string_scope.
Open Scope Z_scope.
Open Scope list_scope.

Lemma compile_c : exists en, find_entry "c" = Some en /\ compile (en_parser en) = Some cm /\
  forall k s e, rename (en_vars en) (mkEvent "C_LANG" k s e) = mkEvent "c" k s e.
Proof.
  destruct (find_entry "c") as [en|] eqn:E; [|vm_compute in E; discriminate].
  exists en. split; auto. split.
  - assert (H : (match find_entry "c" with Some en => match compile (en_parser en) with Some _ => true | None => false end | None => false end) = true)
      by (vm_compute; reflexivity).
    unfold cm. rewrite E in *. destruct (compile (en_parser en)); [reflexivity|discriminate].
  - intros k s e.
    assert (H : option_map (fun en => rename (en_vars en) (mkEvent "C_LANG" k s e)) (find_entry "c") = Some (mkEvent "c" k s e))
      by (vm_compute; reflexivity).
    rewrite E in H. cbn [option_map] in H. congruence.
Qed.

Lemma openings_file n : Z.of_nat (4 * n) <= int_max -> file (openings n).
Proof.
  intros H. split; [|rewrite openings_length; exact H].
  clear H. induction n as [|n IH]; intros c; cbn [openings app In]; [tauto|].
  intros [<-|[<-|[<-|[<-|H]]]]; try lia. apply IH. exact H.
Qed.

(** What is recorded, named by the language. *)
Definition named (e : event) : event := mkEvent "c" (e_entity e) (e_start e) (e_end e).

Lemma reports_c n e : In e (reports n) -> e_lang e = "C_LANG".
Proof.
  unfold reports, reports_from. rewrite in_flat_map. intros (a & _ & H). rewrite in_app_iff, in_flat_map in H.
  destruct H as [(b & _ & H)|H]; cbn in H; intuition (subst; reflexivity).
Qed.

Lemma parse_reports n fuel : Z.of_nat (4 * n) <= int_max -> step_bound (openings n) <= Z.of_nat fuel ->
  ohcount_parse (Some "c") (openings n) fuel = Some (Ok (map named (reports n))).
Proof.
  intros Hn Hf. pose proof (openings_file n Hn) as Hfile.
  destruct compile_c as (en & E & Ec & Hr).
  destruct (C18_scanners_terminate "c" (openings n) fuel) as (r & Er & Hne); auto; [congruence|].
  rewrite Er. f_equal.
  destruct (parse_openings cm d0 cm_shape cm_cells n) as (f & Ep).
  eapply C18_result_unique; [exact Er| |exact Hne|discriminate].
  instantiate (1 := f). unfold ohcount_parse, run_entry. rewrite E, Ec, Ep. cbn [bind]. do 2 f_equal.
  apply map_ext_in. intros e He. apply reports_c in He. destruct e as [g k s t]. cbn in He. subst g. apply Hr.
Qed.

(** *** How many *)
Lemma from_length n a : (a < n)%nat -> length (reports_from n a) = (2 * (n - a) + 1)%nat.
Proof.
  intros H. unfold reports_from. rewrite app_length. cbn [length].
  assert (L : forall l, length (flat_map (fun b => [comment b; empty b]) l) = (2 * length l)%nat).
  { induction l; cbn [flat_map length app]; [reflexivity|]. lia. }
  rewrite L, seq_length. lia.
Qed.
Lemma from_blanks n a : (a < n)%nat ->
  length (filter (fun e => String.eqb (e_entity e) "lblank") (reports_from n a)) = (n - a)%nat.
Proof.
  intros H. unfold reports_from. rewrite filter_app, app_length. cbn [filter].
  assert (L : forall l, length (filter (fun e => String.eqb (e_entity e) "lblank") (flat_map (fun b => [comment b; empty b]) l)) = length l).
  { induction l; cbn [flat_map length app]; [reflexivity|]. cbn [filter comment empty span e_entity String.eqb Ascii.eqb Bool.eqb length]. lia. }
  rewrite L, seq_length. cbn. lia.
Qed.
Lemma total_length n k : (k <= n)%nat -> Z.of_nat (length (flat_map (reports_from n) (seq 0 k))) = Z.of_nat k * (2 * Z.of_nat n - Z.of_nat k + 2).
Proof.
  induction k as [|k IH]; intros H; [reflexivity|].
  rewrite seq_S, flat_map_app, app_length. cbn [flat_map]. rewrite app_nil_r, from_length by lia.
  rewrite Nat2Z.inj_add, IH by lia. cbn [Nat.add]. nia.
Qed.
Lemma total_blanks n k : (k <= n)%nat ->
  2 * Z.of_nat (length (filter (fun e => String.eqb (e_entity e) "lblank") (flat_map (reports_from n) (seq 0 k)))) =
  Z.of_nat k * (2 * Z.of_nat n - Z.of_nat k + 1).
Proof.
  induction k as [|k IH]; intros H; [reflexivity|].
  rewrite seq_S, flat_map_app, filter_app, app_length. cbn [flat_map]. rewrite app_nil_r, from_blanks by lia.
  rewrite Nat2Z.inj_add, Z.mul_add_distr_l, IH by lia. cbn [Nat.add]. nia.
Qed.

(** A file of 2n lines, each with its end, makes n(n+2) reports. *)
Theorem C56_reports_per_line_refuted :
  forall n fuel, Z.of_nat (4 * n) <= int_max -> step_bound (openings n) <= Z.of_nat fuel ->
  exists es, ohcount_parse (Some "c") (openings n) fuel = Some (Ok es) /\
    count_occ Z.eq_dec (openings n) 10 = (2 * n)%nat /\
    length es = (n * (n + 2))%nat.
Proof.
  intros n fuel Hn Hf. exists (map named (reports n)). split; [apply parse_reports; auto|]. split.
  - clear. induction n; [reflexivity|]. cbn [openings app count_occ]. repeat (destruct Z.eq_dec; try lia).
  - rewrite map_length. unfold reports. pose proof (total_length n n). nia.
Qed.
Print Assumptions C56_reports_per_line_refuted.

(** *** The blank counter *)

(** A report that starts with a byte that is not a blank. *)
Definition plain (text : list Z) (e : event) : Prop :=
  e_lang e = "c" /\ In (e_entity e) ["lcode"; "lcomment"; "lblank"] /\
  0 <= e_start e < e_end e /\ e_end e <= Z.of_nat (length text) /\
  exists c, src text (e_start e) = Ok c /\ blank c = false.

Lemma volume_long (ls : list (list Z)) : Forall (fun l => l <> []) ls -> Z.of_nat (length ls) <= volume ls.
Proof.
  induction 1 as [|l ls H _ IH]; [cbn; lia|]. change (l :: ls) with ([l] ++ ls). rewrite volume_app, volume_one, app_length.
  destruct l; [congruence|]. cbn [length]. lia.
Qed.
Lemma slice_long text p n : 0 <= p -> 0 < n -> p + n <= Z.of_nat (length text) -> slice text p (p + n) <> [].
Proof.
  intros H1 H2 H3 E. apply (f_equal (@length Z)) in E. unfold slice in E.
  rewrite firstn_length, skipn_length in E. cbn in E. lia.
Qed.

Section Over.
  Variable text : list Z.
  Let n := Z.of_nat (length text).
  Hypothesis Hn : n + 5 <= int_max.

  Definition over_inv (k : Z) (pl : plang) : Prop :=
    p_name pl = "c" /\ p_size pl = n /\ p_blanks pl = k /\
    (exists ls, area_inv n (p_code pl) ls /\ Forall (fun l => l <> []) ls) /\
    (exists ls, area_inv n (p_comments pl) ls /\ Forall (fun l => l <> []) ls).

  Lemma area_more a ls p len : area_inv n a ls -> Forall (fun l => l <> []) ls -> 0 <= p -> 0 < len -> p + len <= n ->
    exists a', area_add n a text p len = Ok a' /\ exists ls', area_inv n a' ls' /\ Forall (fun l => l <> []) ls'.
  Proof.
    intros Ha Hl Hp H0 Hlen. pose proof (volume_long _ Hl) as V. pose proof (proj1 (proj2 (proj2 Ha))) as V'.
    destruct (area_add_ok n a ls text p len Ha) as (a' & E & I); try (unfold n in *; lia).
    exists a'. split; auto. eexists. split; [exact I|]. destruct (volume ls + len <? n + 5); auto.
    apply Forall_app. split; auto. constructor; [|constructor]. apply slice_long; unfold n in *; lia.
  Qed.

  Lemma skip_none e c : src text (e_start e) = Ok c -> blank c = false ->
    skip_blanks (S (S (length text))) text (e_start e) = Ok (e_start e).
  Proof. intros H Hb. cbn [skip_blanks]. rewrite H. cbn [bind]. unfold blank in Hb. rewrite Hb. reflexivity. Qed.

  Lemma overflow es : forall k pl, over_inv k pl -> 0 <= k <= int_max -> Forall (plain text) es ->
    int_max < k + Z.of_nat (length (filter (fun e => String.eqb (e_entity e) "lblank") es)) ->
    run_callbacks text [pl] es = Ub IntOverflow.
  Proof.
    induction es as [|e es IH]; intros k pl Hi Hk Hp Hc; [cbn in Hc; lia|].
    inversion Hp as [|? ? (Hg & He & Hs & Hl & c & Hsrc & Hb) Hrest]; subst.
    destruct Hi as (I1 & I2 & I3 & (ls1 & I4 & I4') & (ls2 & I5 & I5')).
    cbn [run_callbacks]. unfold parser_callback. cbn [with_lang]. rewrite I1, Hg, String.eqb_refl.
    cbn [filter] in Hc. cbn [In] in He.
    destruct He as [He|[He|[He|[]]]]; rewrite <- He in Hc |- *; cbn [String.eqb Ascii.eqb Bool.eqb] in Hc |- *.
    - rewrite (skip_none _ _ Hsrc Hb). cbn [bind]. unfold add_code. rewrite I2.
      destruct (area_more (p_code pl) ls1 (e_start e) (e_end e - e_start e)) as (a & Ea & HI); auto; try lia.
      fold n. rewrite Ea. cbn [bind]. apply (IH k); auto. unfold over_inv. cbn. eauto 10.
    - rewrite (skip_none _ _ Hsrc Hb). cbn [bind]. unfold add_comment. rewrite I2.
      destruct (area_more (p_comments pl) ls2 (e_start e) (e_end e - e_start e)) as (a & Ea & HI); auto; try lia.
      fold n. rewrite Ea. cbn [bind]. apply (IH k); auto. unfold over_inv. cbn. eauto 10.
    - rewrite I3. cbn [length] in Hc. destruct (Z.eq_dec k int_max) as [->|Hne].
      + reflexivity.
      + rewrite ckint_ok by (unfold int_min; lia). cbn [bind]. apply (IH (k + 1)); auto; try lia.
        unfold over_inv. cbn. eauto 10.
  Qed.
End Over.

Lemma named_plain n e : In e (reports n) -> plain (openings n) (named e).
Proof.
  assert (H : forall j, (j < n)%nat -> plain (openings n) (named (comment j)) /\ plain (openings n) (named (code j)) /\
    plain (openings n) (named (empty j))).
  { intros j Hj. destruct (openings_nth n j Hj) as (A & B & C & D).
    assert (S0 : src (openings n) (Z.of_nat (4 * j)) = Ok 47) by (unfold src; match goal with |- context [?x <? 0] => destruct (Z.ltb_spec x 0) end; [lia|]; rewrite Nat2Z.id, A; reflexivity).
    assert (S3 : src (openings n) (Z.of_nat (4 * j + 3)) = Ok 10) by (unfold src; match goal with |- context [?x <? 0] => destruct (Z.ltb_spec x 0) end; [lia|]; rewrite Nat2Z.id, D; reflexivity).
    unfold plain, named, comment, code, empty, span. cbn [e_lang e_entity e_start e_end]. rewrite openings_length.
    repeat split; try lia; try (cbn; tauto); eexists; (split; [eassumption|reflexivity]). }
  unfold reports. rewrite in_flat_map. intros (a & Ha & He). apply in_seq in Ha.
  unfold reports_from in He. rewrite in_app_iff, in_flat_map in He.
  destruct He as [(b & Hb & He)|He].
  - apply in_seq in Hb. destruct (H b) as (H1 & H2 & H3); [lia|]. cbn in He. intuition (subst; auto).
  - destruct (H a) as (H1 & H2 & H3); [lia|]. destruct (H (n - 1)%nat) as (H4 & _); [lia|]. cbn in He. intuition (subst; auto).
Qed.

(** From 65536 openings on (256 kB) there are more blank reports than an int can count:
    the callback overflows its counter, which is undefined. *)
Theorem C56_blank_counter_refuted :
  forall n fuel, 65536 <= Z.of_nat n -> Z.of_nat (4 * n) + 5 <= int_max -> step_bound (openings n) <= Z.of_nat fuel ->
  exists es, ohcount_parse (Some "c") (openings n) fuel = Some (Ok es) /\
    run_callbacks (openings n) [] es = Ub IntOverflow.
Proof.
  intros n fuel H1 H2 Hf. exists (map named (reports n)). split; [apply parse_reports; lia|].
  assert (L : Z.of_nat (length (openings n)) + 5 <= int_max) by (rewrite openings_length; lia).
  assert (P : Forall (plain (openings n)) (map named (reports n))).
  { apply Forall_forall. intros e He. apply in_map_iff in He. destruct He as (e0 & <- & He). apply named_plain. auto. }
  assert (B : int_max < 0 + Z.of_nat (length (filter (fun e => String.eqb (e_entity e) "lblank") (map named (reports n))))).
  { assert (F : forall l, length (filter (fun e => String.eqb (e_entity e) "lblank") (map named l)) =
                          length (filter (fun e => String.eqb (e_entity e) "lblank") l)).
    { induction l as [|x l IH]; [reflexivity|]. cbn [map filter named e_entity]. destruct (String.eqb _ _); cbn [length]; lia. }
    rewrite F. pose proof (total_blanks n n (le_n _)) as T. fold (reports n) in T. unfold int_max in *.
    assert (65536 * 65537 <= Z.of_nat n * (2 * Z.of_nat n - Z.of_nat n + 1)) by nia. lia. }
  destruct (area_new_ok (Z.of_nat (length (openings n)))) as (a & Ea & Ha); try lia.
  assert (R : run_callbacks (openings n) [mkPlang "c" (Z.of_nat (length (openings n))) a a 0] (map named (reports n)) = Ub IntOverflow).
  { eapply overflow; eauto; [|unfold int_max; lia]. unfold over_inv. cbn. split; auto. split; auto. split; auto.
    split; exists []; auto. }
  (* the first event makes the entry *)
  destruct (map named (reports n)) as [|e es] eqn:E; [cbn in B; unfold int_max in B; lia|].
  cbn [run_callbacks] in *. unfold parser_callback in *. cbn [with_lang] in *.
  inversion P as [|? ? (Hg & _) _]; subst. rewrite Hg in *. cbn [p_name String.eqb Ascii.eqb Bool.eqb] in R.
  unfold plang_new. rewrite Ea. cbn [bind]. exact R.
Qed.
Print Assumptions C56_blank_counter_refuted.

(** ** Cases *)
Example C56_case :
  ohcount_parse (Some "c") (openings 2) 300 = Some (Ok
    [mkEvent "c" "lcomment" 0 3; mkEvent "c" "lblank" 3 4; mkEvent "c" "lcomment" 4 7;
     mkEvent "c" "lcode" 0 3; mkEvent "c" "lblank" 3 4; mkEvent "c" "lcomment" 4 7;
     mkEvent "c" "lcode" 4 7; mkEvent "c" "lblank" 7 8]).
Proof. vm_compute. reflexivity. Qed.
(** The hypotheses hold for 65536 openings. *)
Example C56_case_large : 65536 <= Z.of_nat (Z.to_nat 65536) /\ Z.of_nat (4 * Z.to_nat 65536) + 5 <= int_max.
Proof. rewrite Nat2Z.inj_mul, Z2Nat.id by lia. split; [lia|]. vm_compute. discriminate. Qed.
(** What is recorded of four lines: two of code, three comments, three blanks. *)
Example C56_case_counts :
  match ohcount_parse (Some "c") (openings 2) 300 with
  | Some (Ok es) => match run_callbacks (openings 2) [] es with
    | Ok [pl] => (a_cnt (p_code pl), a_cnt (p_comments pl), p_blanks pl) = (2, 3, 3)
    | _ => False end
  | _ => False end.
Proof. vm_compute. reflexivity. Qed.
