(** Property C55: where reports end, and that recording them is safe. *)
From Coq Require Import ZArith String List Bool Lia.
From Verif Require Import Base LocModel LocSpec ParsedModel ParsedSpec ParsedProofs RagelSyntax RagelBuild RagelRun.
From Verif Require Import ParserTable ScanSpec PropertiesScan TailCheck TailProofs ScanCert.
Import ListNotations.
Open Scope string_scope.
Open Scope Z_scope.
Open Scope list_scope.

Lemma solid_not_blank text i : solid_at text i -> ~ blank_at text i.
Proof. intros (_ & c & Hc & Hb) (_ & [H|H]); rewrite Hc in H; injection H as ->; discriminate. Qed.

(** No report of any parser ends inside a run of blanks. *)
Theorem C55_reports_end_well :
  forall name text fuel es, file text -> ohcount_parse (Some name) text fuel = Some (Ok es) ->
  Forall (fun e => ~ inside_blanks text (e_end e)) es.
Proof.
  intros name text fuel es Hf H. unfold ohcount_parse, run_entry in H.
  destruct (find_entry name) as [en|] eqn:E; [|discriminate].
  assert (Hin : In en entries) by (unfold find_entry in E; apply find_some in E; tauto).
  destruct (all_certified _ Hin) as (tb & A). unfold certified_by in A.
  destruct (compile (en_parser en)) as [m|]; [|discriminate].
  apply andb_prop in A as [A _]. apply andb_prop in A as [_ A].
  pose proof (parse_ends m text _ A fuel) as P.
  destruct (parse m text fuel) as [es0|u|]; cbn [bind] in H; try discriminate. injection H as <-.
  cbn [fine] in P. rewrite Forall_forall in *. intros e He. apply in_map_iff in He.
  destruct He as (e0 & <- & He). cbn [rename e_end].
  intros (B1 & B2). destruct (P _ He) as [Hl|[Hs|Hs]].
  - destruct B2 as (B0 & B2). rewrite Hl, Nat2Z.id in B2.
    assert (nth_error text (length text) = None) by (apply nth_error_None; lia). destruct B2; congruence.
  - exact (solid_not_blank _ _ Hs B1).
  - exact (solid_not_blank _ _ Hs B2).
Qed.
Print Assumptions C55_reports_end_well.

Lemma slice_nth text s e i c : 0 <= s <= i -> i < e -> nth_error text (Z.to_nat i) = Some c -> In c (slice text s e).
Proof.
  intros H1 H2 H3. unfold slice. apply (nth_error_In _ (Z.to_nat (i - s))).
  rewrite nth_error_firstn' by lia. rewrite <- H3.
  replace (Z.to_nat i) with (Z.to_nat s + Z.to_nat (i - s))%nat by lia.
  generalize (Z.to_nat s), (Z.to_nat (i - s)). clear. intros a. revert text.
  induction a as [|a IH]; intros text b; cbn; auto. destruct text; cbn; auto. destruct b; auto.
Qed.

Lemma report_good name text e : line_report name text e -> ~ inside_blanks text (e_end e) -> good_event text e.
Proof.
  intros (_ & Hk & Hs & He) Hb. split; [cbn in Hk; intuition|]. split; [lia|]. split; [lia|]. intros _.
  destruct (Z.eq_dec (e_end e) (Z.of_nat (length text))) as [|Hne]; [auto|]. right.
  assert (Hex : forall i, 0 <= i < Z.of_nat (length text) -> exists c, nth_error text (Z.to_nat i) = Some c).
  { intros i Hi. destruct (nth_error text (Z.to_nat i)) eqn:E; eauto. apply nth_error_None in E. lia. }
  destruct (Hex (e_end e - 1)) as (a & Ha); [lia|]. destruct (Hex (e_end e)) as (b & Hb'); [lia|].
  destruct (blank a) eqn:Ba; [destruct (blank b) eqn:Bb|].
  - exfalso. apply Hb. unfold blank in Ba, Bb. apply orb_prop in Ba. apply orb_prop in Bb.
    split; (split; [lia|]); rewrite ?Ha, ?Hb'; [destruct Ba|destruct Bb]; [left|right|left|right]; f_equal; lia.
  - exists b. split; auto. eapply slice_nth; eauto; lia.
  - exists a. split; auto. eapply slice_nth; [| |exact Ha]; lia.
Qed.

Lemma parse_good name text fuel es : file text -> ohcount_parse (Some name) text fuel = Some (Ok es) ->
  Forall (good_event text) es.
Proof.
  intros Hf H. pose proof (C55_reports_end_well _ _ _ _ Hf H) as A.
  pose proof (C19_reports_inside_file _ _ _ _ Hf H) as B. rewrite Forall_forall in *.
  intros e He. eapply report_good; eauto.
Qed.

(** So for every language and every file, recording what the parser reports reads and
    writes no byte out of bounds and has no negative length.  (The number of reports has to
    be an int; it may be larger than the number of lines, see C56.) *)
Theorem C55_recording_safe :
  forall name text fuel es, file text -> Z.of_nat (length text) + 5 <= int_max ->
  ohcount_parse (Some name) text fuel = Some (Ok es) -> Z.of_nat (length es) <= int_max ->
  exists l, run_callbacks text [] es = Ok l /\
    map p_name l = first_occ (map e_lang es) /\
    forall pl, In pl l ->
      let room := Z.of_nat (length text) + 4 in
      let code := kept room (lines_of text (p_name pl) "lcode" es) in
      let comments := kept room (lines_of text (p_name pl) "lcomment" es) in
      area_string (p_code pl) = Ok (upto_nul (List.concat code)) /\
      a_cnt (p_code pl) = Z.of_nat (length code) /\
      area_string (p_comments pl) = Ok (upto_nul (List.concat comments)) /\
      a_cnt (p_comments pl) = Z.of_nat (length comments) /\
      p_blanks pl = Z.of_nat (length (events_of (p_name pl) "lblank" es)).
Proof.
  intros name text fuel es Hf Hs H Hn. pose proof (parse_good _ _ _ _ Hf H) as Hg.
  destruct (run_callbacks_ok text es [] [] Hg Hn Hs) as (l & E & Hm & Hl).
  { split; [reflexivity|intros pl []]. }
  cbn [app] in *. exists l. split; auto. split; auto. intros pl Hpl. cbn zeta.
  destruct (Hl pl Hpl) as (_ & _ & H3 & H4 & H5).
  pose proof (area_string_ok _ _ _ H3) as S3. pose proof (area_string_ok _ _ _ H4) as S4.
  destruct H3 as (_ & _ & _ & _ & _ & H3). destruct H4 as (_ & _ & _ & _ & _ & H4). auto.
Qed.
Print Assumptions C55_recording_safe.

(** ** Cases *)

(** A comment that is never closed is read again as code: its first line starts at an
    inner position then. *)
Definition open_comment : list Z := bytes ("  /* a" ++ nl ++ "  b" ++ nl).
Example C55_case :
  file open_comment /\
  ohcount_parse (Some "c") open_comment 400 =
    Some (Ok [mkEvent "c" "lcomment" 0 7; mkEvent "c" "lcode" 2 7; mkEvent "c" "lcode" 7 11])
  /\ ~ inside_blanks open_comment 7 /\ inside_blanks open_comment 8
  /\ match run_callbacks open_comment [] [mkEvent "c" "lcomment" 0 7; mkEvent "c" "lcode" 2 7; mkEvent "c" "lcode" 7 11] with
     | Ok [pl] => area_string (p_code pl) = Ok (bytes ("/* a" ++ nl ++ "b" ++ nl)) /\ a_cnt (p_comments pl) = 1
     | _ => False end.
Proof.
  split; [split; [|vm_compute; discriminate]|].
  { intros c Hc. vm_compute in Hc. intuition lia. }
  split; [vm_compute; reflexivity|]. split.
  { intros ((_ & H) & _). vm_compute in H. destruct H; discriminate. }
  split; [repeat split; try lia; vm_compute; auto|]. vm_compute. auto.
Qed.

(** A report of blanks alone, in front of a byte that is not one; such a span would be
    recorded as nothing. *)
Definition broken_end : list Z := bytes ("<style type='text/css'>" ++ nl ++ "  </style" ++ nl ++ "x").
Example C55_case_html :
  ohcount_parse (Some "html") broken_end 400 =
    Some (Ok [mkEvent "html" "lcode" 0 24; mkEvent "css" "lblank" 24 26; mkEvent "css" "lcode" 26 34;
              mkEvent "html" "lcode" 34 35]).
Proof. vm_compute. reflexivity. Qed.
