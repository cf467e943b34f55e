(** Properties C15-C17: parse results (parsed_language.c, sourcefile.c). *)
From Coq Require Import ZArith String List Bool Lia.
From Verif Require Import Base Arr LocModel LocSpec LocProofs ParsedModel ParsedSpec ParsedProofs.
Import ListNotations.
Open Scope string_scope.
Open Scope Z_scope.
Open Scope list_scope.

(** ** C15 *)

(** Any sequence of calls with pieces of memory of non-negative length runs
    without undefined behaviour (in particular no write outside of the buffers).
    Each buffer holds the pieces that found room; [kept] drops a piece exactly
    when the bytes kept before plus the piece exceed buffer_size + 4. *)
Theorem C15_buffers_safe :
  forall n name cs, 0 <= n -> n + 5 <= int_max -> Forall good_call cs ->
  Z.of_nat (length cs) <= int_max ->
  exists pl0 pl, plang_new name n = Ok pl0 /\ run_calls pl0 cs = Ok pl /\
    p_name pl = name /\
    area_string (p_code pl) = Ok (upto_nul (concat (kept (n + 4) (given true cs)))) /\
    area_string (p_comments pl) = Ok (upto_nul (concat (kept (n + 4) (given false cs)))) /\
    a_cnt (p_code pl) = Z.of_nat (length (kept (n + 4) (given true cs))) /\
    a_cnt (p_comments pl) = Z.of_nat (length (kept (n + 4) (given false cs))) /\
    p_blanks pl = 0.
Proof.
  intros n name cs H0 H1 Hg Hl. destruct (calls_new n name H0 H1) as (pl0 & E0 & I0).
  destruct (run_calls_ok n name cs [] pl0 Hg Hl I0) as (pl & E & I1 & I2 & I3 & I4 & I5).
  exists pl0, pl. split; auto. split; auto. split; auto.
  split; [eapply area_string_ok; eauto|]. split; [eapply area_string_ok; eauto|].
  destruct I4 as (_ & _ & _ & _ & _ & I4). destruct I5 as (_ & _ & _ & _ & _ & I5). auto.
Qed.
Print Assumptions C15_buffers_safe.

(** Nothing is dropped as long as the text given fits in the file size (and even
    4 bytes more). *)
Theorem C15_nothing_dropped :
  forall n name cs, 0 <= n -> n + 5 <= int_max -> Forall good_call cs ->
  Z.of_nat (length cs) <= int_max ->
  volume (given true cs) <= n + 4 -> volume (given false cs) <= n + 4 ->
  (forall c, In c cs -> ~ In 0 (k_text c)) ->
  exists pl0 pl, plang_new name n = Ok pl0 /\ run_calls pl0 cs = Ok pl /\
    area_string (p_code pl) = Ok (concat (given true cs)) /\
    area_string (p_comments pl) = Ok (concat (given false cs)) /\
    a_cnt (p_code pl) = Z.of_nat (length (given true cs)) /\
    a_cnt (p_comments pl) = Z.of_nat (length (given false cs)).
Proof.
  intros n name cs H0 H1 Hg Hl Hv1 Hv2 Hz.
  destruct (C15_buffers_safe n name cs H0 H1 Hg Hl) as (pl0 & pl & E0 & E & _ & A & B & C & D & _).
  rewrite kept_all in A, C by auto. rewrite kept_all in B, D by auto.
  assert (Hnz : forall b, ~ In 0 (concat (given b cs))).
  { intros b Hin. apply in_concat in Hin as (l & Hl1 & Hl2). unfold given in Hl1.
    apply in_map_iff in Hl1 as (c & <- & Hc). apply filter_In in Hc as [Hc _]. apply (Hz c Hc).
    unfold slice in Hl2. rewrite <- (firstn_skipn (Z.to_nat (k_p c)) (k_text c)). apply in_app_iff. right.
    rewrite <- (firstn_skipn (Z.to_nat (k_p c + k_len c - k_p c)) (skipn (Z.to_nat (k_p c)) (k_text c))).
    apply in_app_iff. auto. }
  rewrite upto_nul_id in A, B by auto.
  exists pl0, pl. auto 8.
Qed.
Print Assumptions C15_nothing_dropped.

Definition ex_calls : list call :=
  [ mkCall true (bytes "int x;  // a") 0 6; mkCall false (bytes "int x;  // a") 8 4;
    mkCall true (bytes "int y;") 0 6 ].

Example C15_case :
  Forall good_call ex_calls /\
  given true ex_calls = [bytes "int x;"; bytes "int y;"] /\
  volume (given true ex_calls) = 12 /\
  (* buffer_size 8: exactly 12 bytes fit *)
  match plang_new "c" 8 with
  | Ok pl => match run_calls pl ex_calls with
             | Ok pl => area_string (p_code pl) = Ok (bytes "int x;int y;") /\
                        area_string (p_comments pl) = Ok (bytes "// a") /\ a_cnt (p_code pl) = 2
             | _ => False end
  | _ => False end /\
  (* buffer_size 7: the second line is dropped without notice *)
  match plang_new "c" 7 with
  | Ok pl => match run_calls pl ex_calls with
             | Ok pl => area_string (p_code pl) = Ok (bytes "int x;") /\ a_cnt (p_code pl) = 1
             | _ => False end
  | _ => False end.
Proof.
  split; [repeat constructor; cbn; lia|]. vm_compute. repeat split.
Qed.

(** The lengths are not checked: a negative one always passes the test and is
    undefined behaviour, whatever happened before. *)
Theorem C15_negative_length :
  forall n name cs c, 0 <= n -> n + 5 <= int_max -> Forall good_call cs ->
  Z.of_nat (length cs) <= int_max -> k_len c < 0 ->
  exists pl0, plang_new name n = Ok pl0 /\ run_calls pl0 (cs ++ [c]) = Ub NegLength.
Proof.
  intros n name cs c H0 H1 Hg Hl Hneg. destruct (calls_new n name H0 H1) as (pl0 & E0 & I0).
  destruct (run_calls_ok n name cs [] pl0 Hg Hl I0) as (pl & E & _ & I2 & _ & I4 & I5). exists pl0. split; auto.
  cbn [app] in *.
  assert (Ha : forall a ls, area_inv n a ls -> area_add n a (k_text c) (k_p c) (k_len c) = Ub NegLength).
  { intros a ls (_ & Hc & Hv & _). unfold area_add. rewrite Hc.
    destruct (Z.ltb_spec (volume ls + k_len c) (n + 5)); [|lia].
    destruct (Z.ltb_spec (k_len c) 0); [auto|lia]. }
  rewrite run_calls_app, E. cbn [bind run_calls].
  destruct (k_code c); unfold add_code, add_comment; rewrite I2.
  - rewrite (Ha _ _ I4). auto.
  - rewrite (Ha _ _ I5). auto.
Qed.
Print Assumptions C15_negative_length.

(** ** C16 *)

(** A sequence of reported lines is recorded: one entry per language in order of
    first report; the code text of a language is the concatenation of its code
    lines without their leading blanks, the counters are the numbers of lines.
    [kept] is the capacity rule of C15. *)
Theorem C16_callbacks_record :
  forall text es, ~ In 0 text -> Z.of_nat (length text) + 5 <= int_max ->
  Z.of_nat (length es) <= int_max -> Forall (good_event text) es ->
  exists l, run_callbacks text [] es = Ok l /\
    map p_name l = first_occ (map e_lang es) /\
    forall pl, In pl l ->
      let room := Z.of_nat (length text) + 4 in
      let code := kept room (lines_of text (p_name pl) "lcode" es) in
      let comments := kept room (lines_of text (p_name pl) "lcomment" es) in
      area_string (p_code pl) = Ok (concat code) /\
      a_cnt (p_code pl) = Z.of_nat (length code) /\
      area_string (p_comments pl) = Ok (concat comments) /\
      a_cnt (p_comments pl) = Z.of_nat (length comments) /\
      p_blanks pl = Z.of_nat (length (events_of (p_name pl) "lblank" es)).
Proof.
  intros text es Hz Hs Hn Hg.
  destruct (run_callbacks_ok text es [] [] Hg Hn Hs) as (l & E & Hm & Hl).
  { split; [reflexivity|intros pl []]. }
  cbn [app] in *. exists l. split; auto. split; auto. intros pl Hpl. cbn zeta.
  destruct (Hl pl Hpl) as (_ & _ & H3 & H4 & H5).
  pose proof (area_string_ok _ _ _ H3) as S3. pose proof (area_string_ok _ _ _ H4) as S4.
  destruct H3 as (_ & _ & _ & _ & _ & H3). destruct H4 as (_ & _ & _ & _ & _ & H4).
  rewrite upto_nul_id in S3 by (apply (lines_nonul text); auto).
  rewrite upto_nul_id in S4 by (apply (lines_nonul text); auto). auto.
Qed.
Print Assumptions C16_callbacks_record.

(** If the lines of a kind of a language do not overlap they fit in the file, and
    then no line is lost.  Here the weaker condition on the volume is used. *)
Theorem C16_callbacks_complete :
  forall text es, ~ In 0 text -> Z.of_nat (length text) + 5 <= int_max ->
  Z.of_nat (length es) <= int_max -> Forall (good_event text) es ->
  (forall g, volume (lines_of text g "lcode" es) <= Z.of_nat (length text) + 4) ->
  (forall g, volume (lines_of text g "lcomment" es) <= Z.of_nat (length text) + 4) ->
  exists l, run_callbacks text [] es = Ok l /\
    map p_name l = first_occ (map e_lang es) /\
    forall pl, In pl l ->
      area_string (p_code pl) = Ok (concat (lines_of text (p_name pl) "lcode" es)) /\
      a_cnt (p_code pl) = Z.of_nat (length (events_of (p_name pl) "lcode" es)) /\
      area_string (p_comments pl) = Ok (concat (lines_of text (p_name pl) "lcomment" es)) /\
      a_cnt (p_comments pl) = Z.of_nat (length (events_of (p_name pl) "lcomment" es)) /\
      p_blanks pl = Z.of_nat (length (events_of (p_name pl) "lblank" es)).
Proof.
  intros text es Hz Hs Hn Hg V1 V2.
  destruct (C16_callbacks_record text es Hz Hs Hn Hg) as (l & E & Hm & Hl).
  exists l. split; auto. split; auto. intros pl Hpl. specialize (Hl pl Hpl). cbn zeta in Hl.
  rewrite !kept_all in Hl by auto. unfold lines_of in Hl at 2 4. rewrite !map_length in Hl. exact Hl.
Qed.
Print Assumptions C16_callbacks_complete.

(** Lines reported at most once, in order, always fit. *)
Theorem C16_ordered_spans_fit :
  forall text es, Forall (good_event text) es -> ordered_spans 0 es ->
  forall g k, volume (lines_of text g k es) <= Z.of_nat (length text).
Proof. intros text es Hg Ho g k. pose proof (ordered_fit text es g k 0 ltac:(lia) Hg Ho ltac:(lia)). lia. Qed.
Print Assumptions C16_ordered_spans_fit.

Definition ex_text : list Z := bytes "a;" ++ [10; 10; 9] ++ bytes "# x" ++ [10; 32; 32] ++ bytes "b" ++ [10].
Definition ex_events : list event :=
  [ mkEvent "c" "lcode" 0 3; mkEvent "c" "lblank" 3 4; mkEvent "ruby" "lcomment" 4 9; mkEvent "c" "lcode" 9 13 ].

Example C16_case :
  Forall (good_event ex_text) ex_events /\ ordered_spans 0 ex_events /\ ~ In 0 ex_text /\
  lines_of ex_text "c" "lcode" ex_events = [bytes "a;" ++ [10]; bytes "b" ++ [10]] /\
  match run_callbacks ex_text [] ex_events with
  | Ok [c; r] => p_name c = "c" /\ area_string (p_code c) = Ok (bytes "a;" ++ [10] ++ bytes "b" ++ [10]) /\
                 a_cnt (p_code c) = 2 /\ p_blanks c = 1 /\
                 area_string (p_comments r) = Ok (bytes "# x" ++ [10]) /\ a_cnt (p_comments r) = 1
  | _ => False end.
Proof.
  split.
  { assert (Hge : forall text e c, (e_entity e = "lcode" \/ e_entity e = "lcomment") -> 0 <= e_start e <= e_end e ->
      e_end e <= Z.of_nat (length text) -> In c (slice text (e_start e) (e_end e + 1)) -> blank c = false -> good_event text e).
    { intros text e c H1 H2 H3 H4 H5. split; [tauto|]. split; [auto|]. split; [auto|]. eauto. }
    apply Forall_cons; [|apply Forall_cons; [|apply Forall_cons; [|apply Forall_cons; [|apply Forall_nil]]]].
    - apply (Hge _ _ 59); [cbn; auto|cbn; lia|vm_compute; discriminate|vm_compute; auto|reflexivity].
    - split; [cbn; auto|]. split; [cbn; lia|]. split; [vm_compute; discriminate|]. cbn. congruence.
    - apply (Hge _ _ 35); [cbn; auto|cbn; lia|vm_compute; discriminate|vm_compute; auto|reflexivity].
    - apply (Hge _ _ 98); [cbn; auto|cbn; lia|vm_compute; discriminate|vm_compute; auto|reflexivity]. }
  split; [cbn; lia|]. split; [vm_compute; intuition discriminate|]. vm_compute. repeat split.
Qed.

(** Reported twice, a line is lost: the capacity of the buffer is the file. *)
Theorem C16_repeated_spans_refuted :
  exists text es l pl, ~ In 0 text /\ Forall (good_event text) es /\
    run_callbacks text [] es = Ok l /\ In pl l /\
    a_cnt (p_code pl) < Z.of_nat (length (events_of (p_name pl) "lcode" es)).
Proof.
  exists (bytes "abcde"), [mkEvent "c" "lcode" 0 5; mkEvent "c" "lcode" 0 5].
  destruct (run_callbacks (bytes "abcde") [] [mkEvent "c" "lcode" 0 5; mkEvent "c" "lcode" 0 5]) as [[|pl l]|w|] eqn:E;
    try (vm_compute in E; discriminate).
  exists (pl :: l), pl. split; [vm_compute; intuition discriminate|]. split.
  { assert (Hg : good_event (bytes "abcde") (mkEvent "c" "lcode" 0 5)); [|apply Forall_cons; [exact Hg|]; apply Forall_cons; [exact Hg|apply Forall_nil]].
    split; [auto|]. split; [cbn; lia|]. split; [vm_compute; congruence|]. intros _. right. exists 97.
    split; [vm_compute; auto|reflexivity]. }
  split; auto. split; [left; auto|].
  vm_compute in E. injection E as <- <-. vm_compute. reflexivity.
Qed.
Print Assumptions C16_repeated_spans_refuted.

(** A span of blanks reported as code or as a comment, followed by another blank,
    is copied with a negative length, after any history. *)
Theorem C16_blank_span_undefined :
  forall text es e, Z.of_nat (length text) + 5 <= int_max ->
  Z.of_nat (length es) <= int_max -> Forall (good_event text) es ->
  (e_entity e = "lcode" \/ e_entity e = "lcomment") ->
  0 <= e_start e <= e_end e -> e_end e < Z.of_nat (length text) ->
  (forall c, In c (slice text (e_start e) (e_end e + 1)) -> blank c = true) ->
  run_callbacks text [] (es ++ [e]) = Ub NegLength.
Proof.
  intros text es e Hs Hn Hg Hk Hr He Hb.
  destruct (run_callbacks_ok text es [] [] Hg Hn Hs) as (l & E & Hm & Hl).
  { split; [reflexivity|intros pl []]. }
  cbn [app] in *. rewrite run_callbacks_app, E. cbn [bind run_callbacks].
  assert (Hneg : forall g pl, pl_inv text es g pl -> callback_body text e pl = Ub NegLength).
  { intros g pl (_ & P2 & P3 & P4 & _). eapply callback_neg; eauto. }
  replace (parser_callback text l e) with (@Ub (list plang) NegLength); auto. symmetry.
  unfold parser_callback. fold (callback_body text e).
  assert (Hin : In (e_lang e) (map p_name l) \/ ~ In (e_lang e) (map e_lang es)).
  { rewrite Hm. destruct (in_dec string_dec (e_lang e) (map e_lang es)); [left; apply in_first_occ|]; auto. }
  apply (with_lang_neg text es e l Hs Hneg Hl Hin).
Qed.
Print Assumptions C16_blank_span_undefined.

Example C16_blank_case :
  run_callbacks (bytes "x  y") [] [mkEvent "c" "lcode" 0 1; mkEvent "c" "lcomment" 1 2] = Ub NegLength.
Proof. vm_compute. reflexivity. Qed.

(** ** C17 *)
Theorem C17_loc_list_of_events :
  forall text es, Z.of_nat (length text) + 5 <= int_max ->
  Z.of_nat (length es) <= int_max -> Forall (good_event text) es ->
  (forall g, volume (lines_of text g "lcode" es) <= Z.of_nat (length text) + 4) ->
  (forall g, volume (lines_of text g "lcomment" es) <= Z.of_nat (length text) + 4) ->
  exists l h lst, run_callbacks text [] es = Ok l /\ get_loc_list l = Ok (h, lst) /\
    list_items h lst =
      Ok (map (fun g => mkLoc g (Z.of_nat (length (events_of g "lcode" es)))
                              (Z.of_nat (length (events_of g "lcomment" es)))
                              (Z.of_nat (length (events_of g "lblank" es))) 1)
              (first_occ (map e_lang es))).
Proof.
  intros text es Hs Hn Hg V1 V2.
  destruct (run_callbacks_ok text es [] [] Hg Hn Hs) as (l & E & HI).
  { split; [reflexivity|intros pl []]. }
  cbn [app] in *. destruct (list_inv_locs text es l HI Hn) as (h & lst & E2 & E3).
  exists l, h, lst. split; auto. split; auto. rewrite E3. f_equal. destruct HI as [Hm Hl].
  rewrite <- Hm, map_map. apply map_ext_in. intros pl Hpl.
  destruct (Hl pl Hpl) as (_ & _ & H3 & H4 & H5).
  destruct H3 as (_ & _ & _ & _ & _ & H3). destruct H4 as (_ & _ & _ & _ & _ & H4).
  rewrite kept_all in H3 by auto. rewrite kept_all in H4 by auto. unfold lines_of in H3, H4.
  rewrite map_length in H3, H4. unfold loc_of. rewrite H3, H4, H5. auto.
Qed.
Print Assumptions C17_loc_list_of_events.

Example C17_case :
  match run_callbacks ex_text [] ex_events with
  | Ok l => match get_loc_list l with
            | Ok (h, lst) => list_items h lst = Ok [mkLoc "c" 2 0 1 1; mkLoc "ruby" 0 1 0 1]
            | _ => False end
  | _ => False end.
Proof. vm_compute. reflexivity. Qed.
