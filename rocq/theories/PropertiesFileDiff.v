(** Properties C41, C42: diff of two revisions of a file (sourcefile.c). *)
From Coq Require Import ZArith String List Bool Lia Permutation.
From Verif Require Import Base Arr LocModel HeapProofs LocSpec LocProofs DeltaProofs DiffSpec DiffModel
  PropertiesDiff ParsedModel ParsedSpec ParsedProofs FileDiffModel FileDiffSpec FileDiffProofs.
Import ListNotations.
Open Scope string_scope.
Open Scope Z_scope.
Open Scope list_scope.

(** The delta of a language: line diff of its code texts, of its comment texts,
    and difference of its numbers of blank lines. *)
Definition delta_between slack tool (r1 r2 : revision) (d : delta) : Prop :=
  let g := d_lang d in
  calc_diff slack tool (code_text r1 g) (code_text r2 g) = Ok (d_code_added d, d_code_removed d) /\
  calc_diff slack tool (comment_text r1 g) (comment_text r2 g) = Ok (d_comments_added d, d_comments_removed d) /\
  d_blanks_added d - d_blanks_removed d = blank_lines r2 g - blank_lines r1 g /\
  0 <= d_blanks_added d /\ 0 <= d_blanks_removed d /\ (d_blanks_added d = 0 \/ d_blanks_removed d = 0).

Lemma parse_ok r : good_revision r ->
  exists l, run_callbacks (r_text r) [] (r_events r) = Ok l /\ list_inv (r_text r) (r_events r) l.
Proof.
  intros (Hz & Hs & Hn & Hg & _). destruct (run_callbacks_ok (r_text r) (r_events r) [] [] Hg Hn Hs) as (l & E & HI).
  { split; [reflexivity|intros pl []]. }
  exists l. auto.
Qed.

(** ** C41 *)
Theorem C41_file_diff :
  forall slack tool r1 r2 l1 l2, good_revision r1 -> good_revision r2 ->
  run_callbacks (r_text r1) [] (r_events r1) = Ok l1 ->
  run_callbacks (r_text r2) [] (r_events r2) = Ok l2 ->
  forall h lst, sourcefile_diff slack tool l1 l2 = Ok (h, lst) ->
  exists ds, list_items h lst = Ok ds /\
    map d_lang ds = first_occ (languages r1 ++ languages r2) /\
    (forall d, In d ds -> delta_between slack tool r1 r2 d) /\
    (* the compacted list drops exactly the unchanged languages *)
    exists h' lst', delta_list_new_compact h lst = Ok (h', lst') /\
      list_items h' lst' = Ok (filter changed ds).
Proof.
  intros slack tool r1 r2 l1 l2 G1 G2 E1 E2 h lst E.
  destruct (parse_ok r1 G1) as (l1' & E1' & I1). destruct (parse_ok r2 G2) as (l2' & E2' & I2).
  rewrite E1 in E1'. injection E1' as <-. rewrite E2 in E2'. injection E2' as <-.
  destruct G1 as (Z1 & S1 & N1 & _ & F1). destruct G2 as (Z2 & S2 & N2 & _ & F2).
  assert (M1 : map p_name l1 = first_occ (languages r1)) by apply I1.
  assert (M2 : map p_name l2 = first_occ (languages r2)) by apply I2.
  pose proof (sourcefile_diff_ok slack tool l1 l2) as H. rewrite M1, M2 in H.
  specialize (H (nodup_first_occ _) (nodup_first_occ _)).
  rewrite first_occ_idem_app in H.
  destruct (mapM _ (first_occ (languages r1 ++ languages r2))) as [ds|w|] eqn:Em; try congruence.
  destruct H as (h0 & lst0 & addrs & E0 & Hr). rewrite E in E0. injection E0 as <- <-.
  exists ds. split; [eapply list_items_rep; eauto|].
  pose proof (mapM_D_langs _ _ _ _ _ _ Em) as Hlang. split; auto. split.
  - apply mapM_inv in Em. intros d Hd.
    assert (exists g, calc_loc_delta slack tool l1 g l2 = Ok d) as (g & Hg).
    { clear -Em Hd. induction Em as [|g d' gs ds' H1 H2 IH]; [contradiction|]. destruct Hd as [->|Hd]; eauto. }
    pose proof (D_lang _ _ _ _ _ _ Hg) as Hdl.
    rewrite (calc_delta_spec slack tool (r_text r1) (r_events r1) l1 (r_text r2) (r_events r2) l2 g) in Hg by auto.
    destruct r1 as [t1 es1]. destruct r2 as [t2 es2]. cbn [r_text r_events] in *.
    unfold delta_between. rewrite Hdl.
    destruct (calc_diff slack tool (code_text (mkRev t1 es1) g) (code_text (mkRev t2 es2) g)) as [[ca cr]|w|]; cbn [bind] in Hg; try discriminate.
    destruct (calc_diff slack tool (comment_text (mkRev t1 es1) g) (comment_text (mkRev t2 es2) g)) as [[ma mr]|w|]; cbn [bind] in Hg; try discriminate.
    injection Hg as <-. cbn. split; auto. split; auto. lia.
  - destruct (compact_rep h lst addrs ds Hr) as (h' & lst' & a' & Ec & Hr').
    { rewrite Hlang. apply nodup_first_occ. }
    exists h', lst'. split; auto. eapply list_items_rep; eauto.
Qed.
Print Assumptions C41_file_diff.

(** The diff is defined exactly when the line diffs of all languages are (see
    C12 for these). *)
Theorem C41_file_diff_defined :
  forall slack tool r1 r2 l1 l2, good_revision r1 -> good_revision r2 ->
  run_callbacks (r_text r1) [] (r_events r1) = Ok l1 ->
  run_callbacks (r_text r2) [] (r_events r2) = Ok l2 ->
  ((exists h lst, sourcefile_diff slack tool l1 l2 = Ok (h, lst)) <->
   (forall g, In g (languages r1 ++ languages r2) ->
      (exists x, calc_diff slack tool (code_text r1 g) (code_text r2 g) = Ok x) /\
      (exists y, calc_diff slack tool (comment_text r1 g) (comment_text r2 g) = Ok y))).
Proof.
  intros slack tool r1 r2 l1 l2 G1 G2 E1 E2. split.
  - intros (h & lst & E) g Hg.
    destruct (C41_file_diff slack tool r1 r2 l1 l2 G1 G2 E1 E2 h lst E) as (ds & _ & Hl & Hd & _).
    apply in_first_occ in Hg. rewrite <- Hl in Hg. apply in_map_iff in Hg as (d & <- & Hin).
    destruct (Hd d Hin) as (A & B & _). eauto.
  - intros Hall.
    destruct (parse_ok r1 G1) as (l1' & E1' & I1). destruct (parse_ok r2 G2) as (l2' & E2' & I2).
    rewrite E1 in E1'. injection E1' as <-. rewrite E2 in E2'. injection E2' as <-.
    destruct G1 as (Z1 & S1 & N1 & _ & F1). destruct G2 as (Z2 & S2 & N2 & _ & F2).
    assert (M1 : map p_name l1 = first_occ (languages r1)) by apply I1.
    assert (M2 : map p_name l2 = first_occ (languages r2)) by apply I2.
    pose proof (sourcefile_diff_ok slack tool l1 l2) as H. rewrite M1, M2 in H.
    specialize (H (nodup_first_occ _) (nodup_first_occ _)). rewrite first_occ_idem_app in H.
    destruct (mapM_ok (fun g => calc_loc_delta slack tool l1 g l2) (first_occ (languages r1 ++ languages r2))) as (ds & Em).
    { intros g Hg. apply -> in_first_occ in Hg. destruct (Hall g Hg) as [[[ca cr] A] [[ma mr] B]].
      destruct r1 as [t1 es1]. destruct r2 as [t2 es2]. cbn [r_text r_events] in *.
      rewrite (calc_delta_spec slack tool t1 es1 l1 t2 es2 l2 g) by auto. rewrite A. cbn [bind]. rewrite B. cbn [bind]. eauto. }
    rewrite Em in H. destruct H as (h & lst & _ & E & _). eauto.
Qed.
Print Assumptions C41_file_diff_defined.

(** ** C42 *)
Theorem C42_file_diff_antisymmetric :
  forall slack tool r1 r2 l1 l2, good_revision r1 -> good_revision r2 -> 1 <= slack ->
  small_texts r1 -> small_texts r2 ->
  run_callbacks (r_text r1) [] (r_events r1) = Ok l1 ->
  run_callbacks (r_text r2) [] (r_events r2) = Ok l2 ->
  forall h lst ds h' lst' ds',
  sourcefile_diff slack tool l1 l2 = Ok (h, lst) -> list_items h lst = Ok ds ->
  sourcefile_diff slack tool l2 l1 = Ok (h', lst') -> list_items h' lst' = Ok ds' ->
  Permutation ds' (map swap ds).
Proof.
  intros slack tool r1 r2 l1 l2 G1 G2 Hs T1 T2 E1 E2 h lst ds h' lst' ds' E Ei E' Ei'.
  destruct (C41_file_diff slack tool r1 r2 l1 l2 G1 G2 E1 E2 h lst E) as (x & X1 & X2 & X3 & _).
  destruct (C41_file_diff slack tool r2 r1 l2 l1 G2 G1 E2 E1 h' lst' E') as (y & Y1 & Y2 & Y3 & _).
  rewrite Ei in X1. injection X1 as <-. rewrite Ei' in Y1. injection Y1 as <-.
  assert (Hsw : map d_lang (map swap ds) = map d_lang ds) by (rewrite map_map; apply map_ext; auto).
  assert (Hsame : forall d d', In d ds -> In d' ds' -> d_lang d = d_lang d' -> d' = swap d).
  { intros d d' Hd Hd' Hl. destruct (X3 d Hd) as (A & B & C). destruct (Y3 d' Hd') as (A' & B' & C'). rewrite <- Hl in *.
    destruct (T1 (d_lang d)) as [T11 T12]. destruct (T2 (d_lang d)) as [T21 T22].
    destruct (C11_diff_symmetric _ _ _ _ _ _ _ _ Hs T11 T21 A A') as [P1 P2].
    destruct (C11_diff_symmetric _ _ _ _ _ _ _ _ Hs T12 T22 B B') as [P3 P4].
    destruct d, d'; unfold swap; cbn in *. f_equal; auto; lia. }
  apply NoDup_Permutation.
  - apply (NoDup_map_inv d_lang). rewrite Y2. apply nodup_first_occ.
  - apply (NoDup_map_inv d_lang). rewrite Hsw, X2. apply nodup_first_occ.
  - intros z. split; intros Hz.
    + assert (In (d_lang z) (map d_lang ds)).
      { rewrite X2. apply in_first_occ. apply (in_map d_lang) in Hz. rewrite Y2 in Hz. apply -> in_first_occ in Hz.
        apply in_app_iff in Hz. apply in_app_iff. tauto. }
      apply in_map_iff in H as (d & Hd & Hin). rewrite (Hsame d z); auto. apply in_map. auto.
    + apply in_map_iff in Hz as (d & <- & Hd).
      assert (In (d_lang d) (map d_lang ds')).
      { rewrite Y2. apply in_first_occ. apply (in_map d_lang) in Hd. rewrite X2 in Hd. apply -> in_first_occ in Hd.
        apply in_app_iff in Hd. apply in_app_iff. tauto. }
      apply in_map_iff in H as (d' & Hd' & Hin). rewrite <- (Hsame d d'); auto.
Qed.
Print Assumptions C42_file_diff_antisymmetric.

(** "a;\nb\n" with a comment in another language, and its next revision. *)
Definition ex_r1 : revision :=
  mkRev (bytes "a;" ++ [10] ++ bytes "b" ++ [10] ++ bytes "# x" ++ [10])
        [ mkEvent "c" "lcode" 0 3; mkEvent "c" "lcode" 3 5; mkEvent "ruby" "lcomment" 5 9 ].
Definition ex_r2 : revision :=
  mkRev (bytes "b" ++ [10; 10] ++ bytes "y" ++ [10])
        [ mkEvent "c" "lcode" 0 2; mkEvent "c" "lblank" 2 3; mkEvent "java" "lcode" 3 5 ].

Lemma ordered_good r : ~ In 0 (r_text r) -> Z.of_nat (length (r_text r)) + 5 <= int_max ->
  Z.of_nat (length (r_events r)) <= int_max -> Forall (good_event (r_text r)) (r_events r) ->
  ordered_spans 0 (r_events r) -> good_revision r.
Proof.
  intros H1 H2 H3 H4 H5. split; [auto|]. split; [auto|]. split; [auto|]. split; [auto|].
  split; intros g; pose proof (ordered_fit (r_text r) (r_events r) g "lcode" 0 ltac:(lia) H4 H5 ltac:(lia));
    pose proof (ordered_fit (r_text r) (r_events r) g "lcomment" 0 ltac:(lia) H4 H5 ltac:(lia)); lia.
Qed.

Example C41_case :
  good_revision ex_r1 /\ good_revision ex_r2 /\
  match run_callbacks (r_text ex_r1) [] (r_events ex_r1), run_callbacks (r_text ex_r2) [] (r_events ex_r2) with
  | Ok l1, Ok l2 =>
    match sourcefile_diff 1 no_disk l1 l2, sourcefile_diff 1 no_disk l2 l1 with
    | Ok (h, lst), Ok (h', lst') =>
      list_items h lst = Ok [mkDelta "c" 0 1 0 0 1 0; mkDelta "ruby" 0 0 0 1 0 0; mkDelta "java" 1 0 0 0 0 0] /\
      list_items h' lst' = Ok [mkDelta "c" 1 0 0 0 0 1; mkDelta "java" 0 1 0 0 0 0; mkDelta "ruby" 0 0 1 0 0 0]
    | _, _ => False end
  | _, _ => False end.
Proof.
  assert (Hge : forall text e c, (e_entity e = "lcode" \/ e_entity e = "lcomment") -> 0 <= e_start e <= e_end e ->
    e_end e <= Z.of_nat (length text) -> In c (slice text (e_start e) (e_end e + 1)) -> blank c = false -> good_event text e).
  { intros text e c H1 H2 H3 H4 H5. split; [tauto|]. split; [auto|]. split; [auto|]. eauto. }
  split; [|split].
  - apply ordered_good; [vm_compute; intuition discriminate|vm_compute; discriminate|vm_compute; discriminate| |cbn; lia].
    apply Forall_cons; [|apply Forall_cons; [|apply Forall_cons; [|apply Forall_nil]]].
    + apply (Hge _ _ 97); [cbn; auto|cbn; lia|vm_compute; discriminate|vm_compute; auto|reflexivity].
    + apply (Hge _ _ 98); [cbn; auto|cbn; lia|vm_compute; discriminate|vm_compute; auto|reflexivity].
    + apply (Hge _ _ 35); [cbn; auto|cbn; lia|vm_compute; discriminate|vm_compute; auto|reflexivity].
  - apply ordered_good; [vm_compute; intuition discriminate|vm_compute; discriminate|vm_compute; discriminate| |cbn; lia].
    apply Forall_cons; [|apply Forall_cons; [|apply Forall_cons; [|apply Forall_nil]]].
    + apply (Hge _ _ 98); [cbn; auto|cbn; lia|vm_compute; discriminate|vm_compute; auto|reflexivity].
    + split; [cbn; auto|]. split; [cbn; lia|]. split; [vm_compute; discriminate|]. cbn. congruence.
    + apply (Hge _ _ 121); [cbn; auto|cbn; lia|vm_compute; discriminate|vm_compute; auto|reflexivity].
  - vm_compute. auto.
Qed.

Lemma volume_small r g : good_revision r -> Z.of_nat (length (r_text r)) <= 99000 ->
  Z.of_nat (length (code_text r g)) <= 100000 /\ Z.of_nat (length (comment_text r g)) <= 100000.
Proof. intros (_ & _ & _ & _ & F1 & F2) H. specialize (F1 g). specialize (F2 g). unfold volume in *. unfold code_text, comment_text. lia. Qed.

(** Files up to 99000 bytes meet the hypothesis on sizes, e.g. the above. *)
Example C42_case : small_texts ex_r1 /\ small_texts ex_r2.
Proof.
  destruct C41_case as (G1 & G2 & _).
  split; intros g; (apply volume_small; [assumption|]); unfold ex_r1, ex_r2; cbn [r_text]; vm_compute; discriminate.
Qed.
