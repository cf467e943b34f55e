(** Properties of the Ruby classes and the memory behind them. *)
From Coq Require Import List Arith Bool Lia ZArith.
From Verif Require Import BindingModel BindingSpec BindingProofs.
Import ListNotations.

(** * C88 *)

(** A program survives every collector exactly if, at each operation, a variable still holds each
    object whose memory the operation reaches, and no filenames are asked for that were not set. *)
Theorem C88_safe : forall p, never_crashes p <-> careful start p.
Proof.
  intros p. split.
  - intros H. eapply eager_careful; [exact wf_start | exact (H (fun _ => everything))].
  - intros H schedule. apply careful_safe; [exact lost_start | exact H].
Qed.

(** A program that assigns every variable once, forgets none and does not ask for filenames is safe. *)
Theorem C88_hold : forall p, NoDup (flat_map target p) -> (forall x, ~ In (Forget x) p) ->
  (forall y, ~ In (Filenames y) p) -> never_crashes p.
Proof.
  intros p Hd Hf Hn. apply C88_safe. apply hold_careful; auto.
  - exact wf_start.
  - split; cbn; lia.
Qed.

(** The objects that methods return do not keep anything alive. *)
Theorem C88_keep_refuted :
  (* sf = SourceFile.new(path); lb = sf.language_breakdowns; sf = nil; lb.name *)
  ~ never_crashes [NewFile 0; Parts 1 0 false; Forget 0; Use 1] /\
  (* the .sf of a list, used after the list *)
  ~ never_crashes [NewList 0; AddFile 0; ListFile 1 0 0; NewList 0; Use 1] /\
  (* sf.filenames = names; names = nil; sf.polyglot *)
  ~ never_crashes [NewFile 0; NewStrings 1; SetFilenames 0 1; Forget 1; Parts 2 0 true] /\
  ~ never_crashes [NewFile 0; NewStrings 1; SetFilenames 0 1; Forget 1; Filenames 0] /\
  (* diff with a file of a list that is gone, and with strings that are gone *)
  ~ never_crashes [NewList 0; AddFile 0; ListFile 1 0 0; NewFile 2; Forget 0; Diff 3 2 1 false] /\
  ~ never_crashes [NewFile 0; NewFile 1; NewStrings 2; SetFilenames 1 2; NewStrings 2; Diff 3 0 1 true] /\
  (* the strings of one file of a list *)
  ~ never_crashes [NewList 0; AddFile 0; AddFile 0; ListFile 1 0 1; NewStrings 2; SetFilenames 1 2; Forget 2;
                   AnalyzeLanguages 3 0 true].
Proof.
  repeat split; intros H; apply (H (fun _ => everything)); vm_compute; reflexivity.
Qed.

(** [filenames] and [each] on a file that was given none use a null pointer, whatever the collector does. *)
Theorem C88_filenames_refuted : forall schedule, run schedule 0 start nothing_gone [NewFile 0; Filenames 0] = Crash.
Proof.
  intros schedule. cbn [run step start nothing_gone]. unfold try, opt. cbn.
  rewrite orb_true_r. reflexivity.
Qed.

Example C88_hold_example :
  never_crashes [NewList 0; AddFile 0; AddFile 0; ListFile 1 0 1; Parts 2 1 false; Use 2; AnalyzeLanguages 3 0 false; Use 3].
Proof.
  apply C88_hold; cbn.
  - repeat constructor; cbn; intuition discriminate.
  - intros x; intuition discriminate.
  - intros x; intuition discriminate.
Qed.
(** The list may go once its parts are done with, and what diff returns needs nothing. *)
Example C88_safe_example :
  never_crashes [NewFile 0; NewStrings 5; SetFilenames 0 5; NewFile 1; Diff 2 0 1 true; Filenames 0;
                 Forget 0; Forget 5; Forget 1; Use 2].
Proof.
  apply C88_safe. repeat (split; [intros n Hn; eapply step_reach in Hn; [| reflexivity]; cbn in Hn;
    repeat destruct Hn as [<- | Hn]; try destruct Hn; cbn; eauto 10 |]). exact I.
Qed.

(** * C89 *)

(** Of the blocks that [filenames=], [diff] and [analyze_languages] allocate, exactly one is freed
    for each collected object of SourceFile.new that has filenames, and none otherwise. *)
Theorem C89_account : forall schedule p w g, run schedule 0 start nothing_gone p = Done w g ->
  exists b, blocks schedule 0 start nothing_gone 0 p = Some b /\
    (b + files_with_names_collected w g = allocations p)%Z.
Proof.
  intros schedule p w g H.
  destruct (blocks_account schedule p 0 start nothing_gone 0%Z w g wf_start lost_start H) as (b & Hb & E).
  exists b. split; [exact Hb |]. rewrite <- freed_spec, E. cbn. reflexivity.
Qed.

(** So a program that holds nothing any more may leave any number of blocks behind. *)
Theorem C89_leak_refuted : forall n, exists p w g b,
  run (fun _ => everything) 0 start nothing_gone p = Done w g /\ env w = [] /\
  (forall o, o < length (owners w) -> In o (g_owners g)) /\
  blocks (fun _ => everything) 0 start nothing_gone 0 p = Some b /\ b = Z.of_nat (S n).
Proof.
  intros n.
  pose (q := [Forget 0; Forget 1; Forget 2; Forget 3]).
  pose (p := NewFile 0 :: NewFile 1 :: Diff 2 0 1 false :: repeat (Diff 2 0 1 false) n ++ q).
  assert (exists g, run (fun _ => everything) 0 start nothing_gone p =
            Done (mkWorld [] [(false, [0]); (false, [1])] [] 2 0) g /\ g_owners g = [0; 1]) as (g & Hr & Hg).
  { destruct (diff_loop n 3 nothing_gone q eq_refl) as (g1 & Hg1 & E). unfold p. cbn [run].
    eexists. split; [etransitivity; [exact E |] |].
    - destruct g1 as [go gs]. cbn in Hg1. subst go. reflexivity.
    - destruct g1 as [go gs]. cbn in Hg1. subst go. reflexivity. }
  destruct (C89_account _ _ _ _ Hr) as (b & Hb & E).
  exists p. eexists. exists g, b. split; [exact Hr |]. split; [reflexivity |]. split; [| split; [exact Hb |]].
  - intros o Ho. rewrite Hg. cbn in Ho |- *. lia.
  - match type of E with (_ + ?f = _)%Z => assert (f = 0)%Z as Hf end.
    { unfold files_with_names_collected. rewrite Hg. reflexivity. }
    rewrite Hf, Z.add_0_r in E. rewrite E. unfold p. rewrite !allocations_cons, diffs_allocate. cbn [allocates]. change (allocations q) with 0%Z. lia.
Qed.

(** A second [filenames=] and the filenames of a file in a list are lost, those of a file are freed. *)
Example C89_account_example :
  blocks (fun _ => everything) 0 start nothing_gone 0
    [NewFile 0; NewStrings 1; SetFilenames 0 1; Forget 0; Forget 9] = Some 0%Z /\
  blocks (fun _ => everything) 0 start nothing_gone 0
    [NewFile 0; NewStrings 1; SetFilenames 0 1; SetFilenames 0 1; Forget 0; Forget 9] = Some 1%Z /\
  blocks (fun _ => everything) 0 start nothing_gone 0
    [NewList 0; AddFile 0; ListFile 2 0 0; NewStrings 1; SetFilenames 2 1; Forget 0; Forget 9] = Some 1%Z.
Proof. vm_compute. auto. Qed.

Print Assumptions C88_safe.
Print Assumptions C88_hold.
Print Assumptions C88_keep_refuted.
Print Assumptions C88_filenames_refuted.
Print Assumptions C89_account.
Print Assumptions C89_leak_refuted.
