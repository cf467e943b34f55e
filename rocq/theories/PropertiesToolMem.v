(** Property C93: the command line tool and the heap. *)
From Coq Require Import String List Bool Arith Lia.
From Verif Require Import ToolModel MemModel MemSpec MemTool PropertiesMem.
Import ListNotations.
Open Scope string_scope.
Open Scope list_scope.
Open Scope nat_scope.

Lemma afters_app : forall a t b,
  afters t (a ++ b) = match afters t a with Some t' => afters t' b | None => None end.
Proof.
  induction a as [|c a IH]; intros t b; [reflexivity|]. cbn [app afters].
  destruct (after t c); [apply IH|reflexivity].
Qed.

(** A list of files and its files. *)
Definition full (n : nat) : list held := HFiles :: repeat (HFile (Some 0)) n.

Lemma add_files : forall n m, afters (full m) (repeat (AddFile 0) n) = Some (full (m + n)).
Proof.
  induction n as [|n IH]; intros m; [now rewrite Nat.add_0_r|].
  cbn [repeat afters after]. change (at_ is_files (full m) 0) with true. cbn [when].
  replace (full m ++ [HFile (Some 0)]) with (full (S m)).
  - rewrite IH. now rewrite Nat.add_succ_r.
  - unfold full. cbn [app]. f_equal. now rewrite <- repeat_cons.
Qed.

Lemma full_file : forall n f, In f (seq 1 n) -> nth_error (full n) f = Some (HFile (Some 0)).
Proof.
  intros n f H. apply in_seq in H. destruct f as [|f]; [lia|]. cbn. apply nth_error_repeat. lia.
Qed.

Lemma each_ok : forall t (g : nat -> list call) fs, (forall f, In f fs -> afters t (g f) = Some t) ->
  afters t (flat_map g fs) = Some t.
Proof.
  intros t g. induction fs as [|f fs IH]; intros H; [reflexivity|]. cbn. rewrite afters_app.
  rewrite H by now left. apply IH. intros x I. apply H. now right.
Qed.

Lemma free_all : forall n t, afters (full n ++ t) [FreeFiles 0] =
  Some (HGone :: repeat HGone n ++ map (fun h => if of_list 0 h then HGone else h) t).
Proof.
  intros n t. cbn. do 2 f_equal. rewrite map_app. f_equal.
  induction n as [|n IH]; cbn; [reflexivity|]. now f_equal.
Qed.

Lemma tool_freed : forall c n, all_freed (tool_calls c n).
Proof.
  intros c n. unfold all_freed, tool_calls, listed. cbn [app afters after].
  change ([] ++ [HFiles]) with (full 0).
  assert (E : forall r, afters (full 0) ((repeat (AddFile 0) n) ++ r) = afters (full n) r).
  { intros r. rewrite afters_app, add_files. reflexivity. }
  rewrite E. clear E.
  assert (G : Forall (eq HGone) (repeat HGone n)).
  { apply Forall_forall. intros h H. apply repeat_spec in H. now symmetry. }
  assert (S : forall g, (forall f, In f (seq 1 n) -> afters (full n) (g f) = Some (full n)) ->
    exists t, afters (full n) (each_file n g ++ [FreeFiles 0]) = Some t /\ Forall (eq HGone) t).
  { intros g H. rewrite afters_app. unfold each_file. rewrite each_ok by exact H.
    rewrite <- (app_nil_r (full n)), free_all. eexists. split; [reflexivity|].
    constructor; [reflexivity|]. cbn. now rewrite app_nil_r. }
  assert (N : forall f, In f (seq 1 n) -> at_ is_file (full n) f = true).
  { intros f I. unfold at_. now rewrite (full_file n f I). }
  destruct c; cbn [command_calls].
  - apply S. intros f I. cbn. now rewrite (N f I).
  - apply S. intros f I. cbn [afters after]. rewrite (N f I). cbn [when afters after]. now rewrite (N f I).
  - rewrite app_nil_l, <- (app_nil_r (full n)), free_all. eexists. split; [reflexivity|].
    constructor; [reflexivity|]. cbn. now rewrite app_nil_r.
  - change ((CountFiles 0 :: each_file n (fun f => [ShowLocs f; GetPath f])) ++ [FreeFiles 0])
      with (CountFiles 0 :: (each_file n (fun f => [ShowLocs f; GetPath f]) ++ [FreeFiles 0])).
    cbn [afters after]. change (at_ is_files (full n) 0) with true. cbn [when].
    apply S. intros f I. cbn [afters after]. rewrite (N f I). cbn [when afters after]. now rewrite (N f I).
  - apply S. intros f I. cbn [afters after]. rewrite (N f I). cbn [when afters after]. now rewrite (N f I).
  - apply S. intros f I. cbn. now rewrite (N f I).
  - assert (L : forall h, nth_error (full n ++ [h]) (Datatypes.S n) = Some h).
    { intros h. rewrite nth_error_app2; unfold full; cbn [length]; rewrite repeat_length; [|lia].
      now rewrite Nat.sub_diag. }
    assert (P : put (full n ++ [HCounts KLoc]) (Datatypes.S n) HGone = full n ++ [HGone]).
    { unfold full. cbn. f_equal. clear. induction n as [|n IH]; cbn; [reflexivity|]. now f_equal. }
    assert (A : afters (full n) [CountFiles 0; Analyze 0; ShowList KLoc (Datatypes.S n);
                                 FreeList KLoc (Datatypes.S n)] = Some (full n ++ [HGone])).
    { cbn [afters after]. change (at_ is_files (full n) 0) with true. cbn [when afters after].
      change (at_ is_files (full n) 0) with true. cbn [when afters after].
      unfold at_. rewrite L. cbn [is_counts kind_same when afters after].
      unfold at_. rewrite L. cbn [is_counts kind_same when]. now rewrite P. }
    rewrite afters_app, A, free_all. eexists. split; [reflexivity|].
    constructor; [reflexivity|]. apply Forall_app. split; [exact G|]. now repeat constructor.
Qed.

Lemma tool_licenses : forall c n d, In d (tool_calls c n) ->
  match d with
  | Licenses _ => c = ToolModel.Licenses
  | Diff _ _ | LocDelta _ _ _ => False
  | _ => True
  end.
Proof.
  intros c n d H. unfold tool_calls, listed, each_file in H.
  cbn [app] in H. destruct H as [<-|H]; [exact Logic.I|].
  apply in_app_or in H. destruct H as [H|H].
  { apply repeat_spec in H. now subst d. }
  apply in_app_or in H. destruct H as [H|[<-|[]]]; [|exact Logic.I].
  destruct c; cbn [command_calls] in H; unfold each_file in H.
  - apply in_flat_map in H. destruct H as [f [_ [<-|[]]]]; exact Logic.I.
  - apply in_flat_map in H. destruct H as [f [_ [<-|[<-|[]]]]]; exact Logic.I.
  - destruct H.
  - destruct H as [<-|H]; [exact Logic.I|].
    apply in_flat_map in H. destruct H as [f [_ [<-|[<-|[]]]]]; exact Logic.I.
  - apply in_flat_map in H. destruct H as [f [_ [<-|[<-|[]]]]]; [reflexivity|exact Logic.I].
  - apply in_flat_map in H. destruct H as [f [_ [<-|[]]]]; exact Logic.I.
  - destruct H as [<-|[<-|[<-|[<-|[]]]]]; exact Logic.I.
Qed.

(** Whatever the command, the number of files, their contents and the answers of the
    system, the tool runs to its end without misusing the heap.  What is still
    allocated then is what the queue of the scanners holds and, for --license only,
    texts in which licences were looked for. *)
Theorem C93_tool_heap :
  forall c n w, exists e s, run (tool_calls c n) w = Done e s /\
  forall p o, block s p = Some o ->
    reached s (queue s) p \/ (c = ToolModel.Licenses /\ o = Bytes LicenseText).
Proof.
  intros c n w. destruct (C71_what_is_left (tool_calls c n) w (tool_freed c n)) as [e [s [E H]]].
  exists e, s. split; [exact E|]. intros p o B. specialize (H p o B).
  pose proof (tool_licenses c n) as T.
  destruct o as [|[| | | | | | |]| | | | | |]; try contradiction; try (now left);
    try (exfalso; destruct H as [f [x [g [H|H]]]]; apply T in H; exact H).
  destruct H as [f H]. apply T in H. now right.
Qed.
Print Assumptions C93_tool_heap.

(** The counts of two files in two languages, sorted and printed. *)
Example C93_ex :
  exists e s, run (tool_calls Summary 2)
      (repeat (sees [Line "c"; Line "shell"; Line "c"]) 40) = Done e s /\ live s = [] /\ length e = 4.
Proof. eexists. eexists. vm_compute. repeat split; reflexivity. Qed.

Example C93_ex_individual :
  exists e s, run (tool_calls Individual 1)
      (repeat (sees [Line "shell"; Line "c"; Line "ruby"]) 40) = Done e s /\ live s = [].
Proof. eexists. eexists. vm_compute. split; reflexivity. Qed.

(** Both exceptions occur: a text for every language of every file, ... *)
Theorem C93_license_texts_refuted :
  exists w e s, run (tool_calls ToolModel.Licenses 2) w = Done e s /\
    live s = [Bytes LicenseText; Bytes LicenseText; Bytes LicenseText; Bytes LicenseText].
Proof.
  exists (repeat (sees [Line "c"; Line "shell"]) 40). eexists. eexists. vm_compute. split; reflexivity.
Qed.
Print Assumptions C93_license_texts_refuted.

(** ... and the queue, if the last file ends in a string that does not close. *)
Theorem C93_queue_left_refuted :
  exists w e s, run (tool_calls Annotate 1) w = Done e s /\ live s = [Callback "shell" None].
Proof.
  exists [sees []; sees [Begin; Line "shell"]; sees [Begin; Line "shell"]; sees [Begin; Line "shell"]].
  eexists. eexists. vm_compute. split; reflexivity.
Qed.
Print Assumptions C93_queue_left_refuted.
