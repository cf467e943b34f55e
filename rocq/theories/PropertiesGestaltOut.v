(** Properties of the list of gestalts that ruby/gestalt.rb prints. *)
From Coq Require Import String Ascii List ZArith Bool Permutation Sorted Lia.
From Verif Require Import Base DetectorModel PrintModel PrintSpec PrintProofs
  GestaltRules GestaltTable GestaltModel GestaltSpec GestaltOutModel GestaltOutProofs PropertiesGestalt.
Import ListNotations.
Open Scope string_scope.
Open Scope list_scope.
Open Scope Z_scope.

(** * C91 *)

(** There is exactly one output, whatever way of sorting is used, and it depends on the number of
    files and on which gestalts there are, but not on their order. *)
Theorem C91_one_output : forall n gs, exists out, prints n gs out /\
  forall gs' out', Permutation gs gs' -> prints n gs' out' -> out' = out.
Proof.
  intros n gs. destruct (may_sort_exists gs) as (l & Hl). eexists. split; [exists l; split; [exact Hl | reflexivity] |].
  intros gs' out' HP (l' & Hl' & ->). now rewrite (may_sort_unique gs l l' gs' HP Hl Hl').
Qed.

(** So the output for a project does not depend on the order in which its files were added. *)
Theorem C91_files : forall R acts fs fs' gs gs' out out', Permutation fs fs' ->
  gestalts_after R all_definitions acts fs = Some (Ok gs) ->
  gestalts_after R all_definitions acts fs' = Some (Ok gs') ->
  prints (Z.of_nat (length fs)) gs out -> prints (Z.of_nat (length fs')) gs' out' -> out = out'.
Proof.
  intros R acts fs fs' gs gs' out out' HP Hg Hg' Ho Ho'.
  rewrite <- (C83_order R all_definitions acts fs fs' shipped_plain HP), Hg in Hg'. injection Hg' as <-.
  rewrite <- (Permutation_length HP) in Ho'.
  destruct (C91_one_output (Z.of_nat (length fs)) gs) as (o & _ & H).
  now rewrite (H gs out (Permutation_refl _) Ho), (H gs out' (Permutation_refl _) Ho').
Qed.

(** The lines are in the order of the types, then of the counts, the greatest first, then of the names. *)
Theorem C91_sorted : forall n gs out, prints n gs out -> exists l, Permutation gs l /\
  out = bytes "Examining " ++ decimal n ++ bytes " file(s) for gestalts." ++ [10] ++ flat_map line l /\
  forall i j a b, (i < j)%nat -> nth_error l i = Some a -> nth_error l j = Some b ->
    a = b \/ String.ltb (g_type a) (g_type b) = true \/
    (g_type a = g_type b /\ (g_count b < g_count a \/
       (g_count a = g_count b /\ String.ltb (g_name a) (g_name b) = true))).
Proof.
  intros n gs out (l & [HP HS] & ->). exists l. split; [exact HP |]. split; [reflexivity |].
  apply strongly in HS. clear HP. induction HS as [| x l HS IH HF]; intros i j a b Hij Ha Hb.
  - destruct i; discriminate.
  - destruct j as [| j]; [lia |]. cbn in Hb. destruct i as [| i]; cbn in Ha.
    + injection Ha as ->. rewrite Forall_forall in HF. specialize (HF b (nth_error_In _ _ Hb)).
      apply le_cases in HF as [-> | HF]; [now left |]. right. apply before_lt in HF. unfold String.ltb.
      destruct HF as [-> | [E [L | [C ->]]]]; auto.
    + eapply (IH i j); eauto. lia.
Qed.

(** The output can be read back, if no type has a tab and no type or name a line end. *)
Theorem C91_read_back : forall n gs gs' out, Forall fair gs -> Forall fair gs' ->
  prints n gs out -> prints n gs' out -> Permutation gs gs'.
Proof.
  intros n gs gs' out Hf Hf' (l & [HP _] & E) (l' & [HP' _] & E').
  rewrite E in E'. do 4 apply app_inv_head in E'.
  assert (Forall fair l) as Fl by (eapply Permutation_Forall; eauto).
  assert (Forall fair l') as Fl' by (eapply Permutation_Forall; eauto).
  pose proof (lines_made_of l Fl) as M. pose proof (lines_made_of l' Fl') as M'. rewrite <- E' in M'.
  pose proof (rows_inj l l' Fl Fl' (made_of_unique _ _ _ M M')) as El.
  rewrite HP, El. now apply Permutation_sym.
Qed.

Example C91_example : exists out,
  prints 3 [mkGestalt "tool" "netbeans" 1; mkGestalt "platform" "win32" 1; mkGestalt "platform" "c" 12] out /\
  out = bytes "Examining 3 file(s) for gestalts." ++ [10] ++
        bytes "platform" ++ [9] ++ bytes "      12" ++ [9] ++ bytes "c" ++ [10] ++
        bytes "platform" ++ [9] ++ bytes "       1" ++ [9] ++ bytes "win32" ++ [10] ++
        bytes "tool" ++ [9] ++ bytes "       1" ++ [9] ++ bytes "netbeans" ++ [10].
Proof.
  eexists. split; [| reflexivity].
  exists [mkGestalt "platform" "c" 12; mkGestalt "platform" "win32" 1; mkGestalt "tool" "netbeans" 1]. split.
  - split; [exact (Permutation_rev _) |]. 
    repeat constructor; vm_compute; discriminate.
  - vm_compute. reflexivity.
Qed.
Example C91_fair : Forall fair [mkGestalt "tool" "netbeans" 1; mkGestalt "platform" "c" 12].
Proof. repeat constructor; cbn; intuition (try discriminate; lia). Qed.

Print Assumptions C91_one_output.
Print Assumptions C91_files.
Print Assumptions C91_sorted.
Print Assumptions C91_read_back.
