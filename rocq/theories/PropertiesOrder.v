(** Property C102: where nothing carries over from line to line, the order of the lines
    does not matter. *)
From Coq Require Import ZArith String List Bool Lia Permutation.
From Verif Require Import Checked Base ParsedModel RagelSyntax RagelBuild RagelRun ParserTable ScanSpec PropertiesScan.
From Verif Require Import LineSpec LineCheck LineProofs LineCerts PropertiesLines.
From Verif Require Import LexEnds PropertiesEnds PropertiesFinal PropertiesMisread.
Import ListNotations.
Open Scope string_scope.
Open Scope Z_scope.
Open Scope list_scope.

Local Notation zlen l := (Z.of_nat (length l)).

(** The file that consists of the lines. *)
Definition of_lines (ls : list (list Z)) : list Z := flat_map (fun u => u ++ [10]) ls.
(** Lines without line ends in them. *)
Definition single (ls : list (list Z)) : Prop := Forall (fun u => forallb inner u = true) ls.

Lemma of_cons u ls : of_lines (u :: ls) = u ++ 10 :: of_lines ls.
Proof. unfold of_lines. cbn [flat_map]. rewrite <- app_assoc. reflexivity. Qed.
Lemma line_shape st lang pos u : map shape (line_reports st lang pos u [10]) = [(lang, kind_name (line_kind st u))].
Proof. unfold line_reports. destruct (line_kind st u); reflexivity. Qed.
Lemma shapes_of st lang ls : single ls -> forall pos,
  map shape (F st lang pos (of_lines ls)) = map (fun u => (lang, kind_name (line_kind st u))) ls.
Proof.
  induction 1 as [|u ls Hu H IH]; intros pos; [reflexivity|]. rewrite of_cons.
  rewrite (F_step st lang _ pos _ _ _ (first_inner u (of_lines ls) Hu)), map_app, line_shape, IH. reflexivity.
Qed.
Lemma of_perm ls ls' : Permutation ls ls' -> Permutation (of_lines ls) (of_lines ls').
Proof. intros H. unfold of_lines. apply Permutation_flat_map. exact H. Qed.
Lemma file_perm s s' : Permutation s s' -> file s -> file s'.
Proof.
  intros H [F1 F2]. split.
  - intros c Hc. apply F1. eapply Permutation_in; [apply Permutation_sym; exact H|exact Hc].
  - rewrite <- (Permutation_length H). exact F2.
Qed.
Lemma bound_perm s s' : Permutation s s' -> step_bound s' = step_bound s.
Proof. intros H. unfold step_bound. rewrite (Permutation_length H). reflexivity. Qed.

(** ** C102 *)

(** One report per line, which depends on nothing but the line. *)
Theorem C102_line_by_line :
  forall name st, In (name, st) styles -> exists kind_of : list Z -> string,
  forall ls fuel, single ls -> file (of_lines ls) -> no_tab (of_lines ls) -> step_bound (of_lines ls) <= Z.of_nat fuel ->
  exists l, ohcount_parse (Some name) (of_lines ls) fuel = Some (Ok l) /\ map shape l = map (fun u => (name, kind_of u)) ls.
Proof.
  intros name st Hs. exists (fun u => kind_name (line_kind st u)). intros ls fuel H Hf Hn Hb.
  exists (count_lines st name (of_lines ls)). split; [apply C21_lines_classified; auto|]. exact (shapes_of st name ls H 0).
Qed.
Print Assumptions C102_line_by_line.

(** The lines in any other order: the same reports but for order and place. *)
Theorem C102_order_does_not_matter :
  forall name st ls ls' fuel, In (name, st) styles -> single ls -> Permutation ls ls' ->
  file (of_lines ls) -> no_tab (of_lines ls) -> step_bound (of_lines ls) <= Z.of_nat fuel ->
  exists l l', ohcount_parse (Some name) (of_lines ls) fuel = Some (Ok l) /\
    ohcount_parse (Some name) (of_lines ls') fuel = Some (Ok l') /\ Permutation (map shape l) (map shape l').
Proof.
  intros name st ls ls' fuel Hs H Hp Hf Hn Hb. pose proof (of_perm _ _ Hp) as HP.
  assert (H' : single ls') by (unfold single in *; rewrite Forall_forall in *; intros u Hu; apply H; eapply Permutation_in; [apply Permutation_sym; exact Hp|exact Hu]).
  assert (Hn' : no_tab (of_lines ls')) by (intros Hc; apply Hn; eapply Permutation_in; [apply Permutation_sym; exact HP|exact Hc]).
  destruct (C102_line_by_line _ _ Hs) as (k & Hk).
  destruct (Hk _ _ H Hf Hn Hb) as (l & E & M). destruct (Hk ls' fuel H') as (l' & E' & M'); [eapply file_perm; eauto|auto|rewrite (bound_perm _ _ HP); auto|].
  exists l, l'. split; auto. split; auto. rewrite M, M'. apply Permutation_map. exact Hp.
Qed.
Print Assumptions C102_order_does_not_matter.

(** A line put in anywhere adds its own report and changes nothing else. *)
Theorem C102_one_more_line :
  forall name st a u b fuel, In (name, st) styles -> single (a ++ u :: b) ->
  file (of_lines (a ++ u :: b)) -> no_tab (of_lines (a ++ u :: b)) -> step_bound (of_lines (a ++ u :: b)) <= Z.of_nat fuel ->
  exists la k lb l l', ohcount_parse (Some name) (of_lines (a ++ u :: b)) fuel = Some (Ok l) /\
    ohcount_parse (Some name) (of_lines (a ++ b)) fuel = Some (Ok l') /\
    map shape l = la ++ (name, k) :: lb /\ map shape l' = la ++ lb /\ length la = length a /\ length lb = length b.
Proof.
  intros name st a u b fuel Hs H Hf Hn Hb. destruct (C102_line_by_line _ _ Hs) as (k & Hk).
  assert (Hi : forall c, In c (of_lines (a ++ b)) -> In c (of_lines (a ++ u :: b))).
  { intros c. unfold of_lines. rewrite !flat_map_app. cbn [flat_map]. rewrite !in_app_iff. tauto. }
  assert (Hl : zlen (of_lines (a ++ b)) <= zlen (of_lines (a ++ u :: b))).
  { unfold of_lines. rewrite !flat_map_app. cbn [flat_map]. rewrite !app_length. lia. }
  assert (H' : single (a ++ b)).
  { unfold single in *. apply Forall_app in H as [Ha Hu]. apply Forall_app. split; auto. inversion Hu; auto. }
  destruct (Hk _ _ H Hf Hn Hb) as (l & E & M). destruct (Hk (a ++ b) fuel H') as (l' & E' & M').
  - destruct Hf as [F1 F2]. split; [intros c Hc; auto|lia].
  - intros Hc. apply Hn. auto.
  - unfold step_bound in *. nia.
  - exists (map (fun u => (name, k u)) a), (k u), (map (fun u => (name, k u)) b), l, l'.
    rewrite M, M', !map_app, !map_length. auto 8.
Qed.
Print Assumptions C102_one_more_line.

(** It does not hold where comments may go on: C. *)
Theorem C102_order_refuted :
  exists ls ls' l l', single ls /\ Permutation ls ls' /\ file (of_lines ls) /\
    ohcount_parse (Some "c") (of_lines ls) 2000 = Some (Ok l) /\ ohcount_parse (Some "c") (of_lines ls') 2000 = Some (Ok l') /\
    map e_entity l = ["lcomment"; "lcomment"; "lcomment"] /\ map e_entity l' = ["lcode"; "lcomment"; "lcomment"].
Proof.
  exists [bytes "/*"; bytes "a"; bytes "*/"], [bytes "a"; bytes "/*"; bytes "*/"]. do 2 eexists.
  split; [repeat constructor|]. split; [constructor|]. split; [split; [intros c Hc; vm_compute in Hc; repeat (destruct Hc as [<-|Hc]; [lia|]); contradiction|vm_compute; congruence]|].
  split; [vm_compute; reflexivity|]. split; [vm_compute; reflexivity|]. split; vm_compute; reflexivity.
Qed.
Print Assumptions C102_order_refuted.

(** ** Case *)
Definition ex_ls : list (list Z) := [bytes "a=1"; bytes "# b"; []; bytes "c:"].
Definition ex_ls' : list (list Z) := [bytes "c:"; []; bytes "a=1"; bytes "# b"].
Example C102_case : exists st, In ("make", st) styles /\ single ex_ls /\ Permutation ex_ls ex_ls' /\ file (of_lines ex_ls) /\ no_tab (of_lines ex_ls) /\
  exists l l', ohcount_parse (Some "make") (of_lines ex_ls) 2000 = Some (Ok l) /\ ohcount_parse (Some "make") (of_lines ex_ls') 2000 = Some (Ok l') /\
  map e_entity l = ["lcode"; "lcomment"; "lblank"; "lcode"] /\ map e_entity l' = ["lcode"; "lblank"; "lcode"; "lcomment"].
Proof.
  exists (plain [word "#"]). split; [unfold styles; auto 40 using in_eq, in_cons|]. split; [repeat constructor|].
  split; [unfold ex_ls, ex_ls'; apply Permutation_sym; apply (Permutation_cons_app [bytes "a=1"; bytes "# b"; []] []); apply (Permutation_cons_app [bytes "a=1"; bytes "# b"] []); apply Permutation_refl|].
  split; [split; [intros c Hc; vm_compute in Hc; repeat (destruct Hc as [<-|Hc]; [lia|]); contradiction|vm_compute; congruence]|].
  split; [vm_compute; intros H; repeat (destruct H as [H|H]; [discriminate|]); contradiction|]. do 2 eexists.
  split; [vm_compute; reflexivity|]. split; [vm_compute; reflexivity|]. split; vm_compute; reflexivity.
Qed.
