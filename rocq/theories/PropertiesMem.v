(** Properties C70, C71, C72: memory. *)
From Coq Require Import ZArith String List Bool Arith Lia Permutation.
From Verif Require Import Base ParsedModel ParserTable ScanSpec PropertiesScan.
From Verif Require Import MemModel MemLogic MemLists MemFiles MemParse MemSpec MemClient MemCalls MemRun.
Import ListNotations.
Open Scope string_scope.
Open Scope list_scope.
Open Scope nat_scope.

(** ** C70 *)

(** What the pointer of a thing must point to. *)
Definition points_to (s : state) (h : held) (p : ptr) : Prop :=
  match h with
  | HFile _ => exists x, block s p = Some (Source x)
  | HFiles => exists n, block s p = Some (Node KFile n)
  | HCount KLoc => exists x, block s p = Some (Loc x)
  | HCount _ => exists x, block s p = Some (Delta x)
  | HCounts k => exists n, block s p = Some (Node k n)
  | HGone => True
  end.

(** A client whose calls are in order never makes the library use a block that has
    been freed or a NULL pointer, take one object for another, free anything twice
    or run in circles, whatever the files and the system answer; and afterwards
    everything that it still holds is there. *)
Theorem C70_no_fault :
  forall cs t w, afters [] cs = Some t ->
  exists e s, run cs w = Done e s /\ length e = length t /\
    forall i h p, nth_error t i = Some h -> nth_error e i = Some p -> points_to s h p.
Proof.
  intros cs t w A. destruct (run_ends cs t w A) as [e [s [q [ts [X [E [H [G [T V]]]]]]]]].
  exists e, s. split; [exact E|]. split; [rewrite <- T, map_length; apply G|].
  intros i h p Hi Hp. rewrite <- T, nth_error_map in Hi.
  destruct (nth_error ts i) as [u|] eqn:Eu; [|discriminate]. injection Hi as <-.
  destruct (thing_at u) as [p'|] eqn:At.
  - pose proof (good_at e ts i u p' G Eu At) as Hp'. rewrite Hp in Hp'. injection Hp' as <-.
    pose proof (held_block s q _ e ts i u p H G Eu At) as B.
    pose proof (good_own e ts i u G Eu) as O.
    destruct u as [|a o|l es|r k x|k l es]; cbn in *; auto.
    destruct O as [->| ->]; now exists x.
  - destruct u; try discriminate. exact Logic.I.
Qed.
Print Assumptions C70_no_fault.

(** A client with two lists: it counts a directory and sums up the counts. *)
Example C70_ex :
  afters [] [NewFiles; AddFile 0; AddFile 0; Analyze 0; NewList KLoc; AddList KLoc 4 3; AddLocs 4 1;
             Compact KLoc 4; FreeList KLoc 3; FreeFiles 0; FreeList KLoc 4] =
  Some [HGone; HGone; HGone; HGone; HGone; HCounts KLoc].
Proof. reflexivity. Qed.

(** A scanner that is given no contents reports nothing (so that [run_parser] may
    leave it out). *)
Theorem C70_nothing :
  forall name fuel, find_entry name <> None -> (step_bound [] <= Z.of_nat fuel)%Z ->
  ohcount_parse (Some name) [] fuel = Some (Ok []).
Proof.
  intros name fuel Hn Hf.
  assert (F : file []) by (split; [intros c []|vm_compute; discriminate]).
  assert (R : forall es, ohcount_parse (Some name) [] fuel = Some (Ok es) -> es = []).
  { intros es H. pose proof (C19_reports_inside_file name [] fuel es F H) as L.
    destruct es as [|e es]; [reflexivity|]. apply Forall_cons_iff in L. destruct L as [L _].
    destruct L as [_ [_ L]]. cbn in L. lia. }
  destruct (C18_scanners_terminate name [] fuel Hn F Hf) as [r [Hr Nr]].
  assert (S : forall n, n = name -> In n ("rebol" :: html_like) ->
    exists r', ohcount_parse (Some n) [] 40 = Some (Ok r')).
  { intros n _ Hi. unfold html_like in Hi. cbn in Hi.
    repeat (destruct Hi as [<-|Hi]; [eexists; vm_compute; reflexivity|]). destruct Hi. }
  assert (D : In name ("rebol" :: html_like) \/ ~ In name ("rebol" :: html_like)).
  { destruct (in_dec string_dec name ("rebol" :: html_like)); auto. }
  destruct D as [D|D].
  - destruct (S name eq_refl D) as [es He].
    assert (E : r = Ok es) by (eapply C18_result_unique; [exact Hr|exact He|exact Nr|discriminate]).
    subst r. rewrite Hr. now rewrite (R es Hr).
  - destruct (C44_scanners_safe name [] fuel Hn) as [es He]; [| |exact F|exact Hf|].
    + intros I. apply D. now right.
    + intros ->. apply D. now left.
    + rewrite He. now rewrite (R es He).
Qed.
Print Assumptions C70_nothing.

(** What is not in order may go wrong: a list of differences added to itself never
    ends, ... *)
Definition two (k : kind) : list call :=
  [NewList k; NewCount k "a"; Add k 0 1; NewCount k "b"; Add k 0 2].

Theorem C70_list_to_itself_refuted :
  (forall w, run (two KDelta ++ [AddList KDelta 0 0]) w = Fault Loops) /\
  (forall w, exists e s, run (two KLoc ++ [AddList KLoc 0 0]) w = Done e s).
Proof. split; intros w; [vm_compute; reflexivity|]. eexists. eexists. vm_compute. reflexivity. Qed.
Print Assumptions C70_list_to_itself_refuted.

(** ... a file of a list must not be freed by itself. *)
Theorem C70_file_of_list_refuted :
  forall w, run [NewFiles; AddFile 0; FreeFile 1; FreeFiles 0] w = Fault Dangling.
Proof. intros w. vm_compute. reflexivity. Qed.
Print Assumptions C70_file_of_list_refuted.

(** ** C71 *)

(** The blocks that a pointer of the queue leads to. *)
Inductive reached (s : state) : option ptr -> ptr -> Prop :=
| here : forall p x n, block s p = Some (Callback x n) -> reached s (Some p) p
| further : forall p x n r, block s p = Some (Callback x n) -> reached s n r -> reached s (Some p) r.

Lemma queue_reached : forall s q, (forall p o, In (p, o) (qcells q) -> block s p = Some o) ->
  forall p o, In (p, o) (qcells q) -> reached s (qhead q) p.
Proof.
  intros s. induction q as [|[r x] q IH]; intros B p o H; [contradiction|].
  assert (Br : block s r = Some (Callback x (qhead q))).
  { apply B. left. now destruct q as [|[? ?] ?]. }
  destruct H as [E|H].
  - injection E as <- _. exact (here s r x _ Br).
  - eapply further; [exact Br|]. eapply IH; [|exact H]. intros p' o' H'. apply B. now right.
Qed.

(** If a client frees all that it has, then whatever is still allocated is one of
    these: the queue of the scanners, the text in which licences were looked for, the
    names of temporary files, or the empty language of a difference with its texts. *)
Theorem C71_what_is_left :
  forall cs w, all_freed cs ->
  exists e s, run cs w = Done e s /\
    forall p o, block s p = Some o ->
    match o with
    | Callback _ _ => reached s (queue s) p
    | Bytes LicenseText => exists f, In (Licenses f) cs
    | Bytes TempName | Bytes CodeText | Bytes CommentText | Language _ _ _ =>
        exists f x g, In (Diff f g) cs \/ In (LocDelta f x g) cs
    | _ => False
    end.
Proof.
  intros cs w [t [A F]]. destruct (run_ends cs t w A) as [e [s [q [ts [X [E [H [G [T V]]]]]]]]].
  exists e, s. split; [exact E|]. intros p o B.
  rewrite <- T in F. rewrite (all_gone ts F) in H. cbn [app] in H.
  destruct (block_in s q _ p o H B) as [I|I].
  - apply leak_obj in I.
    assert (K1 : (exists l, In l X /\ is_text l) -> exists f, In (Licenses f) cs).
    { intros [l [Il Tl]].
      destruct (existsb (fun c => match c with Licenses _ => true | _ => false end) cs) eqn:Ex.
      - apply existsb_exists in Ex. destruct Ex as [c [Ic Hc]]. destruct c; try discriminate. now exists f.
      - exfalso. assert (N : Forall (fun l => ~ is_text l) X).
        { apply (leaves_no_texts cs X V). intros c Ic.
          destruct c; try exact Logic.I.
          assert (Y : existsb (fun c => match c with Licenses _ => true | _ => false end) cs = true)
            by (apply existsb_exists; exists (Licenses f); auto). congruence. }
        rewrite Forall_forall in N. now apply (N l). }
    assert (K2 : (exists l, In l X /\ ~ is_text l) ->
      exists f x g, In (Diff f g) cs \/ In (LocDelta f x g) cs).
    { intros [l [Il Tl]].
      set (y := fun c => match c with Diff _ _ | LocDelta _ _ _ => true | _ => false end).
      destruct (existsb y cs) eqn:Ex.
      - apply existsb_exists in Ex. destruct Ex as [c [Ic Hc]]. destruct c; try discriminate.
        + exists f, "", g. now left.
        + exists f, x, g. now right.
      - exfalso. assert (N : Forall is_text X).
        { apply (leaves_texts cs X V). intros c Ic.
          assert (Y : y c = true -> False).
          { intros Yc. assert (existsb y cs = true) by (apply existsb_exists; exists c; auto). congruence. }
          destruct c; try exact Logic.I; now apply Y. }
        rewrite Forall_forall in N. apply Tl. now apply N. }
    destruct o as [|[| | | | | | |]| | | | | |]; auto; contradiction.
  - destruct (qcells_in q p o I) as [x [n ->]].
    rewrite (proj1 H). apply (queue_reached s q) with (o := Callback x n); [|exact I].
    intros p' o' I'. destruct H as [_ [_ [_ H]]]. apply H. apply in_or_app. now right.
Qed.
Print Assumptions C71_what_is_left.

(** A client that asks for no licences and no differences gets everything back but
    the queue. *)
Theorem C71_nothing_lost :
  forall cs w, all_freed cs ->
  (forall c, In c cs -> match c with Licenses _ | Diff _ _ | LocDelta _ _ _ => False | _ => True end) ->
  exists e s, run cs w = Done e s /\ forall p o, block s p = Some o -> reached s (queue s) p.
Proof.
  intros cs w F N. destruct (C71_what_is_left cs w F) as [e [s [E H]]]. exists e, s.
  split; [exact E|]. intros p o B. specialize (H p o B).
  destruct o as [|[| | | | | | |]| | | | | |]; try contradiction; try exact H; exfalso;
    first [destruct H as [f H]; exact (N _ H)
          |destruct H as [f [x [g [H|H]]]]; exact (N _ H)].
Qed.
Print Assumptions C71_nothing_lost.

Lemma nodup_left : forall A (l m : list A), NoDup (l ++ m) -> NoDup l.
Proof.
  induction l as [|a l IH]; intros m N; [constructor|]. inversion N as [|? ? Na Nl]; subst.
  constructor; [|now apply (IH m)]. intros I. apply Na. apply in_or_app. now left.
Qed.

(** It is expected that nothing is left at all.  But each call of
    ohcount_sourcefile_calc_loc_delta loses an empty language with its two texts,
    whatever the files are and whatever is freed: *)
Theorem C71_deltas_lose_memory :
  forall cs t w, afters [] cs = Some t ->
  exists e s ps, run cs w = Done e s /\ NoDup ps /\ length ps = length (filter is_loc_delta cs) /\
    Forall (fun p => exists x c m, block s p = Some (Language x c m) /\
      block s c = Some (Bytes CodeText) /\ block s m = Some (Bytes CommentText) /\
      forall i q, nth_error e i = Some q -> nth_error t i <> Some HGone -> q <> p) ps.
Proof.
  intros cs t w A. destruct (run_ends cs t w A) as [e [s [q [ts [X [E [H [G [T V]]]]]]]]].
  pose proof (leaves_blanks cs X V) as Lb. set (n := length (filter is_loc_delta cs)) in *.
  exists e, s, (firstn n (blanks X)). split; [exact E|].
  assert (ND : NoDup (blanks X)).
  { apply (blanks_sub X (all_cells ts ++ qcells q)). destruct H as [_ [_ [H _]]].
    eapply Permutation_NoDup; [apply Permutation_map|exact H]. perm. }
  split; [|split; [apply firstn_length_le; exact Lb|]].
  - rewrite <- (firstn_skipn n (blanks X)) in ND. exact (nodup_left _ _ _ ND).
  - apply Forall_forall. intros p I.
    assert (Ip : In p (blanks X)) by (rewrite <- (firstn_skipn n (blanks X)); apply in_or_app; now left).
    destruct (blanks_in X p Ip) as [x [c [m J]]]. exists x, c, m.
    assert (B : forall r o, In (r, o) [(p, Language x c m); (c, Bytes CodeText); (m, Bytes CommentText)] ->
      block s r = Some o).
    { intros r o Ir. eapply in_block; [exact H|]. apply in_or_app. right. now apply J. }
    split; [apply B; now left|]. split; [apply B; right; now left|]. split; [apply B; right; right; now left|].
    intros i r Hi Ni ->.
    destruct (nth_error ts i) as [u|] eqn:Eu.
    2:{ apply nth_error_None in Eu. destruct G as [GL _]. rewrite <- GL in Eu.
        apply nth_error_None in Eu. congruence. }
    assert (Tu : nth_error t i = Some (track u)) by (rewrite <- T, nth_error_map, Eu; reflexivity).
    destruct (thing_at u) as [r|] eqn:At.
    + pose proof (good_at e ts i u r G Eu At) as Hr. rewrite Hi in Hr. injection Hr as <-.
      pose proof (held_block s q _ e ts i u p H G Eu At) as Bu.
      pose proof (good_own e ts i u G Eu) as O.
      rewrite (B p (Language x c m)) in Bu by now left.
      destruct u as [|a o|l es|r k y|k l es]; try discriminate;
        try (destruct Bu as [? Bu]; discriminate).
      cbn in O. destruct O as [->| ->]; discriminate.
    + destruct u; try discriminate. apply Ni. exact Tu.
Qed.
Print Assumptions C71_deltas_lose_memory.

(** The blocks that are live. *)
Definition live (s : state) : list obj :=
  flat_map (fun b => match b with Some o => [o] | None => [] end) (blocks s).

Definition sees (l : list step) : answer :=
  {| opened := true; got := true; detects := Answer true; steps := l; many := 0; yes := true |}.

(** One file with one line of C, too long to be compared in memory: parsed, searched for licences, compared with
    itself, everything freed.  The answers: detection, scanner, licences. *)
Definition careful : list call :=
  [NewFile; SetContents 0; Parse 0; Licenses 0; Diff 0 0; FreeList KDelta 1; FreeFile 0].

Theorem C71_memory_lost_refuted :
  all_freed careful /\
  exists w e s, run careful w = Done e s /\
    live s = [Bytes LicenseText; Language "c" 12 13; Bytes CodeText; Bytes CommentText;
              Bytes TempName; Bytes TempName; Bytes TempName; Bytes TempName].
Proof.
  split; [exists [HGone; HGone]; split; [reflexivity|now repeat constructor]|].
  exists (repeat (sees [Line "c"]) 40). eexists. eexists. vm_compute. split; reflexivity.
Qed.
Print Assumptions C71_memory_lost_refuted.

(** The queue is still there if the file ends in a string that does not close (see C73_left
    for the scanner of such a file). *)
Theorem C71_queue_left_refuted :
  exists w e s, run [NewFile; SetContents 0; Parse 0; FreeFile 0] w = Done e s /\
    live s = [Callback "shell" None].
Proof.
  exists [sees []; sees [Begin; Line "shell"; Dequeue; Line "shell"; Line "shell"]]. eexists. eexists. vm_compute. split; reflexivity.
Qed.
Print Assumptions C71_queue_left_refuted.

(** ** C72 *)

(** What ohcount_sourcefile_get_contents has returned. *)
Definition contents_at (s : state) (e : list ptr) (f : nat) : option ptr :=
  match nth_error e f with
  | Some p => match block s p with Some (Source x) => contents x | _ => None end
  | None => None
  end.

(** The contents of a file stay where they are until the file is parsed, given other
    contents, or freed, whatever else is done with it and with other files. *)
Theorem C72_contents_stay :
  forall cs t w f e s c ds t', afters [] cs = Some t -> at_ is_file t f = true ->
  run cs w = Done e s -> contents_at s e f = Some c ->
  afters t ds = Some t' -> quiet t ds f = true ->
  block s c = Some (Bytes Contents) /\
  exists e' s', run (cs ++ ds) w = Done e' s' /\
    contents_at s' e' f = Some c /\ block s' c = Some (Bytes Contents).
Proof.
  intros cs t w f e s c ds t' A F R Hc A' Q.
  destruct (run_more cs ds t t' w A A') as [e1 [s1 [q [ts [X [E [[H [G [T V]]] K]]]]]]].
  rewrite R in E. injection E as <- <-.
  destruct K as [r [s' [q' [ts' [Y [E' [H' [G' [T' [V' K]]]]]]]]]].
  rewrite <- T in F. apply at_file in F. destruct F as [a [o Ff]].
  assert (Ca : contents (f_src a) = Some c).
  { unfold contents_at in Hc. rewrite (good_at e ts f _ _ G Ff eq_refl) in Hc.
    rewrite (in_block s q _ (f_at a) (Source (f_src a)) H) in Hc; [exact Hc|].
    apply (thing_incl ts f _ _ Ff). now left. }
  destruct (K f Q a o Ff) as [b [Fb Kb]].
  assert (Cb : contents (f_src b) = Some c) by (rewrite <- Ca; apply Kb; now rewrite Ca).
  split.
  - apply (in_block s q _ _ _ H).
    eapply file_contents; [apply (thing_incl ts f _ _ Ff)|exact Ca].
  - exists (e ++ r), s'. split; [exact E'|]. split.
    + unfold contents_at. rewrite (good_at _ ts' f _ _ G' Fb eq_refl).
      rewrite (in_block s' q' _ (f_at b) (Source (f_src b)) H'); [exact Cb|].
      apply (thing_incl ts' f _ _ Fb). now left.
    + apply (in_block s' q' _ _ _ H').
      eapply file_contents; [apply (thing_incl ts' f _ _ Fb)|exact Cb].
Qed.
Print Assumptions C72_contents_stay.

(** The file 0 is asked for its contents, the file 1 is parsed and compared. *)
Example C72_ex :
  let cs := [NewFile; NewFile; SetContents 0; SetContents 1] in
  let ds := [GetContents 0; SetLanguage 0; ParseWith 0; CopyContents 1 0; Parse 1; NewFile; Diff 1 2; FreeFile 1] in
  afters [] cs = Some [HFile None; HFile None] /\ at_ is_file [HFile None; HFile None] 0 = true /\
  (exists e s c, run cs [] = Done e s /\ contents_at s e 0 = Some c) /\
  (exists t', afters [HFile None; HFile None] ds = Some t') /\ quiet [HFile None; HFile None] ds 0 = true.
Proof.
  split; [reflexivity|]. split; [reflexivity|]. split; [|split; [eexists; reflexivity|reflexivity]].
  eexists. eexists. eexists. split; vm_compute; reflexivity.
Qed.

(** But parsing frees them, as does anything that parses: the counts, the licences,
    a difference. *)
Theorem C72_parsing_frees_refuted :
  exists w e s c, run [NewFile; SetContents 0] w = Done e s /\ contents_at s e 0 = Some c /\
  forall d, In d [Parse 0; Licenses 0; Locs 0; Diff 0 0; LocDelta 0 "c" 0] ->
  exists e' s', run [NewFile; SetContents 0; d] w = Done e' s' /\ block s' c = None.
Proof.
  exists (repeat (sees [Line "c"]) 40). eexists. eexists. eexists.
  split; [vm_compute; reflexivity|]. split; [vm_compute; reflexivity|].
  intros d I. cbn in I.
  repeat (destruct I as [<-|I]; [eexists; eexists; vm_compute; split; reflexivity|]). destruct I.
Qed.
Print Assumptions C72_parsing_frees_refuted.

(** A file cannot be given its own contents: they are freed before they are copied. *)
Theorem C72_own_contents_refuted :
  forall w, run [NewFile; SetContents 0; CopyContents 0 0] w = Fault Dangling.
Proof. intros w. vm_compute. reflexivity. Qed.
Print Assumptions C72_own_contents_refuted.
