(** The blocks of a SourceFile, and what the functions of sourcefile.c do to
    them. *)
From Coq Require Import String List Bool Arith Lia Permutation.
From Verif Require Import MemModel MemLogic MemLists.
Import ListNotations.
Open Scope string_scope.
Open Scope list_scope.

(** A file: its address, its fields and the items of its lists. *)
Record afile := { f_at : ptr; f_src : source;
                  f_langs : list entry; f_lics : list entry; f_locs : list entry }.

Definition olist (k : kind) (l : option ptr) (es : list entry) : cells :=
  match l with Some l => list_cells k l es | None => [] end.

(** The blocks that belong to a file. *)
Definition file_cells (a : afile) : cells :=
  (f_at a, Source (f_src a)) :: (filepath (f_src a), Bytes Filepath)
  :: opt_cell (diskpath (f_src a)) Diskpath ++ opt_cell (contents (f_src a)) Contents
  ++ olist KLanguage (languages (f_src a)) (f_langs a)
  ++ olist KLicense (licenses (f_src a)) (f_lics a)
  ++ olist KLoc (locs (f_src a)) (f_locs a).

Definition file_ok (a : afile) : Prop :=
  Forall (entry_ok KLanguage) (f_langs a) /\ Forall (entry_ok KLicense) (f_lics a) /\
  Forall (entry_ok KLoc) (f_locs a).

(** The file with other fields or items. *)
Definition re_src (a : afile) (x : source) : afile :=
  {| f_at := f_at a; f_src := x; f_langs := f_langs a; f_lics := f_lics a; f_locs := f_locs a |}.
Definition re_langs (a : afile) (es : list entry) : afile :=
  {| f_at := f_at a; f_src := f_src a; f_langs := es; f_lics := f_lics a; f_locs := f_locs a |}.

Definition re_contents (a : afile) (o : option ptr) : afile :=
  re_src a (with_contents o (f_src a)).
Definition re_language (a : afile) (o : option bool) : afile :=
  re_src a (with_language o (f_src a)).

Lemma re_src_same : forall a, re_src a (f_src a) = a.
Proof. now destruct a. Qed.

Lemma re_contents_same : forall a, re_contents a (contents (f_src a)) = a.
Proof. destruct a as [p [f d c g ls li lo] x y z]. reflexivity. Qed.

Lemma file_source : forall a C, incl (file_cells a) C -> In (f_at a, Source (f_src a)) C.
Proof. intros a C I. apply I. now left. Qed.

Lemma file_path : forall a C, incl (file_cells a) C -> In (filepath (f_src a), Bytes Filepath) C.
Proof. intros a C I. apply I. right. now left. Qed.

Ltac infile := unfold file_cells; cbn [app]; rewrite ?in_app_iff; cbn [In]; tauto.

Lemma file_contents : forall a c C, incl (file_cells a) C -> contents (f_src a) = Some c ->
  In (c, Bytes Contents) C.
Proof.
  intros a c C I E. apply I. unfold file_cells. rewrite E. cbn [opt_cell]. right. right.
  apply in_right. now left.
Qed.

Lemma file_disk : forall a c C, incl (file_cells a) C -> diskpath (f_src a) = Some c ->
  In (c, Bytes Diskpath) C.
Proof.
  intros a c C I E. apply I. unfold file_cells. rewrite E. cbn [opt_cell]. right. right.
  apply in_left. now left.
Qed.

Lemma file_langs : forall a l C, incl (file_cells a) C -> languages (f_src a) = Some l ->
  incl (list_cells KLanguage l (f_langs a)) C.
Proof.
  intros a l C I E c H. apply I. unfold file_cells. rewrite E. cbn [olist]. right. right.
  do 2 apply in_right. now apply in_left.
Qed.

(** [cbn] on the fields of a file. *)
Ltac fields :=
  cbn [re_src re_langs re_contents re_language f_at f_src f_langs f_lics f_locs
       with_diskpath with_contents with_language with_languages with_licenses with_locs
       filepath diskpath contents language languages licenses locs opt_cell olist] in *.

Lemma tri_set_lang : forall B q a F g (k : unit -> M B) Q,
  tri q (file_cells (re_language a g) ++ F) (k tt) Q ->
  tri q (file_cells a ++ F) (bind (set_field (f_at a) (with_language g)) k) Q.
Proof.
  intros B q a F g k Q K. unfold file_cells. cbn [app].
  eapply tri_set_field; [reflexivity|]. exact K.
Qed.

(** ohcount_sourcefile_new *)
Definition new_file (p f : ptr) : afile :=
  {| f_at := p;
     f_src := {| filepath := f; diskpath := None; contents := None; language := None;
                 languages := None; licenses := None; locs := None |};
     f_langs := []; f_lics := []; f_locs := [] |}.

Lemma new_file_ok : forall p f, file_ok (new_file p f).
Proof. intros p f. repeat split; constructor. Qed.

Lemma tri_source_new : forall q,
  tri q [] source_new (fun p q' C' => q' = q /\ exists f, C' = file_cells (new_file p f)).
Proof.
  intros q. unfold source_new. apply tri_alloc. intros p. apply tri_alloc. intros f.
  eapply tri_store; [apply perm_swap|]. apply tri_ret. split; [reflexivity|]. now exists f.
Qed.

Lemma tri_call_new : forall B q C (k : ptr -> M B) Q,
  (forall p f, tri q (file_cells (new_file p f) ++ C) (k p) Q) -> tri q C (bind source_new k) Q.
Proof.
  intros B q C k Q K. apply (tri_call _ _ q C [] C source_new k _ Q (Permutation_refl C) (tri_source_new q)).
  intros p q' D' [-> [f ->]]. apply K.
Qed.

(** A string argument is the caller's own or a string in the heap. *)
Definition arg_ok (arg : option ptr) (C : cells) : Prop :=
  match arg with Some c => exists w, In (c, Bytes w) C | None => True end.

Lemma tri_touch_arg : forall B q C arg (k : unit -> M B) Q,
  arg_ok arg C -> tri q C (k tt) Q -> tri q C (bind (touch_arg arg) k) Q.
Proof.
  intros B q C [c|] k Q H K; cbn in *; [|exact K].
  destruct H as [w H]. now apply (tri_touch _ _ _ _ w).
Qed.

Lemma arg_incl : forall arg C D, incl C D -> arg_ok arg C -> arg_ok arg D.
Proof. intros [c|] C D I; cbn; [|auto]. intros [w H]. exists w. now apply I. Qed.

(** ohcount_sourcefile_set_diskpath; the argument is not the diskpath itself. *)
Lemma tri_set_diskpath : forall q a arg F, arg_ok arg F ->
  tri q (file_cells a ++ F) (set_diskpath (f_at a) arg) (fun _ q' C' => q' = q /\
    exists d, C' = file_cells (re_src a (with_diskpath (Some d) (f_src a))) ++ F).
Proof.
  intros q [p [f d c g ls li lo] x y z] arg F A. unfold set_diskpath. fields. unfold file_cells. fields.
  eapply tri_load_source; [now left|]. fields.
  eapply tri_free_opt with (w := Diskpath).
  { instantiate (1 := (p, _) :: (f, Bytes Filepath) :: opt_cell c Contents ++ olist KLanguage ls x
      ++ olist KLicense li y ++ olist KLoc lo z ++ F). perm. }
  apply tri_touch_arg.
  { eapply arg_incl; [|exact A]. do 2 apply incl_tl. do 4 apply incl_appr. apply incl_refl. }
  apply tri_alloc. intros n.
  eapply tri_set_field; [apply perm_swap|]. fields.
  apply tri_unbind. apply tri_touch_arg.
  { eapply arg_incl; [|exact A]. do 3 apply incl_tl. do 4 apply incl_appr. apply incl_refl. }
  eapply tri_ret_perm; [|split; [reflexivity|exists n; reflexivity]]. fields. perm.
Qed.

Lemma tri_set_contents : forall q a arg F, arg_ok arg F ->
  tri q (file_cells a ++ F) (set_contents (f_at a) arg) (fun _ q' C' => q' = q /\
    exists d, C' = file_cells (re_contents a (Some d)) ++ F).
Proof.
  intros q [p [f d c g ls li lo] x y z] arg F A. unfold set_contents. fields. unfold file_cells. fields.
  eapply tri_load_source; [now left|]. fields.
  eapply tri_free_opt with (w := Contents).
  { instantiate (1 := (p, _) :: (f, Bytes Filepath) :: opt_cell d Diskpath ++ olist KLanguage ls x
      ++ olist KLicense li y ++ olist KLoc lo z ++ F). perm. }
  apply tri_touch_arg.
  { eapply arg_incl; [|exact A]. do 2 apply incl_tl. do 4 apply incl_appr. apply incl_refl. }
  apply tri_alloc. intros n.
  eapply tri_set_field; [apply perm_swap|]. fields.
  apply tri_unbind. apply tri_touch_arg.
  { eapply arg_incl; [|exact A]. do 3 apply incl_tl. do 4 apply incl_appr. apply incl_refl. }
  eapply tri_ret_perm; [|split; [reflexivity|exists n; reflexivity]]. fields. perm.
Qed.

(** ohcount_sourcefile_get_contents: the contents it had, if any. *)
Definition got_contents (a : afile) (o : option ptr) : Prop :=
  contents (f_src a) <> None -> o = contents (f_src a).

Lemma tri_get_contents : forall q a,
  tri q (file_cells a) (get_contents (f_at a)) (fun o q' C' => q' = q /\
    C' = file_cells (re_contents a o) /\ got_contents a o).
Proof.
  intros q a. unfold get_contents.
  eapply tri_load_source; [apply file_source; apply incl_refl|].
  destruct (contents (f_src a)) as [c|] eqn:Ec.
  - apply tri_ret. split; [reflexivity|]. split; [|intros _; now rewrite Ec].
    now rewrite <- Ec, re_contents_same.
  - assert (G : forall o, got_contents a o) by (intros o H; congruence).
    assert (T : forall (k : unit -> M (option ptr)) Q,
      tri q (file_cells a) (k tt) Q ->
      tri q (file_cells a) (bind (touch match diskpath (f_src a) with
        Some d => d | None => filepath (f_src a) end) k) Q).
    { intros k Q K. destruct (diskpath (f_src a)) as [d|] eqn:Ed.
      - eapply tri_touch; [eapply file_disk; [apply incl_refl|exact Ed]|exact K].
      - eapply tri_touch; [apply file_path; apply incl_refl|exact K]. }
    apply T. clear T. apply tri_ask. intros w.
    destruct a as [p [f d c g ls li lo] x y z]. fields. subst c. unfold file_cells. fields. cbn [app].
    destruct (opened w).
    + apply tri_alloc. intros c.
      eapply tri_set_field; [apply perm_swap|]. fields. destruct (got w).
      * eapply tri_touch; [right; now left|].
        eapply tri_ret_perm; [|split; [reflexivity|split; [reflexivity|apply G]]].
        fields. perm.
      * eapply tri_free; [apply perm_swap|]. eapply tri_set_field; [reflexivity|]. fields.
        eapply tri_ret_perm; [|split; [reflexivity|split; [reflexivity|apply G]]].
        fields. perm.
    + eapply tri_set_field; [reflexivity|]. fields.
      eapply tri_ret_perm; [|split; [reflexivity|split; [reflexivity|apply G]]].
      fields. perm.
Qed.

(** ohcount_sourcefile_free *)
Lemma tri_olist_free : forall B q C F k drop l es (f : unit -> M B) Q,
  (forall p, tri q (list_cells k p es) (list_free k drop p) (fun _ q' C' => q' = q /\ C' = [])) ->
  Permutation C (olist k l es ++ F) -> tri q F (f tt) Q ->
  tri q C (bind (match l with Some p => list_free k drop p | None => ret tt end) f) Q.
Proof.
  intros B q C F k drop [p|] es f Q T P K; cbn [olist app] in *.
  - eapply tri_call; [exact P|apply T|]. intros [] q' D' [-> ->]. exact K.
  - eapply tri_perm; [exact P|exact K].
Qed.

Lemma tri_source_free : forall q a, file_ok a ->
  tri q (file_cells a) (source_free (f_at a)) (fun _ q' C' => q' = q /\ C' = []).
Proof.
  intros q [p [f d c g ls li lo] x y z] [O1 [O2 O3]]. fields. unfold source_free, file_cells. fields.
  eapply tri_load_source; [now left|]. fields.
  eapply tri_free; [apply perm_swap|].
  eapply tri_free_opt with (w := Diskpath).
  { instantiate (1 := (p, _) :: opt_cell c Contents ++ olist KLanguage ls x
      ++ olist KLicense li y ++ olist KLoc lo z). perm. }
  eapply tri_free_opt with (w := Contents).
  { instantiate (1 := (p, _) :: olist KLanguage ls x ++ olist KLicense li y ++ olist KLoc lo z). perm. }
  eapply tri_olist_free with (es := x); [intros r; now apply tri_free_languages|
    instantiate (1 := (p, _) :: olist KLicense li y ++ olist KLoc lo z); perm|].
  eapply tri_olist_free with (es := y); [intros r; now apply tri_free_licenses|
    instantiate (1 := (p, _) :: olist KLoc lo z); perm|].
  eapply tri_olist_free with (es := z); [intros r; apply tri_free_counts; [now left|exact O3]|
    instantiate (1 := [(p, _)]); perm|].
  apply tri_unbind. eapply tri_free; [reflexivity|]. now apply tri_ret.
Qed.

(** Language detection loads the contents at most. *)
Lemma tri_detect : forall d q a, file_ok a ->
  tri q (file_cells a) (detect d (f_at a)) (fun _ q' C' => q' = q /\
    exists o, C' = file_cells (re_contents a o) /\ got_contents a o).
Proof.
  induction d as [b|d IH|i IHi d IH]; intros q a O; cbn [detect].
  - eapply tri_load_source; [apply file_source; apply incl_refl|].
    eapply tri_touch; [apply file_path; apply incl_refl|].
    apply tri_ret. split; [reflexivity|]. exists (contents (f_src a)).
    rewrite re_contents_same. split; [reflexivity|]. now intros _.
  - eapply tri_bind; [apply tri_get_contents|]. intros o q' C' [-> [-> G]].
    assert (K : tri q (file_cells (re_contents a o)) (detect d (f_at a)) (fun _ q' C' => q' = q /\
      exists o', C' = file_cells (re_contents a o') /\ got_contents a o')).
    { eapply tri_weaken; [apply (IH q (re_contents a o)); exact O|].
      intros _ q' C' [-> [o' [-> G']]]. split; [reflexivity|]. exists o'. split; [reflexivity|].
      intros H. specialize (G H). subst o. apply G'. exact H. }
    destruct o as [c|]; [|exact K].
    eapply tri_touch; [eapply file_contents; [apply incl_refl|reflexivity]|exact K].
  - eapply tri_bind; [apply tri_get_contents|]. intros o q' C' [-> [-> G]].
    destruct o as [c|].
    2:{ apply tri_ret. split; [reflexivity|]. now exists None. }
    apply tri_call_new. intros t ft.
    set (b := re_contents a (Some c)). change (f_at a) with (f_at b).
    eapply tri_load_source; [apply in_right; apply file_source; apply incl_refl|].
    eapply tri_bind with (Q := fun _ q' C' => q' = q /\ exists e,
      C' = file_cells e ++ file_cells b /\ f_at e = t /\ file_ok e).
    { destruct (diskpath (f_src b)) as [dp|] eqn:Ed.
      - change t with (f_at (new_file t ft)) at 1. eapply tri_weaken; [apply tri_set_diskpath|].
        + exists Diskpath. eapply file_disk; [apply incl_refl|exact Ed].
        + intros _ q' C' [-> [n ->]]. split; [reflexivity|]. eexists. split; [reflexivity|].
          split; [reflexivity|]. apply new_file_ok.
      - apply tri_ret. split; [reflexivity|]. eexists. split; [reflexivity|].
        split; [reflexivity|]. apply new_file_ok. }
    intros _ q' C' [-> [e [-> [<- Oe]]]].
    eapply tri_bind; [apply (tri_set_contents q e (Some c) (file_cells b))|].
    { exists Contents. eapply file_contents; [apply incl_refl|reflexivity]. }
    intros _ q' C' [-> [n ->]].
    set (e1 := re_contents e (Some n)). assert (O1 : file_ok e1) by exact Oe.
    change (f_at e) with (f_at e1). clearbody e1. clear e Oe n.
    eapply tri_load_source; [apply in_left; apply file_source; apply incl_refl|].
    eapply tri_bind with (Q := fun _ q' C' => q' = q /\ exists e,
      C' = file_cells e ++ file_cells b /\ f_at e = f_at e1 /\ file_ok e).
    { destruct (language (f_src e1)) as [r|].
      - apply tri_ret. split; [reflexivity|]. eexists. split; [reflexivity|]. now split.
      - eapply tri_call with (D := file_cells e1); [reflexivity|apply IHi; exact O1|].
        intros r q' D' [-> [o [-> _]]]. apply tri_unbind.
        apply (tri_set_lang _ q (re_contents e1 o)). apply tri_ret. split; [reflexivity|].
        exists (re_language (re_contents e1 o) (Some r)). split; [reflexivity|]. now split. }
    intros _ q' C' [-> [e2 [-> [E2 O2]]]]. rewrite <- E2.
    eapply tri_call with (D := file_cells e2); [reflexivity|apply tri_source_free; exact O2|].
    intros _ q' D' [-> ->]. cbn [app].
    eapply tri_weaken; [apply (IH q b); exact O|].
    intros _ q' C' [-> [o' [-> G']]]. split; [reflexivity|]. exists o'. split; [reflexivity|].
    intros H. specialize (G H). rewrite <- G. apply G'. discriminate.
Qed.

Lemma tri_get_language : forall q a, file_ok a ->
  tri q (file_cells a) (get_language (f_at a)) (fun _ q' C' => q' = q /\
    exists o g, C' = file_cells (re_language (re_contents a o) g) /\ got_contents a o).
Proof.
  intros q a O. unfold get_language.
  eapply tri_load_source; [apply file_source; apply incl_refl|].
  destruct (language (f_src a)) as [b|] eqn:E.
  - apply tri_ret. split; [reflexivity|]. exists (contents (f_src a)), (Some b).
    split; [|now intros _]. rewrite re_contents_same. rewrite <- E.
    destruct a as [p [f d c g ls li lo] x y z]; reflexivity.
  - apply tri_ask. intros w. eapply tri_bind; [apply tri_detect; exact O|].
    intros b q' C' [-> [o [-> G]]]. rewrite <- (app_nil_r (file_cells _)).
    apply (tri_set_lang _ q (re_contents a o)). rewrite app_nil_r.
    apply tri_ret. split; [reflexivity|]. exists o, (Some b). now split.
Qed.

Lemma tri_set_language : forall q a,
  tri q (file_cells a) (set_language (f_at a)) (fun _ q' C' => q' = q /\
    exists g, C' = file_cells (re_language a g)).
Proof.
  intros q a. unfold set_language. apply tri_ask. intros w. destruct (opened w).
  - apply tri_unbind. rewrite <- (app_nil_r (file_cells _)).
    apply (tri_set_lang _ q a). rewrite app_nil_r. apply tri_ret.
    split; [reflexivity|]. now exists (Some (yes w)).
  - apply tri_ret. split; [reflexivity|]. exists (language (f_src a)).
    destruct a as [p [f d c g ls li lo] x y z]; reflexivity.
Qed.
