(** The queue of the scanners, parsing, licences and counts of a file in
    [MemModel]. *)
From Coq Require Import String List Bool Arith Lia Permutation.
From Verif Require Import MemModel MemLogic MemLists MemFiles.
Import ListNotations.
Open Scope string_scope.
Open Scope list_scope.

(** ** The queue *)

Lemma qcells_app : forall q p x, qcells (q ++ [(p, x)]) =
  match q with [] => [(p, Callback x None)] | _ =>
    removelast (qcells q) ++ match rev q with (n, y) :: _ => [(n, Callback y (Some p))] | [] => [] end
    ++ [(p, Callback x None)] end.
Proof.
  induction q as [|[n y] q IH]; intros p x; [reflexivity|].
  cbn [app qcells]. rewrite IH. destruct q as [|[n' y'] q]; [reflexivity|].
  cbn [app qcells]. f_equal.
  change (rev ((n, y) :: (n', y') :: q)) with (rev ((n', y') :: q) ++ [(n, y)]).
  destruct (rev ((n', y') :: q)) as [|[z w] r] eqn:E.
  - apply (f_equal (@length _)) in E. rewrite rev_length in E. discriminate.
  - reflexivity.
Qed.

Lemma qlast_app : forall q p x, qlast (q ++ [(p, x)]) = Some p.
Proof.
  induction q as [|[n y] q IH]; intros p x; [reflexivity|].
  cbn [app qlast]. rewrite IH. now destruct q.
Qed.

Lemma qcells_last : forall q p x, qcells (q ++ [(p, x)]) =
  removelast (qcells (q ++ [(p, x)])) ++ [(p, Callback x None)].
Proof.
  induction q as [|[n y] q IH]; intros p x; [reflexivity|].
  cbn [app qcells]. rewrite IH at 1.
  destruct (qcells (q ++ [(p, x)])) as [|c r] eqn:E.
  - destruct q as [|[? ?] ?]; discriminate.
  - reflexivity.
Qed.

Lemma tri_enqueue : forall q C x,
  tri q C (enqueue x) (fun _ _ C' => C' = C).
Proof.
  intros q C x. unfold enqueue. apply tri_alloc. intros i. apply tri_get_queue.
  destruct (list_last _ q) as [->|[q0 [[t y] ->]]].
  - cbn [qhead]. apply tri_unbind.
    apply (tri_set_queue _ [] [(i, x)] _ C); [cbn; perm|]. now apply tri_ret.
  - replace (qhead (q0 ++ [(t, y)])) with (Some (match q0 with [] => t | (p, _) :: _ => p end))
      by (destruct q0 as [|[? ?] ?]; reflexivity).
    apply tri_get_queue_end. rewrite qlast_app. apply tri_deref.
    apply (tri_load _ _ _ _ (Callback y None)).
    { apply in_right. rewrite qcells_last. apply in_right. now left. }
    intros R s [Hq [He H]].
    rewrite qcells_last in H.
    assert (P : Permutation ((((i, Callback x None) :: C) ++ R) ++
        removelast (qcells (q0 ++ [(t, y)])) ++ [(t, Callback y None)])
      ((t, Callback y None) :: (i, Callback x None) :: C ++ R ++ removelast (qcells (q0 ++ [(t, y)]))))
      by perm.
    apply (holds_perm _ _ _ P) in H. clear P.
    destruct (holds_store s t _ (Callback y (Some i)) _ H) as [E1 H1].
    exists tt. eexists. exists ((q0 ++ [(t, y)]) ++ [(i, x)]), C.
    split; [unfold bind; rewrite E1; reflexivity|]. split; [|reflexivity].
    split; [destruct q0 as [|[? ?] ?]; reflexivity|]. split; [now rewrite qlast_app|].
    eapply holds_perm; [|exact H1].
    rewrite (qcells_app (q0 ++ [(t, y)])).
    replace (rev (q0 ++ [(t, y)])) with ((t, y) :: rev q0) by now rewrite rev_app_distr.
    destruct (q0 ++ [(t, y)]) as [|z r] eqn:E; [destruct q0; discriminate|]. perm.
Qed.

Lemma free_queue_loop_ok : forall q n s R, holds s (qcells q ++ R) -> length q < n ->
  exists s', free_queue_loop n (qhead q) s = Done tt s' /\ holds s' R.
Proof.
  induction q as [|[p x] q IH]; intros n s R H L; (destruct n as [|n]; [cbn in L; lia|]).
  - exists s. split; [reflexivity|exact H].
  - cbn [qhead free_queue_loop]. cbn [qcells app] in H.
    destruct (holds_free s p _ _ H) as [E1 H1].
    destruct (IH n _ R H1 ltac:(cbn in L; lia)) as [s' [E2 H2]].
    exists s'. split; [|exact H2]. unfold bind at 1. unfold load.
    replace (block s p) with (Some (Callback x (match q with [] => None | (m, _) :: _ => Some m end)))
      by (symmetry; apply H; now left).
    unfold bind. rewrite E1. destruct q as [|[m y] q]; exact E2.
Qed.

Lemma qcells_length : forall q, length (qcells q) = length q.
Proof. induction q as [|[p x] q IH]; cbn; auto. Qed.

Lemma tri_free_queue : forall q C,
  tri q C free_queue (fun _ q' C' => q' = [] /\ C' = C).
Proof.
  intros q C R s [Hq [He H]].
  assert (P : Permutation ((C ++ R) ++ qcells q) (qcells q ++ C ++ R)) by apply Permutation_app_comm.
  apply (holds_perm _ _ _ P) in H.
  destruct (free_queue_loop_ok q (S (length (blocks s))) s (C ++ R) H) as [s' [E H']].
  { apply holds_length in H. rewrite app_length, qcells_length in H. lia. }
  unfold free_queue, bind, get_queue, fuel, set_queue. rewrite Hq, E.
  eexists tt, _, [], C. split; [reflexivity|]. split; [|auto].
  split; [reflexivity|]. split; [reflexivity|]. cbn [qcells]. rewrite app_nil_r. exact H'.
Qed.

Lemma qcells_suffix : forall a b, incl (qcells b) (qcells (a ++ b)).
Proof.
  induction a as [|[p x] a IH]; intros b; [apply incl_refl|]. cbn. apply incl_tl. apply IH.
Qed.

(** A callback that leaves the queue alone and keeps [I]. *)
Definition callback_ok (I : cells -> Prop) (cb : string -> M unit) : Prop :=
  forall q C x, I C -> tri q C (cb x) (fun _ q' C' => q' = q /\ I C').

Lemma tri_commit : forall I cb, callback_ok I cb -> forall r n a C, I C -> length r < n ->
  tri (a ++ r) C (commit_loop n cb (qhead r)) (fun _ q' C' => q' = a ++ r /\ I C').
Proof.
  intros I cb K. induction r as [|[p x] r IH]; intros n a C H L; (destruct n as [|n]; [cbn in L; lia|]).
  - cbn. apply tri_ret. auto.
  - cbn [qhead commit_loop].
    assert (J : forall D, In (p, Callback x (qhead r)) (D ++ qcells (a ++ (p, x) :: r))).
    { intros D. apply in_right. apply qcells_suffix. left. now destruct r as [|[? ?] ?]. }
    eapply tri_load; [apply J|]. eapply tri_bind; [apply K; exact H|].
    intros _ q' C' [-> H']. eapply tri_load; [apply J|].
    replace (a ++ (p, x) :: r) with ((a ++ [(p, x)]) ++ r) by now rewrite <- app_assoc.
    apply IH; [exact H'|cbn in L; lia].
Qed.

(** A run of a scanner. *)
Lemma tri_scan : forall I cb c, callback_ok I cb ->
  (forall C, I C -> In (c, Bytes Contents) C) ->
  forall l q C b, I C -> tri q C (scan c cb b l) (fun _ _ C' => I C').
Proof.
  intros I cb c K T. induction l as [|[|x| |] l IH]; intros q C b H; cbn [scan];
    (eapply tri_touch; [apply T; exact H|]).
  - now apply tri_ret.
  - apply tri_get_queue.
    eapply tri_bind with (Q := fun _ q' C' => q' = [] /\ C' = C).
    { destruct q as [|[p x] q]; cbn [qhead]; [now apply tri_ret|apply tri_free_queue]. }
    intros _ q' C' [-> ->].
    apply (tri_set_queue _ [] [] C C); [reflexivity|]. now apply IH.
  - eapply tri_bind with (Q := fun _ _ C' => I C').
    { destruct b.
      - eapply tri_weaken; [apply tri_enqueue|]. now intros _ q' C' ->.
      - eapply tri_weaken; [apply K; exact H|]. now intros _ q' C' [_ H']. }
    intros _ q' C' H'. now apply IH.
  - now apply IH.
  - eapply tri_bind with (Q := fun _ _ C' => I C').
    { destruct b; [|now apply tri_ret].
      apply tri_get_queue. apply tri_fuel. intros n L.
      eapply tri_bind; [apply (tri_commit I cb K q n []); [exact H|]|].
      - rewrite app_length, qcells_length in L. lia.
      - intros _ q' C' [-> H']. eapply tri_weaken; [apply tri_free_queue|].
        now intros _ q'' C'' [_ ->]. }
    intros _ q' C' H'. now apply IH.
Qed.

(** ** parser_callback *)

Lemma tri_language_new : forall B q C x (k : ptr -> M B) Q,
  (forall p c m, tri q ((p, Language x c m) :: (c, Bytes CodeText) :: (m, Bytes CommentText) :: C) (k p) Q) ->
  tri q C (bind (language_new x) k) Q.
Proof.
  intros B q C x k Q K. unfold language_new. apply tri_assoc. apply tri_alloc. intros p.
  apply tri_assoc. apply tri_alloc. intros c. apply tri_assoc. apply tri_alloc. intros m.
  apply tri_assoc. eapply tri_store.
  - instantiate (1 := (c, Bytes CodeText) :: (m, Bytes CommentText) :: C).
    instantiate (1 := Raw). perm.
  - apply tri_ret_bind. apply K.
Qed.

(** All blocks of a file but those of its language list. *)
Definition rest_cells (a : afile) : cells :=
  (f_at a, Source (f_src a)) :: (filepath (f_src a), Bytes Filepath)
  :: opt_cell (diskpath (f_src a)) Diskpath ++ opt_cell (contents (f_src a)) Contents
  ++ olist KLicense (licenses (f_src a)) (f_lics a)
  ++ olist KLoc (locs (f_src a)) (f_locs a).

Lemma file_rest : forall a l es, languages (f_src a) = Some l ->
  Permutation (file_cells (re_langs a es)) (rest_cells a ++ list_cells KLanguage l es).
Proof.
  intros a l es E. unfold file_cells, rest_cells. fields. rewrite E. cbn [olist]. perm.
Qed.

Lemma re_langs_same : forall a, re_langs a (f_langs a) = a.
Proof. now destruct a. Qed.

Lemma language_entry : forall n i x c m, entry_ok KLanguage
  {| e_node := n; e_item := Some i;
     e_own := [(i, Language x c m); (c, Bytes CodeText); (m, Bytes CommentText)] |}.
Proof. intros n i x c m. exists i, x, c, m. auto. Qed.

Lemma tri_parser_callback : forall q a x l b,
  languages (f_src a) = Some l -> contents (f_src a) = Some b ->
  Forall (entry_ok KLanguage) (f_langs a) ->
  tri q (file_cells a) (parser_callback (f_at a) x) (fun _ q' C' => q' = q /\
    exists es, C' = file_cells (re_langs a es) /\ Forall (entry_ok KLanguage) es).
Proof.
  intros q a x l b El Eb O. unfold parser_callback.
  eapply tri_load_source; [apply file_source; apply incl_refl|].
  rewrite Eb, El. do 2 apply tri_deref.
  eapply tri_perm with (D := rest_cells a ++ list_cells KLanguage l (f_langs a)).
  { rewrite <- (re_langs_same a) at 1. now apply file_rest. }
  assert (Ib : forall D, In (b, Bytes Contents) (rest_cells a ++ D)).
  { intros D. apply in_left. unfold rest_cells. rewrite Eb. right. right. apply in_right. now left. }
  eapply tri_list_head; [apply incl_right|]. intros n En. rewrite En.
  set (es := f_langs a) in *. clearbody es.
  eapply tri_bind with (Q := fun i q' C' => q' = q /\ exists es' e, C' = rest_cells a ++ list_cells KLanguage l es'
    /\ Forall (entry_ok KLanguage) es' /\ e_item e = Some i /\ entry_ok KLanguage e /\ incl (e_own e) C').
  - destruct es as [|e es]; cbn [head_of].
    + eapply tri_set_head; [apply Permutation_sym, Permutation_cons_append|]. cbn [app item next head tail].
      eapply tri_set_tail; [reflexivity|]. cbn [app item next head tail].
      apply tri_language_new. intros y c m.
      eapply tri_set_item.
      { instantiate (1 := (y, Language x c m) :: (c, Bytes CodeText) :: (m, Bytes CommentText) :: rest_cells a).
        instantiate (1 := {| item := None; next := None; head := Some l; tail := Some l |}). perm. }
      cbn [app item next head tail].
      eapply tri_set_next; [reflexivity|]. cbn [app item next head tail].
      eapply tri_load_node; [now left|]. cbn [item].
      set (e := {| e_node := l; e_item := Some y;
        e_own := [(y, Language x c m); (c, Bytes CodeText); (m, Bytes CommentText)] |}).
      eapply tri_ret_perm with (D := rest_cells a ++ list_cells KLanguage l [e]).
      { cbn. perm. }
      split; [reflexivity|]. exists [e], e. split; [reflexivity|].
      split; [constructor; [apply language_entry|constructor]|]. split; [reflexivity|].
      split; [apply language_entry|]. apply incl_appr. cbn [list_cells]. apply incl_tl.
      apply incl_appl. apply incl_refl.
    + change (Some l) with (head_of l (e :: es)).
      eapply tri_find_name; [now left|exists (rest_cells a); apply Permutation_app_comm|exact O|].
      intros [j|] Hr.
      * destruct Hr as [m [e' [H1 [H2 [H3 H4]]]]]. apply tri_ret_bind.
        eapply tri_load_node; [exact H2|]. rewrite H3.
        pose proof O as O'. rewrite Forall_forall in O'.
        pose proof (O' e' H1) as Oe. pose proof Oe as Oe'. destruct Oe' as [i [z [c [w [E1 E2]]]]]. rewrite E1.
        apply tri_ret. split; [reflexivity|]. exists (e :: es), e'. split; [reflexivity|].
        split; [exact O|]. split; [exact E1|]. split; [exact Oe|exact H4].
      * apply tri_assoc. unfold list_new. apply tri_alloc. intros j.
        apply tri_assoc. apply tri_language_new. intros y c m. apply tri_assoc.
        eapply tri_set_item.
        { instantiate (1 := (y, Language x c m) :: (c, Bytes CodeText) :: (m, Bytes CommentText)
            :: rest_cells a ++ list_cells KLanguage l (e :: es)).
          instantiate (1 := {| item := None; next := None; head := None; tail := None |}). perm. }
        cbn [item next head tail]. apply tri_assoc.
        set (e' := {| e_node := j; e_item := Some y;
          e_own := [(y, Language x c m); (c, Bytes CodeText); (m, Bytes CommentText)] |}).
        eapply tri_perm; [|eapply (tri_append _ q KLanguage l e es j (Some y)
          [(y, Language x c m); (c, Bytes CodeText); (m, Bytes CommentText)] (rest_cells a))].
        { cbn [app]. perm. }
        apply tri_ret_bind. fold e'.
        assert (S1 : In (j, Node KLanguage {| item := Some y; next := None; head := None; tail := None |})
          (list_cells KLanguage l ((e :: es) ++ [e'])) /\
          incl (e_own e') (list_cells KLanguage l ((e :: es) ++ [e']))).
        { cbn [app list_cells]. rewrite seg_app. cbn [seg]. split.
          - right. do 2 apply in_right. now left.
          - apply incl_tl. do 2 apply incl_appr. apply incl_tl. apply incl_appl. apply incl_refl. }
        eapply tri_load_node; [apply in_left; apply (proj1 S1)|]. cbn [item].
        eapply tri_ret_perm; [apply Permutation_app_comm|].
        split; [reflexivity|]. exists ((e :: es) ++ [e']), e'. split; [reflexivity|].
        split; [apply Forall_app; split; [exact O|constructor; [apply language_entry|constructor]]|].
        split; [reflexivity|]. split; [apply language_entry|]. apply incl_appr. apply (proj2 S1).
  - intros i q' C' [-> [es' [e [-> [O' [E1 [E2 E3]]]]]]].
    eapply tri_touch; [apply Ib|]. destruct E2 as [i' [z [c [m [E4 E5]]]]].
    rewrite E1 in E4. injection E4 as <-. rewrite E5 in E3.
    eapply tri_load_language; [apply E3; now left|].
    eapply tri_touch; [apply E3; right; now left|].
    apply tri_unbind. eapply tri_touch; [apply E3; right; right; now left|].
    eapply tri_ret_perm; [apply Permutation_sym, file_rest; exact El|].
    split; [reflexivity|]. now exists es'.
Qed.

(** ** Parsing *)

(** What stays of a file: everything that it had but the contents. *)
Definition later (a b : afile) : Prop :=
  f_at b = f_at a /\ filepath (f_src b) = filepath (f_src a) /\
  diskpath (f_src b) = diskpath (f_src a) /\
  (languages (f_src a) <> None -> languages (f_src b) = languages (f_src a) /\ f_langs b = f_langs a) /\
  (licenses (f_src a) <> None -> licenses (f_src b) = licenses (f_src a) /\ f_lics b = f_lics a) /\
  (locs (f_src a) <> None -> locs (f_src b) = locs (f_src a) /\ f_locs b = f_locs a).

(** ... and the contents. *)
Definition keeps_contents (a b : afile) : Prop :=
  contents (f_src a) <> None -> contents (f_src b) = contents (f_src a).

Lemma later_refl : forall a, later a a.
Proof. intros a. repeat split; auto. Qed.

Lemma later_trans : forall a b c, later a b -> later b c -> later a c.
Proof.
  intros a b c [A1 [A2 [A3 [A4 [A5 A6]]]]] [B1 [B2 [B3 [B4 [B5 B6]]]]].
  split; [congruence|]. split; [congruence|]. split; [congruence|]. split; [|split]; intros H.
  - destruct (A4 H) as [E1 E2]. rewrite <- E1, <- E2. apply B4. now rewrite E1.
  - destruct (A5 H) as [E1 E2]. rewrite <- E1, <- E2. apply B5. now rewrite E1.
  - destruct (A6 H) as [E1 E2]. rewrite <- E1, <- E2. apply B6. now rewrite E1.
Qed.

(** The file after its language and perhaps its contents were fetched. *)
Definition fetched (a b : afile) : Prop :=
  exists o g, b = re_language (re_contents a o) g /\ got_contents a o.

Lemma fetched_refl : forall a, fetched a a.
Proof.
  intros a. exists (contents (f_src a)), (language (f_src a)). split; [|now intros _].
  destruct a as [p [f d c g ls li lo] x y z]; reflexivity.
Qed.

Lemma fetched_later : forall a b, fetched a b -> later a b /\ keeps_contents a b /\
  languages (f_src b) = languages (f_src a) /\ f_langs b = f_langs a /\
  (file_ok a -> file_ok b).
Proof.
  intros a b [o [g [-> G]]]. split; [repeat split; auto|]. split; [exact G|].
  split; [reflexivity|]. split; [reflexivity|]. intros H. exact H.
Qed.

Lemma fetched_contents : forall a b o, fetched a b -> got_contents b o -> fetched a (re_contents b o).
Proof.
  intros a b o [o' [g [-> G]]] H. exists o, g. split; [reflexivity|].
  intros N. rewrite <- (G N). apply H. cbn. now rewrite (G N).
Qed.

(** The scanner is run on a file with a callback that keeps [I]. *)
Lemma tri_run_parser : forall q a cb (I : afile -> cells -> Prop), file_ok a ->
  (forall b c, fetched a b -> contents (f_src b) = Some c ->
     I b (file_cells b) /\ callback_ok (I b) cb /\ (forall C, I b C -> In (c, Bytes Contents) C)) ->
  tri q (file_cells a) (run_parser (f_at a) cb) (fun _ _ C' => exists b, fetched a b /\
    (C' = file_cells b \/ I b C')).
Proof.
  intros q a cb I O H. unfold run_parser.
  eapply tri_bind; [apply tri_get_language; exact O|]. intros y q' C' [-> [o [g [-> G]]]].
  assert (Fb : fetched a (re_language (re_contents a o) g)) by now exists o, g.
  set (b := re_language (re_contents a o) g) in *. change (f_at a) with (f_at b). clearbody b.
  destruct y.
  2:{ apply tri_ret. exists b. auto. }
  eapply tri_bind; [apply tri_get_contents|]. intros o' q' C' [-> [-> G']].
  pose proof (fetched_contents a b o' Fb G') as Fc.
  apply tri_ask. intros w. destruct o' as [c|].
  2:{ apply tri_ret. eexists. split; [exact Fc|]. now left. }
  destruct (H _ c Fc eq_refl) as [H1 [H2 H3]].
  eapply tri_weaken; [apply (tri_scan (I (re_contents b (Some c))) cb c H2 H3); exact H1|].
  intros [] q' C' H'. eexists. split; [exact Fc|]. now right.
Qed.

Lemma tri_parse_with : forall q a, file_ok a ->
  tri q (file_cells a) (parse_with (f_at a)) (fun _ _ C' => exists b, fetched a b /\ C' = file_cells b).
Proof.
  intros q a O. unfold parse_with. eapply tri_weaken.
  - apply (tri_run_parser q a _ (fun b C => C = file_cells b)); [exact O|].
    intros b c Fb E. split; [reflexivity|]. split.
    + intros q' C x ->.
      replace (f_at a) with (f_at b) by now destruct Fb as [o [g [-> _]]].
      eapply tri_load_source; [apply file_source; apply incl_refl|]. rewrite E. apply tri_deref.
      apply tri_unbind. eapply tri_touch; [eapply file_contents; [apply incl_refl|exact E]|].
      now apply tri_ret.
    + intros C ->. eapply file_contents; [apply incl_refl|exact E].
  - intros _ q' C' [b [Fb [->| ->]]]; now exists b.
Qed.

(** ohcount_sourcefile_parse *)
Definition parse_step (a b : afile) : Prop :=
  file_ok b /\ later a b /\ languages (f_src b) <> None /\
  (languages (f_src a) <> None -> b = a) /\
  licenses (f_src b) = licenses (f_src a) /\ f_lics b = f_lics a /\
  locs (f_src b) = locs (f_src a) /\ f_locs b = f_locs a.

Lemma tri_parse : forall q a, file_ok a ->
  tri q (file_cells a) (parse (f_at a)) (fun _ _ C' => exists b, parse_step a b /\ C' = file_cells b).
Proof.
  intros q a O. unfold parse.
  eapply tri_load_source; [apply file_source; apply incl_refl|].
  destruct (languages (f_src a)) as [l|] eqn:El.
  - apply tri_ret. exists a. split; [|reflexivity]. split; [exact O|]. split; [apply later_refl|].
    split; [now rewrite El|]. auto.
  - unfold list_new. apply tri_alloc. intros l.
    set (a1 := re_langs (re_src a (with_languages (Some l) (f_src a))) []).
    eapply tri_set_field with (x := f_src a).
    { instantiate (1 := (l, _) :: tl (file_cells a)). apply perm_swap. }
    eapply tri_perm with (D := file_cells a1).
    { unfold a1, file_cells. fields. rewrite El. cbn [olist list_cells tl]. perm. }
    assert (O1 : file_ok a1) by (destruct O as [_ [Oa Ob]]; split; [constructor|now split]).
    eapply tri_bind; [apply (tri_run_parser q a1 (parser_callback (f_at a1)) (fun b C =>
      exists es, C = file_cells (re_langs b es) /\ Forall (entry_ok KLanguage) es)); [exact O1|]|].
    { intros b c Fb E.
      destruct (fetched_later _ _ Fb) as [Lb [_ [Ll [Le Ok]]]]. specialize (Ok O1).
      split; [exists (f_langs b); split; [now rewrite re_langs_same|apply Ok]|]. split.
      - intros q' C x [es [-> He]]. rewrite <- (proj1 Lb).
        eapply tri_weaken; [apply (tri_parser_callback q' (re_langs b es) x l c)|]; [exact Ll|exact E|exact He|].
        intros _ q'' C'' [-> [es' [-> H']]]. split; [reflexivity|]. now exists es'.
      - intros C [es [-> He]]. eapply file_contents; [apply incl_refl|exact E]. }
    intros _ q' C' [b [Fb H]].
    destruct (fetched_later _ _ Fb) as [Lb [_ [Ll [Le Ok]]]]. specialize (Ok O1).
    assert (Hb : exists es, C' = file_cells (re_langs b es) /\ Forall (entry_ok KLanguage) es).
    { destruct H as [->|H]; [|exact H]. exists (f_langs b). split; [now rewrite re_langs_same|apply Ok]. }
    destruct Hb as [es [-> He]]. clear H.
    change (f_at a) with (f_at a1). rewrite <- (proj1 Lb).
    eapply tri_load_source; [left; reflexivity|].
    assert (S1 : parse_step a (re_contents (re_langs b es) None)).
    { destruct Lb as [B1 [B2 [B3 [_ [B5 B6]]]]].
      split; [split; [exact He|]; apply Ok|]. split; [|split; [|split; [congruence|]]].
      2:{ intros X. assert (Y : languages (f_src b) = None) by exact X. rewrite Ll in Y. discriminate. }
      2:{ destruct Fb as [o [g [-> _]]]. auto. }
      split; [exact B1|]. split; [exact B2|]. split; [exact B3|]. split; [congruence|]. split; assumption. }
    set (b1 := re_langs b es) in *. change (f_at b) with (f_at b1). clearbody b1.
    eapply tri_free_opt with (w := Contents).
    { instantiate (1 := (f_at b1, Source (f_src b1)) :: tl (file_cells (re_contents b1 None))).
      unfold file_cells. fields. cbn [tl]. perm. }
    apply tri_unbind. eapply tri_set_field; [reflexivity|].
    apply tri_ret. exists (re_contents b1 None). split; [exact S1|reflexivity].
Qed.

Lemma tri_parsed : forall q a, file_ok a ->
  tri q (file_cells a) (parsed (f_at a)) (fun l _ C' => exists b, parse_step a b /\
    languages (f_src b) = Some l /\ C' = file_cells b).
Proof.
  intros q a O. unfold parsed. eapply tri_bind; [apply tri_parse; exact O|].
  intros [] q' C' [b [S1 ->]]. pose proof S1 as [_ [Lb [N _]]]. rewrite <- (proj1 Lb).
  eapply tri_load_source; [apply file_source; apply incl_refl|].
  destruct (languages (f_src b)) as [l|] eqn:E; [|congruence].
  apply tri_ret. exists b. auto.
Qed.

(** ** Leaks *)

(** What is never freed: the text that licences are looked for in, the name of a
    temporary file, the empty language of a difference. *)
Inductive leak := LText (p : ptr) | LName (p : ptr) | LBlank (p : ptr) (x : string) (c m : ptr).

Definition leak_cell (l : leak) : cells :=
  match l with
  | LText p => [(p, Bytes LicenseText)]
  | LName p => [(p, Bytes TempName)]
  | LBlank p x c m => [(p, Language x c m); (c, Bytes CodeText); (m, Bytes CommentText)]
  end.

Definition leak_cells (l : list leak) : cells := flat_map leak_cell l.

Lemma leak_cells_app : forall a b, leak_cells (a ++ b) = leak_cells a ++ leak_cells b.
Proof. intros a b. apply flat_map_app. Qed.

Definition is_text (l : leak) : Prop := match l with LText _ => True | _ => False end.
Definition is_name (l : leak) : Prop := match l with LName _ => True | _ => False end.

(** ** Licences *)

Lemma tri_license_loop : forall (C0 : cells) es iter n q L,
  chain C0 KLanguage es iter -> Forall (entry_ok KLanguage) es -> length es < n ->
  Forall is_text L ->
  tri q (C0 ++ leak_cells L) (license_loop n iter) (fun _ q' C' => q' = q /\
    exists L', C' = C0 ++ leak_cells L' /\ Forall is_text L').
Proof.
  intros C0. induction es as [|e es IH]; intros iter n q L H O N HL; (destruct n as [|n]; [cbn in N; lia|]).
  - cbn in H. subst iter. cbn. apply tri_ret. split; [reflexivity|]. now exists L.
  - destruct H as [p [nd [-> [H1 [H2 [H3 H4]]]]]]. cbn [license_loop].
    apply Forall_cons_iff in O. destruct O as [[i [x [c [m [E1 E2]]]]] O].
    rewrite E2 in H3.
    eapply tri_load_node; [apply in_left; exact H1|]. rewrite H2, E1. apply tri_deref.
    eapply tri_load_language; [apply in_left; apply H3; now left|].
    assert (Im : In (m, Bytes CommentText) C0) by (apply H3; right; right; now left).
    eapply tri_touch; [apply in_left; exact Im|].
    apply tri_alloc. intros b. eapply tri_touch; [right; apply in_left; exact Im|].
    eapply tri_touch; [now left|].
    eapply tri_perm with (D := C0 ++ leak_cells (LText b :: L)); [cbn; perm|].
    apply IH; [exact H4|exact O|cbn in N; lia|constructor; [exact Logic.I|exact HL]].
Qed.

Lemma license_entry : forall j, entry_ok KLicense {| e_node := j; e_item := None; e_own := [] |}.
Proof. intros j. split; reflexivity. Qed.

Lemma tri_license_items : forall n q l es F, Forall (entry_ok KLicense) es ->
  tri q (list_cells KLicense l es ++ F) (license_items n l) (fun _ q' C' => q' = q /\
    exists es', C' = list_cells KLicense l es' ++ F /\ Forall (entry_ok KLicense) es').
Proof.
  induction n as [|n IH]; intros q l es F O; cbn [license_items].
  - apply tri_ret. split; [reflexivity|]. now exists es.
  - eapply tri_list_head; [apply incl_left|]. intros nd En. rewrite En.
    eapply tri_bind with (Q := fun _ q' C' => q' = q /\
      exists es', C' = list_cells KLicense l es' ++ F /\ Forall (entry_ok KLicense) es').
    2:{ intros _ q' C' [-> [es' [-> O']]]. now apply IH. }
    destruct es as [|e es]; cbn [head_of].
    + cbn [list_cells app].
      eapply tri_set_head; [reflexivity|]. cbn [item next head tail].
      eapply tri_set_tail; [reflexivity|]. cbn [item next head tail].
      apply tri_unbind. eapply tri_set_next; [reflexivity|]. cbn [item next head tail].
      apply tri_ret. split; [reflexivity|].
      exists [{| e_node := l; e_item := None; e_own := [] |}].
      split; [reflexivity|]. constructor; [apply license_entry|constructor].
    + unfold list_new. apply tri_alloc. intros j.
      apply tri_unbind. apply (tri_append _ q KLicense l e es j None [] F).
      apply tri_ret. split; [reflexivity|].
      eexists. split; [reflexivity|]. apply Forall_app. split; [exact O|].
      constructor; [apply license_entry|constructor].
Qed.

Lemma parse_step_trans : forall a b c, parse_step a b -> parse_step b c -> c = b.
Proof. intros a b c [_ [_ [N _]]] [_ [_ [_ [E _]]]]. now apply E. Qed.

Lemma tri_detect_license : forall q a, file_ok a ->
  tri q (file_cells a) (detect_license (f_at a)) (fun l _ C' => exists b es L,
    C' = file_cells b ++ list_cells KLicense l es ++ leak_cells L /\ parse_step a b /\
    Forall (entry_ok KLicense) es /\ Forall is_text L).
Proof.
  intros q a O. unfold detect_license, list_new. apply tri_alloc. intros l.
  eapply tri_call with (D := file_cells a) (F := list_cells KLicense l []).
  { cbn [list_cells]. perm. }
  { apply tri_parse. exact O. }
  intros [] q1 D1 [b [S1 ->]]. pose proof (proj1 S1) as Ob.
  rewrite <- (proj1 (proj1 (proj2 S1))).
  eapply tri_call with (D := file_cells b); [reflexivity|apply tri_parsed; exact Ob|].
  intros g q2 D2 [b' [S2 [Eg ->]]]. rewrite (parse_step_trans _ _ _ S1 S2) in *. clear b' S2.
  assert (Ig : forall X, incl (list_cells KLanguage g (f_langs b)) (file_cells b ++ X)).
  { intros X. apply file_langs; [apply incl_left|exact Eg]. }
  eapply tri_list_head; [apply Ig|]. intros n En. rewrite En.
  eapply tri_bind with (Q := fun _ _ C' => exists es L,
    C' = file_cells b ++ list_cells KLicense l es ++ leak_cells L /\
    Forall (entry_ok KLicense) es /\ Forall is_text L).
  2:{ intros [] q3 C3 [es [L [-> [H1 H2]]]]. apply tri_ret. exists b, es, L. auto. }
  pose proof (list_chain KLanguage g (f_langs b) _ (Ig (list_cells KLicense l []))) as Hc.
  destruct (head_of g (f_langs b)) as [h|] eqn:Eh.
  2:{ apply tri_ret. exists [], []. cbn. rewrite ?app_nil_r. auto. }
  apply tri_fuel. intros m Hm.
  eapply tri_bind.
  { eapply tri_perm; [|apply (tri_license_loop (file_cells b ++ list_cells KLicense l [])
      (f_langs b) (Some h) m q2 [])]; [cbn; now rewrite app_nil_r|exact Hc|apply Ob| |constructor].
    eapply Nat.le_lt_trans; [|exact Hm].
    apply Nat.le_trans with (length (file_cells b)); [|rewrite !app_length; lia].
    unfold file_cells. rewrite Eg. cbn [olist]. cbn [length]. rewrite !app_length.
    pose proof (list_cells_length KLanguage g (f_langs b)). lia. }
  intros [] q' C' [-> [L [-> HL]]]. apply tri_ask. intros w.
  eapply tri_post; [eapply tri_perm; [|apply (tri_license_items (many w) q2 l [] (file_cells b ++ leak_cells L))]|].
  - perm.
  - constructor.
  - intros [] q' C' [-> [es [-> He]]]. eexists. split; [|exists es, L; split; [reflexivity|auto]]. perm.
Qed.

(** A file of which more is known than before. *)
Definition grown (a b : afile) : Prop := file_ok b /\ later a b.

Definition re_lics (a : afile) (l : ptr) (es : list entry) : afile :=
  {| f_at := f_at a; f_src := with_licenses (Some l) (f_src a); f_langs := f_langs a;
     f_lics := es; f_locs := f_locs a |}.
Definition re_locs (a : afile) (l : ptr) (es : list entry) : afile :=
  {| f_at := f_at a; f_src := with_locs (Some l) (f_src a); f_langs := f_langs a;
     f_lics := f_lics a; f_locs := es |}.

Lemma tri_get_licenses : forall q a, file_ok a ->
  tri q (file_cells a) (get_licenses (f_at a)) (fun r _ C' => exists b L,
    C' = file_cells b ++ leak_cells L /\ grown a b /\ r = licenses (f_src b) /\
    licenses (f_src b) <> None /\ Forall is_text L).
Proof.
  intros q a O. unfold get_licenses.
  eapply tri_load_source; [apply file_source; apply incl_refl|].
  destruct (licenses (f_src a)) as [l|] eqn:El.
  - apply tri_ret. exists a, []. cbn. rewrite app_nil_r. split; [reflexivity|].
    split; [split; [exact O|apply later_refl]|]. split; [now rewrite El|]. split; [now rewrite El|constructor].
  - eapply tri_bind; [apply tri_detect_license; exact O|].
    intros l q' C' [b [es [L [-> [S1 [He HL]]]]]].
    destruct S1 as [[O1 [O2 O3]] [[B1 [B2 [B3 [B4 [B5 B6]]]]] [B7 [B8 [E1 [E2 [E3 E4]]]]]]].
    rewrite <- B1. rewrite El in E1.
    eapply tri_set_field with (x := f_src b).
    { unfold file_cells. cbn [app]. reflexivity. }
    eapply tri_ret_perm with (D := file_cells (re_lics b l es) ++ leak_cells L).
    { unfold file_cells, re_lics. fields. rewrite E1. cbn [olist app]. perm. }
    exists (re_lics b l es), L. split; [reflexivity|]. split; [|split; [reflexivity|split; [discriminate|exact HL]]].
    split; [now repeat split|]. split; [exact B1|]. split; [exact B2|]. split; [exact B3|].
    split; [exact B4|]. split; [congruence|exact B6].
Qed.

(** ** Counts *)

Lemma tri_loc_loop : forall l (C0 : cells) es iter n q os,
  chain C0 KLanguage es iter -> Forall (entry_ok KLanguage) es -> length es < n ->
  Forall (entry_ok KLoc) os ->
  tri q (C0 ++ list_cells KLoc l os) (loc_loop n l iter) (fun _ q' C' => q' = q /\
    exists os', C' = C0 ++ list_cells KLoc l os' /\ Forall (entry_ok KLoc) os').
Proof.
  intros l C0. induction es as [|e es IH]; intros iter n q os H O N Ho; (destruct n as [|n]; [cbn in N; lia|]).
  - cbn in H. subst iter. cbn. apply tri_ret. split; [reflexivity|]. now exists os.
  - destruct H as [p [nd [-> [H1 [H2 [H3 H4]]]]]]. cbn [loc_loop].
    apply Forall_cons_iff in O. destruct O as [[i [x [c [m [E1 E2]]]]] O].
    rewrite E2 in H3.
    eapply tri_load_node; [apply in_left; exact H1|]. rewrite H2, E1. apply tri_deref.
    eapply tri_load_name; [apply in_left; apply H3; now left|now exists c, m|].
    unfold count_new. apply tri_alloc. intros y.
    eapply tri_perm with (D := ((y, count_of KLoc x) :: C0) ++ list_cells KLoc l os); [reflexivity|].
    eapply tri_bind.
    { apply (tri_list_add q KLoc l os ((y, count_of KLoc x) :: C0) y x); [now left|exact Ho|now left]. }
    intros [] q' C' [-> [os' [-> Ho']]]. unfold count_free, free_opt. cbn [app].
    eapply tri_free; [reflexivity|].
    eapply tri_load_node; [apply in_left; exact H1|].
    apply IH; [exact H4|exact O|cbn in N; lia|exact Ho'].
Qed.

Lemma file_langs_length : forall a l, languages (f_src a) = Some l ->
  length (f_langs a) <= length (file_cells a).
Proof.
  intros a l E. unfold file_cells. rewrite E. cbn [olist]. cbn [length]. rewrite !app_length.
  pose proof (list_cells_length KLanguage l (f_langs a)). lia.
Qed.

Lemma tri_get_locs : forall q a, file_ok a ->
  tri q (file_cells a) (get_locs (f_at a)) (fun l _ C' => exists b,
    C' = file_cells b /\ grown a b /\ locs (f_src b) = Some l).
Proof.
  intros q a O. unfold get_locs.
  eapply tri_load_source; [apply file_source; apply incl_refl|].
  destruct (locs (f_src a)) as [l|] eqn:El.
  - apply tri_ret. exists a. split; [reflexivity|]. split; [|exact El]. split; [exact O|apply later_refl].
  - unfold list_new. apply tri_alloc. intros l.
    eapply tri_call with (D := file_cells a) (F := list_cells KLoc l []).
    { cbn [list_cells]. perm. }
    { apply tri_parse. exact O. }
    intros [] q1 D1 [b [S1 ->]]. pose proof (proj1 S1) as Ob.
    rewrite <- (proj1 (proj1 (proj2 S1))).
    eapply tri_call with (D := file_cells b); [reflexivity|apply tri_parsed; exact Ob|].
    intros g q2 D2 [b' [S2 [Eg ->]]]. rewrite (parse_step_trans _ _ _ S1 S2) in *. clear b' S2.
    eapply tri_list_head; [apply file_langs; [apply incl_left|exact Eg]|]. intros n En. rewrite En.
    apply tri_fuel. intros m Hm.
    eapply tri_bind.
    { apply (tri_loc_loop l (file_cells b) (f_langs b)).
      - apply list_chain. apply file_langs; [apply incl_refl|exact Eg].
      - apply Ob.
      - eapply Nat.le_lt_trans; [|exact Hm]. rewrite !app_length.
        pose proof (file_langs_length b g Eg). lia.
      - constructor. }
    intros [] q' C' [-> [os [-> Ho]]].
    destruct S1 as [[O1 [O2 O3]] [[B1 [B2 [B3 [B4 [B5 B6]]]]] [B7 [B8 [E1 [E2 [E3 E4]]]]]]].
    rewrite El in E3.
    eapply tri_set_field with (x := f_src b).
    { unfold file_cells. cbn [app]. reflexivity. }
    eapply tri_ret_perm with (D := file_cells (re_locs b l os)).
    { unfold file_cells, re_locs. fields. rewrite E3. cbn [olist app]. perm. }
    exists (re_locs b l os). split; [reflexivity|]. split; [|reflexivity].
    split; [now repeat split|]. split; [exact B1|]. split; [exact B2|]. split; [exact B3|].
    split; [exact B4|]. split; [exact B5|congruence].
Qed.

(** ** Differences *)

Lemma tri_realloc : forall B q C F p (k : ptr -> M B) Q,
  Permutation C ((p, Bytes DiffArray) :: F) ->
  (forall p', tri q ((p', Bytes DiffArray) :: F) (k p') Q) ->
  tri q C (bind (realloc p) k) Q.
Proof.
  intros B q C F p k Q P K. unfold realloc. apply tri_assoc. eapply tri_perm; [exact P|].
  eapply tri_touch; [now left|]. apply tri_assoc. apply tri_alloc. intros p'.
  apply tri_assoc. eapply tri_free; [apply perm_swap|]. apply tri_ret_bind. apply K.
Qed.

Lemma tri_grow : forall B n q C F p (k : ptr -> M B) Q,
  Permutation C ((p, Bytes DiffArray) :: F) ->
  (forall p', tri q ((p', Bytes DiffArray) :: F) (k p') Q) ->
  tri q C (bind (grow n p) k) Q.
Proof.
  intros B. induction n as [|n IH]; intros q C F p k Q P K; cbn [grow].
  - apply tri_ret_bind. eapply tri_perm; [exact P|apply K].
  - apply tri_assoc. eapply tri_realloc; [exact P|]. intros p'.
    eapply IH; [reflexivity|exact K].
Qed.

Lemma tri_prepare : forall B q C f w (k : ptr -> M B) Q,
  In (f, Bytes w) C -> (forall p, tri q ((p, Bytes DiffArray) :: C) (k p) Q) ->
  tri q C (bind (prepare f) k) Q.
Proof.
  intros B q C f w k Q I K. unfold prepare. apply tri_assoc. eapply tri_touch; [exact I|].
  apply tri_assoc. apply tri_ask. intros a. apply tri_assoc. apply tri_alloc. intros p.
  eapply tri_grow; [reflexivity|exact K].
Qed.

Ltac inn := cbn [In]; auto 20.

Lemma tri_calc_diff : forall B q C f g w v (k : unit -> M B) Q,
  In (f, Bytes w) C -> In (g, Bytes v) C ->
  (forall L, Forall is_name L -> tri q (leak_cells L ++ C) (k tt) Q) ->
  tri q C (bind (calc_diff f g) k) Q.
Proof.
  intros B q C f g w v k Q If Ig K. unfold calc_diff.
  apply tri_assoc. eapply tri_touch; [exact If|]. apply tri_assoc. eapply tri_touch; [exact Ig|].
  apply tri_assoc. apply tri_ask. intros a. destruct (yes a).
  - apply tri_assoc. apply tri_alloc. intros t1. apply tri_assoc. eapply tri_touch; [right; exact If|].
    apply tri_assoc. apply tri_alloc. intros t2. apply tri_assoc. eapply tri_touch; [do 2 right; exact Ig|].
    apply tri_assoc. eapply tri_touch; [right; now left|]. eapply tri_touch; [now left|].
    apply (K [LName t2; LName t1]). now repeat constructor.
  - apply tri_assoc. eapply tri_prepare; [exact If|]. intros f0.
    apply tri_assoc. eapply tri_prepare; [right; exact Ig|]. intros f1.
    apply tri_assoc. eapply tri_touch; [inn|]. apply tri_assoc. eapply tri_touch; [inn|].
    apply tri_assoc. eapply tri_realloc; [reflexivity|]. intros mem.
    apply tri_assoc. apply tri_alloc. intros u.
    apply tri_assoc. eapply tri_touch; [inn|]. apply tri_assoc. eapply tri_touch; [inn|].
    apply tri_assoc. eapply tri_free; [reflexivity|].
    apply tri_assoc. eapply tri_realloc; [apply perm_swap|]. intros cl.
    apply tri_assoc. apply tri_alloc. intros kl. apply tri_assoc. apply tri_alloc. intros ci.
    apply tri_assoc. apply tri_ask. intros a2.
    apply tri_assoc. eapply tri_grow; [reflexivity|]. intros ci'.
    do 4 (apply tri_assoc; eapply tri_touch; [inn|]).
    apply tri_assoc. eapply tri_free with (p := mem) (o := Bytes DiffArray).
    { instantiate (1 := (ci', Bytes DiffArray) :: (kl, Bytes DiffArray) :: (cl, Bytes DiffArray) :: C). perm. }
    apply tri_assoc. eapply tri_free with (p := cl) (o := Bytes DiffArray).
    { instantiate (1 := (ci', Bytes DiffArray) :: (kl, Bytes DiffArray) :: C). perm. }
    apply tri_assoc. apply tri_alloc. intros j.
    do 3 (apply tri_assoc; eapply tri_touch; [inn|]).
    apply tri_assoc. eapply tri_free with (p := ci') (o := Bytes DiffArray).
    { instantiate (1 := (j, Bytes DiffArray) :: (kl, Bytes DiffArray) :: C). perm. }
    apply tri_assoc. eapply tri_free with (p := kl) (o := Bytes DiffArray).
    { instantiate (1 := (j, Bytes DiffArray) :: C). perm. }
    apply tri_assoc. eapply tri_touch; [inn|].
    eapply tri_free; [reflexivity|]. apply (K []). constructor.
Qed.
