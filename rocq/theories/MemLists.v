(** The linked lists of [MemModel]: which blocks make up a list, and what the
    list functions do to them. *)
From Coq Require Import String List Bool Arith Lia Permutation.
From Verif Require Import MemModel MemLogic.
Import ListNotations.
Open Scope string_scope.
Open Scope list_scope.

(** An item of a list: its address, what it points to, and the blocks that
    belong to that. *)
Record entry := { e_node : ptr; e_item : option ptr; e_own : cells }.

Definition hd_node (es : list entry) (nx : option ptr) : option ptr :=
  match es with [] => nx | e :: _ => Some (e_node e) end.

(** Items that are not the first one. *)
Fixpoint seg (k : kind) (es : list entry) (nx : option ptr) : cells :=
  match es with
  | [] => []
  | e :: r =>
    (e_node e, Node k {| item := e_item e; next := hd_node r nx; head := None; tail := None |})
    :: e_own e ++ seg k r nx
  end.

Fixpoint last_node (d : ptr) (es : list entry) : ptr :=
  match es with [] => d | e :: r => last_node (e_node e) r end.

(** The list at [l]; the address of its first item is [l] as well. *)
Definition list_cells (k : kind) (l : ptr) (es : list entry) : cells :=
  match es with
  | [] => [(l, Node k {| item := None; next := None; head := None; tail := None |})]
  | e :: r =>
    (l, Node k {| item := e_item e; next := hd_node r None; head := Some l;
                  tail := Some (last_node l r) |})
    :: e_own e ++ seg k r None
  end.

Definition entry_ok (k : kind) (e : entry) : Prop :=
  match k with
  | KFile => exists f, e_item e = Some f /\ e_own e = []
  | KLanguage => exists i x c m, e_item e = Some i /\
      e_own e = [(i, Language x c m); (c, Bytes CodeText); (m, Bytes CommentText)]
  | KLicense => e_item e = None /\ e_own e = []
  | KLoc => exists i x, e_item e = Some i /\ e_own e = [(i, Loc x)]
  | KDelta => exists i x, e_item e = Some i /\ e_own e = [(i, Delta x)]
  end.

(** Lists of counts. *)
Definition counts (k : kind) : Prop := k = KLoc \/ k = KDelta.

Lemma counts_entry : forall k e, counts k -> entry_ok k e ->
  exists i x, e_item e = Some i /\ e_own e = [(i, count_of k x)].
Proof. intros k e [->| ->] [i [x H]]; exists i, x; exact H. Qed.

Lemma counts_named : forall k x, counts k -> named k x (count_of k x).
Proof. intros k x [->| ->]; reflexivity. Qed.

Lemma counts_ok : forall k n i x, counts k ->
  entry_ok k {| e_node := n; e_item := Some i; e_own := [(i, count_of k x)] |}.
Proof. intros k n i x [->| ->]; exists i, x; auto. Qed.

Lemma seg_app : forall k a b nx, seg k (a ++ b) nx = seg k a (hd_node b nx) ++ seg k b nx.
Proof.
  intros k a b nx. induction a as [|e a IH]; [reflexivity|]. cbn.
  rewrite IH, app_assoc. destruct a; reflexivity.
Qed.

Lemma last_node_app : forall es d e, last_node d (es ++ [e]) = e_node e.
Proof. induction es as [|x es IH]; intros d e; cbn; auto. Qed.

Lemma seg_length : forall k es nx, length es <= length (seg k es nx).
Proof.
  induction es as [|e es IH]; intros nx; cbn; [lia|]. rewrite app_length.
  specialize (IH nx). lia.
Qed.

Lemma list_cells_length : forall k l es, length es <= length (list_cells k l es).
Proof.
  intros k l [|e es]; cbn; [lia|]. rewrite app_length.
  pose proof (seg_length k es None). lia.
Qed.

(** ** Walking along a list *)

(** Starting at [iter], the items [es] are found among the cells [C]. *)
Fixpoint chain (C : cells) (k : kind) (es : list entry) (iter : option ptr) : Prop :=
  match es with
  | [] => iter = None
  | e :: r => exists p n, iter = Some p /\ In (p, Node k n) C /\ item n = e_item e /\
      incl (e_own e) C /\ chain C k r (next n)
  end.

Lemma chain_incl : forall k es C D iter, incl C D -> chain C k es iter -> chain D k es iter.
Proof.
  induction es as [|e es IH]; intros C D iter I H; [exact H|].
  destruct H as [p [n [E [J [E2 [K H]]]]]]. exists p, n.
  split; [exact E|]. split; [now apply I|]. split; [exact E2|].
  split; [eapply incl_tran; eauto|]. eapply IH; eauto.
Qed.

Lemma seg_chain : forall k es, chain (seg k es None) k es (hd_node es None).
Proof.
  induction es as [|e es IH]; [reflexivity|].
  cbn [chain]. exists (e_node e), {| item := e_item e; next := hd_node es None; head := None; tail := None |}.
  split; [reflexivity|]. split; [now left|]. split; [reflexivity|]. split.
  - cbn. intros c H. right. apply in_or_app. now left.
  - eapply chain_incl; [|exact IH]. cbn. intros c H. right. apply in_or_app. now right.
Qed.

Definition head_of (l : ptr) (es : list entry) : option ptr :=
  match es with [] => None | _ => Some l end.

Lemma list_chain : forall k l es C, incl (list_cells k l es) C -> chain C k es (head_of l es).
Proof.
  intros k l [|e es] C I; [reflexivity|].
  eexists l, _. split; [reflexivity|]. split; [apply I; now left|]. split; [reflexivity|]. split.
  - intros c H. apply I. right. apply in_or_app. now left.
  - cbn. eapply chain_incl; [|apply seg_chain]. intros c H. apply I. right. apply in_or_app. now right.
Qed.

(** The first item of a list. *)
Lemma list_head : forall k l es, exists n, In (l, Node k n) (list_cells k l es) /\ head n = head_of l es.
Proof. intros k l [|e es]; eexists; (split; [now left|reflexivity]). Qed.

Lemma tri_list_head : forall B q C k l es (f : node -> M B) Q,
  incl (list_cells k l es) C ->
  (forall n, head n = head_of l es -> tri q C (f n) Q) ->
  tri q C (bind (load_node k l) f) Q.
Proof.
  intros B q C k l es f Q I K. destruct (list_head k l es) as [n [J E]].
  apply (tri_load_node _ _ _ _ _ n); [now apply I|now apply K].
Qed.

Lemma entry_named : forall k e, k = KLanguage \/ counts k -> entry_ok k e ->
  exists i x o, e_item e = Some i /\ In (i, o) (e_own e) /\ named k x o.
Proof.
  intros k e [->|K] H.
  - destruct H as [i [x [c [m [E O]]]]]. exists i, x, (Language x c m).
    split; [exact E|]. split; [rewrite O; now left|]. now exists c, m.
  - destruct (counts_entry k e K H) as [i [x [E O]]]. exists i, x, (count_of k x).
    split; [exact E|]. split; [rewrite O; now left|]. now apply counts_named.
Qed.

Lemma tri_find_loop : forall q C k x, k = KLanguage \/ counts k ->
  forall es iter n, chain C k es iter -> Forall (entry_ok k) es -> length es < n ->
  tri q C (find_loop n k x iter) (fun r q' C' => q' = q /\ C' = C /\
    match r with
    | None => True
    | Some p => exists n e, In e es /\ In (p, Node k n) C /\ item n = e_item e /\ incl (e_own e) C
    end).
Proof.
  intros q C k x K. induction es as [|e es IH]; intros iter n H O L;
    (destruct n as [|n]; [cbn in L; lia|]).
  - cbn in H. subst iter. cbn. apply tri_ret. auto.
  - destruct H as [p [i [-> [J [E [I H]]]]]]. inversion_clear O as [|? ? O1 O2].
    cbn [find_loop]. apply (tri_load_node _ _ _ _ _ i); [exact J|].
    destruct (entry_named k e K O1) as [c [y [o [E2 [M1 N]]]]].
    rewrite E, E2. apply tri_deref.
    apply (tri_load_name _ _ _ _ _ y o); [now apply I|exact N|].
    destruct (String.eqb y x).
    + apply tri_ret. split; [reflexivity|]. split; [reflexivity|]. exists i, e. cbn. auto.
    + eapply tri_weaken; [apply IH; [exact H|exact O2|cbn in L; lia]|].
      intros [r|] q' C' [-> [-> P]]; repeat (split; [reflexivity|]); [|exact Logic.I].
      destruct P as [n' [e' [A B]]]. exists n', e'. split; [now right|exact B].
Qed.

Lemma tri_find_name : forall B q C k l es x (f : option ptr -> M B) Q,
  k = KLanguage \/ counts k ->
  (exists F, Permutation C (list_cells k l es ++ F)) -> Forall (entry_ok k) es ->
  (forall r,
    match r with
    | None => True
    | Some p => exists n e, In e es /\ In (p, Node k n) C /\ item n = e_item e /\ incl (e_own e) C
    end -> tri q C (f r) Q) ->
  tri q C (bind (find_name k x (head_of l es)) f) Q.
Proof.
  intros B q C k l es x f Q K [F P] O T. unfold find_name. apply tri_assoc. apply tri_fuel.
  intros n L. eapply tri_bind.
  - apply (tri_find_loop q C k x K es); [|exact O|].
    + apply list_chain with (k := k). intros c H. eapply Permutation_in; [apply Permutation_sym; exact P|].
      apply in_or_app. now left.
    + apply Permutation_length in P. rewrite !app_length in *.
      pose proof (list_cells_length k l es). lia.
  - intros r q' C' [-> [-> H]]. now apply T.
Qed.

(** The search of LocDeltaList ends. *)
Lemma tri_delta_loop : forall q C x l n0, In (l, Node KDelta n0) C ->
  match item n0 with Some c => exists o y, In (c, o) C /\ named KDelta y o | None => True end ->
  forall es iter n, chain C KDelta es iter -> Forall (entry_ok KDelta) es -> length es < n ->
  tri q C (delta_loop n l x iter) (fun r q' C' => q' = q /\ C' = C /\
    match r with
    | None => True
    | Some p => exists n e, In e es /\ In (p, Node KDelta n) C /\ item n = e_item e /\ incl (e_own e) C
    end).
Proof.
  intros q C x l n0 I0 H0. induction es as [|e es IH]; intros iter n H O L;
    (destruct n as [|n]; [cbn in L; lia|]).
  - cbn in H. subst iter. cbn. apply tri_ret. auto.
  - destruct H as [p [i [-> [J [E [I H]]]]]]. inversion_clear O as [|? ? O1 O2].
    cbn [delta_loop]. apply (tri_load_node _ _ _ _ _ n0); [exact I0|].
    eapply tri_bind with (Q := fun _ q' C' => q' = q /\ C' = C).
    + destruct (item n0) as [c|]; [|now apply tri_ret].
      destruct H0 as [o [y [A N]]]. apply (tri_load_name _ _ _ _ _ y o); [exact A|exact N|].
      now apply tri_ret.
    + intros [|] q' C' [-> ->].
      * apply tri_ret. split; [reflexivity|]. split; [reflexivity|]. exists i, e. cbn. auto.
      * apply (tri_load_node _ _ _ _ _ i); [exact J|].
        eapply tri_weaken; [apply IH; [exact H|exact O2|cbn in L; lia]|].
        intros [r|] q' C' [-> [-> P]]; repeat (split; [reflexivity|]); [|exact Logic.I].
        destruct P as [n' [e' [A B]]]. exists n', e'. split; [now right|exact B].
Qed.

(** ** Changing a list *)

(** The same object written again. *)
Lemma tri_store_same : forall B q C p o (k : unit -> M B) Q,
  In (p, o) C -> tri q C (k tt) Q -> tri q C (bind (store p o) k) Q.
Proof.
  intros B q C p o k Q I K. destruct (in_split _ _ I) as [C1 [C2 ->]].
  eapply tri_store.
  - apply Permutation_sym, Permutation_middle.
  - eapply tri_perm; [apply Permutation_middle|exact K].
Qed.

Lemma list_last : forall A (l : list A), l = [] \/ exists r x, l = r ++ [x].
Proof.
  intros A l. destruct l as [|a l] using rev_ind; [now left|]. right. now exists l, a.
Qed.

(** One more item at the end of a list that is not empty. *)
Lemma tri_append : forall B q k l e es j v own F (f : unit -> M B) Q,
  tri q (list_cells k l ((e :: es) ++ [{| e_node := j; e_item := v; e_own := own |}]) ++ F) (f tt) Q ->
  tri q ((j, Node k {| item := v; next := None; head := None; tail := None |}) :: own
         ++ list_cells k l (e :: es) ++ F)
    (bind (list_append k l j) f) Q.
Proof.
  intros B q k l e es j v own F f Q T. unfold list_append. apply tri_assoc.
  eapply tri_load_node; [right; apply in_or_app; right; now left|].
  cbn [tail]. apply tri_assoc. apply tri_deref. apply tri_assoc.
  destruct (list_last _ es) as [->|[es' [x ->]]].
  - cbn [last_node list_cells app seg]. eapply tri_set_next.
    + apply (Permutation_sym (l := (l, Node k {| item := e_item e; next := None; head := Some l; tail := Some l |})
        :: (j, Node k {| item := v; next := None; head := None; tail := None |}) :: own ++ e_own e ++ F)).
      cbn [hd_node]. perm.
    + eapply tri_set_tail; [reflexivity|]. cbn [item next head tail]. eapply tri_perm; [|exact T].
      cbn [app list_cells seg hd_node last_node e_node e_item e_own]. perm.
  - rewrite last_node_app. eapply tri_set_next.
    + apply (Permutation_sym (l := (e_node x, Node k {| item := e_item x; next := None; head := None; tail := None |})
        :: (j, Node k {| item := v; next := None; head := None; tail := None |})
        :: (l, Node k {| item := e_item e; next := hd_node (es' ++ [x]) None; head := Some l;
                         tail := Some (e_node x) |})
        :: own ++ e_own e ++ seg k es' (Some (e_node x)) ++ e_own x ++ F)).
      cbn [list_cells]. rewrite seg_app, last_node_app. cbn [seg hd_node]. perm.
    + cbn [item next head tail]. eapply tri_set_tail.
      { apply (Permutation_sym (l := (l, Node k {| item := e_item e; next := hd_node (es' ++ [x]) None; head := Some l;
                             tail := Some (e_node x) |})
          :: (j, Node k {| item := v; next := None; head := None; tail := None |})
          :: (e_node x, Node k {| item := e_item x; next := Some j; head := None; tail := None |})
          :: own ++ e_own e ++ seg k es' (Some (e_node x)) ++ e_own x ++ F)).
        perm. }
      eapply tri_perm; [|exact T]. cbn [item next head tail app list_cells].
      rewrite last_node_app, seg_app. cbn [seg hd_node e_node e_item e_own].
      rewrite seg_app. cbn [seg hd_node].
      replace (hd_node ((es' ++ [x]) ++ [{| e_node := j; e_item := v; e_own := own |}]) None)
        with (hd_node (es' ++ [x]) None) by (destruct es'; reflexivity).
      perm.
Qed.

Lemma in_left : forall A (x : A) a b, In x a -> In x (a ++ b).
Proof. intros A x a b H. apply in_or_app. now left. Qed.

Lemma in_right : forall A (x : A) a b, In x b -> In x (a ++ b).
Proof. intros A x a b H. apply in_or_app. now right. Qed.

Lemma incl_right : forall A (a b : list A), incl b (a ++ b).
Proof. intros A a b x. apply in_right. Qed.

Lemma incl_left : forall A (a b : list A), incl a (a ++ b).
Proof. intros A a b x. apply in_left. Qed.

(** ohcount_loc_list_add_loc and ohcount_loc_delta_list_add_loc_delta change
    nothing but the list. *)
Lemma tri_list_add : forall q k l es (C0 : cells) c x, counts k -> Forall (entry_ok k) es ->
  In (c, count_of k x) C0 ->
  tri q (C0 ++ list_cells k l es) (list_add k l c) (fun _ q' C' => q' = q /\
    exists es', C' = C0 ++ list_cells k l es' /\ Forall (entry_ok k) es').
Proof.
  intros q k l es C0 c x K O I. unfold list_add.
  eapply tri_list_head; [apply incl_right|]. intros n E. rewrite E.
  destruct es as [|e es]; cbn [head_of].
  - eapply tri_set_head; [apply Permutation_sym, Permutation_cons_append|]. cbn [app item next head tail].
    eapply tri_set_tail; [reflexivity|]. cbn [app item next head tail].
    eapply tri_load_name; [right; exact I|now apply counts_named|].
    unfold count_new. apply tri_alloc. intros y.
    eapply tri_set_item; [apply perm_swap|]. cbn [app item next head tail].
    apply tri_unbind. eapply tri_set_next; [reflexivity|]. cbn [app item next head tail].
    eapply tri_ret_perm with (D := C0 ++ list_cells k l
      [{| e_node := l; e_item := Some y; e_own := [(y, count_of k x)] |}]).
    + cbn. perm.
    + split; [reflexivity|]. eexists. split; [reflexivity|]. constructor; [|constructor].
      now apply counts_ok.
  - eapply tri_load_name; [apply in_left; exact I|now apply counts_named|].
    eapply tri_bind with (Q := fun r q' C' => q' = q /\ C' = C0 ++ list_cells k l (e :: es) /\
      match r with
      | None => True
      | Some p => exists n e', In e' (e :: es) /\ In (p, Node k n) (C0 ++ list_cells k l (e :: es)) /\
          item n = e_item e' /\ incl (e_own e') (C0 ++ list_cells k l (e :: es))
      end).
    { assert (T : tri q (C0 ++ list_cells k l (e :: es)) (find_name k x (Some l))
        (fun r q' C' => q' = q /\ C' = C0 ++ list_cells k l (e :: es) /\
          match r with
          | None => True
          | Some p => exists n e', In e' (e :: es) /\ In (p, Node k n) (C0 ++ list_cells k l (e :: es)) /\
              item n = e_item e' /\ incl (e_own e') (C0 ++ list_cells k l (e :: es))
          end)).
      { apply tri_unbind. change (Some l) with (head_of l (e :: es)).
        eapply tri_find_name; [now right|exists C0; apply Permutation_app_comm|exact O|].
        intros r H. apply tri_ret. auto. }
      destruct K as [->| ->]; [exact T|]. clear T.
      apply tri_fuel. intros f L.
      inversion_clear O as [|? ? O1 O2]. pose proof O1 as O3.
      destruct O3 as [i [z [E1 E2]]].
      eapply tri_weaken; [apply (tri_delta_loop q _ x l
        {| item := e_item e; next := hd_node es None; head := Some l; tail := Some (last_node l es) |})
        with (es := e :: es)|].
      - apply in_right. now left.
      - cbn [item]. rewrite E1. exists (Delta z), z. split; [|reflexivity].
        apply in_right. cbn. right. apply in_left. rewrite E2. now left.
      - change (Some l) with (head_of l (e :: es)). eapply list_chain. apply incl_right.
      - constructor; assumption.
      - rewrite !app_length in L. pose proof (list_cells_length KDelta l (e :: es)). cbn [length] in *. lia.
      - intros r q' C' H. exact H. }
    intros [j|] q' C' [-> [-> H]].
    + destruct H as [m [e' [H1 [H2 [H3 H4]]]]].
      eapply tri_load_node; [exact H2|]. rewrite H3.
      rewrite Forall_forall in O. destruct (counts_entry k e' K (O e' H1)) as [i [z [E1 E2]]].
      rewrite E1. apply tri_deref.
      assert (H5 : In (i, count_of k z) (C0 ++ list_cells k l (e :: es))).
      { apply H4. rewrite E2. now left. }
      eapply tri_load_name; [exact H5|now apply counts_named|].
      apply tri_unbind. apply tri_store_same; [exact H5|]. apply tri_ret.
      split; [reflexivity|]. exists (e :: es). split; [reflexivity|]. now apply Forall_forall.
    + unfold list_new. apply tri_alloc. intros j. unfold count_new. apply tri_alloc. intros y.
      eapply tri_set_item; [apply perm_swap|]. cbn [item next head tail].
      apply tri_unbind. eapply tri_perm; [|eapply (tri_append _ q k l e es j (Some y) [(y, count_of k x)] C0)].
      * cbn [app]. perm.
      * eapply tri_ret_perm; [apply Permutation_app_comm|]. split; [reflexivity|].
        eexists. split; [reflexivity|]. apply Forall_app. split; [exact O|].
        constructor; [|constructor]. now apply counts_ok.
Qed.

(** ohcount_loc_list_add_loc_list, ..._new_compact and their counterparts. *)
Lemma tri_add_loop : forall k all l (C0 : cells), counts k ->
  forall os iter n q es, chain C0 k os iter -> Forall (entry_ok k) os -> length os < n ->
  Forall (entry_ok k) es ->
  tri q (C0 ++ list_cells k l es) (add_loop n k all l iter) (fun _ q' C' => q' = q /\
    exists es', C' = C0 ++ list_cells k l es' /\ Forall (entry_ok k) es').
Proof.
  intros k all l C0 K. induction os as [|o os IH]; intros iter n q es H O L E;
    (destruct n as [|n]; [cbn in L; lia|]).
  - cbn in H. subst iter. cbn. apply tri_ret. split; [reflexivity|]. now exists es.
  - destruct H as [p [m [-> [J [E1 [I H]]]]]]. inversion_clear O as [|? ? O1 O2].
    cbn [add_loop]. eapply tri_load_node; [apply in_left; exact J|].
    destruct (counts_entry k o K O1) as [i [z [E2 E3]]]. rewrite E1, E2. apply tri_deref.
    assert (J2 : In (i, count_of k z) C0) by (apply I; rewrite E3; now left).
    eapply tri_load_name; [apply in_left; exact J2|now apply counts_named|].
    eapply tri_bind with (Q := fun _ q' C' => q' = q /\ C' = C0 ++ list_cells k l es).
    { destruct all; [now apply tri_ret|]. apply tri_ask. intros a. now apply tri_ret. }
    intros b q' C' [-> ->].
    eapply tri_bind with (Q := fun _ q' C' => q' = q /\
      exists es', C' = C0 ++ list_cells k l es' /\ Forall (entry_ok k) es').
    { destruct b; [now apply (tri_list_add q k l es C0 i z)|].
      apply tri_ret. split; [reflexivity|]. now exists es. }
    intros _ q' C' [-> [es' [-> E']]].
    eapply tri_load_node; [apply in_left; exact J|].
    apply IH; [exact H|exact O2|cbn in L; lia|exact E'].
Qed.

Lemma tri_add_list : forall q k l es o os F, counts k ->
  Forall (entry_ok k) es -> Forall (entry_ok k) os ->
  tri q (list_cells k o os ++ F ++ list_cells k l es) (list_add_list k l o) (fun _ q' C' => q' = q /\
    exists es', C' = list_cells k o os ++ F ++ list_cells k l es' /\ Forall (entry_ok k) es').
Proof.
  intros q k l es o os F K E O. unfold list_add_list.
  eapply tri_list_head; [apply incl_left|]. intros n En. rewrite En. apply tri_fuel. intros f L.
  rewrite app_assoc. eapply tri_weaken.
  - apply tri_add_loop with (os := os); [exact K| |exact O| |exact E].
    + eapply list_chain. apply incl_left.
    + rewrite !app_length in L. pose proof (list_cells_length k o os). lia.
  - intros _ q' C' [-> [es' [-> E']]]. split; [reflexivity|]. exists es'. now rewrite app_assoc.
Qed.

Lemma tri_compact : forall q k o os, counts k -> Forall (entry_ok k) os ->
  tri q (list_cells k o os) (list_compact k o) (fun p q' C' => q' = q /\
    exists es', C' = list_cells k o os ++ list_cells k p es' /\ Forall (entry_ok k) es').
Proof.
  intros q k o os K O. unfold list_compact, list_new. apply tri_alloc. intros p.
  eapply tri_list_head; [intros c H; right; exact H|]. intros n En. rewrite En.
  apply tri_fuel. intros f L. eapply tri_bind.
  - eapply tri_perm with (D := list_cells k o os ++ list_cells k p []); [cbn [list_cells]; perm|].
    apply tri_add_loop with (os := os); [exact K| |exact O| |constructor].
    + eapply list_chain. apply incl_refl.
    + cbn [app length] in L. rewrite !app_length in L.
      pose proof (list_cells_length k o os). lia.
  - intros _ q' C' [-> [es' [-> E']]]. apply tri_ret. split; [reflexivity|]. now exists es'.
Qed.

(** ** Freeing a list *)

Lemma tri_free_loop : forall q k drop F,
  forall es n, length es < n ->
  Forall (fun e => tri q (e_own e) (drop (e_item e)) (fun _ q' C' => q' = q /\ C' = [])) es ->
  tri q (seg k es None ++ F) (free_loop n k drop (hd_node es None)) (fun _ q' C' => q' = q /\ C' = F).
Proof.
  intros q k drop F. induction es as [|e es IH]; intros n L O; (destruct n as [|n]; [cbn in L; lia|]).
  - cbn. now apply tri_ret.
  - inversion_clear O as [|? ? O1 O2]. cbn [hd_node free_loop seg].
    eapply tri_load_node; [now left|]. cbn [item next].
    eapply tri_call with (D := e_own e); [|exact O1|].
    + cbn [app]. instantiate (1 := (e_node e, _) :: seg k es None ++ F). perm.
    + intros _ q' D' [-> ->]. cbn [app]. eapply tri_free; [reflexivity|].
      apply IH; [cbn in L; lia|exact O2].
Qed.

Lemma tri_list_free : forall q k drop l es,
  Forall (fun e => tri q (e_own e) (drop (e_item e)) (fun _ q' C' => q' = q /\ C' = [])) es ->
  tri q (list_cells k l es) (list_free k drop l) (fun _ q' C' => q' = q /\ C' = []).
Proof.
  intros q k drop l es O. unfold list_free.
  eapply tri_list_head; [apply incl_refl|]. intros n En. rewrite En.
  destruct es as [|e es]; cbn [head_of].
  - apply tri_unbind. cbn [list_cells]. eapply tri_free; [reflexivity|]. now apply tri_ret.
  - apply tri_fuel. intros f L. pose proof (list_cells_length k l (e :: es)) as G.
    rewrite app_length in L. destruct f as [|f]; [lia|]. cbn [free_loop list_cells].
    inversion_clear O as [|? ? O1 O2].
    eapply tri_load_node; [now left|]. cbn [item next].
    eapply tri_call with (D := e_own e); [|exact O1|].
    + instantiate (1 := (l, _) :: seg k es None ++ []). perm.
    + intros _ q' D' [-> ->]. cbn [app]. eapply tri_free; [reflexivity|].
      apply tri_free_loop; [cbn [length] in G; lia|exact O2].
Qed.

Lemma drop_language : forall q e, entry_ok KLanguage e ->
  tri q (e_own e) (language_free (e_item e)) (fun _ q' C' => q' = q /\ C' = []).
Proof.
  intros q e [i [x [c [m [E O]]]]]. rewrite E, O. unfold language_free. apply tri_deref.
  eapply tri_load_language; [now left|].
  eapply tri_free; [apply perm_swap|]. eapply tri_free; [apply perm_swap|].
  apply tri_unbind. eapply tri_free; [reflexivity|]. now apply tri_ret.
Qed.

Lemma drop_count : forall q k e, counts k -> entry_ok k e ->
  tri q (e_own e) (count_free (e_item e)) (fun _ q' C' => q' = q /\ C' = []).
Proof.
  intros q k e K O. destruct (counts_entry k e K O) as [i [x [-> ->]]]. unfold count_free, free_opt.
  apply tri_unbind. eapply tri_free; [reflexivity|]. now apply tri_ret.
Qed.

Lemma tri_free_counts : forall q k l es, counts k -> Forall (entry_ok k) es ->
  tri q (list_cells k l es) (list_free k count_free l) (fun _ q' C' => q' = q /\ C' = []).
Proof.
  intros q k l es K O. apply tri_list_free. eapply Forall_impl; [|exact O].
  intros e. now apply drop_count.
Qed.

Lemma tri_free_languages : forall q l es, Forall (entry_ok KLanguage) es ->
  tri q (list_cells KLanguage l es) (list_free KLanguage language_free l)
    (fun _ q' C' => q' = q /\ C' = []).
Proof.
  intros q l es O. apply tri_list_free. eapply Forall_impl; [|exact O].
  intros e. apply drop_language.
Qed.

Lemma tri_free_licenses : forall q l es, Forall (entry_ok KLicense) es ->
  tri q (list_cells KLicense l es) (list_free KLicense drop_license l)
    (fun _ q' C' => q' = q /\ C' = []).
Proof.
  intros q l es O. apply tri_list_free. eapply Forall_impl; [|exact O].
  intros e [E1 E2]. rewrite E2. now apply tri_ret.
Qed.
