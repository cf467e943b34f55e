(** The loops of ohcount.c over lists: walking along a list and sorting it. *)
From Coq Require Import String List Bool Arith Lia Permutation.
From Verif Require Import MemModel MemLogic MemLists.
Import ListNotations.
Open Scope string_scope.
Open Scope list_scope.

(** ** Walking *)

Lemma tri_walk : forall q C k see es,
  (forall e, In e es -> incl (e_own e) C ->
    tri q C (see (e_item e)) (fun _ q' C' => q' = q /\ C' = C)) ->
  forall iter n, chain C k es iter -> length es < n ->
  tri q C (walk n k see iter) (fun _ q' C' => q' = q /\ C' = C).
Proof.
  intros q C k see. induction es as [|e es IH]; intros S iter n H L;
    (destruct n as [|n]; [cbn in L; lia|]).
  - cbn in H. subst iter. now apply tri_ret.
  - destruct H as [p [i [-> [J [E [I H]]]]]]. cbn [walk].
    apply (tri_load_node _ _ _ _ _ i); [exact J|]. rewrite E.
    eapply tri_bind; [apply S; [now left|exact I]|]. intros [] q' C' [-> ->].
    apply IH; [|exact H|cbn in L; lia]. intros e' I'. apply S. now right.
Qed.

Lemma tri_walk_list : forall q C k see l es,
  incl (list_cells k l es) C -> length es <= length C ->
  (forall e, In e es -> incl (e_own e) C ->
    tri q C (see (e_item e)) (fun _ q' C' => q' = q /\ C' = C)) ->
  tri q C (walk_list k see l) (fun _ q' C' => q' = q /\ C' = C).
Proof.
  intros q C k see l es I L S. unfold walk_list.
  eapply tri_list_head; [exact I|]. intros n ->. apply tri_fuel. intros m Hm.
  eapply tri_walk; [exact S|now apply (list_chain k)|]. rewrite app_length in Hm. lia.
Qed.

Lemma tri_see_count : forall q C k es, counts k -> Forall (entry_ok k) es ->
  forall e, In e es -> incl (e_own e) C ->
  tri q C (see_count k (e_item e)) (fun _ q' C' => q' = q /\ C' = C).
Proof.
  intros q C k es K O e I J. rewrite Forall_forall in O.
  destruct (entry_named k e (or_intror K) (O e I)) as [c [y [o [E [M1 N]]]]].
  unfold see_count. rewrite E. apply tri_deref.
  apply (tri_load_name _ _ _ _ _ y o); [now apply J|exact N|]. now apply tri_ret.
Qed.

Lemma tri_see_none : forall q C x, tri q C (see_none x) (fun _ q' C' => q' = q /\ C' = C).
Proof. intros q C x. now apply tri_ret. Qed.

(** ** The items of a list and what they hold *)

Fixpoint seg_nodes (es : list entry) : list (ptr * node) :=
  match es with
  | [] => []
  | e :: r =>
    (e_node e, {| item := e_item e; next := hd_node r None; head := None; tail := None |}) :: seg_nodes r
  end.

Definition nodes (l : ptr) (es : list entry) : list (ptr * node) :=
  match es with
  | [] => []
  | e :: r =>
    (l, {| item := e_item e; next := hd_node r None; head := Some l; tail := Some (last_node l r) |})
    :: seg_nodes r
  end.

Definition node_cells (k : kind) (ns : list (ptr * node)) : cells :=
  map (fun x => (fst x, Node k (snd x))) ns.

Definition owned_cells (es : list entry) : cells := flat_map e_own es.

Lemma seg_split : forall k es,
  Permutation (seg k es None) (node_cells k (seg_nodes es) ++ owned_cells es).
Proof.
  intros k. induction es as [|e es IH]; [reflexivity|]. cbn.
  apply perm_skip. rewrite IH. unfold owned_cells. cbn. perm.
Qed.

Lemma list_split : forall k l es, es <> [] ->
  Permutation (list_cells k l es) (node_cells k (nodes l es) ++ owned_cells es).
Proof.
  intros k l [|e es] N; [congruence|]. cbn. apply perm_skip. rewrite seg_split.
  unfold owned_cells. cbn. perm.
Qed.

(** The addresses of the items. *)
Definition places (l : ptr) (es : list entry) : list ptr :=
  match es with [] => [] | _ :: r => l :: map e_node r end.

Lemma seg_nodes_at : forall es i e, nth_error es i = Some e ->
  exists n, nth_error (seg_nodes es) i = Some (e_node e, n) /\ item n = e_item e /\
    next n = nth_error (map e_node es) (S i).
Proof.
  induction es as [|x es IH]; intros [|i] e H; try discriminate.
  - injection H as ->. eexists. split; [reflexivity|]. split; [reflexivity|]. now destruct es.
  - cbn in *. now apply IH.
Qed.

Lemma nodes_at : forall l es i e, nth_error es i = Some e ->
  exists p n, nth_error (nodes l es) i = Some (p, n) /\ nth_error (places l es) i = Some p /\
    item n = e_item e /\ next n = nth_error (places l es) (S i).
Proof.
  intros l [|x es] [|i] e H; try discriminate.
  - injection H as ->. eexists _, _. split; [reflexivity|]. split; [reflexivity|].
    split; [reflexivity|]. now destruct es.
  - cbn in H. destruct (seg_nodes_at es i e H) as [n [A [B D]]]. exists (e_node e), n.
    split; [exact A|]. split; [|now split]. cbn. rewrite nth_error_map, H. reflexivity.
Qed.

(** An item that holds something else. *)
Definition holding (e : entry) (v : option ptr) (own : cells) : entry :=
  {| e_node := e_node e; e_item := v; e_own := own |}.

Definition re_item (n : node) (v : option ptr) : node :=
  {| item := v; next := next n; head := head n; tail := tail n |}.

Lemma hd_replace : forall es i e v own, nth_error es i = Some e ->
  hd_node (replace es i (holding e v own)) None = hd_node es None.
Proof. intros [|x es] [|i] e v own H; try discriminate; [|reflexivity]. now injection H as ->. Qed.

Lemma last_replace : forall es d i e v own, nth_error es i = Some e ->
  last_node d (replace es i (holding e v own)) = last_node d es.
Proof.
  induction es as [|x es IH]; intros d [|i] e v own H; try discriminate.
  - now injection H as ->.
  - cbn in *. now apply IH.
Qed.

Lemma seg_nodes_replace : forall es i e v own n, nth_error es i = Some e ->
  nth_error (seg_nodes es) i = Some (e_node e, n) ->
  seg_nodes (replace es i (holding e v own)) = replace (seg_nodes es) i (e_node e, re_item n v).
Proof.
  induction es as [|x es IH]; intros [|i] e v own n H N; try discriminate.
  - injection H as ->. cbn in N. injection N as <-. reflexivity.
  - cbn in H, N |- *. rewrite (hd_replace es i e v own H). f_equal. now apply IH.
Qed.

Lemma nodes_replace : forall l es i e v own p n, nth_error es i = Some e ->
  nth_error (nodes l es) i = Some (p, n) ->
  nodes l (replace es i (holding e v own)) = replace (nodes l es) i (p, re_item n v).
Proof.
  intros l [|x es] [|i] e v own p n H N; try discriminate.
  - cbn in N. injection N as <- <-. reflexivity.
  - cbn in H. destruct (seg_nodes_at es i e H) as [m [A _]]. cbn in N.
    rewrite A in N. injection N as <- <-. cbn.
    rewrite (hd_replace es i e v own H), (last_replace es l i e v own H). f_equal.
    now apply seg_nodes_replace.
Qed.

Lemma map_replace : forall A B (f : A -> B) l i x y, nth_error l i = Some x -> f x = f y ->
  map f (replace l i y) = map f l.
Proof.
  intros A B f. induction l as [|a l IH]; intros [|i] x y H E; try discriminate; cbn in *.
  - injection H as ->. now rewrite E.
  - f_equal. eapply IH; eassumption.
Qed.

Lemma places_replace : forall l es i e v own, nth_error es i = Some e ->
  places l (replace es i (holding e v own)) = places l es.
Proof.
  intros l [|x es] [|i] e v own H; try discriminate; [reflexivity|].
  cbn in *. f_equal. eapply map_replace; [exact H|reflexivity].
Qed.

Lemma replace_perm : forall A (l : list A) i x, nth_error l i = Some x ->
  exists R, Permutation l (x :: R) /\ forall y, Permutation (replace l i y) (y :: R).
Proof.
  intros A. induction l as [|a l IH]; intros [|i] x H; try discriminate.
  - injection H as ->. exists l. split; reflexivity.
  - cbn in H. destruct (IH i x H) as [R [P Q]]. exists (a :: R). split.
    + rewrite P. apply perm_swap.
    + intros y. cbn. rewrite Q. apply perm_swap.
Qed.

(** Two items exchange what they hold. *)
Definition swap (es : list entry) (i j : nat) (a b : entry) : list entry :=
  replace (replace es i (holding a (e_item b) (e_own b))) j (holding b (e_item a) (e_own a)).

Lemma swap_owned : forall es i j a b, nth_error es i = Some a -> nth_error es j = Some b -> i <> j ->
  Permutation (owned_cells (swap es i j a b)) (owned_cells es).
Proof.
  intros es i j a b Ha Hb D. unfold swap, owned_cells.
  set (a' := holding a (e_item b) (e_own b)). set (b' := holding b (e_item a) (e_own a)).
  destruct (replace_perm _ es i a Ha) as [R [P1 P2]].
  assert (Hb' : nth_error (replace es i a') j = Some b) by now rewrite replace_other.
  destruct (replace_perm _ _ j b Hb') as [R' [P3 P4]].
  assert (P5 : Permutation (flat_map e_own R) (flat_map e_own R')).
  { apply (Permutation_app_inv_l (e_own b)).
    change (Permutation (flat_map e_own (a' :: R)) (flat_map e_own (b :: R'))).
    apply Permutation_flat_map. rewrite <- P3. now rewrite P2. }
  rewrite (Permutation_flat_map e_own (P4 b')), (Permutation_flat_map e_own P1).
  cbn. now rewrite P5.
Qed.

Lemma swap_ok : forall k es i j a b, counts k -> nth_error es i = Some a -> nth_error es j = Some b ->
  Forall (entry_ok k) es -> Forall (entry_ok k) (swap es i j a b).
Proof.
  intros k es i j a b K Ha Hb O. unfold swap.
  assert (Oa : entry_ok k a) by (rewrite Forall_forall in O; apply O; now apply nth_error_In in Ha).
  assert (Ob : entry_ok k b) by (rewrite Forall_forall in O; apply O; now apply nth_error_In in Hb).
  assert (F : forall l n x, Forall (entry_ok k) l -> entry_ok k x -> Forall (entry_ok k) (replace l n x)).
  { induction l as [|y l IH]; intros [|n] x H Hx; cbn; auto; inversion_clear H; constructor; auto. }
  apply F; [apply F; [exact O|]|]; destruct K as [->| ->]; assumption.
Qed.

(** ** Sorting *)

Definition spread (k : kind) (l : ptr) (es : list entry) (F : cells) : cells :=
  node_cells k (nodes l es) ++ owned_cells es ++ F.

Lemma spread_node : forall k l es F i p n, nth_error (nodes l es) i = Some (p, n) ->
  In (p, Node k n) (spread k l es F).
Proof.
  intros k l es F i p n H. unfold spread. apply in_or_app. left. unfold node_cells.
  apply in_map_iff. exists (p, n). split; [reflexivity|]. now apply nth_error_In in H.
Qed.

Lemma spread_own : forall k l es F e c, In e es -> In c (e_own e) -> In c (spread k l es F).
Proof.
  intros k l es F e c H I. unfold spread, owned_cells. apply in_or_app. right. apply in_or_app. left.
  apply in_flat_map. now exists e.
Qed.

Lemma tri_count_at : forall B q k l es F i p (f : string -> M B) Q, counts k ->
  Forall (entry_ok k) es -> nth_error (places l es) i = Some p ->
  (forall x, tri q (spread k l es F) (f x) Q) ->
  tri q (spread k l es F) (bind (count_at k p) f) Q.
Proof.
  intros B q k l es F i p f Q K O P T.
  assert (He : exists e, nth_error es i = Some e).
  { destruct (nth_error es i) as [e|] eqn:E; [now exists e|]. exfalso.
    apply nth_error_None in E. assert (i < length (places l es)) by (apply nth_error_Some; congruence).
    destruct es; cbn in *; rewrite ?map_length in *; lia. }
  destruct He as [e He]. destruct (nodes_at l es i e He) as [p' [n [A [B' [D _]]]]].
  rewrite P in B'. injection B' as <-.
  assert (I : In e es) by now apply nth_error_In in He.
  assert (Oe : entry_ok k e) by (rewrite Forall_forall in O; now apply O).
  destruct (entry_named k e (or_intror K) Oe) as [c [y [o [E [M1 N]]]]].
  unfold count_at. apply tri_assoc.
  apply (tri_load_node _ _ _ _ _ n); [now apply (spread_node k l es F i)|].
  apply tri_assoc. rewrite D, E. apply tri_deref.
  apply (tri_load_name _ _ _ _ _ y o); [now apply (spread_own k l es F e)|exact N|apply T].
Qed.

Lemma places_length : forall l es, length (places l es) = length es.
Proof. intros l [|e es]; cbn; [reflexivity|]. now rewrite map_length. Qed.

Lemma place_entry : forall l es i p, nth_error (places l es) i = Some p ->
  exists e n, nth_error es i = Some e /\ nth_error (nodes l es) i = Some (p, n) /\
    item n = e_item e /\ next n = nth_error (places l es) (S i).
Proof.
  intros l es i p P. destruct (nth_error es i) as [e|] eqn:E.
  - destruct (nodes_at l es i e E) as [p' [n [A [B' [D D2]]]]]. rewrite P in B'. injection B' as <-.
    now exists e, n.
  - exfalso. apply nth_error_None in E.
    assert (i < length (places l es)) by (apply nth_error_Some; congruence).
    rewrite places_length in H. lia.
Qed.

Lemma tri_best_loop : forall k l es F, counts k -> Forall (entry_ok k) es ->
  forall n q i j b, nth_error (places l es) j = Some b -> length es - i < n ->
  tri q (spread k l es F) (best_loop n k b (nth_error (places l es) i)) (fun r q' C' =>
    q' = q /\ C' = spread k l es F /\ exists j, nth_error (places l es) j = Some r).
Proof.
  intros k l es F K O. induction n as [|n IH]; intros q i j b Hb L; [lia|]. cbn [best_loop].
  destruct (nth_error (places l es) i) as [p|] eqn:Hp.
  - eapply tri_count_at; [exact K|exact O|exact Hp|]. intros _.
    eapply tri_count_at; [exact K|exact O|exact Hb|]. intros _.
    apply tri_ask. intros a. destruct (place_entry l es i p Hp) as [e [m [He [A [_ D]]]]].
    apply (tri_load_node _ _ _ _ _ m); [now apply (spread_node k l es F i)|]. rewrite D.
    assert (i < length es) by (apply nth_error_Some; congruence).
    destruct (yes a); [apply (IH q (S i) i); [exact Hp|lia]|apply (IH q (S i) j); [exact Hb|lia]].
  - apply tri_ret. split; [reflexivity|]. split; [reflexivity|]. now exists j.
Qed.

Lemma node_cells_replace : forall k ns i x y, nth_error ns i = Some x ->
  exists R, Permutation (node_cells k ns) ((fst x, Node k (snd x)) :: R) /\
    Permutation (node_cells k (replace ns i y)) ((fst y, Node k (snd y)) :: R).
Proof.
  intros k ns i x y H. destruct (replace_perm _ ns i x H) as [R [P1 P2]].
  exists (node_cells k R). unfold node_cells. split.
  - now rewrite (Permutation_map _ P1).
  - now rewrite (Permutation_map _ (P2 y)).
Qed.

Lemma tri_set_nth : forall B q k l es i e p v own F (f : unit -> M B) Q,
  nth_error es i = Some e -> nth_error (places l es) i = Some p ->
  tri q (node_cells k (nodes l (replace es i (holding e v own))) ++ F) (f tt) Q ->
  tri q (node_cells k (nodes l es) ++ F) (bind (set_item k p v) f) Q.
Proof.
  intros B q k l es i e p v own F f Q He Hp T.
  destruct (nodes_at l es i e He) as [p' [n [A [B' _]]]]. rewrite Hp in B'. injection B' as <-.
  rewrite (nodes_replace l es i e v own p n He A) in T.
  destruct (node_cells_replace k (nodes l es) i (p, n) (p, re_item n v) A) as [R [P1 P2]].
  eapply tri_set_item with (n := n) (F := R ++ F).
  - rewrite P1. reflexivity.
  - eapply tri_perm; [|exact T]. rewrite P2. reflexivity.
Qed.

Lemma tri_sort_loop : forall k l F, counts k ->
  forall n es q i, Forall (entry_ok k) es -> es <> [] -> length es - i < n ->
  tri q (spread k l es F) (sort_loop n k (nth_error (places l es) i)) (fun _ q' C' =>
    q' = q /\ exists es', C' = spread k l es' F /\ Forall (entry_ok k) es' /\ es' <> []).
Proof.
  intros k l F K. induction n as [|n IH]; intros es q i O N L; [lia|]. cbn [sort_loop].
  destruct (nth_error (places l es) i) as [p|] eqn:Hp.
  - destruct (place_entry l es i p Hp) as [a [m [Ha [Na [Ia Xa]]]]].
    assert (Li : i < length es) by (apply nth_error_Some; congruence).
    apply (tri_load_node _ _ _ _ _ m); [now apply (spread_node k l es F i)|].
    apply tri_fuel. intros f Hf. rewrite Xa.
    assert (Lf : length es - S i < f).
    { unfold spread in Hf. rewrite !app_length in Hf. unfold node_cells in Hf. rewrite map_length in Hf.
      assert (length (nodes l es) = length es).
      { clear. destruct es as [|e es]; [reflexivity|]. cbn. f_equal. induction es; cbn; auto. }
      lia. }
    eapply tri_bind; [apply (tri_best_loop k l es F K O f q (S i) i p Hp Lf)|].
    intros b q' C' [-> [-> [j Hb]]]. destruct (place_entry l es j b Hb) as [c [m' [Hc [Nc [Ic Xc]]]]].
    destruct (Nat.eqb_spec p b) as [E|E].
    + apply tri_ret_bind.
      apply (tri_load_node _ _ _ _ _ m); [now apply (spread_node k l es F i)|]. rewrite Xa.
      apply IH; [exact O|exact N|lia].
    + assert (D : i <> j) by congruence.
      apply tri_assoc. apply (tri_load_node _ _ _ _ _ m); [now apply (spread_node k l es F i)|].
      apply tri_assoc. apply (tri_load_node _ _ _ _ _ m'); [now apply (spread_node k l es F j)|].
      apply tri_assoc. unfold spread. rewrite Ia, Ic.
      eapply tri_set_nth with (own := e_own c); [exact Ha|exact Hp|].
      eapply tri_set_nth with (i := j) (own := e_own a).
      { rewrite replace_other; [exact Hc|exact D]. }
      { rewrite (places_replace l es i a _ _ Ha). exact Hb. }
      set (es2 := swap es i j a c).
      eapply tri_perm with (D := spread k l es2 F).
      { unfold spread, es2. rewrite (swap_owned es i j a c Ha Hc D). reflexivity. }
      assert (Hc1 : nth_error (replace es i (holding a (e_item c) (e_own c))) j = Some c)
        by (rewrite replace_other; [exact Hc|exact D]).
      assert (Pl : places l es2 = places l es).
      { unfold es2, swap. rewrite (places_replace l _ j c _ _ Hc1). apply (places_replace l es i a _ _ Ha). }
      assert (Le : length es2 = length es) by (unfold es2, swap; now rewrite !replace_length).
      rewrite <- Pl in Hp. destruct (place_entry l es2 i p Hp) as [a2 [m2 [Ha2 [Na2 [Ia2 Xa2]]]]].
      apply (tri_load_node _ _ _ _ _ m2); [now apply (spread_node k l es2 F i)|]. rewrite Xa2.
      apply IH; [now apply swap_ok| |lia]. intros Ez. rewrite Ez in Le. cbn in Le. lia.
  - apply tri_ret. split; [reflexivity|]. now exists es.
Qed.

(** Sorting a list keeps it a list. *)
Lemma tri_sort_list : forall q k l es F, counts k -> Forall (entry_ok k) es ->
  tri q (list_cells k l es ++ F) (sort_list k l) (fun _ q' C' =>
    q' = q /\ exists es', C' = list_cells k l es' ++ F /\ Forall (entry_ok k) es').
Proof.
  intros q k l es F K O. unfold sort_list.
  eapply tri_list_head; [apply incl_left|]. intros n ->. apply tri_fuel. intros m Hm.
  destruct es as [|e es].
  - destruct m as [|m]; [lia|]. apply tri_ret. split; [reflexivity|]. now exists [].
  - assert (N : e :: es <> []) by discriminate.
    assert (P : forall es', es' <> [] -> Permutation (list_cells k l es' ++ F) (spread k l es' F)).
    { intros es' N'. rewrite (list_split k l es' N'). unfold spread. now rewrite <- app_assoc. }
    unfold head_of. change (Some l) with (nth_error (places l (e :: es)) 0).
    eapply tri_perm; [apply P; exact N|].
    eapply tri_unbind. eapply tri_bind.
    { apply tri_sort_loop; [exact K|exact O|exact N|].
      pose proof (list_cells_length k l (e :: es)). rewrite !app_length in Hm. lia. }
    intros [] q' C' [-> [es' [-> [O' N']]]].
    eapply tri_ret_perm; [symmetry; apply P; exact N'|]. split; [reflexivity|]. now exists es'.
Qed.
