(** Rules for reasoning about programs of [MemModel]: which blocks are live is
    described by a list of cells up to order, and a program is described by what
    it does to its own part of them whatever the rest is. *)
From Coq Require Import String List Bool Arith Lia Permutation.
From Verif Require Import MemModel.
Import ListNotations.
Open Scope string_scope.
Open Scope list_scope.

Definition cell := (ptr * obj)%type.
Definition cells := list cell.

(** The live blocks are exactly [C]. *)
Definition holds (s : state) (C : cells) : Prop :=
  NoDup (map fst C) /\ forall p o, block s p = Some o <-> In (p, o) C.

(** The queue of callbacks: addresses and names. *)
Definition queued := list (ptr * string).

Fixpoint qcells (q : queued) : cells :=
  match q with
  | [] => []
  | (p, x) :: r =>
    (p, Callback x (match r with [] => None | (n, _) :: _ => Some n end)) :: qcells r
  end.

Definition qhead (q : queued) : option ptr :=
  match q with [] => None | (p, _) :: _ => Some p end.

Fixpoint qlast (q : queued) : option ptr :=
  match q with [] => None | [(p, _)] => Some p | _ :: r => qlast r end.

(** The live blocks are those of the queue and [C]. *)
Definition heap (s : state) (q : queued) (C : cells) : Prop :=
  queue s = qhead q /\ queue_end s = qlast q /\ holds s (C ++ qcells q).

(** ** Permutations *)

Lemma cons_app : forall A (x : A) l, x :: l = [x] ++ l.
Proof. reflexivity. Qed.

Lemma perm_rot : forall A (L B R : list A),
  Permutation L (R ++ B) -> Permutation L (B ++ R).
Proof.
  intros A L B R H. eapply Permutation_trans; [exact H|]. apply Permutation_app_comm.
Qed.

Lemma perm_end : forall A (L R : list A), Permutation (L ++ []) (R ++ []) -> Permutation L R.
Proof. intros A L R. now rewrite !app_nil_r. Qed.

(** Cancels the chunks one after the other, rotating the right hand side. *)
Ltac perm_norm :=
  repeat rewrite <- app_assoc; repeat rewrite app_nil_l; repeat rewrite app_nil_r.

Ltac perm_step n :=
  match n with
  | O => fail
  | S ?n' =>
    first
      [ apply Permutation_app_head
      | apply perm_rot; repeat rewrite <- app_assoc; perm_step n' ]
  end.

Ltac perm_cons :=
  repeat match goal with
  | |- context [?x :: ?l] =>
    lazymatch l with
    | [] => fail
    | _ => change (x :: l) with (app (cons x nil) l)
    end
  end.

Ltac perm :=
  cbn [app]; perm_cons; perm_norm; apply perm_end; perm_norm;
  repeat rewrite <- app_assoc;
  repeat first [ reflexivity | perm_step 24%nat ].

(** ** [holds] *)

Lemma holds_perm : forall s C D, Permutation C D -> holds s C -> holds s D.
Proof.
  intros s C D P [N H]. split.
  - eapply Permutation_NoDup; [apply Permutation_map; exact P|exact N].
  - intros p o. rewrite H. split; apply Permutation_in; [exact P|now apply Permutation_sym].
Qed.

Lemma heap_perm : forall s q C D, Permutation C D -> heap s q C -> heap s q D.
Proof.
  intros s q C D P [A [B H]]. split; [exact A|]. split; [exact B|].
  eapply holds_perm; [|exact H]. now apply Permutation_app_tail.
Qed.

Lemma replace_length : forall A (l : list A) i a, length (replace l i a) = length l.
Proof. induction l; intros [|i] b; cbn; auto. Qed.

Lemma replace_same : forall A (l : list A) i a, i < length l -> nth_error (replace l i a) i = Some a.
Proof.
  induction l as [|x l IH]; intros [|i] a H; cbn in *; try lia; auto. apply IH. lia.
Qed.

Lemma replace_other : forall A (l : list A) i j a, i <> j -> nth_error (replace l i a) j = nth_error l j.
Proof.
  induction l as [|x l IH]; intros [|i] [|j] a H; cbn; auto; try congruence. 
Qed.

Lemma block_lt : forall s p o, block s p = Some o -> p < length (blocks s).
Proof.
  intros s p o H. unfold block in H. apply nth_error_Some. now destruct (nth_error (blocks s) p).
Qed.

Lemma block_replace : forall s p v o, block s p = Some o -> forall x,
  block (set_blocks s (replace (blocks s) p v)) x = if Nat.eqb x p then v else block s x.
Proof.
  intros s p v o H x. unfold block at 1. cbn. destruct (Nat.eqb_spec x p) as [->|n].
  - rewrite replace_same; [now destruct v|]. now apply block_lt in H.
  - rewrite replace_other by congruence. reflexivity.
Qed.

Lemma nodup_key : forall (C : cells) p o o', NoDup (map fst ((p, o) :: C)) -> ~ In (p, o') C.
Proof.
  intros C p o o' N I. inversion_clear N as [|? ? N1 N2]. apply N1.
  change p with (fst (p, o')). now apply in_map.
Qed.

Lemma holds_store : forall s p o o' C, holds s ((p, o) :: C) ->
  store p o' s = Done tt (set_blocks s (replace (blocks s) p (Some o'))) /\
  holds (set_blocks s (replace (blocks s) p (Some o'))) ((p, o') :: C).
Proof.
  intros s p o o' C [N H].
  assert (B : block s p = Some o) by (apply H; now left).
  unfold store. rewrite B. split; [reflexivity|]. split; [exact N|].
  intros x y. rewrite (block_replace s p (Some o') o B x).
  destruct (Nat.eqb_spec x p) as [->|n]; cbn.
  - split; [intros E; injection E as ->; now left|].
    intros [E|I]; [now injection E as ->|]. exfalso. revert I. now apply (nodup_key C p o).
  - rewrite H. cbn. split; intros [E|I]; try (injection E as -> ->; congruence); now right.
Qed.

Lemma holds_free : forall s p o C, holds s ((p, o) :: C) ->
  free p s = Done tt (set_blocks s (replace (blocks s) p None)) /\
  holds (set_blocks s (replace (blocks s) p None)) C.
Proof.
  intros s p o C [N H].
  assert (B : block s p = Some o) by (apply H; now left).
  unfold free. rewrite B. split; [reflexivity|]. split; [now inversion N|].
  intros x y. rewrite (block_replace s p None o B x).
  destruct (Nat.eqb_spec x p) as [->|n]; cbn.
  - split; [discriminate|]. intros I. exfalso. revert I. now apply (nodup_key C p o).
  - rewrite H. cbn. split; [intros [E|I]; [injection E as -> ->; congruence|exact I]|].
    intros I. now right.
Qed.

Lemma holds_alloc : forall s o C, holds s C ->
  holds (set_blocks s (blocks s ++ [Some o])) ((length (blocks s), o) :: C).
Proof.
  intros s o C [N H]. split.
  - cbn. constructor; [|exact N]. intros I. apply in_map_iff in I.
    destruct I as [[p o'] [E I]]. cbn in E. subst p. apply H in I. apply block_lt in I. lia.
  - intros x y. unfold block. cbn [set_blocks blocks].
    destruct (Nat.lt_ge_cases x (length (blocks s))) as [L|G].
    + rewrite nth_error_app1 by exact L. fold (block s x). rewrite H. cbn.
      split; [now right|]. intros [E|I]; [injection E as E _; lia|exact I].
    + rewrite nth_error_app2 by exact G.
      destruct (Nat.eq_dec x (length (blocks s))) as [->|n].
      * rewrite Nat.sub_diag. cbn. split; [intros E; injection E as ->; now left|].
        intros [E|I]; [now injection E as ->|]. apply H in I. apply block_lt in I. lia.
      * destruct (x - length (blocks s)) as [|d] eqn:E; [lia|]. cbn.
        replace (nth_error (@nil (option obj)) d) with (@None (option obj)) by now destruct d.
        split; [discriminate|]. intros [E'|I]; [injection E' as E' _; lia|].
        apply H in I. apply block_lt in I. lia.
Qed.

Lemma holds_length : forall s C, holds s C -> length C <= length (blocks s).
Proof.
  intros s C [N H]. assert (E : length (map fst C) = length C) by apply map_length.
  rewrite <- E, <- (seq_length (length (blocks s)) 0).
  apply NoDup_incl_length; [exact N|]. intros p I. apply in_map_iff in I.
  destruct I as [[x o] [<- I]]. apply H in I. apply block_lt in I. apply in_seq. cbn. lia.
Qed.

(** ** Triples *)

Definition tri {A} (q : queued) (C : cells) (m : M A)
  (Q : A -> queued -> cells -> Prop) : Prop :=
  forall R s, heap s q (C ++ R) ->
  exists a s' q' C', m s = Done a s' /\ heap s' q' (C' ++ R) /\ Q a q' C'.

Lemma tri_perm : forall A q C D (m : M A) Q, Permutation C D -> tri q D m Q -> tri q C m Q.
Proof.
  intros A q C D m Q P T R s H. apply T. eapply heap_perm; [|exact H].
  now apply Permutation_app_tail.
Qed.

Lemma tri_ret : forall A q C (a : A) (Q : A -> queued -> cells -> Prop),
  Q a q C -> tri q C (ret a) Q.
Proof. intros A q C a Q H R s Hs. exists a, s, q, C. auto. Qed.

(** The result up to the order of cells. *)
Lemma tri_ret_perm : forall A q C D (a : A) (Q : A -> queued -> cells -> Prop),
  Permutation C D -> Q a q D -> tri q C (ret a) Q.
Proof. intros A q C D a Q P H. eapply tri_perm; [exact P|]. now apply tri_ret. Qed.

Lemma tri_post : forall A q C (m : M A) (Q Q' : A -> queued -> cells -> Prop),
  tri q C m Q -> (forall a q' C', Q a q' C' -> exists D, Permutation C' D /\ Q' a q' D) ->
  tri q C m Q'.
Proof.
  intros A q C m Q Q' T I R s H. destruct (T R s H) as [a [s' [q' [C' [E [H' P]]]]]].
  destruct (I a q' C' P) as [D [PD QD]]. exists a, s', q', D.
  split; [exact E|]. split; [|exact QD].
  eapply heap_perm; [|exact H']. now apply Permutation_app_tail.
Qed.

Lemma tri_call : forall A B q C D F (m : M A) (k : A -> M B) Q Q',
  Permutation C (D ++ F) -> tri q D m Q ->
  (forall a q' D', Q a q' D' -> tri q' (D' ++ F) (k a) Q') ->
  tri q C (bind m k) Q'.
Proof.
  intros A B q C D F m k Q Q' P T K R s H.
  assert (H1 : heap s q (D ++ F ++ R)).
  { eapply heap_perm; [|exact H]. rewrite app_assoc. now apply Permutation_app_tail. }
  destruct (T _ _ H1) as [a [s' [q' [D' [E [H2 P2]]]]]].
  rewrite app_assoc in H2. destruct (K a q' D' P2 R s' H2) as [b [s'' [q'' [C'' [E2 [H3 P3]]]]]].
  exists b, s'', q'', C''. unfold bind. rewrite E. auto.
Qed.

Lemma tri_bind : forall A B q C (m : M A) (k : A -> M B) Q Q',
  tri q C m Q -> (forall a q' D', Q a q' D' -> tri q' D' (k a) Q') ->
  tri q C (bind m k) Q'.
Proof.
  intros A B q C m k Q Q' T K. apply (tri_call A B q C C [] m k Q Q').
  - now rewrite app_nil_r.
  - exact T.
  - intros a q' D' P. rewrite app_nil_r. now apply K.
Qed.

(** A call at the end. *)
Lemma tri_tail : forall A q C D F (m : M A) Q Q',
  Permutation C (D ++ F) -> tri q D m Q ->
  (forall a q' D', Q a q' D' -> exists E, Permutation (D' ++ F) E /\ Q' a q' E) ->
  tri q C m Q'.
Proof.
  intros A q C D F m Q Q' P T K R s H.
  assert (H1 : heap s q (D ++ F ++ R)).
  { eapply heap_perm; [|exact H]. rewrite app_assoc. now apply Permutation_app_tail. }
  destruct (T _ _ H1) as [a [s' [q' [D' [E [H2 P2]]]]]].
  destruct (K a q' D' P2) as [E' [PE QE]]. exists a, s', q', E'.
  split; [exact E|]. split; [|exact QE].
  eapply heap_perm; [|exact H2]. rewrite app_assoc. now apply Permutation_app_tail.
Qed.

Lemma tri_assoc : forall A B X q C (m : M A) (f : A -> M B) (k : B -> M X) Q,
  tri q C (bind m (fun a => bind (f a) k)) Q -> tri q C (bind (bind m f) k) Q.
Proof.
  intros A B X q C m f k Q T R s H. destruct (T R s H) as [a [s' [q' [C' [E P]]]]].
  exists a, s', q', C'. split; [|exact P]. unfold bind in *. now destruct (m s).
Qed.

Lemma tri_ret_bind : forall A B q C (a : A) (k : A -> M B) Q,
  tri q C (k a) Q -> tri q C (bind (ret a) k) Q.
Proof. intros A B q C a k Q T. exact T. Qed.

(** A program followed by nothing. *)
Lemma tri_unbind : forall A q C (m : M A) Q,
  tri q C (bind m ret) Q -> tri q C m Q.
Proof.
  intros A q C m Q T R s H. destruct (T R s H) as [a [s' [q' [C' [E P]]]]].
  exists a, s', q', C'. split; [|exact P]. unfold bind, ret in E. now destruct (m s).
Qed.

Lemma tri_alloc : forall B q C o (k : ptr -> M B) Q,
  (forall p, tri q ((p, o) :: C) (k p) Q) -> tri q C (bind (alloc o) k) Q.
Proof.
  intros B q C o k Q K R s [Hq [He H]].
  destruct (K (length (blocks s)) R (set_blocks s (blocks s ++ [Some o]))) as [b [s' [q' [C' [E P]]]]].
  - split; [exact Hq|]. split; [exact He|]. exact (holds_alloc s o _ H).
  - exists b, s', q', C'. split; [|exact P]. exact E.
Qed.

Lemma tri_load : forall B q C p o (k : obj -> M B) Q,
  In (p, o) (C ++ qcells q) -> tri q C (k o) Q -> tri q C (bind (load p) k) Q.
Proof.
  intros B q C p o k Q I K R s H. destruct (K R s H) as [b [s' [q' [C' [E P]]]]].
  exists b, s', q', C'. split; [|exact P]. unfold bind, load.
  destruct H as [_ [_ [_ H]]]. assert (E1 : block s p = Some o).
  { apply H. apply in_app_or in I. rewrite !in_app_iff. tauto. }
  now rewrite E1.
Qed.

Lemma tri_store : forall B q C F p o o' (k : unit -> M B) Q,
  Permutation C ((p, o) :: F) -> tri q ((p, o') :: F) (k tt) Q ->
  tri q C (bind (store p o') k) Q.
Proof.
  intros B q C F p o o' k Q P K R s H.
  apply (heap_perm _ _ _ ((p, o) :: F ++ R)) in H;
    [|change ((p, o) :: F ++ R) with (((p, o) :: F) ++ R); now apply Permutation_app_tail].
  destruct H as [Hq [He H]]. destruct (holds_store s p o o' ((F ++ R) ++ qcells q) H) as [E1 H1].
  destruct (K R (set_blocks s (replace (blocks s) p (Some o')))) as [b [s' [q' [C' [E P']]]]];
    [split; [exact Hq|]; split; [exact He|exact H1]|].
  exists b, s', q', C'. split; [|exact P']. unfold bind. now rewrite E1.
Qed.

Lemma tri_free : forall B q C F p o (k : unit -> M B) Q,
  Permutation C ((p, o) :: F) -> tri q F (k tt) Q ->
  tri q C (bind (free p) k) Q.
Proof.
  intros B q C F p o k Q P K R s H.
  apply (heap_perm _ _ _ ((p, o) :: F ++ R)) in H;
    [|change ((p, o) :: F ++ R) with (((p, o) :: F) ++ R); now apply Permutation_app_tail].
  destruct H as [Hq [He H]]. destruct (holds_free s p o ((F ++ R) ++ qcells q) H) as [E1 H1].
  destruct (K R (set_blocks s (replace (blocks s) p None))) as [b [s' [q' [C' [E P']]]]];
    [split; [exact Hq|]; split; [exact He|exact H1]|].
  exists b, s', q', C'. split; [|exact P']. unfold bind. now rewrite E1.
Qed.

Lemma tri_ask : forall B q C (k : answer -> M B) Q,
  (forall a, tri q C (k a) Q) -> tri q C (bind ask k) Q.
Proof.
  intros B q C k Q K R s H. unfold bind, ask. destruct (world s) as [|a r].
  - now apply K.
  - apply K. destruct H as [Hq [He H]]. split; [exact Hq|]. split; [exact He|]. exact H.
Qed.

Lemma tri_fuel : forall B q C (k : nat -> M B) Q,
  (forall n, length (C ++ qcells q) < n -> tri q C (k n) Q) -> tri q C (bind fuel k) Q.
Proof.
  intros B q C k Q K R s H. unfold bind, fuel. apply K; [|exact H].
  destruct H as [_ [_ H]]. apply holds_length in H. rewrite !app_length in *. lia.
Qed.

Lemma tri_get_queue : forall B q C (k : option ptr -> M B) Q,
  tri q C (k (qhead q)) Q -> tri q C (bind get_queue k) Q.
Proof.
  intros B q C k Q K R s H. unfold bind, get_queue.
  rewrite (proj1 H). now apply K.
Qed.

Lemma tri_get_queue_end : forall B q C (k : option ptr -> M B) Q,
  tri q C (k (qlast q)) Q -> tri q C (bind get_queue_end k) Q.
Proof.
  intros B q C k Q K R s H. unfold bind, get_queue_end.
  rewrite (proj1 (proj2 H)). now apply K.
Qed.

(** The queue may be rebuilt from cells. *)
Lemma tri_set_queue : forall B q q' C D (k : unit -> M B) Q,
  Permutation (C ++ qcells q) (D ++ qcells q') -> tri q' D (k tt) Q ->
  tri q C (bind (set_queue (qhead q') (qlast q')) k) Q.
Proof.
  intros B q q' C D k Q P K R s [Hq [He H]].
  unfold bind, set_queue. apply K. split; [reflexivity|]. split; [reflexivity|].
  eapply holds_perm in H; [exact H|].
  eapply Permutation_trans with ((C ++ qcells q) ++ R); [perm|].
  eapply Permutation_trans; [apply Permutation_app_tail; exact P|]. perm.
Qed.

(** Cells of the queue can be used like others if the queue is given up. *)
Lemma tri_weaken : forall A q C (m : M A) (Q Q' : A -> queued -> cells -> Prop),
  tri q C m Q -> (forall a q' C', Q a q' C' -> Q' a q' C') -> tri q C m Q'.
Proof. intros A q C m Q Q' T I. eapply tri_post; [exact T|]. intros a q' C' H. exists C'. auto. Qed.

(** ** Derived rules *)

Lemma tri_deref : forall B q C p (k : ptr -> M B) Q,
  tri q C (k p) Q -> tri q C (bind (deref (Some p)) k) Q.
Proof. intros B q C p k Q K. exact K. Qed.

Lemma tri_load_source : forall B q C p x (k : source -> M B) Q,
  In (p, Source x) C -> tri q C (k x) Q -> tri q C (bind (load_source p) k) Q.
Proof.
  intros B q C p x k Q I K. unfold load_source. apply tri_assoc.
  apply (tri_load _ _ _ _ (Source x)); [apply in_or_app; now left|exact K].
Qed.

Lemma kind_same_refl : forall k, kind_same k k = true.
Proof. now destruct k. Qed.

Lemma tri_load_node : forall B q C p k n (f : node -> M B) Q,
  In (p, Node k n) C -> tri q C (f n) Q -> tri q C (bind (load_node k p) f) Q.
Proof.
  intros B q C p k n f Q I K. unfold load_node. apply tri_assoc.
  apply (tri_load _ _ _ _ (Node k n)); [apply in_or_app; now left|].
  rewrite kind_same_refl. exact K.
Qed.

Lemma tri_load_language : forall B q C p x c m (k : string * ptr * ptr -> M B) Q,
  In (p, Language x c m) C -> tri q C (k (x, c, m)) Q ->
  tri q C (bind (load_language p) k) Q.
Proof.
  intros B q C p x c m k Q I K. unfold load_language. apply tri_assoc.
  apply (tri_load _ _ _ _ (Language x c m)); [apply in_or_app; now left|exact K].
Qed.

(** The objects that have a name, as items of lists of kind [k]. *)
Definition named (k : kind) (x : string) (o : obj) : Prop :=
  match k with
  | KLanguage => exists c m, o = Language x c m
  | KLoc => o = Loc x
  | KDelta => o = Delta x
  | _ => False
  end.

Lemma tri_load_name : forall B q C p k x o (f : string -> M B) Q,
  In (p, o) C -> named k x o -> tri q C (f x) Q -> tri q C (bind (load_name k p) f) Q.
Proof.
  intros B q C p k x o f Q I N K. unfold load_name. apply tri_assoc.
  apply (tri_load _ _ _ _ o); [apply in_or_app; now left|].
  destruct k; cbn in N; try contradiction; [destruct N as [c [m ->]]|subst o|subst o]; exact K.
Qed.

Lemma tri_touch : forall B q C p w (k : unit -> M B) Q,
  In (p, Bytes w) C -> tri q C (k tt) Q -> tri q C (bind (touch p) k) Q.
Proof.
  intros B q C p w k Q I K. unfold touch. apply tri_assoc.
  apply (tri_load _ _ _ _ (Bytes w)); [apply in_or_app; now left|exact K].
Qed.

Lemma tri_set_field : forall B q C F p x f (k : unit -> M B) Q,
  Permutation C ((p, Source x) :: F) -> tri q ((p, Source (f x)) :: F) (k tt) Q ->
  tri q C (bind (set_field p f) k) Q.
Proof.
  intros B q C F p x f k Q P K. unfold set_field. apply tri_assoc.
  apply (tri_load_source _ _ _ _ x).
  - eapply Permutation_in; [apply Permutation_sym; exact P|now left].
  - eapply tri_store; [exact P|exact K].
Qed.

Lemma tri_set_item : forall B q C F l k n v (f : unit -> M B) Q,
  Permutation C ((l, Node k n) :: F) ->
  tri q ((l, Node k {| item := v; next := next n; head := head n; tail := tail n |}) :: F) (f tt) Q ->
  tri q C (bind (set_item k l v) f) Q.
Proof.
  intros B q C F l k n v f Q P K. unfold set_item. apply tri_assoc.
  apply (tri_load_node _ _ _ _ _ n).
  - eapply Permutation_in; [apply Permutation_sym; exact P|now left].
  - eapply tri_store; [exact P|exact K].
Qed.

Lemma tri_set_next : forall B q C F l k n v (f : unit -> M B) Q,
  Permutation C ((l, Node k n) :: F) ->
  tri q ((l, Node k {| item := item n; next := v; head := head n; tail := tail n |}) :: F) (f tt) Q ->
  tri q C (bind (set_next k l v) f) Q.
Proof.
  intros B q C F l k n v f Q P K. unfold set_next. apply tri_assoc.
  apply (tri_load_node _ _ _ _ _ n).
  - eapply Permutation_in; [apply Permutation_sym; exact P|now left].
  - eapply tri_store; [exact P|exact K].
Qed.

Lemma tri_set_head : forall B q C F l k n v (f : unit -> M B) Q,
  Permutation C ((l, Node k n) :: F) ->
  tri q ((l, Node k {| item := item n; next := next n; head := v; tail := tail n |}) :: F) (f tt) Q ->
  tri q C (bind (set_head k l v) f) Q.
Proof.
  intros B q C F l k n v f Q P K. unfold set_head. apply tri_assoc.
  apply (tri_load_node _ _ _ _ _ n).
  - eapply Permutation_in; [apply Permutation_sym; exact P|now left].
  - eapply tri_store; [exact P|exact K].
Qed.

Lemma tri_set_tail : forall B q C F l k n v (f : unit -> M B) Q,
  Permutation C ((l, Node k n) :: F) ->
  tri q ((l, Node k {| item := item n; next := next n; head := head n; tail := v |}) :: F) (f tt) Q ->
  tri q C (bind (set_tail k l v) f) Q.
Proof.
  intros B q C F l k n v f Q P K. unfold set_tail. apply tri_assoc.
  apply (tri_load_node _ _ _ _ _ n).
  - eapply Permutation_in; [apply Permutation_sym; exact P|now left].
  - eapply tri_store; [exact P|exact K].
Qed.

(** An optional string. *)
Definition opt_cell (p : option ptr) (w : site) : cells :=
  match p with Some p => [(p, Bytes w)] | None => [] end.

Lemma tri_free_opt : forall B q C F p w (k : unit -> M B) Q,
  Permutation C (opt_cell p w ++ F) -> tri q F (k tt) Q ->
  tri q C (bind (free_opt p) k) Q.
Proof.
  intros B q C F [p|] w k Q P K; cbn in *.
  - eapply tri_free; [exact P|exact K].
  - eapply tri_perm; [exact P|]. exact K.
Qed.
