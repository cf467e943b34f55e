(** Proofs about the rule objects: what cloning shares, and what an analysis reads and writes. *)
From Coq Require Import String List ZArith Bool Arith Lia Permutation.
From Verif Require Import Tables GestaltRules GestaltModel GestaltSpec GestaltProofs.
Import ListNotations.
Open Scope string_scope.
Open Scope list_scope.
Open Scope nat_scope.

(** * Shapes *)

Fixpoint shape {L} (r : rule L) : rule unit :=
  match r with
  | Leaf _ => Leaf tt
  | Lang l p => Lang l p
  | Gest t n => Gest t n
  | And rs => And ((fix many rs := match rs with [] => [] | r :: rs' => shape r :: many rs' end) rs)
  | Or rs => Or ((fix many rs := match rs with [] => [] | r :: rs' => shape r :: many rs' end) rs)
  | Not rs => Not ((fix many rs := match rs with [] => [] | r :: rs' => shape r :: many rs' end) rs)
  end.

Definition all_leaves {L} (ds : list (definition L)) : list L := flat_map (fun d => leaves (d_rule d)) ds.
Definition frame_of {L} (d : definition L) : string * string * rule unit :=
  (d_type d, d_name d, shape (d_rule d)).

Lemma shape_many : forall {L} (rs : list (rule L)),
  (fix many rs := match rs with [] => [] | r :: rs' => shape r :: many rs' end) rs = map shape rs.
Proof. induction rs as [| r rs IH]; [reflexivity |]. cbn. f_equal; exact IH. Qed.
Lemma leaves_many : forall {L} (rs : list (rule L)),
  (fix many rs := match rs with [] => [] | r :: rs' => leaves r ++ many rs' end) rs = flat_map leaves rs.
Proof. induction rs as [| r rs IH]; [reflexivity |]. cbn. f_equal; exact IH. Qed.

Lemma Forall2_app_split : forall {A B} (P : A -> B -> Prop) l1 l2 m1 m2,
  length l1 = length m1 -> Forall2 P (l1 ++ l2) (m1 ++ m2) -> Forall2 P l1 m1 /\ Forall2 P l2 m2.
Proof.
  induction l1 as [| x l1 IH]; intros l2 [| y m1] m2 Hl H; try discriminate; [auto |].
  cbn in H. inversion H; subst. injection Hl as Hl. destruct (IH _ _ _ Hl H5). auto.
Qed.

Lemma shape_length : forall {A B} (r : rule A) (r' : rule B),
  shape r = shape r' -> length (leaves r) = length (leaves r').
Proof.
  intros A B r. induction r using rule_ind'; intros r' E; destruct r'; try discriminate;
    try reflexivity;
    cbn [shape leaves] in *; rewrite !shape_many in E; rewrite !leaves_many; injection E as E;
    revert rules E; induction H as [| r rs Hr _ IH]; intros [| r' rs'] E; try discriminate;
    try reflexivity; cbn in E |- *; injection E as E1 E2;
    rewrite !app_length, (Hr _ E1), (IH _ E2); reflexivity.
Qed.

Lemma triggers_shape : forall {A B} (la : A -> list trigger) (lb : B -> list trigger) c gs r r' m,
  shape r = shape r' -> Forall2 (fun a b => la a = lb b) (leaves r) (leaves r') ->
  triggers la c gs r m = triggers lb c gs r' m.
Proof.
  intros A B la lb c gs r. induction r using rule_ind'; intros r' m E F; destruct r'; try discriminate.
  - cbn in *. inversion F; subst. now rewrite H2.
  - cbn in E. injection E as <- <-. reflexivity.
  - cbn in E. injection E as <- <-. reflexivity.
  - cbn [shape leaves triggers] in *. rewrite !shape_many in E. rewrite !leaves_many in F. injection E as E.
    revert m rules E F. induction H as [| r rs Hr _ IH]; intros m [| r' rs'] E F; try discriminate;
      [reflexivity |].
    cbn in E. injection E as E1 E2. cbn [flat_map] in F.
    apply Forall2_app_split in F as [F1 F2]; [| now apply shape_length].
    rewrite (Hr r' m E1 F1). destruct (triggers lb c gs r' m) as [[[| t ts] m'] |]; cbn [bind]; auto.
  - cbn [shape leaves triggers] in *. rewrite !shape_many in E. rewrite !leaves_many in F. injection E as E.
    revert m rules E F. induction H as [| r rs Hr _ IH]; intros m [| r' rs'] E F; try discriminate;
      [reflexivity |].
    cbn in E. injection E as E1 E2. cbn [flat_map] in F.
    apply Forall2_app_split in F as [F1 F2]; [| now apply shape_length].
    rewrite (Hr r' m E1 F1). destruct (triggers lb c gs r' m) as [[[| t ts] m'] |]; cbn [bind]; auto.
  - cbn [shape leaves triggers] in *. rewrite !shape_many in E. rewrite !leaves_many in F. injection E as E.
    destruct H as [| r rs Hr _]; destruct rules as [| r' rs']; try discriminate; [reflexivity |].
    cbn in E. injection E as E1 E2. cbn [flat_map] in F.
    apply Forall2_app_split in F as [F1 F2]; [| now apply shape_length].
    rewrite (Hr r' m E1 F1). reflexivity.
Qed.

Definition same_frame {A B} (d : definition A) (d' : definition B) : Prop := frame_of d = frame_of d'.

Lemma pass_shape : forall {A B} (la : A -> list trigger) (lb : B -> list trigger) c ds ds' m gs,
  Forall2 (fun d d' => same_frame d d' /\
             Forall2 (fun a b => la a = lb b) (leaves (d_rule d)) (leaves (d_rule d'))) ds ds' ->
  match pass la c ds m gs, pass lb c ds' m gs with
  | Ok (l, m1, g), Ok (l', m1', g') => m1 = m1' /\ g = g' /\
      Forall2 (fun d d' => same_frame d d' /\
             Forall2 (fun a b => la a = lb b) (leaves (d_rule d)) (leaves (d_rule d'))) l l'
  | Raised x, Raised y => x = y
  | _, _ => False
  end.
Proof.
  intros A B la lb c ds ds' m gs H. revert m gs.
  induction H as [| d d' ds ds' [Hs Hl] Hds IH]; intros m gs; cbn [pass]; [auto |].
  unfold same_frame, frame_of in Hs. injection Hs as Ht Hn Hs.
  rewrite (triggers_shape la lb c gs _ _ m Hs Hl).
  destruct (triggers lb c gs (d_rule d') m) as [[[| t ts] m1] |]; cbn [bind]; [| | reflexivity].
  - specialize (IH m1 gs).
    destruct (pass la c ds m1 gs) as [[[l m2] g] |], (pass lb c ds' m1 gs) as [[[l' m2'] g'] |];
      cbn [bind]; try tauto.
    destruct IH as (-> & -> & IH). repeat split. constructor; [| exact IH].
    split; [| exact Hl]. unfold same_frame, frame_of. congruence.
  - unfold contribution. rewrite Ht, Hn. apply IH.
Qed.

Lemma passes_shape : forall {A B} (la : A -> list trigger) (lb : B -> list trigger) c fuel seen ds ds' m gs,
  Forall2 (fun d d' => same_frame d d' /\
             Forall2 (fun a b => la a = lb b) (leaves (d_rule d)) (leaves (d_rule d'))) ds ds' ->
  match passes la c fuel seen ds m gs, passes lb c fuel seen ds' m gs with
  | Some (Ok (l, m1, g)), Some (Ok (l', m1', g')) => m1 = m1' /\ g = g'
  | Some (Raised x), Some (Raised y) => x = y
  | None, None => True
  | _, _ => False
  end.
Proof.
  intros A B la lb c fuel. induction fuel as [| k IH]; intros seen ds ds' m gs H; cbn [passes]; [exact I |].
  pose proof (pass_shape la lb c ds ds' m gs H) as Hp.
  destruct (pass la c ds m gs) as [[[l m2] g] |], (pass lb c ds' m gs) as [[[l' m2'] g'] |];
    try tauto.
  destruct Hp as (-> & -> & Hp).
  destruct (seen =? length g'); [auto |]. apply IH, Hp.
Qed.

(** * Building *)

Fixpoint mapM {A B} (f : A -> store -> B * store) (l : list A) (s : store) : list B * store :=
  match l with
  | [] => ([], s)
  | x :: l' => let (y, s1) := f x s in let (ys, s2) := mapM f l' s1 in (y :: ys, s2)
  end.

Lemma mapM_app : forall {A B} (f : A -> store -> B * store) l1 l2 s,
  mapM f (l1 ++ l2) s =
  (fst (mapM f l1 s) ++ fst (mapM f l2 (snd (mapM f l1 s))), snd (mapM f l2 (snd (mapM f l1 s)))).
Proof.
  intros A B f l1. induction l1 as [| x l1 IH]; intros l2 s; cbn.
  - now destruct (mapM f l2 s).
  - destruct (f x s) as [y s1]. rewrite IH. destruct (mapM f l1 s1) as [ys s2]. reflexivity.
Qed.

Lemma build_mapM : forall {A B} (f : A -> store -> B * store) r s,
  leaves (fst (build f r s)) = fst (mapM f (leaves r) s) /\
  snd (build f r s) = snd (mapM f (leaves r) s) /\
  shape (fst (build f r s)) = shape r.
Proof.
  intros A B f r. induction r using rule_ind'; intros s; cbn [build leaves shape].
  - cbn. destruct (f l s). auto.
  - auto.
  - auto.
  - rewrite leaves_many, shape_many.
    set (many := fix many (rs : list (rule A)) (s : store) {struct rs} : list (rule B) * store :=
      match rs with
      | [] => ([], s)
      | r :: rs' => let (r', s1) := build f r s in let (l, s2) := many rs' s1 in (r' :: l, s2)
      end).
    assert (flat_map leaves (fst (many rs s)) = fst (mapM f (flat_map leaves rs) s) /\
            snd (many rs s) = snd (mapM f (flat_map leaves rs) s) /\
            map shape (fst (many rs s)) = map shape rs) as (H1 & H2 & H3).
    { revert s. induction H as [| r rs Hr _ IH]; intros s; [auto |].
      cbn [many flat_map map]. fold many. rewrite mapM_app. cbn [fst snd].
      destruct (Hr s) as (H1 & H2 & H3). destruct (build f r s) as [r' s1]. cbn [fst snd] in *.
      rewrite <- H1, <- H2. destruct (IH s1) as (H4 & H5 & H6).
      destruct (many rs s1) as [l s2]. cbn [fst snd flat_map map] in *.
      rewrite H4, H3, H6. auto. }
    destruct (many rs s) as [l s']. cbn [fst snd leaves shape] in *. rewrite leaves_many, shape_many, H3. auto.
  - rewrite leaves_many, shape_many.
    set (many := fix many (rs : list (rule A)) (s : store) {struct rs} : list (rule B) * store :=
      match rs with
      | [] => ([], s)
      | r :: rs' => let (r', s1) := build f r s in let (l, s2) := many rs' s1 in (r' :: l, s2)
      end).
    assert (flat_map leaves (fst (many rs s)) = fst (mapM f (flat_map leaves rs) s) /\
            snd (many rs s) = snd (mapM f (flat_map leaves rs) s) /\
            map shape (fst (many rs s)) = map shape rs) as (H1 & H2 & H3).
    { revert s. induction H as [| r rs Hr _ IH]; intros s; [auto |].
      cbn [many flat_map map]. fold many. rewrite mapM_app. cbn [fst snd].
      destruct (Hr s) as (H1 & H2 & H3). destruct (build f r s) as [r' s1]. cbn [fst snd] in *.
      rewrite <- H1, <- H2. destruct (IH s1) as (H4 & H5 & H6).
      destruct (many rs s1) as [l s2]. cbn [fst snd flat_map map] in *.
      rewrite H4, H3, H6. auto. }
    destruct (many rs s) as [l s']. cbn [fst snd leaves shape] in *. rewrite leaves_many, shape_many, H3. auto.
  - rewrite leaves_many, shape_many.
    set (many := fix many (rs : list (rule A)) (s : store) {struct rs} : list (rule B) * store :=
      match rs with
      | [] => ([], s)
      | r :: rs' => let (r', s1) := build f r s in let (l, s2) := many rs' s1 in (r' :: l, s2)
      end).
    assert (flat_map leaves (fst (many rs s)) = fst (mapM f (flat_map leaves rs) s) /\
            snd (many rs s) = snd (mapM f (flat_map leaves rs) s) /\
            map shape (fst (many rs s)) = map shape rs) as (H1 & H2 & H3).
    { revert s. induction H as [| r rs Hr _ IH]; intros s; [auto |].
      cbn [many flat_map map]. fold many. rewrite mapM_app. cbn [fst snd].
      destruct (Hr s) as (H1 & H2 & H3). destruct (build f r s) as [r' s1]. cbn [fst snd] in *.
      rewrite <- H1, <- H2. destruct (IH s1) as (H4 & H5 & H6).
      destruct (many rs s1) as [l s2]. cbn [fst snd flat_map map] in *.
      rewrite H4, H3, H6. auto. }
    destruct (many rs s) as [l s']. cbn [fst snd leaves shape] in *. rewrite leaves_many, shape_many, H3. auto.
Qed.

Lemma build_all_mapM : forall {A B} (f : A -> store -> B * store) ds s,
  all_leaves (fst (build_all f ds s)) = fst (mapM f (all_leaves ds) s) /\
  snd (build_all f ds s) = snd (mapM f (all_leaves ds) s) /\
  map frame_of (fst (build_all f ds s)) = map frame_of ds.
Proof.
  intros A B f ds. unfold all_leaves. induction ds as [| d ds IH]; intros s; [auto |].
  cbn [build_all flat_map map]. rewrite mapM_app. cbn [fst snd].
  destruct (build_mapM f (d_rule d) s) as (H1 & H2 & H3).
  destruct (build f (d_rule d) s) as [r s1]. cbn [fst snd] in *. rewrite <- H1, <- H2.
  destruct (IH s1) as (H4 & H5 & H6). destruct (build_all f ds s1) as [l s2]. cbn [fst snd] in *.
  cbn [flat_map map d_rule]. rewrite H4, H6. unfold frame_of at 1. cbn [d_type d_name d_rule].
  rewrite H3. auto.
Qed.

Lemma split_defs : forall {A B} (P : A -> B -> Prop) (ds : list (definition A)) (ds' : list (definition B)),
  map frame_of ds = map frame_of ds' -> Forall2 P (all_leaves ds) (all_leaves ds') ->
  Forall2 (fun d d' => same_frame d d' /\ Forall2 P (leaves (d_rule d)) (leaves (d_rule d'))) ds ds'.
Proof.
  intros A B P ds. unfold all_leaves. induction ds as [| d ds IH]; intros [| d' ds'] E F; try discriminate;
    [constructor |].
  cbn in E, F. injection E as E1 E2 E3 E4.
  apply Forall2_app_split in F as [F1 F2]; [| now apply shape_length].
  constructor; [| now apply IH].
  split; [| exact F1]. unfold same_frame, frame_of. congruence.
Qed.

Lemma Forall2_impl : forall {A B} (P Q : A -> B -> Prop) l l',
  (forall x y, P x y -> Q x y) -> Forall2 P l l' -> Forall2 Q l l'.
Proof. intros A B P Q l l' H F. induction F; constructor; auto. Qed.

Lemma Forall2_In_r : forall {A B} (P : A -> B -> Prop) l l' y, Forall2 P l l' -> In y l' ->
  exists x, In x l /\ P x y.
Proof.
  intros A B P l l' y H. induction H; intros Hy; [destruct Hy |].
  destruct Hy as [<- | Hy]; [exists x; split; [now left | auto] |].
  destruct (IHForall2 Hy) as (z & Hz & Hp). exists z; split; [now right | auto].
Qed.

Lemma Forall2_impl_In : forall {A B} (P Q : A -> B -> Prop) l l',
  (forall x y, In y l' -> P x y -> Q x y) -> Forall2 P l l' -> Forall2 Q l l'.
Proof.
  intros A B P Q l l' H F. induction F; constructor; [apply H; [now left | auto] |].
  apply IHF. intros; apply H; [now right | auto].
Qed.

(** * Objects *)

Definition is_ff (k : file_kind) : bool := match k with FindFilenames _ _ => true | _ => false end.

(** What was there stays as it was. *)
Definition keeps (s s' : store) : Prop :=
  (forall a o, nth_error (objs s) a = Some o -> nth_error (objs s') a = Some o) /\
  (forall j l, nth_error (arrays s) j = Some l -> nth_error (arrays s') j = Some l).

Lemma keeps_refl : forall s, keeps s s.
Proof. split; auto. Qed.
Lemma keeps_trans : forall s1 s2 s3, keeps s1 s2 -> keeps s2 s3 -> keeps s1 s3.
Proof. intros s1 s2 s3 [H1 H2] [H3 H4]. split; auto. Qed.

Lemma nth_error_app_keep : forall {A} (l l' : list A) i x,
  nth_error l i = Some x -> nth_error (l ++ l') i = Some x.
Proof.
  intros A l l' i x H. rewrite nth_error_app1; [exact H |]. apply nth_error_Some. congruence.
Qed.
Lemma nth_error_new : forall {A} (l : list A) x, nth_error (l ++ [x]) (length l) = Some x.
Proof. intros. rewrite nth_error_app2, Nat.sub_diag by lia. reflexivity. Qed.

Lemma update_length : forall {A} (l : list A) i x, length (update l i x) = length l.
Proof. induction l as [| y l IH]; intros [| i] x; cbn; auto. Qed.
Lemma update_same : forall {A} (l : list A) i x, i < length l -> nth_error (update l i x) i = Some x.
Proof. induction l as [| y l IH]; intros [| i] x H; cbn in *; try lia; [reflexivity | apply IH; lia]. Qed.
Lemma update_other : forall {A} (l : list A) i j x, i <> j -> nth_error (update l i x) j = nth_error l j.
Proof. induction l as [| y l IH]; intros [| i] [| j] x H; cbn; auto; congruence. Qed.
Lemma nth_error_lt : forall {A} (l : list A) i x, nth_error l i = Some x -> i < length l.
Proof. intros A l i x H. apply nth_error_Some. congruence. Qed.

(** An object as [load] makes it: it has counted nothing. *)
Definition original (s : store) (r : file_rule) (a : nat) : Prop :=
  exists o, nth_error (objs s) a = Some o /\ o_kind o = fr_kind r /\ o_min o = fr_min r /\
            o_count o = 0%Z /\ nth_error (arrays s) (o_array o) = Some [].

Lemma original_keeps : forall s s' r a, keeps s s' -> original s r a -> original s' r a.
Proof. intros s s' r a [H1 H2] (o & Ho & E1 & E2 & E3 & Ha). exists o; auto 8. Qed.

Section Analysis.
  Variable R : ruby.

  (** What a rule has counted and found in the files. *)
  Definition ok_hits (k : file_kind) (f : source_file) : bool :=
    match hits R k f with Ok _ => true | Raised _ => false end.
  Definition total (k : file_kind) (fs : list source_file) : Z :=
    sumZ (map (fun f => match hits R k f with Ok n => n | Raised _ => 0%Z end) fs).
  Definition found (x : re) (i : nat) (fs : list source_file) : list trigger :=
    flat_map (fun f => match re_match R x (sf_name f) with
                       | Some m => [mkTrigger (nth i m None) 1]
                       | None => []
                       end) fs.
  Definition leaf_fr (fs : list source_file) (r : file_rule) : list trigger :=
    match fr_kind r with
    | FindFilenames x i => found x i fs
    | k => if (fr_min r <=? total k fs)%Z then [unnamed] else []
    end.

  (** A clone that was made after [s0] and has seen [fs]. *)
  Definition slot (s0 : store) (fs : list source_file) (s : store) (r : file_rule) (a : nat) : Prop :=
    exists o, nth_error (objs s) a = Some o /\ length (objs s0) <= a /\ o_kind o = fr_kind r /\
    match fr_kind r with
    | FindFilenames x i =>
        length (arrays s0) <= o_array o /\ nth_error (arrays s) (o_array o) = Some (found x i fs)
    | k => o_min o = fr_min r /\ o_count o = total k fs
    end.

  Definition apart (s : store) (a a' : nat) : Prop :=
    forall o o', nth_error (objs s) a = Some o -> nth_error (objs s) a' = Some o' ->
    is_ff (o_kind o) = true -> is_ff (o_kind o') = true -> o_array o <> o_array o'.
  Definition distinct (s : store) (l : list nat) : Prop :=
    NoDup l /\ forall a a', In a l -> In a' l -> a <> a' -> apart s a a'.

  Lemma slot_keeps : forall s0 fs s s' r a, keeps s s' -> slot s0 fs s r a -> slot s0 fs s' r a.
  Proof.
    intros s0 fs s s' r a [H1 H2] (o & Ho & Ha & Hk & Hr). exists o.
    repeat (split; [solve [auto | congruence] |]). destruct (fr_kind r); auto. destruct Hr; auto.
  Qed.

  Lemma slot_base : forall s0 s1 fs s r a,
    length (objs s0) <= length (objs s1) -> length (arrays s0) <= length (arrays s1) ->
    slot s1 fs s r a -> slot s0 fs s r a.
  Proof.
    intros s0 s1 fs s r a H1 H2 (o & Ho & Ha & Hk & Hr). exists o.
    repeat (split; [auto; lia |]). destruct (fr_kind r); auto. destruct Hr; split; auto; lia.
  Qed.

  Lemma slot_leaf : forall s0 fs s r a, slot s0 fs s r a -> object_triggers s a = leaf_fr fs r.
  Proof.
    intros s0 fs s r a (o & Ho & Ha & Hk & Hr). unfold object_triggers, leaf_fr. rewrite Ho, Hk.
    destruct (fr_kind r); try (destruct Hr as [-> ->]; reflexivity).
    destruct Hr as [_ Hr]. now apply nth_error_nth.
  Qed.

  (** ** Cloning *)

  Definition ffs (rs : list file_rule) : nat := length (filter (fun r => is_ff (fr_kind r)) rs).

  Lemma clone_one : forall s r a, original s r a ->
    exists s', clone_object a s = (length (objs s), s') /\ keeps s s' /\
      slot s [] s' r (length (objs s)) /\
      length (objs s') = S (length (objs s)) /\
      length (arrays s) <= length (arrays s') /\
      (forall o, nth_error (objs s') (length (objs s)) = Some o -> is_ff (o_kind o) = true ->
         o_array o < length (arrays s')) /\
      length (instances s') = length (instances s) + ffs [r].
  Proof.
    intros s r a (o & Ho & Ek & Em & Ec & Ea). unfold clone_object. rewrite Ho, Ek.
    assert (is_ff (fr_kind r) = false ->
            exists s', (length (objs s), mkStore (objs s ++ [o]) (arrays s) (instances s))
                       = (length (objs s), s') /\ keeps s s' /\
      slot s [] s' r (length (objs s)) /\
      length (objs s') = S (length (objs s)) /\
      length (arrays s) <= length (arrays s') /\
      (forall o, nth_error (objs s') (length (objs s)) = Some o -> is_ff (o_kind o) = true ->
         o_array o < length (arrays s')) /\
      length (instances s') = length (instances s) + ffs [r]) as Hplain.
    { intros Hff. eexists. split; [reflexivity |]. cbn [objs arrays instances].
      split; [split; cbn [objs arrays]; auto using nth_error_app_keep |].
      split. { exists o. cbn [objs]. rewrite nth_error_new. repeat (split; [solve [auto | congruence] |]).
               destruct (fr_kind r); auto. discriminate. }
      split; [rewrite app_length; cbn; lia |]. split; [lia |].
      split. { intros o'. rewrite nth_error_new. intros E; injection E as <-. congruence. }
      unfold ffs. cbn [filter]. rewrite Hff. cbn. lia. }
    destruct (fr_kind r) as [| | | | | | | | x i] eqn:K; try (apply Hplain; reflexivity).
    clear Hplain. unfold new_object. eexists. split; [reflexivity |]. cbn [objs arrays instances fr_kind fr_min].
    split; [split; cbn [objs arrays]; auto using nth_error_app_keep |].
    split. { eexists. cbn [objs arrays]. rewrite nth_error_new. split; [reflexivity |].
             split; [lia |]. cbn [o_kind o_array]. split; [auto |]. rewrite K.
             split; [lia | apply nth_error_new]. }
    rewrite !app_length. cbn [length]. split; [lia |]. split; [lia |].
    split. { intros o'. rewrite nth_error_new. intros E; injection E as <-. cbn. lia. }
    unfold ffs. cbn [filter]. rewrite K. reflexivity.
  Qed.

  Lemma clone_many : forall rs l s, Forall2 (original s) rs l ->
    keeps s (snd (mapM clone_object l s)) /\
    Forall2 (slot s [] (snd (mapM clone_object l s))) rs (fst (mapM clone_object l s)) /\
    distinct (snd (mapM clone_object l s)) (fst (mapM clone_object l s)) /\
    length (instances (snd (mapM clone_object l s))) = length (instances s) + ffs rs.
  Proof.
    intros rs. induction rs as [| r rs IH]; intros l s H; inversion H; subst; cbn [mapM fst snd].
    - split; [apply keeps_refl |]. split; [constructor |].
      split; [split; [constructor | intros a a' []] |]. cbn. lia.
    - destruct (clone_one s r y H2) as (s1 & -> & Hk & Hs & Hl1 & Hl2 & Ha & Hi).
      destruct (IH l' s1) as (IK & IS & (IN & IA) & II).
      { eapply Forall2_impl; [| exact H4]. intros; eapply original_keeps; eauto. }
      destruct (mapM clone_object l' s1) as [l1 s2]. cbn [fst snd] in *.
      split; [eapply keeps_trans; eauto |].
      split. { constructor; [eapply slot_keeps; eauto |].
               eapply Forall2_impl; [| exact IS]. intros; eapply slot_base; [| | eassumption]; lia. }
      assert (forall b, In b l1 -> exists r, slot s1 [] s2 r b) as Hin.
      { clear - IS. intros b Hb. induction IS; [destruct Hb |]. destruct Hb as [<- | Hb]; eauto. }
      assert (exists o, nth_error (objs s2) (length (objs s)) = Some o /\
                        (is_ff (o_kind o) = true -> o_array o < length (arrays s1))) as (o1 & Ho1 & Ha1).
      { destruct Hs as (o & Ho & _). exists o. split; [apply IK, Ho |]. intros; apply Ha; auto. }
      assert (forall b, In b l1 -> length (objs s) < b /\ apart s2 (length (objs s)) b) as Hout.
      { intros b Hb. destruct (Hin b Hb) as (r' & o & Ho & Hge & Hkk & Hrr).
        split; [lia |]. intros o2 o3 E2 E3 F2 F3. rewrite Ho1 in E2. injection E2 as <-.
        rewrite Ho in E3. injection E3 as <-. specialize (Ha1 F2).
        rewrite Hkk in F3. destruct (fr_kind r'); try discriminate. destruct Hrr. lia. }
      split.
      + split.
        * constructor; [| exact IN]. intros Hx. apply Hout in Hx. lia.
        * intros a a' [<- | Hx] [<- | Hy] Hne; [tauto | apply Hout; auto | | auto].
          intros o o' E E' F F' X. destruct (Hout a Hx) as [_ Hap].
          exact (Hap o' o E' E F' F (eq_sym X)).
      + unfold ffs in *. cbn [filter length] in *. destruct (is_ff (fr_kind r)); cbn in *; lia.
  Qed.

  (** ** One file *)

  Lemma hits_raise : forall k f x, hits R k f = Raised x -> x = NoMethodError.
  Proof.
    assert (forall es m x, maven_calls R m es = Raised x -> x = NoMethodError) as Hm.
    { induction es as [| e es IH]; intros m x; cbn [maven_calls]; [discriminate |].
      destruct (maven_event R m e) as [[m' c] | y] eqn:E; cbn [bind].
      - destruct (maven_calls R m' es) eqn:E2; cbn [bind]; [discriminate |].
        intros X; injection X as <-. eapply IH; eauto.
      - intros X; injection X as <-. revert E. unfold maven_event.
        destruct e; try discriminate.
        + destruct (String.eqb name "project"); [discriminate |].
          destruct (String.eqb name "plugin" || String.eqb name "dependency"); discriminate.
        + destruct (String.eqb name "groupId"); [destruct (m_text m); congruence |].
          destruct (String.eqb name "artifactId"); [destruct (m_text m); congruence |].
          destruct (String.eqb name "plugin" || String.eqb name "dependency"); [| discriminate].
          destruct (m_pom m), (m_group m), (m_artifact m); discriminate. }
    intros k f x. destruct k; cbn [hits].
    - destruct (sf_polyglot f); [| discriminate].
      destruct (String.eqb s "c" || String.eqb s "cpp"); discriminate.
    - discriminate.
    - destruct language; [| discriminate]. destruct (language_breakdown f s); discriminate.
    - destruct (language_breakdown f "c"); [discriminate |].
      destruct (language_breakdown f "cpp"); discriminate.
    - destruct (language_breakdown f "java"); discriminate.
    - destruct (language_breakdown f "csharp"); discriminate.
    - destruct (matches R csproj_re (sf_name f)); [| discriminate].
      destruct (language_breakdown f "xml"); discriminate.
    - destruct (matches R pom_re (sf_name f)); [| discriminate].
      destruct (language_breakdown f "xml"); [| discriminate].
      destruct (maven_calls R maven_new (xml_stream R (b_code b))) eqn:E; cbn [bind]; [discriminate |].
      intros X; injection X as <-. eapply Hm; eauto.
    - discriminate.
  Qed.

  Lemma sumZ_app : forall l l', sumZ (l ++ l') = (sumZ l + sumZ l')%Z.
  Proof. induction l as [| x l IH]; intros l'; cbn; [reflexivity |]. unfold sumZ in *. rewrite IH. lia. Qed.

  Lemma total_snoc : forall k fs f n, hits R k f = Ok n -> total k (fs ++ [f]) = (total k fs + n)%Z.
  Proof. intros k fs f n H. unfold total. rewrite map_app, sumZ_app. cbn. rewrite H. lia. Qed.

  (** Two stores in which the objects differ at most in what they have counted. *)
  Definition alike (s s' : store) : Prop :=
    forall a o', nth_error (objs s') a = Some o' ->
    exists o, nth_error (objs s) a = Some o /\ o_kind o = o_kind o' /\ o_array o = o_array o'.
  Lemma alike_apart : forall s s' a a', alike s s' -> apart s a a' -> apart s' a a'.
  Proof.
    intros s s' a a' H Hap o o' E E' F F'.
    destruct (H a o E) as (p & Ep & K1 & K2). destruct (H a' o' E') as (q & Eq & K3 & K4).
    rewrite <- K2, <- K4. apply Hap; congruence.
  Qed.
  Lemma alike_distinct : forall s s' l, alike s s' -> distinct s l -> distinct s' l.
  Proof. intros s s' l H [H1 H2]. split; [exact H1 |]. intros. eapply alike_apart; eauto. Qed.

  Lemma process_one : forall s0 fs f s r a, slot s0 fs s r a -> ok_hits (fr_kind r) f = true ->
    exists s', process_rule R f a s = (s', None) /\ slot s0 (fs ++ [f]) s' r a /\
      (keeps s0 s -> keeps s0 s') /\ alike s s' /\ instances s' = instances s /\
      (forall gs r' a', a' <> a -> apart s a a' -> slot s0 gs s r' a' -> slot s0 gs s' r' a').
  Proof.
    intros s0 fs f s r a (o & Ho & Hge & Hk & Hr) Hok. unfold process_rule. rewrite Ho.
    assert (forall n, hits R (fr_kind r) f = Ok n -> is_ff (fr_kind r) = false ->
      exists s', (mkStore (update (objs s) a (mkObj (o_kind o) (o_min o) (o_count o + n) (o_array o)))
                          (arrays s) (instances s), @None exn) = (s', None) /\
      slot s0 (fs ++ [f]) s' r a /\ (keeps s0 s -> keeps s0 s') /\ alike s s' /\ instances s' = instances s /\
      (forall gs r' a', a' <> a -> apart s a a' -> slot s0 gs s r' a' -> slot s0 gs s' r' a')) as Hplain.
    { intros n Hn Hff. eexists. split; [reflexivity |].
      pose proof (nth_error_lt _ _ _ Ho) as Hlt. split; [| split; [| split; [| split]]].
      - eexists. cbn [objs arrays]. rewrite update_same by exact Hlt. split; [reflexivity |].
        cbn [o_kind o_min o_count o_array]. repeat (split; [solve [auto | congruence] |]).
        assert (o_min o = fr_min r /\ o_count o = total (fr_kind r) fs) as [Em Ec]
          by (destruct (fr_kind r); auto; discriminate).
        rewrite <- (total_snoc _ fs f n Hn) in * |- || idtac.
        assert (o_min o = fr_min r /\ (o_count o + n)%Z = total (fr_kind r) (fs ++ [f])) as Hgoal
          by (rewrite (total_snoc _ _ _ _ Hn); split; congruence).
        destruct (fr_kind r); auto; discriminate.
      - intros [K1 K2]. split; cbn [objs arrays]; [| auto].
        intros b p Hb. rewrite update_other; [auto |]. pose proof (nth_error_lt _ _ _ Hb). lia.
      - intros b p. cbn [objs]. destruct (Nat.eq_dec a b) as [<- | Hab].
        + rewrite update_same by exact Hlt. intros E; injection E as <-. exists o; auto.
        + rewrite update_other by exact Hab. eauto.
      - reflexivity.
      - intros gs r' a' Hne _ (o' & Ho' & Hrest). exists o'. cbn [objs arrays].
        rewrite update_other by auto. auto. }
    destruct (is_ff (fr_kind r)) eqn:Hff.
    - clear Hplain. rewrite Hk. destruct (fr_kind r) as [| | | | | | | | x i] eqn:K; try discriminate.
      destruct Hr as [Har Hnth].
      destruct (re_match R x (sf_name f)) as [m |] eqn:M.
      + eexists. split; [reflexivity |].
        rewrite (nth_error_nth _ _ [] Hnth).
        pose proof (nth_error_lt _ _ _ Hnth) as Hlt.
        split; [| split; [| split; [| split]]].
        * exists o. cbn [objs arrays]. repeat (split; [solve [auto | congruence] |]). rewrite K. split; [exact Har |].
          rewrite update_same by exact Hlt. unfold found. rewrite flat_map_app. cbn. now rewrite M.
        * intros [K1 K2]. split; cbn [objs arrays]; [auto |].
          intros j l Hj. rewrite update_other; [auto |]. pose proof (nth_error_lt _ _ _ Hj). lia.
        * intros b p E. exists p; auto.
        * reflexivity.
        * intros gs r' a' Hne Hap (o' & Ho' & Hge' & Hk' & Hr'). exists o'. cbn [objs arrays].
          repeat (split; [solve [auto | congruence] |]). destruct (fr_kind r') eqn:K'; auto.
          destruct Hr' as [Hr1 Hr2]. split; [exact Hr1 |]. rewrite update_other; [exact Hr2 |].
          apply (Hap o o'); auto; [now rewrite Hk | now rewrite Hk'].
      + eexists. split; [reflexivity |]. split; [| split; [| split; [| split]]]; auto.
        * exists o. repeat (split; [solve [auto | congruence] |]). rewrite K. split; [exact Har |].
          unfold found. rewrite flat_map_app. cbn. rewrite M, !app_nil_r. exact Hnth.
        * intros b p E. exists p; auto.
    - unfold ok_hits in Hok. destruct (hits R (fr_kind r) f) as [n |] eqn:Hn; [| discriminate].
      specialize (Hplain n eq_refl eq_refl). rewrite Hk in *.
      destruct (fr_kind r); try discriminate; rewrite Hn; exact Hplain.
  Qed.

  Lemma process_fail : forall s0 fs f s r a, slot s0 fs s r a -> ok_hits (fr_kind r) f = false ->
    process_rule R f a s = (s, Some NoMethodError).
  Proof.
    intros s0 fs f s r a (o & Ho & Hge & Hk & Hr) Hok. unfold process_rule. rewrite Ho, Hk.
    unfold ok_hits in Hok. destruct (hits R (fr_kind r) f) as [n | x] eqn:Hn; [discriminate |].
    pose proof (hits_raise _ _ _ Hn) as ->.
    destruct (fr_kind r); try (now rewrite Hn). discriminate.
  Qed.

  Lemma process_rules_spec : forall f s0 fs rs2 as2 rs1 as1 s,
    Forall2 (slot s0 (fs ++ [f]) s) rs1 as1 -> Forall2 (slot s0 fs s) rs2 as2 ->
    distinct s (as1 ++ as2) -> keeps s0 s ->
    exists s' x, process_rules R f as2 s = (s', x) /\ keeps s0 s' /\ instances s' = instances s /\
    if forallb (fun r => ok_hits (fr_kind r) f) rs2 then
      x = None /\ Forall2 (slot s0 (fs ++ [f]) s') (rs1 ++ rs2) (as1 ++ as2) /\ distinct s' (as1 ++ as2)
    else x = Some NoMethodError.
  Proof.
    intros f s0 fs rs2. induction rs2 as [| r rs2 IH]; intros as2 rs1 as1 s F1 F2 Hd Hk.
    - inversion F2; subst. exists s, None. cbn [process_rules forallb]. rewrite !app_nil_r in *. auto 6.
    - inversion F2 as [| r0 a rs0 as2' Hs Hrest]; subst. cbn [process_rules forallb].
      destruct (ok_hits (fr_kind r) f) eqn:Hok; cbn [andb].
      + destruct (process_one s0 fs f s r a Hs Hok) as (s1 & -> & Hs1 & Hk1 & Hal & Hi1 & Hoth).
        assert (forall b, In b (as1 ++ as2') -> b <> a /\ apart s a b) as Hothers.
        { destruct Hd as [Hnd Hap]. apply NoDup_remove in Hnd as [Hnd Hna].
          intros b Hb. assert (b <> a) by congruence. split; [assumption |].
          apply Hap; [apply in_or_app; right; now left | | congruence].
          apply in_app_iff in Hb. apply in_or_app. cbn [In]. tauto. }
        destruct (IH as2' (rs1 ++ [r]) (as1 ++ [a]) s1) as (s' & x & E & Hk' & Hi & Hres).
        { apply Forall2_app; [| constructor; [exact Hs1 | constructor]].
          eapply Forall2_impl_In; [| exact F1]. intros r' b Hb Hsl.
          destruct (Hothers b (in_or_app _ _ _ (or_introl Hb))). now apply Hoth. }
        { eapply Forall2_impl_In; [| exact Hrest]. intros r' b Hb Hsl.
          destruct (Hothers b (in_or_app _ _ _ (or_intror Hb))). now apply Hoth. }
        { rewrite <- app_assoc. eapply alike_distinct; [exact Hal | exact Hd]. }
        { auto. }
        rewrite <- !app_assoc in Hres. cbn [app] in Hres.
        exists s', x. rewrite Hi, Hi1. auto.
      + rewrite (process_fail s0 fs f s r a Hs Hok). exists s, (Some NoMethodError). auto.
  Qed.

  Lemma process_each_spec : forall fs2 fs1 s0 rs e s,
    Forall2 (slot s0 fs1 s) rs (e_rules e) -> distinct s (e_rules e) -> keeps s0 s ->
    e_counts e = fold_left add_breakdowns fs1 [] ->
    exists e' s' x, process_each R e fs2 s = (e', s', x) /\ keeps s0 s' /\ instances s' = instances s /\
    if forallb (fun f => forallb (fun r => ok_hits (fr_kind r) f) rs) fs2 then
      x = None /\ Forall2 (slot s0 (fs1 ++ fs2) s') rs (e_rules e) /\
      e' = mkEngine (e_definitions e) (e_rules e) (fold_left add_breakdowns (fs1 ++ fs2) [])
                    (e_memo e) (e_gestalts e)
    else x = Some NoMethodError.
  Proof.
    intros fs2. induction fs2 as [| f fs2 IH]; intros fs1 s0 rs e s F Hd Hk Hc; cbn [process_each forallb].
    - exists e, s, None. rewrite !app_nil_r, <- Hc. destruct e; auto 8.
    - unfold process, process_source_file.
      destruct (process_rules_spec f s0 fs1 rs (e_rules e) [] [] s) as (s1 & x & -> & Hk1 & Hi1 & Hres);
        auto. cbn [app] in Hres.
      destruct (forallb (fun r => ok_hits (fr_kind r) f) rs) eqn:Hok; cbn [andb].
      + destruct Hres as (-> & F1 & Hd1).
        set (e1 := mkEngine (e_definitions e) (e_rules e) (add_breakdowns (e_counts e) f) (e_memo e)
                            (e_gestalts e)).
        destruct (IH (fs1 ++ [f]) s0 rs e1 s1) as (e' & s' & x & -> & Hk' & Hi & Hres); auto.
        { cbn [e1 e_counts]. rewrite fold_left_app, Hc. reflexivity. }
        rewrite <- !app_assoc in Hres. exists e', s', x. rewrite Hi, Hi1. auto.
      + subst x. exists e, s1, (Some NoMethodError). auto.
  Qed.

  (** ** An analysis *)

  (** The classes hold the definitions [T]. *)
  Definition loaded (T : list (definition file_rule)) (all : list (definition nat)) (s : store) : Prop :=
    map frame_of T = map frame_of all /\ Forall2 (original s) (all_leaves T) (all_leaves all).

  Lemma load_spec : forall T, loaded T (fst (load T)) (snd (load T)).
  Proof.
    intros T. unfold load. destruct (build_all_mapM new_object T no_store) as (H1 & H2 & H3).
    split; [now rewrite H3 |]. rewrite H1, H2. clear.
    generalize no_store as s. generalize (all_leaves T) as l. clear.
    enough (forall l s, keeps s (snd (mapM new_object l s)) /\
              Forall2 (original (snd (mapM new_object l s))) l (fst (mapM new_object l s))) as H
      by (intros; apply H).
    induction l as [| r l IH]; intros s; cbn [mapM fst snd]; [split; [apply keeps_refl | constructor] |].
    unfold new_object at 1 3 5.
    match goal with |- context [mapM new_object l ?s1] => set (s1' := s1) end.
    destruct (IH s1') as [Hk HF]. destruct (mapM new_object l s1') as [l' s2]. cbn [fst snd] in *.
    assert (keeps s s1') as Hk1.
    { unfold s1'; split; cbn [objs arrays]; auto using nth_error_app_keep. }
    split; [eapply keeps_trans; eauto |]. constructor; [| exact HF].
    apply original_keeps with (s := s1'); [exact Hk |]. eexists. unfold s1'. cbn [objs arrays].
    rewrite nth_error_new. split; [reflexivity |]. cbn [o_kind o_min o_count o_array].
    repeat (split; [reflexivity |]). apply nth_error_new.
  Qed.

  Lemma loaded_keeps : forall T all s s', keeps s s' -> loaded T all s -> loaded T all s'.
  Proof.
    intros T all s s' Hk [H1 H2]. split; [exact H1 |].
    eapply Forall2_impl; [| exact H2]. intros; eapply original_keeps; eauto.
  Qed.

  Definition all_ok (T : list (definition file_rule)) (fs : list source_file) : bool :=
    forallb (fun f => forallb (fun r => ok_hits (fr_kind r) f) (all_leaves T)) fs.

  Theorem analyze_pure : forall T all s fs, loaded T all s ->
    exists s', keeps s s' /\ length (instances s') = length (instances s) + ffs (all_leaves T) /\
    analyze R all fs s =
      (if all_ok T fs then
         match passes_p (leaf_fr fs) (lang_of (fold_left add_breakdowns fs []))
                        (S (S (length T))) 0 T [] with
         | Some (_, gs) => Some (Ok gs)
         | None => None
         end
       else Some (Raised NoMethodError), s').
  Proof.
    intros T all s fs [Hf Ho]. unfold analyze, new_engine.
    destruct (build_all_mapM clone_object all s) as (H1 & H2 & H3).
    destruct (clone_many (all_leaves T) (all_leaves all) s Ho) as (Hk & Hs & Hd & Hi).
    destruct (build_all clone_object all s) as [ds s1]. cbn [fst snd] in *. subst s1.
    destruct (mapM clone_object (all_leaves all) s) as [l s1]. cbn [fst snd] in *.
    fold (all_leaves ds). rewrite H1.
    destruct (process_each_spec fs [] s (all_leaves T) (mkEngine ds l [] None []) s1)
      as (e' & s' & x & -> & Hk' & Hi' & Hres); auto.
    exists s'. split; [exact Hk' |]. split; [congruence |]. fold (all_ok T fs) in Hres.
    destruct (all_ok T fs).
    - destruct Hres as (-> & Hs' & ->). cbn [app] in *. f_equal. unfold calc_gestalts.
      cbn [e_definitions e_counts e_memo e_gestalts e_rules].
      assert (length ds = length T) as Hlen.
      { rewrite <- (map_length frame_of ds), H3, <- Hf, map_length. reflexivity. }
      rewrite Hlen. set (c := fold_left add_breakdowns fs []).
      pose proof (passes_shape (leaf_fr fs) (object_triggers s') c (S (S (length T))) 0 T ds None []) as Hps.
      assert (Forall2 (fun d d' => same_frame d d' /\
                Forall2 (fun r a => leaf_fr fs r = object_triggers s' a)
                        (leaves (d_rule d)) (leaves (d_rule d'))) T ds) as Hsim.
      { apply split_defs; [congruence |]. rewrite H1.
        eapply Forall2_impl; [| exact Hs']. intros r a Hsl. symmetry. eapply slot_leaf; eauto. }
      specialize (Hps Hsim). clear Hsim.
      pose proof (passes_pure (leaf_fr fs) c (S (S (length T))) 0 T None [] (or_introl eq_refl)) as Hpp.
      destruct (passes_p (leaf_fr fs) (lang_of c) (S (S (length T))) 0 T []) as [[ds' gs] |].
      + destruct Hpp as (m' & _ & E). rewrite E in Hps.
        destruct (passes (object_triggers s') c (S (S (length T))) 0 ds None []) as [[[[l1 m1] g] |] |];
          try tauto. destruct Hps as [_ ->]. reflexivity.
      + rewrite Hpp in Hps.
        destruct (passes (object_triggers s') c (S (S (length T))) 0 ds None []) as [[[[l1 m1] g] |] |];
          tauto.
    - subst x. reflexivity.
  Qed.
End Analysis.
