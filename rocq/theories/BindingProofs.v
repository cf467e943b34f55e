(** Proofs about the Ruby classes and the collector. *)
From Coq Require Import List Arith Bool Lia ZArith.
From Verif Require Import BindingModel BindingSpec.
Import ListNotations.

Lemma has_in : forall l n, has l n = true <-> In n l.
Proof.
  intros l n. unfold has. rewrite existsb_exists. split.
  - intros (x & Hx & E). apply Nat.eqb_eq in E. now subst.
  - intros H. exists n. split; [exact H | apply Nat.eqb_refl].
Qed.
Lemma has_false : forall l n, has l n = false <-> ~ In n l.
Proof. intros l n. rewrite <- has_in. destruct (has l n); split; congruence. Qed.

Lemma held_owner_in : forall w o, held_owner w o = true <-> exists x, In (x, Owner o) (env w).
Proof.
  intros w o. unfold held_owner. rewrite existsb_exists. split.
  - intros ([x v] & Hx & E). cbn in E. destruct v; try discriminate. apply Nat.eqb_eq in E. subst. eauto.
  - intros (x & H). exists (x, Owner o). split; [exact H | cbn; apply Nat.eqb_refl].
Qed.
Lemma held_strings_in : forall w s, held_strings w s = true <-> exists x, In (x, Strings s) (env w).
Proof.
  intros w s. unfold held_strings. rewrite existsb_exists. split.
  - intros ([x v] & Hx & E). cbn in E. destruct v; try discriminate. apply Nat.eqb_eq in E. subst. eauto.
  - intros (x & H). exists (x, Strings s). split; [exact H | cbn; apply Nat.eqb_refl].
Qed.

Lemma get_in : forall {A} (l : list (nat * A)) x v, get l x = Some v -> In (x, v) l.
Proof.
  intros A l x v. unfold get. destruct (find _ l) as [[y u] |] eqn:E; [| discriminate].
  intros H; injection H as <-. apply find_some in E as [H E]. cbn in E. apply Nat.eqb_eq in E. now subst.
Qed.
Lemma in_unset : forall {A} (l : list (nat * A)) x p, In p (unset l x) -> In p l.
Proof. intros A l x p H. now apply filter_In in H. Qed.
Lemma in_set : forall {A} (l : list (nat * A)) x v p, In p (set l x v) -> p = (x, v) \/ In p l.
Proof. intros A l x v p [<- | H]; [now left | right; eapply in_unset; eauto]. Qed.
Lemma get_unset_other : forall {A} (l : list (nat * A)) x y, x <> y -> get (unset l y) x = get l x.
Proof.
  intros A l x y Hne. unfold get, unset. induction l as [| [k u] l IH]; [reflexivity |]. cbn [filter find fst].
  destruct (Nat.eqb_spec k y) as [-> | Hk]; cbn [negb].
  - destruct (Nat.eqb_spec y x); [congruence |]. exact IH.
  - cbn [find fst]. destruct (Nat.eqb_spec k x); [reflexivity | exact IH].
Qed.
Lemma get_set_other : forall {A} (l : list (nat * A)) x y v, x <> y -> get (set l y v) x = get l x.
Proof.
  intros A l x y v Hne. unfold set. rewrite <- (get_unset_other l x y Hne). unfold get at 1. cbn [find fst].
  destruct (Nat.eqb_spec y x); [congruence | reflexivity].
Qed.

(** * Well-formed worlds *)

Definition owner_ok (w : world) (v : value) : Prop :=
  match v with
  | Owner o | Part o => o < length (owners w)
  | Inside o f => exists fs, nth_error (owners w) o = Some (true, fs) /\ In f fs
  | Forever => True
  | Strings s => s < strings w
  end.

Record wf (w : world) : Prop := mkWf {
  wf_env : forall x v, In (x, v) (env w) -> owner_ok w v;
  wf_names : forall f s, In (f, s) (names w) -> s < strings w;
  wf_files : forall o b fs f, nth_error (owners w) o = Some (b, fs) -> In f fs -> f < files w;
  wf_apart : forall o o' b fs b' fs' f, nth_error (owners w) o = Some (b, fs) ->
    nth_error (owners w) o' = Some (b', fs') -> In f fs -> In f fs' -> o = o' }.

Lemma wf_start : wf start.
Proof. split; cbn; try tauto; intros [| o] *; cbn; discriminate. Qed.

Lemma nth_error_lt : forall {A} (l : list A) n x, nth_error l n = Some x -> n < length l.
Proof. intros A l n x H. apply nth_error_Some. congruence. Qed.

Lemma nth_error_snoc : forall {A} (l : list A) (x : A) n y, nth_error (l ++ [x]) n = Some y ->
  (n < length l /\ nth_error l n = Some y) \/ (n = length l /\ y = x).
Proof.
  intros A l x n y H. destruct (Nat.lt_ge_cases n (length l)) as [Hn | Hn].
  - left. split; [exact Hn |]. now rewrite nth_error_app1 in H.
  - right. rewrite nth_error_app2 in H by exact Hn. destruct (n - length l) eqn:E.
    + cbn in H. injection H as <-. split; [lia | reflexivity].
    + cbn in H. destruct n0; discriminate.
Qed.

Lemma nth_replace : forall {A} (l : list A) o x n, o < length l ->
  nth_error (replace l o x) n = if n =? o then Some x else nth_error l n.
Proof.
  intros A l. induction l as [| y l IH]; intros o x n Ho; [cbn in Ho; lia |]. unfold replace.
  destruct o as [| o].
  - cbn. destruct n; reflexivity.
  - cbn [firstn skipn app]. destruct n as [| n]; [reflexivity |]. cbn [nth_error].
    cbn in Ho. specialize (IH o x n ltac:(lia)). unfold replace in IH. exact IH.
Qed.
Lemma length_replace : forall {A} (l : list A) o x, o < length l -> length (replace l o x) = length l.
Proof.
  intros A l o x H. unfold replace. rewrite app_length, firstn_length_le by lia. cbn [length].
  rewrite skipn_length. lia.
Qed.

(** Changing the variables only. *)
Lemma wf_with_env : forall w e, wf w -> (forall x v, In (x, v) e -> owner_ok w v) -> wf (with_env w e).
Proof. intros w e [H1 H2 H3 H4] He. split; cbn; auto. Qed.
Lemma wf_assign : forall w x v, wf w -> owner_ok w v -> wf (assign w x v).
Proof.
  intros w x v H Hv. apply wf_with_env; [exact H |]. intros y u Hy.
  apply in_set in Hy as [E | Hy]; [injection E as -> ->; exact Hv | eapply wf_env; eauto].
Qed.
Lemma wf_unset : forall w x, wf w -> wf (with_env w (unset (env w) x)).
Proof. intros w x H. apply wf_with_env; [exact H |]. intros y u Hy. apply in_unset in Hy. eapply wf_env; eauto. Qed.

Lemma list_of_spec : forall w v o fs, list_of w v = Some (o, fs) -> v = Owner o /\ nth_error (owners w) o = Some (true, fs).
Proof.
  intros w v o fs. destruct v; cbn; try discriminate.
  destruct (nth_error (owners w) o0) as [[[] l] |] eqn:E; try discriminate.
  intros H; injection H as <- <-. auto.
Qed.
Lemma file_of_spec : forall w v o f, owner_ok w v -> file_of w v = Some (o, f) ->
  (v = Owner o /\ nth_error (owners w) o = Some (false, [f])) \/
  (v = Inside o f /\ exists fs, nth_error (owners w) o = Some (true, fs) /\ In f fs).
Proof.
  intros w v o f Hv. destruct v; cbn; try discriminate.
  - destruct (nth_error (owners w) o0) as [[[] l] |] eqn:E; try discriminate.
    destruct l as [| g [|]]; try discriminate. intros H; injection H as <- <-. auto.
  - intros H; injection H as <- <-. auto.
Qed.
Lemma file_of_lt : forall w v o f, owner_ok w v -> file_of w v = Some (o, f) -> o < length (owners w).
Proof.
  intros w v o f Hv H. apply (file_of_spec w v o f Hv) in H as [[_ H] | (_ & fs & H & _)]; eapply nth_error_lt; eauto.
Qed.

Lemma wf_append : forall w x b fs n, wf w -> (forall f, In f fs -> f = files w) -> (fs = [] \/ n = S (files w)) -> files w <= n ->
  wf (mkWorld (set (env w) x (Owner (length (owners w)))) (owners w ++ [(b, fs)]) (names w) n (strings w)).
Proof.
  intros w x b fs n [H1 H2 H3 H4] Hfs Hn Hle. split; cbn [env owners names files strings].
  - intros y v Hy. apply in_set in Hy as [E | Hy].
    + injection E as -> ->. cbn. rewrite app_length. cbn. lia.
    + specialize (H1 y v Hy). destruct v; cbn in *; try rewrite app_length; try (cbn; lia); auto.
      destruct H1 as (l & E & Hin). exists l. split; [| exact Hin].
      rewrite nth_error_app1; [exact E | eapply nth_error_lt; eauto].
  - exact H2.
  - intros o b' l f E Hin. apply nth_error_snoc in E as [[_ E] | [_ E]].
    + specialize (H3 _ _ _ _ E Hin). lia.
    + injection E as -> ->. rewrite (Hfs f Hin). destruct Hn as [-> | ->]; [destruct Hin | lia].
  - intros o o' b1 l1 b2 l2 f E1 E2 I1 I2.
    apply nth_error_snoc in E1 as [[_ E1] | [-> E1]]; apply nth_error_snoc in E2 as [[_ E2] | [-> E2]]; auto.
    + eapply H4; eauto.
    + injection E2 as -> ->. pose proof (H3 _ _ _ _ E1 I1). rewrite (Hfs f I2) in *. lia.
    + injection E1 as -> ->. pose proof (H3 _ _ _ _ E2 I2). rewrite (Hfs f I1) in *. lia.
Qed.

Lemma step_wf : forall w a ns w', wf w -> step w a = Some (ns, w') -> wf w'.
Proof.
  intros w a ns w' Hw. destruct a; cbn [step]; unfold opt, try.
  - intros E; injection E as <- <-. apply wf_append; auto; cbn; intros; try tauto. intuition.
  - intros E; injection E as <- <-. apply wf_append; auto. cbn; tauto.
  - intros E; injection E as <- <-. destruct Hw as [H1 H2 H3 H4]. split; cbn [env owners names files strings]; auto.
    + intros y v Hy. apply in_set in Hy as [E | Hy]; [injection E as -> ->; cbn; lia |].
      specialize (H1 y v Hy). destruct v; cbn in *; auto; lia.
    + intros f s Hf. specialize (H2 f s Hf). lia.
  - destruct (get (env w) y) as [v |] eqn:E; [| discriminate]. intros X; injection X as <- <-.
    apply wf_assign; [exact Hw |]. eapply wf_env; eauto using get_in.
  - destruct (get (env w) l) as [v |] eqn:E; [| discriminate].
    destruct (list_of w v) as [[o fs] |] eqn:El; [| discriminate]. intros X; injection X as <- <-.
    apply list_of_spec in El as [-> El]. pose proof (nth_error_lt _ _ _ El) as Hlt.
    destruct Hw as [H1 H2 H3 H4]. split; cbn [env owners names files strings].
    + intros y v Hy. specialize (H1 y v Hy). destruct v; cbn [owner_ok owners strings] in H1 |- *; try rewrite length_replace by exact Hlt; auto.
      destruct H1 as (m & Em & Hin). rewrite nth_replace by exact Hlt.
      destruct (Nat.eqb_spec o0 o) as [-> |]; [| eauto].
      exists (fs ++ [files w]). split; [reflexivity |]. apply in_or_app. left. congruence.
    + exact H2.
    + intros p b m f Em Hin. rewrite nth_replace in Em by exact Hlt. destruct (Nat.eqb_spec p o) as [-> |].
      * injection Em as <- <-. apply in_app_iff in Hin as [Hin | [<- | []]]; [specialize (H3 _ _ _ _ El Hin) |]; lia.
      * specialize (H3 _ _ _ _ Em Hin). lia.
    + assert (forall p b m f, nth_error (replace (owners w) o (true, fs ++ [files w])) p = Some (b, m) -> In f m ->
                (f = files w /\ p = o) \/ exists b' m', nth_error (owners w) p = Some (b', m') /\ In f m') as Hx.
      { intros p b m f Em Hin. rewrite nth_replace in Em by exact Hlt. destruct (Nat.eqb_spec p o) as [-> |].
        - injection Em as <- <-. apply in_app_iff in Hin as [Hin | [<- | []]]; [right; eauto | left; auto].
        - right; eauto. }
      intros p q b1 l1 b2 l2 f E1 E2 I1 I2.
      destruct (Hx _ _ _ _ E1 I1) as [[-> ->] | (c1 & m1 & X1 & Y1)];
        destruct (Hx _ _ _ _ E2 I2) as [[Z1 Z2] | (c2 & m2 & X2 & Y2)]; auto.
      * specialize (H3 _ _ _ _ X2 Y2). lia.
      * specialize (H3 _ _ _ _ X1 Y1). lia.
      * eapply H4; eauto.
  - destruct (get (env w) l) as [v |] eqn:E; [| discriminate].
    destruct (list_of w v) as [[o fs] |] eqn:El; [| discriminate]. intros X; injection X as <- <-.
    apply list_of_spec in El as [-> El]. destruct (nth_error fs i) as [f |] eqn:En; [| now apply wf_unset].
    apply wf_assign; [exact Hw |]. cbn. exists fs. split; [exact El | eapply nth_error_In; eauto].
  - destruct (get (env w) y) as [v |] eqn:E; [| discriminate].
    destruct (file_of w v) as [[o f] |] eqn:Ef; [| discriminate]. intros X; injection X as <- <-.
    apply wf_assign; [exact Hw |]. cbn. eapply file_of_lt; eauto. eapply wf_env; eauto using get_in.
  - destruct (get (env w) x) as [v |] eqn:E; [| discriminate]. intros X; injection X as <- <-. exact Hw.
  - destruct (get (env w) y) as [v |] eqn:E; [| discriminate]. destruct (get (env w) z) as [v' |] eqn:E'; [| discriminate].
    destruct (file_of w v) as [[o f] |] eqn:Ef; [| discriminate]. destruct (file_of w v') as [[o' f'] |]; [| discriminate].
    intros X; injection X as <- <-. apply wf_assign; [exact Hw | exact I].
  - destruct (get (env w) l) as [v |] eqn:E; [| discriminate].
    destruct (list_of w v) as [[o fs] |] eqn:El; [| discriminate]. intros X; injection X as <- <-.
    apply wf_assign; [exact Hw | exact I].
  - destruct (get (env w) y) as [v |] eqn:E; [| discriminate]. destruct (get (env w) s) as [v' |] eqn:E'; [| discriminate].
    destruct (file_of w v) as [[o f] |] eqn:Ef; [| discriminate]. destruct v'; try discriminate.
    intros X; injection X as <- <-. destruct Hw as [H1 H2 H3 H4]. split; cbn [env owners names files strings]; auto.
    intros g t Hg. apply in_set in Hg as [X | Hg]; [| eauto]. injection X as -> ->.
    exact (H1 _ _ (get_in _ _ _ E')).
  - destruct (get (env w) y) as [v |] eqn:E; [| discriminate].
    destruct (file_of w v) as [[o f] |] eqn:Ef; [| discriminate]. intros X; injection X as <- <-. exact Hw.
  - intros X; injection X as <- <-. now apply wf_unset.
Qed.

(** * What is not held is never held again *)

Definition fresh_or_old (w w' : world) : Prop :=
  (forall x o, In (x, Owner o) (env w') -> (exists y, In (y, Owner o) (env w)) \/ length (owners w) <= o) /\
  (forall x s, In (x, Strings s) (env w') -> (exists y, In (y, Strings s) (env w)) \/ strings w <= s) /\
  length (owners w) <= length (owners w') /\ strings w <= strings w'.

Lemma fresh_assign : forall w w' x v,
  env w' = set (env w) x v ->
  (forall o, v = Owner o -> (exists y, In (y, Owner o) (env w)) \/ length (owners w) <= o) ->
  (forall s, v = Strings s -> (exists y, In (y, Strings s) (env w)) \/ strings w <= s) ->
  length (owners w) <= length (owners w') -> strings w <= strings w' -> fresh_or_old w w'.
Proof.
  intros w w' x v He Ho Hs H1 H2. repeat split; auto.
  - intros y o Hy. rewrite He in Hy. apply in_set in Hy as [E | Hy]; [injection E as _ <-; auto | left; eauto].
  - intros y o Hy. rewrite He in Hy. apply in_set in Hy as [E | Hy]; [injection E as _ <-; auto | left; eauto].
Qed.
Lemma fresh_same : forall w w', (forall p, In p (env w') -> In p (env w)) ->
  length (owners w) <= length (owners w') -> strings w <= strings w' -> fresh_or_old w w'.
Proof. intros w w' H H1 H2. repeat split; auto; intros x o Hx; left; eauto. Qed.

Lemma step_fresh : forall w a ns w', step w a = Some (ns, w') -> fresh_or_old w w'.
Proof.
  intros w a ns w'. destruct a; cbn [step]; unfold opt, try.
  - intros E; injection E as <- <-. eapply fresh_assign; cbn; try reflexivity; try discriminate; try lia.
    + intros o E; injection E as <-. right; lia.
    + rewrite app_length; lia.
  - intros E; injection E as <- <-. eapply fresh_assign; cbn; try reflexivity; try discriminate; try lia.
    + intros o E; injection E as <-. right; lia.
    + rewrite app_length; lia.
  - intros E; injection E as <- <-. eapply fresh_assign; cbn; try reflexivity; try discriminate; try lia.
    intros o E; injection E as <-. right; lia.
  - destruct (get (env w) y) as [v |] eqn:E; [| discriminate]. intros X; injection X as <- <-.
    apply get_in in E. eapply fresh_assign; cbn; try reflexivity; try lia; intros o ->; left; eauto.
  - destruct (get (env w) l) as [v |] eqn:E; [| discriminate].
    destruct (list_of w v) as [[o fs] |] eqn:El; [| discriminate]. intros X; injection X as <- <-.
    apply list_of_spec in El as [-> El]. apply fresh_same; cbn [env owners strings]; auto.
    pose proof (length_replace (owners w) o (true, fs ++ [files w]) (nth_error_lt _ _ _ El)) as Hl.
    lia.
  - destruct (get (env w) l) as [v |] eqn:E; [| discriminate].
    destruct (list_of w v) as [[o fs] |] eqn:El; [| discriminate]. intros X; injection X as <- <-.
    destruct (nth_error fs i) as [f |].
    + eapply fresh_assign; cbn; try reflexivity; try discriminate; lia.
    + apply fresh_same; cbn; auto. intros p. apply in_unset.
  - destruct (get (env w) y) as [v |] eqn:E; [| discriminate].
    destruct (file_of w v) as [[o f] |] eqn:Ef; [| discriminate]. intros X; injection X as <- <-.
    eapply fresh_assign; cbn; try reflexivity; try discriminate; lia.
  - destruct (get (env w) x) as [v |] eqn:E; [| discriminate]. intros X; injection X as <- <-. now apply fresh_same.
  - destruct (get (env w) y) as [v |] eqn:E; [| discriminate]. destruct (get (env w) z) as [v' |] eqn:E'; [| discriminate].
    destruct (file_of w v) as [[o f] |] eqn:Ef; [| discriminate]. destruct (file_of w v') as [[o' f'] |]; [| discriminate].
    intros X; injection X as <- <-. eapply fresh_assign; cbn; try reflexivity; try discriminate; lia.
  - destruct (get (env w) l) as [v |] eqn:E; [| discriminate].
    destruct (list_of w v) as [[o fs] |] eqn:El; [| discriminate]. intros X; injection X as <- <-.
    eapply fresh_assign; cbn; try reflexivity; try discriminate; lia.
  - destruct (get (env w) y) as [v |] eqn:E; [| discriminate]. destruct (get (env w) s) as [v' |] eqn:E'; [| discriminate].
    destruct (file_of w v) as [[o f] |] eqn:Ef; [| discriminate]. destruct v'; try discriminate.
    intros X; injection X as <- <-. apply fresh_same; cbn; auto.
  - destruct (get (env w) y) as [v |] eqn:E; [| discriminate].
    destruct (file_of w v) as [[o f] |] eqn:Ef; [| discriminate]. intros X; injection X as <- <-. now apply fresh_same.
  - intros X; injection X as <- <-. apply fresh_same; cbn; auto. intros p. apply in_unset.
Qed.

(** * What operations reach *)

Lemma file_of_stands : forall w x v o f, get (env w) x = Some v -> file_of w v = Some (o, f) -> stands_for w x o f.
Proof.
  intros w x v o f Hv. destruct v; cbn; try discriminate.
  - destruct (nth_error (owners w) o0) as [[[] l] |] eqn:E; try discriminate.
    destruct l as [| g [|]]; try discriminate. intros H; injection H as <- <-. now apply stands_new.
  - intros H; injection H as <- <-. now apply stands_listed.
Qed.
Lemma stands_file_of : forall w x v o f, get (env w) x = Some v -> stands_for w x o f -> file_of w v = Some (o, f).
Proof.
  intros w x v o f Hv [o' f' H E | o' f' H]; rewrite Hv in H; injection H as ->; cbn; [now rewrite E | reflexivity].
Qed.
Lemma list_of_lists : forall w x v o fs, get (env w) x = Some v -> list_of w v = Some (o, fs) -> lists w x o fs.
Proof. intros w x v o fs Hv H. apply list_of_spec in H as [-> H]. now apply lists_new. Qed.
Lemma lists_list_of : forall w x v o fs, get (env w) x = Some v -> lists w x o fs -> list_of w v = Some (o, fs).
Proof. intros w x v o fs Hv [o' fs' H E]. rewrite Hv in H. injection H as ->. cbn. now rewrite E. Qed.
Lemma in_names_if : forall w looks f n, In n (names_if w looks f) <->
  looks = true /\ exists s, get (names w) f = Some s /\ n = CharactersOf s.
Proof.
  intros w looks f n. unfold names_if. destruct looks; [| cbn; intuition discriminate].
  destruct (get (names w) f) as [s |]; cbn; split.
  - intros [<- | []]. eauto.
  - intros (_ & t & E & ->). injection E as ->. now left.
  - intros [].
  - intros (_ & t & E & _). discriminate.
Qed.

Ltac same_file := repeat match goal with
  | [ Hv : get (env ?w) ?x = Some ?v, H : stands_for ?w ?x ?o ?f |- _ ] =>
      apply (stands_file_of w x v o f Hv) in H
  | [ Hv : get (env ?w) ?x = Some ?v, H : lists ?w ?x ?o ?f |- _ ] =>
      apply (lists_list_of w x v o f Hv) in H
  end.

Lemma step_reach : forall w a ns w' n, step w a = Some (ns, w') -> (In n ns <-> reach w a n).
Proof.
  intros w a ns w' n. destruct a; cbn [step]; unfold opt, try.
  1,2,3,13: intros E; injection E as <- <-; split; [intros [] | intros H; inversion H].
  - destruct (get (env w) y) as [v |] eqn:E; [| discriminate]. intros X; injection X as <- <-.
    split; [intros [] | intros H; inversion H].
  - destruct (get (env w) l) as [v |] eqn:E; [| discriminate].
    destruct (list_of w v) as [[o fs] |] eqn:El; [| discriminate]. intros X; injection X as <- <-. split.
    + intros [<- | []]. eapply reach_add, list_of_lists; eauto.
    + intros H. inversion H; subst; same_file. left. congruence.
  - destruct (get (env w) l) as [v |] eqn:E; [| discriminate].
    destruct (list_of w v) as [[o fs] |] eqn:El; [| discriminate]. intros X; injection X as <- <-. split.
    + intros [<- | []]. eapply reach_item, list_of_lists; eauto.
    + intros H. inversion H; subst; same_file. left. congruence.
  - destruct (get (env w) y) as [v |] eqn:E; [| discriminate].
    destruct (file_of w v) as [[o f] |] eqn:Ef; [| discriminate]. intros X; injection X as <- <-.
    pose proof (file_of_stands _ _ _ _ _ E Ef) as Hs. split.
    + intros [<- | H]; [now eapply reach_parts; eauto |].
      apply in_names_if in H as (-> & s & Hn & ->). eapply reach_parts_names; eauto.
    + intros H. inversion H; subst; same_file; [left; congruence |]. right. apply in_names_if.
      split; [reflexivity |]. eexists; split; [| reflexivity]. congruence.
  - destruct (get (env w) x) as [v |] eqn:E; [| discriminate]. intros X; injection X as <- <-. split.
    + intros Hn. destruct v; cbn in Hn; try tauto; destruct Hn as [<- | []];
        [now apply reach_use_owner | eapply reach_use_inside; eauto | now apply reach_use_part].
    + intros H. inversion H; subst; match goal with [ X : get _ _ = Some _ |- _ ] => rewrite X in E; injection E as <- end; now left.
  - destruct (get (env w) y) as [v |] eqn:E; [| discriminate]. destruct (get (env w) z) as [v' |] eqn:E'; [| discriminate].
    destruct (file_of w v) as [[o f] |] eqn:Ef; [| discriminate].
    destruct (file_of w v') as [[o' f'] |] eqn:Ef'; [| discriminate]. intros X; injection X as <- <-.
    pose proof (file_of_stands _ _ _ _ _ E Ef) as Hs. pose proof (file_of_stands _ _ _ _ _ E' Ef') as Hs'. split.
    + intros [<- | [<- | H]]; [exact (reach_diff w x y z looks y o f (or_introl eq_refl) Hs) |
                                exact (reach_diff w x y z looks z o' f' (or_intror eq_refl) Hs') |].
      apply in_app_iff in H as [H | H]; apply in_names_if in H as (-> & s & Hn & ->);
        [exact (reach_diff_names w x y z y o f s (or_introl eq_refl) Hs Hn) |
         exact (reach_diff_names w x y z z o' f' s (or_intror eq_refl) Hs' Hn)].
    + intros H. inversion H; subst;
        match goal with [ X : _ \/ _ |- _ ] => destruct X as [-> | ->] end; same_file.
      * left. congruence.
      * right. left. congruence.
      * right. right. apply in_or_app. left. apply in_names_if. split; [reflexivity |].
        eexists; split; [| reflexivity]. congruence.
      * right. right. apply in_or_app. right. apply in_names_if. split; [reflexivity |].
        eexists; split; [| reflexivity]. congruence.
  - destruct (get (env w) l) as [v |] eqn:E; [| discriminate].
    destruct (list_of w v) as [[o fs] |] eqn:El; [| discriminate]. intros X; injection X as <- <-.
    pose proof (list_of_lists _ _ _ _ _ E El) as Hl. split.
    + intros [<- | H]; [eapply reach_analyze; eauto |]. apply in_flat_map in H as (f & Hf & H).
      apply in_names_if in H as (-> & s & Hn & ->). eapply reach_analyze_names; eauto.
    + intros H. inversion H; subst; same_file; [left; congruence |]. right. apply in_flat_map.
      exists f. split; [congruence |]. apply in_names_if. eauto.
  - destruct (get (env w) y) as [v |] eqn:E; [| discriminate]. destruct (get (env w) s) as [v' |] eqn:E'; [| discriminate].
    destruct (file_of w v) as [[o f] |] eqn:Ef; [| discriminate]. destruct v'; try discriminate.
    intros X; injection X as <- <-. pose proof (file_of_stands _ _ _ _ _ E Ef) as Hs. split.
    + intros [<- | []]. eapply reach_set; eauto.
    + intros H. inversion H; subst; same_file. left. congruence.
  - destruct (get (env w) y) as [v |] eqn:E; [| discriminate].
    destruct (file_of w v) as [[o f] |] eqn:Ef; [| discriminate]. intros X; injection X as <- <-.
    pose proof (file_of_stands _ _ _ _ _ E Ef) as Hs. split.
    + intros [<- | H]; [eapply reach_filenames; eauto |].
      destruct (get (names w) f) as [s |] eqn:En; destruct H as [<- | []].
      * eapply reach_filenames_set; eauto.
      * eapply reach_filenames_unset; eauto.
    + intros H. inversion H; subst; same_file; [left; congruence | |];
        rewrite Ef in *; match goal with [ X : Some _ = Some _ |- _ ] => injection X as <- <- end;
        match goal with [ X : get (names _) _ = _ |- _ ] => rewrite X end; right; now left.
Qed.

(** * Safety *)

(** What is gone exists no more in any variable. *)
Definition lost (w : world) (g : gone) : Prop :=
  (forall o, In o (g_owners g) -> o < length (owners w) /\ forall x, ~ In (x, Owner o) (env w)) /\
  (forall s, In s (g_strings g) -> s < strings w /\ forall x, ~ In (x, Strings s) (env w)).

Lemma collect_lost : forall w p g, lost w g -> lost w (collect w p g).
Proof.
  intros w p g [H1 H2]. split; cbn [collect g_owners g_strings].
  - intros o Ho. apply in_app_iff in Ho as [Ho | Ho]; [auto |].
    apply filter_In in Ho as [Ho Hc]. apply in_seq in Ho. split; [lia |]. intros x Hx.
    assert (held_owner w o = true) as Hh by (apply held_owner_in; eauto). rewrite Hh, andb_false_r in Hc. discriminate.
  - intros o Ho. apply in_app_iff in Ho as [Ho | Ho]; [auto |].
    apply filter_In in Ho as [Ho Hc]. apply in_seq in Ho. split; [lia |]. intros x Hx.
    assert (held_strings w o = true) as Hh by (apply held_strings_in; eauto). rewrite Hh, andb_false_r in Hc. discriminate.
Qed.

Lemma step_lost : forall w a ns w' g, step w a = Some (ns, w') -> lost w g -> lost w' g.
Proof.
  intros w a ns w' g Hs [H1 H2]. destruct (step_fresh w a ns w' Hs) as (F1 & F2 & F3 & F4). split.
  - intros o Ho. destruct (H1 o Ho) as [Hl Hn]. split; [lia |]. intros x Hx.
    destruct (F1 x o Hx) as [(y & Hy) | Hge]; [eapply Hn; eauto | lia].
  - intros o Ho. destruct (H2 o Ho) as [Hl Hn]. split; [lia |]. intros x Hx.
    destruct (F2 x o Hx) as [(y & Hy) | Hge]; [eapply Hn; eauto | lia].
Qed.

Lemma kept_not_missing : forall w g n, lost w g -> kept w n -> missing g n = false.
Proof.
  intros w g n [H1 H2]. destruct n; cbn; [| | tauto].
  - intros (x & Hx). apply has_false. intros Hin. destruct (H1 o Hin) as [_ Hn]. eapply Hn; eauto.
  - intros (x & Hx). apply has_false. intros Hin. destruct (H2 s Hin) as [_ Hn]. eapply Hn; eauto.
Qed.

Lemma careful_safe : forall schedule p i w g, lost w g -> careful w p -> run schedule i w g p <> Crash.
Proof.
  intros schedule p. induction p as [| a p IH]; intros i w g Hl; cbn [run careful]; [discriminate |].
  destruct (step w a) as [[ns w'] |] eqn:E; [| discriminate]. intros [Hk Hc].
  pose proof (collect_lost w (schedule i) g Hl) as Hl'.
  destruct (existsb (missing (collect w (schedule i) g)) ns) eqn:Ex.
  - exfalso. apply existsb_exists in Ex as (n & Hn & Hm).
    rewrite (kept_not_missing w _ n Hl' (Hk n (proj1 (step_reach _ _ _ _ n E) Hn))) in Hm. discriminate.
  - apply IH; [eapply step_lost; eauto | exact Hc].
Qed.

Lemma lost_start : lost start nothing_gone.
Proof. split; cbn; tauto. Qed.

(** * The other way: the worst collector *)

Definition need_ok (w : world) (n : need) : Prop :=
  match n with
  | MemoryOf o => o < length (owners w)
  | CharactersOf s => s < strings w
  | NullPointer => True
  end.

Lemma names_if_ok : forall w looks f n, wf w -> In n (names_if w looks f) -> need_ok w n.
Proof.
  intros w looks f n Hw. unfold names_if. destruct looks; [| intros []].
  destruct (get (names w) f) as [s |] eqn:E; [| intros []]. intros [<- | []]. cbn.
  eapply wf_names; eauto using get_in.
Qed.

Lemma step_needs : forall w a ns w' n, wf w -> step w a = Some (ns, w') -> In n ns -> need_ok w n.
Proof.
  intros w a ns w' n Hw. destruct a; cbn [step]; unfold opt, try.
  1,2,3,13: intros E; injection E as <- <-; intros [].
  - destruct (get (env w) y) as [v |] eqn:E; [| discriminate]. intros X; injection X as <- <-. intros [].
  - destruct (get (env w) l) as [v |] eqn:E; [| discriminate].
    destruct (list_of w v) as [[o fs] |] eqn:El; [| discriminate]. intros X; injection X as <- <-.
    apply list_of_spec in El as [-> El]. intros [<- | []]. eapply nth_error_lt; eauto.
  - destruct (get (env w) l) as [v |] eqn:E; [| discriminate].
    destruct (list_of w v) as [[o fs] |] eqn:El; [| discriminate]. intros X; injection X as <- <-.
    apply list_of_spec in El as [-> El]. intros [<- | []]. eapply nth_error_lt; eauto.
  - destruct (get (env w) y) as [v |] eqn:E; [| discriminate].
    destruct (file_of w v) as [[o f] |] eqn:Ef; [| discriminate]. intros X; injection X as <- <-.
    intros [<- | Hn]; [| eapply names_if_ok; eauto].
    eapply file_of_lt; eauto. eapply wf_env; eauto using get_in.
  - destruct (get (env w) x) as [v |] eqn:E; [| discriminate]. intros X; injection X as <- <-.
    apply get_in in E. apply (wf_env w Hw) in E.
    destruct v; cbn in E |- *; intros Hn; try (destruct Hn as [<- | []]; cbn); try tauto.
    destruct E as (fs & E & _). eapply nth_error_lt; eauto.
  - destruct (get (env w) y) as [v |] eqn:E; [| discriminate]. destruct (get (env w) z) as [v' |] eqn:E'; [| discriminate].
    destruct (file_of w v) as [[o f] |] eqn:Ef; [| discriminate].
    destruct (file_of w v') as [[o' f'] |] eqn:Ef'; [| discriminate].
    intros X; injection X as <- <-. intros [<- | [<- | Hn]].
    + eapply file_of_lt; eauto. eapply wf_env; eauto using get_in.
    + eapply file_of_lt; eauto. eapply wf_env; eauto using get_in.
    + apply in_app_iff in Hn as [Hn | Hn]; eapply names_if_ok; eauto.
  - destruct (get (env w) l) as [v |] eqn:E; [| discriminate].
    destruct (list_of w v) as [[o fs] |] eqn:El; [| discriminate]. intros X; injection X as <- <-.
    apply list_of_spec in El as [-> El]. intros [<- | Hn]; [eapply nth_error_lt; eauto |].
    apply in_flat_map in Hn as (f & _ & Hn). eapply names_if_ok; eauto.
  - destruct (get (env w) y) as [v |] eqn:E; [| discriminate]. destruct (get (env w) s) as [v' |] eqn:E'; [| discriminate].
    destruct (file_of w v) as [[o f] |] eqn:Ef; [| discriminate]. destruct v'; try discriminate.
    intros X; injection X as <- <-. intros [<- | []]. eapply file_of_lt; eauto. eapply wf_env; eauto using get_in.
  - destruct (get (env w) y) as [v |] eqn:E; [| discriminate].
    destruct (file_of w v) as [[o f] |] eqn:Ef; [| discriminate]. intros X; injection X as <- <-.
    intros [<- | Hn]; [eapply file_of_lt; eauto; eapply wf_env; eauto using get_in |].
    destruct (get (names w) f) as [s |] eqn:En; destruct Hn as [<- | []]; cbn; [| exact I].
    eapply wf_names; eauto using get_in.
Qed.

Lemma collected : forall w g n, need_ok w n -> missing (collect w everything g) n = false -> kept w n.
Proof.
  intros w g n Hok. destruct n; cbn; [| | discriminate].
  - intros H. apply has_false in H. apply held_owner_in.
    destruct (held_owner w o) eqn:E; [reflexivity |]. exfalso. apply H.
    destruct (has (g_owners g) o) eqn:G; [apply in_or_app; left; now apply has_in |].
    apply in_or_app. right. apply filter_In. split; [apply in_seq; cbn in Hok; lia |]. now rewrite E, G.
  - intros H. apply has_false in H. apply held_strings_in.
    destruct (held_strings w s) eqn:E; [reflexivity |]. exfalso. apply H.
    destruct (has (g_strings g) s) eqn:G; [apply in_or_app; left; now apply has_in |].
    apply in_or_app. right. apply filter_In. split; [apply in_seq; cbn in Hok; lia |]. now rewrite E, G.
Qed.

Lemma eager_careful : forall p i w g, wf w ->
  run (fun _ => everything) i w g p <> Crash -> careful w p.
Proof.
  induction p as [| a p IH]; intros i w g Hw; cbn [run careful]; [tauto |].
  destruct (step w a) as [[ns w'] |] eqn:E; [| tauto].
  destruct (existsb (missing (collect w everything g)) ns) eqn:Ex; [congruence |]. intros H. split.
  - intros n Hn. apply (step_reach _ _ _ _ n E) in Hn. apply (collected w g n); [eapply step_needs; eauto |].
    destruct (missing _ n) eqn:M; [| reflexivity].
    assert (existsb (missing (collect w everything g)) ns = true) as X by (apply existsb_exists; eauto). congruence.
  - eapply IH; [eapply step_wf; eauto | exact H].
Qed.

(** * Blocks *)

(** What is gone cannot be given filenames. *)
Lemma frees_same : forall w a ns w' g o, wf w -> lost w g -> step w a = Some (ns, w') -> In o (g_owners g) ->
  frees w' o = frees w o.
Proof.
  intros w a ns w' g o Hw [Hl _] Hs Ho. destruct (Hl o Ho) as [Hlt Hn].
  assert (forall e own' n s', nth_error own' o = nth_error (owners w) o ->
            frees (mkWorld e own' (names w) n s') o = frees w o) as Hsame.
  { intros e own' n s' E. unfold frees. cbn [owners names]. now rewrite E. }
  revert Hs. destruct a; cbn [step]; unfold opt, try.
  - intros E; injection E as <- <-. apply Hsame. now rewrite nth_error_app1.
  - intros E; injection E as <- <-. apply Hsame. now rewrite nth_error_app1.
  - intros E; injection E as <- <-. now apply Hsame.
  - destruct (get (env w) y) as [v |] eqn:E; [| discriminate]. intros X; injection X as <- <-. now apply Hsame.
  - destruct (get (env w) l) as [v |] eqn:E; [| discriminate].
    destruct (list_of w v) as [[o' fs] |] eqn:El; [| discriminate]. intros X; injection X as <- <-.
    apply list_of_spec in El as [-> El]. apply Hsame.
    rewrite nth_replace by (eapply nth_error_lt; eauto).
    destruct (Nat.eqb_spec o o') as [-> |]; [| reflexivity]. exfalso. eapply Hn. eapply get_in; eauto.
  - destruct (get (env w) l) as [v |] eqn:E; [| discriminate].
    destruct (list_of w v) as [[o' fs] |] eqn:El; [| discriminate]. intros X; injection X as <- <-.
    destruct (nth_error fs i); now apply Hsame.
  - destruct (get (env w) y) as [v |] eqn:E; [| discriminate].
    destruct (file_of w v) as [[o' f] |] eqn:Ef; [| discriminate]. intros X; injection X as <- <-. now apply Hsame.
  - destruct (get (env w) x) as [v |] eqn:E; [| discriminate]. intros X; injection X as <- <-. reflexivity.
  - destruct (get (env w) y) as [v |] eqn:E; [| discriminate]. destruct (get (env w) z) as [v' |] eqn:E'; [| discriminate].
    destruct (file_of w v) as [[o1 f] |] eqn:Ef; [| discriminate]. destruct (file_of w v') as [[o' f'] |]; [| discriminate].
    intros X; injection X as <- <-. now apply Hsame.
  - destruct (get (env w) l) as [v |] eqn:E; [| discriminate].
    destruct (list_of w v) as [[o' fs] |] eqn:El; [| discriminate]. intros X; injection X as <- <-. now apply Hsame.
  - destruct (get (env w) y) as [v |] eqn:E; [| discriminate]. destruct (get (env w) s) as [v' |] eqn:E'; [| discriminate].
    destruct (file_of w v) as [[o' f] |] eqn:Ef; [| discriminate]. destruct v'; try discriminate.
    intros X; injection X as <- <-. unfold frees. cbn [owners names].
    destruct (nth_error (owners w) o) as [[[] l] |] eqn:Eo; try reflexivity.
    destruct l as [| h [|]]; try reflexivity. rewrite get_set_other; [reflexivity |]. intros ->.
    apply file_of_spec in Ef as [[-> Ef] | (-> & fs & Ef & Hin)]; [| | eapply wf_env; eauto using get_in].
    + assert (o = o') as -> by (eapply (wf_apart w Hw); [exact Eo | exact Ef | now left | now left]).
      eapply Hn. eapply get_in; eauto.
    + assert (o = o') as -> by (eapply (wf_apart w Hw); [exact Eo | exact Ef | now left | exact Hin]). congruence.
  - destruct (get (env w) y) as [v |] eqn:E; [| discriminate].
    destruct (file_of w v) as [[o' f] |] eqn:Ef; [| discriminate]. intros X; injection X as <- <-. reflexivity.
  - intros X; injection X as <- <-. now apply Hsame.
Qed.

Lemma collect_taken : forall w p g,
  filter (fun o => negb (has (g_owners g) o)) (g_owners (collect w p g)) =
  filter (fun o => p_owner p o && negb (held_owner w o) && negb (has (g_owners g) o)) (seq 0 (length (owners w))).
Proof.
  intros w p g. cbn [collect g_owners]. rewrite filter_app.
  assert (forall l, incl l (g_owners g) -> filter (fun o => negb (has (g_owners g) o)) l = []) as H1.
  { induction l as [| o l IH]; intros Hi; [reflexivity |]. cbn.
    assert (has (g_owners g) o = true) as -> by (apply has_in, Hi; now left). cbn. apply IH.
    intros x Hx. apply Hi. now right. }
  rewrite H1 by (intros x Hx; exact Hx). cbn [app].
  generalize (seq 0 (length (owners w))). intros l. induction l as [| o l IH]; [reflexivity |]. cbn [filter].
  destruct (p_owner p o && negb (held_owner w o) && negb (has (g_owners g) o)) eqn:E; [| exact IH].
  cbn [filter]. apply andb_true_iff in E as [_ ->]. now rewrite IH.
Qed.

Definition freed (w : world) (g : gone) : Z := Z.of_nat (length (filter (frees w) (g_owners g))).

Lemma filter_same : forall {A} (f g : A -> bool) l, (forall x, In x l -> f x = g x) -> filter f l = filter g l.
Proof.
  intros A f g l. induction l as [| x l IH]; intros H; [reflexivity |]. cbn.
  rewrite (H x (or_introl eq_refl)), IH; auto. intros y Hy. apply H. now right.
Qed.

Lemma allocations_cons : forall a p, allocations (a :: p) = ((if allocates a then 1 else 0) + allocations p)%Z.
Proof. intros a p. unfold allocations. destruct a; cbn [filter allocates length]; lia. Qed.

Lemma blocks_account : forall schedule p i w g b wf' gf, wf w -> lost w g ->
  run schedule i w g p = Done wf' gf ->
  exists b', blocks schedule i w g b p = Some b' /\ (b' + freed wf' gf = b + freed w g + allocations p)%Z.
Proof.
  intros schedule p. induction p as [| a p IH]; intros i w g b wf' gf Hw Hl; cbn [run blocks].
  - intros E; injection E as <- <-. exists b. split; [reflexivity |]. unfold allocations. cbn. lia.
  - destruct (step w a) as [[ns w'] |] eqn:E; [| discriminate].
    destruct (existsb (missing (collect w (schedule i) g)) ns); [discriminate |]. intros Hr.
    pose proof (collect_lost w (schedule i) g Hl) as Hl'.
    destruct (IH (S i) w' (collect w (schedule i) g)
                (b - Z.of_nat (length (filter (frees w) (filter (fun o => negb (has (g_owners g) o))
                       (g_owners (collect w (schedule i) g))))) + (if allocates a then 1 else 0))%Z wf' gf
                (step_wf _ _ _ _ Hw E) (step_lost _ _ _ _ _ E Hl') Hr) as (b' & Hb & Heq).
    exists b'. split; [exact Hb |]. rewrite Heq. clear Hb Heq.
    assert (freed w' (collect w (schedule i) g) = freed w (collect w (schedule i) g)) as ->.
    { unfold freed. rewrite (filter_same (frees w') (frees w)); [reflexivity |].
      intros o Ho. eapply frees_same; eauto. }
    rewrite collect_taken. unfold freed. cbn [collect g_owners]. rewrite filter_app, app_length.
    rewrite allocations_cons. lia.
Qed.

Lemma get_exists : forall {A} (l : list (nat * A)) f,
  match get l f with Some _ => true | None => false end = existsb (fun p => fst p =? f) l.
Proof.
  intros A l f. unfold get. induction l as [| [k v] l IH]; [reflexivity |]. cbn [find existsb fst].
  destruct (k =? f); [reflexivity | exact IH].
Qed.
Lemma freed_spec : forall w g, freed w g = files_with_names_collected w g.
Proof.
  intros w g. unfold freed, files_with_names_collected. f_equal. f_equal. apply filter_same. intros o _.
  unfold frees. destruct (nth_error (owners w) o) as [[[] l] |]; try reflexivity.
  destruct l as [| f [|]]; try reflexivity. apply get_exists.
Qed.

(** * Programs that let go of nothing *)

Definition all_held (w : world) : Prop :=
  (forall o, o < length (owners w) -> exists x, In (x, Owner o) (env w)) /\
  (forall s, s < strings w -> exists x, In (x, Strings s) (env w)).

Lemma unset_fresh : forall {A} (l : list (nat * A)) x p, ~ In x (map fst l) -> In p l -> In p (unset l x).
Proof.
  intros A l x [k v] Hx Hp. apply filter_In. split; [exact Hp |]. cbn.
  destruct (Nat.eqb_spec k x) as [-> |]; [| reflexivity]. exfalso. apply Hx. now apply (in_map fst) in Hp.
Qed.
Lemma set_fresh : forall {A} (l : list (nat * A)) x v p, ~ In x (map fst l) -> In p l -> In p (set l x v).
Proof. intros A l x v p Hx Hp. right. now apply unset_fresh. Qed.

Lemma all_held_more : forall w w', (forall p, In p (env w) -> In p (env w')) ->
  (forall o, length (owners w) <= o < length (owners w') -> exists x, In (x, Owner o) (env w')) ->
  (forall s, strings w <= s < strings w' -> exists x, In (x, Strings s) (env w')) ->
  all_held w -> all_held w'.
Proof.
  intros w w' He Ho Hs [H1 H2]. split.
  - intros o Hlt. destruct (Nat.lt_ge_cases o (length (owners w))) as [H | H]; [| apply Ho; lia].
    destruct (H1 o H) as (x & Hx). exists x. auto.
  - intros s Hlt. destruct (Nat.lt_ge_cases s (strings w)) as [H | H]; [| apply Hs; lia].
    destruct (H2 s H) as (x & Hx). exists x. auto.
Qed.

Lemma step_held : forall w a ns w', (forall x, a <> Forget x) ->
  (forall x, In x (target a) -> ~ In x (map fst (env w))) -> step w a = Some (ns, w') -> all_held w -> all_held w'.
Proof.
  intros w a ns w' Hf Ht Hs Hh. revert Hs.
  assert (forall x v w1, ~ In x (map fst (env w)) -> w1 = assign w x v -> all_held w1) as Ha.
  { intros x v w1 Hx ->. apply (all_held_more w); auto; cbn; try lia. intros p Hp. now apply set_fresh. }
  destruct a; cbn [step]; unfold opt, try; cbn [target] in Ht.
  - intros E; injection E as <- <-. apply (all_held_more w); auto; cbn [env owners strings]; try lia.
    + intros p Hp. apply set_fresh; [apply Ht; now left | exact Hp].
    + intros o Ho. rewrite app_length in Ho. cbn in Ho. exists x. left. do 2 f_equal. lia.
  - intros E; injection E as <- <-. apply (all_held_more w); auto; cbn [env owners strings]; try lia.
    + intros p Hp. apply set_fresh; [apply Ht; now left | exact Hp].
    + intros o Ho. rewrite app_length in Ho. cbn in Ho. exists x. left. do 2 f_equal. lia.
  - intros E; injection E as <- <-. apply (all_held_more w); auto; cbn [env owners strings]; try lia.
    + intros p Hp. apply set_fresh; [apply Ht; now left | exact Hp].
    + intros s Hsx. exists x. left. do 2 f_equal. lia.
  - destruct (get (env w) y) as [v |] eqn:E; [| discriminate]. intros X; injection X as <- <-.
    eapply Ha; [apply Ht; now left | reflexivity].
  - destruct (get (env w) l) as [v |] eqn:E; [| discriminate].
    destruct (list_of w v) as [[o fs] |] eqn:El; [| discriminate]. intros X; injection X as <- <-.
    apply list_of_spec in El as [-> El]. apply (all_held_more w); auto; cbn [env owners strings]; try lia.
    rewrite length_replace by (eapply nth_error_lt; eauto). lia.
  - destruct (get (env w) l) as [v |] eqn:E; [| discriminate].
    destruct (list_of w v) as [[o fs] |] eqn:El; [| discriminate]. intros X; injection X as <- <-.
    destruct (nth_error fs i) as [f |].
    + eapply Ha; [apply Ht; now left | reflexivity].
    + apply (all_held_more w); auto; cbn [with_env env owners strings]; try lia.
      intros p Hp. apply unset_fresh; [apply Ht; now left | exact Hp].
  - destruct (get (env w) y) as [v |] eqn:E; [| discriminate].
    destruct (file_of w v) as [[o f] |] eqn:Ef; [| discriminate]. intros X; injection X as <- <-.
    eapply Ha; [apply Ht; now left | reflexivity].
  - destruct (get (env w) x) as [v |] eqn:E; [| discriminate]. intros X; injection X as <- <-. exact Hh.
  - destruct (get (env w) y) as [v |] eqn:E; [| discriminate]. destruct (get (env w) z) as [v' |] eqn:E'; [| discriminate].
    destruct (file_of w v) as [[o f] |] eqn:Ef; [| discriminate]. destruct (file_of w v') as [[o' f'] |]; [| discriminate].
    intros X; injection X as <- <-. eapply Ha; [apply Ht; now left | reflexivity].
  - destruct (get (env w) l) as [v |] eqn:E; [| discriminate].
    destruct (list_of w v) as [[o fs] |] eqn:El; [| discriminate]. intros X; injection X as <- <-.
    eapply Ha; [apply Ht; now left | reflexivity].
  - destruct (get (env w) y) as [v |] eqn:E; [| discriminate]. destruct (get (env w) s) as [v' |] eqn:E'; [| discriminate].
    destruct (file_of w v) as [[o f] |] eqn:Ef; [| discriminate]. destruct v'; try discriminate.
    intros X; injection X as <- <-. exact Hh.
  - destruct (get (env w) y) as [v |] eqn:E; [| discriminate].
    destruct (file_of w v) as [[o f] |] eqn:Ef; [| discriminate]. intros X; injection X as <- <-. exact Hh.
  - exfalso. exact (Hf x eq_refl).
Qed.

(** The variables grow by the target only. *)
Lemma step_vars : forall w a ns w' x, step w a = Some (ns, w') -> In x (map fst (env w')) ->
  In x (map fst (env w)) \/ In x (target a).
Proof.
  intros w a ns w' x.
  assert (forall e y v, In x (map fst (set (A := value) e y v)) -> In x (map fst e) \/ x = y) as Hset.
  { intros e y v H. apply in_map_iff in H as ([k u] & <- & H). apply in_set in H as [E | H].
    - injection E as -> ->. now right.
    - left. now apply (in_map fst) in H. }
  assert (forall e y, In x (map fst (unset (A := value) e y)) -> In x (map fst e)) as Hun.
  { intros e y H. apply in_map_iff in H as ([k u] & <- & H). apply in_unset in H. now apply (in_map fst) in H. }
  destruct a; cbn [step target]; unfold opt, try.
  1,2,3: intros E; injection E as <- <-; cbn [env]; intros H; apply Hset in H as [H | ->]; cbn; auto.
  - destruct (get (env w) y) as [v |]; [| discriminate]. intros X; injection X as <- <-. cbn [assign with_env env].
    intros H; apply Hset in H as [H | ->]; cbn; auto.
  - destruct (get (env w) l) as [v |]; [| discriminate].
    destruct (list_of w v) as [[o fs] |]; [| discriminate]. intros X; injection X as <- <-. auto.
  - destruct (get (env w) l) as [v |]; [| discriminate].
    destruct (list_of w v) as [[o fs] |]; [| discriminate]. intros X; injection X as <- <-.
    destruct (nth_error fs i) as [f |]; cbn [assign with_env env]; intros H.
    + apply Hset in H as [H | ->]; cbn; auto.
    + left. eapply Hun; eauto.
  - destruct (get (env w) y) as [v |]; [| discriminate].
    destruct (file_of w v) as [[o f] |]; [| discriminate]. intros X; injection X as <- <-. cbn [assign with_env env].
    intros H; apply Hset in H as [H | ->]; cbn; auto.
  - destruct (get (env w) x0) as [v |]; [| discriminate]. intros X; injection X as <- <-. auto.
  - destruct (get (env w) y) as [v |]; [| discriminate]. destruct (get (env w) z) as [v' |]; [| discriminate].
    destruct (file_of w v) as [[o f] |]; [| discriminate]. destruct (file_of w v') as [[o' f'] |]; [| discriminate].
    intros X; injection X as <- <-. cbn [assign with_env env]. intros H; apply Hset in H as [H | ->]; cbn; auto.
  - destruct (get (env w) l) as [v |]; [| discriminate].
    destruct (list_of w v) as [[o fs] |]; [| discriminate]. intros X; injection X as <- <-. cbn [assign with_env env].
    intros H; apply Hset in H as [H | ->]; cbn; auto.
  - destruct (get (env w) y) as [v |]; [| discriminate]. destruct (get (env w) s) as [v' |]; [| discriminate].
    destruct (file_of w v) as [[o f] |]; [| discriminate]. destruct v'; try discriminate.
    intros X; injection X as <- <-. auto.
  - destruct (get (env w) y) as [v |]; [| discriminate].
    destruct (file_of w v) as [[o f] |]; [| discriminate]. intros X; injection X as <- <-. auto.
  - intros X; injection X as <- <-. cbn [with_env env]. intros H. left. eapply Hun; eauto.
Qed.

Lemma no_null : forall w a ns w', (forall y, a <> Filenames y) -> step w a = Some (ns, w') -> ~ In NullPointer ns.
Proof.
  intros w a ns w' Hf.
  assert (forall looks f, ~ In NullPointer (names_if w looks f)) as Hn.
  { intros looks f. unfold names_if. destruct looks; [| intros []]. destruct (get (names w) f); [| intros []].
    intros [E | []]; discriminate. }
  destruct a; cbn [step]; unfold opt, try.
  1,2,3,13: intros X; injection X as <- <-; intros [].
  - destruct (get (env w) y) as [v |]; [| discriminate]. intros X; injection X as <- <-. intros [].
  - destruct (get (env w) l) as [v |]; [| discriminate].
    destruct (list_of w v) as [[o fs] |]; [| discriminate]. intros X; injection X as <- <-. intros [E | []]; discriminate.
  - destruct (get (env w) l) as [v |]; [| discriminate].
    destruct (list_of w v) as [[o fs] |]; [| discriminate]. intros X; injection X as <- <-. intros [E | []]; discriminate.
  - destruct (get (env w) y) as [v |]; [| discriminate].
    destruct (file_of w v) as [[o f] |]; [| discriminate]. intros X; injection X as <- <-.
    intros [E | H]; [discriminate | eapply Hn; eauto].
  - destruct (get (env w) x) as [v |]; [| discriminate]. intros X; injection X as <- <-.
    destruct v; cbn; intuition discriminate.
  - destruct (get (env w) y) as [v |]; [| discriminate]. destruct (get (env w) z) as [v' |]; [| discriminate].
    destruct (file_of w v) as [[o f] |]; [| discriminate]. destruct (file_of w v') as [[o' f'] |]; [| discriminate].
    intros X; injection X as <- <-. intros [E | [E | H]]; try discriminate.
    apply in_app_iff in H as [H | H]; eapply Hn; eauto.
  - destruct (get (env w) l) as [v |]; [| discriminate].
    destruct (list_of w v) as [[o fs] |]; [| discriminate]. intros X; injection X as <- <-.
    intros [E | H]; [discriminate |]. apply in_flat_map in H as (f & _ & H). eapply Hn; eauto.
  - destruct (get (env w) y) as [v |]; [| discriminate]. destruct (get (env w) s) as [v' |]; [| discriminate].
    destruct (file_of w v) as [[o f] |]; [| discriminate]. destruct v'; try discriminate.
    intros X; injection X as <- <-. intros [E | []]; discriminate.
  - exfalso. exact (Hf y eq_refl).
Qed.

Lemma hold_careful : forall p w, wf w -> all_held w ->
  (forall x, ~ In (Forget x) p) -> (forall y, ~ In (Filenames y) p) -> NoDup (flat_map target p) ->
  (forall x, In x (flat_map target p) -> ~ In x (map fst (env w))) -> careful w p.
Proof.
  induction p as [| a p IH]; intros w Hw Hh Hf Hn Hd Hx; cbn [careful]; [exact I |].
  destruct (step w a) as [[ns w'] |] eqn:E; [| exact I]. cbn [flat_map] in Hd, Hx. split.
  - intros n Hin. apply (step_reach _ _ _ _ n E) in Hin. pose proof (step_needs _ _ _ _ _ Hw E Hin) as Hok. destruct n; cbn in *.
    + now apply (proj1 Hh).
    + now apply (proj2 Hh).
    + eapply no_null; [| exact E | exact Hin]. intros y ->. eapply Hn. now left.
  - apply IH.
    + eapply step_wf; eauto.
    + eapply step_held; [| | exact E | exact Hh].
      * intros x ->. eapply Hf. now left.
      * intros x Ht. apply Hx. apply in_or_app. now left.
    + intros x H. eapply Hf. right; eauto.
    + intros x H. eapply Hn. right; eauto.
    + clear - Hd. induction (target a) as [| t l IHl]; [exact Hd |]. inversion Hd; auto.
    + intros x Hin Hv. destruct (step_vars _ _ _ _ _ E Hv) as [H | H].
      * eapply Hx; [apply in_or_app; right; exact Hin | exact H].
      * clear - Hd Hin H. induction (target a) as [| t l IHl]; [destruct H |]. cbn in Hd. inversion Hd; subst.
        destruct H as [-> | H]; [| auto]. apply H2. apply in_or_app. now right.
Qed.

(** * diff in a loop *)

Definition two_files : world :=
  mkWorld [(2, Forever); (1, Owner 1); (0, Owner 0)] [(false, [0]); (false, [1])] [] 2 0.
Lemma diff_loop : forall n i g q, g_owners g = [] ->
  exists g', g_owners g' = [] /\
  run (fun _ => everything) i two_files g (repeat (Diff 2 0 1 false) n ++ q) =
  run (fun _ => everything) (i + n) two_files g' q.
Proof.
  induction n as [| n IH]; intros i g q Hg; cbn [repeat app].
  - rewrite Nat.add_0_r. eauto.
  - cbn [run].
    assert (g_owners (collect two_files everything g) = []) as Hc.
    { cbn [collect g_owners]. rewrite Hg. reflexivity. }
    assert (step two_files (Diff 2 0 1 false) = Some ([MemoryOf 0; MemoryOf 1], two_files)) as -> by reflexivity.
    destruct (IH (S i) (collect two_files everything g) q Hc) as (g' & Hg' & E). exists g'. split; [exact Hg' |].
    cbn [existsb missing]. rewrite Hc. cbn [has existsb orb]. rewrite E. f_equal. lia.
Qed.
Lemma diffs_allocate : forall n q, allocations (repeat (Diff 2 0 1 false) n ++ q) = (Z.of_nat n + allocations q)%Z.
Proof.
  induction n as [| n IH]; intros q; cbn [repeat app]; [lia |]. rewrite allocations_cons, IH. cbn [allocates]. lia.
Qed.
