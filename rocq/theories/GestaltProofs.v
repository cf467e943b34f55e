(** Proofs about the inference: passes, negation, the least set. *)
From Coq Require Import String List ZArith Bool Arith Lia Permutation.
From Verif Require Import Tables GestaltRules GestaltModel GestaltSpec.
Import ListNotations.
Open Scope string_scope.
Open Scope list_scope.
Open Scope nat_scope.

(** * Induction over rules *)

Section RuleInd.
  Context {L : Type} (P : rule L -> Prop)
    (HLeaf : forall l, P (Leaf l)) (HLang : forall l p, P (Lang l p))
    (HGest : forall t n, P (Gest t n))
    (HAnd : forall rs, Forall P rs -> P (And rs))
    (HOr : forall rs, Forall P rs -> P (Or rs))
    (HNot : forall rs, Forall P rs -> P (Not rs)).
  Fixpoint rule_ind' (r : rule L) : P r :=
    let many := fix many (rs : list (rule L)) : Forall P rs :=
      match rs with [] => Forall_nil P | r :: rs' => Forall_cons r (rule_ind' r) (many rs') end in
    match r with
    | Leaf l => HLeaf l
    | Lang l p => HLang l p
    | Gest t n => HGest t n
    | And rs => HAnd rs (many rs)
    | Or rs => HOr rs (many rs)
    | Not rs => HNot rs (many rs)
    end.
End RuleInd.

(** * Evaluation without exceptions *)

Section Ev.
  Context {L : Type} (leaf : L -> list trigger) (lang : string -> Z -> bool).

  Fixpoint ev (gs : list gestalt) (r : rule L) : list trigger :=
    match r with
    | Leaf l => leaf l
    | Lang l p => if lang l p then [unnamed] else []
    | Gest t n => if has_gestalt gs t n then [unnamed] else []
    | And rs =>
        (fix all rs := match rs with
                       | [] => [unnamed]
                       | r :: rs' => match ev gs r with [] => [] | _ => all rs' end
                       end) rs
    | Or rs =>
        (fix any rs := match rs with
                       | [] => []
                       | r :: rs' => match ev gs r with [] => any rs' | ts => ts end
                       end) rs
    | Not rs => match rs with
                | [] => [unnamed]
                | r :: _ => match ev gs r with [] => [unnamed] | _ => [] end
                end
    end.

  Fixpoint pass_p (ds : list (definition L)) (gs : list gestalt)
    : list (definition L) * list gestalt :=
    match ds with
    | [] => ([], gs)
    | d :: ds' =>
        match ev gs (d_rule d) with
        | [] => let (l, g) := pass_p ds' gs in (d :: l, g)
        | ts => pass_p ds' (gs ++ contribution d ts)
        end
    end.

  Fixpoint passes_p (fuel seen : nat) (ds : list (definition L)) (gs : list gestalt)
    : option (list (definition L) * list gestalt) :=
    match fuel with
    | O => None
    | S k =>
        let (ds', gs') := pass_p ds gs in
        if seen =? length gs' then Some (ds', gs') else passes_p k (length gs') ds' gs'
    end.
End Ev.

(** ** The memo *)

Definition memo_ok (c : counts) (m : option shares) : Prop :=
  m = None \/ m = Some (language_shares c).
Definition lang_of (c : counts) (l : string) (p : Z) : bool :=
  match lookup (language_shares c) l with Some (v, t) => at_least v t p | None => false end.

Lemma lookup_shares : forall c l, lookup c l = None <-> lookup (language_shares c) l = None.
Proof.
  intros c l. unfold language_shares.
  generalize (sumZ (map snd (filter (fun p => counted (fst p)) c))) as t.
  unfold lookup. induction c as [| [k v] c IH]; intros t; cbn [map find fst snd]; [tauto |].
  destruct (String.eqb k l); [split; discriminate | apply IH].
Qed.

Lemma includes_ok : forall c m l p, memo_ok c m ->
  exists m', includes_language c m l p = Ok (lang_of c l p, m') /\ memo_ok c m'.
Proof.
  intros c m l p Hm. unfold includes_language, lang_of.
  pose proof (lookup_shares c l) as Hl.
  destruct (lookup c l) as [n |].
  - assert (match m with Some p0 => p0 | None => language_shares c end = language_shares c) as ->
      by (destruct Hm as [-> | ->]; reflexivity).
    destruct (lookup (language_shares c) l) as [[v t] |].
    + exists (Some (language_shares c)); split; [reflexivity | now right].
    + destruct Hl as [_ Hl]. discriminate Hl. reflexivity.
  - destruct Hl as [Hl _]. rewrite (Hl eq_refl). exists m; auto.
Qed.

Lemma triggers_ev : forall {L} (leaf : L -> list trigger) c gs r m, memo_ok c m ->
  exists m', triggers leaf c gs r m = Ok (ev leaf (lang_of c) gs r, m') /\ memo_ok c m'.
Proof.
  intros L leaf c gs r. induction r using rule_ind'; intros m Hm; cbn [triggers ev].
  - eauto.
  - destruct (includes_ok c m l p Hm) as (m' & -> & Hm'). cbn. eauto.
  - eauto.
  - revert m Hm. induction H as [| r rs Hr _ IH]; intros m Hm; [eauto |].
    destruct (Hr m Hm) as (m' & -> & Hm'). cbn [bind].
    destruct (ev leaf (lang_of c) gs r); eauto.
  - revert m Hm. induction H as [| r rs Hr _ IH]; intros m Hm; [eauto |].
    destruct (Hr m Hm) as (m' & -> & Hm'). cbn [bind].
    destruct (ev leaf (lang_of c) gs r); eauto.
  - destruct H as [| r rs Hr _]; [eauto |].
    destruct (Hr m Hm) as (m' & -> & Hm'). cbn [bind].
    destruct (ev leaf (lang_of c) gs r); eauto.
Qed.

Lemma pass_pure : forall {L} (leaf : L -> list trigger) c ds m gs, memo_ok c m ->
  exists m', pass leaf c ds m gs
    = Ok (fst (pass_p leaf (lang_of c) ds gs), m', snd (pass_p leaf (lang_of c) ds gs))
    /\ memo_ok c m'.
Proof.
  intros L leaf c ds. induction ds as [| d ds IH]; intros m gs Hm; cbn [pass pass_p]; [eauto |].
  destruct (triggers_ev leaf c gs (d_rule d) m Hm) as (m1 & -> & Hm1). cbn [bind].
  destruct (ev leaf (lang_of c) gs (d_rule d)) as [| t ts].
  - destruct (IH m1 gs Hm1) as (m2 & -> & Hm2). cbn [bind].
    destruct (pass_p leaf (lang_of c) ds gs). eauto.
  - apply IH; assumption.
Qed.

Lemma passes_pure : forall {L} (leaf : L -> list trigger) c fuel seen ds m gs, memo_ok c m ->
  match passes_p leaf (lang_of c) fuel seen ds gs with
  | None => passes leaf c fuel seen ds m gs = None
  | Some (ds', gs') => exists m', memo_ok c m' /\
      passes leaf c fuel seen ds m gs = Some (Ok (ds', m', gs'))
  end.
Proof.
  intros L leaf c fuel. induction fuel as [| k IH]; intros seen ds m gs Hm;
    cbn [passes passes_p]; [reflexivity |].
  destruct (pass_pure leaf c ds m gs Hm) as (m1 & -> & Hm1).
  destruct (pass_p leaf (lang_of c) ds gs) as [ds' gs']. cbn [fst snd].
  destruct (seen =? length gs'); [eauto |]. apply IH; assumption.
Qed.

(** * Passes in general *)

Section Passes.
  Context {L : Type} (leaf : L -> list trigger) (lang : string -> Z -> bool).
  Notation ev := (ev leaf lang).
  Notation pass_p := (pass_p leaf lang).
  Notation passes_p := (passes_p leaf lang).

  Definition fire (d : definition L) (gs : list gestalt) : list gestalt :=
    contribution d (ev gs (d_rule d)).

  Lemma pass_cons : forall d ds gs, pass_p (d :: ds) gs =
    match ev gs (d_rule d) with
    | [] => (d :: fst (pass_p ds gs), snd (pass_p ds gs))
    | _ => pass_p ds (gs ++ fire d gs)
    end.
  Proof.
    intros. cbn [GestaltProofs.pass_p]. unfold fire. destruct (ev gs (d_rule d)); [| reflexivity].
    destruct (pass_p ds gs); reflexivity.
  Qed.

  (** A property of the definitions that are left and of the gestalts, kept by every definition
      that fires, is kept by a pass. *)
  Lemma pass_invariant (I : list (definition L) -> list gestalt -> Prop) :
    (forall pre d post gs, I (pre ++ d :: post) gs -> ev gs (d_rule d) <> [] ->
       I (pre ++ post) (gs ++ fire d gs)) ->
    forall ds pre gs, I (pre ++ ds) gs -> I (pre ++ fst (pass_p ds gs)) (snd (pass_p ds gs)).
  Proof.
    intros Hstep ds. induction ds as [| d ds IH]; intros pre gs HI; [exact HI |].
    rewrite pass_cons. destruct (ev gs (d_rule d)) eqn:E; cbn [fst snd].
    - change (pre ++ d :: fst (pass_p ds gs)) with (pre ++ [d] ++ fst (pass_p ds gs)).
      rewrite app_assoc. apply IH. rewrite <- app_assoc. exact HI.
    - apply IH. apply Hstep; [exact HI | congruence].
  Qed.

  Lemma passes_invariant (I : list (definition L) -> list gestalt -> Prop) :
    (forall pre d post gs, I (pre ++ d :: post) gs -> ev gs (d_rule d) <> [] ->
       I (pre ++ post) (gs ++ fire d gs)) ->
    forall fuel seen ds gs ds' gs', I ds gs -> passes_p fuel seen ds gs = Some (ds', gs') -> I ds' gs'.
  Proof.
    intros Hstep fuel. induction fuel as [| k IH]; intros seen ds gs ds' gs' HI; [discriminate |].
    cbn [GestaltProofs.passes_p].
    pose proof (pass_invariant I Hstep ds [] gs HI) as HI'. cbn [app] in HI'.
    destruct (pass_p ds gs) as [ds1 gs1]. cbn [fst snd] in HI'.
    destruct (seen =? length gs1).
    - intros E; injection E as <- <-. exact HI'.
    - apply IH, HI'.
  Qed.

  (** A pass in which nothing fires changes nothing; otherwise there are fewer definitions. *)
  Lemma pass_progress : forall ds gs,
    (pass_p ds gs = (ds, gs) /\ forall d, In d ds -> ev gs (d_rule d) = []) \/
    (length (fst (pass_p ds gs)) < length ds /\ length gs < length (snd (pass_p ds gs))).
  Proof.
    intros ds. induction ds as [| d ds IH]; intros gs; [left; cbn; tauto |].
    rewrite pass_cons. destruct (ev gs (d_rule d)) as [| t ts] eqn:E; cbn [fst snd].
    - destruct (IH gs) as [[-> Hq] | [H1 H2]]; [left | right].
      + split; [reflexivity |]. intros d' [<- | Hd']; auto.
      + cbn [length]. lia.
    - right.
      assert (length gs < length (gs ++ fire d gs)) as Hlt.
      { rewrite app_length. unfold fire, contribution. rewrite map_length, E. cbn; lia. }
      destruct (IH (gs ++ fire d gs)) as [[-> Hq] | [H1 H2]]; cbn [fst snd length]; lia.
  Qed.

  Lemma passes_end : forall fuel seen ds gs,
    length ds + (if seen =? length gs then 1 else 2) <= fuel -> passes_p fuel seen ds gs <> None.
  Proof.
    intros fuel. induction fuel as [| k IH]; intros seen ds gs Hf.
    - destruct (seen =? length gs); lia.
    - cbn [GestaltProofs.passes_p].
      destruct (pass_progress ds gs) as [[-> _] | [H1 H2]].
      + destruct (seen =? length gs); [discriminate |]. apply IH. rewrite Nat.eqb_refl. lia.
      + destruct (pass_p ds gs) as [ds1 gs1]. cbn [fst snd] in *.
        destruct (seen =? length gs1); [discriminate |].
        apply IH. rewrite Nat.eqb_refl. destruct (seen =? length gs); lia.
  Qed.

  (** At the end nothing that is left fires. *)
  Lemma passes_quiet : forall fuel seen ds gs ds' gs', seen <= length gs ->
    passes_p fuel seen ds gs = Some (ds', gs') ->
    forall d, In d ds' -> ev gs' (d_rule d) = [].
  Proof.
    intros fuel. induction fuel as [| k IH]; intros seen ds gs ds' gs' Hs; [discriminate |].
    cbn [GestaltProofs.passes_p].
    destruct (pass_progress ds gs) as [[-> Hq] | [H1 H2]].
    - destruct (seen =? length gs) eqn:E.
      + intros X; injection X as <- <-. exact Hq.
      + apply IH. lia.
    - destruct (pass_p ds gs) as [ds1 gs1]. cbn [fst snd] in *.
      destruct (seen =? length gs1) eqn:E; [apply Nat.eqb_eq in E; lia |].
      apply IH. lia.
  Qed.

  (** ** Evaluation and the meaning of rules *)

  Lemma has_gestalt_spec : forall gs t n, has_gestalt gs t n = true <-> present gs t n.
  Proof.
    intros. unfold has_gestalt, present. rewrite existsb_exists. split; intros (g & H).
    - rewrite andb_true_iff, !String.eqb_eq in H. exists g; tauto.
    - exists g. rewrite andb_true_iff, !String.eqb_eq. tauto.
  Qed.

  Lemma ev_holds : forall gs r,
    ev gs r <> [] <->
    holds (fun l => leaf l <> []) (fun l p => lang l p = true) (present gs) r.
  Proof.
    intros gs r. induction r using rule_ind'; cbn [GestaltProofs.ev holds].
    - tauto.
    - destruct (lang l p); split; congruence.
    - rewrite <- has_gestalt_spec. destruct (has_gestalt gs t n); split; congruence.
    - induction H as [| r rs Hr _ IH]; [split; [trivial | discriminate] |].
      destruct (ev gs r); [| rewrite IH; intuition congruence]. intuition congruence.
    - induction H as [| r rs Hr _ IH]; [tauto |].
      destruct (ev gs r); [rewrite IH |]; intuition congruence.
    - destruct H as [| r rs Hr _]; [split; [trivial | discriminate] |].
      destruct (ev gs r); intuition congruence.
  Qed.

  (** Rules without negation are monotone; in general a rule keeps holding when only gestalts come
      in that it does not negate. *)
  Lemma ev_agree : forall gs gs' r,
    (forall k, In k (refs r) -> has_gestalt gs (fst k) (snd k) = has_gestalt gs' (fst k) (snd k)) ->
    ev gs r = ev gs' r.
  Proof.
    intros gs gs' r. induction r using rule_ind'; cbn [GestaltProofs.ev refs]; intros Hk; auto.
    - specialize (Hk (t, n) (or_introl eq_refl)). cbn [fst snd] in Hk. now rewrite Hk.
    - induction H as [| r rs Hr _ IH]; [reflexivity |].
      rewrite Hr by (intros; apply Hk, in_or_app; auto).
      destruct (ev gs' r); [reflexivity |]. apply IH. intros; apply Hk, in_or_app; auto.
    - induction H as [| r rs Hr _ IH]; [reflexivity |].
      rewrite Hr by (intros; apply Hk, in_or_app; auto).
      destruct (ev gs' r); [| reflexivity]. apply IH. intros; apply Hk, in_or_app; auto.
    - destruct H as [| r rs Hr _]; [reflexivity |].
      rewrite Hr by (intros; apply Hk, in_or_app; auto). reflexivity.
  Qed.

  Lemma ev_mono : forall gs gs' r,
    (forall t n, has_gestalt gs t n = true -> has_gestalt gs' t n = true) ->
    (forall k, In k (not_refs r) -> has_gestalt gs (fst k) (snd k) = has_gestalt gs' (fst k) (snd k)) ->
    ev gs r <> [] -> ev gs' r <> [].
  Proof.
    intros gs gs' r Hsub. induction r using rule_ind'; cbn [GestaltProofs.ev not_refs]; intros Hk; auto.
    - destruct (has_gestalt gs t n) eqn:E; [| tauto]. rewrite (Hsub _ _ E). discriminate.
    - induction H as [| r rs Hr _ IH]; [auto |].
      destruct (ev gs r) eqn:E; [tauto |].
      assert (ev gs' r <> []) as Hr' by (apply Hr; [intros; apply Hk, in_or_app; auto | congruence]).
      destruct (ev gs' r); [tauto |]. apply IH. intros; apply Hk, in_or_app; auto.
    - induction H as [| r rs Hr _ IH]; [auto |].
      intros Hne. destruct (ev gs' r) eqn:E'; [| discriminate].
      destruct (ev gs r) eqn:E.
      + apply IH; [intros; apply Hk, in_or_app; auto | exact Hne].
      + exfalso. apply Hr; [intros; apply Hk, in_or_app; auto | congruence | reflexivity].
    - destruct H as [| r rs Hr _]; [auto |].
      rewrite (ev_agree gs gs' r); [auto |]. intros; apply Hk, in_or_app; auto.
  Qed.
End Passes.

(** * Definitions that name their gestalt *)

Lemma key_eqb_eq : forall a b, key_eqb a b = true <-> a = b.
Proof.
  intros [a1 a2] [b1 b2]. unfold key_eqb. cbn [fst snd].
  rewrite andb_true_iff, !String.eqb_eq. split; [intros [-> ->]; reflexivity |].
  intros E; injection E; auto.
Qed.
Lemma key_in_spec : forall k l, key_in k l = true <-> In k l.
Proof.
  intros. unfold key_in. rewrite existsb_exists. split.
  - intros (x & Hx & E). apply key_eqb_eq in E. congruence.
  - intros H. exists k. split; [exact H | now apply key_eqb_eq].
Qed.
Lemma key_in_false : forall k l, key_in k l = false <-> ~ In k l.
Proof. intros. rewrite <- key_in_spec. destruct (key_in k l); split; congruence. Qed.

Lemma has_app : forall gs gs' t n,
  has_gestalt (gs ++ gs') t n = has_gestalt gs t n || has_gestalt gs' t n.
Proof. intros. apply existsb_app. Qed.

Definition gestalt_of {L} (d : definition L) : gestalt := mkGestalt (d_type d) (d_name d) 1.

Lemma has_one : forall {L} (d : definition L) t n,
  has_gestalt [gestalt_of d] t n = true <-> key_of d = (t, n).
Proof.
  intros. cbn. rewrite orb_false_r, andb_true_iff, !String.eqb_eq. unfold key_of.
  split; [intros [-> ->]; reflexivity | intros E; injection E; auto].
Qed.

Section Plain.
  Context (leaf : file_rule -> list trigger) (lang : string -> Z -> bool).
  Hypothesis Hleaf : forall l, match fr_kind l with FindFilenames _ _ => True
                               | _ => leaf l = [] \/ leaf l = [unnamed] end.
  Notation ev := (ev leaf lang).
  Notation fire := (fire leaf lang).
  Notation pass_p := (pass_p leaf lang).
  Notation passes_p := (passes_p leaf lang).

  Lemma ev_plain : forall gs r, plain r = true -> ev gs r <> [] -> ev gs r = [unnamed].
  Proof.
    intros gs r. induction r using rule_ind'; cbn [GestaltProofs.ev plain]; intros Hp Hne.
    - specialize (Hleaf l). destruct (fr_kind l); try discriminate;
        destruct Hleaf as [E | E]; congruence.
    - destruct (lang l p); congruence.
    - destruct (has_gestalt gs t n); congruence.
    - induction H as [| r rs Hr _ IH]; [reflexivity |].
      destruct (ev gs r); [congruence |]. apply IH; auto.
    - induction H as [| r rs Hr _ IH]; [congruence |].
      apply andb_true_iff in Hp as [Hp1 Hp2].
      destruct (ev gs r) eqn:E; [apply IH; auto |]. apply Hr; auto.
    - destruct H as [| r rs _ _]; [reflexivity |]. destruct (ev gs r); congruence.
  Qed.

  Lemma fire_plain : forall d gs, plain (d_rule d) = true -> ev gs (d_rule d) <> [] ->
    fire d gs = [gestalt_of d].
  Proof. intros d gs Hp Hne. unfold GestaltProofs.fire. rewrite (ev_plain _ _ Hp Hne). reflexivity. Qed.

  (** ** Gestalts that are decided *)

  Definition stable (E : list key) (pend : list (definition file_rule)) (gs : list gestalt) : Prop :=
    forall d, In d pend -> In (key_of d) E -> incl (refs (d_rule d)) E /\ ev gs (d_rule d) = [].

  Definition agree (E : list key) (gs gs' : list gestalt) : Prop :=
    forall k, In k E -> has_gestalt gs (fst k) (snd k) = has_gestalt gs' (fst k) (snd k).

  (** A definition that fires does not touch what is decided. *)
  Lemma fire_agree : forall E pend gs d, stable E pend gs -> In d pend -> plain (d_rule d) = true ->
    ev gs (d_rule d) <> [] -> agree E gs (gs ++ fire d gs).
  Proof.
    intros E pend gs d Hst Hd Hp Hne [t n] Hk. cbn [fst snd].
    rewrite has_app, (fire_plain d gs Hp Hne).
    destruct (has_gestalt [gestalt_of d] t n) eqn:X.
    - apply has_one in X. exfalso. apply Hne. apply (Hst d Hd). now rewrite X.
    - now rewrite orb_false_r.
  Qed.

  Lemma fire_stable : forall E pend pend' gs d, stable E pend gs -> In d pend ->
    plain (d_rule d) = true -> ev gs (d_rule d) <> [] -> incl pend' pend ->
    stable E pend' (gs ++ fire d gs).
  Proof.
    intros E pend pend' gs d Hst Hd Hp Hne Hi d' Hd' Hk.
    destruct (Hst d' (Hi d' Hd') Hk) as [Hr He]. split; [exact Hr |].
    rewrite <- He. symmetry. apply ev_agree. intros k Hk'.
    apply (fire_agree E pend gs d Hst Hd Hp Hne). auto.
  Qed.

  Lemma has_more : forall gs gs' t n, has_gestalt gs t n = true -> has_gestalt (gs ++ gs') t n = true.
  Proof. intros gs gs' t n H. rewrite has_app, H. reflexivity. Qed.

  (** ** The invariant *)

  Definition adef := (definition file_rule * list key)%type.

  (** [fired] and [pend] are the definitions looked at so far, with the gestalts that were
      decided when they were looked at first; [rest] the others. *)
  Record inv (fired pend : list adef) (rest : list (definition file_rule)) (gs : list gestalt) : Prop := {
    inv_plain : forall d, In d (map fst (fired ++ pend) ++ rest) -> plain (d_rule d) = true;
    inv_stable : forall p, In p (fired ++ pend) -> stable (snd p) (map fst pend ++ rest) gs;
    inv_not : forall p, In p (fired ++ pend) -> incl (not_refs (d_rule (fst p))) (snd p);
    inv_fired : forall p, In p fired -> ev gs (d_rule (fst p)) <> [];
    inv_gs : Permutation gs (map (fun p => gestalt_of (fst p)) fired) }.

  Lemma inv_step : forall fired p1 p p2 rest gs,
    inv fired (p1 ++ p :: p2) rest gs -> ev gs (d_rule (fst p)) <> [] ->
    inv (fired ++ [p]) (p1 ++ p2) rest (gs ++ fire (fst p) gs).
  Proof.
    intros fired p1 p p2 rest gs [Hp Hs Hn Hf Hg] Hne.
    assert (In (fst p) (map fst (p1 ++ p :: p2) ++ rest)) as Hin.
    { apply in_or_app; left. apply in_map, in_or_app. right; now left. }
    assert (plain (d_rule (fst p)) = true) as Hpp.
    { apply Hp. rewrite map_app, <- app_assoc. apply in_or_app; right. exact Hin. }
    assert (forall q, In q ((fired ++ [p]) ++ p1 ++ p2) -> In q (fired ++ p1 ++ p :: p2)) as Hq.
    { intros q. rewrite !in_app_iff. cbn [In]. intuition auto. }
    assert (incl (map fst (p1 ++ p2) ++ rest) (map fst (p1 ++ p :: p2) ++ rest)) as Hinc.
    { intros d. rewrite !in_app_iff, !map_app, !in_app_iff. cbn [map In]. intuition auto. }
    constructor.
    - intros d. rewrite in_app_iff, in_map_iff. intros [(q & <- & Hq') | Hr]; apply Hp.
      + apply in_or_app; left. apply in_map, Hq, Hq'.
      + apply in_or_app; now right.
    - intros q Hq'. eapply fire_stable; [apply Hs, Hq, Hq' | | | |]; eauto.
    - intros q Hq'. apply Hn, Hq, Hq'.
    - intros q Hq'.
      assert (ev gs (d_rule (fst q)) <> []) as Hqe.
      { apply in_app_iff in Hq' as [Hq' | [<- | []]]; auto. }
      assert (In q (fired ++ p1 ++ p :: p2)) as Hq2 by (apply Hq, in_or_app; now left).
      revert Hqe. apply ev_mono.
      + intros t n. apply has_more.
      + intros k Hk. apply (fire_agree (snd q) _ gs (fst p) (Hs q Hq2)); auto. apply (Hn q Hq2), Hk.
    - rewrite (fire_plain _ _ Hpp Hne), map_app. cbn [map]. now apply Permutation_app_tail.
  Qed.

  (** The first pass visits the definitions one by one and decides more and more gestalts. *)
  Lemma inv_visit : forall fired pend d rest gs E before,
    inv fired pend (d :: rest) gs ->
    (forall k, In k before <-> In k (map (fun p => key_of (fst p)) (fired ++ pend))) ->
    stable E (map fst pend ++ d :: rest) gs -> incl E before ->
    incl (not_refs (d_rule d)) E ->
    let E' := if forallb (fun k => key_in k E) (refs (d_rule d))
                 && negb (key_in (key_of d) before) && negb (key_in (key_of d) (map key_of rest))
              then key_of d :: E else E in
    (ev gs (d_rule d) = [] ->
       inv fired (pend ++ [(d, E)]) rest gs /\ stable E' (map fst (pend ++ [(d, E)]) ++ rest) gs) /\
    (ev gs (d_rule d) <> [] ->
       inv (fired ++ [(d, E)]) pend rest (gs ++ fire d gs) /\
       stable E' (map fst pend ++ rest) (gs ++ fire d gs)).
  Proof.
    intros fired pend d rest gs E before Hinv Hb Hst HEb Hnr E'.
    assert (map fst (pend ++ [(d, E)]) ++ rest = map fst pend ++ d :: rest) as Hsame
      by (rewrite map_app, <- app_assoc; reflexivity).
    assert (inv fired (pend ++ [(d, E)]) rest gs) as Hinv'.
    { destruct Hinv as [Hp Hs Hn Hf Hg]. constructor; auto.
      - intros x Hx. apply Hp. revert Hx. rewrite !map_app, !in_app_iff. cbn [map In fst].
        intuition auto.
      - intros p. rewrite Hsame, app_assoc, in_app_iff. intros [Hx | [<- | []]]; [auto | exact Hst].
      - intros p. rewrite app_assoc, in_app_iff. intros [Hx | [<- | []]]; auto. }
    assert (forall gs' pend', stable E pend' gs' ->
              (~ In (key_of d) before -> ~ In (key_of d) (map key_of rest) ->
               forall x, In x pend' -> key_of x = key_of d -> x = d /\ ev gs' (d_rule d) = []) ->
              stable E' pend' gs') as Hext.
    { intros gs' pend' Hst' Hd. unfold E'.
      destruct (forallb (fun k => key_in k E) (refs (d_rule d))) eqn:X1; [| exact Hst'].
      destruct (key_in (key_of d) before) eqn:X2; [exact Hst' |].
      destruct (key_in (key_of d) (map key_of rest)) eqn:X3; [exact Hst' |]. cbn [negb andb].
      apply key_in_false in X2. apply key_in_false in X3.
      intros x Hx [Hk | Hk].
      - destruct (Hd X2 X3 x Hx (eq_sym Hk)) as [-> He].
        split; [| exact He]. intros k Hk'. right. rewrite forallb_forall in X1.
        now apply key_in_spec, X1.
      - destruct (Hst' x Hx Hk) as [Hr He]. split; [| exact He]. intros k Hk'. right; auto. }
    assert (~ In (key_of d) before -> ~ In (key_of d) (map key_of rest) ->
            forall x, In x (map fst pend ++ rest) -> key_of x <> key_of d) as Hno.
    { intros X2 X3 x Hx Hk. apply in_app_iff in Hx as [Hi | Hi].
      - apply X2. rewrite <- Hk. apply Hb.
        apply in_map_iff in Hi as (p & <- & Hp). apply in_map_iff. exists p.
        split; [reflexivity | apply in_or_app; now right].
      - apply X3. rewrite <- Hk. now apply in_map. }
    split; intros Hne.
    - split; [exact Hinv' |]. rewrite Hsame. apply Hext; [exact Hst |].
      intros X2 X3 x Hx Hk. split; [| exact Hne].
      apply in_app_iff in Hx as [Hx | [Hx | Hx]]; [| auto |];
        exfalso; apply (Hno X2 X3 x); auto; apply in_or_app; auto.
    - pose proof (inv_step fired pend (d, E) [] rest gs Hinv' Hne) as Hi2. rewrite app_nil_r in Hi2.
      split; [exact Hi2 |].
      assert (plain (d_rule d) = true) as Hpd.
      { apply (inv_plain _ _ _ _ Hinv). rewrite in_app_iff. right; now left. }
      assert (incl (map fst pend ++ rest) (map fst pend ++ d :: rest)) as Hinc.
      { intros x. rewrite !in_app_iff. cbn [In]. tauto. }
      apply Hext.
      + eapply fire_stable; [exact Hst | | | |]; auto. rewrite in_app_iff. right; now left.
      + intros X2 X3 x Hx Hk. exfalso. now apply (Hno X2 X3 x).
  Qed.

  Lemma pass_inv : forall rest fired pend gs E before,
    inv fired pend rest gs ->
    (forall k, In k before <-> In k (map (fun p => key_of (fst p)) (fired ++ pend))) ->
    stable E (map fst pend ++ rest) gs -> incl E before ->
    (forall p, In p (decided before E rest) -> incl (not_refs (d_rule (fst p))) (snd p)) ->
    exists fired' pend', inv fired' pend' [] (snd (pass_p rest gs)) /\
      map fst pend ++ fst (pass_p rest gs) = map fst pend' /\
      Permutation (fired' ++ pend') (fired ++ pend ++ decided before E rest).
  Proof.
    intros rest. induction rest as [| d rest IH]; intros fired pend gs E before Hinv Hb Hst HEb Hn.
    - exists fired, pend. cbn [GestaltProofs.pass_p fst snd decided]. rewrite !app_nil_r. auto.
    - assert (incl (not_refs (d_rule d)) E) as Hnd by (apply (Hn (d, E)); now left).
      pose proof (inv_visit fired pend d rest gs E before Hinv Hb Hst HEb Hnd) as Hv.
      cbn [decided] in Hn |- *. rewrite pass_cons.
      set (E' := if forallb (fun k => key_in k E) (refs (d_rule d))
                    && negb (key_in (key_of d) before) && negb (key_in (key_of d) (map key_of rest))
                 then key_of d :: E else E) in *.
      assert (incl E' (key_of d :: before)) as HE'.
      { unfold E'. intros k Hk.
        destruct (forallb _ _ && _ && _); [destruct Hk as [<- | Hk]; [now left |] |]; right; auto. }
      destruct Hv as [Hv1 Hv2].
      destruct (ev gs (d_rule d)) as [| t ts] eqn:X; cbn [fst snd].
      + destruct (Hv1 eq_refl) as [Hi Hs].
        destruct (IH fired (pend ++ [(d, E)]) gs E' (key_of d :: before)) as (f' & p' & H1 & H2 & H3); auto.
        { intros k. rewrite app_assoc, map_app, in_app_iff, <- Hb. cbn [map In fst]. tauto. }
        { intros p Hp. apply Hn. now right. }
        exists f', p'. split; [exact H1 |]. split.
        * rewrite <- H2, map_app, <- app_assoc. reflexivity.
        * rewrite H3, <- app_assoc. reflexivity.
      + destruct Hv2 as [Hi Hs]; [discriminate |].
        destruct (IH (fired ++ [(d, E)]) pend (gs ++ fire d gs) E' (key_of d :: before))
          as (f' & p' & H1 & H2 & H3); auto.
        { intros k. rewrite <- app_assoc, !map_app, !in_app_iff.
          specialize (Hb k). rewrite map_app, in_app_iff in Hb. cbn [map In fst]. tauto. }
        { intros p Hp. apply Hn. now right. }
        exists f', p'. split; [exact H1 |]. split; [exact H2 |].
        rewrite H3, <- app_assoc. apply Permutation_app_head. cbn [app].
        apply Permutation_middle.
  Qed.

  (** All passes. *)
  Lemma passes_inv : forall T fuel ds gs,
    (forall d, In d T -> plain (d_rule d) = true) -> safe T = true ->
    passes_p fuel 0 T [] = Some (ds, gs) ->
    exists fired pend, inv fired pend [] gs /\ ds = map fst pend /\
      Permutation (fired ++ pend) (decided [] [] T).
  Proof.
    intros T fuel ds gs Hp Hs.
    destruct fuel as [| fuel]; [discriminate |]. cbn [GestaltProofs.passes_p].
    destruct (pass_inv T [] [] [] [] []) as (f1 & p1 & H1 & H2 & H3).
    { constructor; cbn; auto; try (intros p []). }
    { cbn; tauto. }
    { intros d _ []. }
    { apply incl_refl. }
    { unfold safe in Hs. rewrite forallb_forall in Hs. intros p Hp1 k Hk.
      specialize (Hs p Hp1). rewrite forallb_forall in Hs. now apply key_in_spec, Hs. }
    cbn [map app] in H2, H3.
    destruct (pass_p T []) as [ds1 gs1]. cbn [fst snd] in *.
    destruct (0 =? length gs1).
    - intros E; injection E as <- <-. eauto.
    - intros E.
      apply (passes_invariant leaf lang
               (fun ds gs => exists fired pend, inv fired pend [] gs /\ ds = map fst pend /\
                  Permutation (fired ++ pend) (decided [] [] T))) in E; [exact E | | eauto].
      intros pre d post g (f & p & Hi & Hm & Hper) Hne.
      assert (exists pa x pb, p = pa ++ x :: pb /\ map fst pa = pre /\ fst x = d /\ map fst pb = post)
        as (pa & x & pb & -> & <- & <- & <-).
      { symmetry in Hm. apply map_eq_app in Hm as (pa & pb & -> & Ha & Hb).
        destruct pb as [| x pb]; [discriminate |]. cbn in Hb. injection Hb as Hb1 Hb2.
        exists pa, x, pb. auto. }
      exists (f ++ [x]), (pa ++ pb). split; [apply inv_step; assumption |]. split.
      + now rewrite map_app.
      + rewrite <- Hper, <- app_assoc. apply Permutation_app_head. cbn [app].
        apply Permutation_middle.
  Qed.

  Lemma decided_defs : forall (T : list (definition file_rule)) before E,
    map fst (decided before E T) = T.
  Proof. induction T as [| d T IH]; intros; cbn; [reflexivity | now rewrite IH]. Qed.

  Definition fires_at (gs : list gestalt) (d : definition file_rule) : bool :=
    match ev gs (d_rule d) with [] => false | _ => true end.

  Lemma fires_at_spec : forall gs d, fires_at gs d = true <-> ev gs (d_rule d) <> [].
  Proof. intros. unfold fires_at. destruct (ev gs (d_rule d)); split; congruence. Qed.

  (** The gestalts are exactly those of the definitions that hold in the end. *)
  Theorem passes_exact : forall T fuel ds gs,
    (forall d, In d T -> plain (d_rule d) = true) -> safe T = true ->
    passes_p fuel 0 T [] = Some (ds, gs) ->
    Permutation gs (map gestalt_of (filter (fires_at gs) T)).
  Proof.
    intros T fuel ds gs Hp Hs Hps.
    destruct (passes_inv T fuel ds gs Hp Hs Hps) as (fired & pend & Hi & -> & Hper).
    pose proof (passes_quiet leaf lang fuel 0 T [] _ gs (Nat.le_0_l _) Hps) as Hq.
    rewrite (inv_gs _ _ _ _ Hi) at 1.
    rewrite <- (map_map fst gestalt_of). apply Permutation_map.
    assert (Permutation T (map fst fired ++ map fst pend)) as HT.
    { rewrite <- map_app, Hper, decided_defs. reflexivity. }
    assert (forall l1 l2 : list (definition file_rule), Permutation l1 l2 ->
              Permutation (filter (fires_at gs) l1) (filter (fires_at gs) l2)) as Hfilter.
    { clear. intros l1 l2 H. induction H; cbn; auto.
      - destruct (fires_at gs x); auto.
      - destruct (fires_at gs x), (fires_at gs y); auto using perm_swap.
      - etransitivity; eassumption. }
    rewrite (Hfilter _ _ HT), filter_app.
    assert (filter (fires_at gs) (map fst pend) = []) as ->.
    { clear - Hq. induction (map fst pend) as [| d l IH]; [reflexivity |]. cbn.
      unfold fires_at at 1. rewrite (Hq d (or_introl eq_refl)). apply IH. intros; apply Hq; now right. }
    rewrite app_nil_r.
    assert (filter (fires_at gs) (map fst fired) = map fst fired) as ->; [| reflexivity].
    { pose proof (inv_fired _ _ _ _ Hi) as Hf. clear - Hf. induction fired as [| p l IH]; [reflexivity |].
      cbn. rewrite (proj2 (fires_at_spec _ _) (Hf p (or_introl eq_refl))). f_equal.
      apply IH. intros; apply Hf; now right. }
  Qed.
End Plain.
