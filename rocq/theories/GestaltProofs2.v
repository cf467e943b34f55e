(** Proofs that connect an analysis with what the files say. *)
From Coq Require Import String List ZArith Bool Arith Lia Permutation.
From Verif Require Import Tables GestaltRules GestaltModel GestaltSpec GestaltProofs GestaltStore.
Import ListNotations.
Open Scope string_scope.
Open Scope list_scope.
Open Scope Z_scope.

(** * Meaning of rules *)

Lemma holds_ext : forall {L} (leaf leaf' : L -> Prop) (lang lang' : string -> Z -> Prop)
  (G G' : string -> string -> Prop) r,
  (forall l, In l (leaves r) -> (leaf l <-> leaf' l)) ->
  (forall l p, lang l p <-> lang' l p) -> (forall k, In k (refs r) -> (G (fst k) (snd k) <-> G' (fst k) (snd k))) ->
  (holds leaf lang G r <-> holds leaf' lang' G' r).
Proof.
  intros L leaf leaf' lang lang' G G' r. induction r using rule_ind'; cbn [holds leaves refs]; intros Hl Hg HG.
  - apply Hl. now left.
  - apply Hg.
  - apply (HG (t, n)). now left.
  - induction H as [| r rs Hr _ IH]; [tauto |].
    rewrite Hr, IH; [tauto | | | | |]; auto; intros; (apply Hl || apply HG); apply in_or_app; auto.
  - induction H as [| r rs Hr _ IH]; [tauto |].
    rewrite Hr, IH; [tauto | | | | |]; auto; intros; (apply Hl || apply HG); apply in_or_app; auto.
  - destruct H as [| r rs Hr _]; [tauto |].
    rewrite Hr; [tauto | | |]; auto; intros; (apply Hl || apply HG); apply in_or_app; auto.
Qed.

Lemma holds_mono : forall {L} langs (leaf leaf' : L -> Prop) (lang lang' : string -> Z -> Prop)
  (G G' : string -> string -> Prop) r, positive langs r = true ->
  (forall l, In l (leaves r) -> leaf l -> leaf' l) ->
  (langs = true -> forall l p, lang l p -> lang' l p) -> (forall t n, G t n -> G' t n) ->
  holds leaf lang G r -> holds leaf' lang' G' r.
Proof.
  intros L langs leaf leaf' lang lang' G G' r.
  induction r using rule_ind'; cbn [holds leaves positive]; intros Hp Hl Hg HG; auto.
  - apply Hl. now left.
  - induction H as [| r rs Hr _ IH]; [auto |]. apply andb_true_iff in Hp as [Hp1 Hp2].
    intros [H1 H2]. split; [apply Hr; auto | apply IH; auto];
      intros; apply Hl; auto; apply in_or_app; auto.
  - induction H as [| r rs Hr _ IH]; [auto |]. apply andb_true_iff in Hp as [Hp1 Hp2].
    intros [H1 | H2]; [left; apply Hr; auto | right; apply IH; auto];
      intros; apply Hl; auto; apply in_or_app; auto.
  - discriminate.
Qed.

(** * Languages *)

Definition have (c : counts) (l : string) : bool := existsb (fun p => String.eqb (fst p) l) c.
Definition tally (p : string -> bool) (c : counts) : Z := sumZ (map snd (filter (fun q => p (fst q)) c)).

Lemma tally_cons : forall p q c, tally p (q :: c) = (if p (fst q) then snd q else 0) + tally p c.
Proof. intros. unfold tally. cbn [filter]. destruct (p (fst q)); reflexivity. Qed.

Lemma tally_add : forall p c k n, tally p (count_add c k n) = tally p c + (if p k then n else 0).
Proof.
  intros p c k n. induction c as [| [k' v] c IH]; cbn [count_add].
  - rewrite tally_cons. cbn [fst snd]. unfold tally. cbn. lia.
  - destruct (String.eqb k' k) eqn:E.
    + apply String.eqb_eq in E. subst k'. rewrite !tally_cons. cbn [fst snd]. destruct (p k); lia.
    + rewrite !tally_cons, IH. cbn [fst snd]. lia.
Qed.
Lemma have_add : forall c k n l, have (count_add c k n) l = have c l || String.eqb k l.
Proof.
  intros c k n l. induction c as [| [k' v] c IH]; cbn.
  - now rewrite orb_false_r.
  - destruct (String.eqb k' k) eqn:E; cbn.
    + apply String.eqb_eq in E. subst. destruct (String.eqb k l); cbn; [reflexivity | now rewrite orb_false_r].
    + unfold have in IH. rewrite IH. now rewrite orb_assoc.
Qed.

Definition keys_unique (c : counts) : Prop := NoDup (map fst c).
Lemma keys_add : forall c k n, keys_unique c -> keys_unique (count_add c k n).
Proof.
  unfold keys_unique. intros c k n. induction c as [| [k' v] c IH]; cbn; intros H.
  - constructor; [intros [] | constructor].
  - destruct (String.eqb k' k) eqn:E; [exact H |]. cbn. inversion H; subst.
    constructor; [| auto]. intros Hin. apply H2.
    clear - Hin E. induction c as [| [k2 v2] c IH]; cbn in *.
    + destruct Hin as [-> | []]. rewrite String.eqb_refl in E. discriminate.
    + destruct (String.eqb k2 k); cbn in Hin; tauto.
Qed.

Lemma lookup_unique : forall c l, keys_unique c ->
  lookup c l = if have c l then Some (tally (String.eqb l) c) else None.
Proof.
  unfold keys_unique, lookup. intros c l. induction c as [| [k v] c IH]; [reflexivity |].
  cbn [map find have existsb fst]. intros H. inversion H; subst. rewrite tally_cons. cbn [fst snd].
  rewrite (String.eqb_sym l k).
  destruct (String.eqb k l) eqn:E; cbn [orb].
  - apply String.eqb_eq in E. subst. f_equal.
    assert (tally (String.eqb l) c = 0) as ->; [| lia].
    clear - H2. induction c as [| [k v] c IH]; [reflexivity |]. cbn in H2.
    rewrite tally_cons. cbn [fst snd]. destruct (String.eqb l k) eqn:E.
    + apply String.eqb_eq in E. subst. tauto.
    + rewrite IH; [reflexivity |]. tauto.
  - unfold have in IH. now rewrite IH.
Qed.

(** The hash after all files. *)
Lemma counts_spec : forall fs,
  keys_unique (fold_left add_breakdowns fs []) /\
  (forall p, tally p (fold_left add_breakdowns fs []) = code_in p fs) /\
  (forall l, have (fold_left add_breakdowns fs []) l =
             existsb (fun b => String.eqb (b_name b) l) (flat_map sf_breakdowns fs)).
Proof.
  intros fs.
  enough (forall bs c, keys_unique c ->
    keys_unique (fold_left (fun c b => count_add c (b_name b) (b_count b)) bs c) /\
    (forall p, tally p (fold_left (fun c b => count_add c (b_name b) (b_count b)) bs c)
               = tally p c + sumZ (map b_count (filter (fun b => p (b_name b)) bs))) /\
    (forall l, have (fold_left (fun c b => count_add c (b_name b) (b_count b)) bs c) l
               = have c l || existsb (fun b => String.eqb (b_name b) l) bs)) as H.
  { assert (fold_left add_breakdowns fs [] =
            fold_left (fun c b => count_add c (b_name b) (b_count b)) (flat_map sf_breakdowns fs) []) as ->.
    { generalize (@nil (string * Z)) as c. induction fs as [| f fs IH]; intros c; [reflexivity |].
      cbn [fold_left flat_map]. rewrite fold_left_app. apply IH. }
    destruct (H (flat_map sf_breakdowns fs) [] (NoDup_nil _)) as (H1 & H2 & H3).
    split; [exact H1 |]. split; [| exact H3]. intros p. rewrite H2. reflexivity. }
  induction bs as [| b bs IH]; intros c Hc; cbn [fold_left].
  - split; [exact Hc |]. split; intros; cbn; [lia | now rewrite orb_false_r].
  - destruct (IH (count_add c (b_name b) (b_count b)) (keys_add _ _ _ Hc)) as (H1 & H2 & H3).
    split; [exact H1 |]. split.
    + intros p. rewrite H2, tally_add. cbn [filter]. unfold sumZ. destruct (p (b_name b)); cbn [map fold_right]; lia.
    + intros l. rewrite H3, have_add. cbn. now rewrite orb_assoc.
Qed.

Lemma languages_unique : NoDup (map fst languages).
Proof.
  apply (NoDup_count_occ' string_dec).
  assert (forallb (fun k => (count_occ string_dec (map fst languages) k =? 1)%nat) (map fst languages) = true)
    as H by (vm_compute; reflexivity).
  rewrite forallb_forall in H. intros x Hx. now apply Nat.eqb_eq, H.
Qed.

Lemma counted_programming : forall l, counted l = programming l.
Proof.
  intros l. unfold counted, programming, lookup. generalize languages_unique.
  generalize languages as t. induction t as [| [k x] t IH]; intros H; [reflexivity |].
  cbn [map fst] in H. inversion H; subst. cbn [find existsb fst snd].
  destruct (String.eqb k l) eqn:E; cbn [andb]; [| now apply IH].
  apply String.eqb_eq in E. subst.
  assert (existsb (fun p => String.eqb (fst p) l && negb (l_category (snd p) =? 1)) t = false) as ->.
  { clear - H2. induction t as [| [k' x'] t IH]; [reflexivity |]. cbn in *.
    destruct (String.eqb k' l) eqn:E; cbn; [apply String.eqb_eq in E; subst; tauto |]. apply IH. tauto. }
  now rewrite orb_false_r.
Qed.

Lemma lang_of_spec : forall fs l p,
  lang_of (fold_left add_breakdowns fs []) l p =
  existsb (fun b => String.eqb (b_name b) l) (flat_map sf_breakdowns fs) &&
  at_least (code_in (String.eqb l) fs) (code_in programming fs) p.
Proof.
  intros fs l p. destruct (counts_spec fs) as (Hu & Ht & Hh).
  set (c := fold_left add_breakdowns fs []) in *. unfold lang_of.
  assert (lookup (language_shares c) l =
          match lookup c l with Some v => Some (v, tally counted c) | None => None end) as ->.
  { unfold language_shares. fold (tally counted c). generalize (tally counted c) as t. clear.
    unfold lookup. induction c as [| [k v] c IH]; intros t; [reflexivity |].
    cbn [map find fst snd]. destruct (String.eqb k l); [reflexivity | apply IH]. }
  rewrite lookup_unique by exact Hu. rewrite Hh.
  destruct (existsb _ _); [| reflexivity]. cbn [andb]. rewrite !Ht. f_equal.
  unfold code_in. do 2 f_equal. apply filter_ext. intros b. apply counted_programming.
Qed.

Lemma sumZ_nonneg : forall l, (forall x, In x l -> 0 <= x) -> 0 <= sumZ l.
Proof.
  induction l as [| x l IH]; intros H; cbn; [lia |].
  assert (0 <= x) by (apply H; now left). assert (0 <= sumZ l) by (apply IH; intros; apply H; now right).
  unfold sumZ in *. lia.
Qed.

Lemma makes_up_spec : forall fs l p, sane fs ->
  (lang_of (fold_left add_breakdowns fs []) l p = true <-> makes_up fs l p).
Proof.
  intros fs l p Hs. rewrite lang_of_spec, andb_true_iff, existsb_exists. unfold makes_up. cbn zeta.
  assert (0 <= code_in programming fs) as Hw.
  { apply sumZ_nonneg. intros x Hx. apply in_map_iff in Hx as (b & <- & Hb).
    apply filter_In in Hb as [Hb _]. apply in_flat_map in Hb as (f & Hf & Hb). eapply Hs; eauto. }
  split; intros [H1 H2]; split.
  - destruct H1 as (b & Hb & E). apply in_flat_map in Hb as (f & Hf & Hb). apply String.eqb_eq in E. eauto.
  - unfold at_least in H2. destruct (Z.eqb_spec (code_in programming fs) 0) as [E | E].
    + right. apply Z.ltb_lt in H2. auto.
    + left. destruct (Z.ltb_spec 0 (code_in programming fs)); [| lia]. apply Z.leb_le in H2. auto.
  - destruct H1 as (f & b & Hf & Hb & E). exists b. split; [apply in_flat_map; eauto | now apply String.eqb_eq].
  - unfold at_least. destruct H2 as [[H2 H3] | [H2 H3]].
    + rewrite (proj2 (Z.eqb_neq _ _)) by lia. rewrite (proj2 (Z.ltb_lt _ _)) by lia. now apply Z.leb_le.
    + rewrite H2. cbn. now apply Z.ltb_lt.
Qed.

(** * File rules *)

Section Leaves.
  Variable R : ruby.

  Lemma all_ok_spec : forall T fs, all_ok R T fs = true <-> readable R T fs.
  Proof.
    intros T fs. unfold all_ok, readable, ok_hits. rewrite forallb_forall. split.
    - intros H d l f Hd Hl Hf. specialize (H f Hf). rewrite forallb_forall in H.
      specialize (H l). destruct (hits R (fr_kind l) f); [eauto |].
      discriminate H. apply in_flat_map. eauto.
    - intros H f Hf. apply forallb_forall. intros l Hl. apply in_flat_map in Hl as (d & Hd & Hl).
      destruct (H d l f Hd Hl Hf) as (n & ->). reflexivity.
  Qed.

  Lemma leaf_shape : forall fs l, match fr_kind l with FindFilenames _ _ => True
                                  | _ => leaf_fr R fs l = [] \/ leaf_fr R fs l = [unnamed] end.
  Proof.
    intros fs l. unfold leaf_fr. destruct (fr_kind l); auto;
      match goal with |- context [if ?b then _ else _] => destruct b end; auto.
  Qed.

  Lemma leaf_enough : forall fs l, (forall f, In f fs -> exists n, hits R (fr_kind l) f = Ok n) ->
    (leaf_fr R fs l <> [] <-> enough R fs l).
  Proof.
    intros fs l Hok. unfold leaf_fr, enough.
    assert ((if fr_min l <=? total R (fr_kind l) fs then [unnamed] else []) <> [] <->
            exists ns, Forall2 (fun f n => hits R (fr_kind l) f = Ok n) fs ns /\ fr_min l <= sumZ ns) as H.
    { assert (forall ns, Forall2 (fun f n => hits R (fr_kind l) f = Ok n) fs ns ->
                total R (fr_kind l) fs = sumZ ns) as Ht.
      { clear Hok. intros ns F. unfold total. induction F as [| f n fs ns E _ IH]; [reflexivity |].
        cbn [map]. rewrite E. cbn. unfold sumZ in *. now rewrite IH. }
      assert (exists ns, Forall2 (fun f n => hits R (fr_kind l) f = Ok n) fs ns) as (ns & Hns).
      { clear - Hok. induction fs as [| f fs IH]; [exists []; constructor |].
        destruct (Hok f (or_introl eq_refl)) as (n & Hn).
        destruct IH as (ns & Hns); [intros; apply Hok; now right |]. exists (n :: ns). now constructor. }
      destruct (Z.leb_spec (fr_min l) (total R (fr_kind l) fs)); split.
      - intros _. exists ns. rewrite <- (Ht ns Hns). auto.
      - discriminate.
      - tauto.
      - intros (ms & Hms & Hle). rewrite <- (Ht ms Hms) in Hle. lia. }
    destruct (fr_kind l) as [| | | | | | | | x i]; try exact H. clear H.
    unfold found. split.
    - intros Hne. induction fs as [| f fs IH]; [tauto |]. cbn in Hne.
      destruct (re_match R x (sf_name f)) eqn:E.
      + exists f. split; [now left | congruence].
      + destruct IH as (f' & Hf & Hm); [intros; apply Hok; now right | exact Hne |].
        exists f'. split; [now right | auto].
    - intros (f & Hf & Hm) E. revert Hf. induction fs as [| f' fs IH]; intros Hf; [destruct Hf |].
      cbn in E. apply app_eq_nil in E as [E1 E2]. destruct Hf as [-> | Hf].
      + destruct (re_match R x (sf_name f)); [discriminate | tauto].
      + apply IH; auto. intros; apply Hok; now right.
  Qed.

  Lemma hits_nonneg : forall k f n, hits R k f = Ok n -> 0 <= n.
  Proof.
    intros k f n. destruct k; cbn [hits]; unfold count_if;
      repeat match goal with
             | |- context [match ?x with _ => _ end] => destruct x
             | |- context [bind ?x _] => destruct x; cbn [bind]
             end; try discriminate; intros E; injection E as <-; try lia.
    apply sumZ_nonneg. intros x Hx. apply in_map_iff in Hx as (b & <- & _). lia.
  Qed.

  Lemma ev_justified : forall T fs gs d, readable R T fs -> sane fs -> In d T ->
    (ev (leaf_fr R fs) (lang_of (fold_left add_breakdowns fs [])) gs (d_rule d) <> [] <->
     justified R fs (present gs) d).
  Proof.
    intros T fs gs d Hr Hs Hd. rewrite ev_holds. unfold justified. apply holds_ext.
    - intros l Hl. apply leaf_enough. intros f Hf. eapply Hr; eauto.
    - intros l p. now apply makes_up_spec.
    - tauto.
  Qed.
End Leaves.

(** * Analyses *)

Section Main.
  Variable R : ruby.

  Lemma passes_total : forall {L} (leaf : L -> list trigger) lang T,
    passes_p leaf lang (S (S (length T))) 0 T [] <> None.
  Proof. intros. apply passes_end. cbn. lia. Qed.

  (** An analysis gives gestalts unless a rule raises. *)
  Lemma analyze_ends : forall T all s fs, loaded T all s ->
    (readable R T fs /\ exists gs ds, fst (analyze R all fs s) = Some (Ok gs) /\
       passes_p (leaf_fr R fs) (lang_of (fold_left add_breakdowns fs [])) (S (S (length T))) 0 T []
       = Some (ds, gs)) \/
    (~ readable R T fs /\ fst (analyze R all fs s) = Some (Raised NoMethodError)).
  Proof.
    intros T all s fs Hl. destruct (analyze_pure R T all s fs Hl) as (s' & _ & _ & ->). cbn [fst].
    destruct (all_ok R T fs) eqn:E; [left | right].
    - split; [now apply all_ok_spec |].
      pose proof (passes_total (leaf_fr R fs) (lang_of (fold_left add_breakdowns fs [])) T) as Ht.
      destruct (passes_p (leaf_fr R fs) (lang_of (fold_left add_breakdowns fs [])) (S (S (length T))) 0 T [])
        as [[ds gs] |]; [| tauto]. eauto.
    - split; [| reflexivity]. rewrite <- all_ok_spec. congruence.
  Qed.

  Theorem analyze_listing : forall T all s fs gs,
    loaded T all s -> plain_table T -> safe T = true -> sane fs ->
    fst (analyze R all fs s) = Some (Ok gs) ->
    exists p, (forall d, In d T -> (p d = true <-> justified R fs (present gs) d)) /\
              Permutation gs (map gestalt_of (filter p T)).
  Proof.
    intros T all s fs gs Hl Hp Hs Hsane Ha.
    destruct (analyze_ends T all s fs Hl) as [(Hr & gs' & ds & E & Hps) | [_ E]]; [| congruence].
    rewrite Ha in E. injection E as <-.
    exists (fires_at (leaf_fr R fs) (lang_of (fold_left add_breakdowns fs [])) gs). split.
    - intros d Hd. rewrite fires_at_spec. eapply ev_justified; eauto.
    - eapply passes_exact; eauto. apply leaf_shape.
  Qed.

  Lemma listing_exact : forall T fs gs p,
    (forall d, In d T -> (p d = true <-> justified R fs (present gs) d)) ->
    Permutation gs (map gestalt_of (filter p T)) -> exact R T fs (present gs).
  Proof.
    intros T fs gs p Hp Hg t n. split.
    - intros (g & Hin & Et & En). apply (Permutation_in _ Hg) in Hin.
      apply in_map_iff in Hin as (d & <- & Hd). apply filter_In in Hd as [Hd Hpd].
      exists d. repeat (split; [assumption |]). now apply Hp.
    - intros (d & Hd & Et & En & Hj). exists (gestalt_of d). split; [| auto].
      apply (Permutation_in _ (Permutation_sym Hg)). apply in_map, filter_In. split; [assumption |].
      now apply Hp.
  Qed.

  (** ** The least set *)

  Lemma positive_safe : forall (T : list (definition file_rule)),
    (forall d, In d T -> positive true (d_rule d) = true) -> safe T = true.
  Proof.
    intros T H. unfold safe. apply forallb_forall. intros p Hp.
    assert (In (fst p) T) as Hd.
    { rewrite <- (decided_defs T [] []). now apply in_map. }
    assert (forall L (r : rule L), positive true r = true -> not_refs r = []) as Hn.
    { intros L r. induction r using rule_ind'; cbn [positive not_refs]; intros Hpos; auto; try discriminate.
      - induction H0 as [| r rs Hr _ IH]; [reflexivity |]. apply andb_true_iff in Hpos as [H1 H2].
        rewrite Hr, IH; auto.
      - induction H0 as [| r rs Hr _ IH]; [reflexivity |]. apply andb_true_iff in Hpos as [H1 H2].
        rewrite Hr, IH; auto. }
    rewrite (Hn _ _ (H _ Hd)). reflexivity.
  Qed.

  Lemma analyze_least : forall T all s fs gs G,
    loaded T all s -> plain_table T -> (forall d, In d T -> positive true (d_rule d) = true) -> sane fs ->
    fst (analyze R all fs s) = Some (Ok gs) ->
    closed R T fs G -> forall t n, present gs t n -> G t n.
  Proof.
    intros T all s fs gs G Hl Hp Hpos Hsane Ha HG.
    destruct (analyze_ends T all s fs Hl) as [(Hr & gs' & ds & E & Hps) | [_ E]]; [| congruence].
    rewrite Ha in E. injection E as <-.
    apply (passes_invariant (leaf_fr R fs) (lang_of (fold_left add_breakdowns fs []))
             (fun ds gs => incl ds T /\ forall t n, present gs t n -> G t n)) in Hps.
    - apply Hps.
    - intros pre d post g [Hi Hsub] Hne.
      assert (In d T) as Hd by (apply Hi, in_or_app; right; now left).
      split; [intros x Hx; apply Hi; apply in_app_iff in Hx; apply in_or_app; cbn; tauto |].
      intros t n (x & Hx & Et & En). apply in_app_iff in Hx as [Hx | Hx].
      + apply Hsub. exists x; auto.
      + rewrite (fire_plain _ _ (leaf_shape R fs) d g (Hp d Hd) Hne) in Hx. destruct Hx as [<- | []].
        cbn in Et, En. subst. apply HG; [exact Hd |].
        apply (ev_justified R T fs g d Hr Hsane Hd) in Hne.
        unfold justified in *. eapply holds_mono; [apply (Hpos d Hd) | | | | exact Hne]; auto.
    - split; [apply incl_refl |]. intros t n (x & [] & _).
  Qed.

  (** ** One solution *)

  Lemma exact_unique : forall T fs G G', acyclic T ->
    exact R T fs G -> exact R T fs G' -> forall t n, G t n <-> G' t n.
  Proof.
    intros T fs G G' [rank Hrank] HG HG'.
    enough (forall m k, (rank k < m)%nat -> (G (fst k) (snd k) <-> G' (fst k) (snd k))) as H
      by (intros t n; apply (H (S (rank (t, n))) (t, n)); lia).
    induction m as [| m IH]; intros k Hk; [lia |].
    assert (forall d, In d T -> d_type d = fst k -> d_name d = snd k ->
              (justified R fs G d <-> justified R fs G' d)) as Hj.
    { intros d Hd Et En. unfold justified. apply holds_ext; [tauto | tauto |].
      intros k' Hk'. apply IH. specialize (Hrank d k' Hd Hk'). unfold key_of in Hrank.
      rewrite Et, En in Hrank. destruct k; cbn in *. lia. }
    rewrite (HG _ _), (HG' _ _). split; intros (d & Hd & Et & En & Hh); exists d;
      repeat (split; [assumption |]); now apply (Hj d Hd Et En).
  Qed.

  (** ** Only whether a file rule holds matters *)

  Lemma ev_empty : forall (leaf leaf' : file_rule -> list trigger) lang lang' gs r,
    (forall l, In l (leaves r) -> (leaf l = [] <-> leaf' l = [])) -> (forall l p, lang l p = lang' l p) ->
    (ev leaf lang gs r = [] <-> ev leaf' lang' gs r = []).
  Proof.
    intros leaf leaf' lang lang' gs r. induction r using rule_ind'; cbn [ev leaves]; intros Hl Hg.
    - apply Hl. now left.
    - now rewrite Hg.
    - tauto.
    - induction H as [| r rs Hr _ IH]; [tauto |].
      assert (ev leaf lang gs r = [] <-> ev leaf' lang' gs r = []) as E
        by (apply Hr; auto; intros; apply Hl, in_or_app; auto).
      specialize (IH (fun l H => Hl l (in_or_app _ _ _ (or_intror H)))).
      destruct (ev leaf lang gs r), (ev leaf' lang' gs r); try tauto; exfalso; intuition congruence.
    - induction H as [| r rs Hr _ IH]; [tauto |].
      assert (ev leaf lang gs r = [] <-> ev leaf' lang' gs r = []) as E
        by (apply Hr; auto; intros; apply Hl, in_or_app; auto).
      specialize (IH (fun l H => Hl l (in_or_app _ _ _ (or_intror H)))).
      destruct (ev leaf lang gs r), (ev leaf' lang' gs r); try tauto; exfalso; intuition congruence.
    - destruct H as [| r rs Hr _]; [tauto |].
      assert (ev leaf lang gs r = [] <-> ev leaf' lang' gs r = []) as E
        by (apply Hr; auto; intros; apply Hl, in_or_app; auto).
      destruct (ev leaf lang gs r), (ev leaf' lang' gs r); intuition congruence.
  Qed.

  Lemma passes_same : forall fs fs' T fuel seen ds gs, incl ds T -> plain_table T ->
    (forall l, leaf_fr R fs l = [] <-> leaf_fr R fs' l = []) ->
    (forall l p, lang_of (fold_left add_breakdowns fs []) l p = lang_of (fold_left add_breakdowns fs' []) l p) ->
    passes_p (leaf_fr R fs) (lang_of (fold_left add_breakdowns fs [])) fuel seen ds gs =
    passes_p (leaf_fr R fs') (lang_of (fold_left add_breakdowns fs' [])) fuel seen ds gs.
  Proof.
    intros fs fs' T fuel seen ds gs Hi Hp Hl Hg.
    assert (forall ds gs, incl ds T ->
      pass_p (leaf_fr R fs) (lang_of (fold_left add_breakdowns fs [])) ds gs =
      pass_p (leaf_fr R fs') (lang_of (fold_left add_breakdowns fs' [])) ds gs /\
      incl (fst (pass_p (leaf_fr R fs) (lang_of (fold_left add_breakdowns fs [])) ds gs)) T) as Hpass.
    { clear ds gs Hi. induction ds as [| d ds IH]; intros gs Hi; [cbn; auto |].
      assert (In d T) as Hd by (apply Hi; now left).
      assert (incl ds T) as Hi' by (intros x Hx; apply Hi; now right).
      assert (ev (leaf_fr R fs) (lang_of (fold_left add_breakdowns fs [])) gs (d_rule d) =
              ev (leaf_fr R fs') (lang_of (fold_left add_breakdowns fs' [])) gs (d_rule d)) as E.
      { pose proof (ev_empty (leaf_fr R fs) (leaf_fr R fs') _ _ gs (d_rule d) (fun l _ => Hl l) Hg) as He.
        pose proof (ev_plain _ (lang_of (fold_left add_breakdowns fs [])) (leaf_shape R fs) gs _ (Hp d Hd)) as H1.
        pose proof (ev_plain _ (lang_of (fold_left add_breakdowns fs' [])) (leaf_shape R fs') gs _ (Hp d Hd)) as H2.
        destruct (ev (leaf_fr R fs) _ gs (d_rule d)).
        - symmetry. now apply He.
        - rewrite H1 by discriminate. symmetry. apply H2. intros X. apply He in X. discriminate. }
      rewrite !pass_cons, <- E. unfold fire. rewrite <- E.
      destruct (ev (leaf_fr R fs) _ gs (d_rule d)) as [| t ts].
      - destruct (IH gs Hi') as [-> H2]. cbn [fst snd] in *. split; [reflexivity |].
        intros x [<- | Hx]; auto.
      - apply IH, Hi'. }
    revert seen ds gs Hi. induction fuel as [| k IH]; intros seen ds gs Hi; [reflexivity |].
    cbn [passes_p]. destruct (Hpass ds gs Hi) as [E1 E2]. rewrite <- E1.
    destruct (pass_p (leaf_fr R fs) _ ds gs) as [ds1 gs1]. cbn [fst] in E2.
    destruct (seen =? length gs1)%nat; [reflexivity |]. now apply IH.
  Qed.

  Lemma sumZ_perm : forall l l', Permutation l l' -> sumZ l = sumZ l'.
  Proof. intros l l' H. unfold sumZ. induction H; cbn; lia. Qed.
  Lemma filter_perm : forall {A} (p : A -> bool) l l', Permutation l l' -> Permutation (filter p l) (filter p l').
  Proof.
    intros A p l l' H. induction H; cbn; auto.
    - destruct (p x); auto.
    - destruct (p x), (p y); auto using perm_swap.
    - etransitivity; eassumption.
  Qed.
  Lemma existsb_perm : forall {A} (p : A -> bool) l l', Permutation l l' -> existsb p l = existsb p l'.
  Proof. intros A p l l' H. induction H; cbn; try congruence. now rewrite !orb_assoc, (orb_comm (p y)). Qed.

  Theorem analyze_order : forall T all s fs fs', loaded T all s -> plain_table T -> Permutation fs fs' ->
    fst (analyze R all fs s) = fst (analyze R all fs' s).
  Proof.
    intros T all s fs fs' Hl Hp Hper.
    destruct (analyze_pure R T all s fs Hl) as (s1 & _ & _ & ->).
    destruct (analyze_pure R T all s fs' Hl) as (s2 & _ & _ & ->). cbn [fst].
    assert (all_ok R T fs = all_ok R T fs') as ->.
    { unfold all_ok. clear - Hper. induction Hper; cbn; try congruence.
      now rewrite !andb_assoc, (andb_comm (forallb _ _) (forallb _ _)). }
    destruct (all_ok R T fs'); [| reflexivity].
    assert (Permutation (flat_map sf_breakdowns fs) (flat_map sf_breakdowns fs')) as Hb
      by now apply Permutation_flat_map.
    rewrite (passes_same fs fs' T); auto using incl_refl.
    - intros l. unfold leaf_fr, total, found.
      assert (forall k, sumZ (map (fun f => match hits R k f with Ok n => n | Raised _ => 0 end) fs)
                      = sumZ (map (fun f => match hits R k f with Ok n => n | Raised _ => 0 end) fs')) as E
        by (intros k; now apply sumZ_perm, Permutation_map).
      destruct (fr_kind l); try (rewrite E; tauto).
      assert (forall A (x y : list A), Permutation x y -> (x = [] <-> y = [])) as Hnil.
      { intros A x y H. split; intros ->; [now apply Permutation_nil | now apply Permutation_nil, Permutation_sym]. }
      apply Hnil. now apply Permutation_flat_map.
    - intros l p. rewrite !lang_of_spec. unfold code_in.
      rewrite (existsb_perm _ _ _ Hb).
      rewrite (sumZ_perm _ _ (Permutation_map b_count (filter_perm (fun b => String.eqb l (b_name b)) _ _ Hb))).
      rewrite (sumZ_perm _ _ (Permutation_map b_count (filter_perm (fun b => programming (b_name b)) _ _ Hb))).
      reflexivity.
  Qed.
End Main.
