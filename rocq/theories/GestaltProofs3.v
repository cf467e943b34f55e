(** Proofs about sessions, the reader of pom.xml and passes with exceptions. *)
From Coq Require Import String Ascii List ZArith Bool Arith Lia Permutation.
From Verif Require Import Tables GestaltRules GestaltModel GestaltSpec GestaltProofs GestaltStore GestaltProofs2.
Import ListNotations.
Open Scope string_scope.
Open Scope list_scope.
Open Scope nat_scope.

(** * Sessions *)

Lemma find_spec : forall R T all s fs, loaded T all s ->
  exists s', find_gestalts R all fs s = (Raised NoMethodError, s') /\ keeps s s' /\
             length (instances s') = length (instances s) + ffs (all_leaves T).
Proof.
  intros R T all s fs [Hf Ho]. unfold find_gestalts, new_engine.
  destruct (build_all_mapM clone_object all s) as (H1 & H2 & H3).
  destruct (clone_many R (all_leaves T) (all_leaves all) s Ho) as (Hk & Hs & Hd & Hi).
  destruct (build_all clone_object all s) as [ds s1]. cbn [fst snd] in *. subst s1.
  destruct (mapM clone_object (all_leaves all) s) as [l s1]. cbn [fst snd] in *.
  cbn [process]. exists s1. auto.
Qed.

Lemma act_spec : forall R T all s a, loaded T all s ->
  loaded T all (act R all s a) /\ length (instances (act R all s a)) = length (instances s) + ffs (all_leaves T).
Proof.
  intros R T all s [fs | fs] Hl; cbn [act].
  - destruct (analyze_pure R T all s fs Hl) as (s' & Hk & Hi & ->). cbn [snd].
    split; [eapply loaded_keeps; eauto | exact Hi].
  - destruct (find_spec R T all s fs Hl) as (s' & -> & Hk & Hi). cbn [snd].
    split; [eapply loaded_keeps; eauto | exact Hi].
Qed.

Lemma after_loaded : forall R T acts, loaded T (fst (load T)) (after R T acts).
Proof.
  intros R T acts. unfold after.
  enough (forall s, loaded T (fst (load T)) s -> loaded T (fst (load T)) (fold_left (act R (fst (load T))) acts s))
    as H by (apply H, load_spec).
  induction acts as [| a acts IH]; intros s Hs; [exact Hs |]. cbn. apply IH. now apply act_spec.
Qed.

Lemma load_instances : forall T, length (instances (snd (load T))) = length (all_leaves T).
Proof.
  intros T. unfold load. destruct (build_all_mapM new_object T no_store) as (_ & -> & _).
  enough (forall l s, length (instances (snd (mapM new_object l s))) = length (instances s) + length l) as H
    by (rewrite H; reflexivity).
  induction l as [| r l IH]; intros s; cbn [mapM]; [cbn; lia |].
  unfold new_object at 1.
  match goal with |- context [mapM new_object l ?s1] => specialize (IH s1); destruct (mapM new_object l s1) end.
  cbn [snd instances length] in *. rewrite IH, app_length. cbn. lia.
Qed.

Lemma after_instances : forall R T acts,
  length (instances (after R T acts)) = length (all_leaves T) + length acts * ffs (all_leaves T).
Proof.
  intros R T acts. unfold after. rewrite <- load_instances.
  enough (forall s, loaded T (fst (load T)) s ->
    length (instances (fold_left (act R (fst (load T))) acts s))
    = length (instances s) + length acts * ffs (all_leaves T)) as H by (apply H, load_spec).
  induction acts as [| a acts IH]; intros s Hs; cbn [fold_left length]; [lia |].
  destruct (act_spec R T (fst (load T)) s a Hs) as [H1 H2]. rewrite (IH _ H1), H2. lia.
Qed.

Lemma analyze_history : forall R T all s s' fs, loaded T all s -> loaded T all s' ->
  fst (analyze R all fs s) = fst (analyze R all fs s').
Proof.
  intros R T all s s' fs H H'.
  destruct (analyze_pure R T all s fs H) as (s1 & _ & _ & ->).
  destruct (analyze_pure R T all s' fs H') as (s2 & _ & _ & ->). reflexivity.
Qed.

(** * Passes with exceptions *)

Lemma pass_shrinks : forall {L} (leaf : L -> list trigger) c ds m gs ds' m' gs',
  pass leaf c ds m gs = Ok (ds', m', gs') ->
  (ds' = ds /\ gs' = gs) \/ (length ds' < length ds /\ length gs < length gs').
Proof.
  intros L leaf c ds. induction ds as [| d ds IH]; intros m gs ds' m' gs'; cbn [pass].
  - intros E; injection E as <- <- <-. auto.
  - destruct (triggers leaf c gs (d_rule d) m) as [[[| t ts] m1] |]; cbn [bind]; [| | discriminate].
    + destruct (pass leaf c ds m1 gs) as [[[l m2] g] |] eqn:E; cbn [bind]; [| discriminate].
      intros X; injection X as <- <- <-.
      destruct (IH _ _ _ _ _ E) as [[-> ->] | [H1 H2]]; [left; auto | right; cbn; lia].
    + intros E. right. apply IH in E. rewrite app_length in E. cbn in E |- *.
      destruct E as [[-> ->] | [H1 H2]]; [rewrite app_length; cbn |]; lia.
Qed.

Lemma passes_impure_end : forall {L} (leaf : L -> list trigger) c fuel seen ds m gs,
  length ds + (if seen =? length gs then 1 else 2) <= fuel -> passes leaf c fuel seen ds m gs <> None.
Proof.
  intros L leaf c fuel. induction fuel as [| k IH]; intros seen ds m gs Hf.
  - destruct (seen =? length gs); lia.
  - cbn [passes]. destruct (pass leaf c ds m gs) as [[[ds' m'] gs'] |] eqn:E; [| discriminate].
    destruct (pass_shrinks leaf c _ _ _ _ _ _ E) as [[-> ->] | [H1 H2]].
    + destruct (seen =? length gs); [discriminate |]. apply IH. rewrite Nat.eqb_refl. lia.
    + destruct (seen =? length gs'); [discriminate |]. apply IH. rewrite Nat.eqb_refl.
      destruct (seen =? length gs); lia.
Qed.

(** * More files *)

Lemma enough_more : forall R fs extra l, (forall f, In f extra -> exists n, hits R (fr_kind l) f = Ok n) ->
  enough R fs l -> enough R (fs ++ extra) l.
Proof.
  intros R fs extra l Hok. unfold enough.
  assert ((exists ns, Forall2 (fun f n => hits R (fr_kind l) f = Ok n) fs ns /\ (fr_min l <= sumZ ns)%Z) ->
          exists ns, Forall2 (fun f n => hits R (fr_kind l) f = Ok n) (fs ++ extra) ns /\ (fr_min l <= sumZ ns)%Z) as H.
  { intros (ns & F & Hle).
    assert (exists ms, Forall2 (fun f n => hits R (fr_kind l) f = Ok n) extra ms) as (ms & Fm).
    { clear - Hok. induction extra as [| f fs IH]; [exists []; constructor |].
      destruct (Hok f (or_introl eq_refl)) as (n & Hn).
      destruct IH as (ms & Fm); [intros; apply Hok; now right |]. exists (n :: ms). now constructor. }
    exists (ns ++ ms). split; [now apply Forall2_app |]. rewrite sumZ_app.
    assert (0 <= sumZ ms)%Z; [| lia]. apply sumZ_nonneg. intros x Hx.
    destruct (Forall2_In_r _ _ _ x Fm Hx) as (f & _ & Hh). eapply hits_nonneg; eauto. }
  destruct (fr_kind l); try exact H.
  intros (f & Hf & Hm). exists f. split; [apply in_or_app; auto | exact Hm].
Qed.

(** * pom.xml *)

Section Pom.
  Variable R : ruby.

  Definition keeps_ids (m m' : maven) : Prop :=
    m_pom m' = m_pom m /\ m_group m' = m_group m /\ m_artifact m' = m_artifact m.

  Lemma eqb_not_in : forall n l x, ~ In n l -> In x l -> String.eqb n x = false.
  Proof. intros n l x H1 H2. apply String.eqb_neq. intros ->. tauto. Qed.

  Lemma harmless_event : forall e m, harmless e ->
    exists m', maven_event R m e = Ok (m', []) /\ keeps_ids m m'.
  Proof.
    intros e m H. destruct e; cbn [maven_event harmless] in *.
    - rewrite (eqb_not_in name _ "project" H), (eqb_not_in name _ "plugin" H), (eqb_not_in name _ "dependency" H)
        by (cbn; tauto).
      exists m. repeat split.
    - rewrite (eqb_not_in name _ "groupId" H), (eqb_not_in name _ "artifactId" H),
        (eqb_not_in name _ "plugin" H), (eqb_not_in name _ "dependency" H) by (cbn; tauto).
      exists m. repeat split.
    - eexists. split; [reflexivity |]. repeat split.
    - exists m. repeat split.
  Qed.

  Lemma harmless_many : forall n m, Forall harmless n -> exists m', keeps_ids m m' /\
    forall es, maven_calls R m (n ++ es) = maven_calls R m' es.
  Proof.
    intros n m H. revert m. induction H as [| e n He _ IH]; intros m.
    - exists m. split; [repeat split | reflexivity].
    - destruct (harmless_event e m He) as (m1 & E & K1 & K2 & K3).
      destruct (IH m1) as (m2 & (L1 & L2 & L3) & Hes). exists m2.
      split; [repeat split; congruence |]. intros es. cbn [app maven_calls]. rewrite E. cbn [bind].
      rewrite Hes. destruct (maven_calls R m2 es); reflexivity.
  Qed.

  Lemma group_events : forall t m, exists m',
    m_pom m' = m_pom m /\ m_group m' = Some (clean t) /\ m_artifact m' = m_artifact m /\
    forall es, maven_calls R m (id_events "groupId" t ++ es) = maven_calls R m' es.
  Proof.
    intros t m. exists (mkMaven (m_pom m) (Some (clean t)) (m_artifact m) (Some t)). do 3 (split; [reflexivity |]).
    intros es. cbn [id_events app maven_calls maven_event String.eqb Ascii.eqb Bool.eqb orb bind m_text m_pom m_group m_artifact].
    match goal with |- context [maven_calls R ?x es] => destruct (maven_calls R x es) end; reflexivity.
  Qed.
  Lemma artifact_events : forall t m, exists m',
    m_pom m' = m_pom m /\ m_group m' = m_group m /\ m_artifact m' = Some (clean t) /\
    forall es, maven_calls R m (id_events "artifactId" t ++ es) = maven_calls R m' es.
  Proof.
    intros t m. exists (mkMaven (m_pom m) (m_group m) (Some (clean t)) (Some t)). do 3 (split; [reflexivity |]).
    intros es. cbn [id_events app maven_calls maven_event String.eqb Ascii.eqb Bool.eqb orb bind m_text m_pom m_group m_artifact].
    match goal with |- context [maven_calls R ?x es] => destruct (maven_calls R x es) end; reflexivity.
  Qed.

  Lemma outside_many : forall o m, outside o -> exists m', m_pom m' = m_pom m /\
    forall es, maven_calls R m (o ++ es) = maven_calls R m' es.
  Proof.
    intros o m H. revert m. induction H as [| e o He _ IH | n t o Hn _ IH]; intros m.
    - exists m. auto.
    - destruct (harmless_many [e] m (Forall_cons _ He (Forall_nil _))) as (m1 & (K1 & _) & H1).
      destruct (IH m1) as (m2 & L1 & H2). exists m2. split; [congruence |].
      intros es. rewrite <- H2, <- H1. reflexivity.
    - assert (exists m1, m_pom m1 = m_pom m /\
                forall es, maven_calls R m (id_events n t ++ es) = maven_calls R m1 es) as (m1 & K1 & H1).
      { destruct Hn as [<- | [<- | []]].
        - destruct (group_events t m) as (m1 & K1 & _ & _ & H1). eauto.
        - destruct (artifact_events t m) as (m1 & K1 & _ & _ & H1). eauto. }
      destruct (IH m1) as (m2 & L1 & H2). exists m2. split; [congruence |].
      intros es. rewrite <- app_assoc, H1, H2. reflexivity.
  Qed.

  Definition report (i : item) : string * string * string :=
    (i_type i, clean (i_group i), clean (i_artifact i)).

  Lemma start_item' : forall t attrs m, In t ["plugin"; "dependency"] ->
    exists m', m_pom m' = m_pom m /\ m_group m' = None /\ m_artifact m' = None /\
    forall es, maven_calls R m (XStart t attrs :: es) = maven_calls R m' es.
  Proof.
    intros t attrs m Ht. exists (mkMaven (m_pom m) None None (m_text m)). do 3 (split; [reflexivity |]).
    intros es. destruct Ht as [<- | [<- | []]];
      cbn [maven_calls maven_event String.eqb Ascii.eqb Bool.eqb orb bind app];
      match goal with |- context [maven_calls R ?x es] => destruct (maven_calls R x es) end; reflexivity.
  Qed.
  Lemma start_item : forall t attrs m, In t ["plugin"; "dependency"] ->
    exists m', m_pom m' = m_pom m /\
    forall es, maven_calls R m (XStart t attrs :: es) = maven_calls R m' es.
  Proof.
    intros t attrs m Ht. destruct (start_item' t attrs m Ht) as (m' & H1 & _ & _ & H2). eauto.
  Qed.

  Lemma end_item : forall t g a m es, In t ["plugin"; "dependency"] ->
    m_group m = Some g -> m_artifact m = Some a ->
    maven_calls R m (XEnd t :: es) =
    bind (maven_calls R m es) (fun cs => Ok ((if m_pom m then [(t, g, a)] else []) ++ cs)).
  Proof.
    intros t g a m es Ht Hg Ha. destruct Ht as [<- | [<- | []]];
      cbn [maven_calls maven_event String.eqb Ascii.eqb Bool.eqb orb bind app];
      rewrite Hg, Ha; destruct (m_pom m); cbn [bind app]; reflexivity.
  Qed.

  Lemma item_many : forall i es0 m, item_events i es0 -> exists m', m_pom m' = m_pom m /\
    forall es, maven_calls R m (es0 ++ es) =
      bind (maven_calls R m' es) (fun cs => Ok ((if m_pom m then [report i] else []) ++ cs)).
  Proof.
    intros i es0 m H. destruct H as [t g a attrs n1 n2 n3 Ht N1 N2 N3 | t g a attrs n1 n2 n3 Ht N1 N2 N3].
    - destruct (start_item t attrs m Ht) as (m1 & P1 & E1).
      destruct (harmless_many n1 m1 N1) as (m2 & (P2 & _) & E2).
      destruct (group_events g m2) as (m3 & P3 & G3 & _ & E3).
      destruct (harmless_many n2 m3 N2) as (m4 & (P4 & G4 & _) & E4).
      destruct (artifact_events a m4) as (m5 & P5 & G5 & A5 & E5).
      destruct (harmless_many n3 m5 N3) as (m6 & (P6 & G6 & A6) & E6).
      exists m6. split; [congruence |]. intros es.
      repeat (rewrite <- app_assoc || cbn [app]).
      rewrite E1, E2. rewrite E3, E4. rewrite E5, E6.
      rewrite (end_item t (clean g) (clean a)) by congruence.
      assert (m_pom m6 = m_pom m) as -> by congruence. reflexivity.
    - destruct (start_item t attrs m Ht) as (m1 & P1 & E1).
      destruct (harmless_many n1 m1 N1) as (m2 & (P2 & _) & E2).
      destruct (artifact_events a m2) as (m3 & P3 & G3 & A3 & E3).
      destruct (harmless_many n2 m3 N2) as (m4 & (P4 & G4 & A4) & E4).
      destruct (group_events g m4) as (m5 & P5 & G5 & A5 & E5).
      destruct (harmless_many n3 m5 N3) as (m6 & (P6 & G6 & A6) & E6).
      exists m6. split; [congruence |]. intros es.
      repeat (rewrite <- app_assoc || cbn [app]).
      rewrite E1, E2. rewrite E3, E4. rewrite E5, E6.
      rewrite (end_item t (clean g) (clean a)) by congruence.
      assert (m_pom m6 = m_pom m) as -> by congruence. reflexivity.
  Qed.

  Lemma incomplete_many : forall es0 m, incomplete_events es0 -> exists m', m_pom m' = m_pom m /\
    forall es, maven_calls R m (es0 ++ es) = maven_calls R m' es.
  Proof.
    intros es0 m H. destruct H as [t attrs n ids n1 n2 Ht Hn N1 N2 Hids].
    destruct (start_item' t attrs m Ht) as (m1 & P1 & G1 & A1 & E1).
    destruct (harmless_many n1 m1 N1) as (m2 & (P2 & G2 & A2) & E2).
    assert (exists m3, m_pom m3 = m_pom m2 /\ (m_group m3 = None \/ m_artifact m3 = None) /\
              forall es, maven_calls R m2 (ids ++ es) = maven_calls R m3 es) as (m3 & P3 & N3 & E3).
    { destruct Hids as [-> | (x & ->)].
      - exists m2. split; [reflexivity |]. split; [left; congruence | reflexivity].
      - destruct Hn as [<- | [<- | []]].
        + destruct (group_events x m2) as (m3 & P3 & G3 & A3 & E3). exists m3.
          split; [exact P3 |]. split; [right; congruence | exact E3].
        + destruct (artifact_events x m2) as (m3 & P3 & G3 & A3 & E3). exists m3.
          split; [exact P3 |]. split; [left; congruence | exact E3]. }
    destruct (harmless_many n2 m3 N2) as (m4 & (P4 & G4 & A4) & E4).
    exists m4. split; [congruence |]. intros es.
    repeat (rewrite <- app_assoc || cbn [app]). rewrite E1, E2, E3, E4.
    destruct Ht as [<- | [<- | []]];
      cbn [maven_calls maven_event String.eqb Ascii.eqb Bool.eqb orb bind app];
      destruct N3 as [N | N]; rewrite ?G4, ?A4, N; destruct (m_pom m4); try destruct (m_group m3);
      cbn [bind app]; destruct (maven_calls R m4 es); reflexivity.
  Qed.

  Lemma project_many : forall is es m, project_events is es ->
    maven_calls R m es = Ok (if m_pom m then map report is else []).
  Proof.
    intros is es m H. revert m.
    induction H as [o Ho | o i es is rest Ho Hi _ IH | o es is rest Ho Hi _ IH]; intros m.
    - destruct (outside_many o m Ho) as (m' & P & E). rewrite <- (app_nil_r o), E. cbn.
      destruct (m_pom m); reflexivity.
    - destruct (outside_many o m Ho) as (m1 & P1 & E1). rewrite E1.
      destruct (item_many i es m1 Hi) as (m2 & P2 & E2). rewrite E2, IH. cbn [bind].
      rewrite P2, P1. destruct (m_pom m); reflexivity.
    - destruct (outside_many o m Ho) as (m1 & P1 & E1). rewrite E1.
      destruct (incomplete_many es m1 Hi) as (m2 & P2 & E2). rewrite E2, IH.
      now rewrite P2, P1.
  Qed.

  (** When reading raises. *)
  Lemma maven_raises : forall es m x, maven_calls R m es = Raised x ->
    m_text m = None /\ exists a n b, es = a ++ XEnd n :: b /\ In n ["groupId"; "artifactId"] /\
    forall t, ~ In (XText t) a.
  Proof.
    induction es as [| e es IH]; intros m x; cbn [maven_calls]; [discriminate |].
    destruct (maven_event R m e) as [[m' c] | y] eqn:E; cbn [bind].
    - destruct (maven_calls R m' es) as [cs | z] eqn:E2; cbn [bind]; [discriminate |]. intros _.
      destruct (IH m' z E2) as (Ht & a & n & b & -> & Hn & Ha).
      assert (m_text m = None /\ forall t, e <> XText t) as [Hm He].
      { revert E. unfold maven_event. destruct e.
        - destruct (String.eqb name "project"); [| destruct (String.eqb name "plugin" || String.eqb name "dependency")];
            intros E; injection E as <- <-; split; auto; congruence.
        - destruct (String.eqb name "groupId"); [destruct (m_text m) eqn:M; [| discriminate];
            intros E; injection E as <- <-; cbn in Ht; discriminate |].
          destruct (String.eqb name "artifactId"); [destruct (m_text m) eqn:M; [| discriminate];
            intros E; injection E as <- <-; cbn in Ht; discriminate |].
          destruct (String.eqb name "plugin" || String.eqb name "dependency");
            [destruct (m_pom m), (m_group m), (m_artifact m) |];
            intros E; injection E as <- <-; split; auto; congruence.
        - intros E; injection E as <- <-. discriminate.
        - intros E; injection E as <- <-. split; auto; congruence. }
      split; [exact Hm |]. exists (e :: a), n, b. split; [reflexivity |]. split; [exact Hn |].
      intros t [X | X]; [congruence | now apply (Ha t)].
    - intros X; injection X as <-. revert E. unfold maven_event. destruct e; try discriminate.
      + destruct (String.eqb name "project"); [| destruct (String.eqb name "plugin" || String.eqb name "dependency")];
          discriminate.
      + destruct (String.eqb_spec name "groupId") as [-> |].
        { destruct (m_text m); [discriminate |]. intros _. split; [reflexivity |].
          exists [], "groupId", es. cbn. intuition. }
        destruct (String.eqb_spec name "artifactId") as [-> |].
        { destruct (m_text m); [discriminate |]. intros _. split; [reflexivity |].
          exists [], "artifactId", es. cbn. intuition. }
        destruct (String.eqb name "plugin" || String.eqb name "dependency"); [| discriminate].
        destruct (m_pom m), (m_group m), (m_artifact m); discriminate.
  Qed.

  Lemma maven_raises_conv : forall a n b m, m_text m = None -> (forall t, ~ In (XText t) a) ->
    In n ["groupId"; "artifactId"] -> maven_calls R m (a ++ XEnd n :: b) = Raised NoMethodError.
  Proof.
    intros a. induction a as [| e a IH]; intros n b m Hm Ha Hn.
    - cbn [app maven_calls]. destruct Hn as [<- | [<- | []]]; cbn; rewrite Hm; reflexivity.
    - cbn [app maven_calls].
      assert (maven_event R m e = Raised NoMethodError \/
              exists m' c, maven_event R m e = Ok (m', c) /\ m_text m' = None) as [-> | (m' & c & -> & Hm')].
      { unfold maven_event. destruct e.
        - right. destruct (String.eqb name "project"); [| destruct (String.eqb name "plugin" || String.eqb name "dependency")]; eauto.
        - destruct (String.eqb name "groupId"); [left; now rewrite Hm |].
          destruct (String.eqb name "artifactId"); [left; now rewrite Hm |]. right.
          destruct (String.eqb name "plugin" || String.eqb name "dependency");
            [destruct (m_pom m), (m_group m), (m_artifact m) |]; eauto.
        - exfalso. apply (Ha text). now left.
        - right; eauto. }
      + reflexivity.
      + cbn [bind]. rewrite IH; auto. intros t Ht. apply (Ha t). now right.
  Qed.
End Pom.

(** * csproj *)

Lemma csproj_no_project : forall R es b, no_project es ->
  csproj_calls R b es = if b then flat_map import_of es else [].
Proof.
  intros R es b. induction es as [| e es IH]; intros H; [destruct b; reflexivity |].
  assert (no_project es) as H' by (intros a Ha; apply (H a); now right).
  specialize (IH H'). cbn [csproj_calls flat_map].
  destruct e as [n attrs | n | t |]; try (rewrite IH; destruct b; reflexivity).
  destruct (String.eqb_spec n "Project") as [-> | Hn]; [exfalso; apply (H attrs); now left |].
  destruct (String.eqb_spec n "Import") as [-> | Hi].
  - cbn [import_of]. rewrite IH. unfold attr. destruct b; [| reflexivity].
    destruct (find _ attrs) as [[k v] |]; reflexivity.
  - rewrite IH. replace (import_of (XStart n attrs)) with (@nil string); [destruct b; reflexivity |].
    unfold import_of.
    repeat match goal with |- context [match ?x with _ => _ end] => is_var x; destruct x; try reflexivity end.
    now elim Hi.
Qed.

Lemma csproj_app : forall R o attrs es b, no_project o ->
  csproj_calls R b (o ++ XStart "Project" attrs :: es) =
  (if b then flat_map import_of o else []) ++ csproj_calls R (right_namespace R csproj_ns attrs) es.
Proof.
  intros R o attrs es b. induction o as [| e o IH]; intros H.
  - cbn. destruct b; reflexivity.
  - assert (no_project o) as H' by (intros a Ha; apply (H a); now right). specialize (IH H').
    cbn [app csproj_calls flat_map].
    destruct e as [n at' | n | t |]; try (rewrite IH; destruct b; reflexivity).
    destruct (String.eqb_spec n "Project") as [-> | Hn]; [exfalso; apply (H at'); now left |].
    destruct (String.eqb_spec n "Import") as [-> | Hi].
    + cbn [import_of]. rewrite IH. unfold attr. destruct b; [| reflexivity].
      destruct (find _ at') as [[k v] |]; reflexivity.
    + rewrite IH. replace (import_of (XStart n at')) with (@nil string); [destruct b; reflexivity |].
      unfold import_of.
      repeat match goal with |- context [match ?x with _ => _ end] => is_var x; destruct x; try reflexivity end.
      now elim Hi.
Qed.

(** * Rules that ask for one hit *)

Open Scope Z_scope.

Lemma language_breakdown_spec : forall f l b, language_breakdown f l = Some b -> code_of f l (b_code b).
Proof.
  intros f l b. unfold language_breakdown, code_of. generalize (sf_breakdowns f). intros bs.
  induction bs as [| x bs IH]; cbn [find]; [discriminate |].
  destruct (String.eqb_spec (b_name x) l) as [E | E].
  - intros H; injection H as ->. exists [], b, bs. repeat split; auto.
  - intros H. destruct (IH H) as (u & c & v & -> & H1 & H2 & H3).
    exists (x :: u), c, v. repeat split; auto. intros b' [<- | Hb]; auto.
Qed.

Lemma code_of_breakdown : forall f l code, code_of f l code ->
  exists b, language_breakdown f l = Some b /\ b_code b = code.
Proof.
  intros f l code (u & b & v & E & H1 & H2 & H3). exists b. split; [| exact H2].
  unfold language_breakdown. rewrite E. clear E. induction u as [| x u IH]; cbn [app find].
  - now rewrite H1, String.eqb_refl.
  - destruct (String.eqb_spec (b_name x) l) as [X | X]; [exfalso; apply (H3 x); [now left | exact X] |].
    apply IH. intros b' Hb. apply H3. now right.
Qed.

Lemma no_breakdown : forall f l, language_breakdown f l = None <-> forall b, In b (sf_breakdowns f) -> b_name b <> l.
Proof.
  intros f l. unfold language_breakdown. split.
  - intros H b Hb. apply (find_none _ _ H) in Hb. now apply String.eqb_neq in Hb.
  - intros H. destruct (find _ _) as [b |] eqn:E; [| reflexivity].
    apply find_some in E as [Hb E]. apply String.eqb_eq in E. now elim (H b Hb).
Qed.

Lemma length_pos : forall {A} (l : list A), 1 <= Z.of_nat (length l) <-> l <> [].
Proof. intros A [| x l]; cbn [length]; [split; [lia | congruence] | split; [discriminate | lia]]. Qed.

Lemma count_if_pos : forall {A} (p : A -> bool) l, 1 <= count_if p l <-> exists x, In x l /\ p x = true.
Proof.
  intros A p l. unfold count_if. rewrite length_pos. split.
  - destruct (filter p l) as [| x r] eqn:E; [congruence |]. intros _. exists x.
    apply filter_In. rewrite E. now left.
  - intros (x & Hx) E. apply filter_In in Hx. rewrite E in Hx. destruct Hx.
Qed.

Lemma matches_spec : forall R x s, matches R x s = true <-> re_match R x s <> None.
Proof. intros R x s. unfold matches. destruct (re_match R x s); split; congruence. Qed.

Lemma sumZ_pos : forall l, (forall x, In x l -> 0 <= x) -> (1 <= sumZ l <-> exists x, In x l /\ 1 <= x).
Proof.
  intros l. induction l as [| y l IH]; intros H.
  - cbn. split; [lia | intros (x & [] & _)].
  - change (sumZ (y :: l)) with (y + sumZ l). specialize (IH (fun x Hx => H x (or_intror Hx))).
    pose proof (H y (or_introl eq_refl)) as Hy.
    pose proof (sumZ_nonneg l (fun x Hx => H x (or_intror Hx))) as Hl. split.
    + intros Hs. destruct (Z.le_gt_cases 1 y) as [Hc | Hc]; [exists y; split; [now left | exact Hc] |].
      destruct (proj1 IH ltac:(lia)) as (x & Hx & Hp). exists x. split; [now right | exact Hp].
    + intros (x & [<- | Hx] & Hp); [lia |]. assert (1 <= sumZ l) by (apply IH; eauto). lia.
Qed.

(** A regular expression that matches has at least the whole match. *)
Definition whole_match (R : ruby) : Prop := forall x s m, re_match R x s = Some m -> m <> [].

Lemma hits_sees : forall R k f n, whole_match R ->
  hits R k f = Ok n -> match k with FindFilenames _ _ => False | _ => True end -> (1 <= n <-> sees R k f).
Proof.
  intros R k f n HW Hh Hk. revert Hh. destruct k as [hs | ns | [l |] ks | ks | x | x | x | t gr ar | x i]; cbn [hits sees].
  - (* CHeaders *)
    set (lang := fun l => match language_breakdown f l with
                          | None => 0
                          | Some b => match re_match R (header_re hs) (b_code b) with
                                      | Some m => Z.of_nat (length m) | None => 0 end end).
    assert (forall l, 0 <= lang l) as H0.
    { intros l. unfold lang. destruct (language_breakdown f l); [| lia]. destruct (re_match R _ _); lia. }
    assert (forall l, 1 <= lang l <-> exists code, code_of f l code /\ re_match R (header_re hs) code <> None) as H1.
    { intros l. unfold lang. split.
      - destruct (language_breakdown f l) as [b |] eqn:E; [| lia]. intros H.
        exists (b_code b). split; [now apply language_breakdown_spec |].
        destruct (re_match R (header_re hs) (b_code b)); [discriminate | lia].
      - intros (code & Hc & Hm). apply code_of_breakdown in Hc as (b & -> & ->).
        destruct (re_match R (header_re hs) code) as [m |] eqn:E; [| congruence].
        apply length_pos. eapply HW; eauto. }
    fold (lang "c") (lang "cpp"). unfold header_re in H1.
    destruct (sf_polyglot f) as [p |].
    + destruct (String.eqb_spec p "c") as [-> | Hc]; [| destruct (String.eqb_spec p "cpp") as [-> | Hcpp]];
        cbn [orb]; intros E; injection E as <-.
      3:{ split; [lia |]. intros (l & code & _ & [X | X] & _); congruence. }
      all: split; [intros Hs | intros (l & code & Hl & _ & Hc' & Hm)].
      all: try (assert (1 <= lang "c" \/ 1 <= lang "cpp") as [Hx | Hx]
                  by (pose proof (H0 "c"); pose proof (H0 "cpp"); lia);
                apply H1 in Hx as (code & X1 & X2);
                first [solve [exists "c", code; cbn; auto] | solve [exists "cpp", code; cbn; auto]]).
      all: pose proof (H0 "c"); pose proof (H0 "cpp");
           assert (1 <= lang l) by (apply H1; eauto);
           destruct Hl as [<- | [<- | []]]; lia.
    + intros E; injection E as <-. split; [lia |]. intros (l & code & _ & [X | X] & _); discriminate X.
  - (* Filenames *)
    intros E; injection E as <-. pose proof (matches_spec R (filename_re ns) (sf_path f)) as M.
    unfold filename_re in *. destruct (matches R _ (sf_path f)); [split; [intros _; now apply M | lia] |].
    split; [lia |]. intros H. apply M in H. discriminate.
  - (* Keywords of a language *)
    destruct (language_breakdown f l) as [b |] eqn:E; intros X; injection X as <-.
    + rewrite length_pos. split.
      * intros H. exists (b_code b). split; [now apply language_breakdown_spec | exact H].
      * intros (code & Hc & H). apply code_of_breakdown in Hc as (b' & E' & <-).
        rewrite E in E'. injection E' as <-. exact H.
    + split; [lia |]. intros (code & Hc & _). apply code_of_breakdown in Hc as (b' & E' & _). congruence.
  - (* Keywords *)
    intros X; injection X as <-. rewrite sumZ_pos.
    + split.
      * intros (n & Hn & Hp). apply in_map_iff in Hn as (b & <- & Hb). exists b.
        split; [exact Hb |]. now apply length_pos.
      * intros (b & Hb & H). eexists. split; [apply in_map_iff; exists b; split; [reflexivity | exact Hb] |].
        now apply length_pos.
    + intros n Hn. apply in_map_iff in Hn as (b & <- & _). lia.
  - (* CKeywords *)
    destruct (language_breakdown f "c") as [b |] eqn:E.
    + intros X; injection X as <-. rewrite length_pos. split.
      * intros H. exists (b_code b). split; [left; now apply language_breakdown_spec | exact H].
      * intros (code & [Hc | [_ Hno]] & H).
        -- apply code_of_breakdown in Hc as (b' & E' & <-). rewrite E in E'. injection E' as <-. exact H.
        -- apply no_breakdown in Hno. congruence.
    + destruct (language_breakdown f "cpp") as [b |] eqn:E2; intros X; injection X as <-.
      * rewrite length_pos. split.
        -- intros H. exists (b_code b).
           split; [right; split; [now apply language_breakdown_spec | now apply no_breakdown] | exact H].
        -- intros (code & [Hc | [Hc _]] & H); apply code_of_breakdown in Hc as (b' & E' & <-); [congruence |].
           rewrite E2 in E'. injection E' as <-. exact H.
      * split; [lia |]. intros (code & [Hc | [Hc _]] & H); apply code_of_breakdown in Hc as (b' & E' & <-); congruence.
  - (* JavaImport *)
    destruct (language_breakdown f "java") as [b |] eqn:E; intros X; injection X as <-.
    + rewrite count_if_pos. split.
      * intros (m & Hm & Hp). destruct m as [| [g |] gs]; cbn in Hp; try discriminate.
        exists (b_code b), g, gs. split; [now apply language_breakdown_spec |]. split; [exact Hm | now apply matches_spec].
      * intros (code & g & gs & Hc & Hin & Hm). apply code_of_breakdown in Hc as (b' & E' & <-).
        rewrite E in E'. injection E' as <-. exists (Some g :: gs). split; [exact Hin |]. now apply matches_spec.
    + split; [lia |]. intros (code & g & gs & Hc & _). apply code_of_breakdown in Hc as (b' & E' & _). congruence.
  - (* CSharpUsing *)
    destruct (language_breakdown f "csharp") as [b |] eqn:E; intros X; injection X as <-.
    + rewrite count_if_pos. split.
      * intros (m & Hm & Hp). destruct m as [| [g |] gs]; cbn in Hp; try discriminate.
        exists (b_code b), g, gs. split; [now apply language_breakdown_spec |]. split; [exact Hm | now apply matches_spec].
      * intros (code & g & gs & Hc & Hin & Hm). apply code_of_breakdown in Hc as (b' & E' & <-).
        rewrite E in E'. injection E' as <-. exists (Some g :: gs). split; [exact Hin |]. now apply matches_spec.
    + split; [lia |]. intros (code & g & gs & Hc & _). apply code_of_breakdown in Hc as (b' & E' & _). congruence.
  - (* CsprojImport *)
    pose proof (matches_spec R csproj_re (sf_name f)) as M. unfold csproj_re in *.
    destruct (matches R _ (sf_name f)).
    + destruct (language_breakdown f "xml") as [b |] eqn:E; intros X; injection X as <-.
      * rewrite count_if_pos. split.
        -- intros (g & Hg & Hp). exists (b_code b), g.
           split; [now apply M |]. split; [now apply language_breakdown_spec |]. split; [exact Hg | now apply matches_spec].
        -- intros (code & g & _ & Hc & Hin & Hm). apply code_of_breakdown in Hc as (b' & E' & <-).
           rewrite E in E'. injection E' as <-. exists g. split; [exact Hin |]. now apply matches_spec.
      * split; [lia |]. intros (code & g & _ & Hc & _). apply code_of_breakdown in Hc as (b' & E' & _). congruence.
    + intros X; injection X as <-. split; [lia |]. intros (code & g & Hm & _). apply M in Hm. discriminate.
  - (* Maven *)
    pose proof (matches_spec R pom_re (sf_name f)) as M. unfold pom_re in *.
    destruct (matches R _ (sf_name f)).
    + destruct (language_breakdown f "xml") as [b |] eqn:E.
      * destruct (maven_calls R maven_new (xml_stream R (b_code b))) as [cs | e] eqn:Ec; cbn [bind]; [| discriminate].
        intros X; injection X as <-. rewrite count_if_pos. split.
        -- intros ([[t' g] a] & Hg & Hp). apply andb_true_iff in Hp as [Hp H3]. apply andb_true_iff in Hp as [H1 H2].
           apply String.eqb_eq in H1. subst t'. exists (b_code b), cs, g, a.
           split; [now apply M |]. split; [now apply language_breakdown_spec |]. split; [exact Ec |].
           split; [exact Hg |]. split; now apply matches_spec.
        -- intros (code & cs' & g & a & _ & Hc & Ec' & Hin & H1 & H2). apply code_of_breakdown in Hc as (b' & E' & <-).
           rewrite E in E'. injection E' as <-. rewrite Ec in Ec'. injection Ec' as <-.
           exists (t, g, a). split; [exact Hin |]. rewrite String.eqb_refl. cbn [andb].
           apply andb_true_iff. split; now apply matches_spec.
      * intros X; injection X as <-. split; [lia |].
        intros (code & cs & g & a & _ & Hc & _). apply code_of_breakdown in Hc as (b' & E' & _). congruence.
    + intros X; injection X as <-. split; [lia |]. intros (code & cs & g & a & Hm & _). apply M in Hm. discriminate.
  - destruct Hk.
Qed.

Lemma Forall2_In_l : forall {A B} (P : A -> B -> Prop) l l' x, Forall2 P l l' -> In x l ->
  exists y, In y l' /\ P x y.
Proof.
  intros A B P l l' x F. induction F as [| a b l l' H F IH]; intros Hx; [destruct Hx |].
  destruct Hx as [<- | Hx]; [exists b; split; [now left | exact H] |].
  destruct (IH Hx) as (y & Hy & Hp). exists y. split; [now right | exact Hp].
Qed.

Lemma enough_sees : forall R fs l, whole_match R -> fr_min l = 1 ->
  (forall f, In f fs -> exists n, hits R (fr_kind l) f = Ok n) ->
  (enough R fs l <-> exists f, In f fs /\ sees R (fr_kind l) f).
Proof.
  intros R fs l HW Hm Hok.
  assert (exists ns, Forall2 (fun f n => hits R (fr_kind l) f = Ok n) fs ns) as HF.
  { clear - Hok; induction fs as [| x fs IH]; [exists []; constructor |].
    destruct (Hok x (or_introl eq_refl)) as (n & Hn).
    destruct IH as (ns & F); [intros; apply Hok; now right |]. exists (n :: ns); now constructor. }
  assert (match fr_kind l with FindFilenames _ _ => True | _ =>
    (exists ns, Forall2 (fun f n => hits R (fr_kind l) f = Ok n) fs ns /\ fr_min l <= sumZ ns) <->
    exists f, In f fs /\ sees R (fr_kind l) f end) as H.
  { destruct (fr_kind l) eqn:K; try exact I; rewrite Hm; (split;
      [ intros (ns & F & Hs); apply sumZ_pos in Hs;
        [ destruct Hs as (n & Hn & Hp); destruct (Forall2_In_r _ _ _ n F Hn) as (f & Hf & Hh);
          exists f; split; [exact Hf |]; apply (hits_sees R _ f n HW Hh I); exact Hp
        | intros n Hn; destruct (Forall2_In_r _ _ _ n F Hn) as (f & Hf & Hh); eapply hits_nonneg; eauto ]
      | intros (f & Hf & Hs);
        destruct HF as (ns & F);
        exists ns; split; [exact F |]; apply sumZ_pos;
        [ intros n Hn; destruct (Forall2_In_r _ _ _ n F Hn) as (f' & Hf' & Hh); eapply hits_nonneg; eauto
        | destruct (Forall2_In_l _ _ _ f F Hf) as (n & Hn & Hh);
          exists n; split; [exact Hn |]; apply (hits_sees R _ f n HW Hh I); exact Hs ]]). }
  unfold enough. destruct (fr_kind l) eqn:K; try exact H. cbn [sees]. tauto.
Qed.

(** * Cleaned identifiers *)

Lemma lstrip_app : forall a b, forallb is_space a = true -> lstrip (a ++ b) = lstrip b.
Proof.
  intros a b. induction a as [| c a IH]; cbn; [reflexivity |]. intros H. apply andb_true_iff in H as [-> H]. auto.
Qed.
Lemma lstrip_id : forall c l, is_space c = false -> lstrip (c :: l) = c :: l.
Proof. intros c l H. cbn. now rewrite H. Qed.
Lemma forallb_rev : forall {A} (p : A -> bool) l, forallb p (rev l) = forallb p l.
Proof.
  intros A p l. induction l as [| x l IH]; [reflexivity |]. cbn [rev forallb].
  rewrite forallb_app, IH. cbn. destruct (p x), (forallb p l); reflexivity.
Qed.

Lemma strip_core : forall a b c l d m, forallb is_space a = true -> forallb is_space b = true ->
  is_space c = false -> is_space d = false -> c :: l = m ++ [d] ->
  strip (a ++ (c :: l) ++ b) = c :: l.
Proof.
  intros a b c l d m Ha Hb Hc Hd E. unfold strip. rewrite lstrip_app by exact Ha.
  change ((c :: l) ++ b) with (c :: l ++ b). rewrite lstrip_id by exact Hc.
  change (c :: l ++ b) with ((c :: l) ++ b). rewrite rev_app_distr, lstrip_app by now rewrite forallb_rev.
  rewrite E, rev_app_distr. cbn [rev app]. rewrite lstrip_id by exact Hd.
  change (d :: rev m) with ([d] ++ rev m). rewrite rev_app_distr, rev_involutive. reflexivity.
Qed.
Lemma strip_space : forall a, forallb is_space a = true -> strip a = [].
Proof. intros a H. unfold strip. rewrite <- (app_nil_r a), lstrip_app by exact H. reflexivity. Qed.

Lemma drop_plain : forall l fuel, (length l <= fuel)%nat -> ~ In "$"%char l -> drop_variables fuel l = l.
Proof.
  induction l as [| c l IH]; intros [| k] Hf Hn; cbn [drop_variables length] in *; try reflexivity; try lia.
  destruct (Ascii.eqb_spec c "$") as [-> | _]; [elim Hn; now left |].
  rewrite IH; [reflexivity | lia | intros H; apply Hn; now right].
Qed.

Lemma after_none : forall l, ~ In "}"%char l -> after_last_brace l = None.
Proof.
  induction l as [| c l IH]; intros H; cbn [after_last_brace]; [reflexivity |].
  destruct (Ascii.eqb c "010"); [reflexivity |]. rewrite IH by (intros X; apply H; now right).
  destruct (Ascii.eqb_spec c "}") as [-> | _]; [elim H; now left | reflexivity].
Qed.
Lemma after_some : forall b c, ~ In "010"%char b -> ~ In "}"%char c -> after_last_brace (b ++ "}"%char :: c) = Some c.
Proof.
  intros b c. induction b as [| x b IH]; intros Hb Hc; cbn [app after_last_brace].
  - cbn. now rewrite after_none.
  - destruct (Ascii.eqb_spec x "010") as [-> | _]; [elim Hb; now left |].
    rewrite IH; [reflexivity | intros H; apply Hb; now right | exact Hc].
Qed.

Lemma drop_one : forall a b c fuel, (length (a ++ "$"%char :: "{"%char :: b ++ "}"%char :: c) <= fuel)%nat ->
  ~ In "$"%char a -> ~ In "010"%char b -> ~ In "}"%char c -> ~ In "$"%char c ->
  drop_variables fuel (a ++ "$"%char :: "{"%char :: b ++ "}"%char :: c) = a ++ c.
Proof.
  induction a as [| x a IH]; intros b c [| k] Hf Ha Hb Hc Hd; try (cbn in Hf; lia).
  - cbn [app drop_variables]. rewrite Ascii.eqb_refl. rewrite Ascii.eqb_refl, after_some by assumption.
    apply drop_plain; [| exact Hd]. cbn in Hf. rewrite app_length in Hf. cbn in Hf. lia.
  - cbn [app drop_variables]. destruct (Ascii.eqb_spec x "$") as [-> | _]; [elim Ha; now left |].
    cbn [app length] in Hf. rewrite IH; auto; [lia |]. intros H; apply Ha; now right.
Qed.
