(** The last phase of diff.c: [unravel] and [output]. *)
From Coq Require Import ZArith List Bool Lia Permutation Sorted.
From Verif Require Import Base Arr DiffModel DiffSpec DiffSortProofs DiffStoneProofs DiffProofs.
Import ListNotations.
Open Scope Z_scope.

(** Number of matched lines among the first [k]. *)
Fixpoint cnt (g : Z -> Z) (k : nat) : Z :=
  match k with
  | O => 0
  | S k' => cnt g k' + (if g (Z.of_nat k) =? 0 then 0 else 1)
  end.

Lemma cnt_S g k : cnt g (S k) = cnt g k + (if g (Z.of_nat k + 1) =? 0 then 0 else 1).
Proof. cbn [cnt]. replace (Z.of_nat (S k)) with (Z.of_nat k + 1) by lia. reflexivity. Qed.

Lemma cnt_ext g h k : (forall i, 1 <= i <= Z.of_nat k -> g i = h i) -> cnt g k = cnt h k.
Proof.
  induction k as [|k IH]; intros H; auto. rewrite !cnt_S, IH, H by (try (intros; apply H); lia). auto.
Qed.

Definition upd (g : Z -> Z) (i v : Z) : Z -> Z := fun k => if k =? i then v else g k.

Lemma cnt_upd g i v k : 1 <= i <= Z.of_nat k -> g i = 0 -> v <> 0 -> cnt (upd g i v) k = cnt g k + 1.
Proof.
  induction k as [|k IH]; intros Hi Hg Hv; [lia|]. rewrite !cnt_S.
  destruct (Z.eq_dec i (Z.of_nat k + 1)) as [->|Hne].
  - rewrite Hg. unfold upd at 2. rewrite Z.eqb_refl.
    rewrite (cnt_ext (upd g (Z.of_nat k + 1) v) g).
    + apply Z.eqb_neq in Hv. rewrite Hv. cbn. lia.
    + intros j Hj. unfold upd. replace (j =? Z.of_nat k + 1) with false; auto. symmetry. apply Z.eqb_neq. lia.
  - rewrite IH by lia. unfold upd at 1. replace (Z.of_nat k + 1 =? i) with false by (symmetry; apply Z.eqb_neq; lia). lia.
Qed.

Lemma cnt_zero_run g a b : (a <= b)%nat -> (forall i, Z.of_nat a < i <= Z.of_nat b -> g i = 0) -> cnt g b = cnt g a.
Proof.
  intros H. induction H as [|b Hab IH]; intros Hz; auto. rewrite cnt_S, IH.
  - rewrite Hz by lia. cbn. lia.
  - intros i Hi. apply Hz. lia.
Qed.

(** * output *)
Section Output.
  Variables (g : Z -> Z) (m n1 : Z).
  Hypothesis Hm : 0 <= m.
  Hypothesis Hn1 : 0 <= n1.
  Hypothesis g_end : g (m + 1) = n1 + 1.
  Hypothesis g_pos : forall i, 1 <= i <= m + 1 -> 0 <= g i.
  Hypothesis g_inc : forall i j, 1 <= i -> i < j -> j <= m + 1 -> g i <> 0 -> g j <> 0 -> g i < g j.

  Definition C (i : Z) := cnt g (Z.to_nat i).

  Lemma C_S i : 0 <= i -> C (i + 1) = C i + (if g (i + 1) =? 0 then 0 else 1).
  Proof.
    intros H. unfold C. replace (Z.to_nat (i + 1)) with (S (Z.to_nat i)) by lia.
    rewrite cnt_S, Z2Nat.id by lia. auto.
  Qed.

  (** Head of the main loop: [J] is as in the beginning from [i0] on, and
      [t] = J[i0-1] is below everything that follows. *)
  Definition hd (J : arr) (i0 t : Z) : Prop :=
    asize J = m + 2 /\ 1 <= i0 <= m + 1 /\ cell J (i0 - 1) = Some t /\ 0 <= t <= n1 /\
    (forall k, i0 <= k <= m + 1 -> cell J k = Some (g k)) /\
    (forall k, i0 <= k <= m + 1 -> g k <> 0 -> t < g k).

  Lemma skip_ok J : forall fuel i0 t, hd J i0 t -> (Z.to_nat (m + 1 - i0) < fuel)%nat ->
    exists i0' t', output_skip fuel J m i0 = Ok i0' /\ hd J i0' t' /\ i0 <= i0' /\
      t' - C (i0' - 1) = t - C (i0 - 1) /\ (i0' - 1) - C (i0' - 1) = (i0 - 1) - C (i0 - 1) /\
      (i0' <= m -> g i0' <> t' + 1) /\ (i0 <= m -> g i0 = t + 1 -> i0 < i0').
  Proof.
    induction fuel as [|fuel IH]; intros i0 t H Hf; [lia|]. cbn [output_skip].
    pose proof H as (Hs & Hi & Ht & Htr & Hc & Hlt).
    destruct (Z.leb_spec i0 m) as [Hle|Hgt].
    - rewrite (aget_ok J i0 (g i0)) by (try apply Hc; lia). cbn [bind].
      rewrite (aget_ok J (i0 - 1) t) by (auto; lia). cbn [bind].
      destruct (Z.eqb_spec (g i0) (t + 1)) as [E|E].
      + destruct (IH (i0 + 1) (t + 1)) as (i0' & t' & E' & H' & Hle' & A1 & A2 & A3 & A4).
        { split; auto. split; [lia|]. split; [|split; [|split]].
          - replace (i0 + 1 - 1) with i0 by lia. rewrite <- E. apply Hc. lia.
          - assert (g i0 < g (m + 1)) by (apply g_inc; lia). lia.
          - intros k Hk. apply Hc. lia.
          - intros k Hk Hnz. rewrite <- E. apply g_inc; lia. }
        { lia. }
        exists i0', t'. split; auto. split; auto. split; [lia|].
        pose proof (C_S (i0 - 1)) as HCS. replace (i0 - 1 + 1) with i0 in HCS by lia.
        replace (i0 + 1 - 1) with i0 in A1, A2 by lia.
        assert (g i0 =? 0 = false) by (apply Z.eqb_neq; lia). rewrite H0 in HCS. 
        split; [lia|]. split; [lia|]. split; auto. lia.
      + exists i0, t. split; auto. split; auto. split; [lia|]. split; [lia|]. split; [lia|]. split; auto; lia.
    - exists i0, t. split; auto. split; auto. split; [lia|]. split; [lia|]. split; [lia|]. split; lia.
  Qed.

  Lemma zeros_ok J i0 t : hd J i0 t -> forall fuel i1, i0 - 1 <= i1 <= m ->
    (forall k, i0 <= k <= i1 -> g k = 0) -> (Z.to_nat (m - i1) < fuel)%nat ->
    exists i1', output_zeros fuel J m i1 = Ok i1' /\ i0 - 1 <= i1' <= m /\
      (forall k, i0 <= k <= i1' -> g k = 0) /\ g (i1' + 1) <> 0.
  Proof.
    intros (Hs & Hi & Ht & Htr & Hc & Hlt).
    induction fuel as [|fuel IH]; intros i1 Hi1 Hz Hf; [lia|]. cbn [output_zeros].
    destruct (Z.ltb_spec i1 m) as [Hl|Hg].
    - rewrite (aget_ok J (i1 + 1) (g (i1 + 1))) by (try apply Hc; lia). cbn [bind].
      destruct (Z.eqb_spec (g (i1 + 1)) 0) as [E|E].
      + apply IH; try lia. intros k Hk. destruct (Z.eq_dec k (i1 + 1)) as [->|]; auto. apply Hz. lia.
      + exists i1. auto.
    - exists i1. replace i1 with m by lia. split; auto. split; [lia|]. split; [intros; apply Hz; lia|]. lia.
  Qed.

  Lemma C_run i0 i1 : 1 <= i0 -> i0 - 1 <= i1 -> (forall k, i0 <= k <= i1 -> g k = 0) -> C i1 = C (i0 - 1).
  Proof.
    intros H1 H2 H3. unfold C. apply cnt_zero_run; [lia|]. intros i Hi. apply H3. lia.
  Qed.

  Definition meas (i0 t : Z) : Z := 2 * (m + 1 - i0) + (if g i0 =? t + 1 then 0 else 1).

  Lemma loop_ok : forall fuel J i0 t added removed, hd J i0 t ->
    added = t - C (i0 - 1) -> removed = (i0 - 1) - C (i0 - 1) ->
    (i0 = m + 1 -> t = n1) -> (Z.to_nat (meas i0 t) < fuel)%nat ->
    output_loop fuel J m n1 i0 (added, removed) = Ok (n1 - C m, m - C m).
  Proof.
    induction fuel as [|fuel IH]; intros J i0 t added removed H Ha Hr He Hf; [lia|]. cbn [output_loop].
    destruct (Z.leb_spec i0 m) as [Hle|Hgt].
    2:{ destruct H as (_ & Hi & _). assert (i0 = m + 1) by lia. subst i0. rewrite He in Ha by auto.
        replace (m + 1 - 1) with m in * by lia. subst. auto. }
    destruct (skip_ok J (S (Z.to_nat m)) i0 t H) as (i0' & t' & Es & H' & Hle' & A1 & A2 & A3 & A4).
    { destruct H as (_ & Hi & _). lia. }
    rewrite Es. cbn [bind]. pose proof H' as (Hs & Hi & Ht & Htr & Hc & Hlt).
    rewrite (aget_ok J (i0' - 1) t') by (auto; lia). cbn [bind].
    destruct (zeros_ok J i0' t' H' (S (Z.to_nat m)) (i0' - 1)) as (i1 & Ez & Hi1 & Hz & Hnz); try lia.
    rewrite Ez. cbn [bind].
    rewrite (aget_ok J (i1 + 1) (g (i1 + 1))) by (try apply Hc; lia). cbn [bind].
    destruct (aset_ex J i1 (g (i1 + 1) - 1)) as (J' & Ej & As & Cj & Oj); [lia|].
    rewrite Ej. cbn [bind].
    assert (Hw : t' < g (i1 + 1)) by (apply Hlt; auto; lia).
    assert (Hw2 : g (i1 + 1) <= n1 + 1).
    { destruct (Z.eq_dec i1 m) as [->|]; [lia|]. assert (g (i1 + 1) < g (m + 1)) by (apply g_inc; lia). lia. }
    assert (HC : C i1 = C (i0' - 1)) by (apply C_run; auto; lia).
    assert (Hch : change m n1 i0' i1 (t' + 1) (g (i1 + 1) - 1) (added, removed) =
                  (added + (g (i1 + 1) - 1 - t'), removed + (i1 - i0' + 1))).
    { unfold change.
      destruct ((i0' >? i1) && (t' + 1 >? g (i1 + 1) - 1)) eqn:Eg.
      - apply andb_prop in Eg as [E1 E2]. apply Z.gtb_lt in E1. apply Z.gtb_lt in E2. f_equal; lia.
      - destruct (Z.leb_spec i0' 1); destruct (Z.gtb_spec i1 m); try lia;
        destruct (Z.leb_spec (t' + 1) 1); destruct (Z.gtb_spec (g (i1 + 1) - 1) n1); try lia.
        all: try (replace i0' with 1 in * by lia); try (replace t' with 0 in * by lia).
        all: repeat match goal with |- context [Z.leb ?a ?b] => destruct (Z.leb_spec a b) end.
        all: f_equal; lia. }
    rewrite Hch. apply (IH J' (i1 + 1) (g (i1 + 1) - 1)).
    - split; [congruence|]. split; [lia|]. split; [replace (i1 + 1 - 1) with i1 by lia; auto|].
      split; [lia|]. split.
      + intros k Hk. rewrite Oj by lia. apply Hc. lia.
      + intros k Hk Hk0. destruct (Z.eq_dec k (i1 + 1)) as [->|]; [lia|].
        assert (g (i1 + 1) < g k) by (apply g_inc; lia). lia.
    - replace (i1 + 1 - 1) with i1 by lia. lia.
    - replace (i1 + 1 - 1) with i1 by lia. lia.
    - intros E. replace i1 with m by lia. lia.
    - unfold meas in *. replace (g (i1 + 1) =? g (i1 + 1) - 1 + 1) with true by (symmetry; apply Z.eqb_eq; lia).
      destruct (Z.eqb_spec (g i0) (t + 1)) as [E|E]; [|lia]. specialize (A4 Hle E). lia.
  Qed.

  Lemma output_ok J : asize J = m + 2 -> (forall k, 1 <= k <= m -> cell J k = Some (g k)) ->
    output J m n1 = Ok (n1 - C m, m - C m).
  Proof.
    intros Hs Hc. unfold output.
    destruct (aset_ex J 0 0) as (J1 & E1 & S1 & C1 & O1); [lia|]. rewrite E1. cbn [bind].
    destruct (aset_ex J1 (m + 1) (n1 + 1)) as (J2 & E2 & S2 & C2 & O2); [lia|]. rewrite E2. cbn [bind].
    destruct (Z.eqb_spec m 0) as [Em|Em].
    - rewrite Em. cbn. unfold C. cbn [cnt Z.to_nat]. unfold change.
      destruct (Z.gtb_spec 1 n1); cbn.
      + assert (n1 = 0) by lia. subst. auto.
      + destruct (Z.gtb_spec n1 n1); try lia.
        destruct (Z.leb_spec 1 n1); try lia. f_equal. f_equal; lia.
    - rewrite (loop_ok _ J2 1 0).
      + auto.
      + split; [lia|]. split; [lia|]. split; [cbn; rewrite O2 by lia; auto|]. split; [lia|]. split.
        * intros k Hk. destruct (Z.eq_dec k (m + 1)) as [->|]; [congruence|].
          rewrite O2, O1 by lia. apply Hc. lia.
        * intros k Hk Hnz. specialize (g_pos k). lia.
      + reflexivity.
      + reflexivity.
      + lia.
      + unfold meas. destruct (g 1 =? 0 + 1); lia.
  Qed.
End Output.

(** * unravel *)
Lemma init_ok len0 len1 pref suff : forall c J i, 0 <= i -> i + Z.of_nat c <= asize J ->
  exists J', unravel_init c J len0 len1 pref suff i = Ok J' /\ asize J' = asize J /\
    (forall k, i <= k < i + Z.of_nat c -> cell J' k = Some
       (if k <=? pref then k else if k >? len0 - suff then k + len1 - len0 else 0)) /\
    (forall k, k < i -> cell J' k = cell J k).
Proof.
  induction c as [|c IH]; intros J i Hi Hs; cbn [unravel_init].
  - exists J. split; auto. split; auto. split; auto. lia.
  - destruct (aset_ex J i (if i <=? pref then i else if i >? len0 - suff then i + len1 - len0 else 0))
      as (J1 & E & S1 & C1 & O1); [lia|]. rewrite E. cbn [bind].
    destruct (IH J1 (i + 1)) as (J2 & E2 & S2 & C2 & O2); try lia.
    exists J2. split; auto. split; [congruence|]. split.
    + intros k Hk. destruct (Z.eq_dec k i) as [->|]; [rewrite O2 by lia; auto|apply C2; lia].
    + intros k Hk. rewrite O2 by lia. apply O1. lia.
Qed.

Definition overlay (pref : Z) (g : Z -> Z) (path : list (Z * Z)) : Z -> Z :=
  fold_right (fun p h => upd h (fst p + pref) (snd p + pref)) g path.

Lemma overlay_out pref g path i : (forall p, In p path -> fst p + pref <> i) -> overlay pref g path i = g i.
Proof.
  induction path as [|p path IH]; intros H; cbn; auto. unfold upd.
  replace (i =? fst p + pref) with false.
  - apply IH. intros q Hq. apply H. cbn; auto.
  - symmetry. apply Z.eqb_neq. intros E. apply (H p); cbn; auto.
Qed.

Section Walk.
  Variables (M : Z -> Z -> Prop).
  Variables (n m : Z).
  Hypothesis M_range : forall i y, M i y -> 1 <= i <= n /\ 1 <= y <= m.

  Lemma chain_in cl q path : chain M cl q path -> forall p, In p path -> M (fst p) (snd p).
  Proof. induction 1; intros p Hp; [contradiction|]. destruct Hp as [<-|Hp]; auto. Qed.

  Lemma chain_key cl q path : chain M cl q path -> forall p p', In p path -> In p' path ->
    fst p < fst p' -> snd p < snd p'.
  Proof.
    induction 1 as [|q cd r H1 H2 H3 H4 H5 IH H6]; intros p p' Hp Hp' Hlt; [contradiction|].
    destruct Hp as [<-|Hp]; destruct Hp' as [<-|Hp']; cbn in *; try lia.
    - apply H6 in Hp'. lia.
    - apply H6 in Hp. lia.
    - auto.
  Qed.

  (** Walking a chain writes the overlay. *)
  Lemma walk_ok cl pref : 0 <= pref -> forall q path, chain M cl q path -> forall fuel J g,
    pref + n < asize J -> (Z.to_nat q < fuel)%nat ->
    (forall k, 1 <= k < asize J - 1 -> cell J k = Some (g k)) ->
    (forall p, In p path -> 1 <= fst p + pref < asize J - 1) ->
    exists J', unravel_walk fuel cl J pref q = Ok J' /\ asize J' = asize J /\
      forall k, 1 <= k < asize J - 1 ->
        cell J' k = Some (match find (fun p => fst p + pref =? k) path with
                          | Some p => snd p + pref | None => g k end).
  Proof.
    intros Hpref. induction 1 as [q cd Hq Hy|q cd r Hq Hy HM Hpr Hch IH Hlt]; intros fuel J g Hs Hf HJ Hin;
      (destruct fuel as [|fuel]; [lia|]); cbn [unravel_walk]; rewrite Hq; cbn [bind].
    - rewrite Hy. cbn. exists J. auto.
    - replace (c_y cd =? 0) with false by (symmetry; apply Z.eqb_neq; auto).
      apply M_range in HM as HR.
      destruct (aset_ex J (c_x cd + pref) (c_y cd + pref)) as (J1 & E & S1 & C1 & O1); [lia|].
      rewrite E. cbn [bind].
      destruct (IH fuel J1 (upd g (c_x cd + pref) (c_y cd + pref))) as (J2 & E2 & S2 & C2).
      + lia.
      + assert (0 <= c_pred cd < Z.of_nat (length cl)) by (inversion Hch; subst; eapply cand_at_range; eauto).
        lia.
      + intros k Hk. unfold upd. destruct (Z.eqb_spec k (c_x cd + pref)) as [->|]; auto.
        rewrite O1 by auto. apply HJ. lia.
      + intros p Hp. rewrite S1. apply Hin. cbn; auto.
      + exists J2. split; auto. split; [congruence|]. intros k Hk. rewrite C2 by lia. f_equal.
        cbn [find fst]. destruct (Z.eqb_spec (c_x cd + pref) k) as [<-|Hne].
        * destruct (find _ r) as [p|] eqn:Ef.
          -- apply find_some in Ef as [Hp Hk']. apply Z.eqb_eq in Hk'. apply Hlt in Hp. lia.
          -- unfold upd. rewrite Z.eqb_refl. auto.
        * destruct (find _ r); auto. unfold upd. replace (k =? c_x cd + pref) with false; auto.
          symmetry. apply Z.eqb_neq. auto.
  Qed.

  Lemma find_overlay cl q path pref g k : chain M cl q path ->
    match find (fun p => fst p + pref =? k) path with Some p => snd p + pref | None => g k end
    = overlay pref g path k.
  Proof.
    induction 1 as [|q cd r H1 H2 H3 H4 H5 IH H6]; cbn; auto. unfold upd.
    rewrite (Z.eqb_sym k). destruct (Z.eqb_spec (c_x cd + pref) k); auto.
  Qed.

  Lemma overlay_in cl q path pref g p : chain M cl q path -> In p path ->
    overlay pref g path (fst p + pref) = snd p + pref.
  Proof.
    induction 1 as [|q cd r H1 H2 H3 H4 H5 IH H6]; intros Hp; [contradiction|]. cbn. unfold upd.
    destruct Hp as [<-|Hp]; cbn.
    - rewrite Z.eqb_refl. auto.
    - replace (fst p + pref =? c_x cd + pref) with false; auto.
      apply H6 in Hp. symmetry. apply Z.eqb_neq. lia.
  Qed.

  Lemma overlay_cnt cl q path pref g k : chain M cl q path -> 0 <= pref -> n + pref <= Z.of_nat k ->
    (forall i, pref < i <= pref + n -> g i = 0) ->
    cnt (overlay pref g path) k = cnt g k + Z.of_nat (length path).
  Proof.
    intros H Hp Hk Hg. induction H as [|q cd r H1 H2 H3 H4 H5 IH H6]; cbn [overlay fold_right length].
    - lia.
    - apply M_range in H3 as HR. cbn [fst snd]. rewrite cnt_upd.
      + fold (overlay pref g r). rewrite IH. lia.
      + lia.
      + fold (overlay pref g r). rewrite overlay_out; [apply Hg; lia|].
        intros p Hpr. apply H6 in Hpr. lia.
      + lia.
  Qed.

  Lemma base_cnt len0 len1 pref suff : 0 <= pref -> 0 <= suff -> pref + n + suff = len0 ->
    pref + m + suff = len1 -> 0 <= n -> 0 <= m -> 
    cnt (fun k => if k <=? pref then k else if k >? len0 - suff then k + len1 - len0 else 0) (Z.to_nat len0) = pref + suff.
  Proof.
    intros Hp Hs E0 E1 Hn Hm.
    set (g := fun k => _).
    assert (A : forall k, (Z.of_nat k <= pref) -> cnt g k = Z.of_nat k).
    { induction k as [|k IH]; intros Hk; auto. rewrite cnt_S, IH by lia. unfold g.
      replace (Z.of_nat k + 1 <=? pref) with true by (symmetry; apply Z.leb_le; lia).
      replace (Z.of_nat k + 1 =? 0) with false by (symmetry; apply Z.eqb_neq; lia). lia. }
    assert (B : cnt g (Z.to_nat (pref + n)) = pref).
    { rewrite (cnt_zero_run g (Z.to_nat pref)).
      - rewrite A by lia. lia.
      - lia.
      - intros i Hi. unfold g. replace (i <=? pref) with false by (symmetry; apply Z.leb_gt; lia).
        destruct (Z.gtb_spec i (len0 - suff)); lia. }
    assert (D : forall k, (Z.of_nat k <= suff) -> cnt g (Z.to_nat (pref + n) + k) = pref + Z.of_nat k).
    { induction k as [|k IH]; intros Hk; [rewrite Nat.add_0_r; lia|].
      rewrite Nat.add_succ_r, cnt_S, IH by lia. unfold g.
      replace (Z.of_nat (Z.to_nat (pref + n) + k) + 1 <=? pref) with false by (symmetry; apply Z.leb_gt; lia).
      destruct (Z.gtb_spec (Z.of_nat (Z.to_nat (pref + n) + k) + 1) (len0 - suff)); [|lia].
      match goal with |- context [?a =? 0] => replace (a =? 0) with false by (symmetry; apply Z.eqb_neq; lia) end. lia. }
    replace (Z.to_nat len0) with (Z.to_nat (pref + n) + Z.to_nat suff)%nat by lia. rewrite D by lia. lia.
  Qed.

  (** Both phases together. *)
  Lemma unravel_output_ok cl q path len0 len1 pref suff :
    chain M cl q path -> 0 <= pref -> 0 <= suff -> 0 <= n -> 0 <= m ->
    pref + n + suff = len0 -> pref + m + suff = len1 ->
    (J <- unravel cl (anew (len0 + 2)) len0 len1 pref suff q ;; output J len0 len1)
    = Ok (len1 - (pref + suff + Z.of_nat (length path)), len0 - (pref + suff + Z.of_nat (length path))).
  Proof.
    intros Hch Hp Hs Hn Hm E0 E1. unfold unravel.
    set (g0 := fun k => if k <=? pref then k else if k >? len0 - suff then k + len1 - len0 else 0).
    destruct (init_ok len0 len1 pref suff (S (Z.to_nat len0)) (anew (len0 + 2)) 0) as (J1 & I1 & S1 & C1 & _).
    { lia. } { cbn [anew asize]. lia. }
    rewrite I1. cbn [bind].
    assert (Hq : 0 <= q < Z.of_nat (length cl)).
    { inversion Hch; subst; eapply cand_at_range; eauto. }
    cbn [anew asize] in S1.
    destruct (walk_ok cl pref Hp q path Hch (S (length cl)) J1 g0) as (J2 & I2 & S2 & C2).
    { lia. } { lia. }
    { intros k Hk. apply C1. lia. }
    { intros p Hpp. apply (chain_in _ _ _ Hch) in Hpp. apply M_range in Hpp. lia. }
    rewrite I2. cbn [bind].
    set (g1 := overlay pref g0 path).
    set (g := fun k => if k =? len0 + 1 then len1 + 1 else g1 k).
    assert (Hg1 : forall k, (k <= pref \/ k > pref + n) -> g1 k = g0 k).
    { intros k Hk. apply overlay_out. intros p Hpp. apply (chain_in _ _ _ Hch) in Hpp. apply M_range in Hpp. lia. }
    assert (Hmid : forall k, pref < k <= pref + n -> g1 k <> 0 -> exists p, In p path /\ k = fst p + pref /\ g1 k = snd p + pref).
    { intros k Hk Hnz. destruct (find (fun p => fst p + pref =? k) path) as [p|] eqn:Ef.
      - apply find_some in Ef as [Hpp Hkk]. apply Z.eqb_eq in Hkk. exists p. split; auto. split; auto.
        rewrite <- Hkk. eapply overlay_in; eauto.
      - exfalso. apply Hnz. unfold g1. rewrite overlay_out.
        + unfold g0. replace (k <=? pref) with false by (symmetry; apply Z.leb_gt; lia).
          destruct (Z.gtb_spec k (len0 - suff)); lia.
        + intros p Hpp E. apply (find_none _ _ Ef) in Hpp. apply Z.eqb_neq in Hpp. auto. }
    assert (Hlow : forall k, 1 <= k <= pref -> g1 k = k).
    { intros k Hk. rewrite Hg1 by lia. unfold g0. replace (k <=? pref) with true by (symmetry; apply Z.leb_le; lia). auto. }
    assert (Hhigh : forall k, pref + n < k -> g1 k = k + len1 - len0).
    { intros k Hk. rewrite Hg1 by lia. unfold g0. replace (k <=? pref) with false by (symmetry; apply Z.leb_gt; lia).
      destruct (Z.gtb_spec k (len0 - suff)); lia. }
    assert (Hmr : forall k, pref < k <= pref + n -> g1 k <> 0 -> pref < g1 k <= pref + m).
    { intros k Hk Hnz. destruct (Hmid k Hk Hnz) as (p & Hpp & _ & ->).
      apply (chain_in _ _ _ Hch) in Hpp. apply M_range in Hpp. lia. }
    assert (Hinc : forall i j, 1 <= i -> i < j -> g1 i <> 0 -> g1 j <> 0 -> g1 i < g1 j).
    { intros i j Hi Hij Hni Hnj.
      destruct (Z_le_gt_dec i pref) as [Hi1|Hi1]; [|destruct (Z_le_gt_dec i (pref + n)) as [Hi2|Hi2]];
      (destruct (Z_le_gt_dec j pref) as [Hj1|Hj1]; [|destruct (Z_le_gt_dec j (pref + n)) as [Hj2|Hj2]]); try lia.
      - rewrite !Hlow; lia.
      - rewrite (Hlow i) by lia. specialize (Hmr j). lia.
      - rewrite (Hlow i), (Hhigh j) by lia. lia.
      - destruct (Hmid i) as (p & P1 & P2 & ->); auto; [lia|].
        destruct (Hmid j) as (p' & Q1 & Q2 & ->); auto; [lia|].
        assert (snd p < snd p') by (apply (chain_key _ _ _ Hch); auto; lia). lia.
      - rewrite (Hhigh j) by lia. specialize (Hmr i). lia.
      - rewrite (Hhigh i), (Hhigh j) by lia. lia. }
    assert (Hpos : forall k, 1 <= k -> 0 <= g1 k).
    { intros k Hk. destruct (Z.eq_dec (g1 k) 0); [lia|].
      destruct (Z_le_gt_dec k pref) as [H1|H1]; [rewrite Hlow; lia|].
      destruct (Z_le_gt_dec k (pref + n)) as [H2|H2]; [specialize (Hmr k); lia|].
      rewrite Hhigh by lia. lia. }
    assert (Hend : g1 (len0 + 1) = len1 + 1) by (rewrite Hhigh; lia).
    rewrite (output_ok g1 len0 len1); auto; try lia.
    - unfold C. unfold g1. rewrite (overlay_cnt cl q path pref g0); auto; try lia.
      + pose proof (base_cnt len0 len1 pref suff Hp Hs E0 E1 Hn Hm) as Hbc. fold g0 in Hbc. rewrite Hbc. auto.
      + intros i Hi. unfold g0. replace (i <=? pref) with false by (symmetry; apply Z.leb_gt; lia).
        destruct (Z.gtb_spec i (len0 - suff)); lia.
    - intros; apply Hpos; lia.
    - intros k Hk. rewrite C2 by lia. f_equal. eapply find_overlay; eauto.
  Qed.
End Walk.
