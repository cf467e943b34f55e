(** Proofs about ParsedModel. *)
From Coq Require Import ZArith String List Bool Lia.
From Verif Require Import Base Arr LocModel LocSpec LocProofs ParsedModel ParsedSpec.
Import ListNotations.
Open Scope Z_scope.

Lemma nth_error_lt' {A} (l : list A) k v : nth_error l k = Some v -> (k < length l)%nat.
Proof. intros H. apply nth_error_Some. congruence. Qed.

Lemma skipn_nth {A} (l : list A) k c : nth_error l k = Some c -> skipn k l = c :: skipn (S k) l.
Proof.
  revert k. induction l as [|x l IH]; intros [|k] H; cbn in *; try discriminate.
  - congruence.
  - apply IH. auto.
Qed.

Lemma upto_nul_length l : (length (upto_nul l) <= length l)%nat.
Proof. induction l as [|c l IH]; cbn; auto. destruct (c =? 0); cbn; lia. Qed.

Lemma copied_length l : length (copied l) = length l.
Proof. unfold copied. rewrite app_length, repeat_length. pose proof (upto_nul_length l). lia. Qed.

Lemma copied_cons c l : copied (c :: l) = if c =? 0 then repeat 0 (S (length l)) else c :: copied l.
Proof. unfold copied. cbn [upto_nul length]. destruct (c =? 0); auto. Qed.

Lemma upto_nul_id l : ~ In 0 l -> upto_nul l = l.
Proof.
  induction l as [|c l IH]; cbn; auto. intros H. destruct (Z.eqb_spec c 0); [tauto|]. f_equal. tauto.
Qed.

Lemma copied_id l : ~ In 0 l -> copied l = l.
Proof. intros H. unfold copied. rewrite upto_nul_id, Nat.sub_diag, app_nil_r by auto. auto. Qed.

Lemma nth_repeat0 n k v : nth_error (repeat 0 n) k = Some v -> v = 0.
Proof. intros H. apply nth_error_In in H. apply repeat_spec in H. auto. Qed.

Lemma src_ok text i : 0 <= i < Z.of_nat (length text) ->
  exists c, nth_error text (Z.to_nat i) = Some c /\ src text i = Ok c.
Proof.
  intros H. unfold src. destruct (Z.ltb_spec i 0); [lia|].
  destruct (nth_error text (Z.to_nat i)) as [c|] eqn:E; [eauto|].
  apply nth_error_None in E. lia.
Qed.

Lemma strncpy_ok text n : forall dst d s ended, 0 <= d -> d + Z.of_nat n <= asize dst ->
  (ended = false -> 0 <= s /\ s + Z.of_nat n <= Z.of_nat (length text)) ->
  exists dst', strncpy n dst d text s ended = Ok dst' /\ asize dst' = asize dst /\
    (forall k, k < d \/ d + Z.of_nat n <= k -> cell dst' k = cell dst k) /\
    (forall k v, nth_error (if ended then repeat 0 n else copied (firstn n (skipn (Z.to_nat s) text))) k = Some v ->
       cell dst' (d + Z.of_nat k) = Some v).
Proof.
  induction n as [|n IH]; intros dst d s ended Hd Hs He; cbn [strncpy].
  - exists dst. split; auto. split; auto. split; auto. intros [|k] v; destruct ended; discriminate.
  - destruct ended.
    + destruct (aset_ex dst d 0) as (b & E & S1 & C1 & O1); [lia|]. rewrite E. cbn [bind].
      destruct (IH b (d + 1) s true) as (b' & E' & S2 & O2 & C2); try lia; try discriminate.
      exists b'. split; auto. split; [congruence|]. split.
      * intros k Hk. rewrite O2 by lia. apply O1. lia.
      * intros [|k] v Hk; cbn in Hk.
        -- rewrite O2 by lia. replace (d + Z.of_nat 0) with d by lia. congruence.
        -- specialize (C2 k v Hk). replace (d + Z.of_nat (S k)) with (d + 1 + Z.of_nat k) by lia. auto.
    + destruct (He eq_refl) as [Hs0 Hs1].
      destruct (src_ok text s) as (c & Hc & Es); [lia|]. rewrite Es. cbn [bind].
      destruct (aset_ex dst d c) as (b & E & S1 & C1 & O1); [lia|]. rewrite E. cbn [bind].
      destruct (IH b (d + 1) (s + 1) (c =? 0)) as (b' & E' & S2 & O2 & C2); try lia.
      exists b'. split; auto. split; [congruence|]. split.
      * intros k Hk. rewrite O2 by lia. apply O1. lia.
      * rewrite (skipn_nth _ _ _ Hc). cbn [firstn]. rewrite copied_cons.
        replace (Z.to_nat (s + 1)) with (S (Z.to_nat s)) in C2 by lia.
        assert (Hfl : length (firstn n (skipn (S (Z.to_nat s)) text)) = n).
        { rewrite firstn_length, skipn_length. lia. }
        rewrite Hfl.
        intros k v Hk. destruct (Z.eqb_spec c 0) as [->|Hc0].
        -- apply nth_repeat0 in Hk as Hv. subst v. destruct k as [|k].
           ++ rewrite O2 by lia. replace (d + Z.of_nat 0) with d by lia. auto.
           ++ replace (d + Z.of_nat (S k)) with (d + 1 + Z.of_nat k) by lia. apply C2. exact Hk.
        -- destruct k as [|k].
           ++ cbn in Hk. rewrite O2 by lia. replace (d + Z.of_nat 0) with d by lia. congruence.
           ++ replace (d + Z.of_nat (S k)) with (d + 1 + Z.of_nat k) by lia. apply C2. exact Hk.
Qed.

(** * One buffer *)
Definition stored (ls : list (list Z)) : list Z := concat (map copied ls).

Lemma stored_length ls : Z.of_nat (length (stored ls)) = volume ls.
Proof.
  unfold stored, volume. induction ls as [|l ls IH]; cbn; auto.
  rewrite !app_length, copied_length. lia.
Qed.

Lemma stored_app a b : stored (a ++ b) = stored a ++ stored b.
Proof. unfold stored. rewrite map_app, concat_app. auto. Qed.

Lemma volume_app a b : volume (a ++ b) = volume a + volume b.
Proof. unfold volume. rewrite concat_app, app_length. lia. Qed.

Lemma volume_one l : volume [l] = Z.of_nat (length l).
Proof. unfold volume. cbn. rewrite app_nil_r. auto. Qed.

Lemma volume_nonneg l : 0 <= volume l.
Proof. unfold volume. lia. Qed.

Definition area_inv (n : Z) (a : area) (ls : list (list Z)) : Prop :=
  asize (a_buf a) = n + 5 /\ a_cur a = volume ls /\ volume ls <= n + 4 /\
  (forall k v, nth_error (stored ls) k = Some v -> cell (a_buf a) (Z.of_nat k) = Some v) /\
  cell (a_buf a) (volume ls) = Some 0 /\ a_cnt a = Z.of_nat (length ls).

Lemma area_new_ok n : 0 <= n -> n + 5 <= int_max -> exists a, area_new n = Ok a /\ area_inv n a [].
Proof.
  intros Hn Hm. unfold area_new. rewrite ckint_ok by (unfold int_min; lia). cbn [bind].
  destruct (aset_ex (anew (n + 5)) 0 0) as (b & E & S1 & C1 & O1); [cbn; lia|]. rewrite E. cbn [bind].
  eexists. split; [reflexivity|]. unfold area_inv. cbn [a_buf a_cur a_cnt]. change (volume []) with 0.
  split; [auto|]. split; [auto|]. split; [lia|]. split; [intros [|k] v; discriminate|]. split; auto.
Qed.

Lemma area_add_ok n a ls text p len : area_inv n a ls -> 0 <= p -> 0 <= len ->
  p + len <= Z.of_nat (length text) -> Z.of_nat (length ls) + 1 <= int_max ->
  exists a', area_add n a text p len = Ok a' /\
    area_inv n a' (if volume ls + len <? n + 5 then ls ++ [slice text p (p + len)] else ls).
Proof.
  intros (Is & Ic & Iv & Ib & I0 & In) Hp Hl Ht Hcnt. unfold area_add. rewrite Ic.
  destruct (Z.ltb_spec (volume ls + len) (n + 5)) as [Hfit|Hno].
  2:{ exists a. split; [auto|]. unfold area_inv. tauto. }
  destruct (Z.ltb_spec len 0); [lia|].
  destruct (strncpy_ok text (Z.to_nat len) (a_buf a) (volume ls) p false) as (b & E & S1 & O1 & C1).
  { apply volume_nonneg. } { lia. } { intros; lia. }
  rewrite E. cbn [bind].
  destruct (aset_ex b (volume ls + len) 0) as (b2 & E2 & S2 & C2 & O2).
  { pose proof (volume_nonneg ls). lia. }
  rewrite E2. cbn [bind]. rewrite In, ckint_ok by (unfold int_min; lia). cbn [bind].
  eexists. split; [reflexivity|].
  assert (Hsl : Z.of_nat (length (slice text p (p + len))) = len).
  { unfold slice. rewrite firstn_length, skipn_length. lia. }
  assert (Hv : volume (ls ++ [slice text p (p + len)]) = volume ls + len).
  { rewrite volume_app, volume_one. lia. }
  cbn [a_buf a_cur a_cnt]. split; [cbn; lia|]. split; [auto|]. split; [lia|]. split; [|split].
  - intros k v Hk. rewrite stored_app in Hk. pose proof (stored_length ls) as Hsto.
    assert (Hkl := nth_error_lt' _ _ _ Hk). rewrite app_length in Hkl.
    assert (Hone : Z.of_nat (length (stored [slice text p (p + len)])) = len) by (rewrite stored_length, volume_one; auto).
    assert (Z.of_nat k < volume ls + len) by lia.
    rewrite O2 by lia.
    destruct (Nat.lt_ge_cases k (length (stored ls))) as [Hlt|Hge].
    + rewrite nth_error_app1 in Hk by auto. rewrite O1 by lia. auto.
    + rewrite nth_error_app2 in Hk by auto.
      replace (Z.of_nat k) with (volume ls + Z.of_nat (k - length (stored ls))) by lia.
      apply C1. unfold stored in Hk. cbn [map concat] in Hk. rewrite app_nil_r in Hk.
      unfold slice in Hk. replace (p + len - p) with len in Hk by lia. exact Hk.
  - rewrite Hv. auto.
  - rewrite app_length, Nat2Z.inj_add. reflexivity.
Qed.

(** The C string in a buffer. *)
Lemma read_string_ok b : forall l i fuel, 0 <= i -> (length l < fuel)%nat ->
  i + Z.of_nat (length l) < asize b ->
  (forall k v, nth_error l k = Some v -> cell b (i + Z.of_nat k) = Some v) ->
  cell b (i + Z.of_nat (length l)) = Some 0 ->
  read_string fuel b i = Ok (upto_nul l).
Proof.
  induction l as [|c l IH]; intros i fuel Hi Hf Hs Hc H0; (destruct fuel as [|fuel]; [cbn in Hf; lia|]);
    cbn [read_string upto_nul].
  - cbn in H0. rewrite (aget_ok b i 0) by (try lia; try (replace i with (i + 0) by lia); auto). reflexivity.
  - rewrite (aget_ok b i c); [|lia|specialize (Hc 0%nat c eq_refl); replace i with (i + Z.of_nat 0) by lia; auto].
    cbn [bind]. destruct (c =? 0); auto. cbn [length] in *.
    rewrite IH; auto; try lia.
    + intros k v Hk. replace (i + 1 + Z.of_nat k) with (i + Z.of_nat (S k)) by lia. apply Hc. auto.
    + replace (i + 1 + Z.of_nat (length l)) with (i + Z.of_nat (S (length l))) by lia. auto.
Qed.

Lemma upto_nul_app_nil l a : ~ In 0 l -> upto_nul (l ++ a) = l ++ upto_nul a.
Proof.
  induction l as [|c l IH]; cbn; auto. intros H. destruct (Z.eqb_spec c 0); [tauto|]. rewrite IH by tauto. auto.
Qed.

Lemma upto_nul_copied l x : upto_nul (copied l ++ x) = if existsb (fun c => c =? 0) l then upto_nul l else l ++ upto_nul x.
Proof.
  induction l as [|c l IH]; [reflexivity|]. rewrite copied_cons. cbn [existsb upto_nul].
  destruct (Z.eqb_spec c 0) as [->|Hc]; [reflexivity|]. cbn [app upto_nul orb].
  destruct (Z.eqb_spec c 0); [contradiction|]. rewrite IH. destruct (existsb _ l); auto.
Qed.

Lemma upto_nul_raw l x : upto_nul (l ++ x) = if existsb (fun c => c =? 0) l then upto_nul l else l ++ upto_nul x.
Proof.
  induction l as [|c l IH]; [reflexivity|]. cbn [existsb upto_nul app].
  destruct (Z.eqb_spec c 0) as [->|Hc]; [reflexivity|]. cbn [orb]. rewrite IH. destruct (existsb _ l); auto.
Qed.

(** The padding is invisible: the string is the text up to its first NUL. *)
Lemma upto_nul_stored ls : upto_nul (stored ls) = upto_nul (concat ls).
Proof.
  induction ls as [|l ls IH]; [reflexivity|]. unfold stored in *. cbn [map concat].
  rewrite upto_nul_copied, upto_nul_raw, IH. auto.
Qed.

Lemma area_string_ok n a ls : area_inv n a ls -> area_string a = Ok (upto_nul (concat ls)).
Proof.
  intros (Is & Ic & Iv & Ib & I0 & In). unfold area_string.
  pose proof (stored_length ls) as Hsl. pose proof (volume_nonneg ls).
  rewrite (read_string_ok (a_buf a) (stored ls)); try lia.
  - rewrite upto_nul_stored. auto.
  - intros k v Hk. apply Ib. auto.
  - rewrite Hsl. auto.
Qed.

(** [kept], one line at a time from the left. *)
Lemma kept_snoc ls l : forall room, kept room (ls ++ [l]) =
  kept room ls ++ (if Z.of_nat (length l) <=? room - volume (kept room ls) then [l] else []).
Proof.
  induction ls as [|x ls IH]; intros room; cbn [kept app].
  - change (volume []) with 0. rewrite Z.sub_0_r. auto.
  - destruct (Z.of_nat (length x) <=? room); [|apply IH].
    rewrite IH. cbn [app]. f_equal. f_equal. change (x :: kept (room - Z.of_nat (length x)) ls) with ([x] ++ kept (room - Z.of_nat (length x)) ls).
    rewrite volume_app, volume_one. rewrite Z.sub_add_distr. auto.
Qed.

Lemma kept_all ls : forall room, volume ls <= room -> kept room ls = ls.
Proof.
  induction ls as [|x ls IH]; intros room H; cbn [kept]; auto.
  change (x :: ls) with ([x] ++ ls) in H. rewrite volume_app, volume_one in H. pose proof (volume_nonneg ls).
  destruct (Z.leb_spec (Z.of_nat (length x)) room); [|lia]. f_equal. apply IH. lia.
Qed.

Lemma kept_length ls : forall room, (length (kept room ls) <= length ls)%nat.
Proof.
  induction ls as [|x ls IH]; intros room; cbn [kept]; auto.
  destruct (_ <=? _); cbn [length]; [specialize (IH (room - Z.of_nat (length x)))|specialize (IH room)]; lia.
Qed.

(** [area_add] extends the kept lines. *)
Lemma area_add_kept n a ls text p len : area_inv n a (kept (n + 4) ls) -> 0 <= p -> 0 <= len ->
  p + len <= Z.of_nat (length text) -> Z.of_nat (length ls) + 1 <= int_max ->
  exists a', area_add n a text p len = Ok a' /\
    area_inv n a' (kept (n + 4) (ls ++ [slice text p (p + len)])).
Proof.
  intros HI Hp Hl Ht Hc. pose proof (kept_length ls (n + 4)).
  destruct (area_add_ok n a _ text p len HI) as (a' & E & HI'); auto; [lia|].
  exists a'. split; auto. rewrite kept_snoc.
  assert (Hsl : Z.of_nat (length (slice text p (p + len))) = len).
  { unfold slice. rewrite firstn_length, skipn_length. lia. }
  rewrite Hsl. destruct (Z.leb_spec len (n + 4 - volume (kept (n + 4) ls)));
  destruct (Z.ltb_spec (volume (kept (n + 4) ls) + len) (n + 5)); try lia; auto.
  rewrite app_nil_r. auto.
Qed.

(** * The callback *)
Lemma skip_blanks_ok text : forall l s fuel, skipn (Z.to_nat s) text = l -> 0 <= s <= Z.of_nat (length text) ->
  (length l < fuel)%nat ->
  exists k, skip_blanks fuel text s = Ok (s + Z.of_nat k) /\
    firstn k l ++ strip_blanks l = l /\ (k <= length l)%nat /\ length (strip_blanks l) = (length l - k)%nat /\
    (forall c, In c (firstn k l) -> blank c = true).
Proof.
  induction l as [|c l IH]; intros s fuel El Hs Hf.
  - destruct fuel as [|fuel]; [cbn in Hf; lia|]. cbn [skip_blanks].
    assert (length (skipn (Z.to_nat s) text) = 0%nat) by (rewrite El; auto). rewrite skipn_length in H.
    assert (s = Z.of_nat (length text)) by lia. subst s.
    unfold src. destruct (Z.ltb_spec (Z.of_nat (length text)) 0); [lia|]. rewrite Nat2Z.id.
    rewrite (proj2 (nth_error_None text (length text))) by lia. rewrite Z.eqb_refl. cbn [bind Z.eqb orb].
    exists 0%nat. rewrite Z.add_0_r. cbn. repeat split; auto.
  - destruct fuel as [|fuel]; [cbn in Hf; lia|]. cbn [skip_blanks].
    assert (Hl : (S (length l) = length text - Z.to_nat s)%nat).
    { assert (length (skipn (Z.to_nat s) text) = S (length l)) by (rewrite El; auto).
      rewrite skipn_length in H. lia. }
    assert (Hn : nth_error text (Z.to_nat s) = Some c).
    { rewrite <- (firstn_skipn (Z.to_nat s) text), El.
      assert (length (firstn (Z.to_nat s) text) = Z.to_nat s) by (rewrite firstn_length; lia).
      rewrite nth_error_app2 by lia. rewrite H, Nat.sub_diag. auto. }
    unfold src. destruct (Z.ltb_spec s 0); [lia|]. rewrite Hn. cbn [bind strip_blanks]. fold (blank c).
    destruct (blank c) eqn:Ebc.
    + destruct (IH (s + 1) fuel) as (k & E & H1 & H2 & H3 & H4).
      * replace (Z.to_nat (s + 1)) with (S (Z.to_nat s)) by lia.
        apply skipn_nth in Hn. rewrite El in Hn. congruence.
      * lia.
      * cbn in Hf. lia.
      * exists (S k). rewrite E. split; [f_equal; lia|]. cbn [firstn app length]. split; [f_equal; auto|].
        split; [lia|]. split; [lia|]. intros x [<-|Hx]; auto.
    + exists 0%nat. split; [f_equal; lia|]. cbn [firstn app length]. split; auto. split; [lia|]. split; [lia|]. contradiction.
Qed.

Lemma strip_firstn l : forall n k, (k <= n)%nat -> (forall c, In c (firstn k l) -> blank c = true) ->
  strip_blanks (skipn k l) = skipn k l -> 
  strip_blanks (firstn n l) = firstn (n - k) (skipn k l).
Proof.
  induction l as [|c l IH]; intros n k Hk Hb Hs.
  - rewrite skipn_nil, !firstn_nil. auto.
  - destruct k as [|k].
    + cbn [skipn] in *. rewrite Nat.sub_0_r. destruct n as [|n]; [auto|]. cbn [firstn strip_blanks] in *.
      destruct (blank c) eqn:E; auto. exfalso.
      assert (length (strip_blanks l) <= length l)%nat.
      { clear. induction l as [|x l IH]; cbn; auto. destruct (blank x); cbn; lia. }
      rewrite Hs in H. cbn in H. lia.
    + destruct n as [|n]; [lia|]. cbn [firstn skipn strip_blanks] in *.
      rewrite Hb by (cbn; auto). replace (S n - S k)%nat with (n - k)%nat by lia.
      apply IH; auto. lia. intros; apply Hb; cbn; auto.
Qed.

Lemma strip_idem l : strip_blanks (strip_blanks l) = strip_blanks l.
Proof. induction l as [|c l IH]; cbn; auto. destruct (blank c) eqn:E; auto. cbn. rewrite E. auto. Qed.

Lemma firstn_incl {A} (l : list A) : forall a b c, (a <= b)%nat -> In c (firstn a l) -> In c (firstn b l).
Proof.
  induction l as [|x l IH]; intros [|a] [|b] c Hab Hc; cbn in *; auto; try contradiction; try lia.
  destruct Hc; auto. right. apply (IH a); auto. lia.
Qed.

Lemma skipn_skipn' {A} (l : list A) : forall a b, skipn b (skipn a l) = skipn (b + a) l.
Proof.
  intros a. revert l. induction a as [|a IH]; intros l b; [rewrite Nat.add_0_r; auto|].
  destruct l as [|x l]; [rewrite !skipn_nil; auto|]. rewrite Nat.add_succ_r. cbn [skipn]. apply IH.
Qed.

Lemma skip_span text s e : 0 <= s <= e -> e <= Z.of_nat (length text) ->
  (e = Z.of_nat (length text) \/ exists c, In c (slice text s (e + 1)) /\ blank c = false) ->
  exists p, skip_blanks (S (S (length text))) text s = Ok p /\ s <= p <= e /\
    slice text p e = strip_blanks (slice text s e).
Proof.
  intros Hse He Hc. unfold slice in Hc.
  set (l := skipn (Z.to_nat s) text) in *.
  assert (Hll : length l = (length text - Z.to_nat s)%nat) by (unfold l; apply skipn_length).
  destruct (skip_blanks_ok text l s (S (S (length text)))) as (k & E & H1 & H2 & H3 & H4); auto; try lia.
  assert (Hsk : skipn k l = strip_blanks l).
  { rewrite <- H1 at 1. rewrite skipn_app, firstn_length.
    replace (k - Nat.min k (length l))%nat with 0%nat by lia.
    rewrite skipn_all2 by (rewrite firstn_length; lia). reflexivity. }
  assert (Hk : (k <= Z.to_nat (e - s))%nat).
  { destruct Hc as [Hc|(c & Hc & Hb)]; [lia|].
    apply Nat.nlt_ge. intros Hle. assert (blank c = true); [|congruence]. apply H4.
    apply (firstn_incl _ (Z.to_nat (e + 1 - s))); auto. lia. }
  exists (s + Z.of_nat k). split; auto. split; [lia|].
  unfold slice. fold l.
  replace (Z.to_nat (s + Z.of_nat k)) with (k + Z.to_nat s)%nat by lia.
  replace (skipn (k + Z.to_nat s) text) with (skipn k l).
  2:{ unfold l. apply skipn_skipn'. }
  replace (Z.to_nat (e - (s + Z.of_nat k))) with (Z.to_nat (e - s) - k)%nat by lia.
  symmetry. apply strip_firstn; auto. rewrite Hsk. apply strip_idem.
Qed.

(** What one entry of the parse result must be after the events [es]. *)
Definition pl_inv (text : list Z) (es : list event) (g : string) (pl : plang) : Prop :=
  let n := Z.of_nat (length text) in
  p_name pl = g /\ p_size pl = n /\
  area_inv n (p_code pl) (kept (n + 4) (lines_of text g "lcode" es)) /\
  area_inv n (p_comments pl) (kept (n + 4) (lines_of text g "lcomment" es)) /\
  p_blanks pl = Z.of_nat (length (events_of g "lblank" es)).

Lemma events_of_snoc g k es e : events_of g k (es ++ [e]) =
  events_of g k es ++ (if is_event g k e then [e] else []).
Proof. unfold events_of. rewrite filter_app. reflexivity. Qed.

Lemma lines_of_snoc text g k es e : lines_of text g k (es ++ [e]) =
  lines_of text g k es ++ (if is_event g k e then [strip_blanks (slice text (e_start e) (e_end e))] else []).
Proof. unfold lines_of. rewrite events_of_snoc, map_app. destruct (is_event g k e); auto. Qed.

Lemma events_of_length g k es : (length (events_of g k es) <= length es)%nat.
Proof.
  unfold events_of. induction es as [|e es IH]; cbn [filter length]; auto.
  destruct (is_event g k e); cbn [length]; lia.
Qed.

Lemma lines_of_length text g k es : (length (lines_of text g k es) <= length es)%nat.
Proof. unfold lines_of. rewrite map_length. apply events_of_length. Qed.

Lemma is_event_other g k e : e_lang e <> g -> is_event g k e = false.
Proof. intros H. unfold is_event. apply String.eqb_neq in H. rewrite H. auto. Qed.

Lemma pl_inv_other text es g e pl : e_lang e <> g -> pl_inv text es g pl -> pl_inv text (es ++ [e]) g pl.
Proof.
  intros Hne (H1 & H2 & H3 & H4 & H5). unfold pl_inv.
  rewrite !lines_of_snoc, events_of_snoc, !is_event_other by auto. rewrite !app_nil_r. auto.
Qed.

(** The update made by the callback to the entry of the language. *)
Definition callback_body (text : list Z) (e : event) (pl : plang) : res plang :=
  if String.eqb (e_entity e) "lcode" then
    p <- skip_blanks (S (S (length text))) text (e_start e) ;;
    add_code pl text p (e_end e - p)
  else if String.eqb (e_entity e) "lcomment" then
    p <- skip_blanks (S (S (length text))) text (e_start e) ;;
    add_comment pl text p (e_end e - p)
  else if String.eqb (e_entity e) "lblank" then
    n <- ckint (p_blanks pl + 1) ;;
    Ok (mkPlang (p_name pl) (p_size pl) (p_code pl) (p_comments pl) n)
  else Ok pl.

Lemma callback_body_ok text es e pl : good_event text e -> Z.of_nat (length es) + 1 <= int_max ->
  pl_inv text es (e_lang e) pl ->
  exists pl', callback_body text e pl = Ok pl' /\ pl_inv text (es ++ [e]) (e_lang e) pl'.
Proof.
  intros (Hk & Hr & Hle & Hnb) Hlen (H1 & H2 & H3 & H4 & H5). unfold callback_body.
  assert (Hee : forall k, is_event (e_lang e) k e = String.eqb (e_entity e) k).
  { intros k. unfold is_event. rewrite String.eqb_refl. auto. }
  destruct Hk as [Hk|[Hk|Hk]].
  - rewrite Hk. cbn [String.eqb Ascii.eqb Bool.eqb].
    destruct (skip_span text (e_start e) (e_end e)) as (p & Ep & Hp & Hsl); auto.
    { apply Hnb. rewrite Hk. discriminate. }
    rewrite Ep. cbn [bind]. unfold add_code. rewrite H2.
    pose proof (lines_of_length text (e_lang e) "lcode" es).
    destruct (area_add_kept (Z.of_nat (length text)) (p_code pl) _ text p (e_end e - p) H3) as (a' & Ea & HI); try lia.
    rewrite Ea. cbn [bind]. eexists. split; [reflexivity|].
    unfold pl_inv. cbn. rewrite !lines_of_snoc, events_of_snoc, !Hee, Hk. cbn [String.eqb Ascii.eqb Bool.eqb].
    rewrite !app_nil_r. split; auto. split; auto. split; [|auto].
    replace (p + (e_end e - p)) with (e_end e) in HI by lia. rewrite Hsl in HI. auto.
  - rewrite Hk. cbn [String.eqb Ascii.eqb Bool.eqb].
    destruct (skip_span text (e_start e) (e_end e)) as (p & Ep & Hp & Hsl); auto.
    { apply Hnb. rewrite Hk. discriminate. }
    rewrite Ep. cbn [bind]. unfold add_comment. rewrite H2.
    pose proof (lines_of_length text (e_lang e) "lcomment" es).
    destruct (area_add_kept (Z.of_nat (length text)) (p_comments pl) _ text p (e_end e - p) H4) as (a' & Ea & HI); try lia.
    rewrite Ea. cbn [bind]. eexists. split; [reflexivity|].
    unfold pl_inv. cbn. rewrite !lines_of_snoc, events_of_snoc, !Hee, Hk. cbn [String.eqb Ascii.eqb Bool.eqb].
    rewrite !app_nil_r. split; auto. split; auto. split; [auto|]. split; [|auto].
    replace (p + (e_end e - p)) with (e_end e) in HI by lia. rewrite Hsl in HI. auto.
  - rewrite Hk. cbn [String.eqb Ascii.eqb Bool.eqb].
    pose proof (events_of_length (e_lang e) "lblank" es).
    rewrite H5, ckint_ok by (unfold int_min; lia). cbn [bind]. eexists. split; [reflexivity|].
    unfold pl_inv. cbn. rewrite !lines_of_snoc, events_of_snoc, !Hee, Hk. cbn [String.eqb Ascii.eqb Bool.eqb].
    rewrite !app_nil_r. split; auto. split; auto. split; [auto|]. split; [auto|].
    rewrite app_length. cbn. lia.
Qed.

Lemma plang_new_ok text es g : Z.of_nat (length text) + 5 <= int_max -> ~ In g (map e_lang es) ->
  exists pl, plang_new g (Z.of_nat (length text)) = Ok pl /\ pl_inv text es g pl.
Proof.
  intros Hs Hni. unfold plang_new.
  destruct (area_new_ok (Z.of_nat (length text))) as (a & Ea & Ha); try lia.
  rewrite Ea. cbn [bind]. eexists. split; [reflexivity|].
  assert (He : forall k, events_of g k es = []).
  { intros k. unfold events_of. induction es as [|e es IH]; cbn; auto. rewrite is_event_other; [apply IH|]; cbn in Hni; tauto. }
  unfold pl_inv, lines_of. rewrite !He. cbn. auto.
Qed.

(** The whole list after the events [es]. *)
Definition list_inv (text : list Z) (es : list event) (l : list plang) : Prop :=
  map p_name l = first_occ (map e_lang es) /\
  forall pl, In pl l -> pl_inv text es (p_name pl) pl.

Lemma with_lang_ok text es e : good_event text e -> Z.of_nat (length es) + 1 <= int_max ->
  Z.of_nat (length text) + 5 <= int_max ->
  forall l, NoDup (map p_name l) -> (forall pl, In pl l -> pl_inv text es (p_name pl) pl) ->
  (In (e_lang e) (map e_lang es) -> In (e_lang e) (map p_name l)) ->
  exists l', with_lang (Z.of_nat (length text)) (e_lang e) (callback_body text e) l = Ok l' /\
    map p_name l' = (if existsb (fun y => String.eqb y (e_lang e)) (map p_name l) then map p_name l else map p_name l ++ [e_lang e]) /\
    forall pl, In pl l' -> pl_inv text (es ++ [e]) (p_name pl) pl.
Proof.
  intros Hg Hn Hs. induction l as [|x l IH]; intros Hnd Hl Hin; cbn [with_lang map existsb].
  - destruct (plang_new_ok text es (e_lang e) Hs) as (pl & E & Hpl); [intros Hi; apply Hin in Hi; contradiction|].
    rewrite E. cbn [bind]. destruct (callback_body_ok text es e pl Hg Hn Hpl) as (pl' & E' & Hpl').
    rewrite E'. cbn [bind]. exists [pl']. split; auto. destruct Hpl' as [Hnm Hpl'].
    split; [cbn; rewrite Hnm; auto|]. intros q [<-|[]]. rewrite Hnm. split; auto.
  - destruct (String.eqb_spec (p_name x) (e_lang e)) as [Ex|Ex].
    + assert (Hx : pl_inv text es (e_lang e) x) by (rewrite <- Ex; apply Hl; cbn; auto).
      destruct (callback_body_ok text es e x Hg Hn Hx) as (x' & E' & Hx'). rewrite E'. cbn [bind orb].
      exists (x' :: l). split; auto. pose proof Hx' as [Hnm _]. split; [cbn; congruence|].
      intros q [<-|Hq]; [rewrite Hnm; auto|]. apply pl_inv_other; [|apply Hl; cbn; auto].
      intros Heq. inversion Hnd as [|? ? Hni _]. apply Hni. rewrite Ex, Heq. apply in_map. auto.
    + destruct (IH) as (l' & E' & Hm' & Hl').
      { inversion Hnd; auto. } { intros; apply Hl; cbn; auto. }
      { intros Hi. apply Hin in Hi. cbn in Hi. destruct Hi; [congruence|auto]. }
      rewrite E'. cbn [bind orb]. exists (x :: l'). split; auto. split.
      * cbn [map]. rewrite Hm'. destruct (existsb _ (map p_name l)); auto.
      * intros q [<-|Hq]; auto. apply pl_inv_other; auto. apply Hl. cbn; auto.
Qed.

Lemma callback_ok text es e l : good_event text e -> Z.of_nat (length es) + 1 <= int_max ->
  Z.of_nat (length text) + 5 <= int_max -> list_inv text es l ->
  exists l', parser_callback text l e = Ok l' /\ list_inv text (es ++ [e]) l'.
Proof.
  intros Hg Hn Hs [Hm Hl].
  destruct (with_lang_ok text es e Hg Hn Hs l) as (l' & E & Hm' & Hl'); auto.
  { rewrite Hm. apply nodup_first_occ. }
  { rewrite Hm. intros H. apply in_first_occ. auto. }
  exists l'. split; [exact E|]. split; auto. rewrite Hm', Hm, map_app, first_occ_app. cbn [map first_occ filter].
  unfold fresh.
  replace (existsb (fun y => String.eqb y (e_lang e)) (first_occ (map e_lang es)))
    with (existsb (String.eqb (e_lang e)) (map e_lang es)).
  - destruct (existsb _ (map e_lang es)); cbn; rewrite ?app_nil_r; auto.
  - apply eq_true_iff_eq. rewrite !existsb_exists. split; intros (y & H1 & H2); exists y;
      rewrite String.eqb_sym; (split; [apply in_first_occ|]; auto).
Qed.

Lemma run_callbacks_ok text es : forall done l, Forall (good_event text) es ->
  Z.of_nat (length (done ++ es)) <= int_max -> Z.of_nat (length text) + 5 <= int_max -> list_inv text done l ->
  exists l', run_callbacks text l es = Ok l' /\ list_inv text (done ++ es) l'.
Proof.
  induction es as [|e es IH]; intros done l Hg Hn Hs Hl; cbn [run_callbacks].
  - exists l. rewrite app_nil_r. auto.
  - inversion Hg as [|? ? Hge Hgr]; subst. rewrite app_length in Hn. cbn [length] in Hn.
    destruct (callback_ok text done e l) as (l1 & E & H1); auto; [lia|]. rewrite E. cbn [bind].
    destruct (IH (done ++ [e]) l1) as (l2 & E2 & H2); auto.
    { rewrite !app_length. cbn [length]. lia. }
    exists l2. split; auto. rewrite <- app_assoc in H2. auto.
Qed.

(** * The LOC list *)
Lemma run_adds (l : list plang) : forall h a,
  run_loc_ops (h, [a]) (map (fun pl => LAdd 0 (mkLoc (p_name pl) (a_cnt (p_code pl)) (a_cnt (p_comments pl)) (p_blanks pl) 1)) l)
  = h' <- add_locs h a l ;; Ok (h', [a]).
Proof.
  induction l as [|pl l IH]; intros h a; cbn [map run_loc_ops add_locs]; auto.
  unfold run_loc_op. cbn [nth_error]. destruct (loc_list_add_loc _ _ _) as [h1|w|]; cbn [bind]; auto.
Qed.

Definition loc_of (pl : plang) : loc :=
  mkLoc (p_name pl) (a_cnt (p_code pl)) (a_cnt (p_comments pl)) (p_blanks pl) 1.

Lemma bags_adds l : forall b, fold_left bag_op (map (LAdd 0) l) [b] = [b ++ l].
Proof.
  induction l as [|x l IH]; intros b; cbn [map fold_left]; [rewrite app_nil_r; auto|].
  cbn [bag_op nth_error upd]. rewrite IH, <- app_assoc. auto.
Qed.

Lemma filter_none {A} (f : A -> bool) l : (forall x, In x l -> f x = false) -> filter f l = [].
Proof. induction l as [|x l IH]; cbn; auto. intros H. rewrite H by auto. apply IH. auto. Qed.

Lemma first_occ_nodup l : NoDup l -> first_occ l = l.
Proof.
  induction l as [|x l IH]; intros H; cbn; auto. inversion H; subst. rewrite IH by auto. f_equal.
  clear -H2. induction l as [|y l IH]; cbn; auto. cbn in H2.
  destruct (String.eqb_spec x y) as [E|E]; [subst; tauto|]. cbn. f_equal. tauto.
Qed.

Lemma summary_distinct bag : NoDup (map l_lang bag) -> summary bag = bag.
Proof.
  intros H. unfold summary. rewrite first_occ_nodup by auto. rewrite map_map.
  rewrite <- (map_id bag) at 2. apply map_ext_in. intros x Hx. unfold sum_loc, sum_by.
  replace (filter (fun l => String.eqb (l_lang l) (l_lang x)) bag) with [x].
  { destruct x; cbn. f_equal; lia. }
  clear -H Hx. induction bag as [|y bag IH]; [contradiction|]. cbn. inversion H; subst.
  destruct Hx as [->|Hx].
  - rewrite String.eqb_refl. f_equal. symmetry. apply filter_none. intros z Hz.
    apply String.eqb_neq. intros E. apply H2. rewrite <- E. apply in_map. auto.
  - destruct (String.eqb_spec (l_lang y) (l_lang x)) as [E|E].
    + exfalso. apply H2. rewrite E. apply in_map. auto.
    + auto.
Qed.

Lemma get_loc_list_ok l : NoDup (map p_name l) ->
  Forall (fun pl => 0 <= a_cnt (p_code pl) /\ 0 <= a_cnt (p_comments pl) /\ 0 <= p_blanks pl) l ->
  zsum (map (fun pl => lines (loc_of pl)) l) <= int_max -> Z.of_nat (length l) <= int_max ->
  exists h lst, get_loc_list l = Ok (h, lst) /\ list_items h lst = Ok (map loc_of l).
Proof.
  intros Hnd Hnn Hsum Hlen.
  set (ops := LNew :: map (LAdd 0) (map loc_of l)).
  assert (Hb : bags_of ops = [map loc_of l]).
  { unfold bags_of, ops. cbn [fold_left bag_op app]. apply bags_adds. }
  destruct (loc_no_overflow_lemma ops) as [st Est].
  - constructor; [exact I|]. rewrite map_map. apply Forall_map. eapply Forall_impl; [|exact Hnn].
    intros pl (A & B & C). cbn. unfold loc_nonneg. cbn. lia.
  - rewrite Hb. constructor; auto. split.
    + rewrite map_map. auto.
    + rewrite map_map. cbn. clear -Hlen. replace (zsum (map (fun _ : plang => 1) l)) with (Z.of_nat (length l)); auto.
      clear. induction l as [|x l IH]; cbn [map length]; auto. rewrite Nat2Z.inj_succ, IH. cbn [zsum fold_right]. unfold zsum. cbn [fold_right]. lia.
  - destruct st as [h ids]. destruct (loc_history_lemma _ _ _ Est) as [Hl Hr]. rewrite Hb in Hl, Hr.
    unfold ops in Est. cbn [run_loc_ops run_loc_op] in Est.
    unfold get_loc_list. destruct (node_new []) as [h0 a0] eqn:E0. cbn [app bind] in Est.
    rewrite map_map in Est. unfold loc_of in Est at 1. rewrite run_adds in Est.
    destruct (add_locs h0 a0 l) as [h1|w|] eqn:E1; cbn [bind] in *; try discriminate.
    injection Est as <- <-.
    destruct (Hr 0%nat a0 (map loc_of l)) as [addrs Hrep]; auto.
    exists h1, a0. split; auto. rewrite (list_items_rep _ _ _ _ Hrep).
    rewrite summary_distinct; auto. rewrite map_map. auto.
Qed.

(** Lines of distinct languages are at most the events. *)
Lemma events_split g es :
  (length (events_of g "lcode" es) + length (events_of g "lcomment" es) + length (events_of g "lblank" es)
   <= length (filter (fun e => String.eqb (e_lang e) g) es))%nat.
Proof.
  unfold events_of. induction es as [|e es IH]; cbn [filter length]; auto.
  assert (Hd : forall k, is_event g k e = String.eqb (e_lang e) g && String.eqb (e_entity e) k) by reflexivity.
  rewrite !Hd. destruct (String.eqb (e_lang e) g); cbn [andb].
  2:{ exact IH. }
  destruct (String.eqb_spec (e_entity e) "lcode") as [E|E]; destruct (String.eqb_spec (e_entity e) "lcomment");
    destruct (String.eqb_spec (e_entity e) "lblank"); try congruence; cbn [length]; lia.
Qed.

Lemma distinct_counts es : forall names, NoDup names ->
  zsum (map (fun g => Z.of_nat (length (filter (fun e => String.eqb (e_lang e) g) es))) names) <= Z.of_nat (length es).
Proof.
  induction es as [|e es IH]; intros names Hnd.
  - clear. unfold zsum. induction names; cbn [map fold_right filter length] in *; lia.
  - specialize (IH names Hnd). cbn [filter length].
    assert (zsum (map (fun g => Z.of_nat (length (if String.eqb (e_lang e) g then e :: filter (fun e => String.eqb (e_lang e) g) es
                else filter (fun e => String.eqb (e_lang e) g) es))) names)
      <= zsum (map (fun g => Z.of_nat (length (filter (fun e => String.eqb (e_lang e) g) es))) names)
         + (if existsb (String.eqb (e_lang e)) names then 1 else 0)).
    { clear IH. induction names as [|g names IH]; [cbn; lia|]. inversion Hnd; subst. specialize (IH H2).
      unfold zsum in *. cbn [map fold_right existsb].
      destruct (String.eqb_spec (e_lang e) g) as [E|E]; cbn [orb length].
      - assert (existsb (String.eqb (e_lang e)) names = false).
        { apply not_true_is_false. rewrite existsb_exists. intros (y & Hy & He). apply String.eqb_eq in He. subst. auto. }
        rewrite H in IH. lia.
      - lia. }
    destruct (existsb _ names); lia.
Qed.

Lemma zsum_le {A} (f g : A -> Z) l : (forall x, In x l -> f x <= g x) -> zsum (map f l) <= zsum (map g l).
Proof.
  unfold zsum. induction l as [|x l IH]; cbn [map fold_right]; intros H; [lia|].
  pose proof (H x (or_introl eq_refl)). assert (forall y, In y l -> f y <= g y) by (intros; apply H; cbn; auto).
  specialize (IH H1). lia.
Qed.

Lemma list_inv_total text es l : list_inv text es l ->
  zsum (map (fun pl => lines (loc_of pl)) l) <= Z.of_nat (length es).
Proof.
  intros [Hm Hl]. etransitivity; [|apply (distinct_counts es (map p_name l)); rewrite Hm; apply nodup_first_occ].
  rewrite map_map. apply zsum_le. intros pl Hpl. destruct (Hl pl Hpl) as (_ & _ & H3 & H4 & H5).
  pose proof (events_split (p_name pl) es).
  destruct H3 as (_ & _ & _ & _ & _ & H3). destruct H4 as (_ & _ & _ & _ & _ & H4).
  unfold lines, loc_of. cbn. rewrite H3, H4, H5.
  pose proof (kept_length (lines_of text (p_name pl) "lcode" es) (Z.of_nat (length text) + 4)).
  pose proof (kept_length (lines_of text (p_name pl) "lcomment" es) (Z.of_nat (length text) + 4)).
  unfold lines_of in *. rewrite map_length in *. lia.
Qed.

Lemma first_occ_length l : (length (first_occ l) <= length l)%nat.
Proof.
  induction l as [|x l IH]; cbn; auto. apply le_n_S.
  etransitivity; [|exact IH]. clear. induction (first_occ l) as [|y r IH]; cbn; auto. destruct (negb _); cbn; lia.
Qed.

Lemma list_inv_locs text es l : list_inv text es l -> Z.of_nat (length es) <= int_max ->
  exists h lst, get_loc_list l = Ok (h, lst) /\ list_items h lst = Ok (map loc_of l).
Proof.
  intros HI Hn. pose proof (list_inv_total _ _ _ HI) as Ht. destruct HI as [Hm Hl].
  apply get_loc_list_ok.
  - rewrite Hm. apply nodup_first_occ.
  - apply Forall_forall. intros pl Hpl. destruct (Hl pl Hpl) as (_ & _ & H3 & H4 & H5).
    destruct H3 as (_ & _ & _ & _ & _ & H3). destruct H4 as (_ & _ & _ & _ & _ & H4). lia.
  - lia.
  - assert (length l = length (first_occ (map e_lang es))) by (rewrite <- Hm, map_length; auto).
    pose proof (first_occ_length (map e_lang es)). rewrite map_length in *. lia.
Qed.

(** * Calls *)
Lemma given_snoc b cs c : given b (cs ++ [c]) =
  given b cs ++ (if Bool.eqb (k_code c) b then [slice (k_text c) (k_p c) (k_p c + k_len c)] else []).
Proof. unfold given. rewrite filter_app, map_app. cbn. destruct (Bool.eqb _ b); auto. Qed.

Lemma given_length b cs : (length (given b cs) <= length cs)%nat.
Proof.
  unfold given. rewrite map_length. induction cs as [|c cs IH]; cbn; auto. destruct (Bool.eqb _ b); cbn; lia.
Qed.

Definition calls_inv (n : Z) (cs : list call) (g : string) (pl : plang) : Prop :=
  p_name pl = g /\ p_size pl = n /\ p_blanks pl = 0 /\
  area_inv n (p_code pl) (kept (n + 4) (given true cs)) /\
  area_inv n (p_comments pl) (kept (n + 4) (given false cs)).

Lemma run_calls_ok n g cs : forall done pl, Forall good_call cs ->
  Z.of_nat (length (done ++ cs)) <= int_max -> calls_inv n done g pl ->
  exists pl', run_calls pl cs = Ok pl' /\ calls_inv n (done ++ cs) g pl'.
Proof.
  induction cs as [|c cs IH]; intros done pl Hg Hn HI; cbn [run_calls].
  - exists pl. rewrite app_nil_r. auto.
  - inversion Hg as [|? ? (Hp & Hl & Ht) Hgr]; subst. rewrite app_length in Hn. cbn [length] in Hn.
    destruct HI as (I1 & I2 & I3 & I4 & I5).
    assert (exists pl1, (if k_code c then add_code else add_comment) pl (k_text c) (k_p c) (k_len c) = Ok pl1
              /\ calls_inv n (done ++ [c]) g pl1) as (pl1 & E & H1).
    { unfold calls_inv. rewrite !given_snoc. destruct (k_code c); cbn [Bool.eqb]; rewrite app_nil_r.
      - unfold add_code. rewrite I2. pose proof (given_length true done).
        destruct (area_add_kept n _ _ (k_text c) (k_p c) (k_len c) I4) as (a & E & Ha); try lia.
        rewrite E. cbn [bind]. eexists. split; [reflexivity|]. cbn. auto.
      - unfold add_comment. rewrite I2. pose proof (given_length false done).
        destruct (area_add_kept n _ _ (k_text c) (k_p c) (k_len c) I5) as (a & E & Ha); try lia.
        rewrite E. cbn [bind]. eexists. split; [reflexivity|]. cbn. auto 6. }
    rewrite E. cbn [bind]. destruct (IH (done ++ [c]) pl1) as (pl2 & E2 & H2); auto.
    { rewrite !app_length. cbn [length]. lia. }
    exists pl2. split; auto. rewrite <- app_assoc in H2. auto.
Qed.

Lemma calls_new n g : 0 <= n -> n + 5 <= int_max ->
  exists pl, plang_new g n = Ok pl /\ calls_inv n [] g pl.
Proof.
  intros H0 H1. unfold plang_new. destruct (area_new_ok n) as (a & E & Ha); auto. rewrite E. cbn [bind].
  eexists. split; [reflexivity|]. unfold calls_inv. cbn. auto 6.
Qed.

Lemma run_calls_app a b : forall pl, run_calls pl (a ++ b) = (pl <- run_calls pl a ;; run_calls pl b).
Proof.
  induction a as [|c a IH]; intros pl; cbn [app run_calls bind]; auto.
  destruct ((if k_code c then add_code else add_comment) pl (k_text c) (k_p c) (k_len c)); cbn [bind]; auto.
Qed.

Lemma run_callbacks_app text a b : forall l,
  run_callbacks text l (a ++ b) = (l <- run_callbacks text l a ;; run_callbacks text l b).
Proof.
  induction a as [|c a IH]; intros pl; cbn [app run_callbacks bind]; auto.
  destruct (parser_callback text pl c); cbn [bind]; auto.
Qed.

(** A code or comment span of blanks that is followed by a blank. *)
Lemma skip_over text : forall l s fuel, skipn (Z.to_nat s) text = l -> 0 <= s -> s <= Z.of_nat (length text) ->
  (length l < fuel)%nat ->
  exists k, skip_blanks fuel text s = Ok (s + Z.of_nat k) /\ (k <= length l)%nat /\
    forall n, (n < length l)%nat -> (forall i c, (i <= n)%nat -> nth_error l i = Some c -> blank c = true) -> (n < k)%nat.
Proof.
  induction l as [|c l IH]; intros s fuel El Hs Hs2 Hf; (destruct fuel as [|fuel]; [cbn in Hf; lia|]); cbn [skip_blanks].
  - assert (Hlen : length (skipn (Z.to_nat s) text) = 0%nat) by (rewrite El; auto). rewrite skipn_length in Hlen.
    unfold src. destruct (Z.ltb_spec s 0); [lia|].
    replace (nth_error text (Z.to_nat s)) with (@None Z) by (symmetry; apply nth_error_None; lia).
    destruct (Z.eqb_spec s (Z.of_nat (length text))); [|lia]. cbn [bind].
    change ((0 =? 32) || (0 =? 9)) with false. cbn match. exists 0%nat. split; [f_equal; lia|]. split; [cbn; lia|].
    cbn. intros; lia.
  - assert (Hlen : length (skipn (Z.to_nat s) text) = S (length l)) by (rewrite El; auto). rewrite skipn_length in Hlen.
    assert (Hn : nth_error text (Z.to_nat s) = Some c).
    { rewrite <- (firstn_skipn (Z.to_nat s) text), El. rewrite nth_error_app2; rewrite firstn_length.
      - replace (Z.to_nat s - Nat.min (Z.to_nat s) (length text))%nat with 0%nat by lia. auto.
      - lia. }
    unfold src. destruct (Z.ltb_spec s 0); [lia|]. rewrite Hn. cbn [bind]. fold (blank c). destruct (blank c) eqn:Eb.
    + destruct (IH (s + 1) fuel) as (k & E & Hk & Hmax); try lia.
      { replace (Z.to_nat (s + 1)) with (S (Z.to_nat s)) by lia. apply skipn_nth in Hn. congruence. }
      { cbn in Hf. lia. }
      exists (S k). rewrite E. split; [f_equal; lia|]. split; [cbn; lia|].
      intros [|n] Hnl Hb; [lia|]. cbn in Hnl. apply -> Nat.succ_lt_mono. apply Hmax; [lia|].
      intros i x Hi Hx. apply (Hb (S i) x); [lia|exact Hx].
    + exists 0%nat. split; [f_equal; lia|]. split; [lia|]. intros n Hnl Hb.
      specialize (Hb 0%nat c ltac:(lia) eq_refl). congruence.
Qed.

Lemma strip_incl l c : In c (strip_blanks l) -> In c l.
Proof. induction l as [|x l IH]; cbn; auto. destruct (blank x); cbn; tauto. Qed.

Lemma strip_length l : (length (strip_blanks l) <= length l)%nat.
Proof. induction l as [|x l IH]; cbn; auto. destruct (blank x); cbn; lia. Qed.

Lemma slice_incl text s e c : In c (slice text s e) -> In c text.
Proof.
  unfold slice. intros H. rewrite <- (firstn_skipn (Z.to_nat s) text). apply in_app_iff. right.
  rewrite <- (firstn_skipn (Z.to_nat (e - s)) (skipn (Z.to_nat s) text)). apply in_app_iff. auto.
Qed.

Lemma kept_incl ls x : forall room, In x (kept room ls) -> In x ls.
Proof.
  induction ls as [|l ls IH]; cbn; auto. intros room. destruct (_ <=? _); cbn; firstorder.
Qed.

Lemma lines_nonul text g k es room : ~ In 0 text -> ~ In 0 (concat (kept room (lines_of text g k es))).
Proof.
  intros Hz Hin. apply in_concat in Hin as (l & Hl & H0). apply kept_incl in Hl. unfold lines_of in Hl.
  apply in_map_iff in Hl as (e & <- & _). apply strip_incl in H0. apply slice_incl in H0. auto.
Qed.

Lemma ordered_fit text es g k : forall from, 0 <= from -> Forall (good_event text) es -> ordered_spans from es ->
  from <= Z.of_nat (length text) ->
  from + volume (lines_of text g k es) <= Z.of_nat (length text).
Proof.
  induction es as [|e es IH]; intros from H0 Hg Ho Hf; [cbn; unfold volume; cbn; lia|].
  inversion Hg as [|? ? (_ & G1 & G2 & _) Hgr]; subst. cbn [ordered_spans] in Ho. destruct Ho as [Ho1 Ho2].
  specialize (IH (e_end e) ltac:(lia) Hgr Ho2 ltac:(lia)).
  unfold lines_of, events_of. cbn [filter]. fold (events_of g k es). destruct (is_event g k e).
  - cbn [map]. change (map (fun e => strip_blanks (slice text (e_start e) (e_end e))) (events_of g k es)) with (lines_of text g k es).
    change (?a :: ?b) with ([a] ++ b). rewrite volume_app, volume_one.
    pose proof (strip_length (slice text (e_start e) (e_end e))).
    assert (length (slice text (e_start e) (e_end e)) <= Z.to_nat (e_end e - e_start e))%nat.
    { unfold slice. rewrite firstn_length. lia. }
    lia.
  - fold (lines_of text g k es). lia.
Qed.

Lemma nth_error_firstn' {A} (l : list A) : forall n i, (i < n)%nat -> nth_error (firstn n l) i = nth_error l i.
Proof.
  induction l as [|x l IH]; intros [|n] [|i] H; cbn; auto; try lia. apply IH. lia.
Qed.

Lemma callback_neg text e pl n lc lm : (e_entity e = "lcode"%string \/ e_entity e = "lcomment"%string) ->
  0 <= e_start e <= e_end e -> e_end e < Z.of_nat (length text) ->
  (forall c, In c (slice text (e_start e) (e_end e + 1)) -> blank c = true) ->
  p_size pl = n -> area_inv n (p_code pl) lc -> area_inv n (p_comments pl) lm ->
  callback_body text e pl = Ub NegLength.
Proof.
  intros Hk Hr He Hb Hsz Hc Hm.
  set (l := skipn (Z.to_nat (e_start e)) text).
  assert (Hll : length l = (length text - Z.to_nat (e_start e))%nat) by apply skipn_length.
  destruct (skip_over text l (e_start e) (S (S (length text)))) as (k & Ek & Hk1 & Hmax); auto; try lia.
  specialize (Hmax (Z.to_nat (e_end e - e_start e))).
  assert (Hlt : (Z.to_nat (e_end e - e_start e) < k)%nat).
  { apply Hmax; [lia|]. intros i c Hi Hn. apply Hb. unfold slice. fold l.
    apply (nth_error_In _ i). rewrite nth_error_firstn' by lia. auto. }
  assert (Hadd : forall a ls, area_inv n a ls ->
    area_add n a text (e_start e + Z.of_nat k) (e_end e - (e_start e + Z.of_nat k)) = Ub NegLength).
  { intros a ls (_ & Ic & Iv & _). unfold area_add. rewrite Ic. destruct (Z.ltb_spec (volume ls + (e_end e - (e_start e + Z.of_nat k))) (n + 5)); [|lia].
    destruct (Z.ltb_spec (e_end e - (e_start e + Z.of_nat k)) 0); [auto|lia]. }
  unfold callback_body. destruct Hk as [Hk|Hk]; rewrite Hk; cbn [String.eqb Ascii.eqb Bool.eqb]; rewrite Ek; cbn [bind];
    unfold add_code, add_comment; rewrite Hsz; erewrite Hadd by eauto; auto.
Qed.

Lemma with_lang_neg text es e l : Z.of_nat (length text) + 5 <= int_max ->
  (forall g pl, pl_inv text es g pl -> callback_body text e pl = Ub NegLength) ->
  (forall pl, In pl l -> pl_inv text es (p_name pl) pl) ->
  In (e_lang e) (map p_name l) \/ ~ In (e_lang e) (map e_lang es) ->
  with_lang (Z.of_nat (length text)) (e_lang e) (callback_body text e) l = Ub NegLength.
Proof.
  intros Hs Hneg. induction l as [|x l IH]; intros Hl Hin; cbn [with_lang].
  - destruct Hin as [[]|Hin]. destruct (plang_new_ok text es (e_lang e) Hs Hin) as (pl & E & Hpl).
    rewrite E. cbn [bind]. rewrite (Hneg _ _ Hpl). auto.
  - destruct (String.eqb_spec (p_name x) (e_lang e)) as [Ex|Ex].
    + rewrite (Hneg (p_name x)); auto. apply Hl. cbn; auto.
    + rewrite IH; auto. { intros; apply Hl; cbn; auto. } destruct Hin as [[|]|]; auto; congruence.
Qed.
