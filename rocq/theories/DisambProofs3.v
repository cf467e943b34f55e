(** Lemmas about the disambiguators h, aspx, b, st and fs of DetectorModel. *)
From Coq Require Import ZArith String List Bool Lia.
From Verif Require Import Base ParsedModel PathModel Tables PropertiesTables DetectorModel DetectorSpec DetectorProofs
  DisambProofs DisambProofs2.
Import ListNotations.
Open Scope string_scope.
Open Scope Z_scope.
Open Scope list_scope.

Lemma lookup_key {A} (t : list (string * A)) k : (exists v, lookup t k = Some v) <-> exists s, In s (map fst t) /\ bytes s = k.
Proof.
  split.
  - intros (v & H). apply lookup_in in H as (s & E & I). exists s. split; [|exact E].
    apply (in_map fst) in I. exact I.
  - intros (s & I & <-). apply in_map_iff in I as ((s' & v) & E & I). cbn in E. subst.
    destruct (lookup t (bytes s)) eqn:L; [eauto|]. destruct (lookup_none _ _ v L I).
Qed.

(** *** h: includes *)
Definition cpp_exts := ["C"; "H"; "c++"; "cc"; "cpp"; "cxx"; "h++"; "hh"; "hpp"; "hxx"].
Lemma cpp_lookup e : (lookup extensions e = Some "cpp") <-> exists s, In s cpp_exts /\ bytes s = e.
Proof.
  split.
  - intros H. apply lookup_in in H as (s & E & I). exists s. split; [|exact E].
    assert (C : forallb (fun p => if (snd p =? "cpp")%string then existsb (String.eqb (fst p)) cpp_exts else true)
                  extensions = true) by (vm_compute; reflexivity).
    rewrite forallb_forall in C. specialize (C _ I). cbn [fst snd] in C. rewrite String.eqb_refl in C.
    apply existsb_exists in C as (s' & I' & E'). apply String.eqb_eq in E'. subst. exact I'.
  - intros (s & I & <-).
    assert (C : forallb (fun s => match lookup extensions (bytes s) with Some v => (v =? "cpp")%string | _ => false end)
                  cpp_exts = true) by (vm_compute; reflexivity).
    rewrite forallb_forall in C. specialize (C _ I).
    destruct (lookup extensions (bytes s)); [|discriminate C]. apply String.eqb_eq in C as ->. reflexivity.
Qed.
(** No extension begins with a number sign. *)
Lemma ext_no_hash e v : lookup extensions (35 :: e) = Some v -> False.
Proof.
  intros H. apply lookup_in in H as (s & E & I).
  assert (C : forallb (fun p => negb (existsb (Z.eqb 35) (bytes (fst p)))) extensions = true) by (vm_compute; reflexivity).
  rewrite forallb_forall in C. specialize (C _ I). cbn [fst] in C. rewrite E in C. discriminate C.
Qed.
Lemma cpp_exts_nodot e : In e cpp_exts -> ~ In 46 (bytes e).
Proof.
  assert (C : forallb (fun s => negb (existsb (Z.eqb 46) (bytes s))) cpp_exts = true) by (vm_compute; reflexivity).
  rewrite forallb_forall in C. intros I. apply C in I. apply negb_true_iff in I. apply not_in_b. exact I.
Qed.


Lemma blank_not_quote c : Blank c -> c <> 60 /\ c <> 34.
Proof. unfold Blank. lia. Qed.

Lemma includes_inv line name : includes line name ->
  exists b2 q, line <> [] /\ deref line = 35 /\
    let p := skip blank (tl line) in
    startsb "include" p = true /\ blank (deref (skipn 7 p)) = true /\
    let p2 := skip blank (skipn 8 p) in
    p2 = q :: tl p2 /\ (q = 60 \/ q = 34) /\
    name = taken (fun c => negb (c =? 62) && negb (c =? 34)) (tl p2) /\ Forall Blank b2.
Proof.
  intros (b1 & b2 & q & r & -> & F1 & N2 & F2 & Q & FN & R).
  exists b2, q. split; [discriminate|]. split; [reflexivity|].
  cbn [app tl].
  assert (S1 : skip blank (b1 ++ bytes "include" ++ b2 ++ q :: name ++ r) = bytes "include" ++ b2 ++ q :: name ++ r).
  { apply skip_app; [apply (Forall_b _ _ _ blank_iff); exact F1|]. intros c r' E. injection E as <- _. reflexivity. }
  rewrite S1. cbv zeta.
  split; [apply startsb_iff; eexists; reflexivity|].
  destruct b2 as [|x b2]; [contradiction|]. inversion F2; subst.
  change (skipn 7 (bytes "include" ++ (x :: b2) ++ q :: name ++ r)) with (x :: b2 ++ q :: name ++ r).
  split; [apply blank_iff; assumption|].
  change (skipn 8 (bytes "include" ++ (x :: b2) ++ q :: name ++ r)) with (b2 ++ q :: name ++ r).
  assert (S2 : skip blank (b2 ++ q :: name ++ r) = q :: name ++ r).
  { apply skip_app; [apply (Forall_b _ _ _ blank_iff); assumption|]. intros c r' [= <- _].
    apply (false_iff _ _ (blank_iff q)). cbn in Q. unfold Blank. lia. }
  rewrite S2. cbn [tl]. split; [reflexivity|]. split; [cbn in Q; lia|]. split; [|assumption].
  symmetry. apply taken_app.
  - eapply Forall_impl; [|exact FN]. intros c [A B]. apply Z.eqb_neq in A, B. rewrite A, B. reflexivity.
  - intros c r' E. specialize (R _ _ E). cbn in R. destruct R as [<-|[<-|[]]]; reflexivity.
Qed.

Lemma skipn_app_len {A} (a b : list A) n : length a = n -> skipn n (a ++ b) = b.
Proof. intros <-. rewrite skipn_app, skipn_all, Nat.sub_diag. reflexivity. Qed.

Lemma h_include_ok pl line r : h_include pl line = Ok r ->
  (r = true <-> exists name, includes line name /\ cpp_header name).
Proof.
  assert (NO : forall (P : Prop), ~ P -> Ok false = Ok r -> (r = true <-> P)).
  { intros P N [= <-]. split; [discriminate|contradiction]. }
  unfold h_include.
  destruct (deref line =? 35) eqn:E1.
  2: { apply NO. intros (n & I & _). apply includes_inv in I as (? & ? & _ & D & _). rewrite D in E1. discriminate E1. }
  set (p := skip blank (tl line)).
  destruct (startsb "include" p) eqn:E2.
  2: { apply NO. intros (n & I & _). apply includes_inv in I as (? & ? & _ & _ & D & _). fold p in D. congruence. }
  destruct (blank (deref (skipn 7 p))) eqn:E3.
  2: { apply NO. intros (n & I & _). apply includes_inv in I as (? & ? & _ & _ & _ & D & _). fold p in D. congruence. }
  cbn [andb]. cbv zeta. set (p2 := skip blank (skipn 8 p)).
  destruct ((deref p2 =? 60) || (deref p2 =? 34)) eqn:E4.
  2: { apply NO. intros (n & I & _). apply includes_inv in I as (? & q & _ & _ & _ & _ & D & Q & _). fold p in D. fold p2 in D.
       rewrite D in E4. unfold deref in E4. cbn [hd] in E4. destruct Q as [-> | ->]; discriminate E4. }
  rewrite upto_skip. set (cl := fun c => negb (c =? 62) && negb (c =? 34)).
  intros H. apply bind_ok in H as (_ & _ & H).
  (* the shape of the line *)
  assert (exists b1 w b2 q, line = 35 :: b1 ++ bytes "include" ++ (w :: b2) ++ [q] ++ taken cl (tl p2) ++ skip cl (tl p2)
            /\ Forall Blank b1 /\ Forall Blank (w :: b2) /\ (q = 60 \/ q = 34)) as (b1 & w & b2 & q & EL & F1 & F2 & Q).
  { destruct line as [|c l]; [discriminate E1|]. unfold deref in E1. cbn in E1. apply Z.eqb_eq in E1. subst c.
    cbn [tl] in p. apply startsb_iff in E2 as (x & EX).
    assert (S7 : skipn 7 p = x) by (rewrite EX; apply skipn_app_len; reflexivity).
    destruct x as [|w x]; [rewrite S7 in E3; discriminate E3|].
    rewrite S7 in E3. unfold deref in E3. cbn in E3. apply blank_iff in E3.
    assert (S8 : skipn 8 p = x).
    { rewrite EX. change (skipn 8 (bytes "include" ++ w :: x)) with x. reflexivity. }
    subst p2. rewrite S8 in *.
    destruct (skip blank x) as [|q y] eqn:E5; [discriminate E4|].
    exists (taken blank l), w, (taken blank x), q. split.
    { rewrite (taken_skip blank l) at 1. fold p. rewrite EX. rewrite (taken_skip blank x) at 1. rewrite E5. cbn [tl].
      rewrite <- (taken_skip cl y). cbn [app]. reflexivity. }
    split; [apply (Forall_b _ _ _ blank_iff), taken_all|].
    split; [constructor; [exact E3|]; apply (Forall_b _ _ _ blank_iff), taken_all|].
    unfold deref in E4. cbn [hd] in E4. rewrite orb_true_iff, !Z.eqb_eq in E4. exact E4. }
  set (name := taken cl (tl p2)) in *. set (rest := skip cl (tl p2)) in *.
  assert (INC : includes line name).
  { exists b1, (w :: b2), q, rest. split; [rewrite EL; reflexivity|]. split; [exact F1|]. split; [discriminate|].
    split; [exact F2|]. split; [cbn; lia|]. split.
    - eapply Forall_impl; [|apply (taken_all cl (tl p2))]. intros c X. unfold cl in X.
      rewrite andb_true_iff, !negb_true_iff, !Z.eqb_neq in X. exact X.
    - intros c r' E. apply (skip_head cl (tl p2)) in E. unfold cl in E. cbn.
      rewrite andb_false_iff, !negb_false_iff, !Z.eqb_eq in E. lia. }
  assert (UNIQ : forall n, includes line n -> n = name).
  { intros n I. apply includes_inv in I as (? & ? & _ & _ & _ & _ & _ & _ & E & _). exact E. }
  assert (EX : (exists n, includes line n /\ cpp_header n) <-> cpp_header name).
  { split; [intros (n & I & C); rewrite <- (UNIQ n I); exact C|eauto]. }
  rewrite EX. clear EX UNIQ. unfold cpp_header. rewrite <- lookup_key.
  destruct (lookup cppheaders name) as [v|] eqn:LK.
  { injection H as <-. split; [eauto|reflexivity]. }
  assert (UP : upto line rest = 35 :: b1 ++ bytes "include" ++ (w :: b2) ++ [q] ++ name).
  { rewrite EL. replace (35 :: b1 ++ bytes "include" ++ (w :: b2) ++ [q] ++ name ++ rest)
      with ((35 :: b1 ++ bytes "include" ++ (w :: b2) ++ [q] ++ name) ++ rest); [apply upto_app|].
    cbn [app]. rewrite <- !app_assoc. cbn [app]. rewrite <- !app_assoc. reflexivity. }
  rewrite UP in H. apply bind_ok in H as (_ & _ & H).
  assert (NODOT : ~ In 46 (35 :: b1 ++ bytes "include" ++ (w :: b2) ++ [q])).
  { assert (B : forall b, Forall Blank b -> ~ In 46 b).
    { intros b F I. rewrite Forall_forall in F. apply F in I. unfold Blank in I. lia. }
    intros I. cbn [In] in I. rewrite !in_app_iff in I. destruct I as [I|[I|[I|[I|I]]]].
    - discriminate I.
    - exact (B _ F1 I).
    - revert I. apply not_in_b. reflexivity.
    - exact (B _ F2 I).
    - cbn in I. lia. }
  assert (AD : after_dot (35 :: b1 ++ bytes "include" ++ (w :: b2) ++ [q] ++ name)
             = if existsb (Z.eqb 46) name then after_dot name
               else 35 :: b1 ++ bytes "include" ++ (w :: b2) ++ [q] ++ name).
  { destruct (dot_split name) as [N|(a & e & E & N)].
    - rewrite (proj2 (false_iff _ _ (existsb_dot name)) N). apply after_dot_none.
      replace (35 :: b1 ++ bytes "include" ++ (w :: b2) ++ [q] ++ name)
        with ((35 :: b1 ++ bytes "include" ++ (w :: b2) ++ [q]) ++ name).
      2: { cbn [app]. rewrite <- !app_assoc. cbn [app]. rewrite <- !app_assoc. reflexivity. }
      intros I. apply in_app_iff in I as [I|I]; [exact (NODOT I)|exact (N I)].
    - rewrite (proj2 (existsb_dot name)) by (rewrite E; apply in_app_iff; cbn; auto).
      rewrite E. rewrite after_dot_some by exact N.
      replace (35 :: b1 ++ bytes "include" ++ (w :: b2) ++ [q] ++ a ++ 46 :: e)
        with ((35 :: b1 ++ bytes "include" ++ (w :: b2) ++ [q] ++ a) ++ 46 :: e).
      2: { cbn [app]. rewrite <- !app_assoc. cbn [app]. rewrite <- !app_assoc. reflexivity. }
      apply after_dot_some. exact N. }
  rewrite AD in H. unfold cpp_extension.
  destruct (existsb (Z.eqb 46) name) eqn:XD.
  - assert (r = true <-> lookup extensions (after_dot name) = Some "cpp") as ->.
    { destruct (lookup extensions (after_dot name)) as [v|].
      - apply Ok_inj in H. rewrite <- H, String.eqb_eq. split; congruence.
      - apply Ok_inj in H. rewrite <- H. split; discriminate. }
    rewrite cpp_lookup. split.
    + intros (s & I & E). right. apply existsb_dot in XD. symmetry in E.
      destruct (dot_split name) as [N|(a & e & EN & N)]; [contradiction|].
      rewrite EN, after_dot_some in E by exact N. subst e. exists a, s. split; [exact EN|exact I].
    + intros [(v & X)|(a & e & EN & I)]; [discriminate X|]. exists e. split; [exact I|].
      rewrite EN. symmetry. apply after_dot_some. apply cpp_exts_nodot. exact I.
  - destruct (lookup extensions _) as [v|] eqn:LE; [destruct (ext_no_hash _ _ LE)|].
    apply Ok_inj in H. rewrite <- H. split; [discriminate|].
    intros [(v & X)|(a & e & EN & I)]; [discriminate X|]. exfalso.
    assert (existsb (Z.eqb 46) name = true); [|congruence]. apply existsb_dot. rewrite EN. apply in_app_iff. cbn. auto.
Qed.

Lemma after_dot_length p : (length (after_dot p) <= length p)%nat.
Proof.
  induction p as [|c p IH]; cbn [after_dot]; [lia|].
  destruct (existsb _ _); [cbn [length]; lia|]. destruct (c =? 46); cbn [length]; lia.
Qed.
Lemma h_include_safe pl line : zlen line < 81 + slack pl -> exists r, h_include pl line = Ok r.
Proof.
  intros L. unfold h_include. destruct (deref line =? 35); [|eexists; reflexivity].
  cbv zeta. set (p := skip blank (tl line)).
  destruct (startsb "include" p && blank (deref (skipn 7 p))); [|eexists; reflexivity].
  set (p2 := skip blank (skipn 8 p)). destruct ((deref p2 =? 60) || (deref p2 =? 34)); [|eexists; reflexivity].
  set (cl := fun c => negb (c =? 62) && negb (c =? 34)).
  assert (A1 : (length p2 <= length line)%nat).
  { pose proof (skip_length blank (skipn 8 p)). pose proof (skip_length blank (tl line)).
    fold p2 in H. fold p in H0. rewrite skipn_length in H.
    assert (length (tl line) <= length line)%nat by (destruct line; cbn [tl length]; lia). lia. }
  assert (A2 : (length (tl p2) <= length p2)%nat) by (destruct p2; cbn [tl length]; lia).
  pose proof (skip_length cl (tl p2)) as A3.
  unfold store. destruct (_ <? _) eqn:T; [|exfalso; apply Z.ltb_ge in T; unfold zlen in *; lia].
  clear T. cbn [bind]. destruct (lookup cppheaders _); [eexists; reflexivity|].
  pose proof (after_dot_length (upto line (skip cl (tl p2)))) as A4.
  assert (A5 : (length (upto line (skip cl (tl p2))) <= length line)%nat) by (unfold upto; rewrite firstn_length; lia).
  destruct (_ <? _) eqn:T2; [|exfalso; apply Z.ltb_ge in T2; unfold zlen in *; lia].
  cbn [bind]. destruct (lookup extensions _); eexists; reflexivity.
Qed.
Lemma h_include_fuel pl line : h_include pl line <> OutOfFuel.
Proof.
  unfold h_include, store. destruct (deref line =? 35); [|discriminate]. cbv zeta.
  destruct (startsb "include" _ && _); [|discriminate].
  destruct ((_ =? 60) || _); [|discriminate].
  destruct (_ <? _); cbn [bind]; [|discriminate]. destruct (lookup cppheaders _); [discriminate|].
  destruct (_ <? _); cbn [bind]; [|discriminate]. destruct (lookup extensions _); discriminate.
Qed.

Lemma h_line_ok pl b l a x : before_line pl = Some b -> (length l <= 81)%nat -> h_line pl l a = Ok x ->
  (x = inr (Some "cpp") /\ cpp_line b l) \/ (x = inl a /\ ~ cpp_line b l).
Proof.
  intros B L. unfold h_line. intros H. apply bind_ok in H as (i & HI & H). apply h_include_ok in HI.
  unfold cpp_line. destruct i.
  { injection H as <-. left. split; [reflexivity|]. left. apply HI. reflexivity. }
  apply bind_ok in H as (k & HK & H). rewrite B in HK. apply keywords_ok in HK; [|lia].
  destruct k; injection H as <-; [left|right]; (split; [reflexivity|]).
  - right. apply HK. reflexivity.
  - intros [X|X]; [apply HI in X|apply HK in X]; discriminate.
Qed.
Lemma h_line_nil pl a : 0 <= slack pl -> h_line pl [] a = Ok (inl a).
Proof. reflexivity. Qed.
