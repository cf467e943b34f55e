(** Lemmas about the disambiguators aspx, b, st and fs of DetectorModel. *)
From Coq Require Import ZArith String List Bool Lia.
From Verif Require Import Base ParsedModel PathModel Tables DetectorModel DetectorSpec DetectorProofs
  DisambProofs DisambProofs2.
Import ListNotations.
Open Scope string_scope.
Open Scope Z_scope.
Open Scope list_scope.

(** *** First occurrences *)
Lemma removelast_len {A} (l : list A) : l <> [] -> S (length (removelast l)) = length l.
Proof.
  intros N. destruct (exists_last N) as (m & x & ->). rewrite removelast_last, app_length. cbn [length]. lia.
Qed.
Lemma begins_removelast (lit a b : list Z) : a <> [] -> lit <> [] -> begins lit (a ++ lit ++ b) ->
  occurs lit (a ++ removelast lit).
Proof.
  intros Na Nl (v & E).
  assert (L := removelast_len lit Nl).
  assert (E2 : firstn (length lit) (a ++ lit ++ b) = lit).
  { rewrite E, firstn_app, firstn_all, Nat.sub_diag. cbn. apply app_nil_r. }
  assert (E3 : a ++ lit ++ b = (a ++ removelast lit) ++ [last lit 0] ++ b).
  { rewrite (app_removelast_last 0 Nl) at 1. rewrite <- !app_assoc. reflexivity. }
  rewrite E3, firstn_app in E2.
  replace (length lit - length (a ++ removelast lit))%nat with 0%nat in E2.
  2: { rewrite app_length. destruct a; [contradiction|]. cbn [length]. lia. }
  cbn [firstn] in E2. rewrite app_nil_r in E2.
  exists [], (skipn (length lit) (a ++ removelast lit)). cbn [app]. rewrite <- E2 at 2. symmetry. apply firstn_skipn.
Qed.

Lemma strstr_first p lit a b : Forall (fun c => c <> 0) lit -> lit <> [] ->
  before_nul p = a ++ lit ++ b -> ~ occurs lit (a ++ removelast lit) ->
  exists z, p = a ++ lit ++ b ++ z /\ strstr p lit = Some (lit ++ b ++ z).
Proof.
  intros L N. revert p; induction a as [|x a IH]; intros p E O.
  - destruct (before_nul_app p) as (z & EP & _). rewrite E in EP. cbn [app] in *. exists z.
    rewrite <- app_assoc in EP. split; [exact EP|].
    assert (S : starts lit p = true) by (apply starts_iff; rewrite EP; eexists; reflexivity).
    rewrite <- EP. destruct p; cbn [strstr]; rewrite S; reflexivity.
  - destruct p as [|y p]; [discriminate E|]. cbn [before_nul] in E. destruct (y =? 0) eqn:Y; [discriminate E|].
    cbn [app] in E. injection E as -> E.
    cbn [app] in O. rewrite occurs_cons in O.
    destruct (IH p E) as (z & -> & S); [tauto|]. exists z. split; [reflexivity|].
    cbn [strstr]. rewrite Y, S. destruct (starts lit (x :: a ++ lit ++ b ++ z)) eqn:B; [|reflexivity].
    exfalso. apply O. rewrite <- occurs_cons. apply starts_iff in B.
    apply (begins_removelast lit (x :: a) (b ++ z)); [discriminate|exact N|exact B].
Qed.
Lemma strstr_split p lit q : Forall (fun c => c <> 0) lit -> lit <> [] -> strstr p lit = Some q ->
  exists a b, before_nul p = a ++ lit ++ b /\ ~ occurs lit (a ++ removelast lit) /\ p = a ++ q /\ before_nul q = lit ++ b.
Proof.
  intros L N H. apply strstr_some in H as (a & -> & B & F & M).
  assert (B' := B). apply begins_before_nul in B' as (b & EB); [|exact L].
  exists a, b. rewrite before_nul_app_no0, EB by exact F. split; [reflexivity|]. split; [|auto].
  intros (u & v & E).
  assert (LL := removelast_len lit N).
  assert (LU : (length u < length a)%nat).
  { apply (f_equal (@length Z)) in E. rewrite !app_length in E. lia. }
  apply app_split in E as [(e & EA & E2)|(e & EU & E2)].
  - (* a = u ++ e *)
    apply (M u e EA).
    + intros ->. rewrite app_nil_r in EA. subst. lia.
    + destruct B as (w & ->). rewrite (app_removelast_last 0 N).
      rewrite <- app_assoc. rewrite (app_assoc e). rewrite <- E2. rewrite <- (app_removelast_last 0 N).
      rewrite <- app_assoc. eexists; reflexivity.
  - rewrite EU, app_length in LU. lia.
Qed.

(** *** aspx *)
Lemma lower_eq c : to_lower c = lower c.
Proof. reflexivity. Qed.
Lemma lower_nonzero c : c <> 0 -> lower c <> 0.
Proof. unfold lower. destruct (_ && _) eqn:E; [|auto]. zb. lia. Qed.
Lemma lower_no0 l : Forall (fun c => c <> 0) l -> Forall (fun c => c <> 0) (map lower l).
Proof. induction 1; cbn; constructor; auto using lower_nonzero. Qed.

Lemma vb_page_iff d : Forall (fun c => c <> 0) d ->
  (startsb "page" (skip blank (map to_lower d))
   && has (skipn 4 (skip blank (map to_lower d))) "language=""vb""" = true <-> vb_page d).
Proof.
  intros N0. change (map to_lower d) with (map lower d). pose proof (lower_no0 _ N0) as NL.
  set (m := map lower d) in *. unfold vb_page. fold m. clearbody m. rewrite andb_true_iff.
  pose proof (taken_skip blank m) as E. split.
  - intros [B H]. apply startsb_iff in B as (r & B). rewrite B in H, E.
    change (skipn 4 (bytes "page" ++ r)) with r in H. apply has_iff in H; [|no0|discriminate].
    exists (taken blank m), r. split; [exact E|].
    split; [apply (Forall_b _ _ _ blank_iff), taken_all|].
    rewrite before_nul_id in H; [exact H|]. rewrite E in NL. apply Forall_app in NL as [_ NL].
    apply Forall_app in NL as [_ NL]. exact NL.
  - intros (w & r & EM & F & O).
    assert (S : skip blank m = bytes "page" ++ r).
    { rewrite EM. apply skip_app; [apply (Forall_b _ _ _ blank_iff); exact F|]. intros c r' X. injection X as <- _. reflexivity. }
    rewrite S. split; [apply startsb_iff; eexists; reflexivity|].
    change (skipn 4 (bytes "page" ++ r)) with r. apply has_iff; [no0|discriminate|].
    rewrite before_nul_id; [exact O|]. rewrite EM in NL. apply Forall_app in NL as [_ NL].
    apply Forall_app in NL as [_ NL]. exact NL.
Qed.

Lemma directive_find c d : directive c d ->
  exists p pe, strstr c (bytes "<%@") = Some p /\ strstr p (bytes "%>") = Some pe /\ skipn 3 p = d ++ pe /\
    Forall (fun c => c <> 0) d.
Proof.
  intros (a & b & E & O1 & O2).
  destruct (strstr_first c (bytes "<%@") a (d ++ bytes "%>" ++ b)) as (z & EC & S); [no0|discriminate|exact E|exact O1|].
  assert (ND : Forall (fun c => c <> 0) (d ++ bytes "%>" ++ b)).
  { pose proof (before_nul_no0 c) as H. rewrite E in H. apply Forall_app in H as [_ H]. apply Forall_app in H as [_ H]. exact H. }
  set (p := bytes "<%@" ++ (d ++ bytes "%>" ++ b) ++ z) in *.
  assert (EP : before_nul p = (bytes "<%@" ++ d) ++ bytes "%>" ++ before_nul (b ++ z)).
  { unfold p. apply Forall_app in ND as [N1 N2]. rewrite <- !app_assoc.
    rewrite before_nul_app_no0 by no0. rewrite before_nul_app_no0 by exact N1. rewrite before_nul_app_no0 by no0.
    reflexivity. }
  destruct (strstr_first p (bytes "%>") (bytes "<%@" ++ d) (before_nul (b ++ z))) as (z2 & EP2 & S2);
    [no0|discriminate|exact EP| |].
  { change (bytes "<%@") with [60; 37; 64]. cbn [app]. rewrite !occurs_cons.
    change (bytes "%>") with [37; 62] in *. cbn [removelast]. cbn [removelast] in *.
    change (bytes "%") with [37] in O2. intros [X|[X|[X|X]]].
    - apply begins_cons in X as [X _]. discriminate X.
    - apply begins_cons in X as [_ X]. apply begins_cons in X as [X _]. discriminate X.
    - apply begins_cons in X as [X _]. discriminate X.
    - exact (O2 X). }
  exists p, (bytes "%>" ++ before_nul (b ++ z) ++ z2). split; [exact S|]. split; [exact S2|].
  split; [|apply Forall_app in ND as [N1 _]; exact N1].
  rewrite EP2. rewrite <- !app_assoc. reflexivity.
Qed.
Lemma directive_some c p pe : strstr c (bytes "<%@") = Some p -> strstr p (bytes "%>") = Some pe ->
  exists d, directive c d /\ skipn 3 p = d ++ pe.
Proof.
  intros H1 H2. apply strstr_split in H1 as (a & b & E1 & O1 & EC & EB); [|no0|discriminate].
  assert (EP : exists p3, p = bytes "<%@" ++ p3).
  { destruct (before_nul_app p) as (z & EZ & _). rewrite EB, <- app_assoc in EZ. eauto. }
  destruct EP as (p3 & EP).
  apply strstr_split in H2 as (a2 & b2 & E2 & O2 & EP2 & EB2); [|no0|discriminate].
  assert (exists d, a2 = bytes "<%@" ++ d) as (d & ->).
  { change (bytes "<%@") with [60; 37; 64] in *. change (bytes "%>") with [37; 62] in *.
    rewrite EB in E2. destruct a2 as [|x a2]; [discriminate E2|]. destruct a2 as [|y a2]; [discriminate E2|].
    destruct a2 as [|w a2]; [discriminate E2|]. cbn in E2. injection E2 as <- <- <- _. exists a2. reflexivity. }
  exists d. split.
  - exists a, b2. split.
    { rewrite E1. f_equal. rewrite <- app_assoc in E2. rewrite EB in E2. apply app_inv_head in E2. rewrite E2. reflexivity. }
    split; [exact O1|].
    change (removelast (bytes "%>")) with (bytes "%") in O2. intros X. apply O2.
    change (bytes "<%@") with [60; 37; 64]. cbn [app]. rewrite !occurs_cons. auto.
  - rewrite EP2. rewrite <- app_assoc. reflexivity.
Qed.

Lemma aspx_ok pl f g : disambiguate_aspx pl f = Ok g ->
  (g = Some "vb_aspx" /\ exists d, directive (contents f) d /\ vb_page d)
  \/ (g = Some "cs_aspx" /\ forall d, directive (contents f) d -> ~ vb_page d).
Proof.
  unfold disambiguate_aspx.
  assert (NIL : contents f = [] -> forall d, ~ directive (contents f) d).
  { intros -> d D. apply directive_find in D as (? & ? & S & _). discriminate S. }
  destruct (contents f) as [|x c'] eqn:EC.
  { intros [= <-]. right. split; [reflexivity|]. intros d D. destruct (NIL eq_refl d D). }
  clear NIL. remember (x :: c') as c eqn:Ec. clear EC Ec x c'.
  destruct (strstr c (bytes "<%@")) as [p|] eqn:S1.
  2: { intros [= <-]. right. split; [reflexivity|]. intros d D.
       apply directive_find in D as (? & ? & S & _). congruence. }
  destruct (strstr p (bytes "%>")) as [pe|] eqn:S2.
  2: { intros [= <-]. right. split; [reflexivity|]. intros d D.
       apply directive_find in D as (p' & ? & S & S' & _). congruence. }
  destruct (directive_some c p pe S1 S2) as (d & D & ED).
  assert (D' := D). apply directive_find in D' as (p' & pe' & S1' & S2' & ED' & ND).
  assert (UNIQ : forall d', directive c d' -> d' = d).
  { intros d' X. apply directive_find in X as (p2 & pe2 & T1 & T2 & T3 & _).
    assert (p2 = p) by congruence. subst p2. assert (pe2 = pe) by congruence. subst pe2.
    rewrite ED in T3. apply app_inv_tail in T3. auto. }
  intros H. apply bind_ok in H as (_ & _ & H). rewrite ED, upto_app in H.
  pose proof (vb_page_iff d ND) as V.
  destruct (startsb "page" (skip blank (map to_lower d))
     && has (skipn 4 (skip blank (map to_lower d))) "language=""vb""").
  - injection H as <-. left. split; [reflexivity|]. exists d. split; [exact D|]. apply V. reflexivity.
  - destruct (loop_ends pl); [|discriminate H]. injection H as <-. right. split; [reflexivity|].
    intros d' X. rewrite (UNIQ d' X). intros Y. apply V in Y. discriminate Y.
Qed.
Lemma aspx_safe pl f : 1 <= slack pl -> loop_ends pl = true -> exists g, disambiguate_aspx pl f = Ok g.
Proof.
  intros S L. unfold disambiguate_aspx. destruct (contents f); [eauto|].
  destruct (strstr _ (bytes "<%@")) as [p|] eqn:S1; [|eauto].
  destruct (strstr p (bytes "%>")) as [pe|] eqn:S2; [|eauto].
  destruct (directive_some _ p pe S1 S2) as (d & D & ED). rewrite ED.
  unfold vla, store, zlen. rewrite app_length.
  destruct (_ <? 0) eqn:T; [zb; lia|]. destruct (_ <? _ + _) eqn:T2; [|zb; lia].
  cbn [bind]. rewrite L. destruct (_ && _); eauto.
Qed.

(** *** b *)
Lemma limbo_nil : ~ limbo_at [].
Proof.
  intros [(b & _ & B)|[(w & _ & _ & B)|[(k & I & B & _)|(k & I & B & _)]]].
  - exact (not_begins_nil _ _ B).
  - exact (not_begins_nil _ _ B).
  - cbn in I. repeat (destruct I as [<-|I]; [exact (not_begins_nil _ _ B)|]). destruct I.
  - cbn in I. repeat (destruct I as [<-|I]; [exact (not_begins_nil _ _ B)|]). destruct I.
Qed.
Lemma begins_snoc lit c p : begins (lit ++ [c]) p <-> begins lit p /\ exists r, skipn (length lit) p = c :: r.
Proof.
  split.
  - intros (b & ->). rewrite <- app_assoc. split; [eexists; reflexivity|].
    exists b. rewrite skipn_app, skipn_all, Nat.sub_diag. reflexivity.
  - intros [(b & ->) (r & E)]. rewrite skipn_app, skipn_all, Nat.sub_diag in E. cbn in E. subst.
    exists r. rewrite <- app_assoc. reflexivity.
Qed.
Lemma deref_blank p : blank (deref p) = true <-> exists b r, p = b :: r /\ Blank b.
Proof.
  rewrite blank_iff. unfold deref. destruct p as [|x p]; cbn [hd].
  - split; [unfold Blank; lia|]. intros (b & r & E & _). discriminate E.
  - split; [eauto|]. intros (b & r & [= -> ->] & B). exact B.
Qed.
Lemma followed lit n p : length (bytes lit) = n ->
  (startsb lit p && blank (deref (skipn n p)) = true <-> exists b, Blank b /\ begins (bytes lit ++ [b]) p).
Proof.
  intros <-. rewrite andb_true_iff, startsb_iff, deref_blank. split.
  - intros [B (b & r & E & K)]. exists b. split; [exact K|]. apply begins_snoc. eauto.
  - intros (b & K & B). apply begins_snoc in B as [B (r & E)]. eauto.
Qed.
Lemma suffix_tl (p a q : list Z) : tl p = a ++ q -> q <> [] -> exists a', p = a' ++ q.
Proof. destruct p as [|x p]; cbn [tl]; intros E N; [destruct a, q; try discriminate; contradiction|]. exists (x :: a). cbn. congruence. Qed.

Lemma b_sound fuel p : b_loop fuel p = Ok true -> exists a q, p = a ++ q /\ limbo_at q.
Proof.
  revert p; induction fuel as [|k IH]; intros p; cbn [b_loop]; [discriminate|].
  destruct p as [|x p']; [discriminate|]. remember (x :: p') as p eqn:EP. clear x p' EP.
  assert (REC : forall p', (exists a, p = a ++ p') -> b_loop k (tl p') = Ok true -> exists a q, p = a ++ q /\ limbo_at q).
  { intros p' (a & ->) H. apply IH in H as (a' & q & E & L).
    assert (N : q <> []) by (intros ->; exact (limbo_nil L)).
    apply suffix_tl in E as (a2 & ->); [|exact N]. exists (a ++ a2), q. rewrite app_assoc. auto. }
  assert (HERE : exists a, p = a ++ p) by (exists []; reflexivity).
  destruct (startsb "implement" p && blank (deref (skipn 9 p))) eqn:B1.
  { intros _. apply (followed "implement" 9 p) in B1; [|reflexivity]. exists [], p. split; [reflexivity|]. left. exact B1. }
  destruct (startsb "include" p && blank (deref (skipn 7 p))) eqn:B2.
  { apply (followed "include" 7 p) in B2 as (b & K & (r & E)); [|reflexivity].
    assert (S7 : skipn 7 p = b :: r) by (rewrite E; reflexivity). rewrite S7.
    pose proof (taken_skip blank (b :: r)) as T.
    pose proof (proj1 (Forall_b _ _ _ blank_iff) (taken_all blank (b :: r))) as FB.
    assert (NB : taken blank (b :: r) <> []) by (cbn; rewrite (proj2 (blank_iff b) K); discriminate).
    set (w := taken blank (b :: r)) in *. set (s := skip blank (b :: r)) in *. clearbody w s.
    assert (EP : p = (bytes "include" ++ w) ++ s) by (rewrite E, <- !app_assoc; cbn [app] in *; rewrite T; reflexivity).
    cbv zeta. destruct (startsb """;" s) eqn:B3.
    - intros _. exists [], p. split; [reflexivity|]. right. left. exists w. split; [exact NB|]. split; [exact FB|].
      apply startsb_iff in B3 as (z & ->). exists z. rewrite EP, <- !app_assoc. reflexivity.
    - apply REC. eauto. }
  clear B1 B2.
  destruct (startsb "return" p || startsb "break" p || startsb "continue" p) eqn:B1.
  { destruct (has p ";") eqn:H; [|apply REC; exact HERE]. intros _. exists [], p. split; [reflexivity|].
    right. right. left. apply has_iff in H; [|no0|discriminate].
    rewrite !orb_true_iff in B1.
    destruct B1 as [[B|B]|B]; apply startsb_iff in B; eexists; (split; [|split; [exact B|exact H]]); cbn; auto. }
  destruct (startsb "pick" p || startsb "case" p) eqn:B2.
  { destruct (has p "{") eqn:H; [|apply REC; exact HERE]. intros _. exists [], p. split; [reflexivity|].
    right. right. right. apply has_iff in H; [|no0|discriminate].
    rewrite !orb_true_iff in B2.
    destruct B2 as [B|B]; apply startsb_iff in B; eexists; (split; [|split; [exact B|exact H]]); cbn; auto. }
  apply REC. exact HERE.
Qed.

Lemma b_complete fuel p r : b_loop fuel p = Ok r ->
  ~ (exists w, Blank w /\ occurs (bytes "include" ++ [w]) p) ->
  (exists a q, p = a ++ q /\ limbo_at q) -> r = true.
Proof.
  revert p; induction fuel as [|k IH]; intros p; cbn [b_loop]; [discriminate|].
  destruct p as [|x p'].
  { intros _ _ (a & q & E & L). symmetry in E. apply app_eq_nil in E as [_ ->]. destruct (limbo_nil L). }
  intros H NI (a & q & E & L).
  assert (NI' : ~ (exists w, Blank w /\ occurs (bytes "include" ++ [w]) p')).
  { intros (w & K & O). apply NI. exists w. split; [exact K|]. apply occurs_cons. auto. }
  destruct a as [|y a].
  2: { cbn in E. injection E as -> ->. assert (EX : exists a' q', a ++ q = a' ++ q' /\ limbo_at q') by eauto.
       cbn [tl] in H.
       destruct (_ && _); [congruence|]. destruct (startsb "include" _ && _) eqn:B2.
       { apply (followed "include" 7) in B2 as (w & K & B); [|reflexivity]. exfalso. apply NI. exists w. split; [exact K|].
         apply occurs_cons. auto. }
       destruct (_ || _ || _); [destruct (has _ _); [congruence|]; eapply IH; eauto|].
       destruct (_ || _); [destruct (has _ _); [congruence|]; eapply IH; eauto|]. eapply IH; eauto. }
  cbn [app] in E. subst q. remember (x :: p') as p eqn:EP.
  destruct (startsb "implement" p && blank (deref (skipn 9 p))) eqn:B1; [congruence|].
  destruct (startsb "include" p && blank (deref (skipn 7 p))) eqn:B2.
  { apply (followed "include" 7) in B2 as (w & K & B); [|reflexivity]. exfalso. apply NI. exists w. split; [exact K|].
    rewrite EP. apply occurs_cons. left. rewrite <- EP. exact B. }
  destruct L as [X|[(w & Nw & Fw & X)|[(kw & I & X & O)|(kw & I & X & O)]]].
  - apply (followed "implement" 9) in X; [congruence|reflexivity].
  - exfalso. apply NI. destruct w as [|c w]; [contradiction|]. pose proof (Forall_inv Fw) as K. exists c. split; [exact K|].
    rewrite EP. apply occurs_cons. left. rewrite <- EP. destruct X as (z & ->). cbn [app]. eexists. rewrite <- !app_assoc. reflexivity.
  - assert (B : startsb "return" p || startsb "break" p || startsb "continue" p = true).
    { apply startsb_iff in X. rewrite !orb_true_iff. cbn in I. destruct I as [<-|[<-|[<-|[]]]]; auto. }
    rewrite B in H. assert (O' : has p ";" = true) by (apply has_iff; [no0|discriminate|exact O]).
    rewrite O' in H. congruence.
  - destruct (_ || _ || _) eqn:BB.
    { exfalso. rewrite !orb_true_iff, !startsb_iff in BB. cbn in I.
      destruct X as (z & EZ). rewrite EZ in BB.
      destruct I as [<-|[<-|[]]]; destruct BB as [[(y & E)|(y & E)]|(y & E)]; discriminate E. }
    assert (B : startsb "pick" p || startsb "case" p = true).
    { apply startsb_iff in X. rewrite !orb_true_iff. cbn in I. destruct I as [<-|[<-|[]]]; auto. }
    rewrite B in H. assert (O' : has p "{" = true) by (apply has_iff; [no0|discriminate|exact O]).
    rewrite O' in H. congruence.
Qed.

(** The first include in the text. *)
Lemma skip_blanks w r : Forall Blank w -> skip blank (w ++ bytes """;" ++ r) = bytes """;" ++ r.
Proof. induction 1 as [|c w K F IH]; [reflexivity|]. cbn [app skip]. rewrite (proj2 (blank_iff c) K). exact IH. Qed.
Lemma b_include fuel : forall a w z r, w <> [] -> Forall Blank w ->
  ~ (exists b, Blank b /\ occurs (bytes "include" ++ [b]) (a ++ bytes "include")) ->
  b_loop fuel (a ++ bytes "include" ++ w ++ bytes """;" ++ z) = Ok r -> r = true.
Proof.
  induction fuel as [|k IH]; intros a w z r Nw Fw NI H; [discriminate|]. cbn [b_loop] in H. destruct a as [|x a].
  - set (p := [] ++ bytes "include" ++ w ++ bytes """;" ++ z) in *.
    assert (B : startsb "include" p && blank (deref (skipn 7 p)) = true).
    { apply (followed "include" 7 p eq_refl). destruct w as [|b w]; [contradiction|]. exists b. split; [exact (Forall_inv Fw)|].
      unfold p. eexists. cbn [app]. rewrite <- app_assoc. reflexivity. }
    assert (S7 : skipn 7 p = w ++ bytes """;" ++ z) by reflexivity.
    destruct p as [|y p'] eqn:EP; [discriminate EP|]. rewrite <- EP in *. destruct (_ && _); [congruence|]. rewrite B, S7, skip_blanks in H by exact Fw.
    cbv zeta in H. assert (Q : startsb """;" (bytes """;" ++ z) = true) by (apply startsb_iff; exists z; reflexivity).
    rewrite Q in H. congruence.
  - assert (NI' : ~ (exists b, Blank b /\ occurs (bytes "include" ++ [b]) (a ++ bytes "include"))).
    { intros (b & K & O). apply NI. exists b. split; [exact K|]. apply occurs_cons. auto. }
    cbn [app] in H. set (q := a ++ bytes "include" ++ w ++ bytes """;" ++ z) in *. cbn [tl] in H.
    assert (REC : b_loop k q = Ok r -> r = true) by (apply IH; auto).
    destruct (startsb "implement" _ && _); [congruence|]. destruct (startsb "include" _ && _) eqn:B2.
    { exfalso. apply (followed "include" 7) in B2 as (b & K & (t & B)); [|reflexivity]. apply NI. exists b. split; [exact K|].
      exists []. cbn [app]. assert (L : firstn 8 (x :: q) = bytes "include" ++ [b]) by (rewrite B; reflexivity).
      assert (L' : firstn 8 (x :: q) = firstn 8 (x :: a ++ bytes "include")).
      { unfold q. change (x :: firstn 7 (a ++ bytes "include" ++ w ++ bytes """;" ++ z) = x :: firstn 7 (a ++ bytes "include")).
        f_equal. rewrite (app_assoc a), firstn_app.
        replace (7 - length (a ++ bytes "include"))%nat with 0%nat by (rewrite app_length; cbn [bytes length]; lia).
        rewrite firstn_O. apply app_nil_r. }
      exists (skipn 8 (x :: a ++ bytes "include")). rewrite <- L, L'. symmetry. apply firstn_skipn. }
    destruct (_ || _ || _); [destruct (has _ _); [congruence|auto]|].
    destruct (_ || _); [destruct (has _ _); [congruence|auto]|]. auto.
Qed.

Lemma b_total fuel p : (length p < fuel)%nat -> exists r, b_loop fuel p = Ok r.
Proof.
  revert p; induction fuel as [|k IH]; intros p L; [lia|]. cbn [b_loop].
  destruct p as [|x p']; [eauto|]. cbn [length] in L. cbn [tl].
  destruct (_ && _); [eauto|]. destruct (startsb "include" (x :: p') && _) eqn:B.
  - cbv zeta. destruct (startsb _ (skip blank (skipn 7 (x :: p')))); [eauto|]. apply IH.
    pose proof (skip_length blank (skipn 7 (x :: p'))) as A. rewrite skipn_length in A. cbn [length] in A.
    destruct (skip blank (skipn 7 (x :: p'))); cbn [tl length] in *; lia.
  - destruct (_ || _ || _); [destruct (has _ _); [eauto|]; apply IH; lia|].
    destruct (_ || _); [destruct (has _ _); [eauto|]; apply IH; lia|]. apply IH; lia.
Qed.
