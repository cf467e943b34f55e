(** Lemmas about mode lines, libmagic and the values of detection. *)
From Coq Require Import ZArith String Ascii List Bool Lia.
From Verif Require Import Base ParsedModel PathModel Tables TablesSpec PropertiesTables DetectorModel DetectorSpec DetectorProofs
  DisambProofs DisambProofs2 DisambProofs3 DisambProofs4 DisambProofs5 DisambProofs6 DisambProofs7 DetectProofs.
Import ListNotations.
Open Scope string_scope.
Open Scope Z_scope.
Open Scope list_scope.

(** ** The mode line *)
(** The array holds (up to its first NUL) a part of the file. *)
Lemma mode_array_part pl fuel p arr r : mode_array pl fuel p arr = Ok r ->
  before_nul r = before_nul arr \/ (forall lit, occurs lit (before_nul r) -> occurs lit p).
Proof.
  revert p arr; induction fuel as [|k IH]; intros p arr; cbn [mode_array]; [discriminate|].
  destruct p as [|c p']; [intros [= ->]; auto|]. remember (c :: p') as p eqn:EP. clear c p' EP. cbv zeta.
  destruct (store _ _ _) as [[]| |]; cbn [bind]; try discriminate.
  set (g := fun c => negb (is_eol c)). rewrite upto_skip. set (l := taken g p).
  set (n := Z.to_nat (if zlen l <=? 81 then zlen l else 81)). set (arr' := _ ++ repeat _ _ ++ _).
  assert (A : before_nul arr' = before_nul (firstn n l)).
  { unfold arr'. rewrite cstr_eq. rewrite before_nul_app_no0 by apply before_nul_no0.
    destruct (n - length (before_nul (firstn n l)))%nat; cbn; rewrite app_nil_r; reflexivity. }
  assert (B : forall lit, occurs lit (before_nul arr') -> occurs lit p).
  { intros lit (a & b & E). rewrite A in E. destruct (before_nul_app (firstn n l)) as (z & E1 & _).
    exists a, (b ++ z ++ skipn n l ++ skip g p).
    rewrite (taken_skip g p) at 1. fold l. rewrite <- (firstn_skipn n l) at 1. rewrite E1, E, <- !app_assoc. reflexivity. }
  destruct (startsb "#!" arr').
  - intros H. apply IH in H as [H|H].
    + right. rewrite H. exact B.
    + right. intros lit O. apply H in O as (a & b & E).
      exists (l ++ taken is_eol (skip g p) ++ a), b.
      rewrite <- !app_assoc, <- E, <- taken_skip. apply taken_skip.
  - intros [= <-]. auto.
Qed.
Lemma mode_array_safe pl fuel p arr : 0 <= slack pl -> (length p < fuel)%nat ->
  (1 <= slack pl \/ forall l, In l (lines p) -> zlen l <= 80) -> exists r, mode_array pl fuel p arr = Ok r.
Proof.
  intros S. revert p arr; induction fuel as [|k IH]; intros p arr L F; [lia|]. cbn [mode_array].
  destruct p as [|c p']; [eauto|]. remember (c :: p') as p eqn:EP. cbv zeta.
  set (g := fun c => negb (is_eol c)). rewrite upto_skip. set (l := taken g p).
  assert (G : forall c r, skip g p = c :: r -> is_eol c = true).
  { intros x r E. apply skip_head in E. unfold g in E. apply negb_false_iff in E. exact E. }
  assert (T : Forall (fun c => is_eol c = false) l).
  { eapply Forall_impl; [|apply taken_all]. intros x E. unfold g in E. apply negb_true_iff in E. exact E. }
  assert (LI : In l (lines p)).
  { rewrite (taken_skip g p). fold l. rewrite lines_app by auto. destruct (skip g p); left; reflexivity. }
  assert (ST : store pl 81 (if zlen l <=? 81 then zlen l else 81) = Ok tt).
  { unfold store. destruct F as [F|F].
    - destruct (zlen l <=? 81) eqn:E; [apply Z.leb_le in E|];
        match goal with |- context [?a <? ?b] => destruct (a <? b) eqn:X end; try reflexivity; apply Z.ltb_ge in X; lia.
    - specialize (F l LI). destruct (zlen l <=? 81) eqn:E; [|apply Z.leb_gt in E; lia].
      destruct (zlen l <? 81 + slack pl) eqn:X; [reflexivity|]. apply Z.ltb_ge in X. lia. }
  rewrite ST. cbn [bind]. destruct (startsb "#!" _); [|eauto]. apply IH.
  - assert (LE : (length (skip is_eol (skip g p)) < length p)%nat).
    { rewrite EP. cbn [skip]. destruct (g c) eqn:C.
      - pose proof (skip_length g p'). pose proof (skip_length is_eol (skip g p')). cbn [length]. lia.
      - cbn [skip]. unfold g in C. apply negb_false_iff in C. rewrite C. pose proof (skip_length is_eol p'). cbn [length]. lia. }
    lia.
  - destruct F as [F|F]; [auto|]. right. intros l' I.
    rewrite (taken_skip g p) in F. fold l in F. rewrite lines_app in F by auto.
    assert (SUF : forall w q, Forall (fun c => is_eol c = true) w -> In l' (lines q) -> In l' (lines (w ++ q))).
    { intros w q W I'. induction W as [|x w X W IHW]; [exact I'|]. cbn [app lines].
      unfold is_eol in X. rewrite X. right. exact IHW. }
    destruct (skip g p) as [|x q] eqn:SK.
    + cbn in I. destruct I as [<-|[]]. change (zlen []) with 0. lia.
    + apply F. right. cbn [skip] in I. rewrite (G x q eq_refl) in I.
      rewrite (taken_skip is_eol q). apply SUF; [apply taken_all|exact I].
Qed.

(** Without "-*-" in the file there is no mode. *)
Lemma no_mode pl f : 0 <= slack pl -> (1 <= slack pl \/ forall l, In l (lines (contents f)) -> zlen l <= 80) ->
  ~ occurs (bytes "-*-") (contents f) -> emacs_mode pl f = Ok None.
Proof.
  intros SL F N. unfold emacs_mode.
  destruct (mode_array_safe pl (S (length (contents f))) (contents f) (repeat 0 81%nat) SL ltac:(lia) F) as (r & E).
  rewrite E. cbn [bind].
  assert (O : ~ occurs (bytes "-*-") (before_nul r)).
  { apply mode_array_part in E as [E|E].
    - rewrite E. cbn. intros X. apply occurs_nil in X. discriminate X.
    - intros X. exact (N (E _ X)). }
  rewrite (proj2 (strstr_none r (bytes "-*-") ltac:(no0) ltac:(discriminate)) O). reflexivity.
Qed.

Lemma lang_lookup k l : In (k, l) languages -> exists l', lookup languages (bytes k) = Some l' /\ l_name l' = l_name l.
Proof.
  assert (C : forallb (fun p => match lookup languages (bytes (fst p)) with Some v => (l_name v =? l_name (snd p))%string | None => false end)
                languages = true) by (vm_compute; reflexivity).
  rewrite forallb_forall in C. intros I. specialize (C _ I). cbn [fst snd] in C.
  destruct (lookup languages (bytes k)) as [l'|]; [|discriminate C]. apply String.eqb_eq in C. eauto.
Qed.
Lemma names_iff n v : names n v <-> find_named n = Some v.
Proof.
  unfold find_named, language_named. split.
  - intros [(k & l & I & -> & ->)|(N & k & I & E)].
    + apply lang_lookup in I as (l' & -> & ->). reflexivity.
    + destruct (lookup languages n) as [l|] eqn:L.
      * exfalso. apply lookup_in in L as (s & E1 & I1). apply (N s l I1). congruence.
      * rewrite E. apply ext_lookup. exact I.
  - destruct (lookup languages n) as [l|] eqn:L.
    + intros [= <-]. apply lookup_in in L as (s & E & I). left. exists s, l. auto.
    + intros H. right. split.
      * intros k l I ->. apply lang_lookup in I as (l' & X & _). congruence.
      * apply lookup_in in H as (s & E & I). eauto.
Qed.
Lemma mode_says_iff n v : Forall (fun c => c <> 0) n ->
  (mode_says n v <->
   (if zlist_eqb (map to_lower (cstr n)) (bytes "c") then Some "c"
    else match find_named n with Some v => Some v | None => find_named (map to_lower n) end) = Some v).
Proof.
  intros Z. rewrite cstr_eq, before_nul_id by exact Z. rewrite !map_to_lower. unfold mode_says.
  destruct (zlist_eqb (map lower n) (bytes "c")) eqn:E.
  - apply zlist_eqb_eq in E. split.
    + intros [(_ & ->)|(N & _)]; [reflexivity|contradiction].
    + intros [= <-]. auto.
  - assert (N : map lower n <> bytes "c").
    { intros X. rewrite X, zlist_eqb_refl in E. discriminate E. }
    rewrite !names_iff. split.
    + intros [(X & _)|(_ & [H|[H1 H2]])]; [contradiction|rewrite H; reflexivity|].
      destruct (find_named n) as [w|] eqn:F; [|exact H2]. exfalso. apply (H1 w). apply names_iff. exact F.
    + intros H. right. split; [exact N|]. destruct (find_named n) as [w|] eqn:F; [left; exact H|right].
      split; [|exact H]. intros w X. apply names_iff in X. congruence.
Qed.

(** The end of the name. *)
Lemma mode_end_name n x r : Forall (fun c => is_space c || (c =? 59) || (c =? 45) = false) n ->
  is_space x || (x =? 59) || startsb "-*-" (x :: r) = true -> mode_end (n ++ x :: r) = Ok (x :: r).
Proof.
  intros F X. induction F as [|c n C F IH]; cbn [app mode_end].
  - rewrite X. reflexivity.
  - apply orb_false_iff in C as [C D]. rewrite C.
    destruct (startsb "-*-" (c :: n ++ x :: r)) eqn:S; [|exact IH].
    apply startsb_iff in S as (b & E). cbn in E. injection E as E _. subst c. discriminate D.
Qed.


Lemma mode_array_line pl f l rest : 0 <= slack pl ->
  contents f = l ++ rest -> (forall c r, rest = c :: r -> Newline c) -> Forall (fun c => c <> 0 /\ ~ Newline c) l ->
  zlen l <= 80 -> l <> [] -> ~ begins (bytes "#!") l ->
  mode_array pl (S (length (contents f))) (contents f) (repeat 0 81%nat) = Ok (l ++ repeat 0 (81 - length l)).
Proof.
  intros SL EC HR HL LL NE NB.
  assert (NZ : Forall (fun c => c <> 0) l) by (eapply Forall_impl; [|exact HL]; intros ? [? _]; assumption).
  cbn [mode_array]. rewrite EC.
    destruct (l ++ rest) as [|c0 q0] eqn:E0; [destruct l; [contradiction|discriminate E0]|]. rewrite <- E0.
    cbv zeta. set (g := fun c => negb (is_eol c)).
    assert (T1 : Forall (fun c => g c = true) l).
    { eapply Forall_impl; [|exact HL]. intros c [_ N]. unfold g. apply negb_true_iff. apply (false_iff _ _ (is_eol_iff c)). exact N. }
    assert (T2 : forall c r, rest = c :: r -> g c = false).
    { intros c r E. unfold g. apply negb_false_iff. apply is_eol_iff. exact (HR c r E). }
    rewrite upto_skip, (taken_app g l rest T1 T2).
    destruct (zlen l <=? 81) eqn:X; [|apply Z.leb_gt in X; lia]. unfold store.
    destruct (zlen l <? 81 + slack pl) eqn:Y; [|apply Z.ltb_ge in Y; lia]. cbn [bind].
    unfold zlen. rewrite Nat2Z.id, firstn_all, cstr_eq, before_nul_id by exact NZ. rewrite Nat.sub_diag. change (repeat 0 0%nat) with (@nil Z). cbn [app].
    assert (R : 0 :: skipn (S (length l)) (repeat 0 81%nat) = repeat 0 (81 - length l)).
    { unfold zlen in LL. assert (SK : forall n m, skipn n (repeat 0 m) = repeat 0 (m - n)).
      { intros n m. revert n; induction m as [|m IHm]; intros [|n]; try reflexivity. exact (IHm n). }
      rewrite SK. replace (81 - length l)%nat with (S (81 - S (length l)))%nat by lia. reflexivity. }
    rewrite R. destruct (startsb "#!" (l ++ repeat 0 (81 - length l))) eqn:S; [|reflexivity].
    exfalso. apply startsb_iff in S as (b & E). apply NB. apply begins_before_nul; [no0|].
    rewrite before_nul_id by exact NZ. assert (B : begins (bytes "#!") (l ++ repeat 0 (81 - length l))) by (exists b; exact E).
    apply begins_before_nul in B; [|no0]. rewrite before_nul_app_no0 in B by exact NZ.
    assert (RN : before_nul (repeat 0 (81 - length l)) = []) by (destruct (81 - length l)%nat; reflexivity).
    rewrite RN, app_nil_r in B. exact B.
Qed.
Lemma mode_found pl f l rest name v : 0 <= slack pl ->
  contents f = l ++ rest -> (forall c r, rest = c :: r -> Newline c) -> Forall (fun c => c <> 0 /\ ~ Newline c) l ->
  zlen l <= 80 -> ~ begins (bytes "#!") l -> mode_line l name -> mode_says name v -> emacs_mode pl f = Ok (Some v).
Proof.
  intros SL EC HR HL LL NB M MS. unfold emacs_mode.
  assert (NZ : Forall (fun c => c <> 0) l) by (eapply Forall_impl; [|exact HL]; intros ? [? _]; assumption).
  assert (NE : l <> []) by (destruct M; intros X; apply (f_equal (@length Z)) in X; rewrite !app_length in X; cbn in X; lia).
  pose proof (mode_array_line pl f l rest SL EC HR HL LL NE NB) as ARR.
  rewrite ARR. cbn [bind]. clear ARR HL NB HR EC NE.
  assert (P1 : (1 <= 81 - length l)%nat) by (unfold zlen in LL; lia).
  set (z := repeat 0 (81 - length l)) in *.
  assert (LZ : (length l + length z = 81)%nat) by (unfold z; rewrite repeat_length; unfold zlen in LL; lia).
  assert (BZ : before_nul z = []) by (unfold z; destruct (81 - length l)%nat; reflexivity).
  clearbody z. destruct M as [a w m name x r FO HW HM HN HA HX].
  assert (BN : before_nul ((a ++ bytes "-*-" ++ w ++ m ++ name ++ x :: r) ++ z) = a ++ bytes "-*-" ++ (w ++ m ++ name ++ x :: r)).
  { rewrite before_nul_app_no0 by exact NZ. rewrite BZ, app_nil_r. reflexivity. }
  apply strstr_first in BN as (z' & EZ & ->); [|no0|discriminate|exact FO].
  assert (z' = z).
  { rewrite <- !app_assoc in EZ. do 5 apply app_inv_head in EZ. cbn [app] in EZ. injection EZ as EZ. apply app_inv_head in EZ. auto. }
  subst z'. clear EZ. cbv zeta. change (skipn 3 (bytes "-*-" ++ (w ++ m ++ name ++ x :: r) ++ z)) with ((w ++ m ++ name ++ x :: r) ++ z).
  assert (HNb : Forall (fun c => is_space c || (c =? 59) || (c =? 45) = false) name).
  { eapply Forall_impl; [|exact HA]. unfold Alnum, Digit, Lower, Upper, is_space. cbn. intros c C.
    apply orb_false_iff; split; [apply orb_false_iff; split; [apply orb_false_iff; split|]|]; try (apply Z.eqb_neq; lia).
    destruct (9 <=? c) eqn:Q; [|reflexivity]. cbn [andb]. apply Z.leb_gt. apply Z.leb_le in Q. lia. }
  destruct name as [|n0 name']; [contradiction|].
  assert (N0 : blank n0 = false /\ n0 <> 58).
  { inversion HA as [|? ? C _]. unfold Alnum, Digit, Lower, Upper in C. cbn in C. unfold blank.
    split; [|lia]. apply orb_false_iff; split; apply Z.eqb_neq; lia. }
  assert (MB : forall c q, m ++ (n0 :: name') ++ x :: r ++ z = c :: q -> blank c = false).
  { intros c q E. destruct HM as [[-> _]|(y & k & -> & EY & _)].
    - cbn in E. injection E as <- _. apply N0.
    - destruct y as [|y0 y]; [discriminate EY|]. cbn in E. injection E as <- _. cbn in EY. injection EY as EY _.
      destruct (blank y0) eqn:Q; [|reflexivity]. exfalso. apply blank_iff in Q. destruct Q as [-> | -> ]; discriminate EY. }
  rewrite <- !app_assoc. rewrite skip_app; [|eapply Forall_impl; [|exact HW]; intros c; apply blank_iff|].
  2: { intros c q E. eapply MB. cbn [app] in *. rewrite <- E. reflexivity. }
  set (name := n0 :: name') in *.
  assert (P : (if starts_nocase (bytes "mode") (m ++ name ++ (x :: r) ++ z)
               then skip (fun c => blank c || (c =? 58)) (skipn 4 (m ++ name ++ (x :: r) ++ z))
               else m ++ name ++ (x :: r) ++ z) = name ++ x :: r ++ z).
  { destruct HM as [[-> NM]|(y & k & -> & EY & HK)].
    - cbn [app]. destruct (starts_nocase (bytes "mode") (name ++ x :: r ++ z)) eqn:Q; [|reflexivity].
      exfalso. apply starts_nocase_iff in Q as (y & b & E & EY). apply NM.
      (* the four bytes are within the line *)
      exists y. apply app_split in E as [(e & E1 & E2)|(e & E1 & E2)].
      + exists (e ++ x :: r). split; [rewrite E1, <- app_assoc; reflexivity|exact EY].
      + assert (HE : exists b', x :: r = e ++ b').
        { change (x :: r ++ z) with ((x :: r) ++ z) in E2. apply app_split in E2 as [(e' & E3 & E4)|(e' & E3 & E4)].
          - eauto.
          - destruct e' as [|e0 e']; [exists []; rewrite app_nil_r in *; auto|].
            exfalso. destruct z as [|z0 z]; [cbn in P1; discriminate E4|]. cbn in E4. injection E4 as <- _.
            cbn in BZ. destruct (z0 =? 0) eqn:Z0; [|discriminate BZ]. apply Z.eqb_eq in Z0. subst z0.
            assert (I : In 0 y) by (rewrite E1, E3; apply in_or_app; right; apply in_or_app; right; left; reflexivity).
            apply (in_map lower) in I. rewrite EY in I. cbn in I. clear -I. intuition discriminate. }
        destruct HE as (b' & HE). exists b'. split; [rewrite E1, HE, <- app_assoc; reflexivity|exact EY].
    - assert (LY : length y = 4%nat) by (apply (f_equal (@length Z)) in EY; rewrite map_length in EY; exact EY).
      replace (starts_nocase (bytes "mode") _) with true.
      + rewrite <- app_assoc. rewrite (skipn_app_len y _ 4 LY). rewrite skip_app; [reflexivity| |].
        * eapply Forall_impl; [|exact HK]. intros c C. apply orb_true_iff. rewrite blank_iff, Z.eqb_eq. exact C.
        * intros c q E. cbn in E. injection E as <- _. apply orb_false_iff. split; [apply N0|apply Z.eqb_neq; apply N0].
      + symmetry. apply starts_nocase_iff. exists y. eexists. split; [rewrite <- !app_assoc; reflexivity|exact EY]. }
  rewrite P. clear P.
  assert (LEN : firstn (81 - (length (a ++ bytes "-*-" ++ w ++ m ++ name ++ (x :: r) ++ z) - length (name ++ x :: r ++ z)))
                  (name ++ x :: r ++ z) = name ++ x :: r ++ z).
  { apply firstn_all2. repeat rewrite ?app_length, ?app_length in LZ. repeat rewrite ?app_length. cbn [length] in *.
    repeat rewrite ?app_length in *. lia. }
  rewrite LEN. clear LEN.
  rewrite (mode_end_name name x (r ++ z) HNb).
  2: { destruct HX as [HX|(b & HX)].
       - cbn in HX. destruct HX as [<-|[<-|[<-|[]]]]; reflexivity.
       - apply orb_true_iff. right. apply startsb_iff. exists (b ++ z). change (x :: r ++ z) with ((x :: r) ++ z). rewrite HX, <- app_assoc. reflexivity. }
  cbn [bind].
  assert (D : zlen (name ++ x :: r ++ z) - zlen (x :: r ++ z) = zlen name) by (unfold zlen; rewrite app_length; lia).
  rewrite D.
  assert (SN : zlen name < 81).
  { unfold zlen in *. rewrite !app_length in LL. cbn [length] in LL. lia. }
  unfold store. destruct (zlen name <? 81 + slack pl) eqn:Q; [|apply Z.ltb_ge in Q; lia]. cbn [bind].
  replace (firstn (Z.to_nat (zlen name)) (name ++ x :: r ++ z)) with name.
  2: { unfold zlen. rewrite Nat2Z.id, firstn_app, firstn_all, Nat.sub_diag. cbn [firstn]. rewrite app_nil_r. reflexivity. }
  assert (ZN : Forall (fun c => c <> 0) name).
  { rewrite !Forall_app in NZ. apply NZ. }
  apply (mode_says_iff name v ZN) in MS.
  replace (zlen (cstr name) =? zlen name) with true by (rewrite cstr_eq, before_nul_id by exact ZN; symmetry; apply Z.eqb_refl).
  cbn [negb]. destruct (zlist_eqb _ _); [congruence|]. destruct (find_named name); congruence.
Qed.

(** ** libmagic *)
Lemma peek_nth a c b : peek (a ++ c :: b) (zlen a) = Ok c.
Proof.
  unfold peek, src, zlen. destruct (_ <? 0) eqn:N; [apply Z.ltb_lt in N; lia|].
  rewrite Nat2Z.id, nth_error_app2, Nat.sub_diag by lia. reflexivity.
Qed.
Lemma back_alnum_word a k b fuel : Forall (fun c => is_alnum c = true) k ->
  (a = [] \/ exists a' x, a = a' ++ [x] /\ is_alnum x = false) -> (length k < fuel)%nat ->
  back_alnum fuel (a ++ k ++ b) (zlen (a ++ k)) = Ok (zlen a).
Proof.
  revert b fuel. induction k as [|x k IH] using rev_ind; intros b fuel F A L.
  - destruct fuel as [|fuel]; [lia|]. rewrite app_nil_r. cbn [back_alnum app].
    destruct A as [-> |(a' & x & -> & X)].
    + reflexivity.
    + destruct (zlen (a' ++ [x]) =? 0) eqn:Q; [apply Z.eqb_eq in Q; unfold zlen in Q; rewrite app_length in Q; cbn in Q; lia|].
      replace (zlen (a' ++ [x]) - 1) with (zlen a') by (unfold zlen; rewrite app_length; cbn; lia).
      rewrite <- app_assoc. cbn [app]. rewrite peek_nth. cbn [bind]. rewrite X. reflexivity.
  - rewrite app_length in L. cbn [length] in L. destruct fuel as [|fuel]; [lia|]. cbn [back_alnum].
    rewrite Forall_app in F. destruct F as [F FX]. inversion FX as [|? ? FX1 _]; subst.
    assert (LE : zlen (a ++ k ++ [x]) - 1 = zlen (a ++ k)) by (unfold zlen; rewrite !app_length; cbn; lia).
    destruct (zlen (a ++ k ++ [x]) =? 0) eqn:Q; [apply Z.eqb_eq in Q; unfold zlen in Q, LE; lia|].
    rewrite LE. replace (a ++ (k ++ [x]) ++ b) with ((a ++ k) ++ x :: b) by (rewrite <- !app_assoc; reflexivity).
    rewrite peek_nth. cbn [bind]. rewrite FX1. rewrite <- app_assoc. apply IH; auto. lia.
Qed.

Lemma magic_word line a k r : map lower line = a ++ k ++ bytes " script" ++ r ->
  Forall (fun c => c <> 0) line -> ~ occurs (bytes "script") (a ++ k ++ bytes " scrip") ->
  k <> [] -> Forall Alnum k -> (forall a' x, a = a' ++ [x] -> ~ Alnum x /\ x <> 45) ->
  magic_parse line = Ok (language_named k).
Proof.
  intros E NZ N NE K A. unfold magic_parse. rewrite map_to_lower. cbv zeta.
  assert (NZ' : Forall (fun c => c <> 0) (map lower line)).
  { clear -NZ. induction NZ as [|c l C _ IH]; cbn; constructor; auto. intros X. exact (C (proj1 (lower_0 c) X)). }
  set (l := map lower line) in *. clearbody l.
  assert (S1 : startsb "script text" l = false).
  { destruct (startsb "script text" l) eqn:S; [|reflexivity]. exfalso. apply startsb_iff in S as (b & S).
    apply N. assert (L : (6 <= length (a ++ k ++ bytes " scrip"))%nat) by (rewrite !app_length; cbn; lia).
    exists [], (skipn 6 (a ++ k ++ bytes " scrip")). cbn [app].
    rewrite <- (firstn_skipn 6 (a ++ k ++ bytes " scrip")) at 1. f_equal.
    transitivity (firstn 6 l); [|rewrite S; reflexivity]. rewrite E.
    replace (a ++ k ++ bytes " script" ++ r) with ((a ++ k ++ bytes " scrip") ++ (bytes "t" ++ r)) by (rewrite <- !app_assoc; reflexivity).
    rewrite (firstn_app 6 (a ++ k ++ bytes " scrip")). replace (6 - length (a ++ k ++ bytes " scrip"))%nat with O by lia.
    change (firstn 0 (bytes "t" ++ r)) with (@nil Z). rewrite app_nil_r. reflexivity. }
  rewrite S1.
  assert (BN : before_nul l = (a ++ k ++ [32]) ++ bytes "script" ++ r).
  { rewrite before_nul_id by exact NZ'. rewrite E, <- !app_assoc. reflexivity. }
  apply strstr_first in BN as (z & EZ & ->); [|no0|discriminate|].
  2: { rewrite <- !app_assoc. exact N. }
  assert (z = []).
  { rewrite E, <- !app_assoc in EZ. apply app_inv_head, app_inv_head in EZ. cbn in EZ. injection EZ as EZ.
    apply (f_equal (@length Z)) in EZ. rewrite app_length in EZ. destruct z; [reflexivity|cbn in EZ; lia]. }
  subst z. rewrite app_nil_r in *. clear EZ.
  assert (OFF : zlen l - zlen (bytes "script" ++ r) = zlen (a ++ k) + 1).
  { unfold zlen. rewrite E, !app_length. cbn [bytes length map String.length list_ascii_of_string]. cbn. lia. }
  rewrite OFF. cbn [script_word]. cbv zeta. rewrite Z.add_simpl_r.
  destruct (exists_last NE) as (k' & kx & EK).
  assert (EL1 : l = (a ++ k) ++ 32 :: (bytes "script" ++ r)) by (rewrite E, <- !app_assoc; reflexivity).
  assert (EL2 : l = (a ++ k') ++ kx :: 32 :: (bytes "script" ++ r)).
  { rewrite EL1, EK, <- !app_assoc. reflexivity. }
  assert (KX : is_alnum kx = true /\ kx <> 32).
  { rewrite EK in K. apply Forall_app in K as [_ K]. inversion K as [|? ? K1 _]. split; [apply is_alnum_iff; exact K1|].
    unfold Alnum, Digit, Lower, Upper in K1. lia. }
  assert (LK : zlen (a ++ k) - 1 = zlen (a ++ k')) by (rewrite EK; unfold zlen; rewrite !app_length; cbn; lia).
  assert (BB : forall fuel, (2 <= fuel)%nat -> back_blanks fuel l (zlen (a ++ k)) = Ok (zlen (a ++ k'))).
  { intros [|[|fuel]] LF; try lia. cbn [back_blanks]. rewrite EL1 at 1. rewrite peek_nth. cbn [bind].
    change (32 =? 32) with true. cbv iota. rewrite LK. rewrite EL2 at 1. rewrite peek_nth. cbn [bind].
    destruct (kx =? 32) eqn:Q; [apply Z.eqb_eq in Q; tauto|reflexivity]. }
  assert (LL : (2 <= S (length l))%nat) by (rewrite EL1, app_length; cbn [length]; lia).
  rewrite BB by exact LL. cbn [bind].
  assert (A' : a = [] \/ exists a' x, a = a' ++ [x] /\ is_alnum x = false).
  { destruct a as [|a0 a1] using rev_ind; [auto|right]. exists a1, a0. split; [reflexivity|].
    apply (false_iff _ _ (is_alnum_iff a0)). apply (A a1 a0 eq_refl). }
  assert (BA : back_alnum (S (length l)) l (zlen (a ++ k')) = Ok (zlen a)).
  { rewrite EL2 at 2. rewrite <- app_assoc. apply back_alnum_word; [|exact A'|].
    - rewrite EK in K. apply Forall_app in K as [K _]. eapply Forall_impl; [|exact K]. intros c. apply is_alnum_iff.
    - rewrite EL2, !app_length. lia. }
  rewrite BA. cbn [bind].
  destruct k as [|k0 k1]; [contradiction|].
  assert (K0 : k0 <> 45) by (inversion K as [|? ? K1 _]; unfold Alnum, Digit, Lower, Upper in K1; lia).
  assert (PK : peek l (zlen a) = Ok k0).
  { rewrite EL1, <- app_assoc. apply peek_nth. }
  assert (FIN : (if zlen (a ++ k0 :: k1) - zlen a <? 0 then Ub NegLength
                 else Ok (language_named (firstn (Z.to_nat (zlen (a ++ k0 :: k1) - zlen a)) (skipn (Z.to_nat (zlen a)) l))))
                = Ok (language_named (k0 :: k1))).
  { replace (zlen (a ++ k0 :: k1) - zlen a) with (zlen (k0 :: k1)) by (unfold zlen; rewrite app_length; lia).
    destruct (zlen (k0 :: k1) <? 0) eqn:Q; [apply Z.ltb_lt in Q; unfold zlen in Q; lia|].
    rewrite EL1, <- app_assoc. unfold zlen. rewrite !Nat2Z.id. rewrite (skipn_app_len a _ _ eq_refl).
    rewrite firstn_app, firstn_all, Nat.sub_diag. cbn [firstn]. rewrite app_nil_r. reflexivity. }
  destruct (zlen a =? 0) eqn:Z0.
  - cbn [bind]. rewrite PK. cbn [bind]. destruct (k0 =? 45) eqn:Q; [apply Z.eqb_eq in Q; contradiction|]. cbn [bind]. exact FIN.
  - destruct A' as [-> |(a' & x & EA & X)]; [discriminate Z0|].
    assert (PX : peek l (zlen a - 1) = Ok x).
    { replace (zlen a - 1) with (zlen a') by (rewrite EA; unfold zlen; rewrite app_length; cbn; lia).
      rewrite EL1, EA, <- !app_assoc. apply peek_nth. }
    rewrite PX. cbn [bind]. destruct (x =? 45) eqn:Q; [apply Z.eqb_eq in Q; destruct (A a' x EA); contradiction|].
    rewrite PK. cbn [bind]. destruct (k0 =? 45) eqn:Q2; [apply Z.eqb_eq in Q2; contradiction|]. cbn [bind]. exact FIN.
Qed.
Lemma magic_plain line : Forall (fun c => c <> 0) line -> ~ occurs (bytes "script") (map lower line) ->
  magic_parse line = Ok (if has (map lower line) "xml" then Some "xml" else None).
Proof.
  intros NZ N. unfold magic_parse. rewrite map_to_lower. cbv zeta.
  assert (NZ' : Forall (fun c => c <> 0) (map lower line)).
  { clear -NZ. induction NZ as [|c l C _ IH]; cbn; constructor; auto. intros X. exact (C (proj1 (lower_0 c) X)). }
  set (l := map lower line) in *. clearbody l.
  assert (S1 : startsb "script text" l = false).
  { destruct (startsb "script text" l) eqn:S; [|reflexivity]. exfalso. apply startsb_iff in S as (b & S).
    apply N. exists [], (bytes " text" ++ b). rewrite S. reflexivity. }
  rewrite S1. rewrite (proj2 (strstr_none l (bytes "script") ltac:(no0) ltac:(discriminate))); [reflexivity|].
  rewrite before_nul_id by exact NZ'. exact N.
Qed.
(** libmagic can only name a language. *)
Lemma language_named_ok n g : language_named n = Some g -> is_language g.
Proof.
  unfold language_named. destruct (lookup languages n) as [l|] eqn:L; [|discriminate]. intros [= <-].
  apply lookup_in in L as (s & _ & I). exists s, l. auto.
Qed.
Lemma magic_language line g : magic_parse line = Ok (Some g) -> is_language g.
Proof.
  unfold magic_parse. cbv zeta. set (l := map to_lower line). clearbody l.
  destruct (if startsb "script text" l then _ else _) as [v|] eqn:F.
  - intros [= <-]. destruct (startsb _ _); [|discriminate F]. destruct (strstr _ _); [|discriminate F]. apply language_named_ok in F. exact F.
  - clear F. destruct (strstr l (bytes "script")) as [q|].
    + intros H. apply bind_ok in H as ([p pe] & _ & H). destruct (_ <? 0); [discriminate H|]. apply Ok_inj in H.
      apply language_named_ok in H. exact H.
    + intros H. apply Ok_inj in H. destruct (has l "xml"); [|discriminate H]. injection H as <-.
      apply is_languageb_ok. vm_compute. reflexivity.
Qed.

(** ** The values of detection *)
Lemma find_named_ok n v : find_named n = Some v -> value_ok v.
Proof.
  unfold find_named. destruct (language_named n) as [g|] eqn:L.
  - intros [= <-]. apply language_named_ok in L. apply Plain; [apply C29_languages_have_parsers|]; exact L.
  - apply C29_extensions_closed.
Qed.
Lemma c_language : is_language "c".
Proof. apply is_languageb_ok. vm_compute. reflexivity. Qed.
Lemma emacs_value pl f v : emacs_mode pl f = Ok (Some v) -> value_ok v.
Proof.
  unfold emacs_mode. intros H. apply bind_ok in H as (arr & _ & H). destruct (strstr arr _); [|discriminate H]. cbv zeta in H.
  apply bind_ok in H as (pe & _ & H). apply bind_ok in H as (_ & _ & H).
  destruct (zlist_eqb _ _).
  - apply Ok_inj in H. injection H as <-. apply Plain; [apply C29_languages_have_parsers|]; exact c_language.
  - destruct (negb _); [discriminate H|]. destruct (find_named _) as [w|] eqn:F.
    + apply Ok_inj in H. injection H as <-. exact (find_named_ok _ _ F).
    + apply Ok_inj in H. exact (find_named_ok _ _ H).
Qed.
Lemma guess_value pl magic f v : first_guess pl magic f = Ok (Some v) -> value_ok v.
Proof.
  unfold first_guess. destruct (by_extension f) as [w|] eqn:B.
  - intros [= <-]. unfold by_extension in B. destruct (lookup extensions (d_ext f)) as [u|] eqn:L.
    + injection B as <-. exact (C29_extensions_closed _ _ L).
    + exact (C29_extensions_closed _ _ B).
  - intros H. apply bind_ok in H as ([w|] & E & H).
    + apply Ok_inj in H. injection H as <-. exact (emacs_value _ _ _ E).
    + destruct (lookup filenames _) as [w|] eqn:L.
      * apply Ok_inj in H. injection H as <-. destruct (C29_filenames_closed _ _ L). apply Plain; auto.
      * assert (G : is_language v).
        { unfold detect_magic in H. destruct (d_disk f); [exact (magic_language _ _ H)|].
          destruct (d_contents f); [exact (magic_language _ _ H)|discriminate H]. }
        apply Plain; [apply C29_languages_have_parsers|]; exact G.
Qed.
