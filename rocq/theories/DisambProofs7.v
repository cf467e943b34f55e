(** Lemmas about disambiguate_m and about termination of the detector. *)
From Coq Require Import ZArith String List Bool Lia Permutation.
From Verif Require Import Base ParsedModel PathModel Tables DetectorModel DetectorSpec DetectorProofs
  DisambProofs DisambProofs2 DisambProofs3 DisambProofs4 DisambProofs5 DisambProofs6.
Import ListNotations.
Open Scope string_scope.
Open Scope Z_scope.
Open Scope list_scope.

(** *** m: scores add up *)
Definition s_add (a b : scores) : scores :=
  mkScores (mathematica a + mathematica b) (matlab a + matlab b) (objc a + objc b) (limbo a + limbo b)
           (octave a || octave b).
Definition s_zero : scores := mkScores 0 0 0 0 false.
Lemma s_add_comm a b : s_add a b = s_add b a.
Proof. destruct a, b. unfold s_add. cbn. rewrite orb_comm. f_equal; lia. Qed.
Lemma s_add_assoc a b c : s_add a (s_add b c) = s_add (s_add a b) c.
Proof. destruct a, b, c. unfold s_add. cbn. rewrite orb_assoc. f_equal; lia. Qed.
Lemma s_add_zero a : s_add s_zero a = a.
Proof. destruct a. unfold s_add. cbn. reflexivity. Qed.

Lemma telltale_add line s : m_telltale line s = s_add (m_telltale line s_zero) s.
Proof.
  unfold m_telltale. cbv zeta. destruct s as [ma ml ob li oc]. unfold s_zero.
  set (p := skip blank line). clearbody p.
  repeat match goal with |- context [if ?c then _ else _] => destruct c end;
    unfold s_add; cbn [mathematica matlab objc limbo octave orb]; rewrite ?orb_false_l; f_equal; lia.
Qed.
Lemma m_line_add pl line s y : m_line pl line s = Ok y ->
  exists d, m_line pl line s_zero = Ok (inl d) /\ y = inl (s_add d s).
Proof.
  unfold m_line. cbv zeta. intros H. apply bind_ok in H as (oc & -> & H). apply bind_ok in H as (li & -> & H).
  apply bind_ok in H as (ma & -> & H). cbn [bind]. eexists. split; [reflexivity|].
  apply Ok_inj in H. rewrite <- H. rewrite (telltale_add line s). f_equal.
  destruct s as [m1 m2 m3 m4 m5], (m_telltale line s_zero) as [n1 n2 n3 n4 n5]. unfold s_add. cbn.
  f_equal; try lia. destruct m5, oc, n5; reflexivity.
Qed.
Definition m_delta pl (l : list Z) : scores :=
  match m_line pl (seen l) s_zero with Ok (inl d) => d | _ => s_zero end.
Definition m_sum pl (ls : list (list Z)) : scores := fold_right s_add s_zero (map (m_delta pl) ls).
Lemma m_fold pl ls s x : fold_lines pl (m_line pl) ls s = Ok x -> x = inl (s_add (m_sum pl ls) s).
Proof.
  revert s x; induction ls as [|l ls IH]; intros s x; cbn [fold_lines].
  - intros [= <-]. unfold m_sum. cbn [map fold_right]. rewrite s_add_zero. reflexivity.
  - intros H. apply bind_ok in H as (line & F & H). apply fetch_ok in F as ->. apply bind_ok in H as (y & S & H).
    apply m_line_add in S as (d & E & ->). apply IH in H as ->. unfold m_sum. cbn [map fold_right].
    assert (DE : m_delta pl l = d) by (unfold m_delta; rewrite E; reflexivity).
    rewrite DE. f_equal. rewrite !s_add_assoc. f_equal. apply s_add_comm.
Qed.
Lemma m_sum_perm pl ls ls' : Permutation ls ls' -> m_sum pl ls = m_sum pl ls'.
Proof.
  unfold m_sum. induction 1; cbn [map fold_right]; [reflexivity|congruence| |congruence].
  rewrite !s_add_assoc. f_equal. apply s_add_comm.
Qed.

(** *** Termination and safety of the loops of m *)
Lemma octave_cases pl fuel b p : (length p < fuel)%nat ->
  m_octave pl fuel b p <> OutOfFuel /\ (zlen p < 81 + slack pl -> exists r, m_octave pl fuel b p = Ok r).
Proof.
  revert b p; induction fuel as [|k IH]; intros b p L; [lia|]. cbn [m_octave].
  destruct p as [|c r]; [split; [discriminate|eauto]|]. cbn [length] in L.
  assert (NEXT : forall b', m_octave pl k b' r <> OutOfFuel /\ (zlen (c :: r) < 81 + slack pl -> exists x, m_octave pl k b' r = Ok x)).
  { intros b'. destruct (IH b' r) as [A B]; [lia|]. split; [exact A|]. intros Z. apply B. unfold zlen in *. cbn [length] in Z. lia. }
  destruct b as [b|]; [|apply NEXT]. destruct (is_lower c && negb (is_alnum b)) eqn:E; [|apply NEXT].
  apply andb_true_iff in E as [E _].
  cbv zeta. rewrite upto_skip. set (f := fun c0 => is_lower c0 || (c0 =? 95)).
  assert (LT : length (c :: r) = (length (taken f (c :: r)) + length (skip f (c :: r)))%nat).
  { rewrite (taken_skip f (c :: r)) at 1. apply app_length. }
  assert (LS : (length (skip f (c :: r)) <= length r)%nat).
  { cbn [skip]. replace (f c) with true by (unfold f; rewrite E; reflexivity). apply skip_length. }
  set (s := skip f (c :: r)) in *. set (t := taken f (c :: r)) in *. clearbody s t.
  assert (LT' : (length (tl s) <= length s)%nat) by (destruct s; cbn [tl length]; lia).
  destruct (IH (Some (deref s)) (tl s)) as [A B]; [lia|].
  assert (Z : zlen (c :: r) < 81 + slack pl -> zlen (tl s) < 81 + slack pl /\ zlen t < 81 + slack pl).
  { unfold zlen. lia. }
  unfold store. destruct (negb (is_alnum (deref s))).
  - destruct (zlen t <? 81 + slack pl) eqn:X; cbn [bind].
    + split.
      * destruct (m_octave pl k (Some (deref s)) (tl s)); cbn [bind]; [discriminate|discriminate|contradiction].
      * intros H. destruct (B (proj1 (Z H))) as (x & ->). cbn [bind]. eauto.
    + split; [discriminate|]. intros H. apply Z.ltb_ge in X. destruct (Z H). lia.
  - cbn [bind]. split.
    + destruct (m_octave pl k (Some (deref s)) (tl s)); cbn [bind]; [discriminate|discriminate|contradiction].
    + intros H. destruct (B (proj1 (Z H))) as (x & ->). cbn [bind]. eauto.
Qed.
Lemma limbo_total fuel p : (length p < fuel)%nat -> exists n, m_limbo fuel p = Ok n.
Proof.
  revert p; induction fuel as [|k IH]; intros p L; [lia|]. cbn [m_limbo]. destruct p as [|c r]; [eauto|].
  cbn [length] in L. destruct (_ && _); [|apply IH; lia].
  destruct (IH (tl r)) as (n & ->); [destruct r; cbn [tl length] in *; lia|]. cbn [bind]. eauto.
Qed.
Lemma mathematica_total fuel p : (length p < fuel)%nat -> exists n, m_mathematica fuel p = Ok n.
Proof.
  revert p; induction fuel as [|k IH]; intros p L; [lia|]. cbn [m_mathematica]. destruct p as [|c r]; [eauto|].
  cbn [length] in L. cbv zeta.
  destruct (IH (tl (if c =? 38 then skip blank r else c :: r))) as (n & ->).
  { destruct (c =? 38); [|cbn [tl]; lia]. pose proof (skip_length blank r). destruct (skip blank r); cbn [tl length] in *; lia. }
  cbn [bind]. eauto.
Qed.
Lemma m_line_fuel pl line s : m_line pl line s <> OutOfFuel.
Proof.
  unfold m_line. destruct (octave_cases pl (S (length line)) None line) as [A _]; [lia|].
  destruct (m_octave _ _ _ _); cbn [bind]; [|discriminate|contradiction].
  destruct (limbo_total (S (length line)) line) as (n & ->); [lia|]. cbn [bind].
  destruct (mathematica_total (S (length line)) line) as (m & ->); [lia|]. discriminate.
Qed.
Lemma m_line_safe pl line s : zlen line < 81 + slack pl -> exists d, m_line pl line s = Ok (inl d).
Proof.
  intros L. unfold m_line. destruct (octave_cases pl (S (length line)) None line) as [_ A]; [lia|].
  destruct (A L) as (oc & ->). cbn [bind].
  destruct (limbo_total (S (length line)) line) as (n & ->); [lia|]. cbn [bind].
  destruct (mathematica_total (S (length line)) line) as (m & ->); [lia|]. cbn [bind]. eauto.
Qed.
Lemma h_line_fuel pl line a : h_line pl line a <> OutOfFuel.
Proof.
  unfold h_line. pose proof (h_include_fuel pl line). destruct (h_include pl line) as [i| |]; cbn [bind]; [|discriminate|contradiction].
  destruct i; [discriminate|]. pose proof (keywords_fuel pl (S (length line)) (before_line pl) line ltac:(lia)).
  destruct (h_keywords _ _ _ _) as [i| |]; cbn [bind]; [destruct i; discriminate|discriminate|contradiction].
Qed.
Lemma h_line_safe pl b line a : before_line pl = Some b -> zlen line < 81 + slack pl -> exists x, h_line pl line a = Ok x.
Proof.
  intros B L. unfold h_line. destruct (h_include_safe pl line L) as (i & ->). cbn [bind]. destruct i; [eauto|].
  rewrite B. destruct (keywords_safe pl (S (length line)) b line) as (k & ->); [lia|exact L|]. cbn [bind]. destruct k; eauto.
Qed.

(** *** Loops over lines, for platforms with or without slack *)
Lemma each_line_fuel {A} pl (step : list Z -> A -> res (A + option string)) :
  (forall l a, step l a <> OutOfFuel) ->
  forall fuel p a, (length p < fuel)%nat -> each_line pl fuel step p a <> OutOfFuel.
Proof.
  intros S. induction fuel as [|k IH]; intros p a L; [lia|]. cbn [each_line].
  destruct p as [|c p']; [discriminate|]. remember (c :: p') as p eqn:EP. cbv zeta.
  pose proof (fetch_not_fuel pl (upto p (skip (fun c => negb (is_eol c)) p))) as F.
  destruct (fetch pl _) as [line| |]; cbn [bind]; [|discriminate|contradiction].
  pose proof (S line a) as G. destruct (step line a) as [[b|g]| |]; cbn [bind]; [|discriminate|discriminate|contradiction].
  apply IH. set (f := fun c => negb (is_eol c)).
  assert (LE : (length (skip is_eol (skip f p)) < length p)%nat).
  { rewrite EP. cbn [skip]. destruct (f c) eqn:C.
    - pose proof (skip_length f p'). pose proof (skip_length is_eol (skip f p')). cbn [length]. lia.
    - cbn [skip]. unfold f in C. apply negb_false_iff in C. rewrite C. pose proof (skip_length is_eol p'). cbn [length]. lia. }
  lia.
Qed.
Lemma lines_loop_fuel {A} pl f (step : list Z -> A -> res (A + option string)) a :
  (forall l a, step l a <> OutOfFuel) -> lines_loop pl f step a <> OutOfFuel.
Proof. intros S. apply each_line_fuel; auto. Qed.

Lemma basic_fuel pl f : disambiguate_basic pl f <> OutOfFuel.
Proof.
  unfold disambiguate_basic.
  pose proof (lines_loop_fuel pl f basic_line tt) as H.
  destruct (lines_loop pl f basic_line tt) as [[u|g]| |]; cbn [bind]; try discriminate.
  - destruct (d_dir f) as [n|]; [destruct (existsb _ _)|]; discriminate.
  - exfalso. apply H; [|reflexivity]. intros l a. destruct (basic_line_total l a) as (x & ->). discriminate.
Qed.
Lemma h_fuel pl f : disambiguate_h pl f <> OutOfFuel.
Proof.
  unfold disambiguate_h.
  assert (REST : (r <- lines_loop pl f (h_line pl) tt ;; match r with inr g => Ok g | inl _ => Ok (Some "c") end) <> OutOfFuel).
  { pose proof (lines_loop_fuel pl f (h_line pl) tt (fun l a => h_line_fuel pl l a)) as H.
    destruct (lines_loop pl f (h_line pl) tt) as [[u|g]| |]; cbn [bind]; try discriminate. contradiction. }
  destruct (zlist_eqb _ _); cbn [bind].
  - unfold vla, store. destruct (_ <? 0); cbn [bind]; [discriminate|]. destruct (_ <? _); cbn [bind]; [|discriminate].
    destruct (match d_dir f with Some names => existsb _ names | None => false end); [discriminate|exact REST].
  - exact REST.
Qed.
Lemma m_fuel pl f : disambiguate_m pl f <> OutOfFuel.
Proof.
  unfold disambiguate_m. destruct (match d_dir f with Some n => m_dir n false | None => (false, false) end) as [h c].
  set (s := mkScores _ _ _ _ _).
  pose proof (lines_loop_fuel pl f (m_line pl) s (fun l a => m_line_fuel pl l a)) as H.
  destruct (lines_loop pl f (m_line pl) s) as [[u|g]| |]; cbn [bind]; try discriminate. contradiction.
Qed.
Lemma st_fuel pl f : disambiguate_st pl f <> OutOfFuel.
Proof.
  unfold disambiguate_st. fold st_step.
  pose proof (lines_loop_fuel pl f st_step (false, false, false)) as H.
  destruct (lines_loop pl f st_step (false, false, false)) as [[u|g]| |]; cbn [bind]; try discriminate.
  exfalso. apply H; [|reflexivity]. intros l a. unfold st_step. destruct (st_total (S (length l)) l a) as (x & ->); [lia|discriminate].
Qed.
Lemma aspx_fuel pl f : disambiguate_aspx pl f <> OutOfFuel.
Proof.
  unfold disambiguate_aspx. destruct (contents f); [discriminate|].
  destruct (strstr _ (bytes "<%@")); [|discriminate]. destruct (strstr _ (bytes "%>")); [|discriminate].
  unfold vla, store. destruct (_ <? 0); cbn [bind]; [discriminate|]. destruct (_ <? _); cbn [bind]; [|discriminate].
  destruct (_ && _); [discriminate|]. destruct (loop_ends pl); discriminate.
Qed.

(** *** libmagic's answer *)
Lemma peek_cases line i : (exists c, peek line i = Ok c /\ 0 <= i <= zlen line) \/ peek line i = Ub OutOfBounds.
Proof.
  unfold peek, src, zlen. destruct (i <? 0) eqn:E; [auto|]. apply Z.ltb_ge in E.
  destruct (nth_error line (Z.to_nat i)) eqn:N.
  - left. eexists. split; [reflexivity|]. assert (nth_error line (Z.to_nat i) <> None) as H by congruence.
    apply nth_error_Some in H. lia.
  - destruct (i =? _) eqn:X; [|auto]. apply Z.eqb_eq in X. left. eexists. split; [reflexivity|]. lia.
Qed.
(** Going back ends, at a position not after the start. *)
Lemma back_blanks_cases fuel line p : p + 1 < Z.of_nat fuel -> (0 < fuel)%nat ->
  (exists q, back_blanks fuel line p = Ok q /\ 0 <= q <= p) \/ back_blanks fuel line p = Ub OutOfBounds.
Proof.
  revert p; induction fuel as [|k IH]; intros p F N; [lia|]. cbn [back_blanks].
  destruct (peek_cases line p) as [(c & E & B)|E]; rewrite E; cbn [bind]; [|auto].
  destruct (c =? 32); [|left; exists p; split; [reflexivity|lia]].
  destruct (IH (p - 1)) as [(q & E2 & Q)|E2]; [lia|lia| |]; rewrite E2; [|auto]. left. exists q. split; [reflexivity|lia].
Qed.
Lemma back_alnum_cases fuel line p : 0 <= p < Z.of_nat fuel ->
  (exists q, back_alnum fuel line p = Ok q /\ 0 <= q <= p) \/ back_alnum fuel line p = Ub OutOfBounds.
Proof.
  revert p; induction fuel as [|k IH]; intros p F; [lia|].
  cbn [back_alnum]. destruct (p =? 0) eqn:P; [left; exists p; split; [reflexivity|lia]|]. apply Z.eqb_neq in P.
  destruct (peek_cases line (p - 1)) as [(c & E & B)|E]; rewrite E; cbn [bind]; [|auto].
  destruct (is_alnum c); [|left; exists p; split; [reflexivity|lia]].
  destruct (IH (p - 1)) as [(q & E2 & Q)|E2]; [lia| |]; rewrite E2; [|auto]. left. exists q. split; [reflexivity|lia].
Qed.
Lemma script_word_fuel fuel line p : p <= zlen line -> p < Z.of_nat fuel -> 0 <= p -> script_word fuel line p <> OutOfFuel.
Proof.
  revert p; induction fuel as [|k IH]; intros p L F P; [lia|]. cbn [script_word]. cbv zeta.
  destruct (back_blanks_cases (S (length line)) line (p - 1)) as [(q & E & Q)|E]; [unfold zlen in L; lia|lia| |];
    rewrite E; cbn [bind]; [|discriminate].
  destruct (back_alnum_cases (S (length line)) line q) as [(q2 & E2 & Q2)|E2]; [unfold zlen in L; lia| |];
    rewrite E2; cbn [bind]; [|discriminate].
  destruct (q2 =? 0).
  - cbn [bind]. destruct (peek_cases line q2) as [(c & E3 & B)|E3]; rewrite E3; cbn [bind]; [|discriminate].
    destruct (c =? 45); [|discriminate]. apply IH; lia.
  - destruct (peek_cases line (q2 - 1)) as [(c & E3 & B)|E3]; rewrite E3; cbn [bind]; [|discriminate].
    destruct (peek_cases line (if c =? 45 then q2 - 1 else q2)) as [(c2 & E4 & B4)|E4]; rewrite E4; cbn [bind]; [|discriminate].
    destruct (c2 =? 45); [|discriminate]. apply IH; destruct (c =? 45); lia.
Qed.
Lemma magic_fuel line : magic_parse line <> OutOfFuel.
Proof.
  unfold magic_parse. cbv zeta. set (l := map to_lower line). clearbody l.
  destruct (if startsb "script text" l then _ else _); [discriminate|].
  destruct (strstr l (bytes "script")) as [q|] eqn:S; [|discriminate].
  apply strstr_some in S as (a & E & _ & _ & _).
  assert (0 <= zlen l - zlen q <= zlen l) by (unfold zlen; rewrite E, app_length; lia).
  pose proof (script_word_fuel (S (length l)) l (zlen l - zlen q) ltac:(lia) ltac:(unfold zlen in *; lia) ltac:(lia)) as W.
  destruct (script_word _ _ _) as [[x y]| |]; cbn [bind]; [|discriminate|contradiction].
  destruct (_ <? 0); discriminate.
Qed.
Lemma mode_array_fuel pl fuel p arr : (length p < fuel)%nat -> mode_array pl fuel p arr <> OutOfFuel.
Proof.
  revert p arr; induction fuel as [|k IH]; intros p arr L; [lia|]. cbn [mode_array].
  destruct p as [|c p']; [discriminate|]. remember (c :: p') as p eqn:EP. cbv zeta.
  unfold store. destruct (_ <? _); cbn [bind]; [|discriminate]. destruct (startsb _ _); [|discriminate].
  apply IH. set (f := fun c => negb (is_eol c)).
  assert (LE : (length (skip is_eol (skip f p)) < length p)%nat).
  { rewrite EP. cbn [skip]. destruct (f c) eqn:C.
    - pose proof (skip_length f p'). pose proof (skip_length is_eol (skip f p')). cbn [length]. lia.
    - cbn [skip]. unfold f in C. apply negb_false_iff in C. rewrite C. pose proof (skip_length is_eol p'). cbn [length]. lia. }
  lia.
Qed.
Lemma mode_end_fuel p : mode_end p <> OutOfFuel.
Proof. induction p as [|c p IH]; cbn [mode_end]; [discriminate|]. destruct (_ || _ || _); [discriminate|exact IH]. Qed.
Lemma emacs_fuel pl f : emacs_mode pl f <> OutOfFuel.
Proof.
  unfold emacs_mode. pose proof (mode_array_fuel pl (S (length (contents f))) (contents f) (repeat 0 81%nat) ltac:(lia)) as M.
  destruct (mode_array _ _ _ _) as [arr| |]; cbn [bind]; [|discriminate|contradiction].
  destruct (strstr arr _); [|discriminate]. cbv zeta. set (x := if starts_nocase _ _ then _ else _). clearbody x.
  pose proof (mode_end_fuel (firstn (81 - (length arr - length x)) x)) as E.
  destruct (mode_end _); cbn [bind]; [|discriminate|contradiction].
  unfold store. destruct (_ <? _); cbn [bind]; [|discriminate].
  destruct (zlist_eqb _ _); [discriminate|]. destruct (negb _); [discriminate|]. destruct (find_named _); discriminate.
Qed.
Lemma first_guess_fuel pl magic f : first_guess pl magic f <> OutOfFuel.
Proof.
  unfold first_guess. destruct (by_extension f); [discriminate|].
  pose proof (emacs_fuel pl f). destruct (emacs_mode pl f) as [[v|]| |]; cbn [bind]; try discriminate; [|contradiction].
  destruct (lookup filenames _); [discriminate|]. unfold detect_magic.
  destruct (d_disk f); [apply magic_fuel|]. destruct (d_contents f); [apply magic_fuel|discriminate].
Qed.
Lemma back_fuel fuel path stop p : 0 <= p < Z.of_nat fuel -> 
  (exists q, back fuel path stop p = Ok q /\ 0 <= q <= p) \/ exists w, back fuel path stop p = Ub w.
Proof.
  revert p; induction fuel as [|k IH]; intros p P; [lia|]. cbn [back].
  destruct (p >? 0) eqn:G; [|left; exists p; split; [reflexivity|lia]]. rewrite Z.gtb_ltb in G. apply Z.ltb_lt in G.
  change (src path (p - 1)) with (peek path (p - 1)).
  destruct (peek_cases path (p - 1)) as [(c & E & B)|E]; rewrite E; cbn [bind]; [|eauto].
  destruct (stop c); [left; exists p; split; [reflexivity|lia]|].
  destruct (IH (p - 1)) as [(q & E2 & Q)|E2]; [lia| |auto]. left. exists q. split; [exact E2|lia].
Qed.
Lemma sourcefile_new_fuel path : sourcefile_new path <> OutOfFuel.
Proof.
  unfold sourcefile_new. cbv zeta. set (n := Z.of_nat (length path)). assert (0 <= n) by (unfold n; lia). clearbody n.
  destruct (back_fuel (S (Z.to_nat n)) path (fun c => (c =? 46) || is_sep c) n) as [(q & E & Q)|(w & E)]; [lia| |];
    rewrite E; cbn [bind]; [|discriminate].
  change (src path (q - 1)) with (peek path (q - 1)).
  destruct (peek_cases path (q - 1)) as [(c & E1 & B)|E1]; rewrite E1; cbn [bind]; [|discriminate].
  destruct (back_fuel (S (Z.to_nat n)) path is_sep q) as [(q2 & E2 & Q2)|(w & E2)]; [lia| |];
    rewrite E2; cbn [bind]; discriminate.
Qed.
Lemma detect_fuel pl magic pcre fuel f : (length (d_path f) < fuel)%nat -> detect pl magic pcre fuel f <> OutOfFuel.
Proof.
  revert f; induction fuel as [|k IH]; intros f L; [lia|]. cbn [detect]. cbv zeta.
  pose proof (first_guess_fuel pl magic f). destruct (first_guess pl magic f) as [[v|]| |]; cbn [bind]; try discriminate; [|contradiction].
  destruct (is_ambiguous v); [|discriminate]. destruct (lookup disambiguators _) as [d|]; [|discriminate].
  destruct d.
  - apply aspx_fuel.
  - discriminate.
  - unfold disambiguate_b. destruct (b_total (S (length (contents f))) (contents f)) as (r & ->); [lia|]. cbn [bind].
    destruct r; [discriminate|apply basic_fuel].
  - apply basic_fuel.
  - unfold disambiguate_cs. destruct (d_contents f); discriminate.
  - discriminate.
  - discriminate.
  - unfold disambiguate_fortran. destruct (fortran_total (S (length (contents f))) (contents f)) as (r & ->); [lia|]. discriminate.
  - unfold disambiguate_fs. destruct (d_contents f) as [c|]; [|discriminate]. rewrite fs_count by lia. discriminate.
  - apply h_fuel.
  - (* in *)
    destruct (match strstr (d_path f) (bytes ".") with Some q => _ | None => _ end); [|discriminate].
    unfold vla, store. destruct (zlen (d_path f) - 3 <? 0) eqn:N; cbn [bind]; [discriminate|]. apply Z.ltb_ge in N.
    destruct (_ <? _); cbn [bind]; [|discriminate].
    destruct (d_contents f) as [c|]; [|discriminate].
    unfold path_fields. destruct (sourcefile_new _) eqn:SN; cbn [bind].
    + apply IH. cbn [d_path]. rewrite firstn_length. unfold zlen in *. lia.
    + destruct (before_path pl); cbn [bind]; [|discriminate]. apply IH. cbn [d_path]. rewrite firstn_length. unfold zlen in *. lia.
    + exfalso. revert SN. apply sourcefile_new_fuel.
  - unfold disambiguate_inc. destruct (d_contents f); discriminate.
  - apply m_fuel.
  - discriminate.
  - unfold disambiguate_pl. destruct (d_contents f) as [c|]; [|discriminate]. destruct (pcre _ _); [discriminate|].
    destruct (has _ _); [discriminate|]. destruct (strstr c _); discriminate.
  - unfold disambiguate_pp. destruct (d_contents f); discriminate.
  - discriminate.
  - unfold disambiguate_r. destruct (d_contents f); discriminate.
  - unfold disambiguate_rs. destruct (d_contents f) as [c|]; [|discriminate]. destruct (starts_nocase _ _); discriminate.
  - apply st_fuel.
Qed.
