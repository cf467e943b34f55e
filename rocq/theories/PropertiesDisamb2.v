(** Property C32, the finest decisions: the source form of Fortran, and .m files. *)
From Coq Require Import ZArith String List Bool Lia.
From Verif Require Import Base ParsedModel PathModel Tables DetectorModel DetectorSpec DetectorProofs DetectProofs
  DisambProofs2 DisambProofs6 DisambProofs7 DisambSpec2 DisambProofs8 DisambProofs9 PropertiesDisamb.
Import ListNotations.
Open Scope string_scope.
Open Scope Z_scope.
Open Scope list_scope.

(** Fortran: fixed format exactly if every line is empty, a comment or a statement in
    fixed format, and the first one is not empty. *)
Theorem C32_fortran_exact : forall pl magic pcre f g, extension_says (d_ext f) (ambiguous "fortran") ->
  ohcount_detect_language pl magic pcre f = Ok g ->
  (fixed_format (contents f) /\ g = Some "fortranfixed") \/
  (~ fixed_format (contents f) /\ g = Some "fortranfree").
Proof.
  intros pl magic pcre f g E. call "fortran" F_fortran. unfold disambiguate_fortran. intros H.
  apply bind_ok in H as (x & F & H). apply Ok_inj in H. subst g.
  pose proof (fixed_exact (S (length (contents f))) (contents f) ltac:(lia)) as X. destruct x.
  - left. split; [now apply X|reflexivity].
  - right. split; [|reflexivity]. intros Y. apply X in Y. congruence.
Qed.
Print Assumptions C32_fortran_exact.

(** The columns count: the ampersand in column 72 continues the line, in column 73 it
    does not, nor in quotes or in a comment. *)
Definition columns (n : nat) (s : string) : list Z := repeat 32 n ++ bytes s.
Example C32_fortran_ex :
  map (fun t => ohcount_detect_language strict no_magic no_pcre
         (mkFile (bytes "x.f") (bytes "f") (bytes "x.f") true (Some t) None))
    [columns 71 "&"; columns 72 "&"; columns 6 "x = '&'"; columns 6 "x = '&"; columns 6 "x ! &"; columns 5 "!&";
     bytes "  1  0x"; bytes "  1  2x"; bytes "     2x"; [9] ++ bytes "2x"; bytes " !"; bytes " x"]
  = map (fun b : bool => Ok (Some (if b then "fortranfixed" else "fortranfree")))
    [false; true; true; true; true; false; true; false; true; true; true; false].
Proof. vm_compute. reflexivity. Qed.

(** .m: the language with most points; among Matlab and Octave the syntax decides. *)
Theorem C32_m_exact : forall pl magic pcre f g, 0 <= slack pl -> extension_says (d_ext f) (ambiguous "m") ->
  ohcount_detect_language pl magic pcre f = Ok g ->
  let ls := map seen (lines (contents f)) in
  exists ma ml ob li extra,
    total mathematica_points ls ma /\ total matlab_points ls ml /\ total objc_points ls ob /\ total limbo_points ls li /\
    ((headers_only (d_dir f) /\ extra = 5) \/ (~ headers_only (d_dir f) /\ extra = 0)) /\
    (let limbo := li > ob + extra /\ li > ml /\ li > ma in
     let objective_c := ob + extra > ml /\ ob + extra > ma in
     (limbo /\ g = Some "limbo")
     \/ (~ limbo /\ objective_c /\ g = Some "objective_c")
     \/ (~ limbo /\ ~ objective_c /\ ma > ml /\ g = Some "mathematica")
     \/ (~ limbo /\ ~ objective_c /\ ma <= ml /\
         ((g = Some "octave" /\ exists l, In l ls /\ (hash_comment l \/ octave_word false l))
          \/ (g = Some "matlab" /\ ~ exists l, In l ls /\ (hash_comment l \/ octave_word true l))))).
Proof.
  intros pl magic pcre f g S E. call "m" F_m. unfold disambiguate_m.
  pose proof (m_dir_exact (d_dir f)) as D.
  destruct (match d_dir f with Some n => m_dir n false | None => (false, false) end) as [h c].
  rewrite lines_loop_eq; [|exact S|].
  2: { intros [a1 a2 a3 a4 a5]. unfold m_line. cbn. rewrite !Z.add_0_r, orb_false_r. reflexivity. }
  intros H. apply bind_ok in H as (x & F & H).
  apply fold_exact in F as (ma & ml & ob & li & oc & -> & T1 & T2 & T3 & T4 & T5 & T6). apply Ok_inj in H. cbv zeta.
  exists ma, ml, ob, li, (if h && negb c then 5 else 0).
  split; [exact T1|]. split; [exact T2|]. split; [exact T3|]. split; [exact T4|]. split.
  { destruct (h && negb c); [left; split; [now apply D|reflexivity]|right]. split; [|reflexivity]. intros X. apply D in X. discriminate. }
  revert H. set (e := if h && negb c then 5 else 0). clearbody e. unfold s_add. cbn [mathematica matlab objc limbo octave].
  rewrite !Z.add_0_r, orb_false_r. intros H. subst g.
  destruct (Z.gtb_spec li (ob + e)), (Z.gtb_spec li ml), (Z.gtb_spec li ma); cbn [andb]; try (left; split; [lia|reflexivity]);
    right; (destruct (Z.gtb_spec (ob + e) ml), (Z.gtb_spec (ob + e) ma); cbn [andb]; try (left; split; [lia|split; [lia|reflexivity]]);
    right; (destruct (Z.gtb_spec ma ml); [left; split; [lia|split; [lia|split; [lia|reflexivity]]]|right]);
    (split; [lia|split; [lia|split; [lia|]]]);
    (destruct oc;
     [left; split; [reflexivity|]; destruct (T5 eq_refl) as (l & I & L); exists (seen l); split; [now apply in_map|exact L]
     |right; split; [reflexivity|]; intros (l & I & L); apply in_map_iff in I as (l' & <- & I);
      assert (false = true) by (apply T6; eauto); discriminate])).
Qed.
Print Assumptions C32_m_exact.

Lemma count_unique P ls n m : count P ls n -> count P ls m -> n = m.
Proof.
  intros H. revert m. induction H as [|l ls n Y H IH|l ls n N H IH]; intros m K; inversion K; subst; try contradiction.
  - reflexivity.
  - f_equal. auto.
  - auto.
Qed.
Lemma one_if_unique P n m : one_if P n -> one_if P m -> n = m.
Proof. intros [[A ->]|[A ->]] [[B ->]|[B ->]]; tauto. Qed.
Lemma blanks_split b x r b' x' r' : Forall Blank b -> Forall Blank b' -> ~ Blank x -> ~ Blank x' ->
  b ++ x :: r = b' ++ x' :: r' -> x = x' /\ r = r'.
Proof.
  revert b'. induction b as [|c b IH]; intros [|d b'] F F' N N' E; cbn in E; injection E as E1 E2; subst.
  - auto.
  - inversion F'; contradiction.
  - inversion F; contradiction.
  - inversion F; inversion F'; subst. now apply (IH b').
Qed.
Lemma blanks_end b x r b' : Forall Blank b' -> ~ Blank x -> b ++ x :: r = b' -> False.
Proof. intros F N E. subst b'. apply Forall_app in F. destruct F as [_ F]. inversion F. contradiction. Qed.
Lemma bracket_not_blank x : In x [44; 41; 93] -> ~ Blank x.
Proof. intros I [->| ->]; cbn in I; lia. Qed.
Lemma postfix_unique l n m : postfix l n -> postfix l m -> n = m.
Proof.
  intros H. revert m. induction H as [|c r n N H IH|b x r n F I H IH|b x r n F N I H IH|b F]; intros m K.
  - now inversion K.
  - inversion K; subst; auto; contradiction.
  - inversion K as [|c' r' n' N' K'|b' x' r' n' F' I' K' E|b' x' r' n' F' N' I' K' E|b' F' E]; subst; [contradiction| | |].
    + destruct (blanks_split b' x' r' b x r) as [-> ->]; auto using bracket_not_blank. f_equal. auto.
    + destruct (blanks_split b' x' r' b x r) as [-> ->]; auto using bracket_not_blank. contradiction.
    + exfalso. eapply (blanks_end b x r); [exact F'|now apply bracket_not_blank|reflexivity].
  - inversion K as [|c' r' n' N' K'|b' x' r' n' F' I' K' E|b' x' r' n' F' N' I' K' E|b' F' E]; subst; [contradiction| | |].
    + destruct (blanks_split b' x' r' b x r) as [-> ->]; auto using bracket_not_blank. contradiction.
    + destruct (blanks_split b' x' r' b x r) as [-> ->]; auto.
    + exfalso. eapply (blanks_end b x r); [exact F'|exact N|reflexivity].
  - inversion K as [|c' r' n' N' K'|b' x' r' n' F' I' K' E|b' x' r' n' F' N' I' K' E|b' F' E]; subst; [contradiction| | |reflexivity].
    + exfalso. eapply (blanks_end b' x' r'); [exact F|now apply bracket_not_blank|reflexivity].
    + exfalso. eapply (blanks_end b' x' r'); [exact F|exact N'|reflexivity].
Qed.

(** The points are defined for all lines and are not a matter of choice. *)
Theorem C32_m_points : forall l,
  (exists n, mathematica_points l n) /\ (exists n, limbo_points l n) /\
  (forall n m, mathematica_points l n -> mathematica_points l m -> n = m) /\
  (forall n m, limbo_points l n -> limbo_points l m -> n = m).
Proof.
  intros l. split; [|split; [|split]].
  - destruct (mathematica_total (S (length l)) l) as (n & H); [lia|]. exists n. now apply mathematica_exact in H.
  - destruct (limbo_total (S (length l)) l) as (n & H); [lia|]. apply limbo_exact in H.
    destruct (telltale_exact l) as (ml & ob & li & oc & _ & _ & _ & L & _). exists (li + n), li, n. auto.
  - intros n m (a & b & A & B & ->) (a' & b' & A' & B' & ->).
    now rewrite (count_unique _ _ _ _ A A'), (postfix_unique _ _ _ B B').
  - intros n m (a & b & A & B & ->) (a' & b' & A' & B' & ->).
    now rewrite (one_if_unique _ _ _ A A'), (count_unique _ _ _ _ B B').
Qed.
Print Assumptions C32_m_points.

Example C32_m_ex :
  map (fun s => ohcount_detect_language strict no_magic no_pcre (ex "x.m" "m" s []))
    ["x /. y"; "a /. b -> c @@ __"; "f[#]& , 1"; "# x"; "## x"; "#import"; "x : fn (y)"; "x : module"; "x : modules";
     " end_unwind_protect"; "x end_try_catch;"; "xend_try_catch"; " endwhile1"; "function (x)"; "@interface X"]
  = map (fun v => Ok (Some v))
    ["mathematica"; "mathematica"; "mathematica"; "octave"; "octave"; "objective_c"; "limbo"; "limbo"; "matlab";
     "octave"; "octave"; "matlab"; "matlab"; "matlab"; "objective_c"].
Proof. vm_compute. reflexivity. Qed.
