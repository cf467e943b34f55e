(** Lemmas about the order of the tests of ohcount_detect_language. *)
From Coq Require Import ZArith String Ascii List Bool Lia.
From Verif Require Import Base ParsedModel PathModel Tables TablesSpec PropertiesTables DetectorModel DetectorSpec DetectorProofs
  DisambProofs DisambProofs2 DisambProofs3 DisambProofs4 DisambProofs5 DisambProofs6 DisambProofs7.
Import ListNotations.
Open Scope string_scope.
Open Scope Z_scope.
Open Scope list_scope.

Lemma ext_lookup k v : In (k, v) extensions -> lookup extensions (bytes k) = Some v.
Proof.
  assert (C : forallb (fun p => match lookup extensions (bytes (fst p)) with Some v => (v =? snd p)%string | None => false end)
                extensions = true) by (vm_compute; reflexivity).
  rewrite forallb_forall in C. intros I. specialize (C _ I). cbn [fst snd] in C.
  destruct (lookup extensions (bytes k)); [|discriminate C]. apply String.eqb_eq in C. congruence.
Qed.
Lemma listed_iff e : listed e <-> exists v, lookup extensions e = Some v.
Proof.
  split.
  - intros (k & v & I & ->). exists v. apply ext_lookup. exact I.
  - intros (v & H). apply lookup_in in H as (s & <- & I). exists s, v. auto.
Qed.
Lemma unlisted e : ~ listed e -> lookup extensions e = None.
Proof. rewrite listed_iff. destruct (lookup extensions e); [|reflexivity]. intros N. exfalso. eauto. Qed.
Lemma says_iff f v : extension_says (d_ext f) v <-> by_extension f = Some v.
Proof.
  unfold by_extension. change to_lower with lower. split.
  - intros (k & I & [E|[N E]]).
    + rewrite E, (ext_lookup k v I). reflexivity.
    + rewrite (unlisted _ N), E. apply ext_lookup. exact I.
  - destruct (lookup extensions (d_ext f)) as [w|] eqn:L.
    + intros [= ->]. apply lookup_in in L as (s & E & I). exists s. auto.
    + intros H. apply lookup_in in H as (s & E & I). exists s. split; [exact I|]. right. split; [|congruence].
      rewrite listed_iff. intros (w & X). congruence.
Qed.
Lemma unknown_iff f : extension_unknown (d_ext f) <-> by_extension f = None.
Proof.
  unfold by_extension, extension_unknown. rewrite !listed_iff. change to_lower with lower. split.
  - intros [A B]. destruct (lookup extensions (d_ext f)); [exfalso; eauto|].
    destruct (lookup extensions (map lower (d_ext f))); [exfalso; eauto|reflexivity].
  - destruct (lookup extensions (d_ext f)); [discriminate|]. intros H. split; intros (v & X); congruence.
Qed.

(** Languages are neither `binary` nor ambiguous. *)
Lemma language_plain g : is_language g -> is_ambiguous g = false /\ is_binary g = false.
Proof.
  intros (k & l & I & <-).
  assert (C : forallb (fun e => negb (is_ambiguous (l_name (snd e))) && negb (is_binary (l_name (snd e)))) languages = true)
    by (vm_compute; reflexivity).
  rewrite forallb_forall in C. specialize (C _ I). cbn [snd] in C. apply andb_true_iff in C as [A B].
  apply negb_true_iff in A, B. auto.
Qed.
Lemma value_ok_binary v : value_ok v -> is_binary v = true -> v = binary.
Proof.
  intros [g _ L| |id d I] B.
  - destruct (language_plain g L). congruence.
  - reflexivity.
  - discriminate B.
Qed.

Section Order.
  Variable pl : platform.
  Variable magic : file -> list Z.
  Variable pcre : string -> list Z -> bool.

  Lemma guess_says f v : extension_says (d_ext f) v -> first_guess pl magic f = Ok (Some v).
  Proof. intros H. apply says_iff in H. unfold first_guess. rewrite H. reflexivity. Qed.

  Lemma detect_plain fuel f g : first_guess pl magic f = Ok (Some g) -> is_language g ->
    detect pl magic pcre (S fuel) f = Ok (Some g).
  Proof.
    intros H L. destruct (language_plain g L) as [A B]. cbn [detect]. cbv zeta. rewrite H. cbn [bind]. rewrite A, B. reflexivity.
  Qed.

  (** detector.c:204-213: the call of a disambiguator other than `in` *)
  Definition run (d : func) (f : file) : res (option string) :=
    match d with
    | F_aspx => disambiguate_aspx pl f
    | F_asx => disambiguate_asx f
    | F_b => disambiguate_b pl f
    | F_basic => disambiguate_basic pl f
    | F_cs => disambiguate_cs f
    | F_dat => disambiguate_dat f
    | F_def => disambiguate_def f
    | F_fortran => disambiguate_fortran f
    | F_fs => disambiguate_fs f
    | F_h => disambiguate_h pl f
    | F_in => OutOfFuel
    | F_inc => disambiguate_inc f
    | F_m => disambiguate_m pl f
    | F_mod => disambiguate_mod f
    | F_pl => disambiguate_pl pcre f
    | F_pp => disambiguate_pp pcre f
    | F_pro => disambiguate_pro f
    | F_r => disambiguate_r f
    | F_rs => disambiguate_rs f
    | F_st => disambiguate_st pl f
    end.
  (** detector.c:643-675 *)
  Definition run_in (fuel : nat) (f : file) : res (option string) :=
    let p := d_path f in
    let n := zlen p - 3 in
    let early := match strstr p (bytes ".") with
                 | Some q => zlen p - zlen q <=? n
                 | None => true
                 end in
    if early then
      _ <- vla pl n ;;
      let buf := firstn (Z.to_nat n) p in
      match d_contents f with
      | None => Ok None
      | Some c =>
        '(ext, name) <- path_fields pl buf ;;
        detect pl magic pcre fuel (mkFile buf ext name (d_disk f) (Some (cstr c)) (d_dir f))
      end
    else Ok None.

  Lemma detect_eq fuel f : detect pl magic pcre (S fuel) f =
    (g <- first_guess pl magic f ;;
     match g with
     | None => Ok None
     | Some v =>
       if is_ambiguous v then
         match lookup disambiguators (bytes (ambiguous_what v)) with
         | Some F_in => run_in fuel f
         | Some d => run d f
         | None => Ok (Some v)
         end
       else Ok (if is_binary v then None else Some v)
     end).
  Proof.
    cbn [detect]. cbv zeta. destruct (first_guess pl magic f) as [[v|]| |]; cbn [bind]; try reflexivity.
    destruct (is_ambiguous v); [|reflexivity]. destruct (lookup disambiguators _) as [[]|]; reflexivity.
  Qed.

  Lemma detect_call w d f : d <> F_in -> lookup disambiguators (bytes w) = Some d ->
    extension_says (d_ext f) (ambiguous w) -> ohcount_detect_language pl magic pcre f = run d f.
  Proof.
    intros N L S. unfold ohcount_detect_language. rewrite detect_eq, (guess_says f _ S). cbn [bind].
    change (is_ambiguous (ambiguous w)) with true. change (ambiguous_what (ambiguous w)) with w. cbv iota. rewrite L.
    destruct d; try reflexivity. contradiction.
  Qed.
End Order.

(** The outcome does not depend on the fuel. *)
Lemma detect_irrel pl magic pcre : forall k1 k2 f, (length (d_path f) < k1)%nat -> (length (d_path f) < k2)%nat ->
  detect pl magic pcre k1 f = detect pl magic pcre k2 f.
Proof.
  induction k1 as [|k1 IH]; intros k2 f L1 L2; [lia|]. destruct k2 as [|k2]; [lia|].
  rewrite !detect_eq. destruct (first_guess pl magic f) as [[v|]| |]; cbn [bind]; try reflexivity.
  destruct (is_ambiguous v); [|reflexivity]. destruct (lookup disambiguators _) as [[]|]; try reflexivity.
  unfold run_in. cbv zeta. destruct (match strstr (d_path f) (bytes ".") with Some q => _ | None => _ end); [|reflexivity].
  unfold vla. destruct (zlen (d_path f) - 3 <? 0) eqn:N; [reflexivity|]. apply Z.ltb_ge in N.
  destruct (store _ _ _); cbn [bind]; try reflexivity. destruct (d_contents f); [|reflexivity].
  destruct (path_fields _ _) as [[ext name]| |]; cbn [bind]; try reflexivity.
  apply IH; cbn [d_path]; rewrite firstn_length; unfold zlen in *; lia.
Qed.
