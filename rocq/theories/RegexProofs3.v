(** The parser of regular expressions follows the grammar. *)
From Coq Require Import ZArith String Ascii List Bool Lia.
From Verif Require Import Base RegexModel RegexSyntax.
Import ListNotations.
Open Scope Z_scope.
Open Scope list_scope.
Open Scope string_scope.

Lemma sapp_assoc a b c : (a ++ b) ++ c = a ++ (b ++ c).
Proof. induction a; cbn; congruence. Qed.
Lemma sapp_nil a : a ++ "" = a.
Proof. induction a; cbn; congruence. Qed.

Lemma is_digit_iff a : is_digit a = true <-> digit a.
Proof. unfold is_digit, z_of, digit. rewrite andb_true_iff, !Z.leb_le. tauto. Qed.
Lemma is_alnum_iff a : is_alnum a = true <-> letter_or_digit a.
Proof. unfold is_alnum, letter_or_digit. rewrite !orb_true_iff, !andb_true_iff, !Z.leb_le, is_digit_iff. unfold z_of. tauto. Qed.

Lemma escape_ok a i : escape a = Some i -> escaped a i.
Proof.
  intros H. assert (D : i = Chr (z_of a) /\ is_alnum a = false \/ escaped a i).
  { destruct a as [[] [] [] [] [] [] [] []]; vm_compute in H; try discriminate; injection H as <-;
      first [right; constructor; fail|left; split; vm_compute; reflexivity]. }
  destruct D as [[-> D]|D]; [|exact D]. constructor. rewrite <- is_alnum_iff, D. discriminate.
Qed.

Lemma class_step k a s : a <> "]"%char -> a <> "\"%char -> a <> "["%char ->
  parse_class (S k) (String a s) =
    match s with
    | String "-" (String b r) =>
      if (b =? "]")%char then
        match parse_class k (String "-" (String b r)) with
        | Some (is, r) => Some (Chr (z_of a) :: is, r)%list
        | None => None
        end
      else if (b =? "\")%char || (b =? "[")%char || (z_of b <? z_of a)%Z then None
      else match parse_class k r with
           | Some (is, r) => Some (Range (z_of a) (z_of b) :: is, r)%list
           | None => None
           end
    | _ => match parse_class k s with
      | Some (is, r) => Some (Chr (z_of a) :: is, r)%list
      | None => None
      end
    end.
Proof.
  intros N1 N2 N3. destruct a as [[] [] [] [] [] [] [] []]; try reflexivity; exfalso; auto.
Qed.

Lemma class_ok k : forall s is r, parse_class k s = Some (is, r) ->
  exists u, s = u ++ String "]" r /\ class_text u is.
Proof.
  induction k as [|k IH]; intros s is r H; [discriminate|].
  destruct s as [|a s]; [discriminate|].
  destruct (ascii_dec a "]") as [-> |N1].
  { cbn in H. injection H as <- <-. exists "". split; [reflexivity|constructor]. }
  destruct (ascii_dec a "\") as [-> |N2].
  { cbn in H. destruct s as [|b s].
    - destruct k; cbn in H; discriminate.
    - destruct (minus_next s) eqn:MN; [discriminate|].
      destruct (escape b) as [i|] eqn:E; [|discriminate]. destruct (parse_class k s) as [[is' r']|] eqn:P; [|discriminate].
      injection H as <- <-. apply IH in P as (u & -> & C). exists (String "\" (String b u)). split; [reflexivity|].
      constructor; [apply escape_ok; exact E| |exact C]. intros v ->. destruct v as [|x v]; [reflexivity|]. exfalso.
      cbn in MN. destruct (ascii_dec x "]") as [-> |NX].
      + inversion C as [|? ? ? ? ? ? CC|? ? ? ? ? ? ? ? ? ? ? CC|? ? ? ? ? ? ? CC]; subst; try congruence. inversion CC; subst; congruence.
      + revert MN. clear -NX. destruct x as [[] [] [] [] [] [] [] []]; try discriminate. intros _; auto. }
  destruct (ascii_dec a "[") as [-> |N3]; [discriminate|].
  rewrite class_step in H by assumption.
  assert (CH : match parse_class k s with
      | Some (is, r) => Some (Chr (z_of a) :: is, r)%list
      | None => None
      end = Some (is, r) -> (forall b t, s = String "-" (String b t) -> b = "]"%char) -> exists u, String a s = u ++ String "]" r /\ class_text u is).
  { intros Q F. destruct (parse_class k s) as [[is' r']|] eqn:E; [|discriminate]. injection Q as <- <-.
    apply IH in E as (u & -> & C). exists (String a u). split; [reflexivity|]. constructor; auto.
    intros v ->. destruct v as [|b v]; [reflexivity|]. cbn in F. specialize (F _ _ eq_refl). subst b.
    exfalso. clear -C. inversion C as [| |? ? ? ? ? ? ? ? ? ? ? CC|? ? ? ? ? ? ? CC]; subst; try congruence. inversion CC; subst; congruence. }
  destruct s as [|m s]; [apply CH; [exact H|discriminate]|].
  destruct (ascii_dec m "-") as [-> |NM].
  2:{ apply CH; [|intros b t E; congruence]. revert H. destruct m as [[] [] [] [] [] [] [] []]; try exact (fun h => h). exfalso; auto. }
  destruct s as [|b s]; [apply CH; [exact H|discriminate]|].
  destruct (b =? "]")%char eqn:B.
  - apply Ascii.eqb_eq in B as ->. apply CH; [exact H|]. intros b t E. congruence.
  - apply Ascii.eqb_neq in B. destruct (b =? "\")%char eqn:B2; [discriminate|]. apply Ascii.eqb_neq in B2.
    destruct (b =? "[")%char eqn:B3; [discriminate|]. apply Ascii.eqb_neq in B3.
    destruct (z_of b <? z_of a)%Z eqn:B4; [discriminate|]. apply Z.ltb_ge in B4.
    destruct (parse_class k s) as [[is' r']|] eqn:E; [|discriminate]. injection H as <- <-.
    apply IH in E as (u & -> & C). exists (String a (String "-" (String b u))). split; [reflexivity|]. constructor; auto.
Qed.

(** Numbers. *)
Fixpoint digits_from (n : nat) (u : string) : nat :=
  match u with
  | "" => n
  | String a r => digits_from (10 * n + Z.to_nat (z_of a - 48)) r
  end.
Fixpoint all_digits (u : string) : Prop :=
  match u with "" => True | String a r => digit a /\ all_digits r end.

Lemma digits_snoc u a n : digits_from n (u ++ String a "") = (10 * digits_from n u + Z.to_nat (z_of a - 48))%nat.
Proof. revert n. induction u as [|b u IH]; intros n; [reflexivity|]. cbn [append digits_from]. apply IH. Qed.
Lemma all_digits_app u v : all_digits (u ++ v) <-> all_digits u /\ all_digits v.
Proof. induction u; cbn; tauto. Qed.
Lemma string_snoc u : u = "" \/ exists v a, u = v ++ String a "".
Proof.
  induction u as [|b u IH]; [auto|]. right. destruct IH as [-> |(v & a & ->)].
  - exists "", b. reflexivity.
  - exists (String b v), a. reflexivity.
Qed.
Lemma slength_app u v : String.length (u ++ v) = (String.length u + String.length v)%nat.
Proof. induction u; cbn; congruence. Qed.

Lemma decimal_iff u n : decimal u n <-> u <> "" /\ all_digits u /\ n = digits_from 0 u.
Proof.
  split.
  - induction 1 as [a D|u n a H (N & A & E) D].
    + split; [discriminate|]. split; [split; [exact D|exact I]|reflexivity].
    + split; [clear; destruct u; cbn; discriminate|]. split; [apply all_digits_app; cbn; auto|]. rewrite digits_snoc. unfold z_of. lia.
  - intros (N & A & ->). remember (String.length u) as k eqn:K. revert u N A K.
    induction k as [|k IH]; intros u N A K; [destruct u; [congruence|discriminate]|].
    destruct (string_snoc u) as [-> |(v & a & ->)]; [congruence|].
    apply all_digits_app in A as [A [D _]]. rewrite slength_app in K. cbn in K.
    rewrite digits_snoc. destruct v as [|b v].
    + cbn. constructor. exact D.
    + apply dec_more; [|exact D]. apply IH; [discriminate|exact A|lia].
Qed.

Definition starts_digit (s : string) : bool := match s with String a _ => is_digit a | "" => false end.
Lemma number_ok k : forall n s m r, parse_number k n s = (m, r) ->
  exists u, s = u ++ r /\ all_digits u /\ m = digits_from n u /\ ((String.length s < k)%nat -> starts_digit r = false) /\
    (starts_digit s = true -> k <> O -> u <> "").
Proof.
  induction k as [|k IH]; intros n s m r H.
  - cbn in H. exists "". assert (m = n /\ r = s) as [-> ->] by (destruct s; injection H as <- <-; auto). repeat split; auto; intros; lia.
  - destruct s as [|a s]; cbn [parse_number] in H.
    + injection H as <- <-. exists "". repeat split; auto; try (intros; discriminate).
    + destruct (is_digit a) eqn:D.
      * apply IH in H as (u & -> & A & -> & L & _). exists (String a u). split; [reflexivity|]. split; [split; [apply is_digit_iff; exact D|exact A]|].
        split; [reflexivity|]. split; [intros X; apply L; cbn in X; lia|discriminate].
      * injection H as <- <-. exists "". repeat split; auto; cbn; intros; congruence.
Qed.
Lemma number_all k : forall u n r, all_digits u -> starts_digit r = false -> (String.length u < k)%nat ->
  parse_number k n (u ++ r) = (digits_from n u, r).
Proof.
  induction k as [|k IH]; intros u n r A SD L; [lia|]. destruct u as [|a u].
  - cbn [append digits_from parse_number]. destruct r as [|a r]; [reflexivity|]. cbn in SD. rewrite SD. reflexivity.
  - destruct A as [D A]. cbn [append parse_number digits_from]. apply is_digit_iff in D. rewrite D. apply IH; auto. cbn in L. lia.
Qed.

(** Quantifiers. *)
Lemma quantifier_ok s q r : parse_quantifier s = (q, r) ->
  match q with
  | Some (lo, hi) => exists u, s = u ++ r /\ quantifier u lo hi
  | None => s = r
  end.
Proof.
  intros H. destruct s as [|c s]; [injection H as <- <-; reflexivity|].
  destruct (ascii_dec c "*") as [-> |N1]; [cbn in H; injection H as <- <-; exists "*"; split; [reflexivity|constructor]|].
  destruct (ascii_dec c "+") as [-> |N2]; [cbn in H; injection H as <- <-; exists "+"; split; [reflexivity|constructor]|].
  destruct (ascii_dec c "?") as [-> |N3]; [cbn in H; injection H as <- <-; exists "?"; split; [reflexivity|constructor]|].
  destruct (ascii_dec c "{") as [-> |N4].
  2:{ assert (E : parse_quantifier (String c s) = (None, String c s)) by
        (clear -N1 N2 N3 N4; destruct c as [[] [] [] [] [] [] [] []]; try reflexivity; exfalso; auto).
      rewrite E in H. injection H as <- <-. reflexivity. }
  destruct s as [|d s]; [injection H as <- <-; reflexivity|].
  change (parse_quantifier (String "{" (String d s))) with
    (if is_digit d then
      let '(lo, r1) := parse_number (String.length (String "{" (String d s))) 0 (String d s) in
      match r1 with
      | String "}" r2 => (Some (lo, Some lo), r2)
      | String "," (String e r2) =>
        if is_digit e then
          let '(hi, r3) := parse_number (String.length (String "{" (String d s))) 0 (String e r2) in
          match r3 with
          | String "}" r4 => (Some (lo, Some hi), r4)
          | _ => (None, String "{" (String d s))
          end
        else if (e =? "}")%char then (Some (lo, None), r2)
        else (None, String "{" (String d s))
      | _ => (None, String "{" (String d s))
      end
    else (None, String "{" (String d s))) in H.
  destruct (is_digit d) eqn:D; [|injection H as <- <-; reflexivity].
  destruct (parse_number _ 0 (String d s)) as [lo r1] eqn:P.
  pose proof (number_ok _ _ _ _ _ P) as (u & E & A & V & _ & NE).
  specialize (NE ltac:(cbn; exact D) ltac:(discriminate)).
  assert (DU : decimal u lo) by (apply decimal_iff; auto).
  destruct r1 as [|x r1]; [injection H as <- <-; reflexivity|].
  destruct (ascii_dec x "}") as [-> |N5].
  { cbn in H. injection H as <- <-. exists ("{" ++ u ++ "}"). split; [|constructor; exact DU].
    cbn [append]. rewrite E, sapp_assoc. reflexivity. }
  destruct (ascii_dec x ",") as [-> |N6].
  2:{ assert (X : (q, r) = (None, String "{" (String d s))) by
        (rewrite <- H; clear -N5 N6; destruct x as [[] [] [] [] [] [] [] []]; try reflexivity; exfalso; auto).
      injection X as -> ->. reflexivity. }
  cbn match in H. destruct r1 as [|y r1]; [injection H as <- <-; reflexivity|].
  destruct (is_digit y) eqn:DY.
  - destruct (parse_number _ 0 (String y r1)) as [hi r3] eqn:P2.
    pose proof (number_ok _ _ _ _ _ P2) as (v & E2 & A2 & V2 & _ & NE2).
    specialize (NE2 ltac:(cbn; exact DY) ltac:(discriminate)).
    assert (DV : decimal v hi) by (apply decimal_iff; auto).
    destruct r3 as [|z r3]; [injection H as <- <-; reflexivity|].
    destruct (ascii_dec z "}") as [-> |N7].
    + cbn in H. injection H as <- <-. exists ("{" ++ u ++ "," ++ v ++ "}"). split; [|constructor; assumption].
      cbn [append]. rewrite E, E2, !sapp_assoc. cbn [append]. rewrite sapp_assoc. reflexivity.
    + assert (X : (q, r) = (None, String "{" (String d s))) by
        (rewrite <- H; clear -N7; destruct z as [[] [] [] [] [] [] [] []]; try reflexivity; exfalso; auto).
      injection X as -> ->. reflexivity.
  - destruct (y =? "}")%char eqn:Y; [|injection H as <- <-; reflexivity].
    apply Ascii.eqb_eq in Y as ->. injection H as <- <-. exists ("{" ++ u ++ ",}"). split; [|constructor; exact DU].
    cbn [append]. rewrite E, sapp_assoc. reflexivity.
Qed.

Lemma digits_head u : u <> "" -> all_digits u -> exists a w, u = String a w /\ is_digit a = true.
Proof. intros N A. destruct u as [|a w]; [congruence|]. exists a, w. split; [reflexivity|]. apply is_digit_iff, A. Qed.

Lemma quantifier_all q lo hi : quantifier q lo hi -> forall w, parse_quantifier (q ++ w) = (Some (lo, hi), w).
Proof.
  intros Q w. destruct Q as [| | |u n DU|u n DU|u n v m DU DV]; try reflexivity;
    apply decimal_iff in DU as (NU & AU & ->); destruct (digits_head u NU AU) as (a & t & EU & DA).
  - replace (("{" ++ u ++ "}") ++ w) with (String "{" (u ++ String "}" w)) by (cbn; rewrite sapp_assoc; reflexivity).
    pose proof (number_all (String.length (String "{" (u ++ String "}" w))) u 0 (String "}" w) AU eq_refl) as P.
    rewrite EU in *. cbn [append] in *. unfold parse_quantifier. rewrite DA. rewrite P; [reflexivity|].
    cbn. rewrite slength_app. cbn. lia.
  - replace (("{" ++ u ++ ",}") ++ w) with (String "{" (u ++ String "," (String "}" w))) by (cbn; rewrite sapp_assoc; reflexivity).
    pose proof (number_all (String.length (String "{" (u ++ String "," (String "}" w)))) u 0 (String "," (String "}" w)) AU eq_refl) as P.
    rewrite EU in *. cbn [append] in *. unfold parse_quantifier. rewrite DA. rewrite P; [reflexivity|].
    cbn. rewrite slength_app. cbn. lia.
  - apply decimal_iff in DV as (NV & AV & ->); destruct (digits_head v NV AV) as (b & t' & EV & DB).
    replace (("{" ++ u ++ "," ++ v ++ "}") ++ w) with (String "{" (u ++ String "," (v ++ String "}" w)))
      by (cbn; rewrite !sapp_assoc; cbn; rewrite sapp_assoc; reflexivity).
    pose proof (number_all (String.length (String "{" (u ++ String "," (v ++ String "}" w)))) u 0 (String "," (v ++ String "}" w)) AU eq_refl) as P.
    pose proof (number_all (String.length (String "{" (u ++ String "," (v ++ String "}" w)))) v 0 (String "}" w) AV eq_refl) as P2.
    rewrite EU, EV in *. cbn [append] in *. unfold parse_quantifier. rewrite DA. rewrite P; cycle 1.
    { cbn. rewrite slength_app. cbn. lia. }
    cbn match. rewrite DB, P2; [reflexivity|]. cbn. rewrite slength_app. cbn. rewrite slength_app. cbn. lia.
Qed.

Lemma not_quantified s v r : parse_quantifier s = (None, r) -> s = v ++ r -> forall v', (exists t, s = v' ++ t) -> ~ quantified v'.
Proof.
  intros H _ v' (t & ->) (q & lo & hi & w & -> & Q). rewrite sapp_assoc in H. rewrite (quantifier_all _ _ _ Q) in H. discriminate.
Qed.

(** Everything. *)
Definition ends (r : string) : Prop := r = "" \/ exists w, r = String ")" w \/ r = String "|" w.
Definition atom_text (u : string) (a : atom) : Prop :=
  match a with
  | Single s => single u s
  | Group x => exists v, u = "(" ++ v ++ ")" /\ (forall w, v <> String "?" w) /\ alternatives v x
  | Assertion x => u = "^" /\ x = Bol \/ u = "\b" /\ x = Bound \/ exists v y, u = "(?!" ++ v ++ ")" /\ x = NotAhead y /\ alternatives v y
  end.

Lemma put_together u a s q r x v y r' :
  atom_text u a -> parse_quantifier s = (q, r) -> match q with Some _ => more_quantifier r | None => false end = false ->
  quantify a q = Some x -> r = v ++ r' -> sequence v y -> exists w, u ++ s = w ++ r' /\ sequence w (Seq x y).
Proof.
  intros A Q M X -> V. pose proof (quantifier_ok _ _ _ Q) as K.
  assert (NQ : q = None -> ~ quantified v).
  { intros ->. subst s. eapply (not_quantified _ ""); [exact Q|reflexivity|exists r'; reflexivity]. }
  assert (NM : q <> None -> ~ modified v).
  { intros N (w & [-> | ->]); destruct q; try congruence; discriminate M. }
  destruct q as [[lo hi]|].
  - destruct K as (q & -> & K). specialize (NM ltac:(discriminate)). destruct a as [c|g|g].
    + injection X as <-. exists (u ++ q ++ v). split; [rewrite !sapp_assoc; reflexivity|]. constructor; assumption.
    + destruct lo; [|discriminate]. destruct hi as [[|[|]]|]; try discriminate. injection X as <-. destruct A as (t & -> & NQM & A).
      exists ("(" ++ t ++ ")" ++ q ++ v). split; [cbn; rewrite !sapp_assoc; cbn; rewrite !sapp_assoc; reflexivity|]. constructor; assumption.
    + discriminate.
  - subst s. specialize (NQ eq_refl). destruct a as [c|g|g]; injection X as <-.
    + exists (u ++ v). split; [rewrite sapp_assoc; reflexivity|]. constructor; assumption.
    + destruct A as (t & -> & NQM & A). exists ("(" ++ t ++ ")" ++ v). split; [cbn; rewrite !sapp_assoc; reflexivity|]. constructor; assumption.
    + destruct A as [[-> ->]|[[-> ->]|(t & y' & -> & -> & A)]].
      * exists ("^" ++ v). split; [reflexivity|]. constructor; assumption.
      * exists ("\b" ++ v). split; [reflexivity|]. constructor; assumption.
      * exists ("(?!" ++ t ++ ")" ++ v). split; [cbn; rewrite !sapp_assoc; reflexivity|]. constructor; assumption.
Qed.

Lemma parse_ok k :
  (forall s r t, parse_alt k s = Some (r, t) -> exists u, s = u ++ t /\ alternatives u r) /\
  (forall s r t, parse_seq k s = Some (r, t) -> exists u, s = u ++ t /\ sequence u r) /\
  (forall s a t, parse_atom k s = Some (a, t) -> (forall w, s <> String ")" w /\ s <> String "|" w) -> exists u, s = u ++ t /\ atom_text u a).
Proof.
  induction k as [|k (IA & IS & IT)]; [repeat split; discriminate|]. split; [|split].
  - intros s r t H. cbn [parse_alt] in H. destruct (parse_seq k s) as [[a w]|] eqn:P; [|discriminate].
    apply IS in P as (u & -> & U). destruct w as [|c w].
    + injection H as <- <-. exists u. split; [reflexivity|constructor; exact U].
    + destruct (ascii_dec c "|") as [-> |N].
      * cbn match in H. destruct (parse_alt k w) as [[b w']|] eqn:P; [|discriminate]. injection H as <- <-.
        apply IA in P as (v & -> & V). exists (u ++ "|" ++ v). split; [rewrite sapp_assoc; reflexivity|constructor; assumption].
      * assert (X : Some (a, String c w) = Some (r, t)) by
          (rewrite <- H; clear -N; destruct c as [[] [] [] [] [] [] [] []]; try reflexivity; exfalso; auto).
        injection X as <- <-. exists u. split; [reflexivity|constructor; exact U].
  - intros s r t H. assert (C : (r = Empty /\ t = s) \/ (forall w, s <> String ")" w /\ s <> String "|" w) /\ match parse_atom k s with
      | Some (a, r) =>
        let '(q, r) := parse_quantifier r in
        if match q with Some _ => more_quantifier r | None => false end then None
        else match quantify a q, parse_seq k r with
             | Some x, Some (y, r) => Some (Seq x y, r)
             | _, _ => None
             end
      | None => None
      end = Some (r, t)).
    { destruct s as [|c s]; [left; injection H as <- <-; auto|]. revert H.
      destruct c as [[] [] [] [] [] [] [] []]; intros H;
        first [right; split; [split; discriminate|exact H]|left; injection H as <- <-; auto]. }
    destruct C as [[-> ->]|[NS C]]; [exists ""; split; [reflexivity|constructor]|].
    destruct (parse_atom k s) as [[a w]|] eqn:P; [|discriminate]. apply IT in P as (u & -> & U); [|exact NS].
    destruct (parse_quantifier w) as [q w'] eqn:Q. destruct (match q with Some _ => more_quantifier w' | None => false end) eqn:M; [discriminate|].
    destruct (quantify a q) as [x|] eqn:X; [|discriminate]. destruct (parse_seq k w') as [[y w2]|] eqn:P; [|discriminate].
    injection C as <- <-. apply IS in P as (v & E & V). eapply put_together; eauto.
  - intros s a t H NS.
    assert (BR : forall s, match parse_alt k s with Some (x, String ")" r) => Some (Group x, r) | _ => None end = Some (a, t) ->
      (forall w, s <> String "?" w) -> exists u, String "(" s = u ++ t /\ atom_text u a).
    { clear H NS s. intros s H NQ. destruct (parse_alt k s) as [[x w]|] eqn:P; [|discriminate]. apply IA in P as (u & -> & U).
      destruct w as [|c w]; [discriminate|]. destruct (ascii_dec c ")") as [-> |N].
      - cbn match in H. injection H as <- <-. exists ("(" ++ u ++ ")"). split; [cbn; rewrite sapp_assoc; reflexivity|].
        exists u. split; [reflexivity|]. split; [|exact U]. intros w' ->. eapply NQ. reflexivity.
      - exfalso. revert H. clear -N. destruct c as [[] [] [] [] [] [] [] []]; intros H; try discriminate; auto. }
    assert (CL : forall s, match parse_class k s with Some (i :: is, r)%list => Some (Single (Class false (i :: is)%list), r) | _ => None end = Some (a, t) ->
      (forall w, s <> String "^" w) -> exists u, String "[" s = u ++ t /\ atom_text u a).
    { clear H NS s. intros s H NQ. destruct (parse_class k s) as [[[|i is] w]|] eqn:P; [discriminate| |discriminate]. injection H as <- <-.
      apply class_ok in P as (u & -> & C). exists ("[" ++ u ++ "]"). split; [cbn; rewrite sapp_assoc; reflexivity|].
      cbn. constructor; [exact C| |intros ->; inversion C]. intros v ->. eapply NQ. reflexivity. }
    destruct s as [|c s]; [discriminate|].
    destruct (ascii_dec c "(") as [-> |N1].
    { destruct s as [|d s]; [apply BR; [exact H|discriminate]|].
      destruct (ascii_dec d "?") as [-> |ND].
      - destruct s as [|e s]; [discriminate|]. destruct (ascii_dec e "!") as [-> |NE].
        + cbn in H. destruct (parse_alt k s) as [[x w]|] eqn:P; [|discriminate]. apply IA in P as (u & -> & U).
          destruct w as [|c w]; [discriminate|]. destruct (ascii_dec c ")") as [-> |N].
          * cbn match in H. injection H as <- <-. exists ("(?!" ++ u ++ ")"). split; [cbn; rewrite sapp_assoc; reflexivity|].
            right. right. exists u, x. auto.
          * exfalso. revert H. clear -N. destruct c as [[] [] [] [] [] [] [] []]; intros H; try discriminate; auto.
        + exfalso. revert H. clear -NE. destruct e as [[] [] [] [] [] [] [] []]; intros H; try discriminate; auto.
      - apply BR; [|intros w E; congruence]. revert H. clear -ND. destruct d as [[] [] [] [] [] [] [] []]; try exact (fun h => h). exfalso; auto. }
    destruct (ascii_dec c "[") as [-> |N2].
    { destruct s as [|d s]; [apply CL; [exact H|discriminate]|]. destruct (ascii_dec d "^") as [-> |ND].
      - cbn in H. destruct (parse_class k s) as [[[|i is] w]|] eqn:P; [discriminate| |discriminate]. injection H as <- <-.
        apply class_ok in P as (u & -> & C). exists ("[^" ++ u ++ "]"). split; [cbn; rewrite sapp_assoc; reflexivity|].
        cbn [atom_text]. apply s_not_class; [exact C|]. intros ->. inversion C.
      - apply CL; [|intros w E; congruence]. revert H. clear -ND. destruct d as [[] [] [] [] [] [] [] []]; try exact (fun h => h). exfalso; auto. }
    destruct (ascii_dec c ".") as [-> |N3].
    { cbn in H. injection H as <- <-. exists ".". split; [reflexivity|constructor]. }
    destruct (ascii_dec c "^") as [-> |N4].
    { cbn in H. injection H as <- <-. exists "^". split; [reflexivity|left; auto]. }
    destruct (ascii_dec c "\") as [-> |N5].
    { destruct s as [|d s]; [discriminate|]. destruct (ascii_dec d "b") as [-> |ND].
      - cbn in H. injection H as <- <-. exists "\b". split; [reflexivity|right; left; auto].
      - assert (X : match escape d with Some i => Some (Single (Class false [i]), s) | None => None end = Some (a, t)).
        { revert H. clear -ND. destruct d as [[] [] [] [] [] [] [] []]; try exact (fun h => h). exfalso; auto. }
        destruct (escape d) as [i|] eqn:E; [|discriminate]. injection X as <- <-. exists (String "\" (String d "")).
        split; [reflexivity|]. constructor. apply escape_ok. exact E. }
    assert (X : ~ In c special /\ Some (Single (Class false [Chr (z_of c)]), s) = Some (a, t)).
    { assert (N6 : c <> ")"%char) by (destruct (NS s); congruence). assert (N7 : c <> "|"%char) by (destruct (NS s); congruence).
      revert H. clear -N1 N2 N3 N4 N5 N6 N7. destruct c as [[] [] [] [] [] [] [] []]; intros H;
        first [discriminate H|exfalso; auto; fail|split; [cbn; intuition discriminate|exact H]]. }
    destruct X as [I X]. injection X as <- <-. exists (String c ""). split; [reflexivity|]. constructor. exact I.
Qed.

Theorem compile_ok s r : compile s = Some r -> alternatives s r.
Proof.
  unfold compile. intros H. destruct (parse_alt _ s) as [[x w]|] eqn:P; [|discriminate]. destruct w; [|discriminate].
  injection H as ->. apply parse_ok in P as (u & -> & U). rewrite sapp_nil. exact U.
Qed.

(** ** The other way round: what the grammar has is read. *)
Lemma escape_all a i : escaped a i -> escape a = Some i.
Proof.
  intros E. destruct E as [| | | | | | |a N]; try reflexivity. rewrite <- is_alnum_iff in N.
  destruct a as [[] [] [] [] [] [] [] []]; try reflexivity; exfalso; apply N; reflexivity.
Qed.

Lemma class_all u is : class_text u is -> forall t k, (String.length u < k)%nat -> parse_class k (u ++ String "]" t) = Some (is, t).
Proof.
  induction 1 as [|a i u is E M C IH|a b u is N1 N2 N3 B1 B2 B3 LE C IH|a u is N1 N2 N3 M C IH]; intros t k L;
    (destruct k as [|k]; [lia|]); cbn [String.length] in L.
  - reflexivity.
  - assert (P : parse_class k (u ++ String "]" t) = Some (is, t)) by (apply IH; lia).
    cbn [append parse_class]. rewrite P, (escape_all _ _ E).
    assert (MN : minus_next (u ++ String "]" t) = false).
    { destruct u as [|x u]; [reflexivity|]. destruct (ascii_dec x "-") as [-> |NX].
      - rewrite (M u eq_refl). reflexivity.
      - clear -NX. destruct x as [[] [] [] [] [] [] [] []]; try reflexivity; exfalso; auto. }
    rewrite MN. reflexivity.
  - assert (P : parse_class k (u ++ String "]" t) = Some (is, t)) by (apply IH; lia).
    assert (Q : parse_class (S k) (String a (String "-" (String b (u ++ String "]" t)))) =
      if (b =? "]")%char then
        match parse_class k (String "-" (String b (u ++ String "]" t))) with
        | Some (is, r) => Some (Chr (z_of a) :: is, r)%list
        | None => None
        end
      else if (b =? "\")%char || (b =? "[")%char || (z_of b <? z_of a)%Z then None
      else match parse_class k (u ++ String "]" t) with
           | Some (is, r) => Some (Range (z_of a) (z_of b) :: is, r)%list
           | None => None
           end).
    { clear -N1 N2 N3. destruct a as [[] [] [] [] [] [] [] []]; try reflexivity; exfalso; auto. }
    cbn [append]. rewrite Q, P. apply Ascii.eqb_neq in B1, B2, B3. rewrite B1, B2, B3. apply Z.ltb_ge in LE.
    unfold z_of. rewrite LE. reflexivity.
  - assert (P : parse_class k (u ++ String "]" t) = Some (is, t)) by (apply IH; lia).
    cbn [append]. assert (X : (u = "-") \/ forall w, u <> String "-" w).
    { destruct u as [|x u]; [right; discriminate|]. destruct (ascii_dec x "-") as [-> |NX].
      - left. rewrite (M u eq_refl). reflexivity.
      - right. intros w E. congruence. }
    destruct X as [-> |X].
    + cbn [append] in *. assert (Q : parse_class (S k) (String a (String "-" (String "]" t))) =
        match parse_class k (String "-" (String "]" t)) with
        | Some (is, r) => Some (Chr (z_of a) :: is, r)%list
        | None => None
        end) by (clear -N1 N2 N3; destruct a as [[] [] [] [] [] [] [] []]; try reflexivity; exfalso; auto).
      rewrite Q, P. reflexivity.
    + assert (Q : parse_class (S k) (String a (u ++ String "]" t)) =
        match parse_class k (u ++ String "]" t) with
        | Some (is, r) => Some (Chr (z_of a) :: is, r)%list
        | None => None
        end).
      { assert (Y : exists c w, u ++ String "]" t = String c w /\ c <> "-"%char).
        { destruct u as [|c u]; [exists "]"%char, t; split; [reflexivity|discriminate]|].
          exists c, (u ++ String "]" t). split; [reflexivity|]. intros ->. exact (X u eq_refl). }
        destruct Y as (c & w & -> & NC). rewrite class_step by assumption. clear -NC.
        destruct c as [[] [] [] [] [] [] [] []]; try reflexivity; exfalso; auto. }
      rewrite Q, P. reflexivity.
Qed.

Lemma single_all u s : single u s -> forall t k, (String.length u < k)%nat -> parse_atom k (u ++ t) = Some (Single s, t).
Proof.
  destruct 1 as [|u is C NC NE|u is C NE|a i E|a N]; intros t k L; (destruct k as [|k]; [lia|]).
  - reflexivity.
  - replace (("[" ++ u ++ "]") ++ t) with (String "[" (u ++ String "]" t)) by (cbn; rewrite sapp_assoc; reflexivity).
    cbn [append String.length] in L. rewrite slength_app in L.
    pose proof (class_all u is C t k ltac:(lia)) as P.
    assert (IS : is <> []) by (intros ->; inversion C; congruence). destruct is as [|i is]; [congruence|].
    assert (Q : parse_atom (S k) (String "[" (u ++ String "]" t)) = match parse_class k (u ++ String "]" t) with
      | Some (i :: is, r)%list => Some (Single (Class false (i :: is)%list), r)
      | _ => None
      end).
    { destruct u as [|c u]; [congruence|]. cbn [append]. assert (c <> "^"%char) by (intros ->; exact (NC u eq_refl)).
      clear -H. destruct c as [[] [] [] [] [] [] [] []]; try reflexivity; exfalso; auto. }
    rewrite Q, P. reflexivity.
  - replace (("[^" ++ u ++ "]") ++ t) with (String "[" (String "^" (u ++ String "]" t))) by (cbn; rewrite sapp_assoc; reflexivity).
    cbn [append String.length] in L. rewrite slength_app in L.
    pose proof (class_all u is C t k ltac:(lia)) as P.
    assert (IS : is <> []) by (intros ->; inversion C; congruence). destruct is as [|i is]; [congruence|].
    cbn [parse_atom]. rewrite P. reflexivity.
  - apply escape_all in E. cbn [append]. assert (NB : a <> "b"%char) by (intros ->; discriminate).
    assert (Q : parse_atom (S k) (String "\" (String a t)) = match escape a with
      | Some i => Some (Single (Class false [i]), t) | None => None end)
      by (clear -NB; destruct a as [[] [] [] [] [] [] [] []]; try reflexivity; exfalso; auto).
    rewrite Q, E. reflexivity.
  - cbn [append]. clear -N. destruct a as [[] [] [] [] [] [] [] []]; try reflexivity; exfalso; apply N; cbn; tauto.
Qed.

(** Quantifiers have none of the characters that end a sequence. *)
Fixpoint no_end (u : string) : Prop :=
  match u with "" => True | String a r => a <> ")"%char /\ a <> "|"%char /\ no_end r end.
Lemma no_end_app u v : no_end (u ++ v) <-> no_end u /\ no_end v.
Proof. induction u; cbn; tauto. Qed.
Lemma no_end_digits u : all_digits u -> no_end u.
Proof.
  induction u as [|a u IH]; cbn; [auto|]. intros [D A]. repeat split; auto; intros ->; destruct D as [D1 D2]; first [apply D1; vm_compute; reflexivity|apply D2; vm_compute; reflexivity].
Qed.
Lemma quantifier_no_end q lo hi : quantifier q lo hi -> no_end q.
Proof.
  destruct 1 as [| | |u n DU|u n DU|u n v m DU DV]; try (cbn; repeat split; discriminate).
  - apply decimal_iff in DU as (_ & A & _). cbn. rewrite no_end_app. cbn. repeat split; try discriminate. apply no_end_digits, A.
  - apply decimal_iff in DU as (_ & A & _). cbn. rewrite no_end_app. cbn. repeat split; try discriminate. apply no_end_digits, A.
  - apply decimal_iff in DU as (_ & A & _). apply decimal_iff in DV as (_ & A' & _). cbn. rewrite no_end_app. cbn. rewrite no_end_app.
    cbn. repeat split; try discriminate; apply no_end_digits; assumption.
Qed.

Lemma prefix_of q : no_end q -> forall w v t, ends t -> v ++ t = q ++ w -> exists w', v = q ++ w'.
Proof.
  induction q as [|a q IH]; intros N w v t ET E; [exists v; reflexivity|]. destruct N as (N1 & N2 & N).
  destruct v as [|b v].
  - cbn in E. destruct ET as [-> |(x & [-> | ->])]; [discriminate| |]; injection E as E; congruence.
  - cbn in E. injection E as -> E. destruct (IH N w v t ET E) as (w' & ->). exists w'. reflexivity.
Qed.

Lemma none_read v t : ~ quantified v -> ends t -> parse_quantifier (v ++ t) = (None, v ++ t).
Proof.
  intros N E. destruct (parse_quantifier (v ++ t)) as [q r] eqn:P. pose proof (quantifier_ok _ _ _ P) as K.
  destruct q as [[lo hi]|]; [|rewrite K; reflexivity]. destruct K as (u & EQ & Q). exfalso. apply N.
  destruct (prefix_of u (quantifier_no_end _ _ _ Q) _ _ _ E EQ) as (w & ->). exists u, lo, hi, w. auto.
Qed.
Lemma unmodified v t : ~ modified v -> ends t -> more_quantifier (v ++ t) = false.
Proof.
  intros N E. destruct v as [|a v].
  - destruct E as [-> |(x & [-> | ->])]; reflexivity.
  - cbn [append]. assert (a <> "?"%char) by (intros ->; apply N; exists v; auto). assert (a <> "+"%char) by (intros ->; apply N; exists v; auto).
    clear -H H0. destruct a as [[] [] [] [] [] [] [] []]; try reflexivity; exfalso; auto.
Qed.

Scheme alternatives_mut := Minimality for alternatives Sort Prop
  with sequence_mut := Minimality for sequence Sort Prop.
Combined Scheme grammar_ind from alternatives_mut, sequence_mut.

(** One step of [parse_seq]. *)
Lemma seq_step k s a r t : parse_atom k s = Some (a, r) -> (forall w, s <> String ")" w /\ s <> String "|" w) -> s <> "" ->
  forall q r' x y, parse_quantifier r = (q, r') -> match q with Some _ => more_quantifier r' | None => false end = false ->
  quantify a q = Some x -> parse_seq k r' = Some (y, t) -> parse_seq (S k) s = Some (Seq x y, t).
Proof.
  intros A NS NE q r' x y Q M X Y. assert (E : parse_seq (S k) s = match parse_atom k s with
      | Some (a, r) =>
        let '(q, r) := parse_quantifier r in
        if match q with Some _ => more_quantifier r | None => false end then None
        else match quantify a q, parse_seq k r with
             | Some x, Some (y, r) => Some (Seq x y, r)
             | _, _ => None
             end
      | None => None
      end).
  { destruct s as [|c s]; [congruence|]. destruct (NS s) as [N1 N2]. clear -N1 N2.
    destruct c as [[] [] [] [] [] [] [] []]; try reflexivity; exfalso; auto. }
  rewrite E, A, Q, M, X, Y. reflexivity.
Qed.

Lemma single_head u s : single u s -> exists c w, u = String c w /\ c <> ")"%char /\ c <> "|"%char.
Proof.
  destruct 1 as [|u is C NC NE|u is C NE|a i E|a N]; try (eexists _, _; split; [reflexivity|split; discriminate]).
  exists a, "". split; [reflexivity|]. split; intros ->; apply N; cbn; tauto.
Qed.
Lemma single_starts u s t : single u s -> (forall w, u ++ t <> String ")" w /\ u ++ t <> String "|" w) /\ u ++ t <> "".
Proof. intros H. destruct (single_head _ _ H) as (c & w & -> & N1 & N2). cbn. split; [|discriminate]. split; intros E; injection E as E; congruence. Qed.

Lemma single_length u s : single u s -> (0 < String.length u)%nat.
Proof. destruct 1; cbn; lia. Qed.

Lemma seq_end k t : ends t -> parse_seq (S k) t = Some (Empty, t).
Proof. intros [-> |(w & [-> | ->])]; reflexivity. Qed.

Lemma group_read k u x t : (forall w, u <> String "?" w) -> parse_alt k (u ++ String ")" t) = Some (x, String ")" t) ->
  parse_atom (S k) (String "(" (u ++ String ")" t)) = Some (Group x, t).
Proof.
  intros NQ P. assert (E : parse_atom (S k) (String "(" (u ++ String ")" t)) =
    match parse_alt k (u ++ String ")" t) with Some (x, String ")" r) => Some (Group x, r) | _ => None end).
  { destruct u as [|c u]; [reflexivity|]. cbn [append]. assert (N : c <> "?"%char) by (intros ->; exact (NQ u eq_refl)).
    clear -N. destruct c as [[] [] [] [] [] [] [] []]; try reflexivity; exfalso; auto. }
  rewrite E, P. reflexivity.
Qed.

Lemma parse_all :
  (forall u r, alternatives u r -> forall t k, (t = "" \/ exists w, t = String ")" w) -> (3 * String.length u + 3 <= k)%nat ->
     parse_alt k (u ++ t) = Some (r, t)) /\
  (forall u r, sequence u r -> forall t k, ends t -> (3 * String.length u + 2 <= k)%nat ->
     parse_seq k (u ++ t) = Some (r, t)).
Proof.
  apply grammar_ind.
  - intros u r _ IH t k ET L. destruct k as [|k]; [lia|]. cbn [parse_alt]. rewrite IH; [|destruct ET as [-> |(w & ->)]; [left|right; exists w]; auto|lia].
    destruct ET as [-> |(w & ->)]; reflexivity.
  - intros u r v r' _ IH1 _ IH2 t k ET L. destruct k as [|k]; [lia|]. rewrite !slength_app in L. cbn [String.length] in L.
    cbn [parse_alt]. rewrite sapp_assoc. rewrite IH1; [|right; eexists; right; reflexivity|lia]. cbn [append].
    rewrite IH2; [reflexivity|exact ET|lia].
  - intros t k ET L. destruct k as [|k]; [lia|]. apply seq_end. exact ET.
  - intros u s v r H NQ _ IH t k ET L. destruct k as [|k]; [lia|]. rewrite slength_app in L. pose proof (single_length _ _ H).
    rewrite sapp_assoc. destruct (single_starts _ _ (v ++ t) H) as [S1 S2].
    eapply seq_step with (q := None); try exact S1; try exact S2; [apply single_all; [exact H|lia]|apply none_read; assumption|reflexivity|reflexivity|].
    apply IH; [exact ET|lia].
  - intros u s q lo hi v r H Q NM _ IH t k ET L. destruct k as [|k]; [lia|]. rewrite !slength_app in L. pose proof (single_length _ _ H).
    rewrite sapp_assoc. destruct (single_starts _ _ ((q ++ v) ++ t) H) as [S1 S2].
    eapply seq_step with (q := Some (lo, hi)); try exact S1; try exact S2;
      [apply single_all; [exact H|lia]|rewrite sapp_assoc; apply quantifier_all; exact Q|apply unmodified; assumption|reflexivity|].
    apply IH; [exact ET|lia].
  - intros u x v r NQM _ IH1 NQ _ IH2 t k ET L. destruct k as [|k]; [lia|].
    cbn [append String.length] in *. rewrite slength_app in L. cbn [String.length] in L.
    rewrite sapp_assoc. cbn [append]. destruct k as [|k]; [lia|].
    eapply seq_step with (q := None); [apply group_read; [exact NQM|apply IH1; [right; eexists; reflexivity|lia]]|split; discriminate|discriminate|apply none_read; assumption|reflexivity|reflexivity|].
    apply IH2; [exact ET|lia].
  - intros u x q v r NQM _ IH1 Q NM _ IH2 t k ET L. destruct k as [|k]; [lia|].
    cbn [append String.length] in *. rewrite slength_app in L. cbn [String.length] in L. rewrite slength_app in L.
    rewrite sapp_assoc. cbn [append]. destruct k as [|k]; [lia|].
    eapply seq_step with (q := Some (0%nat, Some 1%nat)); [apply group_read; [exact NQM|apply IH1; [right; eexists; reflexivity|lia]]|split; discriminate|discriminate|rewrite sapp_assoc; apply quantifier_all; exact Q|apply unmodified; assumption|reflexivity|].
    apply IH2; [exact ET|lia].
  - intros u x v r _ IH1 NQ _ IH2 t k ET L. destruct k as [|k]; [lia|].
    cbn [append String.length] in *. rewrite slength_app in L. cbn [String.length] in L.
    rewrite sapp_assoc. cbn [append]. destruct k as [|k]; [lia|].
    eapply seq_step with (q := None); [cbn [parse_atom]; rewrite IH1; [reflexivity|right; eexists; reflexivity|lia]|split; discriminate|discriminate|apply none_read; assumption|reflexivity|reflexivity|].
    apply IH2; [exact ET|lia].
  - intros v r NQ _ IH t k ET L. destruct k as [|k]; [lia|]. cbn [append String.length] in *. destruct k as [|k]; [lia|].
    eapply seq_step with (q := None); [reflexivity|intros w0; split; discriminate|discriminate|apply none_read; assumption|reflexivity|reflexivity|].
    apply IH; [exact ET|lia].
  - intros v r NQ _ IH t k ET L. destruct k as [|k]; [lia|]. cbn [append String.length] in *. destruct k as [|k]; [lia|].
    eapply seq_step with (q := None); [reflexivity|split; discriminate|discriminate|apply none_read; assumption|reflexivity|reflexivity|].
    apply IH; [exact ET|lia].
Qed.

Theorem compile_iff s r : compile s = Some r <-> alternatives s r.
Proof.
  split; [apply compile_ok|]. intros H. unfold compile. rewrite <- (sapp_nil s) at 2.
  rewrite (proj1 parse_all s r H); [reflexivity|left; reflexivity|lia].
Qed.
