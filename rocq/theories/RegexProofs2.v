(** The expressions of the detector. *)
From Coq Require Import ZArith String Ascii List Bool Lia.
From Verif Require Import Base DetectorModel DetectorSpec RegexModel RegexSpec RegexProofs.
Import ListNotations.
Open Scope string_scope.
Open Scope Z_scope.
Open Scope list_scope.

(** ** Expressions without assertions *)
Definition cat (A B : list Z -> Prop) (w : list Z) : Prop := exists u v, w = u ++ v /\ A u /\ B v.

Fixpoint lang (fl : flags) (r : re) (w : list Z) : Prop :=
  match r with
  | Empty => w = []
  | Char s => exists c, w = [c] /\ in_set fl s c
  | Rep s lo hi => Forall (in_set fl s) w /\ (lo <= length w)%nat /\ match hi with Some n => (length w <= n)%nat | None => True end
  | Bound | Bol | NotAhead _ => False
  | Seq a b => cat (lang fl a) (lang fl b) w
  | Or a b => lang fl a w \/ lang fl b w
  | Maybe a => w = [] \/ lang fl a w
  end.

Fixpoint plain (r : re) : bool :=
  match r with
  | Bound | Bol | NotAhead _ => false
  | Seq a b | Or a b => plain a && plain b
  | Maybe a => plain a
  | _ => true
  end.

Lemma plain_matches fl r : plain r = true -> forall pre w post, matches fl r pre w post <-> lang fl r w.
Proof.
  induction r; cbn [plain lang matches]; intros P pre w post; try discriminate; try tauto.
  - apply andb_true_iff in P as [P1 P2]. unfold cat. split; intros (u & v & E & A & B); exists u, v; (split; [exact E|]).
    + rewrite IHr1 in A by auto. rewrite IHr2 in B by auto. auto.
    + rewrite IHr1, IHr2 by auto. auto.
  - apply andb_true_iff in P as [P1 P2]. rewrite IHr1, IHr2 by auto. tauto.
  - rewrite IHr by auto. tauto.
Qed.

Lemma cat_ext (A A' B B' : list Z -> Prop) w : (forall u, A u <-> A' u) -> (forall u, B u <-> B' u) -> (cat A B w <-> cat A' B' w).
Proof. intros HA HB. split; intros (u & v & E & X & Y); exists u, v; (split; [exact E|split; [apply HA|apply HB]]; assumption). Qed.

(** Characters in a row. *)
Definition lits (cs : list Z) (r : re) : re := fold_right (fun c r => Seq (Char (Class false [Chr c])) r) r cs.

Lemma set_one fl x c : f_caseless fl = false -> (in_set fl (Class false [Chr x]) c <-> c = x).
Proof.
  intros C. cbn. unfold in_class. split.
  - intros (i & c' & [<-|[]] & I & [-> |[H _]]); [exact I|congruence].
  - intros ->. exists (Chr x), x. cbn. auto.
Qed.

Lemma lang_lits fl cs r : f_caseless fl = false -> forall w, lang fl (lits cs r) w <-> exists v, w = cs ++ v /\ lang fl r v.
Proof.
  intros C. induction cs as [|x cs IH]; intros w; cbn [lits fold_right].
  - split; [intros H; exists w; auto|intros (v & -> & H); exact H].
  - cbn [lang]. split.
    + intros (u & v & -> & (c & -> & I) & H). rewrite set_one in I by exact C. subst c. apply IH in H as (v' & -> & H).
      exists v'. auto.
    + intros (v & -> & H). exists [x], (cs ++ v). split; [reflexivity|]. split.
      * exists x. rewrite set_one by exact C. auto.
      * apply IH. eauto.
Qed.

(** Sets. *)
Lemma set_in fl is c : f_caseless fl = false -> (in_set fl (Class false is) c <-> exists i, In i is /\ in_item i c).
Proof.
  intros C. cbn. unfold in_class. split.
  - intros (i & c' & I & H & [-> |[K _]]); [eauto|congruence].
  - intros (i & I & H). exists i, c. auto.
Qed.

Lemma Forall_iff {A} (P Q : A -> Prop) l : (forall x, P x <-> Q x) -> (Forall P l <-> Forall Q l).
Proof. intros H. rewrite !Forall_forall. split; intros G x I; apply H; auto. Qed.

Lemma at_least1 {A} (l : list A) : (1 <= length l)%nat <-> l <> [].
Proof. destruct l; cbn; split; intros; try lia; try congruence. Qed.

Section Detector.
  Let ml := mkFlags false true false.

  Lemma set_space c : in_set ml (Class false [Space]) c <-> WhiteSpace c.
  Proof. rewrite set_in by reflexivity. split; [intros (i & [<-|[]] & H); exact H|intros H; exists Space; cbn; auto]. Qed.

  Lemma set_name c : in_set ml (Class false [Wordc; Chr 58; Chr 45]) c <-> NameChar c.
  Proof.
    rewrite set_in by reflexivity. unfold NameChar. split.
    - intros (i & [<-|[<-|[<-|[]]]] & H); cbn in H; auto.
    - intros [H|[H|H]]; [exists Wordc|exists (Chr 58)|exists (Chr 45)]; cbn; auto.
  Qed.

  Lemma set_host c : in_set ml (Class false [Wordc; Chr 58; Chr 46; Chr 45]) c <-> NameChar c \/ c = 46.
  Proof.
    rewrite set_in by reflexivity. unfold NameChar. split.
    - intros (i & [<-|[<-|[<-|[<-|[]]]]] & H); cbn in H; auto.
    - intros [[H|[H|H]]|H]; [exists Wordc|exists (Chr 58)|exists (Chr 45)|exists (Chr 46)]; cbn; auto 8.
  Qed.

  Lemma set_chars cs c : in_set ml (Class false (map Chr cs)) c <-> In c cs.
  Proof.
    rewrite set_in by reflexivity. split.
    - intros (i & I & H). apply in_map_iff in I as (x & <- & I). cbn in H. subst x. exact I.
    - intros I. exists (Chr c). split; [apply in_map; exact I|reflexivity].
  Qed.

  Definition ws := Rep (Class false [Space]) 0 None.
  Definition ws1 := Rep (Class false [Space]) 1 None.
  Definition name1 := Rep (Class false [Wordc; Chr 58; Chr 45]) 1 None.
  Definition host1 := Rep (Class false [Wordc; Chr 58; Chr 46; Chr 45]) 1 None.
  Definition maybe cs := Rep (Class false (map Chr cs)) 0 (Some 1%nat).
  Definition one cs := Char (Class false (map Chr cs)).

  Lemma lang_ws w : lang ml ws w <-> white w.
  Proof. cbn [lang ws]. rewrite (Forall_iff _ _ _ set_space). unfold white. split; [tauto|]. intros; repeat split; auto; lia. Qed.
  Lemma lang_ws1 w : lang ml ws1 w <-> white1 w.
  Proof. cbn [lang ws1]. rewrite (Forall_iff _ _ _ set_space), at_least1. unfold white1, white. tauto. Qed.
  Lemma lang_name w : lang ml name1 w <-> name w.
  Proof. cbn [lang name1]. rewrite (Forall_iff _ _ _ set_name), at_least1. unfold name. tauto. Qed.
  Lemma lang_host w : lang ml host1 w <-> host w.
  Proof. cbn [lang host1]. rewrite (Forall_iff _ _ _ set_host), at_least1. unfold host. tauto. Qed.
  Lemma lang_maybe cs w : lang ml (maybe cs) w <-> quote cs w.
  Proof.
    cbn [lang maybe]. rewrite (Forall_iff _ _ _ (set_chars cs)). unfold quote. split.
    - intros (F & _ & L). destruct w as [|c [|d w]]; cbn in L; [auto| |lia]. right. exists c. apply Forall_inv in F. auto.
    - intros [-> |(c & -> & I)]; cbn; repeat split; auto; lia.
  Qed.
  Lemma lang_one cs w : lang ml (one cs) w <-> exists c, w = [c] /\ In c cs.
  Proof. cbn [lang one]. split; intros (c & E & I); exists c; rewrite set_chars in *; auto. Qed.

  Lemma lang_seq a b w : lang ml (Seq a b) w <-> exists u v, w = u ++ v /\ lang ml a u /\ lang ml b v.
  Proof. reflexivity. Qed.

  Lemma lang_opt a w : lang ml (Maybe a) w <-> w = [] \/ lang ml a w.
  Proof. reflexivity. Qed.

  Ltac open := repeat match goal with
    | H : lang ml (lits _ _) _ |- _ => apply (proj1 (lang_lits ml _ _ eq_refl _)) in H as (? & -> & H)
    | H : lang ml (Seq _ _) _ |- _ => apply lang_seq in H as (? & ? & -> & ? & ?)
    | H : lang ml Empty _ |- _ => cbn [lang] in H; subst
    | H : lang ml ws _ |- _ => apply lang_ws in H
    | H : lang ml ws1 _ |- _ => apply lang_ws1 in H
    | H : lang ml name1 _ |- _ => apply lang_name in H
    | H : lang ml host1 _ |- _ => apply lang_host in H
    | H : lang ml (maybe _) _ |- _ => apply lang_maybe in H
    | H : lang ml (one _) _ |- _ => apply lang_one in H as (? & -> & ?)
    end.

  Ltac close := repeat first
    [ apply (proj2 (lang_lits ml _ _ eq_refl _)); eexists; split; [reflexivity|]
    | apply lang_seq; eexists; eexists; split; [reflexivity|]; split
    | apply lang_ws1; eassumption
    | apply lang_ws; eassumption | apply lang_name; eassumption | apply lang_host; eassumption
    | apply lang_maybe; eassumption | apply lang_one; eexists; split; [reflexivity|eassumption] ].

  Definition ast1 := Seq (Or (lits (bytes "ensure") Empty) (Or (lits (bytes "content") Empty) (Or (lits (bytes "notify") Empty)
      (Or (lits (bytes "require") Empty) (lits (bytes "source") Empty))))) (Seq ws1 (lits (bytes "=>") Empty)).

  Lemma lang_ast1 w : lang ml ast1 w <-> attribute w.
  Proof.
    unfold ast1. split.
    - intros H. apply lang_seq in H as (k & r & -> & K & R). open. rewrite app_nil_r in *.
      assert (exists s, k = bytes s /\ In s ["ensure"; "content"; "notify"; "require"; "source"]) as (s & -> & I).
      { destruct K as [K|[K|[K|[K|K]]]]; open; rewrite app_nil_r; eexists; (split; [reflexivity|cbn; tauto]). }
      constructor; auto.
    - intros [k v I W]. apply lang_seq. exists (bytes k), (v ++ bytes "=>"). split; [reflexivity|]. split.
      + assert (L : lang ml (lits (bytes k) Empty) (bytes k)).
        { apply lang_lits; [reflexivity|]. exists []. rewrite app_nil_r. split; reflexivity. }
        cbn [lang]. destruct I as [<-|[<-|[<-|[<-|[<-|[]]]]]]; tauto.
      + rewrite <- (app_nil_r (bytes "=>")). close. reflexivity.
  Qed.

  Definition inherits := Maybe (Seq ws1 (lits (bytes "inherits") (Seq ws1 (Seq name1 Empty)))).
  Definition ast2 := Seq
    (Or (lits (bytes "define") (Seq ws1 (Seq name1 (Seq ws (lits (bytes "(") Empty)))))
    (Or (lits (bytes "class") (Seq ws1 (Seq name1 (Seq inherits (Seq ws (Seq (one [40; 123]) Empty))))))
    (Or (lits (bytes "node") (Seq ws1 (Seq (maybe [39]) (Seq host1 (Seq (maybe [39]) (Seq ws (lits (bytes "{") Empty)))))))
    (Or (lits (bytes "import") (Seq ws1 (lits [34] Empty)))
        (lits (bytes "include") (Seq ws1 (Seq (maybe [34; 39]) (Seq (Char (Class false [Wordc; Chr 58; Chr 45]))
           (Seq (maybe [34; 39]) Empty)))))))))
    Empty.

  (** With what an include may have after its name. *)
  Lemma lang_ast2 w : lang ml ast2 w <-> exists x q, w = x ++ q /\ construct x /\ quote [34; 39] q /\ (q = [] \/ exists v, x = bytes "include" ++ v).
  Proof.
    unfold ast2. split.
    - intros H. apply lang_seq in H as (k & r & -> & K & R). open. rewrite app_nil_r.
      assert (Q0 : quote [34; 39] []) by (left; reflexivity).
      destruct K as [K|[K|[K|[K|K]]]]; open; rewrite ?app_nil_r.
      + eexists; exists []. split; [symmetry; apply app_nil_r|]. split; [|split; auto]. constructor; auto.
      + eexists; exists []. split; [symmetry; apply app_nil_r|]. split; [|split; auto].
        match goal with H : lang ml inherits _ |- _ => apply lang_opt in H as [-> |H] end.
        * cbn [app]. constructor; auto.
        * open.
          rewrite app_nil_r. rewrite <- !app_assoc. constructor; auto.
      + eexists; exists []. split; [symmetry; apply app_nil_r|]. split; [|split; auto]. constructor; auto.
      + eexists; exists []. split; [symmetry; apply app_nil_r|]. split; [|split; auto]. constructor; auto.
      + match goal with H : lang ml (Char _) _ |- _ => cbn [lang] in H; destruct H as (c & -> & C) end.
        apply set_name in C.
        match goal with |- exists x q, ?a ++ ?b ++ ?d ++ ?e ++ ?f = _ /\ _ => exists (a ++ b ++ d ++ e), f end.
        rewrite <- !app_assoc. split; [reflexivity|]. split; [|split; eauto]. constructor; auto.
    - intros (x & q & -> & C & Q & I). apply lang_seq. exists (x ++ q), []. split; [symmetry; apply app_nil_r|].
      split; [|reflexivity].
      destruct C as [w0 y w' W N W'|w0 y w' b W N W' B|w0 y w1 w2 z w' b W N W1 W2 N2 W' B|w0 q0 y q' w' W Q0 N Q1 W'|w0 W|w0 q0 c W Q0 N].
      all: try (destruct I as [-> |(v & I)]; [|discriminate I]; rewrite app_nil_r).
      + left. rewrite <- (app_nil_r (bytes "(")). close. reflexivity.
      + right. left. rewrite <- (app_nil_r [b]). rewrite <- (app_nil_l (w' ++ [b] ++ [])). close; [left; reflexivity|].
        reflexivity.
      + right. left. rewrite <- (app_nil_r [b]).
        replace (w1 ++ bytes "inherits" ++ w2 ++ z ++ w' ++ [b] ++ []) with ((w1 ++ bytes "inherits" ++ w2 ++ z ++ []) ++ w' ++ [b] ++ [])
          by (rewrite app_nil_r, <- !app_assoc; reflexivity).
        close; [right; change (lang ml (Seq ws1 (lits (bytes "inherits") (Seq ws1 (Seq name1 Empty)))) (w1 ++ bytes "inherits" ++ w2 ++ z ++ [])); close; reflexivity|].
        reflexivity.
      + right. right. left. rewrite <- (app_nil_r (bytes "{")). close. reflexivity.
      + right. right. right. left. rewrite <- (app_nil_r [34]). close. reflexivity.
      + right. right. right. right. rewrite <- (app_nil_r q). rewrite <- !app_assoc. close; [|reflexivity].
        exists c. split; [reflexivity|]. apply set_name. exact N.
  Qed.

  Lemma compile1 : compile re_puppet1 = Some (Seq Bol (Seq ws ast1)).
  Proof. vm_compute. reflexivity. Qed.
  Lemma compile2 : compile re_puppet2 = Some (Seq Bol (Seq ws ast2)).
  Proof. vm_compute. reflexivity. Qed.

  Lemma bol_iff s r t : compile s = Some (Seq Bol (Seq ws r)) -> plain r = true -> (forall w, lang ml r w -> w <> []) ->
    (exec ml s t <> None <-> starts_a_line (lang ml r) t).
  Proof.
    intros C P N. split.
    - intros H. destruct (exec ml s t) as [[a e]|] eqn:E; [|congruence]. apply exec_some in E as (r' & u & w & v & C' & -> & M & _).
      rewrite C in C'. injection C' as <-. cbn [matches] in M. destruct M as (w0 & w1 & -> & [-> B] & w2 & w3 & -> & W & R).
      change (matches ml ws (u ++ []) w2 (w3 ++ v)) in W. rewrite plain_matches in W by reflexivity. rewrite plain_matches in R by exact P.
      exists u, w2, w3, v. rewrite <- !app_assoc. cbn [app]. split; [reflexivity|]. split; [|split; [apply lang_ws; exact W|exact R]].
      destruct B as [-> |(_ & _ & B)]; [left; reflexivity|right; exact B].
    - intros (a & w & x & b & -> & L & W & R) E.
      apply (exec_none ml s _ _ a (w ++ x) b E C); [rewrite <- app_assoc; reflexivity|].
      cbn [matches]. exists [], (w ++ x). split; [reflexivity|]. split.
      + split; [reflexivity|]. destruct L as [-> |L]; [left; reflexivity|right]. split; [reflexivity|]. split; [|exact L].
        specialize (N _ R). destruct w, x; try discriminate; congruence.
      + exists w, x. split; [reflexivity|]. rewrite app_nil_r. split.
        * change (matches ml ws a w (x ++ b)). apply plain_matches; [reflexivity|]. apply lang_ws. exact W.
        * apply plain_matches; assumption.
  Qed.

  Lemma puppet1_iff t : exec ml re_puppet1 t <> None <-> starts_a_line attribute t.
  Proof.
    rewrite (bol_iff _ _ _ compile1 eq_refl).
    - split; intros (a & w & x & b & E & L & W & R); exists a, w, x, b; (split; [exact E|split; [exact L|split; [exact W|apply lang_ast1; exact R]]]).
    - intros w H. apply lang_ast1 in H as [k v I _]. destruct I as [<-|[<-|[<-|[<-|[<-|[]]]]]]; discriminate.
  Qed.

  Lemma puppet2_iff t : exec ml re_puppet2 t <> None <-> starts_a_line construct t.
  Proof.
    rewrite (bol_iff _ _ _ compile2 eq_refl).
    - split; intros (a & w & x & b & E & L & W & R).
      + apply lang_ast2 in R as (x' & q & -> & C & _). exists a, w, x', (q ++ b). rewrite <- app_assoc in E. auto.
      + exists a, w, x, b. split; [exact E|split; [exact L|split; [exact W|apply lang_ast2]]].
        exists x, []. rewrite app_nil_r. split; [reflexivity|]. split; [exact R|]. split; left; reflexivity.
    - intros w H. apply lang_ast2 in H as (x & q & -> & C & _). destruct C; discriminate.
  Qed.
End Detector.

(** ** Perl *)
Lemma lower_same c x : Lower x -> (same_letter c x <-> lower c = x).
Proof.
  unfold same_letter, Upper, Lower, lower. intros L. destruct ((65 <=? c) && (c <=? 90)) eqn:E.
  - apply andb_true_iff in E. rewrite !Z.leb_le in E. lia.
  - apply andb_false_iff in E. rewrite !Z.leb_gt in E. lia.
Qed.

Lemma set_caseless x c : in_set (mkFlags true false false) (Class false [Chr x]) c <-> same_letter c x.
Proof.
  cbn. unfold in_class. split.
  - intros (i & c' & [<-|[]] & I & [-> |[_ H]]); cbn in I; subst; auto using same_refl.
  - intros H. exists (Chr x), x. cbn. auto.
Qed.

Lemma perl_iff t : exec_anchored (mkFlags true false false) re_perl t = true <-> perl_script t.
Proof.
  set (fl := mkFlags true false false).
  assert (C : compile re_perl = Some (lits (bytes "#!") (Seq (Rep (Class true [Chr 10]) 0 None) (lits (bytes "perl") Empty))))
    by (vm_compute; reflexivity).
  assert (LL : forall cs r w, lang fl (lits cs r) w <-> exists p v, w = p ++ v /\ Forall2 same_letter p cs /\ lang fl r v).
  { induction cs as [|x cs IH]; intros r w; cbn [lits fold_right].
    - split; [intros H; exists [], w; auto|]. intros (p & v & -> & F & H). inversion F. subst. exact H.
    - cbn [lang]. split.
      + intros (u & v & -> & (c & -> & I) & H). apply set_caseless in I. apply IH in H as (p & v' & -> & F & H).
        exists (c :: p), v'. auto.
      + intros (p & v & -> & F & H). inversion F as [|c ? p' ? E F']; subst. exists [c], (p' ++ v). split; [reflexivity|]. split.
        * exists c. split; [reflexivity|]. apply set_caseless. exact E.
        * apply IH. eauto. }
  assert (M : exec_anchored fl re_perl t = true <-> exists w v, t = w ++ v /\
    lang fl (lits (bytes "#!") (Seq (Rep (Class true [Chr 10]) 0 None) (lits (bytes "perl") Empty))) w).
  { unfold exec_anchored. rewrite C. destruct (match_here _ _ _ _) eqn:E.
    - split; [intros _|reflexivity]. apply match_here_some in E as (w & v & -> & H & _). exists w, v. split; [reflexivity|].
      apply plain_matches in H; [exact H|reflexivity].
    - split; [discriminate|]. intros (w & v & T & H). exfalso. eapply match_here_none in E; [|exact T].
      apply E. apply plain_matches; [reflexivity|exact H]. }
  rewrite M. split.
  - intros (w & v & -> & H). apply LL in H as (p & v1 & -> & F & a & r & -> & (FA & _) & H).
    apply LL in H as (q & v2 & -> & FQ & ->). exists a, q, v.
    assert (p = bytes "#!").
    { inversion F as [|x ? ? ? EX F1]; subst. inversion F1 as [|y ? ? ? EY F2]; subst. inversion F2; subst.
      unfold same_letter, Upper, Lower in *. cbn in *. f_equal; [lia|]. f_equal. lia. }
    subst p. rewrite app_nil_r, <- !app_assoc. split; [reflexivity|]. split.
    + intros I. rewrite Forall_forall in FA. apply (FA _ I). exists (Chr 10), 10. cbn. auto.
    + assert (G : forall q cs, Forall2 same_letter q cs -> Forall Lower cs -> map lower q = cs).
      { induction 1 as [|c x q' cs' E F' IH]; intros L; [reflexivity|]. apply Forall_cons_iff in L as [LX L].
        cbn. rewrite IH by exact L. f_equal. apply lower_same; auto. }
      apply G; [exact FQ|]. repeat constructor; unfold Lower; cbn; lia.
  - intros (a & p & b & -> & N & L). exists (bytes "#!" ++ a ++ p), b. rewrite <- !app_assoc. split; [reflexivity|].
    apply LL. exists (bytes "#!"), (a ++ p). split; [reflexivity|]. split; [repeat constructor; left; reflexivity|].
    exists a, p. split; [reflexivity|]. split.
    + cbn [lang]. repeat split; [|lia]. apply Forall_forall. intros c I (i & c' & [<-|[]] & H & K). cbn in H. subst c'.
      destruct K as [K|[_ K]]; [subst; contradiction|]. unfold same_letter, Upper, Lower in K. assert (c = 10) by lia. subst. contradiction.
    + apply LL. exists p, []. rewrite app_nil_r. split; [reflexivity|]. split; [|reflexivity].
      assert (G : forall q cs, map lower q = cs -> Forall Lower cs -> Forall2 same_letter q cs).
      { induction q as [|c q IH]; intros cs <- F; constructor.
        - cbn in F. apply Forall_cons_iff in F as [F _]. apply lower_same; auto.
        - apply IH; [reflexivity|]. cbn in F. apply Forall_cons_iff in F as [_ F]. exact F. }
      apply G; [exact L|]. repeat constructor; unfold Lower; cbn; lia.
Qed.
