(** C78 to C87: what the inference of platforms and tools (ruby/gestalt) finds. *)
From Coq Require Import String Ascii List ZArith Bool Arith Lia Permutation.
From Verif Require Import Tables GestaltRules GestaltTable GestaltModel GestaltSpec.
From Verif Require Import GestaltProofs GestaltStore GestaltProofs2 GestaltProofs3.
Import ListNotations.
Open Scope string_scope.
Open Scope list_scope.
Open Scope Z_scope.

(** * A stand-in for Ruby, for the examples *)

(** Expressions match the listed texts only; [scans] lists the groups that scan returns. *)
Definition toy (texts : list (re * string)) (scans : list (re * string * list string))
  (xml : list (string * list xml_event)) : ruby :=
  let same (x y : re) := String.eqb (re_source x) (re_source y) in
  mkRuby
    (fun x s => if existsb (fun p => same (fst p) x && String.eqb (snd p) s) texts
                then Some [Some s; None] else None)
    (fun x s => match find (fun p => same (fst (fst p)) x && String.eqb (snd (fst p)) s) scans with
                | Some p => map (fun g => [Some g]) (snd p)
                | None => []
                end)
    (fun s => match find (fun p => String.eqb (fst p) s) xml with Some p => snd p | None => [] end).

Definition file (name : string) (bs : list breakdown) : source_file :=
  mkSource name name (match bs with b :: _ => Some (b_name b) | [] => None end) bs.
(** A file in one language, [n] lines of code. *)
Definition in_language (l code : string) (n : Z) : source_file := file ("a." ++ l) [mkBreakdown l code n].

Definition ejb31_re := keyword_re ["@Schedule"; "@Singleton"; "@Asynchronous"].
Definition ejb_re :=
  keyword_re ["@EJB"; "@Stateless"; "@Statefull"; "@Entity"; "@Remote"; "@Local"; "@BusinessMethod"].
Definition openesb_re := mkRe "^org\.openesb\b" false.

Definition example_ruby : ruby :=
  toy [(openesb_re, "org.openesb.x"); (pom_re, "pom.xml")]
      [(ejb31_re, "timer", ["@Schedule"]); (ejb_re, "bean", ["@EJB"]);
       (import_re, "esb", ["org.openesb.x"]); (keyword_re ["RAILS_ROOT"], "app", ["RAILS_ROOT"])]
      [("bad pom", [XStart "project" []; XStart "groupId" []; XEnd "groupId"])].

Definition names (r : option (outcome (list gestalt))) : list string :=
  match r with Some (Ok gs) => map g_name gs | _ => [] end.

(** * C78: the gestalts are what the definitions say *)

(** For every table in which an alternative is never the search for a filename, and in which
    nothing is negated before it is settled; after any other use of the library. *)
Theorem C78_exact : forall R T acts fs gs,
  plain_table T -> safe T = true -> sane fs ->
  gestalts_after R T acts fs = Some (Ok gs) ->
  exact R T fs (present gs).
Proof.
  intros R T acts fs gs Hp Hs Hsane Hg.
  destruct (analyze_listing R T _ _ fs gs (after_loaded R T acts) Hp Hs Hsane Hg) as (p & H1 & H2).
  eapply listing_exact; eauto.
Qed.
Print Assumptions C78_exact.

Lemma shipped_plain : plain_table all_definitions.
Proof.
  assert (forallb (fun d => plain (d_rule d)) all_definitions = true) as H by (vm_compute; reflexivity).
  intros d Hd. now apply (proj1 (forallb_forall _ _) H).
Qed.
Lemma shipped_safe : safe all_definitions = true.
Proof. vm_compute. reflexivity. Qed.

(** The depth of what a gestalt asks for. *)
Fixpoint depth (fuel : nat) (k : key) : nat :=
  match fuel with
  | O => O
  | S f => S (fold_right (fun d m => if key_eqb (key_of d) k
                                     then fold_right (fun k' m' => Nat.max (depth f k') m') m (refs (d_rule d))
                                     else m) O all_definitions)
  end.
Lemma shipped_acyclic : acyclic all_definitions.
Proof.
  exists (depth 6).
  assert (forallb (fun d => forallb (fun k => (depth 6 k <? depth 6 (key_of d))%nat) (refs (d_rule d)))
                  all_definitions = true) as H by (vm_compute; reflexivity).
  intros d k Hd Hk. apply Nat.ltb_lt.
  exact (proj1 (forallb_forall _ _) (proj1 (forallb_forall _ _) H d Hd) k Hk).
Qed.

(** The shipped table is such a table, and what it says determines the gestalts. *)
Theorem C78_shipped : forall R acts fs gs, sane fs ->
  gestalts_after R all_definitions acts fs = Some (Ok gs) ->
  exact R all_definitions fs (present gs) /\
  forall G, exact R all_definitions fs G -> forall t n, G t n <-> present gs t n.
Proof.
  intros R acts fs gs Hs Hg.
  pose proof (C78_exact R _ acts fs gs shipped_plain shipped_safe Hs Hg) as He.
  split; [exact He |]. intros G HG. exact (exact_unique R _ fs G (present gs) shipped_acyclic HG He).
Qed.
Print Assumptions C78_shipped.

(** The order of the table matters: with the definition of ejb3.1 at its end, it also reports what a
    negation should have excluded. *)
Definition is_ejb31 (d : definition file_rule) : bool := key_eqb (key_of d) ("platform", "ejb3.1").
Definition ejb31_last := filter (fun d => negb (is_ejb31 d)) all_definitions ++ filter is_ejb31 all_definitions.
Lemma ejb31_last_permutation : Permutation all_definitions ejb31_last.
Proof.
  unfold ejb31_last. generalize all_definitions. intros T. induction T as [| d T IH]; [constructor |].
  cbn [filter]. destruct (is_ejb31 d); cbn [negb].
  - rewrite IH at 1. apply Permutation_middle.
  - cbn [app]. now constructor.
Qed.
Theorem C78_order_refuted : exists T R fs gs, Permutation all_definitions T /\ sane fs /\
  gestalts_after R T [] fs = Some (Ok gs) /\ ~ exact R T fs (present gs).
Proof.
  exists ejb31_last, (toy [] [(ejb31_re, "timer", ["@Schedule"]); (ejb_re, "timer", ["@EJB"])] []),
    [in_language "java" "timer" 10].
  eexists. split; [exact ejb31_last_permutation |].
  split; [intros f b [<- | []] [<- | []]; cbn; lia |].
  split; [vm_compute; reflexivity |]. intros He.
  destruct (proj1 (He "platform" "ejb3.0")) as (d & Hd & E1 & E2 & Hj).
  - exists (mkGestalt "platform" "ejb3.0" 1). split; [cbn; tauto | split; reflexivity].
  - assert (In d (filter (fun d => key_eqb (key_of d) ("platform", "ejb3.0")) ejb31_last)) as Hin.
    { apply filter_In. split; [exact Hd |]. unfold key_eqb, key_of. cbn [fst snd]. rewrite E1, E2. reflexivity. }
    assert (filter (fun d => key_eqb (key_of d) ("platform", "ejb3.0")) ejb31_last
            = [mkDef "platform" "ejb3.0" (Or [And [Gest "platform" "ejb3+"; Not [Gest "platform" "ejb3.1"]]])]) as H
      by (vm_compute; reflexivity).
    rewrite H in Hin. destruct Hin as [<- | []]. clear - Hj. cbn in Hj.
    repeat (match goal with
      | H : _ /\ _ |- _ => destruct H | H : _ \/ _ |- _ => destruct H | H : False |- _ => destruct H end).
    match goal with H : ~ _ |- _ => apply H end.
    exists (mkGestalt "platform" "ejb3.1" 1). split; [cbn; tauto | split; reflexivity].
Qed.
Print Assumptions C78_order_refuted.

Example C78_example :
  names (gestalts_after example_ruby all_definitions [] [in_language "java" "timer" 10])
  = ["java"; "ejb3.1"; "ejb3+"] /\
  names (gestalts_after example_ruby all_definitions [] [in_language "java" "bean" 10])
  = ["java"; "ejb3+"; "ejb3.0"] /\
  names (gestalts_after example_ruby all_definitions []
           [in_language "ruby" "app" 20; in_language "java" "bean" 100])
  = ["ruby"; "rails"; "java"; "scripting"; "ejb3+"; "ejb3.0"].
Proof. vm_compute. auto. Qed.

(** * C79: every analysis ends *)

(** It returns gestalts if every rule can read every file, and raises NoMethodError if not. *)
Theorem C79_ends : forall R T acts fs,
  (readable R T fs /\ exists gs, gestalts_after R T acts fs = Some (Ok gs)) \/
  (~ readable R T fs /\ gestalts_after R T acts fs = Some (Raised NoMethodError)).
Proof.
  intros R T acts fs.
  destruct (analyze_ends R T _ _ fs (after_loaded R T acts)) as [(H1 & gs & ds & H2 & _) | H]; [left | right; exact H].
  eauto.
Qed.
Print Assumptions C79_ends.

(** However an engine is used, calc_gestalts needs at most two passes more than it has definitions
    left. *)
Theorem C79_passes : forall e s, calc_gestalts e s <> None.
Proof.
  intros e s. unfold calc_gestalts.
  pose proof (passes_impure_end (object_triggers s) (e_counts e) (S (S (length (e_definitions e)))) 0
                (e_definitions e) (e_memo e) (e_gestalts e)) as H.
  destruct (passes _ _ _ _ _ _ _) as [[[[ds m] gs] |] |]; try discriminate.
  exfalso. apply H; [| reflexivity]. destruct (_ =? _)%nat; lia.
Qed.
Print Assumptions C79_passes.

(** Base.find_gestalts never works, whatever it is given; nor does process of a list. *)
Theorem C79_find_gestalts_raises : forall R T acts fs,
  fst (find_gestalts R (fst (load T)) fs (after R T acts)) = Raised NoMethodError.
Proof.
  intros R T acts fs. destruct (find_spec R T _ _ fs (after_loaded R T acts)) as (s' & -> & _). reflexivity.
Qed.
Print Assumptions C79_find_gestalts_raises.

Example C79_example :
  gestalts_after example_ruby all_definitions [] [file "pom.xml" [mkBreakdown "xml" "bad pom" 1]]
  = Some (Raised NoMethodError) /\
  gestalts_after example_ruby all_definitions [] [file "p.xml" [mkBreakdown "xml" "bad pom" 1]] = Some (Ok []).
Proof. vm_compute. auto. Qed.

(** * C80: without negation, nothing but what must be there, in any order *)

Theorem C80_least : forall R T acts fs gs,
  plain_table T -> (forall d, In d T -> positive true (d_rule d) = true) -> sane fs ->
  gestalts_after R T acts fs = Some (Ok gs) ->
  closed R T fs (present gs) /\
  forall G, closed R T fs G -> forall t n, present gs t n -> G t n.
Proof.
  intros R T acts fs gs Hp Hpos Hs Hg. split.
  - pose proof (C78_exact R T acts fs gs Hp (positive_safe T Hpos) Hs Hg) as He.
    intros d Hd Hj. apply He. exists d. auto.
  - intros G HG. eapply analyze_least; eauto using after_loaded.
Qed.
Print Assumptions C80_least.

Theorem C80_order : forall R T T' acts acts' fs gs gs',
  Permutation T T' -> plain_table T -> (forall d, In d T -> positive true (d_rule d) = true) -> sane fs ->
  gestalts_after R T acts fs = Some (Ok gs) -> gestalts_after R T' acts' fs = Some (Ok gs') ->
  forall t n, present gs t n <-> present gs' t n.
Proof.
  intros R T T' acts acts' fs gs gs' HP Hp Hpos Hs Hg Hg'.
  assert (plain_table T') as Hp' by (intros d Hd; apply Hp; apply (Permutation_in _ (Permutation_sym HP)); exact Hd).
  assert (forall d, In d T' -> positive true (d_rule d) = true) as Hpos'
    by (intros d Hd; apply Hpos; apply (Permutation_in _ (Permutation_sym HP)); exact Hd).
  destruct (C80_least R T acts fs gs Hp Hpos Hs Hg) as [C1 L1].
  destruct (C80_least R T' acts' fs gs' Hp' Hpos' Hs Hg') as [C2 L2].
  intros t n. split.
  - apply L1. intros d Hd. apply C2. now apply (Permutation_in _ HP).
  - apply L2. intros d Hd. apply C1. now apply (Permutation_in _ (Permutation_sym HP)).
Qed.
Print Assumptions C80_order.

(** The only negation of the shipped table is the one of ejb3.0. *)
Definition without_ejb30 := filter (fun d => negb (key_eqb (key_of d) ("platform", "ejb3.0"))) all_definitions.
Example C80_example :
  length without_ejb30 = 96%nat /\
  forallb (fun d => plain (d_rule d) && positive true (d_rule d)) without_ejb30 = true /\
  names (gestalts_after example_ruby without_ejb30 [] [in_language "java" "timer" 10])
  = ["java"; "ejb3.1"; "ejb3+"] /\
  names (gestalts_after example_ruby (rev without_ejb30) [] [in_language "java" "timer" 10])
  = ["java"; "ejb3.1"; "ejb3+"].
Proof. vm_compute. auto. Qed.

(** * C81: how often a gestalt is listed *)

(** Once for every definition that holds, each time with count 1. *)
Theorem C81_listing : forall R T acts fs gs,
  plain_table T -> safe T = true -> sane fs ->
  gestalts_after R T acts fs = Some (Ok gs) ->
  exists p, (forall d, In d T -> (p d = true <-> justified R fs (present gs) d)) /\
            Permutation gs (map (fun d => mkGestalt (d_type d) (d_name d) 1) (filter p T)).
Proof. intros R T acts fs gs Hp Hs Hsane Hg. eapply analyze_listing; eauto using after_loaded. Qed.
Print Assumptions C81_listing.

Lemma listed_at_most : forall (k : key) (p : definition file_rule -> bool) T,
  (length (filter (fun g => key_eqb (g_type g, g_name g) k)
            (map (fun d => mkGestalt (d_type d) (d_name d) 1) (filter p T)))
   <= length (filter (fun d => key_eqb (key_of d) k) T))%nat.
Proof.
  intros k p T. induction T as [| d T IH]; [cbn; lia |]. cbn [filter].
  destruct (p d); cbn [map filter g_type g_name]; unfold key_of in *;
    destruct (key_eqb (d_type d, d_name d) k); cbn [length]; lia.
Qed.

(** With the shipped table nothing but openesb is listed twice. *)
Theorem C81_once : forall R acts fs gs t n, sane fs ->
  gestalts_after R all_definitions acts fs = Some (Ok gs) -> (t, n) <> ("platform", "openesb") ->
  (length (filter (fun g => key_eqb (g_type g, g_name g) (t, n)) gs) <= 1)%nat.
Proof.
  intros R acts fs gs t n Hs Hg Hne.
  destruct (C81_listing R _ acts fs gs shipped_plain shipped_safe Hs Hg) as (p & _ & HP).
  assert (length (filter (fun g => key_eqb (g_type g, g_name g) (t, n)) gs) =
          length (filter (fun g => key_eqb (g_type g, g_name g) (t, n))
                    (map (fun d => mkGestalt (d_type d) (d_name d) 1) (filter p all_definitions)))) as ->.
  { apply Permutation_length. clear - HP. induction HP; cbn; try constructor.
    - destruct (key_eqb _ _); auto.
    - destruct (key_eqb _ _), (key_eqb _ _); auto using perm_swap.
    - etransitivity; eauto. }
  etransitivity; [apply listed_at_most |].
  destruct (filter (fun d => key_eqb (key_of d) (t, n)) all_definitions) as [| d l] eqn:E; [cbn; lia |].
  assert (In d (filter (fun d => key_eqb (key_of d) (t, n)) all_definitions)) as Hd by (rewrite E; now left).
  apply filter_In in Hd as [Hd Hk]. unfold key_eqb in Hk. apply andb_true_iff in Hk as [K1 K2].
  apply String.eqb_eq in K1, K2. cbn [fst snd] in *.
  assert (forallb (fun d => key_eqb (key_of d) ("platform", "openesb") ||
            (length (filter (fun e => key_eqb (key_of e) (key_of d)) all_definitions) <=? 1)%nat) all_definitions
          = true) as H by (vm_compute; reflexivity).
  apply (proj1 (forallb_forall _ _)) with (x := d) in H; [| exact Hd].
  apply orb_true_iff in H as [H | H].
  - exfalso. apply Hne. unfold key_eqb in H. apply andb_true_iff in H as [H1 H2].
    apply String.eqb_eq in H1, H2. cbn [fst snd] in *. congruence.
  - apply Nat.leb_le in H. rewrite <- E.
    assert (key_of d = (t, n)) as <- by (rewrite (surjective_pairing (key_of d)); congruence). exact H.
Qed.
Print Assumptions C81_once.

Theorem C81_twice_refuted : exists R fs gs, sane fs /\
  gestalts_after R all_definitions [] fs = Some (Ok gs) /\
  length (filter (fun g => key_eqb (g_type g, g_name g) ("platform", "openesb")) gs) = 2%nat.
Proof.
  exists example_ruby, [in_language "java" "esb" 10]. eexists.
  split; [intros f b [<- | []] [<- | []]; cbn; lia |]. split; vm_compute; reflexivity.
Qed.
Print Assumptions C81_twice_refuted.

Example C81_example :
  gestalts_after example_ruby all_definitions [] [in_language "java" "esb" 10]
  = Some (Ok (map (fun n => mkGestalt "platform" n 1) ["java"; "openesb"; "openesb"])).
Proof. vm_compute. reflexivity. Qed.

(** * C82: no analysis depends on the ones before it *)

Theorem C82_history : forall R T acts fs, gestalts_after R T acts fs = gestalts_after R T [] fs.
Proof.
  intros R T acts fs. unfold gestalts_after.
  apply (analyze_history R T); apply after_loaded.
Qed.
Print Assumptions C82_history.

(** But every one leaves objects behind: FileRule.instances grows by the number of rules that look
    for filenames. *)
Theorem C82_instances : forall R T acts,
  length (instances (after R T acts)) =
  (length (flat_map (fun d => leaves (d_rule d)) T) + length acts * finders T)%nat.
Proof. intros R T acts. apply after_instances. Qed.
Print Assumptions C82_instances.

Theorem C82_bounded_refuted : forall bound R, exists acts,
  (bound < length (instances (after R all_definitions acts)))%nat.
Proof.
  intros bound R. exists (repeat (Analyze []) (S bound)). rewrite C82_instances, repeat_length.
  assert (finders all_definitions = 7%nat) as -> by (vm_compute; reflexivity). lia.
Qed.
Print Assumptions C82_bounded_refuted.

Example C82_example :
  let acts := [FindGestalts []; Analyze [file "pom.xml" [mkBreakdown "xml" "bad pom" 1]];
               Analyze [in_language "java" "esb" 10]] in
  names (gestalts_after example_ruby all_definitions acts [in_language "java" "bean" 10])
  = ["java"; "ejb3+"; "ejb3.0"].
Proof. vm_compute. reflexivity. Qed.

(** * C83: the order of the files, and more files *)

Theorem C83_order : forall R T acts fs fs', plain_table T -> Permutation fs fs' ->
  gestalts_after R T acts fs = gestalts_after R T acts fs'.
Proof. intros R T acts fs fs' Hp HP. eapply analyze_order; eauto using after_loaded. Qed.
Print Assumptions C83_order.

(** More files never take a gestalt away, if no definition asks for a share of the code or for the
    absence of something. *)
Theorem C83_more : forall R T acts fs extra gs gs',
  plain_table T -> (forall d, In d T -> positive false (d_rule d) = true) -> sane (fs ++ extra) ->
  gestalts_after R T acts fs = Some (Ok gs) -> gestalts_after R T acts (fs ++ extra) = Some (Ok gs') ->
  forall t n, present gs t n -> present gs' t n.
Proof.
  intros R T acts fs extra gs gs' Hp Hpos Hs Hg Hg'.
  assert (forall L (r : rule L), positive false r = true -> positive true r = true) as Hw.
  { intros L r. induction r using rule_ind'; cbn [positive]; auto; intros Hx.
    - induction H as [| r rs Hr _ IH]; [reflexivity |]. apply andb_true_iff in Hx as [X1 X2].
      rewrite Hr, IH; auto.
    - induction H as [| r rs Hr _ IH]; [reflexivity |]. apply andb_true_iff in Hx as [X1 X2].
      rewrite Hr, IH; auto. }
  assert (readable R T (fs ++ extra)) as Hr.
  { destruct (C79_ends R T acts (fs ++ extra)) as [[H _] | [_ H]]; [exact H | congruence]. }
  destruct (C80_least R T acts (fs ++ extra) gs' Hp (fun d Hd => Hw _ _ (Hpos d Hd)) Hs Hg') as [C2 _].
  assert (sane fs) as Hs1 by (intros f b Hf; apply Hs, in_or_app; auto).
  destruct (C80_least R T acts fs gs Hp (fun d Hd => Hw _ _ (Hpos d Hd)) Hs1 Hg) as [_ L1].
  apply L1. intros d Hd Hj. apply C2; [exact Hd |]. revert Hj. unfold justified.
  apply (holds_mono false); [exact (Hpos d Hd) | | discriminate | auto].
  intros l Hl. apply enough_more. intros f Hf. apply (Hr d l f Hd Hl), in_or_app. auto.
Qed.
Print Assumptions C83_more.

(** The shipped table asks for shares. *)
Theorem C83_more_refuted : exists R fs extra gs gs', sane (fs ++ extra) /\
  gestalts_after R all_definitions [] fs = Some (Ok gs) /\
  gestalts_after R all_definitions [] (fs ++ extra) = Some (Ok gs') /\
  present gs "platform" "ruby" /\ ~ present gs' "platform" "ruby".
Proof.
  exists example_ruby, [in_language "ruby" "x" 10], [in_language "c" "x" 90]. do 2 eexists.
  split; [intros f b [<- | [<- | []]] [<- | []]; cbn; lia |].
  split; [vm_compute; reflexivity |]. split; [vm_compute; reflexivity |]. split.
  - eexists. split; [left; reflexivity | split; reflexivity].
  - intros (g & Hg & _ & Hn). cbn in Hg.
    repeat (destruct Hg as [<- | Hg]; [discriminate Hn |]). destruct Hg.
Qed.
Print Assumptions C83_more_refuted.

Example C83_example :
  let T := filter (fun d => positive false (d_rule d)) all_definitions in
  (length T = 83%nat) /\
  names (gestalts_after example_ruby T []
    [file "jquery-1.2.3.min.js" []; in_language "java" "timer" 10]) = [] /\
  names (gestalts_after (toy [(filename_re ["jquery-\d.\d.\d.min.js$"], "jquery-1.2.3.min.js")] [] []) T []
    [file "jquery-1.2.3.min.js" []; in_language "java" "timer" 10]) = ["jquery"].
Proof. vm_compute. auto. Qed.

(** * C84: shares of the code *)

(** The platforms that are a language: there if and only if the language makes up as much of the
    code as they ask for. *)
Definition language_platforms : list (string * Z) :=
  [("visualbasic", 5); ("ruby", 15); ("java", 15); ("javascript", 20); ("php", 15); ("sql", 0);
   ("python", 15); ("perl", 20)].

Lemma one_definition : forall R fs gs t n d,
  exact R all_definitions fs (present gs) ->
  filter (fun d => key_eqb (key_of d) (t, n)) all_definitions = [d] ->
  (present gs t n <-> justified R fs (present gs) d).
Proof.
  intros R fs gs t n d He Hf.
  assert (In d (filter (fun d => key_eqb (key_of d) (t, n)) all_definitions)) as Hd by (rewrite Hf; now left).
  apply filter_In in Hd as [Hd Hk]. unfold key_eqb in Hk. apply andb_true_iff in Hk as [K1 K2].
  apply String.eqb_eq in K1, K2. cbn [fst snd key_of] in K1, K2.
  rewrite (He t n). split.
  - intros (d' & Hd' & E1 & E2 & Hj).
    assert (In d' (filter (fun d => key_eqb (key_of d) (t, n)) all_definitions)) as Hin.
    { apply filter_In. split; [exact Hd' |]. unfold key_of, key_eqb. cbn [fst snd]. subst t n.
      now rewrite E1, E2, !String.eqb_refl. }
    rewrite Hf in Hin. destruct Hin as [-> | []]. exact Hj.
  - intros Hj. exists d. auto.
Qed.

Theorem C84_language_platforms : forall R acts fs gs l p, sane fs ->
  gestalts_after R all_definitions acts fs = Some (Ok gs) -> In (l, p) language_platforms ->
  (present gs "platform" l <-> makes_up fs l p).
Proof.
  intros R acts fs gs l p Hs Hg Hl.
  destruct (C78_shipped R acts fs gs Hs Hg) as [He _].
  assert (filter (fun d => key_eqb (key_of d) ("platform", l)) all_definitions
          = [mkDef "platform" l (Or [Lang l p])]) as Hf.
  { cbn in Hl. repeat (destruct Hl as [Hl | Hl]; [injection Hl as <- <-; vm_compute; reflexivity |]). destruct Hl. }
  rewrite (one_definition R fs gs "platform" l _ He Hf). unfold justified. cbn [d_rule holds]. tauto.
Qed.
Print Assumptions C84_language_platforms.

(** It is not a share of all code: code in CoffeeScript, which the table of languages knows under
    another name, is left out of the whole. *)
Theorem C84_whole_refuted : exists R fs gs, sane fs /\
  gestalts_after R all_definitions [] fs = Some (Ok gs) /\ present gs "platform" "ruby" /\
  100 * code_in (String.eqb "ruby") fs < 2 * code_in (fun _ => true) fs.
Proof.
  exists example_ruby, [in_language "ruby" "x" 1; in_language "coffeescript" "x" 99]. eexists.
  split; [intros f b [<- | [<- | []]] [<- | []]; cbn; lia |].
  split; [vm_compute; reflexivity |]. split; [| vm_compute; reflexivity].
  eexists. split; [left; reflexivity | split; reflexivity].
Qed.
Print Assumptions C84_whole_refuted.

(** An engine that has computed shares keeps them: files that come later do not count, and a new
    language makes it fail. *)
Definition again (R : ruby) (fs1 fs2 : list source_file) : option (outcome (list gestalt)) :=
  let (e, s1) := new_engine (fst (load all_definitions)) (snd (load all_definitions)) in
  match process_each R e fs1 s1 with
  | (e1, s2, None) =>
      match calc_gestalts e1 s2 with
      | Some (Ok e2) =>
          match process_each R e2 fs2 s2 with
          | (e3, s3, None) =>
              match calc_gestalts e3 s3 with
              | Some (Ok e4) => Some (Ok (e_gestalts e4))
              | Some (Raised x) => Some (Raised x)
              | None => None
              end
          | (_, _, Some x) => Some (Raised x)
          end
      | Some (Raised x) => Some (Raised x)
      | None => None
      end
  | (_, _, Some x) => Some (Raised x)
  end.
Theorem C84_again_refuted : exists R fs1 fs2,
  gestalts_after R all_definitions [] (fs1 ++ fs2) = Some (Ok [mkGestalt "platform" "ruby" 1; mkGestalt "platform" "scripting" 1]) /\
  again R fs1 fs2 = Some (Ok []) /\
  exists fs3, again R fs1 fs3 = Some (Raised NoMethodError) /\ readable R all_definitions (fs1 ++ fs3).
Proof.
  exists example_ruby, [in_language "ruby" "x" 1; in_language "lua" "x" 99], [in_language "ruby" "x" 900].
  split; [vm_compute; reflexivity |]. split; [vm_compute; reflexivity |].
  exists [in_language "java" "x" 1]. split; [vm_compute; reflexivity |].
  destruct (C79_ends example_ruby all_definitions []
              ([in_language "ruby" "x" 1; in_language "lua" "x" 99] ++ [in_language "java" "x" 1]))
    as [[H _] | [_ H]]; [exact H |]. exfalso. vm_compute in H. discriminate H.
Qed.
Print Assumptions C84_again_refuted.

Example C84_example :
  names (gestalts_after example_ruby all_definitions [] [in_language "ruby" "x" 15; in_language "lua" "x" 85])
  = ["ruby"; "scripting"] /\
  names (gestalts_after example_ruby all_definitions [] [in_language "ruby" "x" 14; in_language "lua" "x" 86])
  = [] /\
  makes_up [in_language "ruby" "x" 15; in_language "lua" "x" 85] "ruby" 15.
Proof.
  split; [vm_compute; reflexivity |]. split; [vm_compute; reflexivity |]. split.
  - eexists; eexists. split; [left; reflexivity |]. split; [left; reflexivity | reflexivity].
  - left. vm_compute. split; [reflexivity | discriminate].
Qed.

(** * C85: what the shipped table asks for *)

(** Every gestalt that a definition asks for has a definition. *)
Theorem C85_defined : forall d t n, In d all_definitions -> In (t, n) (refs (d_rule d)) ->
  exists d', In d' all_definitions /\ d_type d' = t /\ d_name d' = n.
Proof.
  intros d t n Hd Hk.
  assert (forallb (fun d => forallb (fun k => key_in k (map key_of all_definitions)) (refs (d_rule d)))
            all_definitions = true) as H by (vm_compute; reflexivity).
  pose proof (proj1 (forallb_forall _ _) (proj1 (forallb_forall _ _) H d Hd) _ Hk) as H1.
  unfold key_in in H1. apply existsb_exists in H1 as (k & Hin & E).
  apply in_map_iff in Hin as (d' & <- & Hd'). unfold key_eqb in E. apply andb_true_iff in E as [E1 E2].
  apply String.eqb_eq in E1, E2. exists d'. auto.
Qed.
Print Assumptions C85_defined.

(** The names that the tool gives to languages. *)
Definition tool_names (fs : list source_file) : Prop :=
  forall f b, In f fs -> In b (sf_breakdowns f) -> In (b_name b) (map (fun p => l_name (snd p)) languages).

(** native_code asks for eight languages, of which the tool reports three. *)
Theorem C85_native_code : forall R acts fs gs, sane fs -> tool_names fs ->
  gestalts_after R all_definitions acts fs = Some (Ok gs) ->
  (present gs "platform" "native_code" <->
   makes_up fs "c" 5 \/ makes_up fs "cpp" 5 \/ makes_up fs "haskell" 5).
Proof.
  intros R acts fs gs Hs Hn Hg. destruct (C78_shipped R acts fs gs Hs Hg) as [He _].
  assert (forall l, existsb (String.eqb l) (map (fun p => l_name (snd p)) languages) = false -> ~ makes_up fs l 5) as Hnot.
  { intros l Hl [(f & b & Hf & Hb & Hname) _]. specialize (Hn f b Hf Hb). rewrite Hname in Hn.
    assert (existsb (String.eqb l) (map (fun p => l_name (snd p)) languages) = true) as X; [| congruence].
    apply existsb_exists. exists l. split; [exact Hn | apply String.eqb_refl]. }
  rewrite (one_definition R fs gs "platform" "native_code"
             (mkDef "platform" "native_code" (Or [Lang "c" 5; Lang "cpp" 5; Lang "cncpp" 5; Lang "assembly" 5;
                Lang "d" 5; Lang "fortran" 5; Lang "haskell" 5; Lang "cobol" 5])) He)
    by (vm_compute; reflexivity).
  pose proof (Hnot "cncpp" ltac:(vm_compute; reflexivity)).
  pose proof (Hnot "assembly" ltac:(vm_compute; reflexivity)).
  pose proof (Hnot "d" ltac:(vm_compute; reflexivity)).
  pose proof (Hnot "fortran" ltac:(vm_compute; reflexivity)).
  pose proof (Hnot "cobol" ltac:(vm_compute; reflexivity)).
  unfold justified. cbn [d_rule holds]. tauto.
Qed.
Print Assumptions C85_native_code.

(** Projects in Fortran, D or assembler alone are therefore not native code. *)
Theorem C85_fortran_refuted : forall R acts l n gs, In l ["fortranfixed"; "fortranfree"; "dmd"; "assembler"] -> 0 <= n ->
  gestalts_after R all_definitions acts [in_language l "x" n] = Some (Ok gs) ->
  ~ present gs "platform" "native_code".
Proof.
  intros R acts l n gs Hl Hn Hg.
  assert (sane [in_language l "x" n]) as Hs by (intros f b [<- | []] [<- | []]; exact Hn).
  rewrite (C85_native_code R acts _ gs Hs) with (2 := Hg).
  - intros [H | [H | H]]; destruct H as [(f & b & [<- | []] & [<- | []] & H) _]; cbn in H; subst l; cbn in Hl;
      repeat (destruct Hl as [Hl | Hl]; [discriminate Hl |]); exact Hl.
  - intros f b [<- | []] [<- | []]. cbn [b_name].
    assert (existsb (String.eqb l) (map (fun p => l_name (snd p)) languages) = true) as H.
    { cbn in Hl. repeat (destruct Hl as [<- | Hl]; [vm_compute; reflexivity |]). destruct Hl. }
    apply existsb_exists in H as (x & Hx & E). apply String.eqb_eq in E. now subst x.
Qed.
Print Assumptions C85_fortran_refuted.

(** No file of the tool's languages has a hit for the keywords of "vb". *)
Theorem C85_vb_never : forall R fs ks, tool_names fs -> ~ enough R fs (mkFileRule (Keywords (Some "vb") ks) 1).
Proof.
  intros R fs ks Hn (ns & F & Hle). cbn [fr_min] in Hle.
  assert (sumZ ns = 0) as Hz; [| lia].
  clear Hle. induction F as [| f n fs ns Hh F IH]; [reflexivity |]. cbn [sumZ fold_right].
  change (n + sumZ ns = 0). rewrite IH by (intros f' b Hf; apply (Hn f' b); now right).
  cbn [fr_kind hits] in Hh. destruct (language_breakdown f "vb") as [b |] eqn:E.
  - exfalso. unfold language_breakdown in E. apply find_some in E as [Hb E]. apply String.eqb_eq in E.
    specialize (Hn f b (or_introl eq_refl) Hb). rewrite E in Hn.
    assert (existsb (String.eqb "vb") (map (fun p => l_name (snd p)) languages) = true) as X.
    { apply existsb_exists. exists "vb". split; [exact Hn | reflexivity]. }
    vm_compute in X. discriminate X.
  - injection Hh as <-. reflexivity.
Qed.
Print Assumptions C85_vb_never.

Example C85_example :
  names (gestalts_after example_ruby all_definitions [] [in_language "fortranfree" "x" 100]) = [] /\
  names (gestalts_after example_ruby all_definitions [] [in_language "c" "x" 100]) = ["native_code"] /\
  existsb (fun d => existsb (fun l => match fr_kind l with Keywords (Some "vb") _ => true | _ => false end)
                            (leaves (d_rule d))) all_definitions = true.
Proof. vm_compute. auto. Qed.

(** * C86: pom.xml *)

(** The element declares a namespace (the first attribute called xmlns) that the pattern does not
    match. *)
Definition foreign (R : ruby) (pattern : string) (attrs : list (string * string)) : Prop :=
  exists a v b, attrs = a ++ ("xmlns", v) :: b /\ ~ In "xmlns" (map fst a) /\ re_match R (mkRe pattern false) v = None.
Definition maven_schema : string := "^http:\/\/maven\.apache\.org\/POM\/".
Definition csproj_schema : string := "^http:\/\/schemas\.microsoft\.com\/developer\/".

Lemma attr_first : forall k attrs v, attr attrs k = Some v <-> exists a b, attrs = a ++ (k, v) :: b /\ ~ In k (map fst a).
Proof.
  intros k attrs v. unfold attr. induction attrs as [|[k' v'] attrs IH]; cbn [find fst].
  - split; [discriminate | intros (a & b & E & _); destruct a; discriminate].
  - destruct (String.eqb_spec k' k) as [-> | N].
    + split.
      * intros [= ->]. exists [], attrs. split; [reflexivity | intros []].
      * intros (a & b & E & Hn). destruct a as [|[k2 v2] a]; [now injection E as -> _ |].
        injection E as <- _ _. exfalso. apply Hn. now left.
    + rewrite IH. split.
      * intros (a & b & -> & Hn). exists ((k', v') :: a), b. split; [reflexivity |]. cbn. intros [E | H]; auto.
      * intros (a & b & E & Hn). destruct a as [|[k2 v2] a]; [injection E as E _ _; contradiction |].
        injection E as -> -> E. exists a, b. split; [exact E |]. intros H. apply Hn. now right.
Qed.
Lemma foreign_iff : forall R pattern attrs, foreign R pattern attrs <-> right_namespace R (mkRe pattern false) attrs = false.
Proof.
  intros R pattern attrs. unfold right_namespace, foreign. split.
  - intros (a & v & b & E & Hn & Hm). assert (attr attrs "xmlns" = Some v) as -> by (apply attr_first; eauto). now rewrite Hm.
  - destruct (attr attrs "xmlns") as [v|] eqn:E; [|discriminate]. apply attr_first in E as (a & b & E & Hn).
    destruct (re_match R (mkRe pattern false) v) eqn:Em; [discriminate|]. intros _. exists a, v, b. auto.
Qed.

(** A project with plain dependencies and plugins: each is reported once, in order, with its own
    identifiers; nothing is reported for another kind of project. *)
Theorem C86_reports : forall R o attrs items es, outside o -> project_events items es ->
  (foreign R maven_schema attrs -> maven_calls R maven_new (o ++ XStart "project" attrs :: es) = Ok []) /\
  (~ foreign R maven_schema attrs -> maven_calls R maven_new (o ++ XStart "project" attrs :: es) =
     Ok (map (fun i => (i_type i, clean (i_group i), clean (i_artifact i))) items)).
Proof.
  intros R o attrs items es Ho He.
  assert (maven_calls R maven_new (o ++ XStart "project" attrs :: es) =
    Ok (if right_namespace R maven_ns attrs
        then map (fun i => (i_type i, clean (i_group i), clean (i_artifact i))) items else [])) as ->.
  { destruct (outside_many R o maven_new Ho) as (m & _ & E). rewrite E.
    cbn [maven_calls maven_event String.eqb Ascii.eqb Bool.eqb bind app].
    rewrite (project_many R items es) by exact He. cbn [m_pom bind app]. reflexivity. }
  rewrite foreign_iff. change (mkRe maven_schema false) with maven_ns.
  destruct (right_namespace R maven_ns attrs); split; auto; intros H; [discriminate | now contradiction H].
Qed.
Print Assumptions C86_reports.

(** Identifiers lose the whitespace around them, and a variable inside. *)
Definition white (c : ascii) : Prop := In (nat_of_ascii c) [0; 9; 10; 11; 12; 13; 32]%nat.
Lemma white_space : forall c, is_space c = true <-> white c.
Proof. intros [[] [] [] [] [] [] [] []]; unfold white; vm_compute; intuition congruence. Qed.
Theorem C86_clean : forall a c l b d m, (forall x, In x (a ++ b) -> white x) ->
  ~ white c -> ~ white d -> c :: l = m ++ [d] ->
  (~ In "$"%char (c :: l) ->
   clean (string_of_list_ascii (a ++ (c :: l) ++ b)) = string_of_list_ascii (c :: l)) /\
  (forall u v w, c :: l = u ++ "$"%char :: "{"%char :: v ++ "}"%char :: w ->
   ~ In "$"%char u -> ~ In "010"%char v -> ~ In "}"%char w -> ~ In "$"%char w ->
   clean (string_of_list_ascii (a ++ (c :: l) ++ b)) = string_of_list_ascii (u ++ w)).
Proof.
  intros a c l b d m Hab Hc Hd E.
  assert (forall x, ~ white x -> is_space x = false) as Hn.
  { intros x Hx. rewrite <- white_space in Hx. now destruct (is_space x). }
  assert (strip (list_ascii_of_string (string_of_list_ascii (a ++ (c :: l) ++ b))) = c :: l) as Hs.
  { rewrite list_ascii_of_string_of_list_ascii. eapply strip_core; eauto; apply forallb_forall; intros x Hx;
      apply white_space, Hab, in_or_app; auto. }
  unfold clean. rewrite Hs. split.
  - intros Hd'. now rewrite drop_plain.
  - intros u v w -> Hu Hv Hw Hw'. now rewrite drop_one.
Qed.
Print Assumptions C86_clean.

(** Reading raises an exception exactly if an identifier ends before the document had any text. *)
Theorem C86_raises : forall R es,
  maven_calls R maven_new es = Raised NoMethodError <->
  exists a n b, es = a ++ XEnd n :: b /\ In n ["groupId"; "artifactId"] /\ forall t, ~ In (XText t) a.
Proof.
  intros R es. split.
  - intros H. now apply maven_raises in H.
  - intros (a & n & b & -> & Hn & Ha). now apply maven_raises_conv.
Qed.
Print Assumptions C86_raises.

(** Identifiers of elements inside a dependency replace its own; an empty identifier takes the text
    before it; a plugin is reported with the identifiers of its last dependency. *)
Definition dep (t g a : string) (inner : list xml_event) : list xml_event :=
  XStart t [] :: id_events "groupId" g ++ id_events "artifactId" a ++ inner ++ [XEnd t].
Theorem C86_nested_refuted : forall R,
  maven_calls R maven_new (XStart "project" [] :: dep "dependency" "g" "a"
    (XStart "exclusions" [] :: dep "exclusion" "x" "y" [] ++ [XEnd "exclusions"]))
  = Ok [("dependency", "x", "y")] /\
  maven_calls R maven_new (XStart "project" [] :: dep "plugin" "g" "a" (dep "dependency" "x" "y" []))
  = Ok [("dependency", "x", "y"); ("plugin", "x", "y")] /\
  maven_calls R maven_new [XStart "project" []; XText "t"; XStart "dependency" []; XStart "groupId" []; XEnd "groupId";
    XStart "artifactId" []; XText "a"; XEnd "artifactId"; XEnd "dependency"]
  = Ok [("dependency", "t", "a")].
Proof. intros R. repeat split. Qed.
Print Assumptions C86_nested_refuted.

Example C86_example : forall R,
  maven_calls R maven_new (XOther :: XStart "project" [] :: XText "  " :: id_events "groupId" "me" ++
    dep "dependency" " org.glassfish " "api${v}" [XText " "] ++ dep "plugin" "p" "q" [])
  = Ok [("dependency", "org.glassfish", "api"); ("plugin", "p", "q")] /\
  project_events [mkItem "dependency" " org.glassfish " "api${v}"; mkItem "plugin" "p" "q"]
   ((XText "  " :: id_events "groupId" "me") ++
    dep "dependency" " org.glassfish " "api${v}" [XText " "] ++ dep "plugin" "p" "q" []).
Proof.
  intros R. split; [reflexivity |].
  apply (project_item (XText "  " :: id_events "groupId" "me") _
           (dep "dependency" " org.glassfish " "api${v}" [XText " "]) _ (dep "plugin" "p" "q" [])).
  - apply outside_event; [exact I |]. apply (outside_id "groupId" "me" []); [now left | constructor].
  - apply (item_group_first "dependency" _ _ [] [] [] [XText " "]); repeat constructor; cbn; tauto.
  - rewrite <- (app_nil_r (dep "plugin" "p" "q" [])).
    apply (project_item [] _ (dep "plugin" "p" "q" []) _ []); [constructor | | apply project_end; constructor].
    apply (item_group_first "plugin" _ _ [] [] [] []); repeat constructor; cbn; tauto.
Qed.

Example C86_clean_example :
  clean "  org.x${v}.y  " = "org.x.y" /\ clean " 
 " = "" /\ clean "${a}b${c}" = "" /\ clean "a$b" = "a$b".
Proof. repeat split. Qed.
Example C86_incomplete_example : forall R,
  maven_calls R maven_new (XStart "project" [] :: dep "dependency" "g" "a" [] ++
    XStart "dependency" [] :: id_events "artifactId" "b" ++ [XEnd "dependency"])
  = Ok [("dependency", "g", "a")].
Proof. reflexivity. Qed.

(** * C87: what the rules look at *)

(** A rule that asks for one hit holds exactly if it sees something in some file: a match in the
    first breakdown of its language, in the path, or in what the XML document reports. *)
Theorem C87_rules : forall R fs k, whole_match R ->
  (forall f, In f fs -> exists n, hits R k f = Ok n) ->
  (enough R fs (mkFileRule k 1) <-> exists f, In f fs /\ sees R k f).
Proof. intros R fs k HW Hok. now apply (enough_sees R fs (mkFileRule k 1)). Qed.
Print Assumptions C87_rules.

(** All rules of the shipped table ask for one hit, except these. *)
Definition several_hits : list (string * file_rule) :=
  [("win32", mkFileRule (CKeywords ["WM_PAINT"; "ReleaseDC"; "WndProc"]) 2);
   ("drupal", mkFileRule (Keywords (Some "php") ["Drupal"]) 3);
   ("msdos", mkFileRule (CKeywords ["__MSDOS__"; "MSDOS"]) 2)].
Theorem C87_shipped : forall d l, In d all_definitions -> In l (leaves (d_rule d)) ->
  fr_min l = 1 \/ In (d_name d, l) several_hits.
Proof.
  intros d l Hd Hl. destruct (fr_min l =? 1) eqn:E; [left; now apply Z.eqb_eq | right].
  assert (flat_map (fun d => map (fun l => (d_name d, l)) (filter (fun l => negb (fr_min l =? 1)) (leaves (d_rule d))))
            all_definitions = several_hits) as <- by (vm_compute; reflexivity).
  apply in_flat_map. exists d. split; [exact Hd |]. apply in_map, filter_In. now rewrite E.
Qed.
Print Assumptions C87_shipped.

(** A project file reports the imports after the root element of its schema; other documents report
    nothing. *)
Theorem C87_csproj : forall R o attrs es, no_project o -> no_project es ->
  csproj_calls R false o = [] /\
  (foreign R csproj_schema attrs -> csproj_calls R false (o ++ XStart "Project" attrs :: es) = []) /\
  (~ foreign R csproj_schema attrs -> csproj_calls R false (o ++ XStart "Project" attrs :: es) = flat_map import_of es).
Proof.
  intros R o attrs es Ho He. split; [now rewrite csproj_no_project |].
  assert (csproj_calls R false (o ++ XStart "Project" attrs :: es) =
    if right_namespace R csproj_ns attrs then flat_map import_of es else []) as ->.
  { rewrite csproj_app by exact Ho. cbn [app]. now apply csproj_no_project. }
  rewrite foreign_iff. change (mkRe csproj_schema false) with csproj_ns.
  destruct (right_namespace R csproj_ns attrs); split; auto; intros H; [discriminate | now contradiction H].
Qed.
Print Assumptions C87_csproj.

(** A C file is only searched for headers if the tool calls the file itself C or C++, and code in C
    keeps the keywords of C++ code in the same file from being seen. *)
Theorem C87_mixed_refuted : exists R f, whole_match R /\
  sf_breakdowns f = [mkBreakdown "c" "x" 1; mkBreakdown "cpp" "WndProc" 1] /\
  sees R (Keywords (Some "cpp") ["WndProc"]) f /\ ~ sees R (CKeywords ["WndProc"]) f.
Proof.
  exists (toy [] [(keyword_re ["WndProc"], "WndProc", ["WndProc"])] []),
    (file "a.h" [mkBreakdown "c" "x" 1; mkBreakdown "cpp" "WndProc" 1]).
  split; [intros x s m; cbn; discriminate |]. split; [reflexivity |]. split.
  - exists "WndProc". split.
    + exists [mkBreakdown "c" "x" 1], (mkBreakdown "cpp" "WndProc" 1), []. repeat split.
      intros b [<- | []]. discriminate.
    + vm_compute. discriminate.
  - intros (code & [Hc | [_ Hno]] & H).
    + apply code_of_breakdown in Hc as (b & E & <-). cbn in E. injection E as <-. apply H. reflexivity.
    + apply (Hno (mkBreakdown "c" "x" 1)); [now left | reflexivity].
Qed.
Print Assumptions C87_mixed_refuted.

Example C87_example :
  whole_match example_ruby /\
  names (gestalts_after (toy [(header_re ["windows.h"], "#include <windows.h>")] [] []) all_definitions []
          [in_language "c" "#include <windows.h>" 1]) = ["win32"; "native_code"] /\
  names (gestalts_after (toy [] [(keyword_re ["WM_PAINT"; "ReleaseDC"; "WndProc"], "w", ["WndProc"])] [])
          all_definitions [] [in_language "cpp" "w" 1]) = ["native_code"] /\
  names (gestalts_after (toy [] [(keyword_re ["WM_PAINT"; "ReleaseDC"; "WndProc"], "w", ["WndProc"])] [])
          all_definitions [] [in_language "cpp" "w" 1; in_language "cpp" "w" 1]) = ["win32"; "native_code"] /\
  names (gestalts_after (toy [] [(keyword_re ["WM_PAINT"; "ReleaseDC"; "WndProc"], "w", ["WndProc"; "WM_PAINT"])] [])
          all_definitions [] [in_language "cpp" "w" 1]) = ["win32"; "native_code"] /\
  csproj_calls example_ruby false [XOther; XStart "Project" []; XStart "Import" [("Project", "a.targets")]; XEnd "Import"]
  = ["a.targets"].
Proof.
  split; [| vm_compute; auto].
  intros x s m. cbn [example_ruby toy re_match]. destruct (existsb _ _); [| discriminate]. intros E. injection E as <-. discriminate.
Qed.
