(** Lemmas about the disambiguators of DetectorModel. *)
From Coq Require Import ZArith String List Bool Lia.
From Verif Require Import Base ParsedModel PathModel Tables DetectorModel DetectorSpec DetectorProofs.
Import ListNotations.
Open Scope string_scope.
Open Scope Z_scope.
Open Scope list_scope.

Lemma no0_bytes s : forallb (fun c => negb (c =? 0)) (bytes s) = true -> Forall (fun c => c <> 0) (bytes s).
Proof.
  rewrite forallb_forall, Forall_forall. intros H x I. apply H in I.
  apply negb_true_iff, Z.eqb_neq in I. exact I.
Qed.
Ltac no0 := first [apply no0_bytes; reflexivity | repeat constructor; discriminate].

Lemma begins_cons c lit x p : begins (c :: lit) (x :: p) <-> c = x /\ begins lit p.
Proof.
  split.
  - intros (b & [= -> ->]). split; [reflexivity|exists b; reflexivity].
  - intros [-> (b & ->)]. exists b. reflexivity.
Qed.
Lemma begins_nil p : begins [] p.
Proof. exists p. reflexivity. Qed.
Lemma not_begins_nil c lit : ~ begins (c :: lit) [].
Proof. intros (b & E). discriminate. Qed.
Lemma deref_iff p c : c <> 0 -> (deref p =? c) = true <-> begins [c] p.
Proof.
  intros N. unfold deref. destruct p as [|x p]; cbn [hd]; rewrite Z.eqb_eq.
  - split; [congruence|]. intros H. destruct (not_begins_nil _ _ H).
  - rewrite begins_cons. split; [intros ->; split; [reflexivity|apply begins_nil]|intros [-> _]; reflexivity].
Qed.

Lemma white_dec c : White c \/ ~ White c.
Proof. rewrite <- white_iff. destruct (_ || _); auto. Qed.
Lemma white_false c : ~ White c -> blank c || is_eol c = false.
Proof. intros N. apply (false_iff _ _ (white_iff c)). exact N. Qed.

(** Unfold the comparisons with literals. *)
Ltac lits := unfold startsb; cbn [existsb];
  repeat match goal with |- context [bytes ?s] =>
    let b := eval compute in (bytes s) in change (bytes s) with b end; cbn [starts].

(** *** asx *)
Lemma asx_iff t : asx_loop t = if match asx_loop t with None => true | _ => false end then None else Some "assembler".
Proof.
  induction t as [|c t IH]; cbn [asx_loop]; [reflexivity|].
  destruct (blank c || is_eol c); [exact IH|]. destruct (existsb _ _); reflexivity.
Qed.
Lemma asx_none t : asx_loop t = None <-> asx_xml t.
Proof.
  induction t as [|c t IH]; cbn [asx_loop].
  - split; [discriminate|]. intros (p & c & V & B & _). apply visible_nil in V as ->.
    destruct (not_begins_nil _ _ B).
  - destruct (white_dec c) as [W|W].
    + rewrite (proj2 (white_iff c) W), IH. unfold asx_xml.
      split; intros (p & x & V & R); exists p, x; (split; [apply (visible_cons_white t p c W); exact V|exact R]).
    + rewrite (white_false c W). unfold asx_xml.
      destruct (existsb (Z.eqb c) [60; 0; 239; 254; 255]) eqn:X.
      * split; [intros _|reflexivity]. exists (c :: t), c. split; [apply visible_cons; auto|].
        split; [exists t; reflexivity|]. apply existsb_exists in X as (x & I & E).
        apply Z.eqb_eq in E as ->. exact I.
      * split; [discriminate|]. intros (p & x & V & (b & B) & I). apply visible_cons in V; auto.
        rewrite V in B. injection B as -> _. exfalso.
        assert (existsb (Z.eqb x) [60; 0; 239; 254; 255] = true); [|congruence].
        apply existsb_exists. exists x. split; [exact I|apply Z.eqb_refl].
Qed.

(** A decision by the first visible bytes. *)
Lemma visible_step (P : list Z -> Prop) c t : White c ->
  ((exists p, visible (c :: t) p /\ P p) <-> (exists p, visible t p /\ P p)).
Proof.
  intros W. split; intros (p & V & R); exists p; (split; [apply (visible_cons_white t p c W); exact V|exact R]).
Qed.
Lemma visible_here (P : list Z -> Prop) c t : ~ White c ->
  ((exists p, visible (c :: t) p /\ P p) <-> P (c :: t)).
Proof.
  intros W. split.
  - intros (p & V & R). apply visible_cons in V as ->; auto.
  - intros H. exists (c :: t). split; [apply visible_cons; auto|exact H].
Qed.
Lemma visible_end (P : list Z -> Prop) : ((exists p, visible [] p /\ P p) <-> P []).
Proof.
  split.
  - intros (p & V & R). apply visible_nil in V as ->; auto.
  - intros H. exists []. split; [apply visible_nil; auto|exact H].
Qed.
(** The predicate form of the specifications. *)
Lemma lits_form t ls :
  (exists p lit, visible t p /\ begins (bytes lit) p /\ In lit ls) <->
  (exists p, visible t p /\ exists lit, In lit ls /\ begins (bytes lit) p).
Proof. split; [intros (p & lit & ? & ? & ?)|intros (p & ? & lit & ? & ?)]; eauto 6. Qed.

Lemma in_lits (ls : list string) p :
  (exists lit, In lit ls /\ begins (bytes lit) p) <-> existsb (fun lit => startsb lit p) ls = true.
Proof.
  rewrite existsb_exists. split; intros (l & I & B); exists l; (split; [exact I|]).
  - apply startsb_iff; exact B.
  - apply startsb_iff in B; exact B.
Qed.

Definition dat_here (p : list Z) : option string :=
  if existsb (fun lit => startsb lit p) ["/*"; "#"; "data"; "param"; "set"] then Some "ampl"
  else match p with
       | [] => None
       | c :: _ => if c =? 47 then None else Some binary
       end.
Lemma dat_loop_here c t : ~ White c -> dat_loop (c :: t) = dat_here (c :: t).
Proof.
  intros W. cbn [dat_loop]. rewrite (white_false c W). unfold dat_here. lits.
  destruct (c =? 47) eqn:E1.
  { apply Z.eqb_eq in E1 as ->. cbn. destruct t as [|x t]; cbn; [reflexivity|]. destruct (x =? 42); reflexivity. }
  destruct (c =? 35) eqn:E2; [reflexivity|].
  destruct (c =? 100) eqn:E3.
  { apply Z.eqb_eq in E3 as ->. cbn. rewrite orb_false_r. reflexivity. }
  destruct (c =? 112) eqn:E4.
  { apply Z.eqb_eq in E4 as ->. cbn. rewrite orb_false_r. reflexivity. }
  destruct (c =? 115) eqn:E5.
  { apply Z.eqb_eq in E5 as ->. cbn. rewrite orb_false_r. reflexivity. }
  reflexivity.
Qed.

Lemma dat_ampl_iff t : dat_loop t = Some "ampl" <-> dat_ampl t.
Proof.
  unfold dat_ampl. rewrite lits_form. induction t as [|c t IH].
  - rewrite visible_end, in_lits. cbn. split; discriminate.
  - destruct (white_dec c) as [W|W].
    + rewrite visible_step by exact W. cbn [dat_loop]. rewrite (proj2 (white_iff c) W). exact IH.
    + rewrite visible_here by exact W. rewrite in_lits, dat_loop_here by exact W. unfold dat_here.
      destruct (existsb _ _); [tauto|]. destruct (c =? 47); split; discriminate.
Qed.
Lemma dat_none_iff t : dat_loop t = None <-> dat_undecided t.
Proof.
  unfold dat_undecided. induction t as [|c t IH].
  - rewrite visible_end. cbn. tauto.
  - destruct (white_dec c) as [W|W].
    + rewrite visible_step by exact W. cbn [dat_loop]. rewrite (proj2 (white_iff c) W). exact IH.
    + rewrite visible_here by exact W. rewrite dat_loop_here by exact W.
      rewrite <- (starts_iff [47; 42]), <- (starts_iff [47]). unfold dat_here. lits.
      destruct (c =? 47) eqn:E.
      * apply Z.eqb_eq in E as ->. cbn. destruct t as [|x t]; cbn; [intuition discriminate|].
        destruct (x =? 42); cbn; intuition (try discriminate).
      * cbn. destruct (_ || _); intuition discriminate.
Qed.
Lemma dat_values t : dat_loop t = Some "ampl" \/ dat_loop t = None \/ dat_loop t = Some binary.
Proof.
  induction t as [|c t IH]; [auto|]. destruct (white_dec c) as [W|W].
  - cbn [dat_loop]. rewrite (proj2 (white_iff c) W). exact IH.
  - rewrite dat_loop_here by exact W. unfold dat_here. destruct (existsb _ _); auto. destruct (c =? 47); auto.
Qed.

(** *** def, mod *)
Definition def_here (p : list Z) : option string :=
  if existsb (fun lit => startsb lit p) ["(*"; "DEFINITION"] then Some "modula2" else None.
Lemma def_loop_here c t : ~ White c -> def_loop (c :: t) = def_here (c :: t).
Proof.
  intros W. cbn [def_loop]. rewrite (white_false c W). unfold def_here. lits.
  destruct (c =? 40) eqn:E1.
  { apply Z.eqb_eq in E1 as ->. cbn. destruct t as [|x t]; cbn; [reflexivity|]. destruct (x =? 42); reflexivity. }
  destruct (c =? 68) eqn:E3; [|reflexivity].
  apply Z.eqb_eq in E3 as ->. cbn. rewrite orb_false_r. reflexivity.
Qed.
Lemma def_iff t : def_loop t = Some "modula2" <-> def_modula t.
Proof.
  unfold def_modula. rewrite lits_form. induction t as [|c t IH].
  - rewrite visible_end, in_lits. cbn. split; discriminate.
  - destruct (white_dec c) as [W|W].
    + rewrite visible_step by exact W. cbn [def_loop]. rewrite (proj2 (white_iff c) W). exact IH.
    + rewrite visible_here by exact W. rewrite in_lits, def_loop_here by exact W. unfold def_here.
      destruct (existsb _ _); [tauto|]. split; discriminate.
Qed.
Lemma def_values t : def_loop t = Some "modula2" \/ def_loop t = None.
Proof.
  induction t as [|c t IH]; [auto|]. destruct (white_dec c) as [W|W].
  - cbn [def_loop]. rewrite (proj2 (white_iff c) W). exact IH.
  - rewrite def_loop_here by exact W. unfold def_here. destruct (existsb _ _); auto.
Qed.

Definition mod_here (p : list Z) : option string :=
  if existsb (fun lit => startsb lit p) ["(*"; "IMPLEMENTATION"; "MODULE"] then Some "modula2"
  else match p with
       | [] => None
       | c :: _ => if existsb (Z.eqb c) [40; 73; 77] then None else Some "ampl"
       end.
Lemma mod_loop_here c t : ~ White c -> mod_loop (c :: t) = mod_here (c :: t).
Proof.
  intros W. cbn [mod_loop]. rewrite (white_false c W). unfold mod_here. lits.
  destruct (c =? 40) eqn:E1.
  { apply Z.eqb_eq in E1 as ->. cbn. destruct t as [|x t]; cbn; [reflexivity|]. destruct (x =? 42); reflexivity. }
  destruct (c =? 73) eqn:E2.
  { apply Z.eqb_eq in E2 as ->. cbn. rewrite orb_false_r. reflexivity. }
  destruct (c =? 77) eqn:E3; [|reflexivity].
  apply Z.eqb_eq in E3 as ->. cbn. rewrite orb_false_r. reflexivity.
Qed.
Lemma mod_modula_iff t : mod_loop t = Some "modula2" <-> mod_modula t.
Proof.
  unfold mod_modula. rewrite lits_form. induction t as [|c t IH].
  - rewrite visible_end, in_lits. cbn. split; discriminate.
  - destruct (white_dec c) as [W|W].
    + rewrite visible_step by exact W. cbn [mod_loop]. rewrite (proj2 (white_iff c) W). exact IH.
    + rewrite visible_here by exact W. rewrite in_lits, mod_loop_here by exact W. unfold mod_here.
      destruct (existsb _ _); [tauto|]. destruct (existsb _ _); split; discriminate.
Qed.
Lemma mod_ampl_iff t : mod_loop t = Some "ampl" <-> mod_ampl t.
Proof.
  unfold mod_ampl.
  assert (E : forall t, (exists p c, visible t p /\ begins [c] p /\ ~ In c [40; 73; 77]) <->
              (exists p, visible t p /\ exists c, begins [c] p /\ ~ In c [40; 73; 77]))
    by (intros u; split; [intros (p & c & ? & ? & ?)|intros (p & ? & c & ? & ?)]; eauto 6).
  rewrite E. clear E. induction t as [|c t IH].
  - rewrite visible_end. cbn [mod_loop]. split; [discriminate|].
    intros (c & B & _). destruct (not_begins_nil _ _ B).
  - destruct (white_dec c) as [W|W].
    + rewrite visible_step by exact W. cbn [mod_loop]. rewrite (proj2 (white_iff c) W). exact IH.
    + rewrite visible_here by exact W. rewrite mod_loop_here by exact W. unfold mod_here.
      assert (X : (exists x, begins [x] (c :: t) /\ ~ In x [40; 73; 77]) <-> existsb (Z.eqb c) [40; 73; 77] = false).
      { rewrite <- not_true_iff_false, existsb_exists. split.
        - intros (x & (b & [= -> _]) & N) (y & I & Q). apply Z.eqb_eq in Q as ->. auto.
        - intros N. exists c. split; [exists t; reflexivity|]. intros I. apply N. exists c.
          split; [exact I|apply Z.eqb_refl]. }
      rewrite X. cbv beta iota. destruct (existsb (Z.eqb c) [40; 73; 77]) eqn:Y.
      * clear. destruct (existsb _ _); split; intros H; discriminate H.
      * cbn [existsb] in Y. rewrite !orb_false_iff in Y.
        lits.
        destruct Y as [-> [-> [-> _]]]. cbn. tauto.
Qed.
Lemma mod_values t : mod_loop t = Some "modula2" \/ mod_loop t = Some "ampl" \/ mod_loop t = None.
Proof.
  induction t as [|c t IH]; [auto|]. destruct (white_dec c) as [W|W].
  - cbn [mod_loop]. rewrite (proj2 (white_iff c) W). exact IH.
  - rewrite mod_loop_here by exact W. unfold mod_here. destruct (existsb _ _); auto. destruct (existsb _ _); auto.
Qed.

(** *** inc, pro, r, rs *)
Lemma inc_iff t : inc_loop (before_nul t) = if has t "?php" then Some "php" else None.
Proof.
  assert (H : has t "?php" = has (before_nul t) "?php").
  { apply eq_true_iff_eq. rewrite !has_iff by (no0 || discriminate). rewrite before_nul_idem. reflexivity. }
  rewrite H. clear H. pose proof (before_nul_no0 t) as N. remember (before_nul t) as u. clear Hequ t.
  unfold has. induction N as [|c u C N IH]; [reflexivity|].
  cbn [inc_loop strstr]. apply Z.eqb_neq in C. rewrite C.
  change (bytes "?php") with (63 :: bytes "php"). cbn [starts]. unfold startsb.
  destruct ((c =? 63) && starts (bytes "php") u); [reflexivity|]. exact IH.
Qed.

Lemma pro_iff t : pro_loop t = true <->
  exists w, In w ["SOURCES +="; "SOURCES+="; "CONFIG +="; "CONFIG+="] /\ occurs (bytes w) t.
Proof.
  induction t as [|c t IH].
  - cbn [pro_loop]. split; [discriminate|]. intros (w & I & O). apply occurs_nil in O.
    cbn in I. repeat (destruct I as [<-|I]; [discriminate O|]). destruct I.
  - cbn [pro_loop]. rewrite orb_true_iff, IH, existsb_exists. split.
    + intros [(w & I & S)|(w & I & O)]; exists w; (split; [exact I|]); apply occurs_cons; auto.
      left. apply startsb_iff. exact S.
    + intros (w & I & O). apply occurs_cons in O as [B|O]; [left|right]; exists w; (split; [exact I|]); auto.
      apply startsb_iff. exact B.
Qed.

Lemma r_iff t : r_loop t = true <-> mentions_rebol t.
Proof.
  induction t as [|c t IH]; [cbn; split; [discriminate|]|].
  - intros (a & m & b & E & L & N). symmetry in E. apply app_eq_nil in E as [_ E].
    apply app_eq_nil in E as [-> ->]. contradiction.
  - cbn [r_loop]. unfold zlen. destruct (Z.of_nat (length (c :: t)) >? 5) eqn:G.
    + rewrite orb_true_iff, IH, starts_nocase_iff. split.
      * intros [(m & b & E & L)|(a & m & b & -> & L & N)].
        -- exists [], m, b. split; [exact E|]. split; [exact L|]. intros ->.
           assert (length m = 5%nat) by (rewrite <- (map_length lower), L; reflexivity).
           rewrite E, app_nil_r, H in G. discriminate.
        -- exists (c :: a), m, b. auto.
      * intros (a & m & b & E & L & N). destruct a as [|x a]; cbn in E.
        -- left. exists m, b. auto.
        -- injection E as -> ->. right. exists a, m, b. auto.
    + split; [discriminate|]. intros (a & m & b & E & L & N). exfalso.
      assert (length m = 5%nat) by (rewrite <- (map_length lower), L; reflexivity).
      rewrite E, !app_length, H in G. destruct b; [contradiction|]. cbn [length] in G.
      rewrite Z.gtb_ltb, Z.ltb_ge in G. lia.
Qed.

Lemma rs_iff t : rs_loop t = true <-> exists a b, t = a ++ 10 :: bytes "#pragma version" ++ b /\ b <> [].
Proof.
  induction t as [|c t IH]; [cbn; split; [discriminate|]|].
  - intros (a & b & E & N). destruct a; discriminate E.
  - cbn [rs_loop]. unfold zlen. destruct (Z.of_nat (length (c :: t)) >? 16) eqn:G.
    + rewrite orb_true_iff, IH, starts_iff. split.
      * intros [(b & E)|(a & b & -> & N)].
        -- exists [], b. split; [exact E|]. intros ->. rewrite E in G. discriminate.
        -- exists (c :: a), b. auto.
      * intros (a & b & E & N). destruct a as [|x a].
        -- left. exists b. exact E.
        -- cbn [app] in E. injection E as -> ->. right. exists a, b. auto.
    + split; [discriminate|]. intros (a & b & E & N). exfalso.
      rewrite E, app_length in G. change (10 :: bytes "#pragma version" ++ b) with ((10 :: bytes "#pragma version") ++ b) in G.
      rewrite app_length in G. change (length (10 :: bytes "#pragma version")) with 16%nat in G.
      destruct b; [contradiction|]. cbn [length] in G. rewrite Z.gtb_ltb, Z.ltb_ge in G. lia.
Qed.
