(** Spaces and tabs at the start of lines. *)
From Coq Require Import ZArith String List Bool Lia.
From Verif Require Import Base ParsedModel RagelSyntax RagelBuild RagelRun ParserTable.
From Verif Require Import LineSpec LexSpec LexCheck LexFacts LexBytes LexLines LexHeads LexConcat LexEnds LexSpaces.
Import ListNotations.
Open Scope string_scope.
Open Scope Z_scope.
Open Scope list_scope.

Local Notation zlen l := (Z.of_nat (length l)).

(** ** Statements *)

(** The same text but for the blanks after LF and CR LF. *)
Inductive indented : list Z -> list Z -> Prop :=
| in_nil : indented [] []
| in_byte c s s' : c <> 10 -> c <> 13 -> indented s s' -> indented (c :: s) (c :: s')
| in_end e ws ws' s s' : e = [10] \/ e = [13; 10] -> forallb blank_byte ws = true -> forallb blank_byte ws' = true ->
  indented s s' -> indented (e ++ ws ++ s) (e ++ ws' ++ s').
(** And at the start of the text. *)
Definition led (s s' : list Z) : Prop := exists ws ws' t t', s = ws ++ t /\ s' = ws' ++ t' /\
  forallb blank_byte ws = true /\ forallb blank_byte ws' = true /\ indented t t'.

(** No pattern goes on after a line feed, none is asked for at the start of a line, and
    blanks may stand in every comment and string. *)
Definition indent_ok (x : lexis) : bool :=
  spaced x && lone x && match x_head x with [] => true | _ => false end
  && forallb (fun g => negb (existsb (fun p => has p [32]) (g_never g))) (x_regions x).

(** ** Proofs *)
Lemma indented_led s s' : indented s s' -> led s s'.
Proof. intros H. exists [], [], s, s'. auto 8. Qed.
Lemma indented_sym s s' : indented s s' -> indented s' s.
Proof. induction 1; constructor; auto. Qed.
Lemma led_sym s s' : led s s' -> led s' s.
Proof. intros (ws & ws' & t & t' & -> & -> & B & B' & H). exists ws', ws, t', t. auto 8 using indented_sym. Qed.
Lemma ind_cons s s' : indented s s' -> s = [] /\ s' = [] \/
  exists c t t', s = c :: t /\ s' = c :: t' /\ (c = 10 -> led t t') /\ (c <> 10 -> indented t t') /\
    (c = 13 -> exists u u', t = 10 :: u /\ t' = 10 :: u').
Proof.
  destruct 1 as [|c s s' N1 N2 H|e ws ws' s s' He B B' H]; [left; auto|right..].
  - exists c, s, s'. repeat split; auto; intros; contradiction.
  - destruct He as [-> | ->]; cbn [app].
    + exists 10, (ws ++ s), (ws' ++ s'). repeat split; auto; try congruence. intros _. exists ws, ws', s, s'. auto 8.
    + exists 13, (10 :: ws ++ s), (10 :: ws' ++ s'). repeat split; auto; try discriminate.
      * intros _. apply (in_end [10]); auto.
      * eauto.
Qed.

Lemma has_indented p : one_line p = true -> forall s s', indented s s' -> has p s = has p s'.
Proof.
  induction p as [|u p IH]; intros Hp s s' H; [destruct s, s'; reflexivity|].
  destruct (ind_cons _ _ H) as [[-> ->]|(c & t & t' & -> & -> & H1 & H2 & _)]; [reflexivity|]. cbn [has].
  destruct p as [|v p]; [destruct t, t'; reflexivity|]. unfold one_line in *. cbn [removelast forallb] in Hp. apply andb_prop in Hp as [Hu Hp].
  destruct (Z.eq_dec c 10) as [-> |N]; [apply negb_true_iff in Hu; rewrite Hu; reflexivity|].
  rewrite (IH Hp t t') by auto. reflexivity.
Qed.
Lemma skip_indented p : forall s s', indented s s' -> has p s = true -> LexLines.no_nl p = true ->
  indented (skipn (length p) s) (skipn (length p) s').
Proof.
  induction p as [|u p IH]; intros s s' H Hh Hn; [exact H|]. cbn [LexLines.no_nl forallb] in Hn. apply andb_prop in Hn as [Hu Hn].
  destruct (ind_cons _ _ H) as [[-> ->]|(c & t & t' & -> & -> & H1 & H2 & _)]; [discriminate|]. cbn [has] in Hh.
  apply andb_prop in Hh as [Hc Hh]. cbn [length skipn]. apply IH; auto. apply H2. intros ->.
  unfold apart in Hu. cbn [forallb] in Hu. rewrite Hc in Hu. discriminate.
Qed.

Definition like_ind (s s' : list Z) (p p' : option piece) : Prop :=
  match p, p' with
  | None, None => True
  | Some (Bytes n k w), Some (Bytes n' k' w') =>
    n = n' /\ k = k' /\ w = w' /\ indented (skipn n s) (skipn n' s')
  | Some (Ends n k i w), Some (Ends n' k' i' w') =>
    n = n' /\ k = k' /\ i = i' /\ w = w' /\ led (skipn n s) (skipn n' s')
  | _, _ => False
  end.

Lemma ind_ends s s' : indented s s' -> line_end s = 0%nat /\ line_end s' = 0%nat \/
  exists e, line_end s = S e /\ line_end s' = S e /\ led (skipn (S e) s) (skipn (S e) s') /\ firstn (S e) s = firstn (S e) s'.
Proof.
  intros H. destruct (ind_cons _ _ H) as [[-> ->]|(c & t & t' & -> & -> & H1 & H2 & H3)]; [left; auto|]. cbn [line_end].
  destruct (Z.eqb_spec c 10) as [-> |N]; [right; exists O; cbn [orb skipn firstn]; auto|]. cbn [orb]. specialize (H2 N).
  destruct (c =? 12); [right; exists O; cbn [skipn firstn]; auto using indented_led|]. destruct (Z.eqb_spec c 13) as [-> |N']; [|left; auto].
  destruct (H3 eq_refl) as (u & u' & -> & ->). right. exists 1%nat. cbn [Z.eqb skipn firstn]. repeat split; auto.
  destruct (ind_cons _ _ H2) as [[E _]|(d & v & v' & E & E' & G & _)]; [discriminate|]. injection E as <- <-. injection E' as <-. auto.
Qed.

Lemma pat_ind s s' p k w : indented s s' -> has p s = true -> LexLines.no_nl p = true ->
  like_ind s s' (Some (Bytes (length p) k w)) (Some (Bytes (length p) k w)).
Proof. intros H Hh Hn. cbn. auto using skip_indented. Qed.

Lemma body_ind g n s s' : lone_region g = true -> tidy_region g -> indented s s' -> like_ind s s' (body g n s) (body g n s').
Proof.
  intros Hg [To Tc] H. unfold lone_region in Hg. dand.
  repeat match goal with H : forallb _ _ = true |- _ => rewrite forallb_forall in H end.
  assert (Hcl : find (fun p => has p s) (g_close g) = find (fun p => has p s') (g_close g)).
  { apply find_ext. intros p Hp. apply has_indented; auto. }
  assert (Hnv : existsb (fun p => has p s) (g_never g) = existsb (fun p => has p s') (g_never g)).
  { apply existsb_ext. intros p Hp. apply has_indented; auto. }
  assert (Hop : has (g_open g) s = has (g_open g) s') by (apply has_indented; auto).
  pose proof (ind_ends _ _ H) as Hend.
  assert (Hfind : forall p k w, find (fun p => has p s) (g_close g) = Some p ->
    like_ind s s' (Some (Bytes (length p) k w)) (Some (Bytes (length p) k w))).
  { intros p k w E. apply find_some in E as [E1 E2]. apply pat_ind; auto. }
  assert (Hopen : forall k w, has (g_open g) s = true ->
    like_ind s s' (Some (Bytes (length (g_open g)) k w)) (Some (Bytes (length (g_open g)) k w))).
  { intros k w E. apply pat_ind; auto. }
  destruct (ind_cons _ _ H) as [[-> ->]|(c & t & t' & -> & -> & G1 & G2 & G3)]; [exact I|].
  assert (Hlast : like_ind (c :: t) (c :: t')
      match line_end (c :: t) with
      | S e => match g_nl g with
               | Cut => Some (Ends (S e) Blank false Out)
               | Inner => Some (Ends (S e) Blank true (Inside g n))
               | Deny => None
               end
      | O =>
        if c =? 13 then match g_nl g with Cut => Some (Bytes 1 Blank Out) | _ => None end
        else if g_esc g && (c =? 92) then
          match t with
          | d :: _ => if newline_byte d then None else Some (Bytes 2 (g_kind g) (Inside g n))
          | [] => None
          end
        else Some (Bytes 1 (if blank_byte c then Blank else g_kind g) (Inside g n))
      end
      match line_end (c :: t') with
      | S e => match g_nl g with
               | Cut => Some (Ends (S e) Blank false Out)
               | Inner => Some (Ends (S e) Blank true (Inside g n))
               | Deny => None
               end
      | O =>
        if c =? 13 then match g_nl g with Cut => Some (Bytes 1 Blank Out) | _ => None end
        else if g_esc g && (c =? 92) then
          match t' with
          | d :: _ => if newline_byte d then None else Some (Bytes 2 (g_kind g) (Inside g n))
          | [] => None
          end
        else Some (Bytes 1 (if blank_byte c then Blank else g_kind g) (Inside g n))
      end).
  { destruct Hend as [[E0 E0']|(e & -> & -> & Ha & _)]; [rewrite E0, E0'|destruct (g_nl g); [..|exact I]; cbn [like_ind]; auto].
    assert (N10 : c <> 10) by (intros ->; discriminate E0). specialize (G2 N10).
    destruct (c =? 13); [destruct (g_nl g); cbn; auto|]. destruct (g_esc g && (c =? 92)) eqn:Ee; [|cbn; auto].
    destruct (ind_cons _ _ G2) as [[-> ->]|(d & u & u' & -> & -> & F1 & F2 & F3)]; [exact I|].
    destruct (newline_byte d) eqn:Ed; [exact I|]. cbn. repeat split; auto. apply F2. intros ->. discriminate Ed. }
  unfold body. rewrite <- Hcl, <- Hnv, <- Hop.
  destruct (find (fun p => has p (c :: t)) (g_close g)) as [p|] eqn:Ef; [destruct n as [|n]; [auto|]|];
    (destruct (existsb _ _); [exact I|]); auto;
    (destruct (g_nest g); cbn [andb]; [destruct (has (g_open g) (c :: t)) eqn:Eh; [auto|]|]);
    (destruct (c =? 92) eqn:E92; [|exact Hlast]); (destruct (g_escnl g); [|exact Hlast]);
    assert (N10 : c <> 10) by (intros ->; discriminate E92);
    (destruct (ind_ends _ _ (G2 N10)) as [[-> ->]|(e & -> & -> & Ha & _)]; [exact Hlast|cbn [like_ind]; auto]).
Qed.

Lemma closed_led g : spaced_region g = true -> nonempty g -> lone_region g = true -> tidy_region g -> (forall n, stuck (Inside g n) = false) ->
  forall k f n s s', (f < k)%nat -> led s s' -> closed f g n s = true -> Cl g n s'.
Proof.
  intros H1 H2 H3 H4 H5. induction k as [|k IH]; intros f n s s' Hk H Hc; [lia|].
  destruct H as (ws & ws' & t & t' & -> & -> & B & B' & H). apply run_closed; auto.
  assert (Hc' : exists f', (f' <= f)%nat /\ closed f' g n t = true).
  { destruct ws as [|b ws]; [exists f; split; [lia|exact Hc]|].
    destruct (closed_run g H1 H2 (b :: ws) ltac:(discriminate) B _ _ _ Hc) as (_ & f' & Hf & Hcl). exists f'. split; [lia|auto]. }
  clear Hc. destruct Hc' as (f' & Hf & Hc). pose proof (body_ind g n t t' H3 H4 H) as HB. destruct f' as [|f']; [discriminate|]. cbn [closed] in Hc.
  destruct (body g n t) as [pc|] eqn:E1; [|discriminate].
  destruct pc as [m kd w|m kd i w], (body g n t') as [[m' kd' w'|m' kd' i' w']|] eqn:E2; cbn [like_ind] in HB; try contradiction.
  - destruct HB as (<- & <- & <- & HR). destruct w as [|g' n'].
    + exists 1%nat. cbn [closed]. rewrite E2. reflexivity.
    + destruct (IH f' n' _ _ ltac:(lia) (indented_led _ _ HR) Hc) as (f1 & Hf1). exists (S f1). cbn [closed]. rewrite E2. exact Hf1.
  - destruct HB as (<- & <- & <- & <- & HR). destruct w as [|g' n'].
    + exists 1%nat. cbn [closed]. rewrite E2. reflexivity.
    + destruct (IH f' n' _ _ ltac:(lia) HR Hc) as (f1 & Hf1). exists (S f1). cbn [closed]. rewrite E2. exact Hf1.
Qed.

Section Indent.
  Variable x : lexis.
  Hypothesis Hsane : sane x = true.
  Hypothesis Htidy : tidy x = true.
  Hypothesis Hin : indent_ok x = true.
  Hypothesis H9 : calm x 9 = true.
  Hypothesis H32 : calm x 32 = true.

  Lemma in_spaced : spaced x = true.
  Proof. unfold indent_ok in Hin. dand. auto. Qed.
  Lemma in_lone : lone x = true.
  Proof. unfold indent_ok in Hin. dand. auto. Qed.
  Lemma in_head : x_head x = [].
  Proof. unfold indent_ok in Hin. dand. destruct (x_head x); [reflexivity|discriminate]. Qed.
  Lemma in_free w : known_place x w -> stuck w = false.
  Proof.
    destruct w as [|g n]; cbn [known_place stuck]; [reflexivity|]. intros Hg. unfold indent_ok in Hin. dand.
    match goal with H : forallb _ (x_regions x) = true |- _ => rewrite forallb_forall in H; specialize (H _ Hg); apply negb_true_iff in H; exact H end.
  Qed.

  Lemma opens_indented g s s' : In g (x_regions x) -> indented s s' -> opens g s = opens g s'.
  Proof.
    intros Hg H. pose proof (lone_in x in_lone _ Hg) as Hl. pose proof (sane_region x Hsane g Hg) as Hne.
    pose proof (region_tidy x Htidy g Hg) as Ht. pose proof (spaced_in x in_spaced g Hg) as Hsp.
    assert (Hfree : forall n, stuck (Inside g n) = false) by (intros n; apply in_free; exact Hg).
    assert (Hl' := Hl). unfold lone_region in Hl'. dand.
    assert (Hh : has (g_open g ++ g_ahead g) s = has (g_open g ++ g_ahead g) s') by (apply has_indented; auto).
    unfold opens. rewrite <- Hh. destruct (has (g_open g ++ g_ahead g) s) eqn:E; [|reflexivity]. apply has_app in E. cbn [andb].
    f_equal. cbv zeta. pose proof (skip_indented _ _ _ H E (proj1 Ht)) as Hs.
    set (r := skipn (length (g_open g)) s) in *. set (r' := skipn (length (g_open g)) s') in *.
    destruct (closed (length r) g 0 r) eqn:E1; destruct (closed (length r') g 0 r') eqn:E2; auto.
    - rewrite (Cl_length g 0 r' Hne) in E2; [discriminate|]. eapply closed_led; eauto using indented_led.
    - rewrite (Cl_length g 0 r Hne) in E1; [discriminate|]. eapply closed_led; eauto using indented_led, indented_sym.
  Qed.

  (** The start of the line does not matter. *)
  Definition same (h h' : now) : Prop := n_code h = n_code h' /\ n_comment h = n_comment h'.

  Lemma outside_indented h h' s s' : same h h' -> indented s s' -> like_ind s s' (outside x h s) (outside x h' s').
  Proof.
    intros [Hc _] H. pose proof in_lone as Hlo. unfold lone in Hlo. dand.
    repeat match goal with H : forallb _ _ = true |- _ => rewrite forallb_forall in H end.
    assert (Hbar : barred x h = barred x h') by (unfold barred; rewrite in_head; destruct (n_start h), (n_start h'); reflexivity).
    assert (Hb : existsb (fun p => has p s) (barred x h) = existsb (fun p => has p s') (barred x h')).
    { rewrite <- Hbar. apply existsb_ext. intros p Hp. apply has_indented; auto. apply H0. unfold barred in Hp. rewrite in_head in *.
      apply in_app_iff. left. apply in_app_iff in Hp as [Hp|Hp]; auto. destruct (n_start h); destruct Hp. }
    assert (Hw : find (fun p => has (fst (fst p)) s) (x_words x) = find (fun p => has (fst (fst p)) s') (x_words x)).
    { apply find_ext. intros p Hp. apply has_indented; auto. }
    assert (Hr : find (fun g => suits h g && opens g s) (x_regions x) = find (fun g => suits h' g && opens g s') (x_regions x)).
    { apply find_ext. intros g Hg. rewrite (opens_indented g s s') by auto. unfold suits. rewrite Hc. reflexivity. }
    assert (Hword : forall p k kd, find (fun p => has (fst (fst p)) s) (x_words x) = Some (p, k, kd) ->
      like_ind s s' (Some (Bytes k kd Out)) (Some (Bytes k kd Out))).
    { intros p k kd E. apply find_some in E as [E1 E2]. cbn [fst] in E2. unfold tidy in Htidy. apply andb_prop in Htidy as [_ HT].
      rewrite forallb_forall in HT. specialize (HT _ E1). cbn [fst snd] in HT.
      apply andb_prop in HT as [HT HT2]. apply andb_prop in HT as [HT HT1]. apply Nat.ltb_lt in HT1. apply Nat.leb_le in HT2.
      assert (Ek : k = length (firstn k p)) by (rewrite firstn_length; lia).
      set (q := firstn k p) in *. rewrite Ek. apply pat_ind; auto. apply has_first; auto. }
    assert (Hreg : forall g k w, find (fun g => suits h g && opens g s) (x_regions x) = Some g ->
      like_ind s s' (Some (Bytes (length (g_open g)) k w)) (Some (Bytes (length (g_open g)) k w))).
    { intros g k w E. apply find_some in E as [E1 E2]. apply andb_prop in E2 as [_ E2]. unfold opens in E2. apply andb_prop in E2 as [E2 _].
      apply has_app in E2. destruct (region_tidy x Htidy g E1) as [T _]. apply pat_ind; auto. }
    pose proof (ind_ends _ _ H) as Hend. unfold outside.
    destruct (ind_cons _ _ H) as [[-> ->]|(c & t & t' & -> & -> & G1 & G2 & G3)]; [exact I|].
    rewrite <- Hb, <- Hw, <- Hr.
    destruct (existsb _ _); [exact I|]. destruct (find (fun p => has (fst (fst p)) (c :: t)) _) as [[[p k] kd]|] eqn:E1; [eapply Hword; eauto|].
    destruct (find (fun g => suits h g && opens g (c :: t)) _) as [g|] eqn:E2; [apply Hreg; auto|].
    destruct Hend as [[E0 E0']|(e & -> & -> & Ha & _)]; [rewrite E0, E0'|cbn [like_ind]; auto].
    assert (N10 : c <> 10) by (intros ->; discriminate E0). destruct (c =? 11); [exact I|]. cbn. auto.
  Qed.
  Lemma piece_indented w h h' s s' : known_place x w -> same h h' -> indented s s' ->
    like_ind s s' (piece_of x w h s) (piece_of x w h' s').
  Proof.
    destruct w as [|g n]; cbn [known_place piece_of]; intros Hw Hh H; [apply outside_indented; auto|].
    apply body_ind; auto using (lone_in x in_lone). exact (region_tidy x Htidy g Hw).
  Qed.

  Variable lang : string.
  Lemma mark_same k b b' h h' : same h h' -> same (mark k b h) (mark k b' h').
  Proof. intros [H1 H2]. destruct k; split; cbn; auto. Qed.
  Lemma kind_same h h' : same h h' -> kind_now h = kind_now h'.
  Proof. intros [H1 H2]. unfold kind_now. rewrite H1, H2. reflexivity. Qed.

  Lemma account_led k : forall f w L p h s l, (f < k)%nat -> account f x lang w L p h s = Some l -> known_place x w ->
    forall L' p' h' s', same h h' -> led s s' -> exists l', Acc x lang w L' p' h' s' l' /\ map shape l' = map shape l.
  Proof.
    induction k as [|k IH]; intros f w L p h s l Hk H Hw L' p' h' s' Hh Ha; [lia|].
    destruct Ha as (ws & ws' & t & t' & -> & -> & B & B' & Ha).
    assert (HA : exists f1 p1 h1, (f1 <= f)%nat /\ same h1 h' /\ account f1 x lang w L p1 h1 t = Some l).
    { destruct ws as [|b ws]; [exists f, p, h; auto|].
      destruct (account_run x Hsane in_spaced H9 H32 lang w Hw (b :: ws) ltac:(discriminate) B _ _ _ _ _ _ H) as (_ & f' & Hf & Hac).
      exists f', (p + zlen (b :: ws)), (later h). split; [lia|]. split; auto. }
    clear H. destruct HA as (f1 & p1 & h1 & Hf & Hh1 & H).
    assert (HB : exists p2 h2, same h1 h2 /\ forall l', Acc x lang w L' p2 h2 t' l' -> Acc x lang w L' p' h' (ws' ++ t') l').
    { destruct ws' as [|b ws']; [exists p', h'; auto|]. exists (p' + zlen (b :: ws')), (later h'). split; [exact Hh1|].
      intros l' HA. apply (run_account x Hsane in_spaced H9 H32 lang w Hw (in_free w Hw)); auto. discriminate. }
    destruct HB as (p2 & h2 & Hh2 & HB).
    enough (HE : exists l', Acc x lang w L' p2 h2 t' l' /\ map shape l' = map shape l) by (destruct HE as (l' & HA & Hm); eauto).
    clear HB. pose proof (piece_indented w h1 h2 t t' Hw Hh2 Ha) as HP. destruct f1 as [|f1]; [discriminate|]. cbn [account] in H.
    destruct t as [|c r].
    - destruct (ind_cons _ _ Ha) as [[_ ->]|(? & ? & ? & E & _)]; [|discriminate]. pose proof (kind_same _ _ Hh2) as HK.
      destruct w as [|[? ? ? ? ? ? [] ? ? ? ? ? ?] ?]; try discriminate; injection H as <-; eexists; (split; [exists 1%nat; reflexivity|]);
        rewrite <- HK; destruct (kind_now h1); reflexivity.
    - destruct (piece_of x w h1 (c :: r)) as [pc|] eqn:Ep; [|discriminate]. pose proof (piece_place x _ _ _ _ Hw Ep) as Hw'.
      destruct pc as [n kd w1|n kd i w1], (piece_of x w h2 t') as [[n' k' w1'|n' k' i' w1']|] eqn:Ep'; cbn [like_ind] in HP; try contradiction.
      + destruct HP as (<- & <- & <- & HP).
        destruct (IH f1 _ _ _ _ _ _ ltac:(lia) H Hw' L' (p2 + Z.of_nat n) (mark kd (LexSpec.starts n t') h2) _ (mark_same _ _ _ _ _ Hh2) (indented_led _ _ HP)) as (l' & HA & Hm).
        exists l'. split; auto. eapply Acc_b; [exact Ep'|]. exact HA.
      + destruct HP as (<- & <- & <- & <- & HP).
        destruct (account f1 x lang w1 _ _ _ _) as [l0|] eqn:Ea; [|discriminate]. injection H as <-.
        destruct (IH f1 _ _ _ _ _ _ ltac:(lia) Ea Hw' (p2 + Z.of_nat n) (p2 + Z.of_nat n) (fresh (LexSpec.starts n t')) _ (conj eq_refl eq_refl) HP) as (l' & HA & Hm).
        eexists. split; [eapply Acc_e; [exact Ep'|]; exact HA|]. cbn [map]. rewrite Hm. unfold shape. cbn [e_lang e_entity].
        rewrite (kind_same _ _ (mark_same kd false false _ _ Hh2)). reflexivity.
  Qed.
End Indent.
