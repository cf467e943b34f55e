(** Line ends LF and CR LF. *)
From Coq Require Import ZArith String List Bool Lia.
From Verif Require Import Base ParsedModel RagelSyntax RagelBuild RagelRun ParserTable.
From Verif Require Import LineSpec LexSpec LexCheck LexFacts LexBytes LexLines LexHeads LexConcat.
Import ListNotations.
Open Scope string_scope.
Open Scope Z_scope.
Open Scope list_scope.

(** ** Statements *)

(** The same lines, each ended by LF or by CR LF. *)
Inductive alike : list Z -> list Z -> Prop :=
| alike_nil : alike [] []
| alike_byte c s s' : c <> 10 -> c <> 13 -> alike s s' -> alike (c :: s) (c :: s')
| alike_end e e' s s' : e = [10] \/ e = [13; 10] -> e' = [10] \/ e' = [13; 10] -> alike s s' -> alike (e ++ s) (e' ++ s').

(** CR matches where LF does, and LF only at the end of a pattern. *)
Definition eol_ok (p : list (list Z)) : bool := forallb (fun u => eqb (among 10 u) (among 13 u)) p && one_line p.
Definition eol_region (g : region) : bool :=
  eol_ok (g_open g ++ g_ahead g) && eol_ok (g_open g) && forallb eol_ok (g_close g) && forallb eol_ok (g_never g).
Definition eol (x : lexis) : bool :=
  forallb eol_ok (x_never x ++ x_head x) && forallb (fun w => eol_ok (fst (fst w))) (x_words x)
  && forallb eol_region (x_regions x).

(** ** Proofs *)
Lemma alike_sym s s' : alike s s' -> alike s' s.
Proof. induction 1; constructor; auto. Qed.

Lemma has_alike p : eol_ok p = true -> forall s s', alike s s' -> has p s = has p s'.
Proof.
  induction p as [|u p IH]; intros Hp s s' H; [destruct s, s'; reflexivity|].
  unfold eol_ok in Hp. cbn [forallb] in Hp. apply andb_prop in Hp as [Hp Ho]. apply andb_prop in Hp as [Hu Hp].
  apply eqb_prop in Hu.
  assert (Hp' : eol_ok p = true).
  { unfold eol_ok. rewrite Hp. unfold one_line in *. destruct p; [reflexivity|]. cbn [removelast forallb] in Ho.
    apply andb_prop in Ho as [_ Ho]. exact Ho. }
  destruct H as [|c s s' H1 H2 H|e e' s s' He He' H]; [reflexivity|cbn [has]; rewrite (IH Hp' _ _ H); reflexivity|].
  destruct (among 10 u) eqn:E10.
  - destruct p as [|v p]; [destruct He as [-> | ->], He' as [-> | ->]; cbn [app has]; rewrite ?E10, <- ?Hu; destruct s, s'; reflexivity|].
    unfold one_line in Ho. cbn [removelast forallb] in Ho. rewrite E10 in Ho. discriminate.
  - destruct He as [-> | ->], He' as [-> | ->]; cbn [app has]; rewrite ?E10, <- ?Hu; reflexivity.
Qed.

(** What is read as a whole has no line end. *)
Lemma skip_alike p : forall s s', alike s s' -> has p s = true -> no_nl p = true ->
  alike (skipn (length p) s) (skipn (length p) s') /\
  (length p <> 0%nat -> LexSpec.starts (length p) s = LexSpec.starts (length p) s').
Proof.
  induction p as [|u p IH]; intros s s' H Hh Hn; [split; [exact H|intros E; now contradiction E]|].
  cbn [no_nl forallb] in Hn. apply andb_prop in Hn as [Hu Hn]. unfold apart in Hu. cbn [forallb] in Hu. dand.
  apply negb_true_iff in H0, H2. apply negb_true_iff in H1.
  destruct H as [|c s s' N1 N2 H|e e' s s' He He' H]; [discriminate| |].
  - cbn [has] in Hh. apply andb_prop in Hh as [Hc Hh]. cbn [length skipn]. destruct (IH _ _ H Hh Hn) as [Ha Hs]. split; [exact Ha|].
    intros _. unfold LexSpec.starts in *. cbn [Nat.sub]. rewrite Nat.sub_0_r. destruct (length p) as [|k] eqn:El; [reflexivity|].
    cbn [nth]. cbn [Nat.sub] in Hs. rewrite Nat.sub_0_r in Hs. apply Hs. discriminate.
  - exfalso. destruct He as [-> | ->]; cbn [app has] in Hh; apply andb_prop in Hh as [Hc _]; congruence.
Qed.

Definition like_piece (s s' : list Z) (p p' : option piece) : Prop :=
  match p, p' with
  | None, None => True
  | Some (Bytes n k w), Some (Bytes n' k' w') =>
    n = n' /\ k = k' /\ w = w' /\ alike (skipn n s) (skipn n' s') /\ LexSpec.starts n s = LexSpec.starts n' s'
  | Some (Ends n k i w), Some (Ends n' k' i' w') =>
    k = k' /\ i = i' /\ w = w' /\ alike (skipn n s) (skipn n' s') /\ LexSpec.starts n s = LexSpec.starts n' s'
  | _, _ => False
  end.

Lemma find_alike s s' l : (forall p, In p l -> eol_ok p = true) -> alike s s' ->
  find (fun p => has p s) l = find (fun p => has p s') l.
Proof. intros Hl H. apply find_ext. intros p Hp. apply has_alike; auto. Qed.
Lemma any_alike s s' l : (forall p, In p l -> eol_ok p = true) -> alike s s' ->
  existsb (fun p => has p s) l = existsb (fun p => has p s') l.
Proof. intros Hl H. apply existsb_ext. intros p Hp. apply has_alike; auto. Qed.

Lemma end_alike s s' : alike s s' ->
  line_end s = 0%nat /\ line_end s' = 0%nat \/
  exists e e', line_end s = S e /\ line_end s' = S e' /\ alike (skipn (S e) s) (skipn (S e') s')
    /\ newline_byte (nth e s 0) = newline_byte (nth e' s' 0).
Proof.
  intros H. destruct H as [|c s s' N1 N2 H|e e' s s' He He' H]; [left; auto| |].
  - cbn [line_end]. apply Z.eqb_neq in N1, N2. rewrite N1, N2. cbn [orb]. destruct (c =? 12); [right|left; auto].
    exists O, O. cbn [skipn nth]. auto.
  - right. destruct He as [-> | ->], He' as [-> | ->]; cbn [app line_end Z.eqb Pos.eqb orb]; do 2 eexists; repeat split; exact H.
Qed.
Lemma starts_nth n s : LexSpec.starts (S n) s = newline_byte (nth n s 0).
Proof. unfold LexSpec.starts. cbn [Nat.sub]. rewrite Nat.sub_0_r. reflexivity. Qed.

Lemma pat_alike s s' p k w : alike s s' -> has p s = true -> no_nl p = true -> length p <> 0%nat ->
  like_piece s s' (Some (Bytes (length p) k w)) (Some (Bytes (length p) k w)).
Proof. intros H Hh Hn Hl. destruct (skip_alike p _ _ H Hh Hn) as [H1 H2]. cbn. auto 6. Qed.
Lemma ends_alike s s' e e' k i w : alike (skipn (S e) s) (skipn (S e') s') -> newline_byte (nth e s 0) = newline_byte (nth e' s' 0) ->
  like_piece s s' (Some (Ends (S e) k i w)) (Some (Ends (S e') k i w)).
Proof. intros H1 H2. cbn [like_piece]. rewrite !starts_nth. auto 6. Qed.

Lemma body_alike g n s s' : eol_region g = true -> tidy_region g -> nonempty g -> alike s s' ->
  like_piece s s' (body g n s) (body g n s').
Proof.
  intros Hg [To Tc] [No Nc] H. unfold eol_region in Hg. dand.
  repeat match goal with H : forallb _ _ = true |- _ => rewrite forallb_forall in H end.
  pose proof (find_alike _ _ (g_close g) H2 H) as Hcl. pose proof (any_alike _ _ (g_never g) H1 H) as Hnv.
  pose proof (has_alike _ H3 _ _ H) as Hop.
  pose proof (end_alike _ _ H) as Hend.
  assert (Hfind : forall p k w, find (fun p => has p s) (g_close g) = Some p ->
    like_piece s s' (Some (Bytes (length p) k w)) (Some (Bytes (length p) k w))).
  { intros p k w E. apply find_some in E as [E1 E2]. apply pat_alike; auto. }
  assert (Hopen : forall k w, has (g_open g) s = true ->
    like_piece s s' (Some (Bytes (length (g_open g)) k w)) (Some (Bytes (length (g_open g)) k w))).
  { intros k w E. apply pat_alike; auto. }
  assert (Hlast : match s, s' with c :: r, c' :: r' =>
    like_piece s s'
      match (if c =? 92 then g_escnl g else None), line_end r with
      | Some k, S e => Some (Ends (S (S e)) k true (Inside g n))
      | _, _ =>
        match line_end s with
        | S e => match g_nl g with
                 | Cut => Some (Ends (S e) Blank false Out)
                 | Inner => Some (Ends (S e) Blank true (Inside g n))
                 | Deny => None
                 end
        | O =>
          if c =? 13 then match g_nl g with Cut => Some (Bytes 1 Blank Out) | _ => None end
          else if g_esc g && (c =? 92) then
            match r with
            | d :: _ => if newline_byte d then None else Some (Bytes 2 (g_kind g) (Inside g n))
            | [] => None
            end
          else Some (Bytes 1 (if blank_byte c then Blank else g_kind g) (Inside g n))
        end
      end
      match (if c' =? 92 then g_escnl g else None), line_end r' with
      | Some k, S e => Some (Ends (S (S e)) k true (Inside g n))
      | _, _ =>
        match line_end s' with
        | S e => match g_nl g with
                 | Cut => Some (Ends (S e) Blank false Out)
                 | Inner => Some (Ends (S e) Blank true (Inside g n))
                 | Deny => None
                 end
        | O =>
          if c' =? 13 then match g_nl g with Cut => Some (Bytes 1 Blank Out) | _ => None end
          else if g_esc g && (c' =? 92) then
            match r' with
            | d :: _ => if newline_byte d then None else Some (Bytes 2 (g_kind g) (Inside g n))
            | [] => None
            end
          else Some (Bytes 1 (if blank_byte c' then Blank else g_kind g) (Inside g n))
        end
      end
    | [], [] => True | _, _ => False end).
  { clear Hfind Hopen Hcl Hnv Hop. destruct H as [|c t t' N1 N2 H|e e' t t' He He' H]; [exact I| |].
    - assert (Hb : like_piece (c :: t) (c :: t')
        match line_end (c :: t) with
        | S e => match g_nl g with
                 | Cut => Some (Ends (S e) Blank false Out)
                 | Inner => Some (Ends (S e) Blank true (Inside g n))
                 | Deny => None
                 end
        | O =>
          if c =? 13 then match g_nl g with Cut => Some (Bytes 1 Blank Out) | _ => None end
          else if g_esc g && (c =? 92) then
            match t with
            | d :: _ => if newline_byte d then None else Some (Bytes 2 (g_kind g) (Inside g n))
            | [] => None
            end
          else Some (Bytes 1 (if blank_byte c then Blank else g_kind g) (Inside g n))
        end
        match line_end (c :: t') with
        | S e => match g_nl g with
                 | Cut => Some (Ends (S e) Blank false Out)
                 | Inner => Some (Ends (S e) Blank true (Inside g n))
                 | Deny => None
                 end
        | O =>
          if c =? 13 then match g_nl g with Cut => Some (Bytes 1 Blank Out) | _ => None end
          else if g_esc g && (c =? 92) then
            match t' with
            | d :: _ => if newline_byte d then None else Some (Bytes 2 (g_kind g) (Inside g n))
            | [] => None
            end
          else Some (Bytes 1 (if blank_byte c then Blank else g_kind g) (Inside g n))
        end).
      { destruct Hend as [[-> ->]|(e & e' & -> & -> & Ha & Hs)]; [|destruct (g_nl g); [..|exact I]; apply ends_alike; auto].
        destruct (Z.eqb_spec c 13); [contradiction|]. destruct (g_esc g && (c =? 92)) eqn:Ee.
        - destruct H as [|d u u' M1 M2 H|e e' u u' He He' H]; [exact I| |].
          + destruct (newline_byte d) eqn:Ed; [exact I|]. cbn. auto 6.
          + destruct He as [-> | ->], He' as [-> | ->]; exact I.
        - cbn. auto 6. }
      destruct (c =? 92) eqn:E92; [|exact Hb]. destruct (g_escnl g); [|exact Hb].
      destruct (end_alike _ _ H) as [[-> ->]|(e & e' & -> & -> & Ha & Hs)]; [exact Hb|]. apply ends_alike; auto.
    - destruct He as [-> | ->], He' as [-> | ->]; cbn [app line_end Z.eqb Pos.eqb orb];
        destruct (g_nl g); try exact I; cbn [like_piece skipn]; repeat split; exact H. }
  destruct s as [|c r], s' as [|c' r']; try contradiction; [exact I|]. unfold body. rewrite <- Hcl, <- Hnv, <- Hop.
  destruct (find (fun p => has p (c :: r)) (g_close g)) as [p|] eqn:Ef; [destruct n as [|n]; [auto|]|];
    (destruct (existsb _ _); [exact I|]); auto;
    (destruct (g_nest g); cbn [andb]; [destruct (has (g_open g) (c :: r)) eqn:Eh; [auto|]|]; exact Hlast).
Qed.

Lemma closed_alike g : eol_region g = true -> tidy_region g -> nonempty g ->
  forall f n s s', alike s s' -> closed f g n s = closed f g n s'.
Proof.
  intros H1 H2 H3. induction f as [|f IH]; intros n s s' H; [reflexivity|]. cbn [closed].
  pose proof (body_alike g n s s' H1 H2 H3 H) as HB.
  destruct (body g n s) as [[k kd w|k kd i w]|], (body g n s') as [[k' kd' w'|k' kd' i' w']|]; cbn [like_piece] in HB; try contradiction;
    auto; destruct HB as (HB1 & HB2 & HB3 & HB4 & _); subst; destruct w' as [|? ?]; auto.
Qed.

Section Ends.
  Variable x : lexis.
  Hypothesis Hsane : sane x = true.
  Hypothesis Htidy : tidy x = true.
  Hypothesis Heol : eol x = true.

  Lemma eol_in g : In g (x_regions x) -> eol_region g = true.
  Proof. intros H. unfold eol in Heol. apply andb_prop in Heol as [_ Hl]. rewrite forallb_forall in Hl. exact (Hl _ H). Qed.

  Lemma opens_alike g s s' : In g (x_regions x) -> alike s s' -> opens g s = opens g s'.
  Proof.
    intros Hin H. pose proof (eol_in _ Hin) as Hg. pose proof (region_tidy x Htidy g Hin) as Ht. pose proof (sane_region x Hsane g Hin) as Hne.
    assert (Hh : has (g_open g ++ g_ahead g) s = has (g_open g ++ g_ahead g) s').
    { apply has_alike; auto. unfold eol_region in Hg. dand. auto. }
    unfold opens. rewrite <- Hh. destruct (has (g_open g ++ g_ahead g) s) eqn:E; [|reflexivity]. apply has_app in E. cbn [andb].
    f_equal. cbv zeta. destruct Ht as [Ht1 Ht2]. destruct (skip_alike _ _ _ H E Ht1) as [Hs _].
    set (r := skipn (length (g_open g)) s) in *. set (r' := skipn (length (g_open g)) s') in *.
    pose proof (closed_alike g Hg (conj Ht1 Ht2) Hne) as HC.
    destruct (closed (length r) g 0 r) eqn:E1; destruct (closed (length r') g 0 r') eqn:E2; auto.
    - rewrite (HC _ _ _ _ Hs) in E1. rewrite (Cl_length g 0 r' Hne) in E2; [discriminate|]. eexists. exact E1.
    - rewrite <- (HC _ _ _ _ Hs) in E2. rewrite (Cl_length g 0 r Hne) in E1; [discriminate|]. eexists. exact E2.
  Qed.

  Lemma outside_alike h s s' : alike s s' -> like_piece s s' (outside x h s) (outside x h s').
  Proof.
    intros H. pose proof Heol as He. unfold eol in He. dand.
    repeat match goal with H : forallb _ _ = true |- _ => rewrite forallb_forall in H end.
    assert (Hb : existsb (fun p => has p s) (barred x h) = existsb (fun p => has p s') (barred x h)).
    { apply any_alike; auto. intros p Hp. apply H0. unfold barred in Hp. apply in_app_iff in Hp as [Hp|Hp]; apply in_app_iff; auto.
      destruct (n_start h); [auto|destruct Hp]. }
    assert (Hw : find (fun p => has (fst (fst p)) s) (x_words x) = find (fun p => has (fst (fst p)) s') (x_words x)).
    { apply find_ext. intros p Hp. apply has_alike; auto. }
    assert (Hr : find (fun g => suits h g && opens g s) (x_regions x) = find (fun g => suits h g && opens g s') (x_regions x)).
    { apply find_ext. intros g Hg. rewrite (opens_alike g s s'); auto. }
    assert (Hword : forall p k kd, find (fun p => has (fst (fst p)) s) (x_words x) = Some (p, k, kd) ->
      like_piece s s' (Some (Bytes k kd Out)) (Some (Bytes k kd Out))).
    { intros p k kd E. apply find_some in E as [E1 E2]. cbn [fst] in E2. unfold tidy in Htidy. apply andb_prop in Htidy as [_ HT].
      rewrite forallb_forall in HT. specialize (HT _ E1). cbn [fst snd] in HT.
      apply andb_prop in HT as [HT HT2]. apply andb_prop in HT as [HT HT1]. apply Nat.ltb_lt in HT1. apply Nat.leb_le in HT2. assert (Ek : k = length (firstn k p)) by (rewrite firstn_length; lia).
      set (q := firstn k p) in *. rewrite Ek. apply pat_alike; auto; [apply has_first; auto|lia]. }
    assert (Hreg : forall g k w, find (fun g => suits h g && opens g s) (x_regions x) = Some g ->
      like_piece s s' (Some (Bytes (length (g_open g)) k w)) (Some (Bytes (length (g_open g)) k w))).
    { intros g k w E. apply find_some in E as [E1 E2]. apply andb_prop in E2 as [_ E2]. unfold opens in E2. apply andb_prop in E2 as [E2 _].
      apply has_app in E2. destruct (region_tidy x Htidy g E1) as [T1 _]. destruct (sane_region x Hsane g E1) as [T2 _]. apply pat_alike; auto. }
    pose proof (end_alike _ _ H) as Hend. unfold outside.
    assert (Hlast : match s, s' with c :: r, c' :: r' =>
      like_piece s s'
        match line_end s with S e => Some (Ends (S e) Blank false Out)
        | O => if c =? 11 then None else Some (Bytes 1 (if blank_byte c || (c =? 13) then Blank else Code) Out) end
        match line_end s' with S e => Some (Ends (S e) Blank false Out)
        | O => if c' =? 11 then None else Some (Bytes 1 (if blank_byte c' || (c' =? 13) then Blank else Code) Out) end
      | [], [] => True | _, _ => False end).
    { clear - H Hend. destruct H as [|c t t' N1 N2 H|e e' t t' He He' H]; [exact I| |].
      - destruct Hend as [[-> ->]|(e & e' & -> & -> & Ha & Hs)]; [|apply ends_alike; auto].
        destruct (c =? 11); [exact I|]. cbn. auto 6.
      - destruct He as [-> | ->], He' as [-> | ->]; cbn [app line_end Z.eqb Pos.eqb orb like_piece skipn]; repeat split; exact H. }
    destruct s as [|c r], s' as [|c' r']; try contradiction; [exact I|]. rewrite <- Hb, <- Hw, <- Hr.
    destruct (existsb _ _); [exact I|]. destruct (find (fun p => has (fst (fst p)) (c :: r)) _) as [[[p k] kd]|] eqn:E1; [eapply Hword; eauto|].
    destruct (find (fun g => suits h g && opens g (c :: r)) _) as [g|] eqn:E2; [apply Hreg; auto|exact Hlast].
  Qed.

  Lemma piece_alike w h s s' : known_place x w -> alike s s' -> like_piece s s' (piece_of x w h s) (piece_of x w h s').
  Proof.
    destruct w as [|g n]; cbn [known_place piece_of]; intros Hw H; [apply outside_alike; auto|].
    apply body_alike; auto using eol_in; [apply (region_tidy x Htidy g Hw)|apply (sane_region x Hsane g Hw)].
  Qed.

  Variable lang : string.
  Definition shape (e : event) : string * string := (e_lang e, e_entity e).
  Lemma account_alike f : forall w L p h s l, account f x lang w L p h s = Some l -> known_place x w ->
    forall L' p' s', alike s s' -> exists l', account f x lang w L' p' h s' = Some l' /\ map shape l' = map shape l.
  Proof.
    induction f as [|f IH]; intros w L p h s l H Hw L' p' s' Ha; [discriminate|].
    pose proof (piece_alike w h s s' Hw Ha) as HP.
    assert (Hne : s = [] /\ s' = [] \/ s <> [] /\ s' <> []).
    { destruct Ha as [| |e e' t t' He He' Ha]; [left; auto|right; split; discriminate|right].
      destruct He as [-> | ->], He' as [-> | ->]; split; discriminate. }
    cbn [account] in *. destruct Hne as [[-> ->]|[N1 N2]].
    - destruct w as [|[? ? ? ? ? ? [] ? ? ? ? ? ?] ?]; try discriminate; injection H as <-; eexists; (split; [reflexivity|]);
        destruct (kind_now h); reflexivity.
    - destruct s as [|c r], s' as [|c' r']; try contradiction.
      destruct (piece_of x w h (c :: r)) as [pc|] eqn:Ep; [|discriminate]. pose proof (piece_place x _ _ _ _ Hw Ep) as Hw'.
      destruct pc as [n k w1|n k i w1], (piece_of x w h (c' :: r')) as [[n' k' w1'|n' k' i' w1']|]; cbn [like_piece] in HP; try contradiction.
      + destruct HP as (<- & <- & <- & HP & Hs). rewrite <- Hs. eapply IH; eauto.
      + destruct HP as (<- & <- & <- & HP & Hs). rewrite <- Hs.
        destruct (account f x lang w1 _ _ _ _) as [l0|] eqn:Ea; [|discriminate]. injection H as <-.
        destruct (IH _ _ _ _ _ _ Ea Hw' (p' + Z.of_nat n') (p' + Z.of_nat n') _ HP) as (l' & -> & Hm).
        eexists. split; [reflexivity|]. cbn [map]. rewrite Hm. reflexivity.
  Qed.
End Ends.
