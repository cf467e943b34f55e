(** Spaces and tabs between other bytes. *)
From Coq Require Import ZArith String List Bool Lia.
From Verif Require Import Base ParsedModel RagelSyntax RagelBuild RagelRun ParserTable.
From Verif Require Import LineSpec LexSpec LexCheck LexFacts LexBytes LexLines LexHeads LexConcat LexEnds.
Import ListNotations.
Open Scope string_scope.
Open Scope Z_scope.
Open Scope list_scope.

Local Notation zlen l := (Z.of_nat (length l)).

(** ** Statements *)
Definition lead_blank (s : list Z) : bool := match s with c :: _ => blank_byte c | [] => false end.

(** The same text but for the number and kind of blanks where there are some; none follows
    a backslash. *)
Inductive respaced : list Z -> list Z -> Prop :=
| rs_nil : respaced [] []
| rs_byte c s s' : blank_byte c = false -> (c = 92 -> lead_blank s = false) -> respaced s s' -> respaced (c :: s) (c :: s')
| rs_run ws ws' s s' : ws <> [] -> ws' <> [] -> forallb blank_byte ws = true -> forallb blank_byte ws' = true ->
  respaced s s' -> respaced (ws ++ s) (ws' ++ s').

(** Tabs match where spaces do, and only at the end of a pattern. *)
Definition sp_ok (p : list (list Z)) : bool :=
  forallb (fun u => eqb (among 9 u) (among 32 u)) p && forallb (fun u => negb (among 32 u)) (removelast p).
Definition no_sp (p : list (list Z)) : bool := forallb (apart [9; 32]) p.
Definition spaced_region (g : region) : bool :=
  sp_ok (g_open g ++ g_ahead g) && no_sp (g_open g) && forallb no_sp (g_close g) && forallb sp_ok (g_never g).
Definition spaced (x : lexis) : bool :=
  forallb sp_ok (x_never x ++ x_head x)
  && forallb (fun w => sp_ok (fst (fst w)) && no_sp (firstn (snd (fst w)) (fst (fst w)))) (x_words x)
  && forallb spaced_region (x_regions x).

(** ** Proofs *)
Lemma respaced_lead s s' : respaced s s' -> lead_blank s = lead_blank s'.
Proof.
  destruct 1 as [|c s s' Hc Hb H|ws ws' s s' N N' B B' H]; auto.
  destruct ws as [|c ws]; [contradiction|]. destruct ws' as [|c' ws']; [contradiction|]. cbn in *.
  apply andb_prop in B as [-> _]. apply andb_prop in B' as [-> _]. reflexivity.
Qed.
Lemma respaced_sym s s' : respaced s s' -> respaced s' s.
Proof.
  induction 1 as [|c s s' Hc Hb H|]; constructor; auto. intros E. rewrite <- (respaced_lead _ _ H). auto.
Qed.
Lemma respaced_nil s' : respaced [] s' -> s' = [].
Proof.
  intros H. remember [] as s eqn:E. destruct H as [|c t t' Hc Hb H|ws ws' t t' N N' B B' H]; auto; [discriminate|].
  apply app_eq_nil in E as [E _]. contradiction.
Qed.
Lemma blank_two c : blank_byte c = true -> c = 9 \/ c = 32.
Proof. unfold blank_byte. destruct (Z.eqb_spec c 9), (Z.eqb_spec c 32); auto; discriminate. Qed.

Lemma apart_sp u : apart [9; 32] u = true -> among 9 u = false /\ among 32 u = false.
Proof. unfold apart. cbn [forallb]. destruct (among 9 u), (among 32 u); auto; discriminate. Qed.
Lemma no_sp_ok p : no_sp p = true -> sp_ok p = true.
Proof.
  unfold no_sp, sp_ok. intros H. assert (H' : forall u, In u p -> among 9 u = false /\ among 32 u = false).
  { intros u Hu. rewrite forallb_forall in H. exact (apart_sp _ (H _ Hu)). }
  apply andb_true_intro. split; apply forallb_forall; intros u Hu.
  - destruct (H' u Hu) as [-> ->]. reflexivity.
  - assert (Hin : In u p).
    { clear - Hu. induction p as [|v p IH]; [destruct Hu|]. cbn [removelast] in Hu. destruct p; [destruct Hu|].
      destruct Hu as [->|Hu]; [left; auto|right; auto]. }
    destruct (H' u Hin) as [_ ->]. reflexivity.
Qed.

Lemma has_blank p c r : sp_ok p = true -> blank_byte c = true -> has p (c :: r) = has p [32].
Proof.
  intros Hp Hc. unfold sp_ok in Hp. apply andb_prop in Hp as [H1 H2]. destruct p as [|u p]; [reflexivity|]. cbn [forallb] in H1.
  apply andb_prop in H1 as [Hu _]. apply eqb_prop in Hu.
  assert (E : among c u = among 32 u) by (apply blank_two in Hc as [-> | ->]; auto).
  cbn [has]. rewrite E. destruct p as [|v p]; [destruct r; reflexivity|]. cbn [removelast forallb] in H2.
  apply andb_prop in H2 as [H2 _]. apply negb_true_iff in H2. rewrite H2. reflexivity.
Qed.
Lemma has_respaced p : sp_ok p = true -> forall s s', respaced s s' -> has p s = has p s'.
Proof.
  induction p as [|u p IH]; intros Hp s s' H; [destruct s, s'; reflexivity|].
  destruct H as [|c s s' Hc Hb H|ws ws' s s' N N' B B' H]; [reflexivity| |].
  - cbn [has]. rewrite (IH) with (s := s) (s' := s'); [reflexivity| |exact H]. unfold sp_ok in *. cbn [forallb] in Hp. apply andb_prop in Hp as [Hp Ho].
    apply andb_prop in Hp as [_ Hp]. rewrite Hp. destruct p; [reflexivity|]. cbn [removelast forallb] in Ho.
    apply andb_prop in Ho as [_ Ho]. exact Ho.
  - destruct ws as [|c ws]; [contradiction|]. destruct ws' as [|c' ws']; [contradiction|]. cbn [app forallb] in *.
    apply andb_prop in B as [B _]. apply andb_prop in B' as [B' _]. rewrite (has_blank _ c), (has_blank _ c'); auto.
Qed.

Lemma skip_respaced p : forall s s', respaced s s' -> has p s = true -> no_sp p = true ->
  respaced (skipn (length p) s) (skipn (length p) s') /\
  (length p <> 0%nat -> LexSpec.starts (length p) s = LexSpec.starts (length p) s').
Proof.
  induction p as [|u p IH]; intros s s' H Hh Hn; [split; [exact H|intros E; now contradiction E]|].
  cbn [no_sp forallb] in Hn. apply andb_prop in Hn as [Hu Hn]. apply apart_sp in Hu as [H0 H1].
  destruct H as [|c s s' Hc Hb H|ws ws' s s' N N' B B' H]; [discriminate| |].
  - cbn [has] in Hh. apply andb_prop in Hh as [_ Hh]. cbn [length skipn]. destruct (IH _ _ H Hh Hn) as [Ha Hs]. split; [exact Ha|].
    intros _. unfold LexSpec.starts in *. cbn [Nat.sub]. rewrite Nat.sub_0_r. destruct (length p) as [|k] eqn:El; [reflexivity|].
    cbn [nth]. cbn [Nat.sub] in Hs. rewrite Nat.sub_0_r in Hs. apply Hs. discriminate.
  - exfalso. destruct ws as [|c ws]; [contradiction|]. cbn [app has forallb] in *. apply andb_prop in B as [B _].
    apply andb_prop in Hh as [Hh _]. apply blank_two in B as [-> | ->]; congruence.
Qed.

Definition like_spaced (s s' : list Z) (p p' : option piece) : Prop :=
  match p, p' with
  | None, None => True
  | Some (Bytes n k w), Some (Bytes n' k' w') =>
    n = n' /\ k = k' /\ w = w' /\ respaced (skipn n s) (skipn n' s') /\ LexSpec.starts n s = LexSpec.starts n' s'
  | Some (Ends n k i w), Some (Ends n' k' i' w') =>
    k = k' /\ i = i' /\ w = w' /\ respaced (skipn n s) (skipn n' s') /\ LexSpec.starts n s = LexSpec.starts n' s'
  | _, _ => False
  end.

Lemma end_respaced s s' : respaced s s' ->
  line_end s = 0%nat /\ line_end s' = 0%nat \/
  exists e, line_end s = S e /\ line_end s' = S e /\ respaced (skipn (S e) s) (skipn (S e) s')
    /\ newline_byte (nth e s 0) = newline_byte (nth e s' 0).
Proof.
  intros H. destruct H as [|c s s' Hc Hb H|ws ws' s s' N N' B B' H]; [left; auto| |].
  - cbn [line_end]. destruct ((c =? 10) || (c =? 12)); [right; exists O; cbn [skipn nth]; auto|].
    destruct (c =? 13); [|left; auto]. destruct H as [|d t t' Hd Hb' H|ws ws' t t' N N' B B' H]; [left; auto| |].
    + right. destruct (d =? 10); [exists 1%nat|exists O]; cbn [skipn nth]; repeat split; auto. constructor; auto.
    + right. exists O. destruct ws as [|d ws]; [contradiction|]. destruct ws' as [|d' ws']; [contradiction|]. cbn [app forallb] in *.
      pose proof (andb_prop _ _ B) as [B1 _]. pose proof (andb_prop _ _ B') as [B1' _].
      assert (E : d =? 10 = false) by (apply blank_two in B1 as [-> | ->]; reflexivity).
      assert (E' : d' =? 10 = false) by (apply blank_two in B1' as [-> | ->]; reflexivity).
      rewrite E, E'. cbn [skipn nth]. repeat split; auto. apply (rs_run (d :: ws) (d' :: ws')); auto.
  - left. destruct ws as [|d ws]; [contradiction|]. destruct ws' as [|d' ws']; [contradiction|]. cbn [app forallb line_end] in *.
    apply andb_prop in B as [B _]. apply andb_prop in B' as [B' _].
    apply blank_two in B as [-> | ->]; apply blank_two in B' as [-> | ->]; auto.
Qed.

Lemma end_same s s' : respaced s s' -> firstn (line_end s) s = firstn (line_end s') s'.
Proof.
  intros H. destruct (end_respaced _ _ H) as [[-> ->]|(e & E1 & E2 & _)]; [reflexivity|]. rewrite E1, E2.
  destruct H as [|c s s' Hc Hb H|ws ws' s s' N N' B B' H]; [discriminate| |].
  - cbn [line_end] in E1. destruct ((c =? 10) || (c =? 12)); [injection E1 as <-; reflexivity|].
    destruct (c =? 13); [|discriminate]. destruct s as [|d s]; [discriminate|]. destruct (d =? 10) eqn:Ed; [|injection E1 as <-; reflexivity].
    injection E1 as <-. cbn [line_end] in E2. destruct ((c =? 10) || (c =? 12)); [discriminate|]. destruct (c =? 13); [|discriminate].
    destruct s' as [|d' s']; [discriminate|]. destruct (d' =? 10) eqn:Ed'; [|discriminate]. apply Z.eqb_eq in Ed, Ed'. subst. reflexivity.
  - exfalso. destruct ws as [|d ws]; [contradiction|]. cbn [app forallb line_end] in *.
    apply andb_prop in B as [B _]. apply blank_two in B as [-> | ->]; discriminate.
Qed.

Lemma pat_spaced s s' p k w : respaced s s' -> has p s = true -> no_sp p = true -> length p <> 0%nat ->
  like_spaced s s' (Some (Bytes (length p) k w)) (Some (Bytes (length p) k w)).
Proof. intros H Hh Hn Hl. destruct (skip_respaced p _ _ H Hh Hn) as [H1 H2]. cbn. auto 6. Qed.
Lemma ends_spaced s s' e k i w : respaced (skipn (S e) s) (skipn (S e) s') -> newline_byte (nth e s 0) = newline_byte (nth e s' 0) ->
  like_spaced s s' (Some (Ends (S e) k i w)) (Some (Ends (S e) k i w)).
Proof. intros H1 H2. cbn [like_spaced]. rewrite !starts_nth. auto 6. Qed.

(** A piece that starts with something else than a blank. *)
Lemma body_spaced g n s s' : spaced_region g = true -> nonempty g -> respaced s s' -> lead_blank s = false ->
  like_spaced s s' (body g n s) (body g n s').
Proof.
  intros Hg [No Nc] H Hlead. unfold spaced_region in Hg. dand.
  repeat match goal with H : forallb _ _ = true |- _ => rewrite forallb_forall in H end.
  assert (Hcl : find (fun p => has p s) (g_close g) = find (fun p => has p s') (g_close g)).
  { apply find_ext. intros p Hp. apply has_respaced; auto using no_sp_ok. }
  assert (Hnv : existsb (fun p => has p s) (g_never g) = existsb (fun p => has p s') (g_never g)).
  { apply existsb_ext. intros p Hp. apply has_respaced; auto. }
  assert (Hop : has (g_open g) s = has (g_open g) s') by (apply has_respaced; auto using no_sp_ok).
  pose proof (end_respaced _ _ H) as Hend.
  assert (Hfind : forall p k w, find (fun p => has p s) (g_close g) = Some p ->
    like_spaced s s' (Some (Bytes (length p) k w)) (Some (Bytes (length p) k w))).
  { intros p k w E. apply find_some in E as [E1 E2]. apply pat_spaced; auto. }
  assert (Hopen : forall k w, has (g_open g) s = true ->
    like_spaced s s' (Some (Bytes (length (g_open g)) k w)) (Some (Bytes (length (g_open g)) k w))).
  { intros k w E. apply pat_spaced; auto. }
  destruct H as [|c t t' Hc Hb H|ws ws' t t' N N' B B' H]; [exact I| |].
  2:{ exfalso. destruct ws as [|d ws]; [contradiction|]. cbn in *. apply andb_prop in B as [B _]. congruence. }
  assert (Hlast : like_spaced (c :: t) (c :: t')
      match line_end (c :: t) with
      | S e => match g_nl g with
               | Cut => Some (Ends (S e) Blank false Out)
               | Inner => Some (Ends (S e) Blank true (Inside g n))
               | Deny => None
               end
      | O =>
        if c =? 13 then match g_nl g with Cut => Some (Bytes 1 Blank Out) | _ => None end
        else if g_esc g && (c =? 92) then
          match t with
          | d :: _ => if newline_byte d then None else Some (Bytes 2 (g_kind g) (Inside g n))
          | [] => None
          end
        else Some (Bytes 1 (if blank_byte c then Blank else g_kind g) (Inside g n))
      end
      match line_end (c :: t') with
      | S e => match g_nl g with
               | Cut => Some (Ends (S e) Blank false Out)
               | Inner => Some (Ends (S e) Blank true (Inside g n))
               | Deny => None
               end
      | O =>
        if c =? 13 then match g_nl g with Cut => Some (Bytes 1 Blank Out) | _ => None end
        else if g_esc g && (c =? 92) then
          match t' with
          | d :: _ => if newline_byte d then None else Some (Bytes 2 (g_kind g) (Inside g n))
          | [] => None
          end
        else Some (Bytes 1 (if blank_byte c then Blank else g_kind g) (Inside g n))
      end).
  { destruct Hend as [[-> ->]|(e & -> & -> & Ha & Hs)]; [|destruct (g_nl g); [..|exact I]; apply ends_spaced; auto].
    destruct (c =? 13); [destruct (g_nl g); cbn; auto 6|]. destruct (g_esc g && (c =? 92)) eqn:Ee.
    - apply andb_prop in Ee as [_ Ee]. apply Z.eqb_eq in Ee. specialize (Hb Ee).
      destruct H as [|d u u' Hd Hb' H|ws ws' u u' N N' B B' H]; [exact I| |].
      + destruct (newline_byte d) eqn:Ed; [exact I|]. cbn. auto 6.
      + exfalso. destruct ws as [|d ws]; [contradiction|]. cbn in *. apply andb_prop in B as [B _]. congruence.
    - cbn. auto 6. }
  unfold body. rewrite <- Hcl, <- Hnv, <- Hop.
  destruct (find (fun p => has p (c :: t)) (g_close g)) as [p|] eqn:Ef; [destruct n as [|n]; [auto|]|];
    (destruct (existsb _ _); [exact I|]); auto;
    (destruct (g_nest g); cbn [andb]; [destruct (has (g_open g) (c :: t)) eqn:Eh; [auto|]|]);
    (destruct (c =? 92) eqn:E92; [|exact Hlast]); (destruct (g_escnl g); [|exact Hlast]);
    (destruct (end_respaced _ _ H) as [[-> ->]|(e & -> & -> & Ha & Hs)]; [exact Hlast|apply ends_spaced; auto]).
Qed.

(** Blanks. *)
Definition stuck (w : place) : bool :=
  match w with Out => false | Inside g _ => existsb (fun p => has p [32]) (g_never g) end.
Lemma body_blank g n c r : spaced_region g = true -> nonempty g -> blank_byte c = true ->
  body g n (c :: r) = if stuck (Inside g n) then None else Some (Bytes 1 Blank (Inside g n)).
Proof.
  intros Hg [No Nc] Hc. unfold spaced_region in Hg. dand.
  repeat match goal with H : forallb _ _ = true |- _ => rewrite forallb_forall in H end.
  assert (Hno : forall p, no_sp p = true -> length p <> 0%nat -> has p (c :: r) = false).
  { intros p Hp Hl. destruct p as [|u p]; [contradiction Hl; reflexivity|]. cbn [no_sp forallb] in Hp. apply andb_prop in Hp as [Hu _].
    apply apart_sp in Hu as [U1 U2]. cbn [has]. apply blank_two in Hc as [-> | ->]; rewrite ?U1, ?U2; reflexivity. }
  unfold body. rewrite (find_none_of (fun p => has p (c :: r)) (g_close g)).
  2:{ apply not_true_is_false. intros E. apply existsb_exists in E as (p & Hp & E). rewrite Hno in E; auto. discriminate. }
  rewrite (existsb_ext (fun p => has p (c :: r)) (fun p => has p [32])) by (intros; apply has_blank; auto).
  cbn [stuck]. destruct (existsb _ _); [reflexivity|]. rewrite (Hno (g_open g)) by auto. rewrite andb_false_r.
  apply blank_two in Hc as [-> | ->]; cbn; rewrite andb_false_r; reflexivity.
Qed.

Lemma closed_run g : spaced_region g = true -> nonempty g -> forall ws, ws <> [] -> forallb blank_byte ws = true -> forall f n s,
  closed f g n (ws ++ s) = true ->
  stuck (Inside g n) = false /\ exists f', (f' < f)%nat /\ closed f' g n s = true.
Proof.
  intros Hg Hne. induction ws as [|c ws IH]; intros Hn Hw f n s H; [contradiction|]. cbn [forallb] in Hw. apply andb_prop in Hw as [Hc Hw].
  destruct f as [|f]; [discriminate|]. cbn [app closed] in H. rewrite body_blank in H by auto.
  destruct (stuck (Inside g n)) eqn:Es; [discriminate|]. split; auto. cbn [skipn] in H. destruct ws as [|d ws]; [exists f; split; [lia|exact H]|].
  destruct (IH ltac:(discriminate) Hw _ _ _ H) as (_ & f' & Hf & Hcl). exists f'. split; [lia|auto].
Qed.
Lemma run_closed g : spaced_region g = true -> nonempty g -> forall ws, forallb blank_byte ws = true -> forall n s,
  stuck (Inside g n) = false -> Cl g n s -> Cl g n (ws ++ s).
Proof.
  intros Hg Hne. induction ws as [|c ws IH]; intros Hw n s Hs H; [exact H|]. cbn [forallb] in Hw. apply andb_prop in Hw as [Hc Hw].
  destruct (IH Hw n s Hs H) as (f & Hf). exists (S f). cbn [app closed]. rewrite body_blank by auto. rewrite Hs. exact Hf.
Qed.
Lemma closed_respaced g : spaced_region g = true -> nonempty g ->
  forall k f n s s', (f < k)%nat -> respaced s s' -> closed f g n s = true -> Cl g n s'.
Proof.
  intros H1 H2. induction k as [|k IH]; intros f n s s' Hk H Hc; [lia|].
  destruct (lead_blank s) eqn:El.
  - destruct H as [|c t t' Hc' Hb H|ws ws' t t' N N' B B' H]; [discriminate|cbn in El; congruence|].
    destruct (closed_run g H1 H2 ws N B _ _ _ Hc) as (Hs & f' & Hf & Hcl). apply run_closed; auto. eapply IH; [|exact H|exact Hcl]. lia.
  - pose proof (body_spaced g n s s' H1 H2 H El) as HB. destruct f as [|f]; [discriminate|]. cbn [closed] in Hc.
    destruct (body g n s) as [pc|] eqn:E1; [|discriminate].
    pose proof (body_place _ _ _ _ E1) as HP.
    destruct pc as [m kd w|m kd i w], (body g n s') as [[m' kd' w'|m' kd' i' w']|] eqn:E2; cbn [like_spaced] in HB; try contradiction.
    + destruct HB as (<- & <- & <- & HR & _). destruct w as [|g' n'].
      * exists 1%nat. cbn [closed]. rewrite E2. reflexivity.
      * destruct (IH f n' _ _ ltac:(lia) HR Hc) as (f' & Hf'). exists (S f'). cbn [closed]. rewrite E2. exact Hf'.
    + destruct HB as (<- & <- & <- & HR & _). destruct w as [|g' n'].
      * exists 1%nat. cbn [closed]. rewrite E2. reflexivity.
      * destruct (IH f n' _ _ ltac:(lia) HR Hc) as (f' & Hf'). exists (S f'). cbn [closed]. rewrite E2. exact Hf'.
Qed.

Section Spaces.
  Variable x : lexis.
  Hypothesis Hsane : sane x = true.
  Hypothesis Htidy : tidy x = true.
  Hypothesis Hsp : spaced x = true.
  Hypothesis H9 : calm x 9 = true.
  Hypothesis H32 : calm x 32 = true.

  Lemma spaced_in g : In g (x_regions x) -> spaced_region g = true.
  Proof. intros H. unfold spaced in Hsp. apply andb_prop in Hsp as [_ Hl]. rewrite forallb_forall in Hl. exact (Hl _ H). Qed.

  Lemma opens_respaced g s s' : In g (x_regions x) -> respaced s s' -> opens g s = opens g s'.
  Proof.
    intros Hin H. pose proof (spaced_in _ Hin) as Hg. pose proof (sane_region x Hsane g Hin) as Hne.
    assert (Hg' := Hg). unfold spaced_region in Hg'. dand.
    assert (Hh : has (g_open g ++ g_ahead g) s = has (g_open g ++ g_ahead g) s') by (apply has_respaced; auto).
    unfold opens. rewrite <- Hh. destruct (has (g_open g ++ g_ahead g) s) eqn:E; [|reflexivity]. apply has_app in E. cbn [andb].
    f_equal. cbv zeta. destruct (skip_respaced _ _ _ H E) as [Hs _]; auto.
    set (r := skipn (length (g_open g)) s) in *. set (r' := skipn (length (g_open g)) s') in *.
    destruct (closed (length r) g 0 r) eqn:E1; destruct (closed (length r') g 0 r') eqn:E2; auto.
    - rewrite (Cl_length g 0 r' Hne) in E2; [discriminate|]. eapply closed_respaced; eauto.
    - rewrite (Cl_length g 0 r Hne) in E1; [discriminate|]. eapply closed_respaced; eauto. apply respaced_sym. exact Hs.
  Qed.

  Lemma outside_spaced h s s' : respaced s s' -> lead_blank s = false -> like_spaced s s' (outside x h s) (outside x h s').
  Proof.
    intros H Hlead. pose proof Hsp as He. unfold spaced in He. dand.
    repeat match goal with H : forallb _ _ = true |- _ => rewrite forallb_forall in H end.
    assert (Hb : existsb (fun p => has p s) (barred x h) = existsb (fun p => has p s') (barred x h)).
    { apply existsb_ext. intros p Hp. apply has_respaced; auto. apply H0. unfold barred in Hp. apply in_app_iff in Hp as [Hp|Hp]; apply in_app_iff; auto.
      destruct (n_start h); [auto|destruct Hp]. }
    assert (Hw : find (fun p => has (fst (fst p)) s) (x_words x) = find (fun p => has (fst (fst p)) s') (x_words x)).
    { apply find_ext. intros p Hp. apply has_respaced; auto. specialize (H2 _ Hp). apply andb_prop in H2 as [H2 _]. exact H2. }
    assert (Hr : find (fun g => suits h g && opens g s) (x_regions x) = find (fun g => suits h g && opens g s') (x_regions x)).
    { apply find_ext. intros g Hg. rewrite (opens_respaced g s s'); auto. }
    assert (Hword : forall p k kd, find (fun p => has (fst (fst p)) s) (x_words x) = Some (p, k, kd) ->
      like_spaced s s' (Some (Bytes k kd Out)) (Some (Bytes k kd Out))).
    { intros p k kd E. apply find_some in E as [E1 E2]. cbn [fst] in E2. unfold tidy in Htidy. apply andb_prop in Htidy as [_ HT].
      rewrite forallb_forall in HT. specialize (HT _ E1). cbn [fst snd] in HT.
      specialize (H2 _ E1). cbn [fst snd] in H2. apply andb_prop in H2 as [_ H2].
      apply andb_prop in HT as [HT HT2]. apply andb_prop in HT as [HT HT1]. apply Nat.ltb_lt in HT1. apply Nat.leb_le in HT2.
      assert (Ek : k = length (firstn k p)) by (rewrite firstn_length; lia).
      set (q := firstn k p) in *. rewrite Ek. apply pat_spaced; auto; [apply has_first; auto|lia]. }
    assert (Hreg : forall g k w, find (fun g => suits h g && opens g s) (x_regions x) = Some g ->
      like_spaced s s' (Some (Bytes (length (g_open g)) k w)) (Some (Bytes (length (g_open g)) k w))).
    { intros g k w E. apply find_some in E as [E1 E2]. apply andb_prop in E2 as [_ E2]. unfold opens in E2. apply andb_prop in E2 as [E2 _].
      apply has_app in E2. destruct (sane_region x Hsane g E1) as [T2 _]. apply pat_spaced; auto.
      specialize (H1 _ E1). unfold spaced_region in H1. dand. auto. }
    pose proof (end_respaced _ _ H) as Hend. unfold outside.
    destruct H as [|c t t' Hc Hb' H|ws ws' t t' N N' B B' H]; [exact I| |].
    2:{ exfalso. destruct ws as [|d ws]; [contradiction|]. cbn in *. apply andb_prop in B as [B _]. congruence. }
    rewrite <- Hb, <- Hw, <- Hr.
    destruct (existsb _ _); [exact I|]. destruct (find (fun p => has (fst (fst p)) (c :: t)) _) as [[[p k] kd]|] eqn:E1; [eapply Hword; eauto|].
    destruct (find (fun g => suits h g && opens g (c :: t)) _) as [g|] eqn:E2; [apply Hreg; auto|].
    destruct Hend as [[-> ->]|(e & -> & -> & Ha & Hs)]; [|apply ends_spaced; auto].
    destruct (c =? 11); [exact I|]. cbn. auto 6.
  Qed.

  Lemma piece_spaced w h s s' : known_place x w -> respaced s s' -> lead_blank s = false ->
    like_spaced s s' (piece_of x w h s) (piece_of x w h s').
  Proof.
    destruct w as [|g n]; cbn [known_place piece_of]; intros Hw H Hl; [apply outside_spaced; auto|].
    apply body_spaced; auto using spaced_in. exact (sane_region x Hsane g Hw).
  Qed.
  Lemma piece_blank w h c r : known_place x w -> blank_byte c = true ->
    piece_of x w h (c :: r) = if stuck w then None else Some (Bytes 1 Blank w).
  Proof.
    destruct w as [|g n]; cbn [known_place piece_of]; intros Hw Hc.
    - apply blank_two in Hc as [-> | ->]; rewrite calm_outside; auto.
    - apply body_blank; auto using spaced_in. exact (sane_region x Hsane g Hw).
  Qed.

  Variable lang : string.
  Definition later (h : now) : now := mkNow (n_code h) (n_comment h) false.
  Lemma starts_blank c r : blank_byte c = true -> LexSpec.starts 1 (c :: r) = false.
  Proof. intros H. apply blank_two in H as [-> | ->]; reflexivity. Qed.
  Lemma account_run w : known_place x w -> forall ws, ws <> [] -> forallb blank_byte ws = true -> forall f L p h s l,
    account f x lang w L p h (ws ++ s) = Some l ->
    stuck w = false /\ exists f', (f' < f)%nat /\ account f' x lang w L (p + zlen ws) (later h) s = Some l.
  Proof.
    intros Hw. induction ws as [|c ws IH]; intros Hn Hb f L p h s l H; [contradiction|]. cbn [forallb] in Hb. apply andb_prop in Hb as [Hc Hb].
    destruct f as [|f]; [discriminate|]. cbn [app account] in H. rewrite piece_blank in H by auto.
    destruct (stuck w) eqn:Es; [discriminate|]. split; auto. rewrite starts_blank in H by auto. cbn [skipn mark] in H.
    change (mkNow (n_code h) (n_comment h) false) with (later h) in H.
    destruct ws as [|d ws]; [exists f; split; [lia|exact H]|].
    destruct (IH ltac:(discriminate) Hb _ _ _ _ _ _ H) as (_ & f' & Hf & Ha). exists f'. split; [lia|].
    replace (p + zlen (c :: d :: ws)) with (p + Z.of_nat 1 + zlen (d :: ws)) by (cbn [length]; lia). exact Ha.
  Qed.
  Lemma run_account w : known_place x w -> stuck w = false -> forall ws, ws <> [] -> forallb blank_byte ws = true -> forall L p h s l,
    Acc x lang w L (p + zlen ws) (later h) s l -> Acc x lang w L p h (ws ++ s) l.
  Proof.
    intros Hw Hs. induction ws as [|c ws IH]; intros Hn Hb L p h s l H; [contradiction|]. cbn [forallb] in Hb. apply andb_prop in Hb as [Hc Hb].
    cbn [app]. eapply Acc_b; [rewrite piece_blank, Hs by auto; reflexivity|]. rewrite starts_blank by auto. cbn [skipn mark].
    change (mkNow (n_code h) (n_comment h) false) with (later h). destruct ws as [|d ws]; [exact H|].
    apply IH; auto; [discriminate|]. change (later (later h)) with (later h).
    replace (p + Z.of_nat 1 + zlen (d :: ws)) with (p + zlen (c :: d :: ws)) by (cbn [length]; lia). exact H.
  Qed.

  Lemma account_respaced k : forall f w L p h s l, (f < k)%nat -> account f x lang w L p h s = Some l -> known_place x w ->
    forall L' p' s', respaced s s' -> exists l', Acc x lang w L' p' h s' l' /\ map shape l' = map shape l.
  Proof.
    induction k as [|k IH]; intros f w L p h s l Hk H Hw L' p' s' Ha; [lia|].
    destruct (lead_blank s) eqn:El.
    - destruct Ha as [|c t t' Hc' Hb Ha|ws ws' t t' N N' B B' Ha]; [discriminate|cbn in El; congruence|].
      destruct (account_run w Hw ws N B _ _ _ _ _ _ H) as (Hs & f' & Hf & Hac).
      destruct (IH f' _ _ _ _ _ _ ltac:(lia) Hac Hw L' (p' + zlen ws') _ Ha) as (l' & HA & Hm). exists l'. split; auto.
      apply run_account; auto.
    - pose proof (piece_spaced w h s s' Hw Ha El) as HP. destruct f as [|f]; [discriminate|]. cbn [account] in H.
      destruct s as [|c r].
      + apply respaced_nil in Ha as ->.
        destruct w as [|[? ? ? ? ? ? [] ? ? ? ? ? ?] ?]; try discriminate; injection H as <-; eexists; (split; [exists 1%nat; reflexivity|]);
          destruct (kind_now h); reflexivity.
      + destruct (piece_of x w h (c :: r)) as [pc|] eqn:Ep; [|discriminate]. pose proof (piece_place x _ _ _ _ Hw Ep) as Hw'.
        destruct pc as [n kd w1|n kd i w1], (piece_of x w h s') as [[n' k' w1'|n' k' i' w1']|] eqn:Ep'; cbn [like_spaced] in HP; try contradiction.
        * destruct HP as (<- & <- & <- & HP & Hs).
          destruct (IH f _ _ _ _ _ _ ltac:(lia) H Hw' L' (p' + Z.of_nat n) _ HP) as (l' & HA & Hm). exists l'. split; auto.
          eapply Acc_b; [exact Ep'|]. rewrite <- Hs. exact HA.
        * destruct HP as (<- & <- & <- & HP & Hs).
          destruct (account f x lang w1 _ _ _ _) as [l0|] eqn:Ea; [|discriminate]. injection H as <-.
          destruct (IH f _ _ _ _ _ _ ltac:(lia) Ea Hw' (p' + Z.of_nat n') (p' + Z.of_nat n') _ HP) as (l' & HA & Hm).
          eexists. split; [eapply Acc_e; [exact Ep'|]; rewrite <- Hs; exact HA|]. cbn [map]. rewrite Hm. reflexivity.
  Qed.
End Spaces.
