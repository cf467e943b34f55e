(** Facts about the account of LexSpec.v, and soundness of what LexCheck.v finds out from
    the known bytes. *)
From Coq Require Import ZArith String List Bool Lia.
From Verif Require Import Base ParsedModel RagelSyntax RagelBuild RagelRun LineSpec LexSpec LexCheck.
Import ListNotations.
Open Scope Z_scope.

Ltac dand := repeat match goal with H : _ && _ = true |- _ => apply andb_prop in H; destruct H end.
Notation zlen l := (Z.of_nat (length l)).

Section Facts.
  Variable x : lexis.
  Variable lang : string.
  Hypothesis Hsane : sane x = true.

  (** ** The account without fuel *)
  Lemma account_more f : forall f' w L p h s l, (f <= f')%nat ->
    account f x lang w L p h s = Some l -> account f' x lang w L p h s = Some l.
  Proof.
    induction f as [|f IH]; intros [|f'] w L p h s l Hf H; cbn [account] in *; try discriminate; try lia.
    destruct s as [|c s]; [exact H|].
    destruct (piece_of x w h (c :: s)) as [[n k w'|n k i w']|]; [| |discriminate].
    - eapply IH; [|exact H]. lia.
    - destruct (account f _ _ _ _ _ _ _) as [l0|] eqn:E; [|discriminate].
      rewrite (IH f' _ _ _ _ _ _ ltac:(lia) E). exact H.
  Qed.

  Definition Acc (w : place) (L p : Z) (h : now) (s : list Z) (l : list event) : Prop :=
    exists f, account f x lang w L p h s = Some l.

  Definition at_eof (w : place) : bool :=
    match w with
    | Inside (mkRegion _ _ _ _ _ _ (Inner | Deny) _ _ _ _ _ _) _ => false
    | _ => true
    end.

  Lemma Acc_nil w L p h l : Acc w L p h [] l -> at_eof w = true /\
    l = match kind_now h with Blank => [] | k => [mkEvent lang (kind_name k) L p] end.
  Proof.
    intros (f & H). destruct f; [discriminate|]. cbn [account] in H.
    destruct w as [|[? ? ? ? ? ? [] ? ? ? ? ? ?] n]; cbn; try discriminate; injection H as <-; auto.
  Qed.

  Lemma Acc_none w L p h s l : s <> [] -> piece_of x w h s = None -> ~ Acc w L p h s l.
  Proof.
    intros Hs Hp (f & H). destruct f; [discriminate|]. cbn [account] in H. destruct s; [congruence|].
    rewrite Hp in H. discriminate.
  Qed.

  Lemma Acc_bytes w L p h s l n k w' : s <> [] -> piece_of x w h s = Some (Bytes n k w') ->
    Acc w L p h s l -> Acc w' L (p + Z.of_nat n) (mark k (starts n s) h) (skipn n s) l.
  Proof.
    intros Hs Hp (f & H). destruct f; [discriminate|]. cbn [account] in H. destruct s; [congruence|].
    rewrite Hp in H. exists f. exact H.
  Qed.

  Lemma Acc_ends w L p h s l n k i w' : s <> [] -> piece_of x w h s = Some (Ends n k i w') ->
    Acc w L p h s l -> exists l',
    l = mkEvent lang (kind_name (kind_now (mark k false h)))
          (match kind_now (mark k false h) with Blank => if i then L else p | _ => L end) (p + Z.of_nat n) :: l'
    /\ Acc w' (p + Z.of_nat n) (p + Z.of_nat n) (fresh (starts n s)) (skipn n s) l'.
  Proof.
    intros Hs Hp (f & H). destruct f; [discriminate|]. cbn [account] in H. destruct s as [|c s]; [congruence|].
    rewrite Hp in H. destruct (account f _ _ _ _ _ _ _) as [l'|] eqn:E; [|discriminate].
    injection H as <-. exists l'. split; [reflexivity|]. exists f. exact E.
  Qed.

  (** ** Closing *)
  Definition Cl (g : region) (n : nat) (s : list Z) : Prop := exists f, closed f g n s = true.

  Lemma closed_more f : forall f' g n s, (f <= f')%nat -> closed f g n s = true -> closed f' g n s = true.
  Proof.
    induction f as [|f IH]; intros [|f'] g n s Hf H; cbn [closed] in *; try discriminate; try lia.
    destruct (body g n s) as [[k kd [|g' n']|k kd i [|g' n']]|]; auto; eapply IH; try exact H; lia.
  Qed.

  Definition nonempty (g : region) : Prop := length (g_open g) <> 0%nat /\ forall p, In p (g_close g) -> length p <> 0%nat.

  Lemma sane_region g : In g (x_regions x) -> nonempty g.
  Proof.
    intros Hg. unfold sane in Hsane. rewrite forallb_forall in Hsane. specialize (Hsane _ Hg).
    apply andb_prop in Hsane as [H1 H2]. rewrite forallb_forall in H2. split.
    - apply negb_true_iff, Nat.eqb_neq in H1. auto.
    - intros p Hp. specialize (H2 _ Hp). apply negb_true_iff, Nat.eqb_neq in H2. auto.
  Qed.

  Lemma body_pos g n s : nonempty g ->
    match body g n s with
    | Some (Bytes k _ _) | Some (Ends k _ _ _) => (0 < k)%nat
    | None => True
    end.
  Proof.
    intros [Ho Hc]. unfold body. destruct s as [|c r]; [exact I|].
    destruct (find _ (g_close g)) as [p|] eqn:Ef.
    - apply find_some in Ef as [Ep _]. specialize (Hc _ Ep).
      destruct n; [lia|]. destruct (existsb _ _); [exact I|]. lia.
    - assert (E : forall (A : Type) (a b : A), match n with O => a | S _ => a end = a) by (intros; destruct n; reflexivity).
      destruct n.
      all: destruct (existsb _ _); [exact I|].
      all: destruct (g_nest g && has (g_open g) (c :: r)); [lia|].
      all: destruct (if c =? 92 then g_escnl g else None); destruct (line_end r); try lia;
        (destruct (line_end (c :: r)); [|destruct (g_nl g); try exact I; lia]);
        (destruct (c =? 13); [destruct (g_nl g); try exact I; lia|]);
        (destruct (g_esc g && (c =? 92)); [destruct r; try exact I; destruct (newline_byte _); try exact I; lia|lia]).
  Qed.

  Lemma Cl_length g n s : nonempty g -> Cl g n s -> closed (length s) g n s = true.
  Proof.
    intros Hg (f & H). revert n s H. induction f as [|f IH]; intros n s H; [discriminate|].
    destruct s as [|c s]; [discriminate H|]. cbn [length]. cbn [closed] in *.
    pose proof (body_pos g n (c :: s) Hg) as Hp.
    destruct (body g n (c :: s)) as [[k kd [|g' n']|k kd i [|g' n']]|]; auto; try discriminate.
    - apply IH in H. eapply closed_more; [|exact H]. rewrite skipn_length. cbn [length]. lia.
    - apply IH in H. eapply closed_more; [|exact H]. rewrite skipn_length. cbn [length]. lia.
  Qed.

  Lemma Cl_step g n s k kd g' n' :
    body g n s = Some (Bytes k kd (Inside g' n')) \/ (exists i, body g n s = Some (Ends k kd i (Inside g' n'))) ->
    (Cl g n s <-> Cl g n' (skipn k s)).
  Proof.
    intros H. split; intros (f & Hf).
    - destruct f; [discriminate|]. cbn [closed] in Hf. exists f. destruct H as [H|(i & H)]; rewrite H in Hf; exact Hf.
    - exists (S f). cbn [closed]. destruct H as [H|(i & H)]; rewrite H; exact Hf.
  Qed.
  Lemma Cl_none g n s : body g n s = None -> ~ Cl g n s.
  Proof. intros H (f & Hf). destruct f; [discriminate|]. cbn [closed] in Hf. rewrite H in Hf. discriminate. Qed.
  Lemma Cl_out g n s k kd : body g n s = Some (Bytes k kd Out) -> Cl g n s.
  Proof. intros H. exists 1%nat. cbn [closed]. rewrite H. reflexivity. Qed.

  Lemma opens_must g s : nonempty g -> g_must g = true -> has (g_open g ++ g_ahead g) s = true ->
    (opens g s = true <-> Cl g 0 (skipn (length (g_open g)) s)).
  Proof.
    intros Hn Hg Hh. unfold opens. rewrite Hh, Hg. cbn [negb andb orb]. cbv zeta. split.
    - intros H. eexists. exact H.
    - intros H. apply Cl_length; auto.
  Qed.

  (** ** The known bytes *)
  Definition nxt_ok (n : nxt) (t : list Z) : Prop :=
    match n with
    | NAny => True
    | NNoLf => match t with c :: _ => c <> 10 | [] => False end
    | NLfEnd => match t with c :: _ => c = 10 | [] => True end
    | NEof => t = []
    end.
  Definition vis (v : list Z) (n : nxt) (s : list Z) : Prop := exists t, s = v ++ t /\ nxt_ok n t.

  Lemma vis_skip v n s i : (i <= length v)%nat -> vis v n s -> vis (skipn i v) n (skipn i s).
  Proof.
    intros Hi (t & -> & Ht). exists t. split; auto. rewrite skipn_app. replace (i - length v)%nat with 0%nat by lia. reflexivity.
  Qed.
  Lemma vis_starts v n s i : (i <= length v)%nat -> i <> O -> vis v n s -> starts i v = starts i s.
  Proof. intros Hi Hi0 (t & -> & _). unfold starts. rewrite app_nth1 by lia. reflexivity. Qed.
  Lemma vis_tail c v n s : vis (c :: v) n s -> exists r, s = c :: r /\ vis v n r.
  Proof. intros (t & -> & Ht). exists (v ++ t). split; auto. exists t. auto. Qed.
  Lemma vis_any v n s : vis v n s -> vis v NAny s.
  Proof. intros (t & -> & Ht). exists t. split; auto. exact I. Qed.

  Lemma look_ok p : forall v n s, vis v n s ->
    match look p v n with Yes => has p s = true | No => has p s = false | Dunno => True end.
  Proof.
    induction p as [|y p IH]; intros v n s Hv; [reflexivity|]. cbn [look]. destruct v as [|c v].
    - destruct Hv as (t & -> & Ht). destruct n; cbn [is_eof]; try exact I. cbn in Ht. subst t. reflexivity.
    - apply vis_tail in Hv as (r & -> & Hv). cbn [has]. destruct (among c y); [|reflexivity]. apply IH. auto.
  Qed.

  Lemma any_look_ok l v n s : vis v n s ->
    match any_look l v n with
    | Yes => existsb (fun p => has p s) l = true
    | No => existsb (fun p => has p s) l = false
    | Dunno => True
    end.
  Proof.
    intros Hv. unfold any_look.
    destruct (existsb (fun p => match look p v n with Yes => true | _ => false end) l) eqn:E.
    - apply existsb_exists in E as (p & Hp & E). apply existsb_exists. exists p. split; auto.
      pose proof (look_ok p v n s Hv). destruct (look p v n); try discriminate. auto.
    - destruct (existsb (fun p => match look p v n with Dunno => true | _ => false end) l) eqn:E2; [exact I|].
      destruct (existsb (fun p => has p s) l) eqn:E3; [|reflexivity]. exfalso. apply existsb_exists in E3 as (p & Hp & E3).
      pose proof (look_ok p v n s Hv) as Hl. destruct (look p v n) eqn:El; [| congruence |].
      + assert (existsb (fun p => match look p v n with Yes => true | _ => false end) l = true); [|congruence].
        apply existsb_exists. exists p. rewrite El. auto.
      + assert (existsb (fun p => match look p v n with Dunno => true | _ => false end) l = true); [|congruence].
        apply existsb_exists. exists p. rewrite El. auto.
  Qed.

  Lemma first_word_ok l v n s : vis v n s ->
    match first_word l v n with
    | NoWord => find (fun p => has (fst (fst p)) s) l = None
    | Word i k => exists p, find (fun p => has (fst (fst p)) s) l = Some (p, i, k)
    | MayWord => True
    end.
  Proof.
    intros Hv. induction l as [|[[p i] k] l IH]; [reflexivity|]. cbn [first_word fst snd find].
    pose proof (look_ok p v n s Hv) as Hl. destruct (look p v n).
    - rewrite Hl. eauto.
    - rewrite Hl. exact IH.
    - exact I.
  Qed.

  Lemma close_word_ok l v n s : vis v n s ->
    match first_word (map (fun p => (p, length p, Blank)) l) v n with
    | NoWord => find (fun p => has p s) l = None
    | Word i _ => exists p, find (fun p => has p s) l = Some p /\ length p = i
    | MayWord => True
    end.
  Proof.
    intros Hv. induction l as [|p l IH]; [reflexivity|]. cbn [map first_word fst snd find].
    pose proof (look_ok p v n s Hv) as Hl. destruct (look p v n).
    - rewrite Hl. eauto.
    - rewrite Hl. exact IH.
    - exact I.
  Qed.

  Lemma end_look_ok v n s e : vis v n s -> end_look v n = Some e -> line_end s = e.
  Proof.
    intros Hv. unfold end_look. destruct v as [|c r].
    - destruct Hv as (t & -> & Ht). destruct n; cbn [is_eof]; try discriminate. cbn in Ht. subst t.
      intros [= <-]. reflexivity.
    - apply vis_tail in Hv as (r' & -> & Hv). cbn [line_end].
      destruct ((c =? 10) || (c =? 12)); [congruence|]. destruct (c =? 13); [|congruence].
      destruct r as [|d r].
      + destruct Hv as (t & -> & Ht). cbn [app]. destruct n; cbn in Ht; try discriminate.
        * destruct t as [|d t]; [contradiction|]. intros [= <-]. apply Z.eqb_neq in Ht. rewrite Ht. reflexivity.
        * subst t. congruence.
      + apply vis_tail in Hv as (r'' & -> & Hv). congruence.
  Qed.

  (** ** The next piece *)
  Definition place_ok (w : aplace) (z : option bool) (h : now) (pl : place) (s : list Z) : Prop :=
    match w with
    | AOut k => pl = Out /\ forall g, In g (firstn k (x_regions x)) -> suits h g && opens g s = false
    | AIn j => exists g n, region_of x j = Some g /\ pl = Inside g n /\ (g_nest g = true \/ n = O)
                 /\ (forall b, z = Some b -> Nat.eqb n 0 = b)
    end.
  Definition depth_of (pl : place) : Z := match pl with Out => 0 | Inside _ n => Z.of_nat n end.

  (** What a piece found means for the account. *)
  Definition sure_ok (w : aplace) (z : option bool) (h : now) (pl : place) (s : list Z) (o : option apiece) : Prop :=
    match o with
    | None => s <> [] /\ piece_of x pl h s = None \/ s = [] /\ at_eof pl = false
    | Some (ABytes i k w' d) => s <> [] /\ exists pl', piece_of x pl h s = Some (Bytes i k pl')
        /\ (i <> O -> forall h', place_ok w' (next_z w w' d z) h' pl' (skipn i s))
        /\ (match w, w' with AIn _, AIn _ => depth_of pl' = depth_of pl + d | _, _ => True end)
        /\ (match w, w' with AOut _, _ => depth_of pl' = 0 | AIn j, AIn j' => j' = j | _, _ => True end)
    | Some (AEnds i k inner w') => s <> [] /\ exists pl', piece_of x pl h s = Some (Ends i k inner pl')
        /\ (forall h', place_ok w' (next_z w w' 0 z) h' pl' (skipn i s))
        /\ (match w, w' with AIn _, AIn _ => depth_of pl' = depth_of pl | _, _ => True end)
        /\ (match w, w' with AOut _, AIn _ => False | AIn j, AIn j' => j' = j | _, _ => True end)
    end.

  Lemma place_out z h s : place_ok (AOut 0) z h Out s.
  Proof. split; auto. intros g []. Qed.

  Lemma known_body_ok g j m z h v n s :
    region_of x j = Some g -> (g_nest g = true \/ m = O) -> (forall b, z = Some b -> Nat.eqb m 0 = b) ->
    vis v n s ->
    match known_body g j z v n with
    | Sure o => sure_ok (AIn j) z h (Inside g m) s o
    | Trial _ => False
    | More => True
    end.
  Proof.
    intros Hg Hn Hz Hv. unfold known_body. destruct v as [|c r].
    - destruct n; cbn [is_eof]; try exact I. destruct Hv as (t & -> & Ht). cbn in Ht. subst t.
      destruct (g_nl g) eqn:E; try exact I; right; split; auto; destruct g; cbn in *; subst; reflexivity.
    - pose proof (close_word_ok (g_close g) _ _ _ Hv) as Hc.
      pose proof (any_look_ok (g_never g) _ _ _ Hv) as Hnv.
      pose proof (look_ok (g_open g) _ _ _ Hv) as Ho.
      pose proof (end_look_ok (c :: r) n s) as He.
      destruct (vis_tail _ _ _ _ Hv) as (r' & -> & Hv').
      pose proof (end_look_ok r n r') as Her.
      assert (Hsame : forall d i, (d =? 0) = true -> forall h', place_ok (AIn j) (next_z (AIn j) (AIn j) d z) h' (Inside g m) (skipn i (c :: r'))).
      { intros d i Hd h'. exists g, m. cbn [next_z]. rewrite Hd. auto. }
      destruct (first_word _ (c :: r) n) as [| l kd |] eqn:Ew; [| |exact I].
      2:{ destruct Hc as (p & Hp & Hl).
          destruct (if g_nest g then z else Some true) as [[|]|] eqn:Ez; [| |exact I].
          - assert (m = O) as ->.
            { destruct (g_nest g); [|destruct Hn; congruence]. specialize (Hz _ Ez). apply Nat.eqb_eq in Hz. auto. }
            split; [discriminate|]. exists Out. cbn [piece_of body]. rewrite Hp. subst l. repeat split; auto.
            intros g0 [].
          - assert (Hm : exists m', m = S m').
            { destruct (g_nest g); [|discriminate]. specialize (Hz _ Ez). destruct m; [discriminate|]. eauto. }
            destruct Hm as (m' & ->).
            assert (Hne : g_nest g = true) by (destruct (g_nest g); [auto|discriminate]).
            destruct (any_look (g_never g) (c :: r) n).
            + left. split; [discriminate|]. cbn [piece_of body]. rewrite Hp, Hnv. reflexivity.
            + split; [discriminate|]. exists (Inside g m'). cbn [piece_of body]. rewrite Hp, Hnv. subst l. split; [reflexivity|].
              split. { intros _ h'. exists g, m'. cbn. repeat split; auto; discriminate. }
              cbn [depth_of]. split; [lia|auto].
            + exact I. }
      assert (Hbody : forall Q : option piece -> Prop,
        Q (if existsb (fun p => has p (c :: r')) (g_never g) then None
           else if g_nest g && has (g_open g) (c :: r') then
                  Some (Bytes (length (g_open g)) (g_kind g) (Inside g (S m)))
                else
                  match (if c =? 92 then g_escnl g else None), line_end r' with
                  | Some k, S e => Some (Ends (S (S e)) k true (Inside g m))
                  | _, _ =>
                    match line_end (c :: r') with
                    | S e =>
                      match g_nl g with
                      | Cut => Some (Ends (S e) Blank false Out)
                      | Inner => Some (Ends (S e) Blank true (Inside g m))
                      | Deny => None
                      end
                    | O =>
                      if c =? 13 then match g_nl g with Cut => Some (Bytes 1 Blank Out) | _ => None end
                      else if g_esc g && (c =? 92) then
                        match r' with
                        | d :: _ => if newline_byte d then None else Some (Bytes 2 (g_kind g) (Inside g m))
                        | [] => None
                        end
                      else Some (Bytes 1 (if blank_byte c then Blank else g_kind g) (Inside g m))
                    end
                  end) -> Q (piece_of x (Inside g m) h (c :: r'))).
      { intros Q HQ. cbn [piece_of body]. rewrite Hc. destruct m; exact HQ. }
      destruct (any_look (g_never g) (c :: r) n); [| |exact I].
      { left. split; [discriminate|]. apply Hbody. rewrite Hnv. reflexivity. }
      destruct (if g_nest g then look (g_open g) (c :: r) n else No) eqn:En; [| |exact I].
      { assert (Hne : g_nest g = true) by (destruct (g_nest g); [auto|discriminate]). rewrite Hne in En. rewrite En in Ho.
        split; [discriminate|]. exists (Inside g (S m)). split; [apply Hbody; rewrite Hnv, Hne, Ho; reflexivity|].
        split. { intros _ h'. exists g, (S m). cbn. repeat split; auto. congruence. }
        cbn [depth_of]. split; [lia|auto]. }
      assert (Hno : g_nest g && has (g_open g) (c :: r') = false)
        by (destruct (g_nest g); [rewrite En in Ho; rewrite Ho|]; reflexivity).
      cbv zeta.
      set (plain := if newline_byte c && _ then _ else _).
      assert (Hplain : (match (if c =? 92 then g_escnl g else None), line_end r' with Some _, S _ => False | _, _ => True end) ->
                match plain with Sure o => sure_ok (AIn j) z h (Inside g m) (c :: r') o | Trial _ => False | More => True end).
      { intros Hq.
        assert (Hb2 : forall Q : option piece -> Prop,
          Q (match line_end (c :: r') with
                    | S e =>
                      match g_nl g with
                      | Cut => Some (Ends (S e) Blank false Out)
                      | Inner => Some (Ends (S e) Blank true (Inside g m))
                      | Deny => None
                      end
                    | O =>
                      if c =? 13 then match g_nl g with Cut => Some (Bytes 1 Blank Out) | _ => None end
                      else if g_esc g && (c =? 92) then
                        match r' with
                        | d :: _ => if newline_byte d then None else Some (Bytes 2 (g_kind g) (Inside g m))
                        | [] => None
                        end
                      else Some (Bytes 1 (if blank_byte c then Blank else g_kind g) (Inside g m))
                    end) -> Q (piece_of x (Inside g m) h (c :: r'))).
        { intros Q HQ. apply Hbody. rewrite Hnv, Hno.
          destruct (if c =? 92 then g_escnl g else None); auto. destruct (line_end r'); [auto|contradiction]. }
        clear Hbody. unfold plain.
        destruct (newline_byte c && match g_nl g with Deny => true | _ => false end) eqn:Ed.
        { apply andb_prop in Ed as [Ed1 Ed2]. left. split; [discriminate|]. apply Hb2.
          destruct (g_nl g) eqn:Eg; try discriminate. destruct (line_end (c :: r')) eqn:El; [|reflexivity].
          unfold newline_byte in Ed1. cbn [line_end] in El. destruct ((c =? 10) || (c =? 12)); [discriminate|].
          cbn [orb] in Ed1. rewrite Ed1. reflexivity. }
        destruct (end_look (c :: r) n) as [[|e]|] eqn:El; [| |exact I].
        - specialize (He _ Hv eq_refl). rewrite He in Hb2.
          destruct (c =? 13).
          { destruct (g_nl g); [|left; split; [discriminate|]; apply Hb2; reflexivity..].
            split; [discriminate|]. exists Out. split; [apply Hb2; reflexivity|]. split; [intros _ h'; apply place_out|auto]. }
          destruct (g_esc g && (c =? 92)).
          + destruct r as [|d r].
            * destruct n; cbn [is_eof]; try exact I. left. split; [discriminate|]. apply Hb2.
              destruct Hv' as (t & -> & Ht). cbn in Ht. subst t. reflexivity.
            * apply vis_tail in Hv' as (r'' & -> & Hv'). destruct (newline_byte d).
              -- left. split; [discriminate|]. apply Hb2. reflexivity.
              -- split; [discriminate|]. exists (Inside g m). split; [apply Hb2; reflexivity|].
                 split; [intros _ h'; apply Hsame; reflexivity|]. split; [lia|auto].
          + split; [discriminate|]. exists (Inside g m). split; [apply Hb2; reflexivity|].
            split; [intros _ h'; apply Hsame; reflexivity|]. split; [lia|auto].
        - specialize (He _ Hv eq_refl). rewrite He in Hb2.
          destruct (g_nl g).
          + split; [discriminate|]. exists Out. split; [apply Hb2; reflexivity|]. split; [intros h'; apply place_out|auto].
          + split; [discriminate|]. exists (Inside g m). split; [apply Hb2; reflexivity|].
            split; [intros h'; apply Hsame; reflexivity|]. auto.
          + left. split; [discriminate|]. apply Hb2. reflexivity. }
      destruct (if c =? 92 then g_escnl g else None) as [k|] eqn:Ek; [|apply Hplain; exact I].
      destruct (end_look r n) as [[|e]|] eqn:El; [| |exact I].
      + apply Hplain. rewrite (Her _ Hv' eq_refl). exact I.
      + specialize (Her _ Hv' eq_refl). split; [discriminate|]. exists (Inside g m).
        split; [apply Hbody; rewrite Hnv, Hno, Her; reflexivity|]. split; [intros h'; apply Hsame; reflexivity|]. auto.
  Qed.

  Lemma first_open_ok h l : forall k v n s, vis v n s ->
    match first_open h l k v n with
    | (No, _, _) => forall g, In g l -> suits h g && opens g s = false
    | (Yes, j, Some g) => exists l1 l2, l = l1 ++ g :: l2 /\ (j = k + length l1)%nat /\ has (g_open g ++ g_ahead g) s = true
                          /\ suits h g = true /\ forall g', In g' l1 -> suits h g' && opens g' s = false
    | _ => True
    end.
  Proof.
    induction l as [|g l IH]; intros k v n s Hv; cbn [first_open]; [intros g []|].
    assert (Hl : match (if suits h g then look (g_open g ++ g_ahead g) v n else No) with
                 | Yes => suits h g = true /\ has (g_open g ++ g_ahead g) s = true
                 | No => suits h g && opens g s = false
                 | Dunno => True
                 end).
    { destruct (suits h g); [|reflexivity]. pose proof (look_ok (g_open g ++ g_ahead g) _ _ _ Hv) as Hl.
      destruct (look _ v n); auto. unfold opens. rewrite Hl. reflexivity. }
    destruct (if suits h g then _ else No).
    - exists [], l. destruct Hl. repeat split; auto; try lia. intros g' [].
    - specialize (IH (S k) v n s Hv). destruct (first_open h l (S k) v n) as [[[] j] [g'|]]; auto.
      + destruct IH as (l1 & l2 & -> & -> & Hh & Hu & Ho). exists (g :: l1), l2. repeat split; auto; [cbn; lia|].
        intros g'' [<- |Hg]; auto.
      + intros g'' [<- |Hg]; auto.
      + intros g'' [<- |Hg]; auto.
    - exact I.
  Qed.

  Lemma find_app_none {A} (f : A -> bool) l k : (forall a, In a l -> f a = false) -> find f (l ++ k) = find f k.
  Proof. induction l as [|a l IH]; intros H; cbn; auto. rewrite (H a) by (left; auto). apply IH. intros; apply H; right; auto. Qed.
  Lemma find_none' {A} (f : A -> bool) l : (forall a, In a l -> f a = false) -> find f l = None.
  Proof. intros H. rewrite <- (app_nil_r l). rewrite find_app_none; auto. Qed.

  (** A comment or string on trial. *)
  Definition trial_ok (h : now) (j : nat) (s : list Z) : Prop :=
    s <> [] /\ exists g, region_of x j = Some g /\ g_must g = true /\ has (g_open g ++ g_ahead g) s = true
    /\ suits h g = true
    /\ (forall g', In g' (firstn j (x_regions x)) -> suits h g' && opens g' s = false)
    /\ (opens g s = true -> piece_of x Out h s = Some (Bytes (length (g_open g)) (g_first g) (Inside g 0))).

  Lemma known_out_ok k z h v n s : place_ok (AOut k) z h Out s -> vis v n s ->
    match known_out x k h v n with
    | Sure o => sure_ok (AOut k) z h Out s o
    | Trial j => trial_ok h j s
    | More => True
    end.
  Proof.
    intros [_ Hk] Hv. unfold known_out. destruct v as [|c r]; [exact I|].
    pose proof (any_look_ok (barred x h) _ _ _ Hv) as Hnv.
    pose proof (first_word_ok (x_words x) _ _ _ Hv) as Hw.
    pose proof (first_open_ok h (skipn k (x_regions x)) k _ _ _ Hv) as Ho.
    pose proof (end_look_ok (c :: r) n s) as He.
    destruct (vis_tail _ _ _ _ Hv) as (r' & -> & Hv').
    destruct (any_look (barred x h) (c :: r) n); [| |exact I].
    { left. split; [discriminate|]. cbn [piece_of outside]. rewrite Hnv. reflexivity. }
    destruct (first_word (x_words x) (c :: r) n) as [|i kd|]; [| |exact I].
    2:{ destruct Hw as (p & Hp). split; [discriminate|]. exists Out. cbn [piece_of outside]. rewrite Hnv, Hp.
        split; [reflexivity|]. split; [intros _ h'; apply place_out|auto]. }
    destruct (first_open h (skipn k (x_regions x)) k (c :: r) n) as [[[] j] [g|]]; try exact I.
    - destruct Ho as (l1 & l2 & Hl & Hj & Hh & Hsu & Hno).
      assert (Hall : x_regions x = firstn k (x_regions x) ++ l1 ++ g :: l2) by (rewrite <- Hl; symmetry; apply firstn_skipn).
      assert (Hlen : length (firstn k (x_regions x)) = k).
      { rewrite firstn_length. assert (k < length (x_regions x))%nat; [|lia].
        assert (skipn k (x_regions x) <> []) by (rewrite Hl; destruct l1; discriminate).
        destruct (Nat.lt_ge_cases k (length (x_regions x))); auto. exfalso. apply H. apply skipn_all2. auto. }
      assert (Hreg : region_of x j = Some g).
      { unfold region_of. rewrite Hall, app_assoc. rewrite nth_error_app2 by (rewrite app_length; lia).
        rewrite app_length. replace (j - _)%nat with 0%nat by lia. reflexivity. }
      assert (Hbefore : forall g', In g' (firstn j (x_regions x)) -> suits h g' && opens g' (c :: r') = false).
      { intros g' Hg'. rewrite Hall, app_assoc in Hg'. rewrite firstn_app in Hg'.
        rewrite app_length in Hg'. replace (j - _)%nat with 0%nat in Hg' by lia. rewrite firstn_all2 in Hg' by (rewrite app_length; lia).
        cbn in Hg'. rewrite app_nil_r in Hg'. apply in_app_or in Hg' as [Hg'|Hg']; auto. }
      assert (Hpiece : opens g (c :: r') = true -> piece_of x Out h (c :: r') = Some (Bytes (length (g_open g)) (g_first g) (Inside g 0))).
      { intros Hop. cbn [piece_of outside]. rewrite Hnv, Hw. rewrite Hall, find_app_none by auto.
        rewrite find_app_none by auto. cbn [find]. rewrite Hsu, Hop. reflexivity. }
      destruct (g_must g) eqn:Em.
      + split; [discriminate|]. exists g. auto 10.
      + split; [discriminate|]. exists (Inside g 0). split; [apply Hpiece; unfold opens; rewrite Hh, Em; reflexivity|].
        split; [|auto]. intros _ h'. exists g, O. cbn. repeat split; auto. congruence.
    - assert (Hfind : find (fun g => suits h g && opens g (c :: r')) (x_regions x) = None).
      { apply find_none'. intros g0 Hg0. rewrite <- (firstn_skipn k) in Hg0. apply in_app_or in Hg0 as [Hg0|Hg0]; auto. }
      destruct (end_look (c :: r) n) as [[|e]|] eqn:El; [| |exact I]; specialize (He _ Hv eq_refl).
      + destruct (c =? 11) eqn:E11.
        * left. split; [discriminate|]. cbn [piece_of outside]. rewrite Hnv, Hw, Hfind, He, E11. reflexivity.
        * split; [discriminate|]. exists Out. cbn [piece_of outside]. rewrite Hnv, Hw, Hfind, He, E11.
          split; [reflexivity|]. split; [intros _ h'; apply place_out|auto].
      + split; [discriminate|]. exists Out. cbn [piece_of outside]. rewrite Hnv, Hw, Hfind, He.
        split; [reflexivity|]. split; [intros h'; apply place_out|auto].
    - assert (Hfind : find (fun g => suits h g && opens g (c :: r')) (x_regions x) = None).
      { apply find_none'. intros g0 Hg0. rewrite <- (firstn_skipn k) in Hg0. apply in_app_or in Hg0 as [Hg0|Hg0]; auto. }
      destruct (end_look (c :: r) n) as [[|e]|] eqn:El; [| |exact I]; specialize (He _ Hv eq_refl).
      + destruct (c =? 11) eqn:E11.
        * left. split; [discriminate|]. cbn [piece_of outside]. rewrite Hnv, Hw, Hfind, He, E11. reflexivity.
        * split; [discriminate|]. exists Out. cbn [piece_of outside]. rewrite Hnv, Hw, Hfind, He, E11.
          split; [reflexivity|]. split; [intros _ h'; apply place_out|auto].
      + split; [discriminate|]. exists Out. cbn [piece_of outside]. rewrite Hnv, Hw, Hfind, He.
        split; [reflexivity|]. split; [intros h'; apply place_out|auto].
  Qed.

  Lemma known_ok w z h v n pl s : place_ok w z h pl s -> vis v n s ->
    match known_at x w z h v n with
    | Sure o => sure_ok w z h pl s o
    | Trial j => pl = Out /\ (exists k, w = AOut k) /\ trial_ok h j s
    | More => True
    end.
  Proof.
    intros Hp Hv. destruct w as [k|j]; cbn [known_at].
    - destruct Hp as [-> Hk]. pose proof (known_out_ok k z h v n s (conj eq_refl Hk) Hv) as H.
      destruct (known_out x k h v n); eauto.
    - destruct Hp as (g & m & Hg & -> & Hn & Hz). rewrite Hg.
      pose proof (known_body_ok g j m z h v n s Hg Hn Hz Hv) as H. destruct (known_body g j z v n); auto. contradiction.
  Qed.

  (** ** No acceptance *)
  Lemma doomed_ok fuel : forall trial w z h v n pl s, place_ok w z h pl s -> vis v n s ->
    doomed x fuel trial w z h v n = true ->
    if trial then forall g m, pl = Inside g m -> ~ Cl g m s
    else forall L p l, ~ Acc pl L p h s l.
  Proof.
    induction fuel as [|fuel IH]; intros trial w z h v n pl s Hp Hv Hd; [discriminate|]. cbn [doomed] in Hd.
    pose proof (known_ok _ _ _ _ _ _ _ Hp Hv) as Hk. destruct (known_at x w z h v n) as [|[[i k w' d|i k inner w']|]|]; try discriminate.
    - dand. destruct Hk as (Hs & pl' & Hpc & Hp' & Hd1 & Hd2).
      assert (Hi : i <> O) by (match goal with H : negb (Nat.eqb i 0) = true |- _ => apply negb_true_iff, Nat.eqb_neq in H; exact H end).
      assert (Hiv : (i <= length v)%nat) by (match goal with H : Nat.leb _ _ = true |- _ => apply Nat.leb_le in H; exact H end).
      assert (HI := IH trial w' _ _ _ _ pl' (skipn i s) (Hp' Hi _) (vis_skip _ _ _ _ Hiv Hv) ltac:(eassumption)).
      destruct trial.
      + intros g m -> HC. destruct w' as [k'|j']; [discriminate|].
        destruct (Hp' Hi h) as (g' & m' & Hg' & -> & _). apply (Cl_step _ _ _ _ _ _ _ (or_introl Hpc)) in HC.
        assert (g' = g) as ->; [|apply (HI g m' eq_refl HC)].
        destruct w as [k0|j]; [destruct Hp as [E _]; discriminate|].
        destruct Hp as (g0 & m0 & Hg0 & E & _). injection E as <- <-. cbn in Hd2. subst j'. congruence.
      + intros L p l HA. eapply HI. rewrite (vis_starts _ _ _ _ Hiv Hi Hv). eapply Acc_bytes; eauto.
    - dand. destruct Hk as (Hs & pl' & Hpc & Hp' & Hd1 & Hd2).
      assert (Hi : i <> O) by (match goal with H : negb (Nat.eqb i 0) = true |- _ => apply negb_true_iff, Nat.eqb_neq in H; exact H end).
      assert (Hiv : (i <= length v)%nat) by (match goal with H : Nat.leb _ _ = true |- _ => apply Nat.leb_le in H; exact H end).
      assert (HI := IH trial w' _ _ _ _ pl' (skipn i s) (Hp' _) (vis_skip _ _ _ _ Hiv Hv) ltac:(eassumption)).
      destruct trial.
      + intros g m -> HC. destruct w' as [k'|j']; [discriminate|].
        destruct (Hp' h) as (g' & m' & Hg' & -> & _). apply (Cl_step _ _ _ _ _ _ _ (or_intror (ex_intro _ inner Hpc))) in HC.
        assert (g' = g) as ->; [|apply (HI g m' eq_refl HC)].
        destruct w as [k0|j]; [destruct Hp as [E _]; discriminate|].
        destruct Hp as (g0 & m0 & Hg0 & E & _). injection E as <- <-. cbn in Hd2. subst j'. congruence.
      + intros L p l HA. destruct (Acc_ends _ _ _ _ _ _ _ _ _ _ Hs Hpc HA) as (l' & _ & HA'). eapply HI. rewrite (vis_starts _ _ _ _ Hiv Hi Hv). exact HA'.
    - cbn in Hk. destruct trial.
      + intros g m -> HC. destruct Hk as [[Hs Hk]|[-> Hk]]; [eapply Cl_none; eauto|]. eapply Cl_none; [|exact HC]. reflexivity.
      + intros L p l HA. destruct Hk as [[Hs Hk]|[-> Hk]]; [eapply Acc_none; eauto|].
        apply Acc_nil in HA as [HA _]. congruence.
  Qed.
End Facts.
