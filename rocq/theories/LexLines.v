(** Consequences of the account of LexSpec.v: where the reports lie; comments and strings
    at the start of a file; which files are accepted. *)
From Coq Require Import ZArith String List Bool Lia.
From Verif Require Import Base ParsedModel RagelSyntax RagelBuild RagelRun LineSpec LexSpec LexCheck LexFacts LexBytes.
Import ListNotations.
Open Scope string_scope.
Open Scope Z_scope.
Open Scope list_scope.

(** ** Statements *)

(** Each report starts where the one before ended, or later if it is blank. *)
Fixpoint tiled (pos : Z) (l : list event) : Prop :=
  match l with
  | [] => True
  | ev :: l => (e_start ev = pos \/ e_entity ev = "lblank" /\ pos <= e_start ev) /\ e_start ev < e_end ev /\ tiled (e_end ev) l
  end.

Definition shift (d : Z) (ev : event) : event := mkEvent (e_lang ev) (e_entity ev) (e_start ev + d) (e_end ev + d).

(** The lines of a text that is all comment; [start] is the offset of the line, [seen]:
    there has been a byte on it that is not blank. *)
Fixpoint comment_lines (lang : string) (start pos : Z) (seen : bool) (s : list Z) : list event :=
  match s with
  | [] => []
  | b :: r =>
    if (b =? 10) || (b =? 12) || ((b =? 13) && match r with d :: _ => negb (d =? 10) | [] => false end) then
      mkEvent lang (if seen then "lcomment" else "lblank") start (pos + 1)
        :: comment_lines lang (pos + 1) (pos + 1) false r
    else comment_lines lang start (pos + 1) (seen || negb (blank_byte b || (b =? 13))) r
  end.

(** Sets without line ends, blanks. *)
Definition apart (l s : list Z) : bool := forallb (fun c => negb (among c s)) l.
Definition no_nl (p : list (list Z)) : bool := forallb (apart [10; 12; 13]) p.
Definition no_ws (p : list (list Z)) : bool := forallb (apart [9; 10; 12; 13; 32]) p.

(** No pattern of what is read as a whole has a line end. *)
Definition tidy (x : lexis) : bool :=
  forallb (fun g => no_nl (g_open g) && forallb no_nl (g_close g)) (x_regions x)
  && forallb (fun w => no_nl (firstn (snd (fst w)) (fst (fst w))) && Nat.ltb 0 (snd (fst w)) && Nat.leb (snd (fst w)) (length (fst (fst w)))) (x_words x).

(** ** Line ends *)
Section Lines.
  Variable x : lexis.
  Variable lang : string.
  Hypothesis Hsane : sane x = true.
  Hypothesis Htidy : tidy x = true.

  Lemma stops_cons pos b l : line_stops pos (b :: l) =
    (if (b =? 10) || (b =? 12) then [pos + 1]
     else match l with d :: _ => if (b =? 13) && negb (d =? 10) then [pos + 1] else [] | [] => [] end)
    ++ line_stops (pos + 1) l.
  Proof. cbn [line_stops]. destruct (_ || _); auto. destruct l; auto. destruct (_ && _); auto. Qed.

  Definition plain_byte (c : Z) : Prop := newline_byte c = false.

  Lemma stops_skip n : forall pos s, (n <= length s)%nat -> Forall plain_byte (firstn n s) ->
    line_stops pos s = line_stops (pos + Z.of_nat n) (skipn n s).
  Proof.
    induction n as [|n IH]; intros pos s Hn Hf; [rewrite Z.add_0_r; reflexivity|].
    destruct s as [|b s]; [cbn in Hn; lia|]. cbn [firstn skipn] in *. inversion Hf as [|? ? Hb Hr]; subst.
    unfold plain_byte, newline_byte in Hb. apply orb_false_iff in Hb as [Hb H13]. rewrite stops_cons, Hb, H13.
    rewrite (IH (pos + 1) s) by (auto; cbn in Hn; lia). replace (pos + 1 + Z.of_nat n) with (pos + Z.of_nat (S n)) by lia.
    destruct s; reflexivity.
  Qed.

  Lemma stops_end pos s e : line_end s = S e -> line_stops pos s = (pos + Z.of_nat (S e)) :: line_stops (pos + Z.of_nat (S e)) (skipn (S e) s).
  Proof.
    destruct s as [|c r]; [discriminate|]. cbn [line_end]. rewrite stops_cons. destruct ((c =? 10) || (c =? 12)) eqn:E.
    - intros [= <-]. reflexivity.
    - destruct (c =? 13) eqn:E13; [|discriminate]. destruct r as [|d r]; [discriminate|].
      destruct (d =? 10) eqn:E10; intros [= <-]; cbn [andb negb app].
      + rewrite stops_cons, E10. cbn [orb skipn app]. replace (pos + 1 + 1) with (pos + Z.of_nat 2) by lia. reflexivity.
      + reflexivity.
  Qed.

  Lemma line_end_le s : (line_end s <= length s)%nat.
  Proof.
    destruct s as [|c r]; cbn; [lia|]. destruct (_ || _); [lia|]. destruct (c =? 13); [|lia]. destruct r; [lia|].
    destruct (_ =? 10); cbn; lia.
  Qed.

  Lemma has_len p : forall s, has p s = true -> (length p <= length s)%nat.
  Proof. induction p as [|u p IH]; intros [|c s]; cbn; intros H; try lia; try discriminate. apply andb_prop in H as [_ H]. apply IH in H. lia. Qed.
  Lemma has_plain p : forall s, has p s = true -> no_nl p = true -> Forall plain_byte (firstn (length p) s).
  Proof.
    induction p as [|u p IH]; intros [|c s] H Hn; cbn [length firstn]; try constructor; try discriminate.
    - cbn in H, Hn. apply andb_prop in H as [H _]. apply andb_prop in Hn as [Hn _]. unfold apart in Hn. cbn in Hn. dand.
      unfold plain_byte, newline_byte. destruct (Z.eqb_spec c 10), (Z.eqb_spec c 12), (Z.eqb_spec c 13); subst; auto;
        match goal with H : among ?k u = true, H' : negb (among ?k u) = true |- _ => rewrite H in H'; discriminate end.
    - cbn in H, Hn. apply andb_prop in H as [_ H]. apply andb_prop in Hn as [_ Hn]. auto.
  Qed.
  Lemma has_app p q : forall s, has (p ++ q) s = true -> has p s = true.
  Proof. induction p as [|u p IH]; intros [|c s]; cbn; auto. intros H. apply andb_prop in H as [-> H]. cbn. eauto. Qed.
  Lemma has_first n : forall p s, has p s = true -> has (firstn n p) s = true.
  Proof. induction n as [|n IH]; intros [|u p] [|c s]; cbn; auto. intros H. apply andb_prop in H as [-> H]. cbn. eauto. Qed.

  (** What a piece does with the line ends. *)
  Definition piece_lines (s : list Z) (p : piece) : Prop :=
    match p with
    | Bytes n _ _ => (n <= length s)%nat /\ forall pos, line_stops pos s = line_stops (pos + Z.of_nat n) (skipn n s)
    | Ends n _ _ _ => (0 < n <= length s)%nat
        /\ forall pos, line_stops pos s = (pos + Z.of_nat n) :: line_stops (pos + Z.of_nat n) (skipn n s)
    end.

  Lemma plain_piece n k w s : (n <= length s)%nat -> Forall plain_byte (firstn n s) -> piece_lines s (Bytes n k w).
  Proof. intros H1 H2. split; auto. intros pos. apply stops_skip; auto. Qed.
  Lemma one_plain c r k w : line_end (c :: r) = 0%nat -> (c =? 13) = false -> piece_lines (c :: r) (Bytes 1 k w).
  Proof.
    intros Hl H13. apply plain_piece; [cbn; lia|]. cbn [firstn]. constructor; [|constructor].
    unfold plain_byte, newline_byte. rewrite H13. cbn in Hl. destruct (_ || _); [discriminate|]. reflexivity.
  Qed.
  Lemma end_piece s e k i w : line_end s = S e -> piece_lines s (Ends (S e) k i w).
  Proof.
    intros H. split; [pose proof (line_end_le s); lia|]. intros pos. apply stops_end; auto.
  Qed.
  Lemma cr_eof r k w : line_end (13 :: r) = 0%nat -> piece_lines (13 :: r) (Bytes 1 k w).
  Proof. intros H. destruct r as [|d r]; [|cbn in H; destruct (d =? 10); discriminate]. split; [cbn; lia|]. reflexivity. Qed.

  Definition tidy_region (g : region) : Prop := no_nl (g_open g) = true /\ forall p, In p (g_close g) -> no_nl p = true.

  Lemma body_lines g n s p : tidy_region g -> body g n s = Some p -> piece_lines s p.
  Proof.
    intros [Ho Hc]. unfold body. destruct s as [|c r]; [discriminate|].
    assert (Hcl : forall q k w, find (fun p => has p (c :: r)) (g_close g) = Some q -> piece_lines (c :: r) (Bytes (length q) k w)).
    { intros q k w Hq. apply find_some in Hq as [Hin Hh]. apply plain_piece; [apply has_len; auto|apply has_plain; auto]. }
    assert (Hrest : forall p,
      (if g_nest g && has (g_open g) (c :: r) then
        Some (Bytes (length (g_open g)) (g_kind g) (Inside g (S n)))
      else
        match (if c =? 92 then g_escnl g else None), line_end r with
        | Some k, S e => Some (Ends (S (S e)) k true (Inside g n))
        | _, _ =>
          match line_end (c :: r) with
          | S e =>
            match g_nl g with
            | Cut => Some (Ends (S e) Blank false Out)
            | Inner => Some (Ends (S e) Blank true (Inside g n))
            | Deny => None
            end
          | O =>
            if c =? 13 then match g_nl g with Cut => Some (Bytes 1 Blank Out) | _ => None end
            else if g_esc g && (c =? 92) then
              match r with
              | d :: _ => if newline_byte d then None else Some (Bytes 2 (g_kind g) (Inside g n))
              | [] => None
              end
            else Some (Bytes 1 (if blank_byte c then Blank else g_kind g) (Inside g n))
          end
        end) = Some p -> piece_lines (c :: r) p).
    { intros q. destruct (g_nest g && _) eqn:En.
      { intros [= <-]. apply andb_prop in En as [_ En]. apply plain_piece; [apply has_len; auto|apply has_plain; auto]. }
      assert (Hlast : match line_end (c :: r) with
          | S e =>
            match g_nl g with
            | Cut => Some (Ends (S e) Blank false Out)
            | Inner => Some (Ends (S e) Blank true (Inside g n))
            | Deny => None
            end
          | O =>
            if c =? 13 then match g_nl g with Cut => Some (Bytes 1 Blank Out) | _ => None end
            else if g_esc g && (c =? 92) then
              match r with
              | d :: _ => if newline_byte d then None else Some (Bytes 2 (g_kind g) (Inside g n))
              | [] => None
              end
            else Some (Bytes 1 (if blank_byte c then Blank else g_kind g) (Inside g n))
          end = Some q -> piece_lines (c :: r) q).
      { destruct (line_end (c :: r)) as [|e] eqn:El.
        - destruct (Z.eqb_spec c 13) as [->|H13].
          { destruct (g_nl g); try discriminate. intros [= <-]. apply cr_eof; auto. }
          apply Z.eqb_neq in H13. destruct (g_esc g && (c =? 92)) eqn:Ee.
          + apply andb_prop in Ee as [_ Ee]. apply Z.eqb_eq in Ee. subst c. destruct r as [|d r]; [discriminate|].
            destruct (newline_byte d) eqn:Ed; [discriminate|]. intros [= <-]. apply plain_piece; [cbn; lia|].
            cbn [firstn]. repeat constructor. exact Ed.
          + intros [= <-]. apply one_plain; auto.
        - destruct (g_nl g); intros [= <-]; apply end_piece; auto. }
      destruct (c =? 92) eqn:E92; [|exact Hlast].
      destruct (g_escnl g); [|exact Hlast]. destruct (line_end r) as [|e] eqn:Er; [exact Hlast|].
      intros [= <-]. apply Z.eqb_eq in E92. subst c. split; [pose proof (line_end_le r); cbn [length]; lia|].
      intros pos. rewrite (stops_skip 1 pos) by first [cbn; lia | cbn [firstn]; repeat constructor]. cbn [skipn].
      rewrite (stops_end _ _ _ Er). replace (pos + Z.of_nat 1 + Z.of_nat (S e)) with (pos + Z.of_nat (S (S e))) by lia. reflexivity. }
    destruct (find _ (g_close g)) as [q|] eqn:Ef; destruct n as [|n].
    - intros [= <-]. apply Hcl; auto.
    - destruct (existsb _ _); [discriminate|]. intros [= <-]. apply Hcl; auto.
    - destruct (existsb _ _); [discriminate|]. apply Hrest.
    - destruct (existsb _ _); [discriminate|]. apply Hrest.
  Qed.

  Lemma region_tidy g : In g (x_regions x) -> tidy_region g.
  Proof.
    intros Hg. unfold tidy in Htidy. apply andb_prop in Htidy as [H _]. rewrite forallb_forall in H. specialize (H _ Hg).
    apply andb_prop in H as [H1 H2]. split; auto. intros p Hp. rewrite forallb_forall in H2. auto.
  Qed.

  Lemma piece_lines_ok w h s p : known_place x w -> piece_of x w h s = Some p -> piece_lines s p.
  Proof.
    destruct w as [|g n]; cbn [known_place piece_of]; intros Hw H.
    - unfold outside in H. destruct s as [|c r]; [discriminate|]. destruct (existsb _ _); [discriminate|].
      destruct (find (fun p => has (fst (fst p)) _) _) as [[[q k] kd]|] eqn:Ew.
      { injection H as <-. apply find_some in Ew as [Hin Hh]. cbn [fst snd] in Hh.
        unfold tidy in Htidy. apply andb_prop in Htidy as [_ Ht]. rewrite forallb_forall in Ht. specialize (Ht _ Hin).
        cbn [fst snd] in Ht. apply andb_prop in Ht as [H1 H2]. apply andb_prop in H1 as [H1 _]. apply Nat.leb_le in H2.
        pose proof (has_len _ _ Hh). apply plain_piece; [lia|].
        replace k with (length (firstn k q)) by (rewrite firstn_length; lia). apply has_plain; auto. apply has_first; auto. }
      destruct (find (fun g => suits h g && opens g _) _) as [g|] eqn:Eg.
      { injection H as <-. apply find_some in Eg as [Hin Hh]. apply andb_prop in Hh as [_ Hh]. unfold opens in Hh. apply andb_prop in Hh as [Hh _].
        apply has_app in Hh. apply plain_piece; [apply has_len; auto|apply has_plain; auto]. apply region_tidy; auto. }
      destruct (line_end (c :: r)) as [|e] eqn:El; [|injection H as <-; apply end_piece; auto].
      destruct (c =? 11); [discriminate|]. injection H as <-.
      destruct (Z.eqb_spec c 13) as [->|H13]; [apply cr_eof; auto|]. apply one_plain; auto. apply Z.eqb_neq; auto.
    - eapply body_lines; eauto using region_tidy.
  Qed.

  Lemma piece_pos w h s p : known_place x w -> piece_of x w h s = Some p ->
    match p with Bytes n _ _ | Ends n _ _ _ => (0 < n)%nat end.
  Proof.
    destruct w as [|g n]; cbn [known_place piece_of]; intros Hw H.
    - unfold outside in H. destruct s as [|c r]; [discriminate|]. destruct (existsb _ _); [discriminate|].
      destruct (find (fun p => has (fst (fst p)) _) _) as [[[q k] kd]|] eqn:Ew.
      { injection H as <-. apply find_some in Ew as [Hin _].
        unfold tidy in Htidy. apply andb_prop in Htidy as [_ Ht]. rewrite forallb_forall in Ht. specialize (Ht _ Hin).
        cbn [fst snd] in Ht. apply andb_prop in Ht as [H1 H2]. apply andb_prop in H1 as [_ H1]. apply Nat.ltb_lt in H1. auto. }
      destruct (find (fun g => suits h g && opens g _) _) as [g|] eqn:Eg.
      { injection H as <-. apply find_some in Eg as [Hin _]. pose proof (sane_region x Hsane g Hin) as [Ho _]. lia. }
      destruct (line_end (c :: r)) as [|e] eqn:El; [|injection H as <-; lia].
      destruct (c =? 11); [discriminate|]. injection H as <-. lia.
    - pose proof (body_pos g n s (sane_region x Hsane g Hw)) as HB. rewrite H in HB. destruct p; auto.
  Qed.

  Lemma last_indep {A} (l : list A) a b : l <> [] -> last l a = last l b.
  Proof. induction l as [|y l IH]; intros H; [congruence|]. destruct l; [reflexivity|]. cbn in *. apply IH. discriminate. Qed.

  Lemma kind_blank_name k : kind_name k = "lblank" <-> k = Blank.
  Proof. destruct k; cbn; split; intros; congruence. Qed.

  Lemma acc_lines f : forall w L p h s l, known_place x w -> L <= p -> (p <= L -> kind_now h = Blank) ->
    account f x lang w L p h s = Some l ->
    tiled L l /\ exists tl, map e_end l = line_stops p s ++ tl
      /\ (tl = [] \/ tl = [p + Z.of_nat (length s)] /\ Z.of_nat (length s) + p > L /\ last (line_stops p s) L < p + Z.of_nat (length s)).
  Proof.
    induction f as [|f IH]; intros w L p h s l Hw HL Hnow H; [discriminate|]. cbn [account] in H.
    destruct s as [|c s].
    - assert (Hl : l = match kind_now h with Blank => [] | k => [mkEvent lang (kind_name k) L p] end).
      { destruct w as [|[? ? ? ? ? ? [] ? ? ? ? ? ?] ?]; congruence. }
      assert (HLp : kind_now h <> Blank -> L < p).
      { intros Hk. destruct (Z_le_gt_dec p L) as [Hle|]; [|lia]. exfalso. exact (Hk (Hnow Hle)). }
      destruct (kind_now h) eqn:Ek; subst l; cbn.
      + split; auto. exists []. auto.
      + specialize (HLp ltac:(discriminate)). split; [repeat split; auto|]. exists [p]. rewrite Z.add_0_r. split; auto. right.
        split; auto. lia.
      + specialize (HLp ltac:(discriminate)). split; [repeat split; auto|]. exists [p]. rewrite Z.add_0_r. split; auto. right.
        split; auto. lia.
    - destruct (piece_of x w h (c :: s)) as [pc|] eqn:Ep; [|discriminate].
      pose proof (piece_lines_ok _ _ _ _ Hw Ep) as HP. pose proof (piece_place _ _ _ _ _ Hw Ep) as Hw'.
      destruct pc as [n k w'|n k i w'].
      + destruct HP as [Hn HP].
        pose proof (piece_pos _ _ _ _ Hw Ep) as Hpos. cbn in Hpos.
        destruct (IH w' L (p + Z.of_nat n) (mark k (starts n (c :: s)) h) (skipn n (c :: s)) l Hw' ltac:(lia)) as (H1 & tl & H2 & H3); auto; [lia|].
        split; auto. exists tl. rewrite (HP p). split; auto. destruct H3 as [H3|H3]; auto. right.
        rewrite skipn_length in H3. replace (p + Z.of_nat n + Z.of_nat (length (c :: s) - n)) with (p + Z.of_nat (length (c :: s))) in H3 by lia.
        destruct H3 as (H3 & H4 & H5). repeat split; auto. lia.
      + destruct HP as [Hn HP]. set (stop := p + Z.of_nat n) in *.
        destruct (account f x lang w' stop stop (fresh (starts n (c :: s))) (skipn n (c :: s))) as [l'|] eqn:El; [|discriminate].
        injection H as <-. destruct (IH w' stop stop (fresh (starts n (c :: s))) _ _ Hw' ltac:(lia) ltac:(auto) El) as (H1 & tl & H2 & H3).
        split.
        * cbn [tiled e_start e_end e_entity]. split; [|split; auto].
          -- destruct (kind_now (mark k false h)); auto. destruct i; auto.
          -- unfold stop. destruct (kind_now (mark k false h)); try lia. destruct i; lia.
        * exists tl. rewrite (HP p). cbn [map e_end app]. fold stop. rewrite H2. split; auto.
          destruct H3 as [H3|(H3 & H4 & H5)]; auto. right. rewrite skipn_length in H3, H4, H5.
          assert (E : stop + Z.of_nat (length (c :: s) - n) = p + Z.of_nat (length (c :: s))) by lia.
          rewrite E in H3, H5.
          split; auto. split; [lia|]. destruct (line_stops stop (skipn n (c :: s))) as [|y ys] eqn:Eys; [cbn [last] in *; lia|].
          change (last (stop :: y :: ys) L) with (last (y :: ys) L).
          rewrite (last_indep _ _ stop); auto. discriminate.
  Qed.
End Lines.
