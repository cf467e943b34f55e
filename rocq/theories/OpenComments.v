(** The C parser on a file of comment openings, none of which is closed, with blank lines
    between: every one of them makes the parser report all lines that follow. *)
From Coq Require Import ZArith String List Bool Lia.
From Verif Require Import Base ParsedModel RagelSyntax RagelBuild RagelRun ParserTable.
Import ListNotations.
Open Scope string_scope.
Open Scope Z_scope.
Open Scope list_scope.

(** [n] times a line that opens a comment and an empty line. *)
Fixpoint openings (n : nat) : list Z :=
  match n with O => [] | S n => [47; 42; 10; 10] ++ openings n end.

Lemma openings_length n : length (openings n) = (4 * n)%nat.
Proof. induction n; cbn [openings app length]; lia. Qed.
Lemma openings_nth n : forall i, (i < n)%nat ->
  nth_error (openings n) (4 * i) = Some 47 /\ nth_error (openings n) (4 * i + 1) = Some 42 /\
  nth_error (openings n) (4 * i + 2) = Some 10 /\ nth_error (openings n) (4 * i + 3) = Some 10.
Proof.
  induction n; intros i H; [lia|]. cbn [openings app]. destruct i as [|i].
  - cbn. auto.
  - replace (4 * S i)%nat with (S (S (S (S (4 * i))))) by lia. cbn [nth_error Nat.add]. apply IHn. lia.
Qed.

(** What the parser reports: opening [a] makes it read to the end of the file, reporting
    comments and blank lines; then it goes back and reports the line as code. *)
Definition span (kind : string) (s len : nat) : event := mkEvent "C_LANG" kind (Z.of_nat s) (Z.of_nat (s + len)).
Definition comment (j : nat) : event := span "lcomment" (4 * j) 3.
Definition code (j : nat) : event := span "lcode" (4 * j) 3.
Definition empty (j : nat) : event := span "lblank" (4 * j + 3) 1.
Definition reports_from (n a : nat) : list event :=
  flat_map (fun b => [comment b; empty b]) (seq a (n - 1 - a)) ++ [comment (n - 1); code a; empty a].
Definition reports (n : nat) : list event := flat_map (reports_from n) (seq 0 n).

(** ** The machine, as far as it is used *)
Definition cell (m : machine) (d : dfa) (k : positive) (c : Z) : option branch :=
  match PM.find k (df_sts d), PM.find (Z.to_pos (c + 1)) (m_class m) with
  | Some q, Some cl => nth_error (q_row q) cl
  | _, _ => None
  end.
Definition at_eof (d : dfa) (k : positive) : option (list instr * option positive) :=
  match PM.find k (df_sts d) with Some q => Some (q_eof q, q_eof_to q) | None => None end.

Definition the_switch : stmt := Switch [(0, Mls); (8, Mcode); (-2, Minl "C_LANG"); (-1, Mnl "C_LANG")].
Definition goes (s : positive) (ins : list instr) : option branch := Some (BEdge (mkEdge (Some s) ins)).

Definition shape (m : machine) (d : dfa) : Prop :=
  m_dfas m = [d] /\ df_start d = 55%positive /\ df_scan d = true /\
  nth_error (df_parts d) 3 = Some (Some (mkAction 14001 [the_switch])) /\
  nth_error (df_parts d) 4 = Some (Some (mkAction 14001 [the_switch])).
Definition cells (m : machine) (d : dfa) : Prop :=
  cell m d 55 47 = goes 3 [SetTe; User (mkAction 14507 [Entity 8])] /\
  cell m d 55 42 = goes 55 [User (mkAction 14507 [Entity 8]); OnLast 4] /\
  cell m d 55 10 = goes 55 [User (mkAction 14506 [Entity (-1)]); OnLast 3] /\
  cell m d 3 42 = goes 35 [User (mkAction 5 [Acomment])] /\
  cell m d 35 10 = goes 40 [] /\
  cell m d 40 47 = goes 37 [User (mkAction 14502 [Entity (-2)]); User (mkAction 14001 [the_switch]); User (mkAction 5 [Acomment])] /\
  cell m d 40 10 = goes 40 [User (mkAction 14502 [Entity (-2)]); User (mkAction 14001 [the_switch])] /\
  cell m d 37 42 = goes 42 [User (mkAction 5 [Acomment])] /\
  cell m d 42 10 = goes 40 [] /\
  at_eof d 40 = Some ([OnLag 4], Some 55%positive) /\ at_eof d 55 = Some ([], None).

Section Run.
  Variable cm : machine.
  Variable d0 : dfa.
  Hypothesis facts : shape cm d0.
  Hypothesis facts2 : cells cm d0.
  Variable n : nat.
  Let text := openings n.
  Let len := Z.of_nat (length text).

  Lemma len_is : len = 4 * Z.of_nat n.
  Proof. unfold len, text. rewrite openings_length. lia. Qed.

  Lemma src_at i : 0 <= i < Z.of_nat n ->
    src text (4 * i) = Ok 47 /\ src text (4 * i + 1) = Ok 42 /\ src text (4 * i + 2) = Ok 10 /\
    src text (4 * i + 3) = Ok 10.
  Proof.
    intros H. destruct (openings_nth n (Z.to_nat i)) as (A & B & C & D); [lia|].
    unfold src. repeat match goal with |- context [?x <? 0] => replace (x <? 0) with false by lia end.
    replace (Z.to_nat (4 * i)) with (4 * Z.to_nat i)%nat by lia.
    replace (Z.to_nat (4 * i + 1)) with (4 * Z.to_nat i + 1)%nat by lia.
    replace (Z.to_nat (4 * i + 2)) with (4 * Z.to_nat i + 2)%nat by lia.
    replace (Z.to_nat (4 * i + 3)) with (4 * Z.to_nat i + 3)%nat by lia.
    unfold text. rewrite A, B, C, D. auto.
  Qed.

  Lemma dfa0 : dfa_of cm 0 = Ok d0.
  Proof. unfold dfa_of. rewrite (proj1 facts). reflexivity. Qed.
  Lemma scan_start k : is_scan_start d0 k = Pos.eqb k 55.
  Proof. unfold is_scan_start. destruct facts as (_ & -> & -> & _). reflexivity. Qed.

  Definition advance (r : rt) : rt :=
    match r_cs r with
    | Some (_, k) => let r := if Pos.eqb k 55 then set_actid None (set_ts None r) else r in set_p (r_p r + 1) r
    | None => r
    end.
  Lemma again_is r k : r_cs r = Some (0%nat, k) -> again cm r = Ok (Go (advance r)).
  Proof. intros H. unfold again, advance. rewrite H, dfa0. cbn [bind]. rewrite scan_start. reflexivity. Qed.

  Lemma step_byte r k c s ins : r_cs r = Some (0%nat, k) -> 0 <= r_p r < len -> src text (r_p r) = Ok c ->
    cell cm d0 k c = Some (BEdge (mkEdge (Some s) ins)) ->
    step cm text r =
      ('(r, _) <- exec_instrs cm text d0 ins
                    (set_cs (Some (0%nat, s)) (if Pos.eqb k 55 then set_ts (Some (r_p r)) r else r)) ;; again cm r).
  Proof.
    intros Hc Hp Hs Hk. unfold step. rewrite Hc, dfa0. cbn [bind]. unfold state_of, cell in *.
    destruct (PM.find k (df_sts d0)) as [q|]; [|discriminate]. cbn [bind].
    fold len. replace (r_p r =? len) with false by lia. rewrite scan_start.
    replace (r_p (if (k =? 55)%positive then set_ts (Some (r_p r)) r else r)) with (r_p r) by (destruct (k =? 55)%positive; auto).
    rewrite Hs. cbn [bind]. destruct (PM.find _ (m_class cm)) as [cl|]; [|discriminate]. cbn [bind].
    rewrite Hk. reflexivity.
  Qed.
  Lemma step_eof r k ins s : r_cs r = Some (0%nat, k) -> r_p r = len -> at_eof d0 k = Some (ins, Some s) ->
    step cm text r = ('(r, _) <- exec_instrs cm text d0 ins (set_cs (Some (0%nat, s)) r) ;; again cm r).
  Proof.
    intros Hc Hp Hk. unfold step. rewrite Hc, dfa0. cbn [bind]. unfold state_of, at_eof in *.
    destruct (PM.find k (df_sts d0)) as [q|]; [|discriminate]. injection Hk as H1 H2. cbn [bind].
    fold len. rewrite Hp, Z.eqb_refl, H1, H2. reflexivity.
  Qed.
  Lemma step_stop r k : r_cs r = Some (0%nat, k) -> r_p r = len -> at_eof d0 k = Some ([], None) ->
    step cm text r = Ok (Stop r).
  Proof.
    intros Hc Hp Hk. unfold step. rewrite Hc, dfa0. cbn [bind]. unfold state_of, at_eof in *.
    destruct (PM.find k (df_sts d0)) as [q|]; [|discriminate]. injection Hk as H1 H2. cbn [bind].
    fold len. rewrite Hp, Z.eqb_refl, H1, H2. reflexivity.
  Qed.

  Definition reach (k : nat) (r r' : rt) : Prop := forall f, loop cm text (k + f) r = loop cm text f r'.
  Lemma reach_one r r' : step cm text r = Ok (Go r') -> reach 1 r r'.
  Proof. intros H f. cbn [Nat.add loop]. rewrite H. reflexivity. Qed.
  Lemma reach_trans a b r1 r2 r3 : reach a r1 r2 -> reach b r2 r3 -> reach (a + b) r1 r3.
  Proof. intros H1 H2 f. rewrite <- Nat.add_assoc, H1. apply H2. Qed.
  Lemma reach_refl r : reach 0 r r.
  Proof. intros f. reflexivity. Qed.

  Definition st (p : Z) (ts te : ptr) (k : positive) (wlc lcc : bool) (ls : ptr) (ent : Z) (out : list event) : rt :=
    mkRt p ts te None (Some (0%nat, k)) [] wlc lcc ls ent None false None false false [] [] out.
  Definition zcomment (j : Z) : event := mkEvent "C_LANG" "lcomment" (4 * j) (4 * j + 3).
  Definition zcode (j : Z) : event := mkEvent "C_LANG" "lcode" (4 * j) (4 * j + 3).
  Definition zempty (j : Z) : event := mkEvent "C_LANG" "lblank" (4 * j + 3) (4 * j + 4).

  Lemma part3 r : exec_part cm text d0 3 r = exec_body cm text [the_switch] r.
  Proof. unfold exec_part. destruct facts as (_ & _ & _ & -> & _). reflexivity. Qed.
  Lemma part4 r : exec_part cm text d0 4 r = exec_body cm text [the_switch] r.
  Proof. unfold exec_part. destruct facts as (_ & _ & _ & _ & ->). reflexivity. Qed.

  (** The macros on such states. *)
  Lemma sw_inl p ts te k w l s out : exec_body cm text [the_switch] (st p ts te k w l (Some s) (-2) out) =
    Ok (st p ts te k false false (Some p) (-2)
          (if s <? p then mkEvent "C_LANG" (if l then "lcode" else if w then "lcomment" else "lblank") s p :: out else out), false).
  Proof.
    lazy -[Z.ltb]. destruct (Z.ltb s p), l, w; reflexivity.
  Qed.
  Lemma sw_code p ts te k w l s out : exec_body cm text [the_switch] (st p ts te k w l (Some s) 8 out) =
    Ok (st p ts te k w true (Some s) 8 out, false).
  Proof. destruct l; reflexivity. Qed.
  Lemma sw_nl p ts te k w s out : s < te -> exec_body cm text [the_switch] (st p ts (Some te) k w true (Some s) (-1) out) =
    Ok (st p ts (Some te) k false false None (-1) (mkEvent "C_LANG" "lcode" s te :: out), false).
  Proof.
    intros H. assert (X : (s <? te) = true) by lia.
    lazy -[Z.ltb]. rewrite X. reflexivity.
  Qed.
  Lemma sw_empty p ts te k out : exec_body cm text [the_switch] (st p (Some ts) (Some te) k false false None (-1) out) =
    Ok (st p (Some ts) (Some te) k false false None (-1) (mkEvent "C_LANG" "lblank" ts te :: out), false).
  Proof. reflexivity. Qed.

  Lemma again_st p ts te k w l ls ent out : again cm (st p ts te k w l ls ent out) =
    Ok (Go (st (p + 1) (if Pos.eqb k 55 then None else ts) te k w l ls ent out)).
  Proof. erewrite again_is by reflexivity. unfold advance. cbn [r_cs st]. destruct (Pos.eqb k 55); reflexivity. Qed.

  (** One step. *)
  Lemma step_st p ts te k w l ls ent out c s ins p' ts' te' k' w' l' ls' ent' out' j :
    0 <= p < len -> src text p = Ok c -> cell cm d0 k c = goes s ins ->
    exec_instrs cm text d0 ins (st p (if Pos.eqb k 55 then Some p else ts) te s w l ls ent out) =
      Ok (st p' ts' te' k' w' l' ls' ent' out', j) ->
    reach 1 (st p ts te k w l ls ent out)
            (st (p' + 1) (if Pos.eqb k' 55 then None else ts') te' k' w' l' ls' ent' out').
  Proof.
    intros Hp Hs Hc He. apply reach_one. erewrite step_byte; [|reflexivity|exact Hp|exact Hs|exact Hc].
    replace (set_cs _ _) with (st p (if Pos.eqb k 55 then Some p else ts) te s w l ls ent out) by (destruct (Pos.eqb k 55); reflexivity).
    rewrite He. cbn [bind]. apply again_st.
  Qed.
  Lemma step_end ts te k w l ls ent out s ins p' ts' te' k' w' l' ls' ent' out' j :
    at_eof d0 k = Some (ins, Some s) ->
    exec_instrs cm text d0 ins (st len ts te s w l ls ent out) = Ok (st p' ts' te' k' w' l' ls' ent' out', j) ->
    reach 1 (st len ts te k w l ls ent out)
            (st (p' + 1) (if Pos.eqb k' 55 then None else ts') te' k' w' l' ls' ent' out').
  Proof.
    intros Hc He. apply reach_one. erewrite step_eof; [|reflexivity|reflexivity|exact Hc].
    change (set_cs _ _) with (st len ts te s w l ls ent out).
    rewrite He. cbn [bind]. apply again_st.
  Qed.
  Lemma ins_nil r : exec_instrs cm text d0 [] r = Ok (r, false).
  Proof. reflexivity. Qed.
  Lemma ins_ent a e l p ts te k w b ls ent out x :
    exec_instrs cm text d0 l (st p ts te k w b ls e out) = x ->
    exec_instrs cm text d0 (User (mkAction a [Entity e]) :: l) (st p ts te k w b ls ent out) = x.
  Proof. intros <-. reflexivity. Qed.
  Lemma ins_sw a l r r' x : exec_body cm text [the_switch] r = Ok (r', false) -> exec_instrs cm text d0 l r' = x ->
    exec_instrs cm text d0 (User (mkAction a [the_switch]) :: l) r = x.
  Proof. intros H <-. cbn [exec_instrs exec_instr a_body]. rewrite H. reflexivity. Qed.
  Lemma ins_last k p ts te c w b ls ent out r' : k = 3%nat \/ k = 4%nat ->
    exec_body cm text [the_switch] (st p ts (Some (p + 1)) c w b ls ent out) = Ok (r', false) ->
    exec_instrs cm text d0 [OnLast k] (st p ts te c w b ls ent out) = Ok (r', false).
  Proof.
    intros Hk H. cbn [exec_instrs exec_instr]. change (set_te _ _) with (st p ts (Some (p + 1)) c w b ls ent out).
    destruct Hk as [-> | ->]; rewrite ?part3, ?part4, H; reflexivity.
  Qed.
  Lemma ins_lag p ts te c w b ls ent out r' :
    exec_body cm text [the_switch] (st (te - 1) ts (Some te) c w b ls ent out) = Ok (r', false) ->
    exec_instrs cm text d0 [OnLag 4] (st p ts (Some te) c w b ls ent out) = Ok (r', false).
  Proof.
    intros H. cbn [exec_instrs exec_instr]. cbn [cint r_te st bind]. rewrite part4.
    change (set_p _ _) with (st (te - 1) ts (Some te) c w b ls ent out). rewrite H. reflexivity.
  Qed.
  Lemma reach_to k r r1 r2 : reach k r r1 -> r1 = r2 -> reach k r r2.
  Proof. intros H <-. exact H. Qed.
  Ltac same := cbn -[Z.add Z.mul Z.of_nat Z.sub]; repeat first [reflexivity | lia | f_equal].
  Ltac bnd := rewrite len_is; cbn -[Z.add Z.mul Z.of_nat Z.sub]; lia.

  Section Line.
  Variable i : Z.
  Hypothesis Hi : 0 <= i < Z.of_nat n.
  Definition in_c (p : Z) (k : positive) (w : bool) (ls ent : Z) (out : list event) : rt :=
    st p (Some (4 * i)) (Some (4 * i + 1)) k w false (Some ls) ent out.

  Lemma s123 te ent out :
    reach 3 (st (4 * i) None te 55 false false None ent out) (in_c (4 * i + 3) 40 true (4 * i) 8 out).
  Proof.
    destruct (src_at i Hi) as (A & B & C & D). destruct facts2 as (F1 & _ & _ & F2 & F3 & _).
    change 3%nat with (1 + (1 + 1))%nat. eapply reach_trans; [|eapply reach_trans].
    - eapply step_st; [bnd|exact A|exact F1|reflexivity].
    - eapply step_st; [bnd|exact B|exact F2|reflexivity].
    - eapply reach_to; [eapply step_st; [bnd| |exact F3|reflexivity]|].
      + cbn -[Z.add Z.mul Z.of_nat Z.sub]. replace (4 * i + 1 + 1) with (4 * i + 2) by lia. exact C.
      + unfold in_c. cbn [Pos.eqb]. same.
  Qed.

  (** The empty line of opening [j]. *)
  Lemma s4 j ent out : i <= j < Z.of_nat n ->
    reach 1 (in_c (4 * j + 3) 40 true (4 * j) ent out) (in_c (4 * j + 4) 40 false (4 * j + 3) (-2) (zcomment j :: out)).
  Proof.
    intros Hj. destruct (src_at j) as (A & B & C & D); [lia|]. destruct facts2 as (_ & _ & _ & _ & _ & _ & F & _).
    eapply reach_to; [eapply step_st; [bnd|exact D|exact F|]|].
    - cbn [Pos.eqb]. apply ins_ent. eapply ins_sw; [apply sw_inl|].
      replace (4 * j <? 4 * j + 3) with true by lia. reflexivity.
    - unfold in_c. cbn [Pos.eqb]. same.
  Qed.
  Lemma t123 j out : i < j < Z.of_nat n ->
    reach 3 (in_c (4 * j) 40 false (4 * j - 1) (-2) out) (in_c (4 * j + 3) 40 true (4 * j) (-2) (zempty (j - 1) :: out)).
  Proof.
    intros Hj. destruct (src_at j) as (A & B & C & D); [lia|]. destruct facts2 as (_ & _ & _ & _ & _ & F1 & _ & F2 & F3 & _).
    change 3%nat with (1 + (1 + 1))%nat. eapply reach_trans; [|eapply reach_trans].
    - eapply step_st; [bnd|exact A|exact F1|].
      cbn [Pos.eqb]. apply ins_ent. eapply ins_sw; [apply sw_inl|].
      replace (4 * j - 1 <? 4 * j) with true by lia. reflexivity.
    - eapply step_st; [bnd|exact B|exact F2|reflexivity].
    - eapply reach_to; [eapply step_st; [bnd| |exact F3|reflexivity]|].
      + cbn -[Z.add Z.mul Z.of_nat Z.sub]. replace (4 * j + 1 + 1) with (4 * j + 2) by lia. exact C.
      + unfold in_c, zempty. cbn [Pos.eqb]. same.
  Qed.

  (** At the end of the file the comment is given up; the line is read again as code. *)
  Lemma u1 out :
    reach 1 (in_c len 40 false (len - 1) (-2) out) (st (4 * i + 1) None (Some (4 * i + 1)) 55 false false (Some (4 * i)) (-2) out).
  Proof.
    destruct facts2 as (_ & _ & _ & _ & _ & _ & _ & _ & _ & F & _).
    eapply reach_to; [eapply step_end; [exact F|]|].
    - apply ins_lag. rewrite sw_inl. replace (len - 1 <? 4 * i + 1 - 1) with false by (rewrite len_is; lia). reflexivity.
    - cbn [Pos.eqb]. same.
  Qed.
  Lemma u234 out :
    reach 3 (st (4 * i + 1) None (Some (4 * i + 1)) 55 false false (Some (4 * i)) (-2) out)
            (st (4 * (i + 1)) None (Some (4 * (i + 1))) 55 false false None (-1) (zempty i :: zcode i :: out)).
  Proof.
    destruct (src_at i Hi) as (A & B & C & D). destruct facts2 as (_ & F1 & F2 & _).
    change 3%nat with (1 + (1 + 1))%nat. eapply reach_trans; [|eapply reach_trans].
    - eapply step_st; [bnd|exact B|exact F1|].
      cbn [Pos.eqb]. apply ins_ent. apply ins_last; [lia|]. apply sw_code.
    - eapply step_st; [bnd| |exact F2|].
      + cbn -[Z.add Z.mul Z.of_nat Z.sub]. replace (4 * i + 1 + 1) with (4 * i + 2) by lia. exact C.
      + cbn [Pos.eqb]. apply ins_ent. apply ins_last; [lia|]. apply sw_nl. lia.
    - eapply reach_to; [eapply step_st; [bnd| |exact F2|]|].
      + cbn -[Z.add Z.mul Z.of_nat Z.sub]. replace (4 * i + 1 + 1 + 1) with (4 * i + 3) by lia. exact D.
      + cbn [Pos.eqb]. apply ins_ent. apply ins_last; [lia|]. apply sw_empty.
      + cbn [Pos.eqb]. unfold zempty, zcode. same.
  Qed.

  (** The lines [j], [j+1], ... of the comment (newest first). *)
  Fixpoint lines_in (j : Z) (k : nat) (out : list event) : list event :=
    match k with O => out | S k => lines_in (j + 1) k (zempty j :: zcomment j :: out) end.

  Lemma inner k : forall j ent out, i <= j -> j + 1 + Z.of_nat k = Z.of_nat n -> exists f,
    reach f (in_c (4 * j + 3) 40 true (4 * j) ent out)
      (in_c len 40 false (len - 1) (-2) (zcomment (Z.of_nat n - 1) :: lines_in j k out)).
  Proof.
    induction k as [|k IH]; intros j ent out Hj Hk.
    - exists 1%nat. eapply reach_to; [apply s4; lia|]. rewrite len_is. cbn [lines_in]. unfold in_c, zcomment. same.
    - destruct (IH (j + 1) (-2) (zempty j :: zcomment j :: out) ltac:(lia) ltac:(lia)) as (f & R).
      exists (1 + (3 + f))%nat. eapply reach_trans; [apply s4; lia|]. eapply reach_trans; [|exact R].
      eapply reach_to.
      + cbn -[Z.add Z.mul Z.of_nat Z.sub]. replace (4 * j + 4) with (4 * (j + 1)) by lia. replace (4 * j + 3) with (4 * (j + 1) - 1) by lia.
        apply t123. lia.
      + replace (j + 1 - 1) with j by lia. reflexivity.
  Qed.

  Lemma whole_line te ent out : exists k,
    reach k (st (4 * i) None te 55 false false None ent out)
            (st (4 * (i + 1)) None (Some (4 * (i + 1))) 55 false false None (-1)
                (zempty i :: zcode i :: zcomment (Z.of_nat n - 1) :: lines_in i (n - 1 - Z.to_nat i) out)).
  Proof.
    destruct (inner (n - 1 - Z.to_nat i) i 8 out ltac:(lia) ltac:(lia)) as (f & R).
    eexists. eapply reach_trans; [apply s123|]. eapply reach_trans; [exact R|].
    eapply reach_trans; [apply u1|apply u234].
  Qed.
  End Line.

  Lemma lines_in_is m : forall j o, 0 <= j ->
    lines_in j m o = rev (flat_map (fun b => [comment b; empty b]) (seq (Z.to_nat j) m)) ++ o.
  Proof.
    induction m as [|m IH]; intros j o Hj; cbn [lines_in seq flat_map]; [reflexivity|].
    rewrite IH by lia. replace (Z.to_nat (j + 1)) with (S (Z.to_nat j)) by lia.
    rewrite rev_app_distr, <- app_assoc. cbn [rev app].
    assert (E1 : zempty j = empty (Z.to_nat j)) by (unfold zempty, empty, span; f_equal; lia).
    assert (E2 : zcomment j = comment (Z.to_nat j)) by (unfold zcomment, comment, span; f_equal; lia).
    rewrite E1, E2. reflexivity.
  Qed.

  Lemma all_lines k : forall i te ent out, 0 <= i -> i + Z.of_nat k = Z.of_nat n ->
    exists f te' ent' out', reach f (st (4 * i) None te 55 false false None ent out)
      (st len None te' 55 false false None ent' (out' ++ out)) /\
      rev out' = flat_map (reports_from n) (seq (Z.to_nat i) k).
  Proof.
    induction k as [|k IH]; intros i te ent out H0 Hk.
    - exists 0%nat, te, ent, []. rewrite len_is. replace i with (Z.of_nat n) by lia. split; [apply reach_refl|reflexivity].
    - destruct (whole_line i ltac:(lia) te ent out) as (f & R).
      destruct (IH (i + 1) (Some (4 * (i + 1))) (-1)
        (zempty i :: zcode i :: zcomment (Z.of_nat n - 1) :: lines_in i (n - 1 - Z.to_nat i) out) ltac:(lia) ltac:(lia))
        as (f' & te' & ent' & out' & R' & E).
      exists (f + f')%nat, te', ent', (out' ++ rev (reports_from n (Z.to_nat i))).
      assert (E1 : zempty i = empty (Z.to_nat i)) by (unfold zempty, empty, span; f_equal; lia).
      assert (E2 : zcode i = code (Z.to_nat i)) by (unfold zcode, code, span; f_equal; lia).
      assert (E3 : zcomment (Z.of_nat n - 1) = comment (n - 1)) by (unfold zcomment, comment, span; f_equal; lia).
      split.
      + eapply reach_trans; [exact R|]. eapply reach_to; [exact R'|].
        rewrite lines_in_is, E1, E2, E3 by lia. unfold reports_from. rewrite rev_app_distr, <- !app_assoc. reflexivity.
      + rewrite rev_app_distr, rev_involutive, E. cbn [seq flat_map].
        replace (Z.to_nat (i + 1)) with (S (Z.to_nat i)) by lia. reflexivity.
  Qed.

  Lemma parse_openings : exists f, parse cm text f = Ok (reports n).
  Proof.
    destruct (all_lines n 0 None 0 [] ltac:(lia) ltac:(lia)) as (f & te & ent & out & R & E).
    exists (f + 1)%nat. unfold parse, start, RagelRun.entry. rewrite dfa0. cbn [bind].
    pose proof (proj1 (proj2 facts)) as ->.
    specialize (R 1%nat). unfold st in R at 1. replace (4 * 0) with 0 in R by lia. rewrite R.
    cbn [loop]. erewrite step_stop; [|reflexivity|reflexivity|apply facts2].
    cbn [bind]. unfold process_last_line. cbn [r_wlc r_lcc st orb bind r_out].
    rewrite app_nil_r, E. reflexivity.
  Qed.
End Run.

(** ** The compiled parser *)
Definition no_machine : machine := mkMachine (PM.empty _) [] "".
Definition cm : machine :=
  match find_entry "c" with
  | Some en => match compile (en_parser en) with Some m => m | None => no_machine end
  | None => no_machine
  end.
Definition d0 : dfa := nth 0 (m_dfas cm) (mkDfa 1 false (PM.empty _) []).
Lemma cm_shape : shape cm d0.
Proof. vm_compute. repeat split. Qed.
Lemma cm_cells : cells cm d0.
Proof. vm_compute. repeat split. Qed.
