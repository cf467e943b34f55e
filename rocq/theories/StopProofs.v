(** Parsers that give up: a run depends on the bytes read so far only. *)
From Coq Require Import ZArith String List Bool Lia.
From Verif Require Import Base ParsedModel RagelSyntax RagelBuild RagelRun ParserTable.
Import ListNotations.
Open Scope string_scope.
Open Scope Z_scope.
Open Scope list_scope.

Local Notation zlen l := (Z.of_nat (length l)).

(** No action looks ahead (check_blank_entry). *)
Definition near_stmt (s : stmt) : bool :=
  match s with
  | Switch l => forallb (fun e => match snd e with Mblank _ => false | _ => true end) l
  | _ => true
  end.
Definition near_action (a : action) : bool := forallb near_stmt (a_body a).
Definition near_instr (i : instr) : bool := match i with User a => near_action a | _ => true end.
Definition near_dfa (d : dfa) : bool := forallb (fun a => match a with Some a => near_action a | None => true end) (df_parts d).
Fixpoint near_branch (b : branch) : bool :=
  match b with BEdge e => forallb near_instr (e_ins e) | BIf _ y n => near_branch y && near_branch n end.
Definition near (m : machine) : bool :=
  forallb (fun d => near_dfa d && forallb (fun q => forallb near_branch (q_row (snd q))) (PM.elements (df_sts d))) (m_dfas m).

Section Local.
  Variable m : machine.
  Variables pre rest : list Z.

  Lemma src_pre i c : i < zlen pre -> src pre i = Ok c -> src (pre ++ rest) i = Ok c.
  Proof.
    unfold src. intros Hi. destruct (Z.ltb_spec i 0); [discriminate|].
    rewrite nth_error_app1 by lia. destruct (nth_error pre (Z.to_nat i)) as [x|] eqn:E; [auto|].
    apply nth_error_None in E. lia.
  Qed.

  Lemma switch_pre l r : near_stmt (Switch l) = true -> switch pre l r = switch (pre ++ rest) l r.
  Proof.
    cbn. induction l as [|[e mc] l IH]; cbn; auto. intros H. apply andb_prop in H as [H1 H2].
    destruct (r_ent r =? e); auto. destruct mc; auto. discriminate.
  Qed.
  Lemma stmt_pre s r : near_stmt s = true -> exec_stmt m pre s r = exec_stmt m (pre ++ rest) s r.
  Proof. destruct s; intros H; try reflexivity. cbn [exec_stmt]. rewrite (switch_pre _ _ H). reflexivity. Qed.
  Lemma body_pre l : forall r, forallb near_stmt l = true -> exec_body m pre l r = exec_body m (pre ++ rest) l r.
  Proof.
    induction l as [|s l IH]; intros r H; [reflexivity|]. cbn [forallb] in H. apply andb_prop in H as [H1 H2].
    cbn [exec_body]. rewrite (stmt_pre _ _ H1). destruct (exec_stmt m (pre ++ rest) s r) as [[r' []]| |]; cbn [bind]; auto.
  Qed.
  Lemma part_pre d i r : near_dfa d = true -> exec_part m pre d i r = exec_part m (pre ++ rest) d i r.
  Proof.
    intros H. unfold exec_part. destruct (nth_error (df_parts d) i) as [[a|]|] eqn:E; auto. apply body_pre.
    unfold near_dfa in H. rewrite forallb_forall in H. exact (H _ (nth_error_In _ _ E)).
  Qed.
  Lemma instr_pre d i r : near_dfa d = true -> near_instr i = true -> exec_instr m pre d i r = exec_instr m (pre ++ rest) d i r.
  Proof.
    intros Hd Hi. destruct i; cbn [exec_instr]; auto using part_pre.
    - apply body_pre. exact Hi.
    - destruct (cint (r_te r)); cbn [bind]; auto using part_pre.
    - destruct (r_act r); auto. destruct (cint (r_te r)); cbn [bind]; auto using part_pre.
  Qed.
  Lemma instrs_pre d l : near_dfa d = true -> forall r, forallb near_instr l = true ->
    exec_instrs m pre d l r = exec_instrs m (pre ++ rest) d l r.
  Proof.
    intros Hd. induction l as [|i l IH]; intros r H; [reflexivity|]. cbn [forallb] in H. apply andb_prop in H as [H1 H2].
    cbn [exec_instrs]. rewrite (instr_pre _ _ _ Hd H1). destruct (exec_instr m (pre ++ rest) d i r) as [[r' []]| |]; cbn [bind]; auto.
  Qed.

  Lemma select_near b r : forall e, near_branch b = true -> r_p r + 1 < zlen pre -> select pre b r = Ok e ->
    select (pre ++ rest) b r = Ok e /\ forallb near_instr (e_ins e) = true.
  Proof.
    induction b as [e0|c y IHy n IHn]; intros e Hn Hp H.
    - cbn in *. injection H as <-. auto.
    - cbn [near_branch] in Hn. apply andb_prop in Hn as [Hy Hn]. cbn [select] in *.
      destruct (eval_cond pre c r) as [t| |] eqn:Ec; try discriminate. cbn [bind] in H.
      assert (Ec' : eval_cond (pre ++ rest) c r = Ok t).
      { destruct c; cbn [eval_cond] in *; auto.
        - destruct (Z.ltb_spec (r_p r + 1) (zlen pre)); [|lia]. rewrite app_length.
          destruct (Z.ltb_spec (r_p r + 1) (Z.of_nat (length pre + length rest))); [|lia].
          destruct (src pre (r_p r + 1)) as [x| |] eqn:E; try discriminate. rewrite (src_pre _ _ Hp E). exact Ec.
        - destruct (r_p r =? 0); auto. destruct (src pre (r_p r - 1)) as [x| |] eqn:E; try discriminate.
          rewrite (src_pre (r_p r - 1) x) by (auto; lia). exact Ec. }
      rewrite Ec'. cbn [bind]. destruct t; auto.
  Qed.

  Hypothesis Hnear : near m = true.

  Lemma step_pre r o : r_p r + 1 < zlen pre -> step m pre r = Ok o -> step m (pre ++ rest) r = Ok o.
  Proof.
    intros Hp. unfold step. destruct (r_cs r) as [[i k]|]; auto.
    unfold dfa_of. destruct (nth_error (m_dfas m) i) as [d|] eqn:Ed; [|discriminate]. cbn [bind].
    unfold state_of. destruct (PM.find k (df_sts d)) as [q|] eqn:Eq; [|discriminate]. cbn [bind].
    unfold near in Hnear. rewrite forallb_forall in Hnear. specialize (Hnear _ (nth_error_In _ _ Ed)).
    apply andb_prop in Hnear as [Hd Hq]. rewrite forallb_forall in Hq. specialize (Hq _ (PM.elements_correct _ _ Eq)). cbn [snd] in Hq.
    destruct (Z.eqb_spec (r_p r) (zlen pre)); [lia|].
    destruct (Z.eqb_spec (r_p r) (zlen (pre ++ rest))) as [E|_]; [rewrite app_length in E; lia|]. cbv zeta.
    set (r1 := if is_scan_start d k then set_ts (Some (r_p r)) r else r).
    assert (Hp1 : r_p r1 = r_p r) by (unfold r1; destruct (is_scan_start d k); reflexivity). rewrite Hp1.
    destruct (src pre (r_p r)) as [c| |] eqn:Es; try discriminate. rewrite (src_pre (r_p r) c) by (auto; lia). cbn [bind].
    destruct (PM.find (Z.to_pos (c + 1)) (m_class m)) as [cl|]; [|discriminate]. cbn [bind].
    destruct (nth_error (q_row q) cl) as [b|] eqn:Eb; [|discriminate]. cbn [bind].
    rewrite forallb_forall in Hq. specialize (Hq _ (nth_error_In _ _ Eb)).
    destruct (select pre b r1) as [e| |] eqn:Esel; try discriminate.
    assert (Hp2 : r_p r1 + 1 < zlen pre) by lia.
    destruct (select_near _ _ _ Hq Hp2 Esel) as [-> He]. cbn [bind].
    rewrite (instrs_pre d (e_ins e) Hd _ He). auto.
  Qed.
End Local.

(** ** Runs on a prefix *)

(** The run on [pre] while the byte read and the one after it are in [pre]. *)
Fixpoint ahead (fuel : nat) (m : machine) (pre : list Z) (r : rt) : rt :=
  match fuel with
  | O => r
  | S fuel =>
    if r_p r + 1 <? zlen pre then
      match step m pre r with Ok (Go r') => ahead fuel m pre r' | _ => r end
    else r
  end.

Lemma loop_more m text f : forall r r', loop m text f r = Ok r' -> forall k, loop m text (k + f) r = Ok r'.
Proof.
  induction f as [|f IH]; intros r r' H k; [discriminate|]. rewrite Nat.add_succ_r. cbn [loop] in *.
  destruct (step m text r) as [[r1|r1]| |]; cbn [bind] in *; auto.
Qed.
Lemma ahead_ok m pre rest : near m = true -> forall n r r' f,
  loop m (pre ++ rest) f (ahead n m pre r) = Ok r' -> loop m (pre ++ rest) (n + f) r = Ok r'.
Proof.
  intros Hn. induction n as [|n IH]; intros r r' f H; [exact H|]. cbn [ahead] in H.
  destruct (Z.ltb_spec (r_p r + 1) (zlen pre)) as [Hp|]; [|apply (loop_more _ _ _ _ _ H (S n))].
  destruct (step m pre r) as [[r1|r1]| |] eqn:Es; try exact (loop_more _ _ _ _ _ H (S n)).
  cbn [Nat.add loop]. rewrite (step_pre m pre rest Hn _ _ Hp Es). cbn [bind]. auto.
Qed.

(** ** Steps that read one byte *)
Fixpoint select_free (b : branch) (r : rt) : option edge :=
  match b with
  | BEdge e => Some e
  | BIf (CrAlone | StartsLine) _ _ => None
  | BIf c y n => match eval_cond [] c r with Ok t => select_free (if t then y else n) r | _ => None end
  end.
Definition step_on (m : machine) (c : Z) (r : rt) : res outcome :=
  match r_cs r with
  | None => Ok (Stop r)
  | Some (i, k) =>
    d <- dfa_of m i ;;
    q <- state_of d k ;;
    let r := if is_scan_start d k then set_ts (Some (r_p r)) r else r in
    cl <- match PM.find (Z.to_pos (c + 1)) (m_class m) with Some x => Ok x | None => Ub OutOfBounds end ;;
    b <- match nth_error (q_row q) cl with Some x => Ok x | None => Ub OutOfBounds end ;;
    e <- match select_free b r with Some e => Ok e | None => OutOfFuel end ;;
    '(r, _) <- exec_instrs m [] d (e_ins e) (set_cs (option_map (fun s => (i, s)) (e_to e)) r) ;;
    again m r
  end.

Lemma select_free_ok text b r : forall e, select_free b r = Some e -> near_branch b = true ->
  select text b r = Ok e /\ forallb near_instr (e_ins e) = true.
Proof.
  induction b as [e0|c y IHy n IHn]; intros e H Hn; cbn [select_free select near_branch] in *.
  - injection H as <-. auto.
  - apply andb_prop in Hn as [Hy Hn].
    assert (E : exists t, eval_cond text c r = Ok t /\ select_free (if t then y else n) r = Some e)
      by (destruct c; try discriminate; cbn [eval_cond] in *; eauto).
    destruct E as (t & -> & Ht). cbn [bind]. destruct t; auto.
Qed.

Lemma step_on_ok m text c r o : near m = true -> 0 <= r_p r -> nth_error text (Z.to_nat (r_p r)) = Some c ->
  step_on m c r = Ok o -> step m text r = Ok o.
Proof.
  intros Hnear H0 Hc. unfold step_on, step. destruct (r_cs r) as [[i k]|]; auto.
  unfold dfa_of. destruct (nth_error (m_dfas m) i) as [d|] eqn:Ed; [|discriminate]. cbn [bind].
  unfold state_of. destruct (PM.find k (df_sts d)) as [q|] eqn:Eq; [|discriminate]. cbn [bind].
  unfold near in Hnear. rewrite forallb_forall in Hnear. specialize (Hnear _ (nth_error_In _ _ Ed)).
  apply andb_prop in Hnear as [Hd Hq]. rewrite forallb_forall in Hq. specialize (Hq _ (PM.elements_correct _ _ Eq)). cbn [snd] in Hq.
  assert (Hl : (Z.to_nat (r_p r) < length text)%nat) by (apply nth_error_Some; congruence).
  destruct (Z.eqb_spec (r_p r) (zlen text)); [lia|]. cbv zeta.
  set (r1 := if is_scan_start d k then set_ts (Some (r_p r)) r else r).
  assert (Hp1 : r_p r1 = r_p r) by (unfold r1; destruct (is_scan_start d k); reflexivity). rewrite Hp1.
  unfold src. destruct (Z.ltb_spec (r_p r) 0); [lia|]. rewrite Hc. cbn [bind].
  destruct (PM.find (Z.to_pos (c + 1)) (m_class m)) as [cl|]; [|discriminate]. cbn [bind].
  destruct (nth_error (q_row q) cl) as [b|] eqn:Eb; [|discriminate]. cbn [bind].
  rewrite forallb_forall in Hq. specialize (Hq _ (nth_error_In _ _ Eb)).
  destruct (select_free b r1) as [e|] eqn:Esel; [|discriminate]. cbn [bind].
  destruct (select_free_ok text _ _ _ Esel Hq) as [-> He]. cbn [bind].
  rewrite (instrs_pre m [] text d (e_ins e) Hd _ He). auto.
Qed.

(** In the state [k] the bytes of [good] are passed over. *)
Definition passes (m : machine) (i : nat) (k : positive) (good : Z -> bool) : bool :=
  match dfa_of m i with
  | Ok d =>
    negb (is_scan_start d k)
    && match state_of d k with
       | Ok q =>
         forallb (fun b => negb (good b) || match PM.find (Z.to_pos (b + 1)) (m_class m) with
                                            | Some cl => match nth_error (q_row q) cl with
                                                         | Some (BEdge (mkEdge (Some k') [])) => Pos.eqb k k'
                                                         | _ => false
                                                         end
                                            | None => false
                                            end) (map Z.of_nat (seq 0 256))
       | _ => false
       end
  | _ => false
  end.
Lemma passes_step m i k good r b : passes m i k good = true -> r_cs r = Some (i, k) -> 0 <= b < 256 -> good b = true ->
  step_on m b r = Ok (Go (set_p (r_p r + 1) r)).
Proof.
  intros Hp Hc Hb Hg. unfold passes in Hp. unfold step_on. rewrite Hc.
  destruct (dfa_of m i) as [d| |] eqn:Ed; try discriminate. apply andb_prop in Hp as [Hs Hp]. apply negb_true_iff in Hs.
  cbn [bind]. destruct (state_of d k) as [q| |]; try discriminate. cbn [bind]. rewrite Hs. cbv zeta.
  rewrite forallb_forall in Hp.
  assert (Hin : In b (map Z.of_nat (seq 0 256))) by (apply in_map_iff; exists (Z.to_nat b); split; [lia|apply in_seq; lia]).
  specialize (Hp _ Hin). rewrite Hg in Hp. cbn [negb orb] in Hp.
  destruct (PM.find (Z.to_pos (b + 1)) (m_class m)) as [cl|]; [|discriminate]. cbn [bind].
  destruct (nth_error (q_row q) cl) as [[[[k'|] [|? ?]]|]|]; try discriminate. apply Pos.eqb_eq in Hp. subst k'.
  cbn [bind select_free e_ins e_to exec_instrs option_map]. unfold again. cbn [r_cs set_cs]. rewrite Ed. cbn [bind]. rewrite Hs.
  destruct r as [p0 ts te act cs st w c l en sn iq ll lc lw qu va ou]. cbn in *. subst cs. reflexivity.
Qed.
Lemma passes_run m i k good text : near m = true -> passes m i k good = true ->
  forall body pre rest r r' f, text = pre ++ body ++ rest -> (forall b, In b body -> 0 <= b < 256 /\ good b = true) ->
  r_cs r = Some (i, k) -> r_p r = zlen pre ->
  loop m text f (set_p (zlen (pre ++ body)) r) = Ok r' -> loop m text (length body + f) r = Ok r'.
Proof.
  intros Hn Hp. induction body as [|b body IH]; intros pre rest r r' f Ht Hg Hc Hr H.
  - rewrite app_nil_r in H. rewrite <- Hr in H.
    replace (set_p (r_p r) r) with r in H by (destruct r; reflexivity). exact H.
  - cbn [length Nat.add loop]. destruct (Hg b (or_introl eq_refl)) as [Hb Hgb].
    assert (Hnth : nth_error text (Z.to_nat (r_p r)) = Some b).
    { subst text. rewrite Hr, Nat2Z.id, nth_error_app2, Nat.sub_diag by lia. reflexivity. }
    rewrite (step_on_ok m text b r _ Hn ltac:(lia) Hnth (passes_step _ _ _ _ _ _ Hp Hc Hb Hgb)). cbn [bind].
    apply (IH (pre ++ [b]) rest).
    + rewrite <- app_assoc. exact Ht.
    + intros b' Hb'. apply Hg. right. exact Hb'.
    + exact Hc.
    + cbn [r_p set_p]. rewrite Hr, app_length. cbn [length]. lia.
    + rewrite <- app_assoc. exact H.
Qed.
