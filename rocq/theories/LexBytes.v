(** Bytes that neither the automaton nor the account of the language distinguishes. *)
From Coq Require Import ZArith String List Bool Lia.
From Verif Require Import Base ParsedModel RagelSyntax RagelBuild RagelRun LineSpec LexSpec LexCheck LexFacts LexProofs.
Import ListNotations.
Open Scope string_scope.
Open Scope Z_scope.
Open Scope list_scope.

Section Bytes.
  Variable x : lexis.
  Variable m : machine.

  Definition like (c c' : Z) : Prop :=
    PM.find (Z.to_pos (c + 1)) (m_class m) = PM.find (Z.to_pos (c' + 1)) (m_class m)
    /\ forall s, In s (sets x) -> among c s = among c' s.

  Lemma like_eqb c c' k : like c c' -> In k [9; 10; 11; 12; 13; 32; 92] -> (c =? k) = (c' =? k).
  Proof.
    intros [_ H] Hk. assert (Hin : In [k] (sets x)).
    { unfold sets. do 4 (apply in_or_app; right).
      apply (in_map (fun c => [c])). exact Hk. }
    specialize (H _ Hin). unfold among in H. cbn in H. rewrite !orb_false_r in H. exact H.
  Qed.

  Notation alike := (Forall2 like).

  Lemma alike_len t t' : alike t t' -> length t = length t'.
  Proof. induction 1; cbn; auto. Qed.
  Lemma alike_skip n : forall t t', alike t t' -> alike (skipn n t) (skipn n t').
  Proof. induction n; intros t t' H; [exact H|]. destruct H; cbn; auto. Qed.

  (** ** The account *)
  Lemma has_like p : incl p (sets x) -> forall t t', alike t t' -> has p t = has p t'.
  Proof.
    induction p as [|s p IH]; intros Hp t t' H; [reflexivity|]. destruct H as [|c c' t t' Hc H]; [reflexivity|]. cbn [has].
    rewrite (proj2 Hc s (Hp _ (in_eq _ _))). f_equal. apply IH; auto. intros u Hu. apply Hp. right; auto.
  Qed.
  Lemma existsb_like l : (forall p, In p l -> incl p (sets x)) -> forall t t', alike t t' ->
    existsb (fun p => has p t) l = existsb (fun p => has p t') l.
  Proof.
    induction l as [|p l IH]; intros Hl t t' H; [reflexivity|]. cbn [existsb]. rewrite (has_like p (Hl _ (in_eq _ _)) _ _ H).
    f_equal. apply IH; auto. intros q Hq. apply Hl. right; auto.
  Qed.
  Lemma find_like {A} (l : list A) f f' : (forall p, In p l -> f p = f' p) -> find f l = find f' l.
  Proof.
    induction l as [|p l IH]; intros Hl; [reflexivity|]. cbn [find]. rewrite <- (Hl _ (in_eq _ _)).
    destruct (f p); auto. apply IH. intros q Hq. apply Hl. right; auto.
  Qed.

  Lemma line_end_like t t' : alike t t' -> line_end t = line_end t'.
  Proof.
    intros H. destruct H as [|c c' t t' Hc H]; [reflexivity|]. cbn [line_end].
    rewrite !(like_eqb _ _ _ Hc) by (cbn; tauto). destruct H as [|d d' t t' Hd H]; [reflexivity|].
    rewrite (like_eqb _ _ 10 Hd) by (cbn; tauto). reflexivity.
  Qed.

  Definition fine (g : region) : Prop := incl (g_open g) (sets x) /\ incl (g_ahead g) (sets x)
    /\ (forall p, In p (g_close g) -> incl p (sets x)) /\ (forall p, In p (g_never g) -> incl p (sets x)).

  Lemma region_fine g : In g (x_regions x) -> fine g.
  Proof.
    intros Hg. assert (H : forall s, In s (g_open g ++ g_ahead g ++ List.concat (g_close g) ++ List.concat (g_never g)) -> In s (sets x)).
    { intros s Hs. unfold sets. apply in_or_app. left. apply in_flat_map. eauto. }
    split; [|split; [|split]].
    - intros s Hs. apply H. apply in_or_app; auto.
    - intros s Hs. apply H. apply in_or_app; right. apply in_or_app; auto.
    - intros p Hp s Hs. apply H. apply in_or_app; right. apply in_or_app; right. apply in_or_app; left. apply in_concat. eauto.
    - intros p Hp s Hs. apply H. apply in_or_app; right. apply in_or_app; right. apply in_or_app; right. apply in_concat. eauto.
  Qed.

  Lemma body_like g n t t' : fine g -> alike t t' -> body g n t = body g n t'.
  Proof.
    intros (Ho & Ha & Hc & Hn) H. pose proof H as H0. destruct H0 as [|c c' r r' Hb Hr]; [reflexivity|]. unfold body.
    rewrite (find_like (g_close g) _ (fun p => has p (c' :: r'))) by (intros p Hp; apply has_like; auto).
    rewrite (existsb_like _ Hn _ _ H), (has_like _ Ho _ _ H), (line_end_like _ _ H), (line_end_like _ _ Hr).
    unfold blank_byte. rewrite !(like_eqb _ _ _ Hb) by (cbn; tauto).
    destruct (find _ (g_close g)), n; auto;
      (destruct (existsb _ _); [auto|]); destruct (_ && _); auto;
      (destruct (if c' =? 92 then g_escnl g else None), (line_end r')); auto;
      (destruct (line_end (c' :: r')); auto); (destruct (c' =? 13); auto); (destruct (g_esc g && _); auto);
      destruct Hr as [|e e' r r' He Hr]; auto; unfold newline_byte; rewrite !(like_eqb _ _ _ He) by (cbn; tauto); auto.
  Qed.

  Lemma closed_like g : fine g -> forall f n t t', alike t t' -> closed f g n t = closed f g n t'.
  Proof.
    intros Hg. induction f as [|f IH]; intros n t t' H; [reflexivity|]. cbn [closed]. rewrite (body_like _ _ _ _ Hg H).
    destruct (body g n t') as [[k ? []|k ? ? []]|]; auto using alike_skip.
  Qed.

  Lemma opens_like g t t' : fine g -> alike t t' -> opens g t = opens g t'.
  Proof.
    intros Hg H. unfold opens. destruct Hg as (Ho & Ha & Hg). cbv zeta.
    rewrite (has_like (g_open g ++ g_ahead g) (incl_app Ho Ha) _ _ H).
    pose proof (alike_skip (length (g_open g)) _ _ H) as Hs. rewrite (alike_len _ _ Hs).
    rewrite (closed_like g (conj Ho (conj Ha Hg)) _ _ _ _ Hs). reflexivity.
  Qed.

  Lemma outside_like h t t' : alike t t' -> outside x h t = outside x h t'.
  Proof.
    intros H. pose proof H as H0. destruct H0 as [|c c' r r' Hb Hr]; [reflexivity|]. unfold outside.
    rewrite (existsb_like (barred x h)) with (t' := c' :: r'); auto.
    2:{ intros p Hp s Hs. unfold sets. apply in_or_app; right. apply in_or_app; right. unfold barred in Hp. apply in_app_or in Hp as [Hp|Hp].
        - apply in_or_app; left. apply in_concat. eauto.
        - destruct (n_start h); [|contradiction]. apply in_or_app; right. apply in_or_app; left. apply in_concat. eauto. }
    rewrite (find_like (x_words x) _ (fun p => has (fst (fst p)) (c' :: r'))).
    2:{ intros p Hp. apply has_like; auto. intros s Hs. unfold sets. apply in_or_app; right. apply in_or_app; left. apply in_flat_map. eauto. }
    rewrite (find_like (x_regions x) _ (fun g => suits h g && opens g (c' :: r'))) by (intros g Hg; f_equal; apply opens_like; auto using region_fine).
    rewrite (line_end_like _ _ H). unfold blank_byte. rewrite !(like_eqb _ _ _ Hb) by (cbn; tauto). reflexivity.
  Qed.

  Definition known_place (w : place) : Prop := match w with Out => True | Inside g _ => In g (x_regions x) end.

  Lemma body_place g n t p : body g n t = Some p ->
    match p with Bytes _ _ w | Ends _ _ _ w => w = Out \/ exists n', w = Inside g n' end.
  Proof.
    unfold body. destruct t as [|c r]; [discriminate|].
    repeat match goal with
    | |- context [match ?X with _ => _ end] => destruct X
    end; try discriminate; intros [= <-]; eauto.
  Qed.

  Lemma piece_place w h t p : known_place w -> piece_of x w h t = Some p ->
    match p with Bytes _ _ w | Ends _ _ _ w => known_place w end.
  Proof.
    destruct w as [|g n]; cbn [piece_of known_place].
    - intros _. unfold outside. destruct t as [|c r]; [discriminate|]. destruct (existsb _ _); [discriminate|].
      destruct (find (fun p => has (fst (fst p)) _) _) as [[[? ?] ?]|]; [intros [= <-]; exact I|].
      destruct (find (fun g => suits h g && opens g _) _) as [g|] eqn:E.
      + intros [= <-]. apply find_some in E. tauto.
      + destruct (line_end _); [|intros [= <-]; exact I]. destruct (c =? 11); [discriminate|]. intros [= <-]. exact I.
    - intros Hg H. apply body_place in H. destruct p as [? ? w|? ? ? w]; destruct H as [->|[n' ->]]; cbn; auto.
  Qed.

  Lemma piece_like w h t t' : known_place w -> alike t t' -> piece_of x w h t = piece_of x w h t'.
  Proof.
    destruct w as [|g n]; cbn [piece_of known_place]; intros Hw H; [apply outside_like; auto|].
    apply body_like; auto using region_fine.
  Qed.

  Lemma starts_like n t t' : alike t t' -> starts n t = starts n t'.
  Proof.
    intros H. unfold starts. generalize (n - 1)%nat as i. induction H as [|c c' t t' Hc H IH]; intros [|i]; cbn [nth]; auto.
    unfold newline_byte. rewrite !(like_eqb _ _ _ Hc) by (cbn; tauto). reflexivity.
  Qed.

  Lemma account_like lang : forall f w L p h t t', known_place w -> alike t t' ->
    account f x lang w L p h t = account f x lang w L p h t'.
  Proof.
    induction f as [|f IH]; intros w L p h t t' Hw H; [reflexivity|]. cbn [account].
    pose proof (piece_like w h _ _ Hw H) as E. pose proof (piece_place w h t') as Hp.
    pose proof (fun n => starts_like n _ _ H) as Hst.
    pose proof H as H0. destruct H0 as [|c c' r r' Hb Hr]; [reflexivity|]. rewrite E.
    destruct (piece_of x w h (c' :: r')) as [[k kd w'|k kd i w']|] eqn:E'; auto.
    - rewrite Hst. apply IH; [apply (Hp _ Hw eq_refl)|apply alike_skip; auto].
    - rewrite Hst. rewrite (IH w' _ _ _ _ (skipn k (c' :: r'))); auto; [apply (Hp _ Hw eq_refl)|apply alike_skip; auto].
  Qed.

  Lemma lex_lines_like lang t t' : alike t t' -> lex_lines x lang t = lex_lines x lang t'.
  Proof. intros H. unfold lex_lines. rewrite (alike_len _ _ H). apply account_like; auto. exact I. Qed.

  (** ** The automaton *)
  Section Run.
    Variable t t' : list Z.
    Hypothesis Ht : alike t t'.

    Lemma src_like i : match src t i, src t' i with
      | Ok c, Ok c' => like c c'
      | Ub e, Ub e' => e = e'
      | OutOfFuel, OutOfFuel => True
      | _, _ => False
      end.
    Proof.
      unfold src. destruct (i <? 0); [reflexivity|]. rewrite (alike_len _ _ Ht).
      assert (H : match nth_error t (Z.to_nat i), nth_error t' (Z.to_nat i) with
                  | Some c, Some c' => like c c' | None, None => True | _, _ => False end).
      { generalize (Z.to_nat i). clear -Ht. induction Ht as [|c c' u u' Hc Hu IH]; intros [|k]; cbn [nth_error]; [exact I|exact I|exact Hc|apply IH; exact Hu]. }
      destruct (nth_error t _), (nth_error t' _); try contradiction; auto.
      destruct (i =? _); [|reflexivity]. split; auto.
    Qed.

    Lemma blank_like n : forall i, blank_entry n t i = blank_entry n t' i.
    Proof.
      induction n as [|n IH]; intros i; [reflexivity|]. cbn [blank_entry]. pose proof (src_like i) as H.
      destruct (src t i) as [c| |], (src t' i) as [c'| |]; try contradiction; cbn [bind]; [|congruence|reflexivity].
      rewrite !(like_eqb _ _ _ H) by (cbn; tauto). rewrite IH. destruct (_ || _); auto. destruct (c' =? 13); auto.
      pose proof (src_like (i + 1)) as H1.
      destruct (src t (i + 1)) as [e| |], (src t' (i + 1)) as [e'| |]; try contradiction; cbn [bind]; [|congruence|reflexivity].
      rewrite !(like_eqb _ _ 10 H1) by (cbn; tauto). reflexivity.
    Qed.

    Lemma switch_like l : forall r, switch t l r = switch t' l r.
    Proof.
      induction l as [|[e a] l IH]; intros r; [reflexivity|]. cbn [switch]. rewrite IH. destruct (r_ent r =? e); auto.
      destruct a; cbn [exec_macro]; auto. unfold check_blank_entry. rewrite (alike_len _ _ Ht), blank_like. reflexivity.
    Qed.

    Lemma body_run_like l : forall r, exec_body m t l r = exec_body m t' l r.
    Proof.
      induction l as [|s l IH]; intros r; [reflexivity|]. cbn [exec_body].
      assert (exec_stmt m t s r = exec_stmt m t' s r) as -> by (destruct s; cbn [exec_stmt]; auto; rewrite switch_like; reflexivity).
      destruct (exec_stmt m t' s r) as [[r1 []]| |]; cbn [bind]; auto.
    Qed.
    Lemma part_like d i r : exec_part m t d i r = exec_part m t' d i r.
    Proof. unfold exec_part. destruct (nth_error _ _) as [[|]|]; auto using body_run_like. Qed.
    Lemma instrs_like d l : forall r, exec_instrs m t d l r = exec_instrs m t' d l r.
    Proof.
      induction l as [|s l IH]; intros r; [reflexivity|]. cbn [exec_instrs].
      assert (exec_instr m t d s r = exec_instr m t' d s r) as ->.
      { destruct s; cbn [exec_instr]; auto using body_run_like, part_like.
        - destruct (cint (r_te r)); cbn [bind]; auto using part_like.
        - destruct (r_act r); auto. destruct (cint (r_te r)); cbn [bind]; auto using part_like. }
      destruct (exec_instr m t' d s r) as [[r1 []]| |]; cbn [bind]; auto.
    Qed.

    Lemma select_like b r : select t b r = select t' b r.
    Proof.
      induction b as [e|c y IHy n IHn]; [reflexivity|]. cbn [select].
      assert (eval_cond t c r = eval_cond t' c r) as ->.
      { destruct c; cbn [eval_cond]; auto.
        - rewrite (alike_len _ _ Ht). destruct (_ <? _); auto. pose proof (src_like (r_p r + 1)) as H.
          destruct (src t _) as [c| |], (src t' _) as [c'| |]; try contradiction; cbn [bind]; [|congruence|reflexivity].
          rewrite (like_eqb _ _ 10 H) by (cbn; tauto). reflexivity.
        - destruct (_ =? 0); auto. pose proof (src_like (r_p r - 1)) as H.
          destruct (src t _) as [c| |], (src t' _) as [c'| |]; try contradiction; cbn [bind]; [|congruence|reflexivity].
          unfold is_nl. rewrite !(like_eqb _ _ _ H) by (cbn; tauto). reflexivity. }
      destruct (eval_cond t' c r) as [[]| |]; cbn [bind]; auto.
    Qed.

    Lemma step_like r : step m t r = step m t' r.
    Proof.
      unfold step. destruct (r_cs r) as [[i k]|]; auto. destruct (dfa_of m i) as [d| |]; cbn [bind]; auto.
      destruct (state_of d k) as [q| |]; cbn [bind]; auto. rewrite (alike_len _ _ Ht).
      destruct (r_p r =? _).
      - destruct (q_eof_to q); rewrite instrs_like; reflexivity.
      - cbv zeta. pose proof (src_like (r_p (if is_scan_start d k then set_ts (Some (r_p r)) r else r))) as H.
        destruct (src t _) as [c| |], (src t' _) as [c'| |]; try contradiction; cbn [bind]; [|congruence|reflexivity].
        rewrite (proj1 H). destruct (PM.find _ _) as [cl|]; cbn [bind]; auto.
        destruct (nth_error _ _) as [br|]; cbn [bind]; auto. rewrite select_like.
        destruct (select t' br _) as [e| |]; cbn [bind]; auto. rewrite instrs_like. reflexivity.
    Qed.

    Lemma parse_like fuel : parse m t fuel = parse m t' fuel.
    Proof.
      unfold parse. destruct (start m) as [r| |]; cbn [bind]; auto.
      assert (loop m t fuel r = loop m t' fuel r) as ->.
      { revert r. induction fuel as [|f IH]; intros r; [reflexivity|]. cbn [loop]. rewrite step_like.
        destruct (step m t' r) as [[]| |]; cbn [bind]; auto. }
      destruct (loop m t' fuel r) as [r1| |]; cbn [bind]; auto. unfold process_last_line. rewrite (alike_len _ _ Ht). reflexivity.
    Qed.
  End Run.

  (** ** Representatives *)
  Lemma sig_eqb_eq a b : sig_eqb a b = true -> a = b.
  Proof.
    destruct a, b. unfold sig_eqb. cbn [fst snd]. intros H. apply andb_prop in H as [H1 H2].
    f_equal; [apply (oeqb_eq _ neqb_eq); auto|apply (list_eqb_eq _ eqb_prop); auto].
  Qed.
  Lemma rep_like c : like c (rep (sets x) m (sigs (sets x) m) c).
  Proof.
    unfold rep. destruct (find _ _) as [[e s]|] eqn:E; [|split; auto]. apply find_some in E as [Hin E].
    cbn [fst snd] in *. apply sig_eqb_eq in E. unfold sigs in Hin. apply in_map_iff in Hin as (b & [= -> <-] & _).
    unfold sig in E. injection E as E1 E2. split; auto. intros s Hs. clear -E2 Hs. revert E2 Hs. generalize (sets x).
    induction l as [|u l IH]; cbn; intros E Hin; [contradiction|]. injection E as E1 E2. destruct Hin as [->|Hin]; auto.
  Qed.
End Bytes.

Theorem lex_check_all x lang m tb text fuel es l :
  lex_check x lang (reps x m) m tb = true ->
  (forall c, In c text -> 0 <= c < 256) ->
  lex_lines x lang text = Some l ->
  parse m text fuel = Ok es -> es = l.
Proof.
  intros Hck Hb Hl Hp. set (f := rep (sets x) m (sigs (sets x) m)).
  assert (Ht : Forall2 (like x m) text (map f text)).
  { clear. subst f. induction text as [|c u IH]; cbn; constructor; auto. apply rep_like. }
  rewrite (parse_like x m _ _ Ht) in Hp. rewrite (lex_lines_like x m lang _ _ Ht) in Hl.
  refine (lex_check_ok _ _ _ _ _ _ _ _ _ Hck _ Hl Hp). intros c Hc. apply in_map_iff in Hc as (b & <- & Hin). unfold reps. cbv zeta.
  apply nodup_In. apply in_map. unfold all_bytes. specialize (Hb _ Hin). apply in_map_iff. exists (Z.to_nat b). split; [lia|].
  apply in_seq. lia.
Qed.

(** On the files the account accepts NULL is not used. *)
Theorem lex_check_all_null x lang m tb text fuel l :
  lex_check x lang (reps x m) m tb = true ->
  (forall c, In c text -> 0 <= c < 256) ->
  lex_lines x lang text = Some l ->
  parse m text fuel <> Ub NullDeref.
Proof.
  intros Hck Hb Hl. set (f := rep (sets x) m (sigs (sets x) m)).
  assert (Ht : Forall2 (like x m) text (map f text)).
  { clear. subst f. induction text as [|c u IH]; cbn; constructor; auto. apply rep_like. }
  rewrite (parse_like x m _ _ Ht). rewrite (lex_lines_like x m lang _ _ Ht) in Hl.
  refine (lex_check_null _ _ _ _ _ _ _ _ Hck _ Hl). intros c Hc. apply in_map_iff in Hc as (b & <- & Hin). unfold reps. cbv zeta.
  apply nodup_In. apply in_map. unfold all_bytes. specialize (Hb _ Hin). apply in_map_iff. exists (Z.to_nat b). split; [lia|].
  apply in_seq. lia.
Qed.
