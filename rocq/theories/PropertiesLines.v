(** Properties C20, C21, C22: the languages that are counted line by line. *)
From Coq Require Import ZArith String List Bool Lia.
From Verif Require Import Checked Base ParsedModel RagelSyntax RagelBuild RagelRun ParserTable ScanSpec PropertiesScan.
From Verif Require ScanCert.
From Verif Require Import LineSpec LineCheck LineProofs LineCerts.
Import ListNotations.
Open Scope string_scope.
Open Scope Z_scope.
Open Scope list_scope.

Notation no_tab text := (~ In 11 text).

Lemma plain_bytes text : file text -> no_tab text -> forall b, In b text -> In b the_bytes.
Proof.
  intros [Hb _] Hn b Hin. unfold the_bytes. apply filter_In. split.
  - unfold all_bytes. apply in_map_iff. exists (Z.to_nat b). specialize (Hb b Hin). split; [lia|]. apply in_seq. lia.
  - destruct (Z.eqb_spec b 11); auto. subst. contradiction.
Qed.

Lemma map_file_reports st lang vs n : forall pos l,
  map (rename vs) (file_reports n st lang pos l) = file_reports n st (value vs lang) pos l.
Proof.
  induction n; intros pos l; cbn; auto. destruct l as [|b l]; auto.
  destruct (first_line (b :: l)) as [[c e] t]. rewrite map_app, IHn. f_equal.
  unfold line_reports. destruct (line_kind st c); auto. destruct e; auto.
Qed.

Lemma style_cert name st : In (name, st) styles -> exists en m tb,
  find_entry name = Some en /\ compile (en_parser en) = Some m /\ value (en_vars en) (m_lang m) = name
  /\ tab_check m = true /\ line_check st (m_lang m) m tb = true.
Proof.
  intros H. destruct (all_checked_in _ _ _ _ line_certs H) as (tb & C).
  unfold line_certified in C. cbn [fst snd] in C.
  destruct (find_entry name) as [en|] eqn:E; [|discriminate]. destruct (compile (en_parser en)) as [m|] eqn:Em; [|discriminate].
  apply andb_prop in C as [C1 C2]. apply andb_prop in C1 as [C0 C1]. exists en, m, tb.
  split; [auto|]. split; [auto|]. split; [apply String.eqb_eq; auto|]. auto.
Qed.

Lemma styles_safe name st : In (name, st) styles -> find_entry name <> None /\ ~ In name html_like /\ name <> "rebol".
Proof.
  intros H.
  assert (C : forallb (fun x => found (fst x) && negb (existsb (String.eqb (fst x)) ("rebol" :: html_like))) styles = true)
    by (vm_compute; reflexivity).
  rewrite forallb_forall in C. specialize (C _ H). cbn [fst] in C. apply andb_prop in C as [C1 C2].
  split; [unfold found in C1; destruct (find_entry name); congruence|].
  apply negb_true_iff in C2. split.
  - intros Hin. assert (existsb (String.eqb name) ("rebol" :: html_like) = true); [|congruence].
    apply existsb_exists. exists name. split; [right; auto|apply String.eqb_refl].
  - intros ->. discriminate C2.
Qed.

(** ** C21 *)

(** For each of the languages of [styles], and every file without vertical tab: the
    reports are those of the line by line account; a line is blank, a comment or code
    according to its own text. *)
Theorem C21_lines_classified :
  forall name st text fuel, In (name, st) styles -> file text -> no_tab text ->
  step_bound text <= Z.of_nat fuel ->
  ohcount_parse (Some name) text fuel = Some (Ok (count_lines st name text)).
Proof.
  intros name st text fuel Hs Hf Hn Hb. destruct (styles_safe _ _ Hs) as (H1 & H2 & H3).
  destruct (C44_scanners_safe _ _ _ H1 H2 H3 Hf Hb) as (es & He). rewrite He. do 2 f_equal.
  destruct (style_cert _ _ Hs) as (en & m & tb & E1 & E2 & E3 & E4 & E5).
  unfold ohcount_parse, run_entry in He. rewrite E1, E2 in He.
  destruct (parse m text fuel) as [es0| |] eqn:Ep; cbn [bind] in He; try discriminate He. injection He as <-.
  rewrite (line_check_ok _ _ _ _ _ _ _ E5 (plain_bytes _ Hf Hn) Ep).
  unfold count_lines. rewrite map_file_reports, E3. reflexivity.
Qed.
Print Assumptions C21_lines_classified.

(** ** C20 *)

Lemma line_stops_cons pos b l : line_stops pos (b :: l) =
  (if (b =? 10) || (b =? 12) then [pos + 1]
   else match l with d :: _ => if (b =? 13) && negb (d =? 10) then [pos + 1] else [] | [] => [] end)
  ++ line_stops (pos + 1) l.
Proof.
  cbn [line_stops]. destruct (_ || _); auto. destruct l; auto. destruct (_ && _); auto.
Qed.

Lemma line_stops_first l : forall pos c e t, first_line l = (c, e, t) ->
  line_stops pos l = match e with [] => [] | _ => [pos + zlen c + zlen e] end ++ line_stops (pos + zlen c + zlen e) t.
Proof.
  induction l as [|b l IH]; intros pos c e t H.
  - cbn in H. injection H as <- <- <-. reflexivity.
  - rewrite first_line_cons in H. rewrite line_stops_cons. destruct (line_end (b :: l)) as [|k] eqn:El.
    + destruct (first_line l) as [[c' e'] t'] eqn:E. injection H as <- <- <-.
      rewrite (IH _ _ _ _ eq_refl).
      assert ((if (b =? 10) || (b =? 12) then [pos + 1]
               else match l with d :: _ => if (b =? 13) && negb (d =? 10) then [pos + 1] else [] | [] => [] end) = []) as ->.
      { cbn in El. destruct (_ || _); [discriminate|]. destruct (b =? 13); [|destruct l; auto].
        destruct l as [|x l]; auto. destruct (x =? 10); discriminate. }
      cbn [app]. replace (pos + zlen (b :: c')) with (pos + 1 + zlen c') by (cbn [length]; lia). reflexivity.
    + injection H as <- <- <-. cbn in El. destruct ((b =? 10) || (b =? 12)) eqn:E1.
      * injection El as <-. cbn. rewrite Z.add_0_r. reflexivity.
      * destruct (b =? 13) eqn:E2; [|discriminate]. destruct l as [|x l]; [discriminate|].
        destruct (x =? 10) eqn:E10; injection El as <-; cbn [andb negb].
        -- cbn [app]. rewrite line_stops_cons. rewrite E10. cbn. rewrite Z.add_0_r. rewrite <- !Z.add_assoc. reflexivity.
        -- cbn [app firstn skipn length]. cbn. rewrite Z.add_0_r. reflexivity.
Qed.

Lemma line_stops_shift l : forall p q, line_stops (p + q) l = map (Z.add p) (line_stops q l).
Proof.
  induction l as [|b l IH]; intros p q; [reflexivity|]. rewrite !line_stops_cons, map_app, <- IH.
  replace (p + q + 1) with (p + (q + 1)) by lia. f_equal.
  destruct (_ || _); [cbn; f_equal; lia|]. destruct l; auto. destruct (_ && _); auto.
Qed.

Lemma last_map_add l x : forall p d, l <> [] -> last (map (Z.add p) l) x = p + last l d.
Proof.
  induction l as [|a l IH]; intros p d H; [congruence|]. destruct l as [|b l]; [reflexivity|].
  change (last (map (Z.add p) (b :: l)) x = p + last (b :: l) d). apply IH. discriminate.
Qed.

Lemma last_part_next l c e t : first_line l = (c, e, t) ->
  last_part l = match e with [] => c | _ => last_part t end.
Proof.
  intros H. unfold last_part. rewrite (line_stops_first _ 0 _ _ _ H). pose proof (first_line_app _ _ _ _ H) as Ha.
  destruct e as [|x e].
  - pose proof (line_end_none_t _ _ _ _ H eq_refl) as ->. cbn. rewrite app_nil_r in Ha. subst. reflexivity.
  - rewrite Z.add_0_l. set (n := zlen c + zlen (x :: e)) in *.
    assert (Hn : skipn (Z.to_nat n) l = t).
    { rewrite Ha, app_assoc, skipn_app, skipn_all2, app_length by (rewrite app_length; lia). unfold n.
      replace (Z.to_nat _ - _)%nat with 0%nat by lia. reflexivity. }
    replace n with (n + 0) at 2 by lia. rewrite line_stops_shift. cbn [app].
    destruct (line_stops 0 t) as [|y ys] eqn:E.
    + cbn. exact Hn.
    + change (last (n :: map (Z.add n) (y :: ys)) 0) with (last (map (Z.add n) (y :: ys)) 0).
      rewrite (last_map_add _ _ n 0) by discriminate.
      assert (0 <= last (y :: ys) 0).
      { assert (Hpos : forall k p z, 0 <= p -> In z (line_stops p k) -> 0 <= z).
        { induction k as [|b k IHk]; intros p z Hp Hz; [destruct Hz|]. rewrite line_stops_cons in Hz.
          apply in_app_or in Hz. destruct Hz as [Hz|Hz]; [|apply (IHk (p + 1)); auto; lia].
          destruct (_ || _) in Hz; [cbn in Hz; lia|]. destruct k; [destruct Hz|]. destruct (_ && _) in Hz; cbn in Hz; lia. }
        apply (Hpos t 0); [lia|]. rewrite E. clear.
        revert y. induction ys as [|u ys IH]; intros y; [left; reflexivity|]. right. apply IH. }
      rewrite Z2Nat.inj_add by lia. rewrite skipn_add, Hn. reflexivity.
Qed.

Definition all_blank (st : style) (l : list Z) : bool := forallb (fun b => among b (13 :: st_lead st)) l.

Lemma strip_blank lead l : strip lead l = [] <-> forallb (fun b => among b lead) l = true.
Proof. induction l; cbn; [tauto|]. destruct (among a lead); [auto|]. split; discriminate. Qed.

Lemma kind_blank st c : line_kind st c = Blank <-> all_blank st c = true.
Proof.
  unfold line_kind, all_blank. rewrite <- strip_blank. destruct (strip (13 :: st_lead st) c) eqn:E; [tauto|].
  split; [|discriminate]. unfold text_kind. destruct (st_rule st); destruct (existsb _ _); discriminate.
Qed.

Lemma F_ends st lang n : forall l pos, (length l <= n)%nat ->
  map e_end (F st lang pos l) =
  line_stops pos l ++ (if all_blank st (last_part l) then [] else [pos + zlen l]).
Proof.
  induction n; intros l pos Hn.
  - destruct l; [|cbn in Hn; lia]. reflexivity.
  - destruct (first_line l) as [[c e] t] eqn:E. rewrite (F_step _ _ _ _ _ _ _ E), (line_stops_first _ _ _ _ _ E), map_app.
    rewrite (last_part_next _ _ _ _ E). pose proof (first_line_app _ _ _ _ E) as Ha.
    assert (Hl : zlen l = zlen c + zlen e + zlen t) by (rewrite Ha, !app_length; lia).
    destruct e as [|x e].
    + pose proof (line_end_none_t _ _ _ _ E eq_refl) as ->. cbn [app length line_stops]. unfold line_reports.
      destruct (line_kind st c) eqn:Ek.
      * apply kind_blank in Ek. rewrite Ek. reflexivity.
      * destruct (all_blank st c) eqn:Eb; [apply kind_blank in Eb; congruence|]. cbn. do 2 f_equal. cbn in Hl. lia.
      * destruct (all_blank st c) eqn:Eb; [apply kind_blank in Eb; congruence|]. cbn. do 2 f_equal. cbn in Hl. lia.
    + rewrite IHn by (cbn [length] in *; lia).
      replace (pos + Z.of_nat (length c + length (x :: e))) with (pos + zlen c + zlen (x :: e)) by lia.
      rewrite Hl. replace (pos + (zlen c + zlen (x :: e) + zlen t)) with (pos + zlen c + zlen (x :: e) + zlen t) by lia.
      rewrite app_assoc. f_equal. f_equal. unfold line_reports.
      destruct (line_kind st c); cbn [map e_end]; f_equal; lia.
Qed.

(** The reports end where the lines of the file end, one report per line; what follows
    the last line end is reported unless it is blank. *)
Theorem C20_one_report_per_line :
  forall name st text fuel, In (name, st) styles -> file text -> no_tab text ->
  step_bound text <= Z.of_nat fuel ->
  exists es, ohcount_parse (Some name) text fuel = Some (Ok es) /\
    map e_end es = line_stops 0 text ++ (if all_blank st (last_part text) then [] else [zlen text]).
Proof.
  intros name st text fuel Hs Hf Hn Hb. eexists. split; [apply C21_lines_classified; eauto|].
  apply (F_ends st name (length text)). lia.
Qed.
Print Assumptions C20_one_report_per_line.

Definition before (a b : event) : Prop := e_end a <= e_start b.

Lemma F_range st lang n : forall l pos ev, (length l <= n)%nat -> In ev (F st lang pos l) ->
  pos <= e_start ev < e_end ev /\ e_end ev <= pos + zlen l.
Proof.
  induction n; intros l pos ev Hn Hin.
  - destruct l; [|cbn in Hn; lia]. destruct Hin.
  - destruct (first_line l) as [[c e] t] eqn:E. rewrite (F_step _ _ _ _ _ _ _ E) in Hin.
    pose proof (first_line_app _ _ _ _ E) as Ha.
    assert (Hl : zlen l = zlen c + zlen e + zlen t) by (rewrite Ha, !app_length; lia).
    apply in_app_or in Hin. destruct Hin as [Hin|Hin].
    + unfold line_reports in Hin.
      assert (Hne : line_kind st c <> Blank -> 0 < zlen c).
      { intros Hk. apply zlen_pos. intros ->. apply Hk. reflexivity. }
      destruct (line_kind st c).
      * destruct e as [|x e]; [destruct Hin|]. destruct Hin as [<-|[]]. cbn [e_start e_end length] in *. lia.
      * specialize (Hne ltac:(discriminate)). destruct Hin as [<-|[]]. cbn [e_start e_end] in *. lia.
      * specialize (Hne ltac:(discriminate)). destruct Hin as [<-|[]]. cbn [e_start e_end] in *. lia.
    + destruct l as [|b l].
      { cbn in E. injection E as <- <- <-. destruct Hin. }
      assert (0 < zlen c + zlen e).
      { destruct c; [|cbn [length]; lia]. destruct e; [|cbn [length]; lia].
        pose proof (line_end_none_t _ _ _ _ E eq_refl). subst t. discriminate Ha. }
      apply IHn in Hin; [lia|]. cbn [length] in *. lia.
Qed.

Lemma F_sorted st lang n : forall l pos, (length l <= n)%nat -> Sorted.StronglySorted before (F st lang pos l).
Proof.
  induction n; intros l pos Hn.
  - destruct l; [|cbn in Hn; lia]. constructor.
  - destruct l as [|b l]; [constructor|].
    destruct (first_line (b :: l)) as [[c e] t] eqn:E. rewrite (F_step _ _ _ _ _ _ _ E).
    pose proof (first_line_app _ _ _ _ E) as Ha.
    assert (Hl : zlen (b :: l) = zlen c + zlen e + zlen t) by (rewrite Ha, !app_length; lia).
    assert (0 < zlen c + zlen e).
    { destruct c; [|cbn [length]; lia]. destruct e; [|cbn [length]; lia].
      pose proof (line_end_none_t _ _ _ _ E eq_refl). subst t. discriminate Ha. }
    assert (Ht : (length t <= n)%nat) by (cbn [length] in *; lia).
    pose proof (IHn t (pos + Z.of_nat (length c + length e)) Ht) as IH.
    assert (Hone : forall ev, e_end ev = pos + Z.of_nat (length c + length e) ->
              Sorted.StronglySorted before (ev :: F st lang (pos + Z.of_nat (length c + length e)) t)).
    { intros ev Hev. constructor; auto. apply Forall_forall. intros y Hy. apply (F_range _ _ n) in Hy; auto.
      unfold before. lia. }
    unfold line_reports. destruct (line_kind st c); [destruct e; [exact IH|]| |]; apply Hone; reflexivity.
Qed.

Lemma F_covers st lang n : forall l pos i b, (length l <= n)%nat -> nth_error l i = Some b ->
  among b (13 :: st_lead st) = false ->
  exists ev, In ev (F st lang pos l) /\ e_start ev <= pos + Z.of_nat i < e_end ev.
Proof.
  induction n; intros l pos i b Hn Hi Hb.
  - destruct l; [|cbn in Hn; lia]. destruct i; discriminate.
  - destruct l as [|x l]; [destruct i; discriminate|].
    destruct (first_line (x :: l)) as [[c e] t] eqn:E. rewrite (F_step _ _ _ _ _ _ _ E).
    pose proof (first_line_app _ _ _ _ E) as Ha.
    assert (Hl : zlen (x :: l) = zlen c + zlen e + zlen t) by (rewrite Ha, !app_length; lia).
    assert (0 < zlen c + zlen e).
    { destruct c; [|cbn [length]; lia]. destruct e; [|cbn [length]; lia].
      pose proof (line_end_none_t _ _ _ _ E eq_refl). subst t. discriminate Ha. }
    rewrite Ha in Hi. destruct (lt_dec i (length c)) as [Hc|Hc].
    + rewrite nth_error_app1 in Hi by auto.
      assert (Hk : line_kind st c <> Blank).
      { rewrite kind_blank. unfold all_blank. rewrite forallb_forall. intros Hall.
        specialize (Hall b (nth_error_In _ _ Hi)). congruence. }
      exists (mkEvent lang (kind_name (line_kind st c)) pos (pos + Z.of_nat (length c + length e))).
      split; [|cbn [e_start e_end]; lia]. apply in_or_app. left. unfold line_reports.
      destruct (line_kind st c); [congruence| |]; left; reflexivity.
    + rewrite nth_error_app2 in Hi by lia. destruct (lt_dec i (length c + length e)) as [He|He].
      * destruct e as [|y e]; [cbn in *; lia|].
        unfold line_reports. destruct (line_kind st c);
          (eexists; split; [left; reflexivity|]; cbn [e_start e_end length]; cbn [length] in He; lia).
      * rewrite nth_error_app2 in Hi by lia.
        destruct (IHn t (pos + Z.of_nat (length c + length e)) (i - length c - length e)%nat b) as (ev & Hin & Hev); auto.
        { cbn [length] in *; lia. }
        exists ev. split; [apply in_or_app; auto|]. lia.
Qed.

(** No byte is in two reports, and every byte that is not blank is in a report. *)
Theorem C20_reports_tile :
  forall name st text fuel, In (name, st) styles -> file text -> no_tab text ->
  step_bound text <= Z.of_nat fuel ->
  exists es, ohcount_parse (Some name) text fuel = Some (Ok es) /\
    Sorted.StronglySorted before es /\
    forall i b, nth_error text i = Some b -> ~ In b (13 :: st_lead st) ->
      exists ev, In ev es /\ e_start ev <= Z.of_nat i < e_end ev.
Proof.
  intros name st text fuel Hs Hf Hn Hb. eexists. split; [apply C21_lines_classified; eauto|]. split.
  - apply (F_sorted st name (length text)). lia.
  - intros i b Hi Hnb. apply (F_covers st name (length text) text 0 i b); auto.
    destruct (among b (13 :: st_lead st)) eqn:E; auto. apply among_in in E. contradiction.
Qed.
Print Assumptions C20_reports_tile.

(** In Vim script the lines of a string with an escaped line end are one report. *)
Definition vim_string : list Z := bytes ("let a = '\" ++ nl ++ "'" ++ nl).
Theorem C20_vim_refuted :
  exists text es, file text /\ no_tab text /\ line_stops 0 text = [11; 13] /\
  ohcount_parse (Some "vim") text 400 = Some (Ok es) /\ length es = 1%nat.
Proof.
  exists vim_string, [mkEvent "vim" "lcode" 0 13]. split.
  { split; [|vm_compute; discriminate]. intros c Hc. vm_compute in Hc. intuition lia. }
  split; [|vm_compute; auto]. intros H. vm_compute in H. intuition lia.
Qed.
Print Assumptions C20_vim_refuted.

(** ** C21, expectations that fail *)

(** A line of fixed form Fortran is a comment only if C is its first byte; BASIC has the
    word REM; Erlang comments start with one percent sign.  The parsers take other lines
    for comments, and Erlang comments for code. *)
Theorem C21_comment_syntax_refuted :
  ohcount_parse (Some "fortranfixed") (bytes ("      CALL FOO" ++ nl)) 400 = Some (Ok [mkEvent "fortranfixed" "lcomment" 0 15])
  /\ ohcount_parse (Some "visualbasic") (bytes ("remainder = 1" ++ nl)) 400 = Some (Ok [mkEvent "visualbasic" "lcomment" 0 14])
  /\ ohcount_parse (Some "erlang") (bytes ("% note" ++ nl)) 400 = Some (Ok [mkEvent "erlang" "lcode" 0 7]).
Proof. vm_compute. auto. Qed.
Print Assumptions C21_comment_syntax_refuted.

(** ** C22 *)

(** Nothing that follows a vertical tab at the start of a line is counted. *)
Theorem C22_tab_stops_counting :
  forall name st pre post fuel, In (name, st) styles -> whole_lines pre -> no_tab pre ->
  file (pre ++ 11 :: post) -> step_bound (pre ++ 11 :: post) <= Z.of_nat fuel ->
  ohcount_parse (Some name) (pre ++ 11 :: post) fuel = Some (Ok (count_lines st name pre)).
Proof.
  intros name st pre post fuel Hs Hw Hn Hf Hb. destruct (styles_safe _ _ Hs) as (H1 & H2 & H3).
  destruct (C44_scanners_safe _ _ _ H1 H2 H3 Hf Hb) as (es & He). rewrite He. do 2 f_equal.
  destruct (style_cert _ _ Hs) as (en & m & tb & E1 & E2 & E3 & E4 & E5).
  unfold ohcount_parse, run_entry in He. rewrite E1, E2 in He.
  destruct (parse m (pre ++ 11 :: post) fuel) as [es0| |] eqn:Ep; cbn [bind] in He; try discriminate He. injection He as <-.
  assert (Hfp : file pre).
  { destruct Hf as [Hf1 Hf2]. split; [intros c Hc; apply Hf1; apply in_or_app; auto|]. rewrite app_length in Hf2. lia. }
  rewrite (tab_check_ok _ _ _ _ _ _ _ _ E5 E4 Hw (plain_bytes _ Hfp Hn) Ep).
  unfold count_lines. rewrite map_file_reports, E3. reflexivity.
Qed.
Print Assumptions C22_tab_stops_counting.

(** In all languages but haml: a file that starts with a vertical tab has no lines. *)
Theorem C22_leading_tab_hides_file :
  forall name text fuel, find_entry name <> None -> name <> "haml" ->
  ohcount_parse (Some name) (11 :: text) (S fuel) = Some (Ok []).
Proof.
  intros name text fuel Hn Hh. destruct (find_entry name) as [en|] eqn:E; [|congruence].
  assert (En : en_name en = name /\ In en entries).
  { unfold find_entry in E. apply find_some in E. destruct E as (Hi & E). apply String.eqb_eq in E. auto. }
  destruct En as (En & Hin). destruct (all_certified _ Hin) as (tb & C). unfold ScanCert.certified_by in C. unfold ohcount_parse, run_entry. rewrite E.
  destruct (compile (en_parser en)) as [m|]; [|discriminate].
  apply andb_prop in C as [_ C].
  apply orb_prop in C as [C|C]; [apply String.eqb_eq in C; congruence|]. f_equal.
  unfold tab_check in C. unfold parse, start, RagelRun.entry, dfa_of.
  destruct (m_dfas m) as [|d l] eqn:Ed; [discriminate|]. cbn [nth_error bind].
  destruct (PM.find (df_start d) (df_sts d)) as [q|] eqn:Eq; [|discriminate].
  destruct (PM.find 12%positive (m_class m)) as [cl|] eqn:Ec; [|discriminate].
  destruct (nth_error (q_row q) cl) as [[[[to|] [|i l0]]|]|] eqn:Er; try discriminate.
  unfold loop at 1, step at 1. cbn [r_cs]. unfold dfa_of. rewrite Ed. cbn [nth_error bind]. unfold state_of. rewrite Eq.
  cbn [bind r_p]. destruct (0 =? Z.of_nat (length (11 :: text))) eqn:E0.
  { apply Z.eqb_eq in E0. cbn [length] in E0. lia. }
  cbv zeta. assert (Hp : forall r, r_p r = 0 -> r_p (if is_scan_start d (df_start d) then set_ts (Some 0) r else r) = 0)
    by (intros r Hr; destruct (is_scan_start _ _); auto).
  rewrite Hp by reflexivity. change (src (11 :: text) 0) with (Ok 11). cbn [bind].
  change (Z.to_pos (11 + 1)) with 12%positive. rewrite Ec. cbn [bind]. rewrite Er. cbn [bind select e_ins e_to exec_instrs option_map].
  unfold again. cbn [r_cs set_cs bind]. destruct (is_scan_start d (df_start d)); reflexivity.
Qed.
Print Assumptions C22_leading_tab_hides_file.

(** ** C23 *)

Definition quote : string := String (Ascii.ascii_of_nat 34) "".

(** In C the lines of a block comment that is not closed are reported twice, first as
    comment then as code; and a string takes in line ends, so that its lines are one. *)
Theorem C23_unterminated_comment_refuted :
  exists text es, file text /\ no_tab text /\ length (line_stops 0 text) = 2%nat /\
  ohcount_parse (Some "c") text 400 = Some (Ok es) /\
  es = [mkEvent "c" "lcomment" 0 5; mkEvent "c" "lcode" 0 5; mkEvent "c" "lcode" 5 7].
Proof.
  exists (bytes ("/* a" ++ nl ++ "b" ++ nl)). eexists. split.
  { split; [|vm_compute; discriminate]. intros c Hc. vm_compute in Hc. intuition lia. }
  split; [intros H; vm_compute in H; intuition lia|]. split; [vm_compute; reflexivity|].
  split; [vm_compute; reflexivity|reflexivity].
Qed.
Print Assumptions C23_unterminated_comment_refuted.

Theorem C23_string_swallows_lines_refuted :
  exists text es, file text /\ no_tab text /\ length (line_stops 0 text) = 3%nat /\
  ohcount_parse (Some "c") text 400 = Some (Ok es) /\ length es = 1%nat.
Proof.
  exists (bytes ("x = 'a" ++ nl ++ "b" ++ nl ++ "c';" ++ nl)). eexists. split.
  { split; [|vm_compute; discriminate]. intros c Hc. vm_compute in Hc. intuition lia. }
  split; [intros H; vm_compute in H; intuition lia|]. split; [vm_compute; reflexivity|].
  split; [vm_compute; reflexivity|reflexivity].
Qed.
Print Assumptions C23_string_swallows_lines_refuted.

(** ** Cases *)
Definition ex_ada : list Z := bytes ("-- a" ++ nl ++ "  " ++ nl ++ " x := 1; -- b" ++ nl ++ "  ").
Example C20_case : In ("ada", plain [word "--"]) styles /\ file ex_ada /\ no_tab ex_ada /\
  line_stops 0 ex_ada = [5; 8; 22] /\ all_blank (plain [word "--"]) (last_part ex_ada) = true /\
  ohcount_parse (Some "ada") ex_ada 400 =
    Some (Ok [mkEvent "ada" "lcomment" 0 5; mkEvent "ada" "lblank" 7 8; mkEvent "ada" "lcode" 8 22]).
Proof.
  split; [left; reflexivity|]. split.
  { split; [|vm_compute; discriminate]. intros c Hc. vm_compute in Hc. intuition lia. }
  split; [|vm_compute; auto]. intros H. vm_compute in H. intuition lia.
Qed.

Example C21_case :
  count_lines (plain [word "--"]) "ada" ex_ada =
    [mkEvent "ada" "lcomment" 0 5; mkEvent "ada" "lblank" 7 8; mkEvent "ada" "lcode" 8 22] /\
  count_lines (plain [word_ci "rem"; word_ci "@rem"; word "::"]) "bat" (bytes ("@Rem x" ++ nl ++ "dir :: y")) =
    [mkEvent "bat" "lcomment" 0 7; mkEvent "bat" "lcode" 7 15].
Proof. vm_compute. auto. Qed.

Example C22_case :
  whole_lines (bytes ("x" ++ nl)) /\ no_tab (bytes ("x" ++ nl)) /\
  ohcount_parse (Some "ada") (bytes ("x" ++ nl) ++ 11 :: bytes (nl ++ "y" ++ nl)) 400 =
    Some (Ok [mkEvent "ada" "lcode" 0 2]) /\
  ohcount_parse (Some "c") (11 :: bytes ("int x;" ++ nl)) 400 = Some (Ok []) /\
  ohcount_parse (Some "haml") (11 :: bytes ("int x;" ++ nl)) 400 <> Some (Ok []).
Proof.
  split; [right; exists (bytes "x"), 10; vm_compute; auto|].
  split; [intros H; vm_compute in H; intuition lia|].
  split; [vm_compute; reflexivity|]. split; [vm_compute; reflexivity|]. vm_compute. discriminate.
Qed.
