(** Properties C63 - C67: the entities of all languages, on every file. *)
From Coq Require Import ZArith String List Bool Lia.
From Verif Require Import Checked Base ParsedModel ParsedSpec RagelSyntax RagelBuild RagelRun ScanCheck ScanProofs.
From Verif Require Import ParserTable ScanSpec ScanCert PropertiesScan TailProofs.
From Verif Require Import EntitySpec EntityCheck EntityCert EntityProofs.
Import ListNotations.
Open Scope string_scope.
Open Scope Z_scope.
Open Scope list_scope.

Lemma entities_more m text fuel k :
  parse_entities m text fuel <> OutOfFuel -> parse_entities m text (fuel + k) = parse_entities m text fuel.
Proof.
  unfold parse_entities. destruct (start m) as [r| |]; cbn [bind]; auto. intros H.
  rewrite loop_more; auto. intros E. rewrite E in H. cbn in H. congruence.
Qed.

Lemma entry_in name en : find_entry name = Some en -> en_name en = name /\ In en entries.
Proof. unfold find_entry. intros H. apply find_some in H. destruct H as (Hi & E). apply String.eqb_eq in E. auto. Qed.

Lemma entities_unique name text f1 f2 r1 r2 :
  ohcount_parse_entities (Some name) text f1 = Some r1 -> ohcount_parse_entities (Some name) text f2 = Some r2 ->
  r1 <> OutOfFuel -> r2 <> OutOfFuel -> r1 = r2.
Proof.
  unfold ohcount_parse_entities, run_entities.
  destruct (find_entry name) as [en|]; [|discriminate].
  destruct (compile (en_entities en)) as [m|]; [|discriminate].
  intros [= <-] [= <-] H1 H2.
  assert (N1 : parse_entities m text f1 <> OutOfFuel) by (intros X; rewrite X in H1; cbn in H1; congruence).
  assert (N2 : parse_entities m text f2 <> OutOfFuel) by (intros X; rewrite X in H2; cbn in H2; congruence).
  pose proof (entities_more m text f1 f2 N1). pose proof (entities_more m text f2 f1 N2).
  rewrite (Nat.add_comm f2 f1) in *. congruence.
Qed.

Lemma entity_kinds_ok en l k : entity_kinds en l k = true ->
  In k (entity_names (value (en_vars en) l)) \/ In (en_name en) mixed /\ In k ["lcode"; "lcomment"; "lblank"].
Proof.
  unfold entity_kinds. rewrite orb_true_iff, andb_true_iff, !mem_in'. auto.
Qed.

Lemma entities_ok name en text : find_entry name = Some en -> name <> "limbo" -> file text ->
  forall fuel, step_bound text <= Z.of_nat fuel ->
  exists r, ohcount_parse_entities (Some name) text fuel = Some r /\
    match r with
    | Ok es => Forall (entity_report name text) es
    | Ub u => (u = NullDeref /\ In name html_like) \/ (u = IntOverflow /\ name = "rebol")
    | OutOfFuel => False
    end.
Proof.
  intros Hf Hlimbo (Hb & Hl) fuel Hfuel. destruct (entry_in _ _ Hf) as (En & Hin).
  destruct (all_checked_in _ _ _ _ all_entities_certified Hin) as (tb & Hc).
  unfold entities_certified in Hc. rewrite En in Hc. replace (String.eqb name "limbo") with false in Hc.
  2: { symmetry. apply String.eqb_neq. auto. }
  unfold ohcount_parse_entities, run_entities. rewrite Hf.
  destruct (compile (en_entities en)) as [m|]; [|discriminate].
  apply andb_prop in Hc as [Hc _]. cbn [orb] in Hc.
  eexists. split; [reflexivity|].
  pose proof (parse_entities_ok m _ _ _ _ text Hl _ Hc Hb fuel Hfuel) as Hp.
  destruct (parse_entities m text fuel) as [es|u|]; cbn [bind]; cbn [okr] in Hp.
  - rewrite Forall_forall in Hp. apply Forall_forall. intros e He. apply in_map_iff in He.
    destruct He as (e0 & <- & He). destruct (Hp _ He) as (Hk & Hs & Hlen & Hn). apply entity_kinds_ok in Hk.
    rewrite En in Hk.
    repeat split; cbn [rename e_lang e_entity e_start e_end]; try lia.
    + pose proof vars_ok as V. rewrite forallb_forall in V. specialize (V _ Hin).
      rewrite forallb_forall in V. specialize (V _ Hn). rewrite En in V. apply mem_in'. auto.
    + exact Hk.
  - destruct Hp as [(-> & Hlen)|(-> & Hcnt)].
    + left. split; auto. apply html_like_ok. congruence.
    + right. split; auto. apply mem_in' in Hcnt. cbn in Hcnt. intuition.
  - auto.
Qed.

(** ** C63 *)

(** The search for entities ends on every file, and touches nothing it should not: in all
    languages but limbo, rebol and the html-like ones. *)
Theorem C63_entities_safe :
  forall name text fuel, find_entry name <> None -> name <> "limbo" -> ~ In name html_like -> name <> "rebol" ->
  file text -> step_bound text <= Z.of_nat fuel ->
  exists es, ohcount_parse_entities (Some name) text fuel = Some (Ok es).
Proof.
  intros name text fuel Hn Hlimbo H1 H2 Hf Hb. destruct (find_entry name) as [en|] eqn:E; [|congruence].
  destruct (entities_ok _ _ _ E Hlimbo Hf _ Hb) as (r & Hr & H). destruct r as [es|u|].
  - exists es. auto.
  - intuition.
  - destruct H.
Qed.
Print Assumptions C63_entities_safe.

(** In those it can only use NULL, resp. overflow the nesting counter. *)
Theorem C63_entities_safe_but :
  forall name text fuel, In name html_like \/ name = "rebol" -> file text -> step_bound text <= Z.of_nat fuel ->
  exists r, ohcount_parse_entities (Some name) text fuel = Some r /\
    (r = Ub (if String.eqb name "rebol" then IntOverflow else NullDeref) \/ is_ok r).
Proof.
  intros name text fuel Hn Hf Hb.
  assert (Hin : In name ("rebol" :: html_like)) by (destruct Hn as [Hn| ->]; [right; auto|left; auto]).
  assert (exists en, find_entry name = Some en) as (en & E).
  { apply found_some. assert (Ha : forallb found ("rebol" :: html_like) = true) by (vm_compute; reflexivity).
    rewrite forallb_forall in Ha. auto. }
  assert (Hlimbo : name <> "limbo").
  { intros ->. cbn in Hin. repeat (destruct Hin as [Hin|Hin]; [discriminate Hin|]). destruct Hin. }
  destruct (entities_ok _ _ _ E Hlimbo Hf _ Hb) as (r & Hr & H). exists r. split; auto. destruct r as [es|u|].
  - right. exists es. auto.
  - left. destruct H as [(-> & Hh)|(-> & ->)]; [|reflexivity].
    destruct (String.eqb_spec name "rebol") as [->|]; [destruct (rebol_not_html Hh)|auto].
  - destruct H.
Qed.
Print Assumptions C63_entities_safe_but.

(** limbo reads past the end of its table of names. *)
Theorem C63_limbo_refuted :
  exists text fuel, file text /\ ohcount_parse_entities (Some "limbo") text fuel = Some (Ub OutOfBounds).
Proof.
  exists (bytes "@"), 100%nat. split; [|vm_compute; reflexivity].
  split; [|vm_compute; discriminate]. intros c Hc. vm_compute in Hc. intuition lia.
Qed.
Print Assumptions C63_limbo_refuted.

(** The html-like ones use NULL. *)
Theorem C63_html_like_refuted :
  forall name, In name html_like -> exists text fuel, file text /\
    ohcount_parse_entities (Some name) text fuel = Some (Ub NullDeref).
Proof.
  intros name Hn. exists broken_tag, 400%nat. split; [apply C44_style_end_tag_refuted|].
  unfold html_like in Hn. cbn in Hn.
  repeat (destruct Hn as [<-|Hn]; [vm_compute; reflexivity|]). destruct Hn.
Qed.
Print Assumptions C63_html_like_refuted.

(** ** C64 *)

(** What is reported are some bytes of the file, as an entity of its language or of one
    it embeds. *)
Theorem C64_entities_inside_file :
  forall name text fuel es, name <> "limbo" -> file text ->
  ohcount_parse_entities (Some name) text fuel = Some (Ok es) -> Forall (entity_report name text) es.
Proof.
  intros name text fuel es Hlimbo Hf H.
  destruct (find_entry name) as [en|] eqn:E.
  - destruct (entities_ok _ _ _ E Hlimbo Hf (Z.to_nat (step_bound text)) ltac:(lia)) as (r & Hr & Hp).
    assert (r = Ok es).
    { eapply entities_unique; eauto; try discriminate. intros ->. exact Hp. }
    subst r. exact Hp.
  - unfold ohcount_parse_entities in H. rewrite E in H. discriminate.
Qed.
Print Assumptions C64_entities_inside_file.

Lemma covered name text fuel es : ~ In name no_entities -> file text ->
  ohcount_parse_entities (Some name) text fuel = Some (Ok es) ->
  in_order es /\ (~ In name loose -> Forall (space_report text) es) /\
  (In name complete -> all_shown text es) /\ (~ In name complete -> all_space_shown text es).
Proof.
  intros Hn (Hb & _) H. unfold ohcount_parse_entities, run_entities in H.
  destruct (find_entry name) as [en|] eqn:E; [|discriminate]. destruct (entry_in _ _ E) as (En & Hin).
  destruct (all_checked_in _ _ _ _ all_entities_certified Hin) as (tb & Hc).
  unfold entities_certified in Hc. rewrite En in Hc.
  destruct (mem name no_entities) eqn:Em; [apply mem_in' in Em; contradiction|].
  destruct (compile (en_entities en)) as [m|]; [|discriminate].
  apply andb_prop in Hc as [_ Hc]. cbn [orb] in Hc.
  pose proof (entities_shown m _ _ text _ Hc Hb fuel) as P.
  destruct (parse_entities m text fuel) as [es0|u|]; cbn [bind] in H; try discriminate. injection H as <-.
  cbn [fine] in P. destruct P as (P1 & P2 & P3).
  assert (Hex : forall (i : Z), (exists e, In e es0 /\ within e i) -> exists e, In e (map (rename (en_vars en)) es0) /\ within e i).
  { intros i (e & He & Hw). exists (rename (en_vars en) e). split; [apply in_map; auto|exact Hw]. }
  split; [|split; [|split]].
  - clear -P1. unfold in_order in *. induction P1 as [|a l Ha Hl IH]; cbn; constructor; auto.
    apply Forall_map. exact Ha.
  - intros Hl. apply Forall_map. eapply Forall_impl; [|apply P2].
    + intros e. exact (fun x => x).
    + destruct (mem name loose) eqn:El; auto. apply mem_in' in El. contradiction.
  - intros Hl. apply mem_in' in Hl. rewrite Hl in P3. intros i Hi. apply Hex, P3. auto.
  - intros Hl. destruct (mem name complete) eqn:El; [apply mem_in' in El; contradiction|].
    intros i Hi. apply Hex, P3. auto.
Qed.

(** The reports come in the order of the file and do not overlap. *)
Theorem C64_entities_in_order :
  forall name text fuel es, ~ In name no_entities -> file text ->
  ohcount_parse_entities (Some name) text fuel = Some (Ok es) -> in_order es.
Proof. intros name text fuel es Hn Hf H. apply (covered _ _ _ _ Hn Hf H). Qed.
Print Assumptions C64_entities_in_order.

(** ** C65 *)

(** "space" is white space, up to the next byte that is not; nothing else begins with
    white space; no white space of the file is left out. *)
Theorem C65_white_space :
  forall name text fuel es, ~ In name no_entities -> ~ In name loose -> file text ->
  ohcount_parse_entities (Some name) text fuel = Some (Ok es) ->
  Forall (space_report text) es /\ all_space_shown text es.
Proof.
  intros name text fuel es Hn Hl Hf H. destruct (covered _ _ _ _ Hn Hf H) as (_ & P2 & P3 & P4).
  split; auto. destruct (in_dec string_dec name complete) as [Hc|Hc]; [|auto].
  intros i Hi. apply P3; auto. destruct Hi as (H0 & c & Hc' & _).
  assert (Z.to_nat i < length text)%nat by (apply nth_error_Some; congruence). lia.
Qed.
Print Assumptions C65_white_space.

(** ** C66 *)

Lemma slice_split text a b c : 0 <= a <= b -> b <= c -> slice text a b ++ slice text b c = slice text a c.
Proof.
  intros H1 H2. unfold slice.
  replace (Z.to_nat b) with (Z.to_nat a + Z.to_nat (b - a))%nat by lia.
  replace (Z.to_nat (c - a)) with (Z.to_nat (b - a) + Z.to_nat (c - b))%nat by lia.
  generalize (Z.to_nat a), (Z.to_nat (b - a)), (Z.to_nat (c - b)). clear. intros a b c.
  revert a b. induction text as [|x text IH]; intros a b.
  - rewrite !skipn_nil, !firstn_nil. auto.
  - destruct a as [|a]; [|cbn [skipn Nat.add]; apply IH]. cbn [skipn Nat.add]. destruct b as [|b]; [reflexivity|].
    cbn [firstn skipn Nat.add app]. f_equal. exact (IH 0%nat b).
Qed.

Lemma tiles text es : forall q, 0 <= q ->
  Forall (fun e => 0 <= e_start e < e_end e /\ e_end e <= Z.of_nat (length text)) es -> in_order es ->
  (forall e, In e es -> q <= e_start e) ->
  (forall i, q <= i < Z.of_nat (length text) -> exists e, In e es /\ within e i) ->
  q <= Z.of_nat (length text) ->
  List.concat (map (fun e => slice text (e_start e) (e_end e)) es) = slice text q (Z.of_nat (length text)).
Proof.
  induction es as [|e es IH]; intros q Hq Hin Hord Hlo Hall Hle.
  - destruct (Z.eq_dec q (Z.of_nat (length text))) as [->|Hne].
    + unfold slice. rewrite Z.sub_diag. reflexivity.
    + destruct (Hall q ltac:(lia)) as (e & [] & _).
  - inversion_clear Hin as [|? ? He Hin']. inversion_clear Hord as [|? ? Ho Hord']. rewrite Forall_forall in Ho.
    assert (Es : e_start e = q).
    { pose proof (Hlo e (or_introl eq_refl)) as Hl. destruct (Hall q ltac:(lia)) as (e' & [<-|He'] & Hw).
      - unfold within in Hw. lia.
      - specialize (Ho _ He'). unfold within in Hw. lia. }
    cbn [map List.concat]. rewrite (IH (e_end e)); try lia; auto.
    + rewrite Es. apply slice_split; lia.
    + intros i Hi. destruct (Hall i ltac:(lia)) as (e' & [<-|He'] & Hw); [unfold within in Hw; lia|eauto].
Qed.

(** In the languages that have an entity for everything, the reports put together are the
    file. *)
Theorem C66_entities_are_the_file :
  forall name text fuel es, In name complete -> file text ->
  ohcount_parse_entities (Some name) text fuel = Some (Ok es) ->
  List.concat (map (fun e => slice text (e_start e) (e_end e)) es) = text.
Proof.
  intros name text fuel es Hn Hf H.
  assert (Hn1 : ~ In name no_entities).
  { assert (A : forallb (fun n => negb (mem n no_entities)) complete = true) by (vm_compute; reflexivity).
    rewrite forallb_forall in A. specialize (A _ Hn). intros X. apply mem_in' in X. rewrite X in A. discriminate. }
  assert (Hn2 : name <> "limbo") by (intros ->; apply Hn1; left; auto).
  destruct (covered _ _ _ _ Hn1 Hf H) as (P1 & _ & P3 & _).
  pose proof (C64_entities_inside_file _ _ _ _ Hn2 Hf H) as P.
  rewrite (tiles text es 0); try lia; auto.
  - unfold slice. rewrite Z.sub_0_r, Nat2Z.id. cbn. apply firstn_all.
  - eapply Forall_impl; [|exact P]. intros e (_ & _ & X). exact X.
  - intros e He. rewrite Forall_forall in P. destruct (P _ He) as (_ & _ & X). lia.
  - apply P3; auto.
Qed.
Print Assumptions C66_entities_are_the_file.

(** ** C67 *)

(** A machine without any action reports nothing. *)
Definition idle_edge (e : edge) : bool := match e_ins e with [] => true | _ => false end.
Fixpoint idle_branch (b : branch) : bool :=
  match b with BEdge e => idle_edge e | BIf _ y n => idle_branch y && idle_branch n end.
Definition idle (m : machine) : bool :=
  forallb (fun d => forallb (fun kq => forallb idle_branch (q_row (snd kq)) &&
                                       match q_eof (snd kq) with [] => true | _ => false end)
                            (PM.elements (df_sts d))) (m_dfas m).

Lemma idle_select text b r e : idle_branch b = true -> select text b r = Ok e -> e_ins e = [].
Proof.
  induction b; cbn [idle_branch select].
  - intros H [= <-]. unfold idle_edge in H. destruct (e_ins e0); [auto|discriminate].
  - intros H. apply andb_prop in H. destruct H as [H1 H2].
    destruct (eval_cond text c r) as [x|u|]; cbn [bind]; try discriminate. destruct x; auto.
Qed.

Lemma idle_again m r : r_out r = [] ->
  fine (fun o => match o with Go r | Stop r => r_out r = [] end) (again m r).
Proof.
  unfold again. intros H. destruct (r_cs r) as [[i k]|]; [|exact H].
  destruct (dfa_of m i) as [d|u|]; cbn; auto. destruct (is_scan_start d k); auto.
Qed.

Lemma idle_step m text r : idle m = true -> r_out r = [] ->
  fine (fun o => match o with Go r | Stop r => r_out r = [] end) (step m text r).
Proof.
  intros Hi H. unfold step. destruct (r_cs r) as [[i k]|]; [|exact H].
  unfold dfa_of. destruct (nth_error (m_dfas m) i) as [d|] eqn:Ed; cbn [bind fine]; auto.
  unfold idle in Hi. rewrite forallb_forall in Hi. specialize (Hi _ (nth_error_In _ _ Ed)).
  unfold state_of. destruct (PM.find k (df_sts d)) as [q|] eqn:Eq; cbn [bind fine]; auto.
  rewrite forallb_forall in Hi. specialize (Hi _ (PM.elements_correct _ _ Eq)). cbn [snd] in Hi.
  apply andb_prop in Hi. destruct Hi as [Hr He]. destruct (q_eof q); [|discriminate].
  destruct (r_p r =? Z.of_nat (length text)).
  - destruct (q_eof_to q); cbn [exec_instrs bind fine]; auto. apply idle_again; auto.
  - set (r1 := if is_scan_start d k then set_ts (Some (r_p r)) r else r).
    assert (H1 : r_out r1 = []) by (unfold r1; destruct (is_scan_start d k); auto). clearbody r1.
    destruct (src text (r_p r1)) as [c|u|]; cbn [bind fine]; auto.
    destruct (PM.find _ (m_class m)) as [cl|]; cbn [bind fine]; auto.
    destruct (nth_error (q_row q) cl) as [b|] eqn:En; cbn [bind fine]; auto.
    rewrite forallb_forall in Hr. specialize (Hr _ (nth_error_In _ _ En)).
    destruct (select text b r1) as [e|u|] eqn:Ee; cbn [bind fine]; auto.
    rewrite (idle_select _ _ _ _ Hr Ee). cbn [exec_instrs bind fine]. apply idle_again; auto.
Qed.

Lemma idle_silent m text fuel : idle m = true -> fine (fun es => es = []) (parse_entities m text fuel).
Proof.
  intros Hi. unfold parse_entities, start. destruct (RagelRun.entry m 0) as [c|u|]; cbn [bind fine]; auto.
  set (r := mkRt _ _ _ _ _ _ _ _ _ _ _ _ _ _ _ _ _ _). assert (H : r_out r = []) by reflexivity.
  clearbody r. revert r H. induction fuel; intros r H; cbn [loop bind fine]; auto.
  pose proof (idle_step m text r Hi H) as P. destruct (step m text r) as [[r'|r']|u|]; cbn [bind fine] in *; auto.
  rewrite P. auto.
Qed.

(** In factor and vim nothing is found, in any file. *)
Theorem C67_nothing_found :
  forall name text fuel es, In name ["factor"; "vim"] ->
  ohcount_parse_entities (Some name) text fuel = Some (Ok es) -> es = [].
Proof.
  intros name text fuel es Hn H. unfold ohcount_parse_entities, run_entities in H.
  assert (A : forallb (fun n => match find_entry n with
                                | Some en => match compile (en_entities en) with Some m => idle m | None => false end
                                | None => false
                                end) ["factor"; "vim"] = true) by (vm_compute; reflexivity).
  rewrite forallb_forall in A. specialize (A _ Hn). cbv beta in A.
  destruct (find_entry name) as [en|]; [|discriminate].
  destruct (compile (en_entities en)) as [m|]; [|discriminate].
  pose proof (idle_silent m text fuel A) as P.
  destruct (parse_entities m text fuel) as [es0|u|]; cbn [bind fine] in *; try discriminate.
  subst. injection H as <-. reflexivity.
Qed.
Print Assumptions C67_nothing_found.

Definition event_dec (a b : event) : {a = b} + {a <> b}.
Proof. decide equality; auto using Z.eq_dec, string_dec. Defined.

Ltac is_file := split; [intros c Hc; vm_compute in Hc; intuition lia|vm_compute; discriminate].

(** The lines inside of a comment of modelica are reported among the entities, twice. *)
Theorem C64_modelica_refuted :
  exists text fuel es, file text /\ ohcount_parse_entities (Some "modelica") text fuel = Some (Ok es) /\ ~ in_order es.
Proof.
  exists (bytes ("/* a" ++ nl ++ " b */")), 400%nat. eexists. split; [is_file|]. split; [vm_compute; reflexivity|].
  intros H. inversion_clear H as [|? ? H1 _]. inversion_clear H1 as [|? ? H2 _]. cbn in H2. lia.
Qed.
Print Assumptions C64_modelica_refuted.

(** In brainfuck (and bfpp, haml) other entities may begin with white space. *)
Theorem C65_brainfuck_refuted :
  exists text fuel es, file text /\ ohcount_parse_entities (Some "brainfuck") text fuel = Some (Ok es) /\
    ~ Forall (space_report text) es.
Proof.
  exists (bytes " a"), 400%nat. eexists. split; [is_file|]. split; [vm_compute; reflexivity|].
  intros H. inversion_clear H as [|? ? H1 _]. cbn in H1. apply H1. split; [lia|]. exists 32. split; auto. left. auto.
Qed.
Print Assumptions C65_brainfuck_refuted.

(** A name of one letter is not reported as an identifier, nor + as an operator; the first
    letters of a keyword are reported as a keyword; what would begin a comment or a
    directive but does not is reported as one. *)
Definition c_like : list string := ["c"; "cpp"; "csharp"; "cuda"; "ec"; "genie"; "vala"].
Definition letter (c : Z) : Prop := 97 <= c <= 122 \/ 65 <= c <= 90 \/ c = 95.
Definition letters : list Z := map Z.of_nat (seq 97 26 ++ seq 65 26 ++ [95%nat]).
Lemma letter_in c : letter c -> In c letters.
Proof.
  intros H. unfold letters. apply in_map_iff. exists (Z.to_nat c).
  destruct H as [H|[H|H]]; (split; [lia|]); rewrite !in_app_iff, !in_seq; cbn [In]; lia.
Qed.

Definition reported (vars : list (string * string)) (m : machine) (name : string) (text : list Z)
    (l : list (string * Z * Z)) : bool :=
  match bind (parse_entities m text 100) (fun es => Ok (map (rename vars) es)) with
  | Ok es => if list_eq_dec event_dec es (map (fun x => mkEvent name (fst (fst x)) (snd (fst x)) (snd x)) l) then true else false
  | _ => false
  end.
(** One machine, several texts. *)
Definition all_reported (name : string) (l : list (list Z * list (string * Z * Z))) : bool :=
  match find_entry name with
  | Some en => match compile (en_entities en) with
               | Some m => forallb (fun x => reported (en_vars en) m name (fst x) (snd x)) l
               | None => false
               end
  | None => false
  end.
Lemma all_reported_ok name l text r : all_reported name l = true -> In (text, r) l ->
  ohcount_parse_entities (Some name) text 100 = Some (Ok (map (fun x => mkEvent name (fst (fst x)) (snd (fst x)) (snd x)) r)).
Proof.
  unfold all_reported, ohcount_parse_entities, run_entities. destruct (find_entry name) as [en|]; [|discriminate].
  destruct (compile (en_entities en)) as [m|]; [|discriminate]. rewrite forallb_forall. intros H Hin.
  specialize (H _ Hin). cbn [fst snd] in H. unfold reported in H.
  destruct (bind _ _) as [es|u|]; try discriminate.
  destruct (list_eq_dec _ _ _) as [->|]; [auto|discriminate].
Qed.

Theorem C67_labels_refuted :
  forall name, In name c_like ->
  (forall c, letter c -> ohcount_parse_entities (Some name) [c] 100 = Some (Ok [mkEvent name "any" 0 1])) /\
  ohcount_parse_entities (Some name) (bytes "+") 100 = Some (Ok [mkEvent name "any" 0 1]) /\
  ohcount_parse_entities (Some name) (bytes "whi") 100 = Some (Ok [mkEvent name "keyword" 0 3]) /\
  ohcount_parse_entities (Some name) (bytes "/*") 100 = Some (Ok [mkEvent name "comment" 0 1; mkEvent name "operator" 1 2]) /\
  ohcount_parse_entities (Some name) (bytes "#d") 100 = Some (Ok [mkEvent name "preproc" 0 1; mkEvent name "any" 1 2]).
Proof.
  intros name Hn.
  assert (A : forallb (fun n => all_reported n (
      (bytes "+", [("any", 0, 1)]) :: (bytes "whi", [("keyword", 0, 3)])
      :: (bytes "/*", [("comment", 0, 1); ("operator", 1, 2)]) :: (bytes "#d", [("preproc", 0, 1); ("any", 1, 2)])
      :: map (fun c => ([c], [("any", 0, 1)])) letters)) c_like = true)
    by (vm_cast_no_check (eq_refl true)).
  rewrite forallb_forall in A. specialize (A _ Hn). cbv beta in A.
  split; [|split; [|split; [|split]]].
  - intros c Hc. apply (all_reported_ok _ _ [c] [("any", 0, 1)] A). do 4 right.
    apply (in_map (fun c => ([c], [("any", 0, 1)]))). apply letter_in. auto.
  - apply (all_reported_ok _ _ _ [("any", 0, 1)] A). left. reflexivity.
  - apply (all_reported_ok _ _ _ [("keyword", 0, 3)] A). right. left. reflexivity.
  - apply (all_reported_ok _ _ _ [("comment", 0, 1); ("operator", 1, 2)] A). do 2 right. left. reflexivity.
  - apply (all_reported_ok _ _ _ [("preproc", 0, 1); ("any", 1, 2)] A). do 3 right. left. reflexivity.
Qed.
Print Assumptions C67_labels_refuted.

(** ** Cases *)
Definition ex_text : list Z := bytes ("ab = 1; /* c" ++ nl ++ " */" ++ nl).

Example C63_case :
  find_entry "java" <> None /\ ~ In "java" html_like /\ file ex_text /\
  ohcount_parse_entities (Some "java") ex_text 400 =
    Some (Ok [mkEvent "java" "space" 2 3; mkEvent "java" "space" 4 5; mkEvent "java" "space" 7 8;
              mkEvent "java" "comment" 8 16; mkEvent "java" "space" 16 17]).
Proof.
  split; [vm_compute; discriminate|]. split; [intros H; apply mem_in' in H; discriminate|].
  split; [is_file|vm_compute; reflexivity].
Qed.

Example C65_case : ~ In "java" no_entities /\ ~ In "java" loose.
Proof. split; intros H; apply mem_in' in H; discriminate. Qed.

Example C66_case :
  In "c" complete /\ file ex_text /\
  ohcount_parse_entities (Some "c") ex_text 400 =
    Some (Ok [mkEvent "c" "identifier" 0 2; mkEvent "c" "space" 2 3; mkEvent "c" "operator" 3 4;
              mkEvent "c" "space" 4 5; mkEvent "c" "number" 5 6; mkEvent "c" "operator" 6 7; mkEvent "c" "space" 7 8;
              mkEvent "c" "comment" 8 16; mkEvent "c" "space" 16 17]).
Proof. split; [left; auto|]. split; [is_file|vm_compute; reflexivity]. Qed.

Example C67_case : ohcount_parse_entities (Some "vim") (bytes "TODO: x") 100 = Some (Ok []).
Proof. vm_compute. reflexivity. Qed.

Example C63_case_embedded :
  ohcount_parse_entities (Some "php") (bytes "<p> <?php # a ?>") 400 =
    Some (Ok [mkEvent "html" "space" 3 4; mkEvent "php" "space" 9 10; mkEvent "php" "comment" 10 16]).
Proof. vm_compute. reflexivity. Qed.
