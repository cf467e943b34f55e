(** Every call that is in order does what [MemSpec] says and no fault occurs. *)
From Coq Require Import String List Bool Arith Lia Permutation.
From Verif Require Import MemModel MemLogic MemLists MemSort MemFiles MemParse MemSpec MemClient.
Import ListNotations.
Open Scope string_scope.
Open Scope list_scope.
Open Scope nat_scope.

(** ** ohcount_sourcefile_list_add_file *)

Lemma tri_add_file : forall q l es,
  tri q (list_cells KFile l es) (add_file l) (fun f q' C' => q' = q /\ exists j fp,
    C' = list_cells KFile l (es ++ [{| e_node := j; e_item := Some f; e_own := [] |}])
         ++ file_cells (new_file f fp)).
Proof.
  intros q l es. unfold add_file.
  eapply tri_list_head; [apply incl_refl|]. intros n En. rewrite En.
  destruct es as [|e es]; cbn [head_of].
  - cbn [list_cells].
    eapply tri_set_head; [reflexivity|]. cbn [item next head tail].
    eapply tri_set_tail; [reflexivity|]. cbn [item next head tail].
    apply tri_call_new. intros f fp.
    eapply tri_set_item; [apply Permutation_sym, Permutation_cons_append|]. cbn [app item next head tail].
    eapply tri_set_next; [reflexivity|]. cbn [item next head tail].
    apply tri_ret. split; [reflexivity|]. exists l, fp. reflexivity.
  - unfold list_new. apply tri_alloc. intros j. apply tri_call_new. intros f fp.
    eapply tri_set_item.
    { instantiate (1 := list_cells KFile l (e :: es) ++ file_cells (new_file f fp)).
      instantiate (1 := {| item := None; next := None; head := None; tail := None |}). perm. }
    cbn [item next head tail].
    apply (tri_append _ q KFile l e es j (Some f) [] (file_cells (new_file f fp))).
    apply tri_ret. split; [reflexivity|]. exists j, fp. reflexivity.
Qed.

Lemma good_add_file : forall e ts l p es j f fp, good e ts ->
  nth_error ts l = Some (Files p es) ->
  good (e ++ [f]) (replace ts l (Files p (es ++ [{| e_node := j; e_item := Some f; e_own := [] |}]))
    ++ [File (new_file f fp) (Some l)]).
Proof.
  intros e ts l p es j f fp [GL G] H.
  set (es' := es ++ _). set (nf := File (new_file f fp) (Some l)).
  pose proof (nth_lt _ _ _ _ H) as Ll.
  assert (E : forall i, owned i (replace ts l (Files p es') ++ [nf]) = owned i ts ++ if l =? i then [f] else []).
  { intros i. rewrite owned_app. rewrite (owned_replace ts i l _ _ H) by reflexivity.
    unfold owned at 2. cbn. now rewrite app_nil_r. }
  assert (W : forall o, (exists r xs, nth_error ts o = Some (Files r xs)) ->
    exists r xs, nth_error (replace ts l (Files p es') ++ [nf]) o = Some (Files r xs)).
  { intros o [r [xs Ho]]. pose proof (nth_lt _ _ _ _ Ho) as Lo.
    rewrite nth_error_app1 by now rewrite replace_length.
    destruct (Nat.eq_dec l o) as [<-|D].
    - rewrite replace_same by exact Ll. now exists p, es'.
    - rewrite replace_other by exact D. now exists r, xs. }
  split; [rewrite !app_length, replace_length; cbn; lia|].
  intros i u Hi. destruct (Nat.lt_ge_cases i (length ts)) as [D|D].
  - rewrite nth_error_app1 in Hi by now rewrite replace_length.
    rewrite nth_error_app1 by lia.
    destruct (Nat.eq_dec l i) as [<-|Dl].
    + rewrite replace_same in Hi by exact Ll. injection Hi as <-.
      destruct (G l _ H) as [[G1 G2] G3]. split; [|exact G3]. split.
      * apply Forall_app. split; [exact G1|]. constructor; [|constructor]. now exists f.
      * rewrite E, Nat.eqb_refl. unfold es'. rewrite !map_app, G2. reflexivity.
    + rewrite replace_other in Hi by exact Dl. destruct (G i u Hi) as [G1 G2]. split; [|exact G2].
      destruct u as [|a [o|]| | |]; cbn in *; auto.
      * split; [apply G1|]. apply W. apply G1.
      * rewrite E. destruct (Nat.eqb_spec l i); [contradiction|]. now rewrite app_nil_r.
  - pose proof (nth_lt _ _ _ _ Hi) as D2. rewrite app_length, replace_length in D2. cbn in D2.
    assert (i = length ts) as -> by lia.
    rewrite nth_error_app2 in Hi by now rewrite replace_length.
    rewrite replace_length, Nat.sub_diag in Hi. cbn in Hi. injection Hi as <-.
    split.
    + split; [apply new_file_ok|]. apply W. now exists p, es.
    + intros r Hr. rewrite <- GL, nth_error_app2, Nat.sub_diag by lia. exact Hr.
Qed.

(** ** ohcount_sourcefile_list_free *)

Definition own_file (i : nat) (t : thing) : list afile :=
  match t with File a (Some o) => if o =? i then [a] else [] | _ => [] end.
Definition own_files (i : nat) (ts : list thing) : list afile := flat_map (own_file i) ts.
Definition unown (i : nat) (t : thing) : thing :=
  match t with File _ (Some o) => if o =? i then Gone else t | _ => t end.
Definition dropped (i : nat) (ts : list thing) : list thing := map (unown i) (replace ts i Gone).

Lemma own_files_owned : forall i ts, map f_at (own_files i ts) = owned i ts.
Proof.
  intros i. induction ts as [|t ts IH]; [reflexivity|]. unfold own_files, owned in *. cbn.
  rewrite map_app, IH. f_equal. destruct t as [|a [o|]| | |]; try reflexivity. cbn.
  now destruct (o =? i).
Qed.

Lemma own_files_in : forall i ts a, In a (own_files i ts) -> exists n, nth_error ts n = Some (File a (Some i)).
Proof.
  intros i ts a H. apply in_flat_map in H. destruct H as [t [I H]].
  apply In_nth_error in I. destruct I as [n Hn]. destruct t as [|b [o|]| | |]; cbn in H; try contradiction.
  destruct (Nat.eqb_spec o i) as [->|]; [|contradiction]. destruct H as [<-|[]]. now exists n.
Qed.

Lemma unown_cells : forall i ts,
  Permutation (all_cells ts) (flat_map file_cells (own_files i ts) ++ all_cells (map (unown i) ts)).
Proof.
  intros i. induction ts as [|t ts IH]; [reflexivity|].
  unfold all_cells, own_files in *. cbn [flat_map map]. rewrite IH, flat_map_app.
  assert (E : Permutation (thing_cells t) (flat_map file_cells (own_file i t) ++ thing_cells (unown i t))).
  { destruct t as [|a [o|]| | |]; try reflexivity. cbn. destruct (o =? i); cbn; rewrite ?app_nil_r; reflexivity. }
  rewrite E. perm.
Qed.

Lemma own_files_replace : forall ts i p es, nth_error ts i = Some (Files p es) ->
  own_files i (replace ts i Gone) = own_files i ts.
Proof.
  assert (K : forall i ts n p es, nth_error ts n = Some (Files p es) ->
    own_files i (replace ts n Gone) = own_files i ts).
  { intros i. induction ts as [|t ts IH]; intros [|n] p es H; cbn in *; try discriminate.
    - injection H as ->. reflexivity.
    - unfold own_files in *. cbn. now rewrite (IH n p es H). }
  intros ts i p es H. now apply (K i ts i p es).
Qed.

(** The items of the list with the files that they point to. *)
Definition with_file (x : entry * afile) : entry :=
  {| e_node := e_node (fst x); e_item := e_item (fst x); e_own := file_cells (snd x) |}.

Lemma seg_files : forall es fs, length es = length fs -> Forall (entry_ok KFile) es ->
  Permutation (seg KFile es None ++ flat_map file_cells fs)
    (seg KFile (map with_file (combine es fs)) None).
Proof.
  induction es as [|e es IH]; intros [|a fs] L O; cbn in L; try discriminate; [reflexivity|].
  apply Forall_cons_iff in O. destruct O as [[f [_ E]] O].
  cbn [combine map seg flat_map]. rewrite <- (IH fs) by (auto with arith).
  cbn [with_file e_node e_item e_own fst snd]. rewrite E.
  replace (hd_node (map with_file (combine es fs)) None) with (hd_node es None).
  - perm.
  - destruct es as [|e' es]; [reflexivity|]. destruct fs; [discriminate|reflexivity].
Qed.

Lemma last_files : forall es fs d, length es = length fs ->
  last_node d (map with_file (combine es fs)) = last_node d es.
Proof.
  induction es as [|e es IH]; intros [|a fs] d L; cbn in *; try discriminate; auto.
Qed.

Lemma list_files : forall l es fs, length es = length fs -> Forall (entry_ok KFile) es ->
  Permutation (list_cells KFile l es ++ flat_map file_cells fs)
    (list_cells KFile l (map with_file (combine es fs))).
Proof.
  intros l [|e es] [|a fs] L O; cbn in L; try discriminate; [reflexivity|].
  apply Forall_cons_iff in O. destruct O as [[f [_ E]] O]. injection L as L.
  cbn [combine map list_cells flat_map]. rewrite <- (seg_files es fs L O).
  rewrite (last_files es fs l L). cbn [with_file e_node e_item e_own fst snd]. rewrite E.
  replace (hd_node (map with_file (combine es fs)) None) with (hd_node es None).
  - perm.
  - destruct es as [|e' es]; [reflexivity|]. destruct fs; [discriminate|reflexivity].
Qed.

Lemma combine_items : forall es fs en a, map e_item es = map (fun a => Some (f_at a)) fs ->
  In (en, a) (combine es fs) -> e_item en = Some (f_at a).
Proof.
  induction es as [|y es IH]; intros [|b fs] en a Em I; cbn in *; try contradiction.
  injection Em as E1 E2. destruct I as [I|I]; [congruence|]. now apply (IH fs).
Qed.

Lemma tri_files_free : forall q e ts i l es F, good e ts -> nth_error ts i = Some (Files l es) ->
  tri q (all_cells ts ++ F) (files_free l) (fun _ q' C' => q' = q /\ C' = all_cells (dropped i ts) ++ F).
Proof.
  intros q e ts i l es F G H. unfold files_free. pose proof G as [_ G']. destruct (G' i _ H) as [[G1 G2] _].
  set (fs := own_files i ts).
  assert (Em : map e_item es = map (fun a => Some (f_at a)) fs).
  { rewrite G2, <- own_files_owned, map_map. reflexivity. }
  assert (L : length es = length fs).
  { apply (f_equal (@length _)) in Em. now rewrite !map_length in Em. }
  assert (P : Permutation (all_cells ts ++ F)
    (list_cells KFile l (map with_file (combine es fs)) ++ all_cells (dropped i ts) ++ F)).
  { rewrite <- (list_files l es fs L G1). rewrite (take_cells ts i _ H). cbn [thing_cells].
    rewrite (unown_cells i (replace ts i Gone)). rewrite (own_files_replace ts i l es H). fold fs.
    unfold dropped. perm. }
  apply tri_unbind.
  eapply tri_call; [exact P| |].
  - apply tri_list_free. rewrite Forall_forall. intros x I. apply in_map_iff in I.
    destruct I as [[en a] [<- I]]. cbn [with_file e_item e_own fst snd].
    assert (Ea : e_item en = Some (f_at a)).
    { exact (combine_items es fs en a Em I). }
    rewrite Ea. unfold drop_file. apply tri_deref. apply tri_source_free.
    apply in_combine_r in I. apply own_files_in in I. destruct I as [n Hn].
    exact (good_own e ts n _ G Hn).
  - intros [] q' D' [-> ->]. apply tri_ret. auto.
Qed.

Lemma owned_dropped : forall i j ts p es, nth_error ts i = Some (Files p es) -> j <> i ->
  owned j (dropped i ts) = owned j ts.
Proof.
  intros i j ts p es H D. unfold dropped.
  rewrite <- (owned_replace ts j i _ Gone H eq_refl). generalize (replace ts i Gone). clear ts H.
  induction l as [|t ts IH]; [reflexivity|]. unfold owned in *. cbn. rewrite IH. f_equal.
  destruct t as [|a [o|]| | |]; try reflexivity. cbn.
  destruct (Nat.eqb_spec o i) as [->|]; [|reflexivity].
  destruct (Nat.eqb_spec i j); [congruence|reflexivity].
Qed.

Lemma nth_dropped : forall ts i j t, nth_error (dropped i ts) j = Some t -> t <> Gone ->
  j <> i /\ nth_error ts j = Some t /\ of_list i (track t) = false.
Proof.
  intros ts i j t H N. unfold dropped in H. rewrite nth_error_map in H.
  destruct (Nat.eq_dec i j) as [->|D].
  - exfalso. destruct (nth_error (replace ts j Gone) j) as [u|] eqn:E; [|discriminate].
    assert (L : j < length ts) by (rewrite <- (replace_length _ ts j Gone); now apply nth_lt in E).
    rewrite replace_same in E by exact L. injection E as <-. cbn in H. congruence.
  - rewrite replace_other in H by exact D. destruct (nth_error ts j) as [u|] eqn:E; [|discriminate].
    cbn in H. injection H as H. split; [congruence|].
    destruct u as [|a [o|]| | |]; cbn in *; subst; auto; try congruence.
    destruct (o =? i) eqn:Eo; [congruence|]. auto.
Qed.

Lemma dropped_nth : forall ts i j t, nth_error ts j = Some t -> j <> i -> of_list i (track t) = false ->
  nth_error (dropped i ts) j = Some t.
Proof.
  intros ts i j t H D O. unfold dropped. rewrite nth_error_map, replace_other by congruence.
  rewrite H. cbn. destruct t as [|a [o|]| | |]; cbn in *; try reflexivity. now rewrite O.
Qed.

Lemma good_dropped : forall e ts i l es, good e ts -> nth_error ts i = Some (Files l es) ->
  good e (dropped i ts).
Proof.
  intros e ts i l es [GL G] H. split; [unfold dropped; now rewrite map_length, replace_length|].
  intros j t Hj. destruct t as [|a o|p xs|p k x|k p xs] eqn:Et.
  { split; [exact Logic.I|discriminate]. }
  all: rewrite <- Et in *; destruct (nth_dropped ts i j t Hj) as [D [Ht O]]; [subst; discriminate|];
    destruct (G j t Ht) as [G1 G2]; (split; [|exact G2]); subst t.
  - split; [apply G1|]. destruct o as [o|]; [|exact Logic.I]. destruct G1 as [_ [p [xs G1]]].
    exists p, xs. apply dropped_nth; [exact G1| |reflexivity]. cbn in O.
    destruct (Nat.eqb_spec o i); congruence.
  - split; [apply G1|]. rewrite (owned_dropped i j ts l es H D). apply G1.
  - exact G1.
  - exact G1.
Qed.

Lemma track_dropped : forall ts i,
  map track (dropped i ts) = map (fun h => if of_list i h then HGone else h) (put (map track ts) i HGone).
Proof.
  intros ts i. unfold dropped. change HGone with (track Gone) at 2. rewrite <- put_replace, !map_map.
  apply map_ext. intros [|a [o|]| | |]; cbn; try reflexivity. now destruct (o =? i).
Qed.

(** ** All calls *)

Lemma when_some : forall b t t', when b t = Some t' -> b = true /\ t' = t.
Proof. intros [|] t t' H; [|discriminate]. injection H as <-. auto. Qed.

Lemma kind_same_eq : forall a b, kind_same a b = true -> a = b.
Proof. intros [] []; cbn; congruence. Qed.

Lemma at_counts : forall ts k i, at_ (is_counts k) (map track ts) i = true ->
  exists l es, nth_error ts i = Some (Counts k l es).
Proof.
  intros ts k i H. apply at_track in H. destruct H as [[| | | |j l es] [H1 H2]]; try discriminate.
  apply kind_same_eq in H2. subst j. now exists l, es.
Qed.

Lemma at_count : forall ts k i, at_ (is_count k) (map track ts) i = true ->
  exists p x, nth_error ts i = Some (Count p k x).
Proof.
  intros ts k i H. apply at_track in H. destruct H as [[| | |p j x|] [H1 H2]]; try discriminate.
  apply kind_same_eq in H2. subst j. now exists p, x.
Qed.

Lemma at_files : forall ts i, at_ is_files (map track ts) i = true ->
  exists l es, nth_error ts i = Some (Files l es).
Proof.
  intros ts i H. apply at_track in H. destruct H as [[| |l es| |] [H1 H2]]; try discriminate.
  now exists l, es.
Qed.

Lemma countable_counts : forall k, countable k = true -> counts k.
Proof. intros []; cbn; try discriminate; [now left|now right]. Qed.

(** A call that changes one list of counts. *)
Lemma post_counts : forall e ts L c i k l es es', good e ts -> nth_error ts i = Some (Counts k l es) ->
  Forall (entry_ok k) es' -> leaves c [] ->
  forall q', post e ts L c (map track ts) e q' (all_cells (replace ts i (Counts k l es')) ++ leak_cells L).
Proof.
  intros e ts L c i k l es es' G H O Lv q'.
  assert (Al : alike (Counts k l es) (Counts k l es')) by now split.
  exists (replace ts i (Counts k l es')), []. split; [reflexivity|].
  split; [eapply good_replace; [exact G|exact H|exact Al|]|].
  { split; [|exact O]. exact (proj1 (good_own e ts i _ G H)). }
  split; [|split; [exact Lv|split; [|exists []; now rewrite app_nil_r]]].
  - rewrite put_replace, (alike_track _ _ Al). apply put_same. rewrite nth_error_map, H. reflexivity.
  - eapply calm_replace; [exact H|]. right. discriminate.
Qed.

(** A call that frees one thing. *)
Lemma gone_own : forall ts i t, nth_error ts i = Some t ->
  match t with Files _ _ => False | File _ (Some _) => False | _ => True end ->
  forall j, owned j (replace ts i Gone) = owned j ts.
Proof.
  intros ts i t H N j. apply (owned_replace ts j i t Gone H).
  destruct t as [|a [o|]| | |]; try contradiction; reflexivity.
Qed.

Lemma good_gone : forall e ts i t, good e ts -> nth_error ts i = Some t ->
  match t with Files _ _ => False | File _ (Some _) => False | _ => True end ->
  good e (replace ts i Gone).
Proof.
  intros e ts i t [GL G] H N. split; [now rewrite replace_length|].
  intros j u Hj. destruct (Nat.eq_dec i j) as [->|D].
  - rewrite replace_same in Hj by now apply nth_lt in H. injection Hj as <-.
    split; [exact Logic.I|discriminate].
  - rewrite replace_other in Hj by exact D. destruct (G j u Hj) as [G1 G2]. split; [|exact G2].
    destruct u as [|a [o|]| | |]; cbn in *; auto.
    + split; [apply G1|]. destruct G1 as [_ [p [es G1]]]. exists p, es.
      rewrite replace_other; [exact G1|]. intros ->. rewrite H in G1. injection G1 as ->. exact N.
    + rewrite (gone_own ts i t H N). exact G1.
Qed.

Lemma tri_gone : forall q e ts L c i t (m : M unit), good e ts -> nth_error ts i = Some t ->
  match t with Files _ _ => False | File _ (Some _) => False | _ => True end ->
  (forall a o, t = File a o -> disturbs (map track ts) c i = true) -> leaves c [] ->
  tri q (thing_cells t) m (fun _ q' C' => q' = q /\ C' = []) ->
  tri q (all_cells ts ++ leak_cells L) (keeps e m) (post e ts L c (put (map track ts) i HGone)).
Proof.
  intros q e ts L c i t m G H N D Lv T. unfold keeps.
  eapply tri_on with (P := fun r q' t' X => t' = Gone /\ X = []); [exact H| |].
  { eapply tri_weaken; [exact T|]. intros r q' C' [-> ->]. now exists Gone, []. }
  intros r q' t' X [-> ->]. cbn [app]. apply tri_ret.
  exists (replace ts i Gone), []. split; [reflexivity|]. split; [eapply good_gone; eassumption|].
  split; [apply put_replace|]. split; [exact Lv|]. split; [|exists []; now rewrite app_nil_r].
  eapply calm_replace; [exact H|]. destruct t as [|a o| | |]; try (right; discriminate).
  left. now apply (D a o).
Qed.

(** A call that makes something while files learn more. *)
Lemma post_made : forall e S ts ts' t p c X L, good e ts -> moved e S ts ts' ->
  thing_at t = Some p -> own_ok t ->
  match t with File _ _ => False | Files _ _ => False | _ => True end ->
  (forall n, S n -> disturbs (map track ts) c n = true) -> leaves c X ->
  forall q' C', C' = all_cells (ts' ++ [t]) ++ leak_cells (X ++ L) ->
  post e ts L c (map track ts ++ [track t]) (e ++ [p]) q' C'.
Proof.
  intros e S ts ts' t p c X L G M At O N D Lv q' C' ->. exists (ts' ++ [t]), X.
  split; [reflexivity|].
  split; [apply good_app; [exact (proj1 M)|exact At|exact O|destruct t; try contradiction; exact Logic.I]|].
  split; [rewrite map_app, (proj1 (proj2 M)); reflexivity|]. split; [exact Lv|].
  split; [eapply moved_calm; eassumption|]. now exists [p].
Qed.

Lemma made_cells : forall ts t, all_cells (ts ++ [t]) = all_cells ts ++ thing_cells t.
Proof. intros ts t. rewrite all_cells_app. unfold all_cells. cbn. now rewrite app_nil_r. Qed.

Theorem tri_run_call : forall q e ts L c t', good e ts -> after (map track ts) c = Some t' ->
  tri q (all_cells ts ++ leak_cells L) (run_call e c) (post e ts L c t').
Proof.
  intros q e ts L c t' G A. destruct c; cbn [after run_call] in *.
  - (* NewFile *)
    injection A as <-. apply tri_create; [exact G|reflexivity|].
    apply tri_unbind. apply tri_call_new. intros p f. apply tri_ret.
    exists (File (new_file p f) None). split; [reflexivity|]. split; [reflexivity|].
    split; [apply new_file_ok|]. now split.
  - (* SetDiskpath *)
    apply when_some in A. destruct A as [A ->]. apply at_file in A. destruct A as [a [o H]].
    eapply tri_file_call; [exact G|exact H|]. pose proof (good_own e ts f _ G H) as O.
    eapply tri_post; [rewrite <- (app_nil_r (file_cells a)); apply tri_set_diskpath; exact Logic.I|].
    intros [] q' C' [-> [d ->]]. eexists. split; [reflexivity|].
    exists (re_src a (with_diskpath (Some d) (f_src a))), []. split; [reflexivity|].
    split; [exact O|]. split; [reflexivity|]. split; [intros _; now intros _|reflexivity].
  - (* SetContents *)
    apply when_some in A. destruct A as [A ->]. apply at_file in A. destruct A as [a [o H]].
    eapply tri_file_call; [exact G|exact H|]. pose proof (good_own e ts f _ G H) as O.
    eapply tri_post; [rewrite <- (app_nil_r (file_cells a)); apply tri_set_contents; exact Logic.I|].
    intros [] q' C' [-> [d ->]]. eexists. split; [reflexivity|].
    exists (re_contents a (Some d)), []. split; [reflexivity|].
    split; [exact O|]. split; [reflexivity|]. split; [|reflexivity].
    cbn. rewrite Nat.eqb_refl. discriminate.
  - (* CopyContents *)
    apply when_some in A. destruct A as [A ->].
    apply andb_prop in A. destruct A as [A D]. apply andb_prop in A. destruct A as [A1 A2].
    apply negb_true_iff, Nat.eqb_neq in D.
    apply at_file in A1. destruct A1 as [a [o Hf]]. apply at_file in A2. destruct A2 as [b [o' Hg]].
    eapply tri_handle; [exact (good_at e ts f _ _ G Hf eq_refl)|].
    eapply tri_handle; [exact (good_at e ts g _ _ G Hg eq_refl)|].
    unfold keeps. apply tri_assoc.
    eapply tri_on with (P := fun r q' t' X => q' = q /\ t' = File (re_contents b r) o' /\ X = [] /\ got_contents b r);
      [exact Hg| |].
    { eapply tri_weaken; [apply tri_get_contents|]. intros r q' C' [-> [-> K]].
      exists (File (re_contents b r) o'), []. split; [now rewrite app_nil_r|]. auto. }
    intros r q' t' X [-> [-> [-> K]]]. cbn [app].
    set (b1 := re_contents b r). set (ts1 := replace ts g (File b1 o')).
    assert (G1 : good e ts1).
    { eapply good_replace; [exact G|exact Hg|now split|exact (good_own e ts g _ G Hg)]. }
    assert (T1 : map track ts1 = map track ts).
    { unfold ts1. rewrite put_replace. apply put_same. rewrite nth_error_map, Hg. reflexivity. }
    assert (Hf1 : nth_error ts1 f = Some (File a o)) by (unfold ts1; rewrite replace_other; [exact Hf|congruence]).
    assert (Hg1 : nth_error ts1 g = Some (File b1 o')).
    { unfold ts1. rewrite replace_same; [reflexivity|now apply nth_lt in Hg]. }
    assert (Cm : forall u, u = File a o \/ disturbs (map track ts) (CopyContents f g) f = true ->
      calm (CopyContents f g) ts (replace ts1 f u)).
    { intros u Hu n x y Hn N. destruct (Nat.eq_dec f n) as [<-|Df].
      - destruct Hu as [->|Hu]; [|congruence]. exists x. rewrite replace_same by now apply nth_lt in Hf1.
        rewrite Hf in Hn. split; [exact Hn|apply keeps_refl].
      - rewrite replace_other by exact Df. destruct (Nat.eq_dec g n) as [<-|Dg].
        + rewrite Hg in Hn. injection Hn as <- <-. exists b1. split; [exact Hg1|exact K].
        + exists x. split; [|apply keeps_refl]. unfold ts1. now rewrite replace_other. }
    destruct r as [c|].
    + eapply tri_call with (D := file_cells a ++ file_cells b1)
        (F := all_cells (replace (replace ts1 f Gone) g Gone) ++ leak_cells L).
      { rewrite (take_cells ts1 f _ Hf1).
        rewrite (take_cells (replace ts1 f Gone) g (File b1 o')) by now rewrite replace_other.
        cbn [thing_cells]. perm. }
      { apply tri_set_contents. exists Contents. eapply file_contents; [apply incl_refl|reflexivity]. }
      intros [] q' D' [-> [d ->]].
      set (a1 := re_contents a (Some d)).
      eapply tri_ret_perm with (D := all_cells (replace ts1 f (File a1 o)) ++ leak_cells L).
      { rewrite (replace_cells ts1 f _ (File a1 o) Hf1).
        rewrite (take_cells (replace ts1 f Gone) g (File b1 o')) by now rewrite replace_other.
        cbn [thing_cells]. perm. }
      exists (replace ts1 f (File a1 o)), []. split; [reflexivity|].
      split; [eapply good_replace; [exact G1|exact Hf1|now split|exact (good_own e ts f _ G Hf)]|].
      split; [rewrite put_replace, T1; apply put_same; rewrite nth_error_map, Hf; reflexivity|].
      split; [reflexivity|]. split; [|exists []; now rewrite app_nil_r].
      apply Cm. right. cbn. apply Nat.eqb_refl.
    + apply tri_ret_bind. apply tri_ret. exists ts1, []. split; [reflexivity|]. split; [exact G1|].
      split; [exact T1|]. split; [reflexivity|]. split; [|exists []; now rewrite app_nil_r].
      rewrite <- (replace_self _ ts1 f (File a o) Hf1). apply Cm. now left.
  - (* GetPath *)
    apply when_some in A. destruct A as [A ->]. apply at_file in A. destruct A as [a [o H]].
    eapply tri_file_call; [exact G|exact H|]. pose proof (good_own e ts f _ G H) as O.
    eapply tri_load_source; [apply file_source; apply incl_refl|].
    apply tri_unbind. eapply tri_touch; [apply file_path; apply incl_refl|]. apply tri_ret.
    exists a, []. split; [now rewrite app_nil_r|]. split; [exact O|]. split; [reflexivity|].
    split; [intros _; apply keeps_refl|reflexivity].
  - (* GetContents *)
    apply when_some in A. destruct A as [A ->]. apply at_file in A. destruct A as [a [o H]].
    eapply tri_file_call; [exact G|exact H|]. pose proof (good_own e ts f _ G H) as O.
    eapply tri_weaken; [apply tri_get_contents|].
    intros r q' C' [-> [-> K]]. exists (re_contents a r), []. split; [now rewrite app_nil_r|].
    split; [exact O|]. split; [reflexivity|]. split; [intros _; exact K|reflexivity].
  - (* SetLanguage *)
    apply when_some in A. destruct A as [A ->]. apply at_file in A. destruct A as [a [o H]].
    eapply tri_file_call; [exact G|exact H|]. pose proof (good_own e ts f _ G H) as O.
    eapply tri_weaken; [apply tri_set_language|].
    intros r q' C' [-> [g ->]]. exists (re_language a g), []. split; [now rewrite app_nil_r|].
    split; [exact O|]. split; [reflexivity|]. split; [intros _; now intros _|reflexivity].
  - (* GetLanguage *)
    apply when_some in A. destruct A as [A ->]. apply at_file in A. destruct A as [a [o H]].
    eapply tri_file_call; [exact G|exact H|]. pose proof (good_own e ts f _ G H) as O.
    eapply tri_weaken; [apply tri_get_language; exact O|].
    intros r q' C' [-> [c [g [-> K]]]].
    destruct (fetched_post a (re_language (re_contents a c) g) O) as [F1 [F2 F3]]; [now exists c, g|].
    exists (re_language (re_contents a c) g), []. split; [now rewrite app_nil_r|].
    split; [exact F1|]. split; [exact F2|]. split; [auto|reflexivity].
  - (* Parse *)
    apply when_some in A. destruct A as [A ->]. apply at_file in A. destruct A as [a [o H]].
    eapply tri_file_call; [exact G|exact H|]. pose proof (good_own e ts f _ G H) as O.
    eapply tri_weaken; [apply tri_parse; exact O|].
    intros r q' C' [b [S1 ->]]. exists b, []. split; [now rewrite app_nil_r|].
    split; [apply S1|]. split; [apply S1|]. split; [|reflexivity].
    cbn. rewrite Nat.eqb_refl. discriminate.
  - (* ParseWith *)
    apply when_some in A. destruct A as [A ->]. apply at_file in A. destruct A as [a [o H]].
    eapply tri_file_call; [exact G|exact H|]. pose proof (good_own e ts f _ G H) as O.
    eapply tri_weaken; [apply tri_parse_with; exact O|].
    intros r q' C' [b [Fb ->]]. destruct (fetched_post a b O Fb) as [F1 [F2 F3]].
    exists b, []. split; [now rewrite app_nil_r|].
    split; [exact F1|]. split; [exact F2|]. split; [auto|reflexivity].
  - (* Licenses *)
    apply when_some in A. destruct A as [A ->]. apply at_file in A. destruct A as [a [o H]].
    eapply tri_file_call; [exact G|exact H|]. pose proof (good_own e ts f _ G H) as O.
    eapply tri_bind; [apply tri_get_licenses; exact O|].
    intros r q' C' [b [X [-> [Gr [Er [Nr HX]]]]]]. rewrite Er in *.
    destruct (licenses (f_src b)) as [p|] eqn:Ep; [|congruence]. apply tri_deref.
    eapply tri_weaken.
    { apply (tri_walk_list _ _ _ _ p (f_lics b)).
      - intros x Hx. apply in_or_app. left. unfold file_cells. rewrite Ep. cbn [olist].
        right. right. do 3 apply in_right. now apply in_left.
      - rewrite app_length. unfold file_cells. rewrite Ep. cbn [olist length].
        rewrite !app_length. pose proof (list_cells_length KLicense p (f_lics b)). lia.
      - intros x _ _. apply tri_see_none. }
    intros [] q2 C2 [-> ->]. exists b, X. split; [reflexivity|].
    split; [apply Gr|]. split; [apply Gr|]. split; [|exact HX].
    cbn. rewrite Nat.eqb_refl. discriminate.
  - (* Locs *)
    apply when_some in A. destruct A as [A ->]. apply at_file in A. destruct A as [a [o H]].
    eapply tri_file_call; [exact G|exact H|]. pose proof (good_own e ts f _ G H) as O.
    eapply tri_weaken; [apply tri_get_locs; exact O|].
    intros r q' C' [b [-> [Gr _]]]. exists b, []. split; [now rewrite app_nil_r|].
    split; [apply Gr|]. split; [apply Gr|]. split; [|reflexivity].
    cbn. rewrite Nat.eqb_refl. discriminate.
  - (* ShowLocs *)
    apply when_some in A. destruct A as [A ->]. apply at_file in A. destruct A as [a [o H]].
    eapply tri_file_call; [exact G|exact H|]. pose proof (good_own e ts f _ G H) as O.
    eapply tri_bind; [apply tri_get_locs; exact O|].
    intros l q' C' [b [-> [Gr El]]].
    set (R := (f_at b, Source (f_src b)) :: (filepath (f_src b), Bytes Filepath)
      :: opt_cell (diskpath (f_src b)) Diskpath ++ opt_cell (contents (f_src b)) Contents
      ++ olist KLanguage (languages (f_src b)) (f_langs b)
      ++ olist KLicense (licenses (f_src b)) (f_lics b)).
    eapply tri_perm with (D := list_cells KLoc l (f_locs b) ++ R).
    { unfold file_cells, R. rewrite El. cbn [olist]. perm. }
    eapply tri_bind; [apply tri_sort_list; [now left|apply Gr]|].
    intros [] q2 C2 [-> [es [-> Oe]]].
    apply tri_unbind. eapply tri_bind.
    { apply (tri_walk_list _ _ _ _ l es).
      - apply incl_left.
      - rewrite app_length. pose proof (list_cells_length KLoc l es). lia.
      - apply tri_see_count; [now left|exact Oe]. }
    intros [] q3 C3 [-> ->].
    eapply tri_ret_perm with (D := file_cells (re_locs b l es)).
    { assert (Ew : with_locs (Some l) (f_src b) = f_src b).
      { destruct (f_src b). cbn in El. now subst. }
      unfold file_cells, re_locs, R. cbn [f_at f_src f_langs f_lics f_locs]. rewrite Ew, El.
      cbn [olist]. perm. }
    exists (re_locs b l es), []. split; [now rewrite app_nil_r|].
    split; [split; [apply Gr|split; [apply Gr|exact Oe]]|]. split; [apply Gr|]. split; [|reflexivity].
    cbn. rewrite Nat.eqb_refl. discriminate.
  - (* FreeFile *)
    apply when_some in A. destruct A as [A ->]. apply at_track in A.
    destruct A as [[|a [o|]| | |] [H A]]; try discriminate.
    eapply tri_handle; [exact (good_at e ts f _ _ G H eq_refl)|].
    eapply tri_gone; [exact G|exact H|exact Logic.I| |reflexivity|].
    + intros _ _ _. cbn. apply Nat.eqb_refl.
    + apply tri_source_free. exact (good_own e ts f _ G H).
  - (* Diff *)
    apply when_some in A. destruct A as [A ->]. apply andb_prop in A. destruct A as [A1 A2].
    apply at_file in A1. destruct A1 as [a [o Hf]]. apply at_file in A2. destruct A2 as [b [o' Hg]].
    eapply tri_handle; [exact (good_at e ts f _ _ G Hf eq_refl)|].
    eapply tri_handle; [exact (good_at e ts g _ _ G Hg eq_refl)|].
    unfold creates.
    eapply tri_bind; [apply (tri_diff q e (fun n => n = f \/ n = g) ts f g a b o o' L G Hf Hg); auto|].
    intros l q' C' [ts' [ds [X [-> [M [Hd HX]]]]]].
    eapply tri_ret_perm; [|eapply (post_made e _ ts ts' (Counts KDelta l ds) l _ X L G M);
      [reflexivity|split; [now right|exact Hd]|exact Logic.I| |exact HX|reflexivity]].
    + rewrite made_cells. cbn [thing_cells]. perm.
    + intros n [->| ->]; cbn; rewrite Nat.eqb_refl, ?orb_true_r; reflexivity.
  - (* LocDelta *)
    apply when_some in A. destruct A as [A ->]. apply andb_prop in A. destruct A as [A1 A2].
    apply at_file in A1. destruct A1 as [a [o Hf]]. apply at_file in A2. destruct A2 as [b [o' Hg]].
    eapply tri_handle; [exact (good_at e ts f _ _ G Hf eq_refl)|].
    eapply tri_handle; [exact (good_at e ts g _ _ G Hg eq_refl)|].
    unfold creates.
    eapply (tri_loc_delta _ q e (fun n => n = f \/ n = g)); [exact G|exact Hf|exact Hg|now left|now right|].
    intros d p c m N q' ts' M HN.
    eapply tri_ret_perm; [|eapply (post_made e _ ts ts' (Count d KDelta x) d _ (LBlank p x c m :: N) L G M);
      [reflexivity|now right|exact Logic.I| | |reflexivity]].
    + rewrite made_cells. cbn [thing_cells]. rewrite leak_cells_app. perm.
    + intros n [->| ->]; cbn; rewrite Nat.eqb_refl, ?orb_true_r; reflexivity.
    + exists p, x, c, m, N. auto.
  - (* NewFiles *)
    injection A as <-. apply tri_create; [exact G|reflexivity|]. unfold list_new.
    apply tri_unbind. apply tri_alloc. intros p. apply tri_ret.
    exists (Files p []). split; [reflexivity|]. split; [reflexivity|].
    split; [constructor|]. now split.
  - (* AddFile *)
    apply when_some in A. destruct A as [A ->]. apply at_files in A. destruct A as [p [es H]].
    eapply tri_handle; [exact (good_at e ts l _ _ G H eq_refl)|]. unfold creates.
    eapply tri_on with (P := fun f q' t' X => exists j fp, X = file_cells (new_file f fp) /\
      t' = Files p (es ++ [{| e_node := j; e_item := Some f; e_own := [] |}])); [exact H| |].
    { eapply tri_weaken; [apply tri_add_file|]. intros f q' C' [-> [j [fp ->]]]. eexists. eexists.
      split; [|exists j, fp; split; reflexivity]. reflexivity. }
    intros f q' t' X [j [fp [-> ->]]].
    set (ts1 := replace ts l (Files p (es ++ [{| e_node := j; e_item := Some f; e_own := [] |}]))).
    set (nf := File (new_file f fp) (Some l)).
    eapply tri_ret_perm with (D := all_cells (ts1 ++ [nf]) ++ leak_cells ([] ++ L)).
    { rewrite made_cells. cbn [app]. unfold nf. cbn [thing_cells]. perm. }
    exists (ts1 ++ [nf]), []. split; [reflexivity|]. split; [now apply good_add_file|].
    split; [|split; [reflexivity|split; [|now exists [f]]]].
    + rewrite map_app. f_equal. unfold ts1. rewrite put_replace. apply put_same.
      rewrite nth_error_map, H. reflexivity.
    + intros n a o Hn _. exists a. split; [|apply keeps_refl].
      assert (Dn : l <> n) by congruence.
      rewrite nth_error_app1 by (unfold ts1; rewrite replace_length; now apply nth_lt in Hn).
      unfold ts1. now rewrite replace_other.
  - (* CountFiles *)
    apply when_some in A. destruct A as [A ->]. apply at_track in A.
    destruct A as [[| |p es| |] [H A]]; try discriminate.
    eapply tri_handle; [exact (good_at e ts l _ _ G H eq_refl)|]. unfold keeps.
    assert (I : incl (list_cells KFile p es) (all_cells ts ++ leak_cells L)).
    { intros x Hx. apply (thing_incl ts l _ (leak_cells L) H). exact Hx. }
    eapply tri_bind.
    { apply (tri_walk_list _ _ _ _ p es); [exact I| |intros x _ _; apply tri_see_none].
      pose proof (list_cells_length KFile p es). rewrite app_length.
      rewrite (take_cells ts l _ H). cbn [thing_cells]. rewrite app_length. lia. }
    intros [] q' C' [-> ->]. apply tri_ret. exists ts, []. split; [reflexivity|]. split; [exact G|].
    split; [reflexivity|]. split; [reflexivity|]. split; [|exists []; now rewrite app_nil_r].
    intros n a o Hn _. exists a. split; [exact Hn|apply keeps_refl].
  - (* Analyze *)
    apply when_some in A. destruct A as [A ->]. apply at_files in A. destruct A as [p [es H]].
    eapply tri_handle; [exact (good_at e ts l _ _ G H eq_refl)|]. unfold creates.
    eapply tri_bind; [apply (tri_analyze q e ts l p es (leak_cells L) G H)|].
    intros r q' C' [ts' [os [-> [M Ho]]]].
    eapply tri_ret_perm; [|eapply (post_made e _ ts ts' (Counts KLoc r os) r _ [] L G M);
      [reflexivity|split; [now left|exact Ho]|exact Logic.I| |reflexivity|reflexivity]].
    + rewrite made_cells. cbn [thing_cells app]. perm.
    + intros n Sn. exact Sn.
  - (* FreeFiles *)
    apply when_some in A. destruct A as [A ->]. apply at_files in A. destruct A as [p [es H]].
    eapply tri_handle; [exact (good_at e ts l _ _ G H eq_refl)|]. unfold keeps.
    eapply tri_bind; [apply (tri_files_free q e ts l p es _ G H)|].
    intros [] q' C' [-> ->]. apply tri_ret. exists (dropped l ts), []. split; [reflexivity|].
    split; [eapply good_dropped; eassumption|]. split; [apply track_dropped|]. split; [reflexivity|].
    split; [|exists []; now rewrite app_nil_r].
    intros n a o Hn N. exists a. split; [|apply keeps_refl].
    apply dropped_nth; [exact Hn|congruence|]. cbn [disturbs] in N. unfold at_ in N.
    rewrite nth_error_map, Hn in N. exact N.
  - (* NewCount *)
    apply when_some in A. destruct A as [A ->]. apply countable_counts in A.
    apply tri_create; [exact G|reflexivity|]. unfold count_new.
    apply tri_unbind. apply tri_alloc. intros p. apply tri_ret.
    exists (Count p k x). split; [reflexivity|]. split; [reflexivity|]. split; [exact A|]. now split.
  - (* FreeCount *)
    apply when_some in A. destruct A as [A ->]. apply at_count in A. destruct A as [p [x H]].
    eapply tri_handle; [exact (good_at e ts c _ _ G H eq_refl)|].
    eapply tri_gone; [exact G|exact H|exact Logic.I|discriminate|reflexivity|].
    cbn [thing_cells]. unfold count_free, free_opt. apply tri_unbind. eapply tri_free; [reflexivity|].
    now apply tri_ret.
  - (* NewList *)
    apply when_some in A. destruct A as [A ->]. apply countable_counts in A.
    apply tri_create; [exact G|reflexivity|]. unfold list_new.
    apply tri_unbind. apply tri_alloc. intros p. apply tri_ret.
    exists (Counts k p []). split; [reflexivity|]. split; [reflexivity|].
    split; [split; [exact A|constructor]|]. now split.
  - (* Add *)
    apply when_some in A. destruct A as [A ->]. apply andb_prop in A. destruct A as [A1 A2].
    apply at_counts in A1. destruct A1 as [p [es H]]. apply at_count in A2. destruct A2 as [r [x Hc]].
    eapply tri_handle; [exact (good_at e ts l _ _ G H eq_refl)|].
    eapply tri_handle; [exact (good_at e ts c _ _ G Hc eq_refl)|]. unfold keeps.
    destruct (good_own e ts l _ G H) as [K O].
    eapply tri_bind.
    { eapply tri_perm; [|apply (tri_list_add q k p es (all_cells (replace ts l Gone) ++ leak_cells L) r x K O)].
      - rewrite (take_cells ts l _ H). cbn [thing_cells]. perm.
      - apply (thing_incl (replace ts l Gone) c (Count r k x)); [|now left].
        rewrite replace_other; [exact Hc|congruence]. }
    intros [] q' C' [-> [es' [-> O']]].
    eapply tri_ret_perm; [|apply (post_counts e ts L (Add k l c) l k p es es' G H O' eq_refl)].
    rewrite (replace_cells ts l _ (Counts k p es') H). cbn [thing_cells]. perm.
  - (* AddList *)
    apply when_some in A. destruct A as [A ->]. apply andb_prop in A. destruct A as [A D].
    apply andb_prop in A. destruct A as [A1 A2]. apply negb_true_iff, Nat.eqb_neq in D.
    apply at_counts in A1. destruct A1 as [p [es H]]. apply at_counts in A2. destruct A2 as [r [os Hm]].
    eapply tri_handle; [exact (good_at e ts l _ _ G H eq_refl)|].
    eapply tri_handle; [exact (good_at e ts m _ _ G Hm eq_refl)|]. unfold keeps.
    destruct (good_own e ts l _ G H) as [K O]. destruct (good_own e ts m _ G Hm) as [_ Om].
    assert (Hm' : forall u, nth_error (replace ts l u) m = Some (Counts k r os)) by (intros u; now rewrite replace_other).
    eapply tri_bind.
    { eapply tri_perm; [|apply (tri_add_list q k p es r os
        (all_cells (replace (replace ts l Gone) m Gone) ++ leak_cells L) K O Om)].
      rewrite (take_cells ts l _ H), (take_cells _ m _ (Hm' Gone)). cbn [thing_cells]. perm. }
    intros [] q' C' [-> [es' [-> O']]].
    eapply tri_ret_perm; [|apply (post_counts e ts L (AddList k l m) l k p es es' G H O' eq_refl)].
    rewrite (replace_cells ts l _ (Counts k p es') H), (take_cells _ m _ (Hm' Gone)). cbn [thing_cells]. perm.
  - (* AddLocs *)
    apply when_some in A. destruct A as [A ->]. apply andb_prop in A. destruct A as [A1 A2].
    apply at_counts in A1. destruct A1 as [p [es H]]. apply at_file in A2. destruct A2 as [a [o Hf]].
    eapply tri_handle; [exact (good_at e ts l _ _ G H eq_refl)|].
    eapply tri_handle; [exact (good_at e ts f _ _ G Hf eq_refl)|]. unfold keeps. apply tri_assoc.
    eapply tri_on with (P := fun r q' t' X => exists b, t' = File b o /\ X = [] /\ grown a b /\
      locs (f_src b) = Some r); [exact Hf| |].
    { eapply tri_weaken; [apply tri_get_locs; exact (good_own e ts f _ G Hf)|].
      intros r q' C' [b [-> [Gr El]]]. exists (File b o), []. split; [now rewrite app_nil_r|]. now exists b. }
    intros r q' t' X [b [-> [-> [Gr El]]]]. cbn [app].
    destruct (moved_replace e (eq f) ts f a b o G Hf eq_refl Gr) as [M Hb].
    set (ts1 := replace ts f (File b o)) in *.
    assert (H1 : nth_error ts1 l = Some (Counts KLoc p es)) by (unfold ts1; rewrite replace_other; [exact H|congruence]).
    set (R := (f_at b, Source (f_src b)) :: (filepath (f_src b), Bytes Filepath)
      :: opt_cell (diskpath (f_src b)) Diskpath ++ opt_cell (contents (f_src b)) Contents
      ++ olist KLanguage (languages (f_src b)) (f_langs b)
      ++ olist KLicense (licenses (f_src b)) (f_lics b)).
    assert (P1 : Permutation (all_cells (replace ts1 l Gone))
      (list_cells KLoc r (f_locs b) ++ R ++ all_cells (replace (replace ts1 l Gone) f Gone))).
    { rewrite (take_cells _ f (File b o)) by (rewrite replace_other; [exact Hb|congruence]).
      cbn [thing_cells]. unfold file_cells, R. rewrite El. cbn [olist]. perm. }
    destruct (good_own e ts l _ G H) as [_ O].
    eapply tri_bind.
    { eapply tri_perm; [|apply (tri_add_list q' KLoc p es r (f_locs b)
        (R ++ all_cells (replace (replace ts1 l Gone) f Gone) ++ leak_cells L)); [now left|exact O|apply Gr]].
      rewrite (take_cells ts1 l _ H1), P1. cbn [thing_cells]. perm. }
    intros [] q2 C2 [-> [es' [-> O']]].
    destruct (post_counts e ts1 L (AddLocs l f) l KLoc p es es' (proj1 M) H1 O' eq_refl q')
      as [ts2 [X [E1 [E2 [E3 [E4 [E5 E6]]]]]]].
    eapply tri_ret_perm with (D := all_cells (replace ts1 l (Counts KLoc p es')) ++ leak_cells L).
    { rewrite (replace_cells ts1 l _ (Counts KLoc p es') H1), P1. cbn [thing_cells]. perm. }
    exists ts2, X. split; [exact E1|]. split; [exact E2|]. split; [rewrite E3; apply M|].
    split; [exact E4|]. split; [|exact E6].
    intros n x y Hn N. cbn [disturbs] in N. apply Nat.eqb_neq in N.
    destruct (E5 n x y) as [z [Z1 Z2]].
    + rewrite (proj1 (proj2 (proj2 M))) by congruence. exact Hn.
    + cbn. now apply Nat.eqb_neq.
    + exists z. auto.
  - (* Compact *)
    apply when_some in A. destruct A as [A ->]. apply at_counts in A. destruct A as [p [es H]].
    eapply tri_handle; [exact (good_at e ts l _ _ G H eq_refl)|]. unfold creates.
    destruct (good_own e ts l _ G H) as [K O].
    eapply tri_on with (P := fun r q' t' X => exists es', t' = Counts k p es /\ X = list_cells k r es' /\
      Forall (entry_ok k) es'); [exact H| |].
    { eapply tri_weaken; [apply tri_compact; [exact K|exact O]|].
      intros r q' C' [-> [es' [-> O']]]. exists (Counts k p es), (list_cells k r es').
      split; [reflexivity|]. now exists es'. }
    intros r q' t' X [es' [-> [-> O']]]. rewrite (replace_self _ ts l _ H).
    eapply tri_ret_perm; [|eapply (post_made e (fun _ => False) ts ts (Counts k r es') r _ [] L G);
      [now apply moved_refl|reflexivity|now split|exact Logic.I|contradiction|reflexivity|reflexivity]].
    rewrite made_cells. cbn [thing_cells app]. perm.
  - (* ShowList *)
    apply when_some in A. destruct A as [A ->]. apply at_counts in A. destruct A as [p [es H]].
    eapply tri_handle; [exact (good_at e ts l _ _ G H eq_refl)|]. unfold keeps. apply tri_assoc.
    destruct (good_own e ts l _ G H) as [K O].
    eapply tri_perm with (D := list_cells k p es ++ all_cells (replace ts l Gone) ++ leak_cells L).
    { rewrite (take_cells ts l _ H). cbn [thing_cells]. perm. }
    eapply tri_bind; [apply tri_sort_list; [exact K|exact O]|].
    intros [] q2 C2 [-> [es' [-> O']]].
    eapply tri_bind.
    { apply (tri_walk_list _ _ _ _ p es').
      - apply incl_left.
      - rewrite app_length. pose proof (list_cells_length k p es'). lia.
      - apply tri_see_count; [exact K|exact O']. }
    intros [] q3 C3 [-> ->].
    eapply tri_ret_perm; [|apply (post_counts e ts L (ShowList k l) l k p es es' G H O' eq_refl)].
    rewrite (replace_cells ts l _ (Counts k p es') H). cbn [thing_cells]. perm.
  - (* FreeList *)
    apply when_some in A. destruct A as [A ->]. apply at_counts in A. destruct A as [p [es H]].
    eapply tri_handle; [exact (good_at e ts l _ _ G H eq_refl)|].
    destruct (good_own e ts l _ G H) as [K O].
    eapply tri_gone; [exact G|exact H|exact Logic.I|discriminate|reflexivity|].
    cbn [thing_cells]. now apply tri_free_counts.
Qed.
