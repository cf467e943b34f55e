(** Clients of the library: what they hold in the heap of [MemModel]. *)
From Coq Require Import String List Bool Arith Lia Permutation.
From Verif Require Import MemModel MemLogic MemLists MemFiles MemParse MemSpec.
Import ListNotations.
Open Scope string_scope.
Open Scope list_scope.
Open Scope nat_scope.

Inductive thing :=
| Gone
| File (a : afile) (owner : option nat)
| Files (l : ptr) (es : list entry)
| Count (p : ptr) (k : kind) (x : string)
| Counts (k : kind) (l : ptr) (es : list entry).

Definition thing_cells (t : thing) : cells :=
  match t with
  | Gone => []
  | File a _ => file_cells a
  | Files l es => list_cells KFile l es
  | Count p k x => [(p, count_of k x)]
  | Counts k l es => list_cells k l es
  end.

Definition thing_at (t : thing) : option ptr :=
  match t with
  | Gone => None
  | File a _ => Some (f_at a)
  | Files l _ => Some l
  | Count p _ _ => Some p
  | Counts _ l _ => Some l
  end.

Definition track (t : thing) : held :=
  match t with
  | Gone => HGone
  | File _ o => HFile o
  | Files _ _ => HFiles
  | Count _ k _ => HCount k
  | Counts k _ _ => HCounts k
  end.

Definition all_cells (ts : list thing) : cells := flat_map thing_cells ts.

(** The addresses of the files of a list. *)
Definition owned_by (i : nat) (t : thing) : list ptr :=
  match t with File a (Some o) => if o =? i then [f_at a] else [] | _ => [] end.
Definition owned (i : nat) (ts : list thing) : list ptr := flat_map (owned_by i) ts.

Definition thing_ok (ts : list thing) (i : nat) (t : thing) : Prop :=
  match t with
  | Gone => True
  | File a o => file_ok a /\
      match o with Some l => exists p es, nth_error ts l = Some (Files p es) | None => True end
  | Files _ es => Forall (entry_ok KFile) es /\ map e_item es = map Some (owned i ts)
  | Count _ k _ => counts k
  | Counts k _ es => counts k /\ Forall (entry_ok k) es
  end.

Definition good (e : list ptr) (ts : list thing) : Prop :=
  length e = length ts /\
  forall i t, nth_error ts i = Some t ->
    thing_ok ts i t /\ (forall p, thing_at t = Some p -> nth_error e i = Some p).

(** ** Replacing things *)

Lemma replace_cells : forall ts i t t', nth_error ts i = Some t ->
  Permutation (all_cells (replace ts i t')) (thing_cells t' ++ all_cells (replace ts i Gone)).
Proof.
  induction ts as [|x ts IH]; intros [|i] t t' H; cbn in *; try discriminate.
  - reflexivity.
  - unfold all_cells in *. cbn. rewrite (IH _ _ t' H). perm.
Qed.

Lemma replace_self : forall A (l : list A) i a, nth_error l i = Some a -> replace l i a = l.
Proof.
  induction l as [|x l IH]; intros [|i] a H; cbn in *; try discriminate; [congruence|].
  f_equal. now apply IH.
Qed.

Lemma take_cells : forall ts i t, nth_error ts i = Some t ->
  Permutation (all_cells ts) (thing_cells t ++ all_cells (replace ts i Gone)).
Proof.
  intros ts i t H. rewrite <- (replace_self _ ts i t H) at 1. now apply (replace_cells ts i t).
Qed.

Lemma nth_lt : forall A (l : list A) i a, nth_error l i = Some a -> i < length l.
Proof. intros A l i a H. apply nth_error_Some. congruence. Qed.

(** One thing is worked on. *)
Lemma tri_on : forall A B q ts i t F (m : M A) (k : A -> M B)
    (P : A -> queued -> thing -> cells -> Prop) Q,
  nth_error ts i = Some t ->
  tri q (thing_cells t) m (fun r q' C' => exists t' X, C' = thing_cells t' ++ X /\ P r q' t' X) ->
  (forall r q' t' X, P r q' t' X -> tri q' (all_cells (replace ts i t') ++ X ++ F) (k r) Q) ->
  tri q (all_cells ts ++ F) (bind m k) Q.
Proof.
  intros A B q ts i t F m k P Q H T K.
  eapply tri_call with (D := thing_cells t) (F := all_cells (replace ts i Gone) ++ F).
  - rewrite (take_cells ts i t H). perm.
  - exact T.
  - intros r q' D' [t' [X [-> HP]]]. eapply tri_perm; [|apply (K r q' t' X HP)].
    rewrite (replace_cells ts i t t' H). perm.
Qed.

(** The cells of a thing are there. *)
Lemma thing_incl : forall ts i t F, nth_error ts i = Some t ->
  incl (thing_cells t) (all_cells ts ++ F).
Proof.
  intros ts i t F H c I. apply in_left. unfold all_cells. apply in_flat_map. exists t.
  split; [now apply nth_error_In in H|exact I].
Qed.

Lemma put_replace : forall ts i t, map track (replace ts i t) = put (map track ts) i (track t).
Proof. induction ts as [|x ts IH]; intros [|i] t; cbn; auto. now rewrite IH. Qed.

Lemma put_same : forall t i h, nth_error t i = Some h -> put t i h = t.
Proof.
  induction t as [|x t IH]; intros [|i] h H; cbn in *; try discriminate; [congruence|].
  f_equal. now apply IH.
Qed.

Lemma owned_replace : forall ts i n t t', nth_error ts n = Some t ->
  owned_by i t' = owned_by i t -> owned i (replace ts n t') = owned i ts.
Proof.
  induction ts as [|x ts IH]; intros i [|n] t t' H E; cbn in *; try discriminate.
  - injection H as ->. unfold owned. cbn. now rewrite E.
  - unfold owned in *. cbn. now rewrite (IH i n t t' H E).
Qed.

(** Another thing of the same sort at the same place. *)
Definition alike (t t' : thing) : Prop :=
  match t, t' with
  | File a o, File b o' => o' = o /\ f_at b = f_at a
  | Files l es, Files l' es' => l' = l /\ es' = es
  | Count p k _, Count p' k' _ => p' = p /\ k' = k
  | Counts k l _, Counts k' l' _ => k' = k /\ l' = l
  | _, _ => False
  end.

Definition own_ok (t : thing) : Prop :=
  match t with
  | Gone => True
  | File a _ => file_ok a
  | Files _ es => Forall (entry_ok KFile) es
  | Count _ k _ => counts k
  | Counts k _ es => counts k /\ Forall (entry_ok k) es
  end.

Lemma alike_track : forall t t', alike t t' -> track t' = track t.
Proof. intros [| | | |] [| | | |] H; cbn in *; try contradiction; destruct H; subst; reflexivity. Qed.

Lemma alike_at : forall t t', alike t t' -> thing_at t' = thing_at t.
Proof. intros [| | | |] [| | | |] H; cbn in *; try contradiction; destruct H; congruence. Qed.

Lemma alike_owned : forall t t' i, alike t t' -> owned_by i t' = owned_by i t.
Proof.
  intros [|a o| | |] [|b o'| | |] i H; cbn in *; try contradiction; try reflexivity.
  destruct H as [-> ->]. reflexivity.
Qed.

Lemma alike_refl : forall t, t <> Gone -> alike t t.
Proof. intros [| | | |] H; cbn; auto. Qed.

Lemma thing_own : forall ts i t, thing_ok ts i t -> own_ok t.
Proof. intros ts i [| | | |]; cbn; tauto. Qed.

Lemma good_replace : forall e ts i t t', good e ts -> nth_error ts i = Some t ->
  alike t t' -> own_ok t' -> good e (replace ts i t').
Proof.
  intros e ts i t t' [GL G] H A O. split; [now rewrite replace_length|].
  assert (W : forall l p es, nth_error ts l = Some (Files p es) ->
    nth_error (replace ts i t') l = Some (Files p es)).
  { intros l p es Hl. destruct (Nat.eq_dec i l) as [->|D]; [|now rewrite replace_other].
    rewrite H in Hl. injection Hl as ->. rewrite replace_same by now apply nth_lt in H.
    destruct t'; cbn in A; try contradiction. destruct A as [-> ->]. reflexivity. }
  intros j u Hj. destruct (Nat.eq_dec i j) as [->|D].
  - rewrite replace_same in Hj by now apply nth_lt in H. injection Hj as <-.
    destruct (G j t H) as [G1 G2]. split; [|rewrite (alike_at _ _ A); exact G2].
    destruct t, t'; cbn in A; try contradiction; destruct A as [? ?]; subst; cbn in *.
    + split; [exact O|]. destruct G1 as [_ G1]. destruct owner as [l|]; [|exact Logic.I].
      destruct G1 as [p [es G1]]. exists p, es. now apply W.
    + split; [exact O|]. rewrite (owned_replace ts j j _ _ H); [apply G1|reflexivity].
    + exact O.
    + exact O.
  - rewrite replace_other in Hj by exact D. destruct (G j u Hj) as [G1 G2]. split; [|exact G2].
    destruct u; cbn in *; auto.
    + split; [apply G1|]. destruct G1 as [_ G1]. destruct owner as [l|]; [|exact Logic.I].
      destruct G1 as [p [es G1]]. exists p, es. now apply W.
    + split; [apply G1|]. rewrite (owned_replace ts j i t t' H); [apply G1|now apply alike_owned].
Qed.

(** Something new. *)
Lemma owned_app : forall i a b, owned i (a ++ b) = owned i a ++ owned i b.
Proof. intros i a b. apply flat_map_app. Qed.

Lemma flat_map_nil : forall A B (f : A -> list B) l, (forall x, In x l -> f x = []) -> flat_map f l = [].
Proof.
  intros A B f. induction l as [|x l IH]; intros H; [reflexivity|]. cbn.
  rewrite (H x) by now left. apply IH. intros y I. apply H. now right.
Qed.

Lemma owned_none : forall e ts, good e ts -> owned (length ts) ts = [].
Proof.
  intros e ts [_ G]. apply flat_map_nil.
  intros t I. apply In_nth_error in I. destruct I as [n Hn]. destruct (G n t Hn) as [G1 _].
  destruct t as [|a [l|]| | |]; cbn in *; try reflexivity.
  destruct G1 as [_ [p [es G1]]]. apply nth_lt in G1.
  destruct (Nat.eqb_spec l (length ts)); [lia|reflexivity].
Qed.

Lemma good_app : forall e ts t p, good e ts -> thing_at t = Some p -> own_ok t ->
  match t with File _ (Some _) => False | Files _ es => es = [] | _ => True end ->
  good (e ++ [p]) (ts ++ [t]).
Proof.
  intros e ts t p G At O N. pose proof (owned_none e ts G) as Hn. destruct G as [GL G].
  assert (E : forall i, owned i (ts ++ [t]) = owned i ts).
  { intros i. rewrite owned_app. unfold owned at 2. cbn. rewrite app_nil_r.
    destruct t as [|a [o|]| | |]; try contradiction; cbn; now rewrite app_nil_r. }
  assert (W : forall l u, nth_error ts l = Some u -> nth_error (ts ++ [t]) l = Some u).
  { intros l u H. rewrite nth_error_app1; [exact H|now apply nth_lt in H]. }
  split; [rewrite !app_length; cbn; lia|].
  intros i u H. destruct (Nat.lt_ge_cases i (length ts)) as [D|D].
  - rewrite nth_error_app1 in H by exact D. destruct (G i u H) as [G1 G2]. split.
    + destruct u; cbn in *; auto.
      * split; [apply G1|]. destruct G1 as [_ G1]. destruct owner; [|exact Logic.I].
        destruct G1 as [l [es G1]]. exists l, es. now apply W.
      * now rewrite E.
    + intros r Hr. specialize (G2 r Hr). rewrite nth_error_app1; [exact G2|now apply nth_lt in G2].
  - pose proof (nth_lt _ _ _ _ H) as D2. rewrite app_length in D2. cbn in D2.
    assert (i = length ts) as -> by lia.
    rewrite nth_error_app2 in H by lia. rewrite Nat.sub_diag in H. cbn in H. injection H as <-.
    split.
    + destruct t as [|a [o|]| | |]; cbn in *; try contradiction; auto.
      subst es. split; [constructor|]. rewrite E, Hn. reflexivity.
    + intros r Hr. rewrite <- GL. rewrite nth_error_app2 by lia. rewrite Nat.sub_diag. cbn. congruence.
Qed.

Lemma all_cells_app : forall a b, all_cells (a ++ b) = all_cells a ++ all_cells b.
Proof. intros a b. apply flat_map_app. Qed.

(** ** What a call does *)

(** What a call may leave behind. *)
Definition leaves (c : call) (X : list leak) : Prop :=
  match c with
  | Licenses _ => Forall is_text X
  | Diff _ _ => Forall (fun l => ~ is_text l) X
  | LocDelta _ _ _ => exists p x a m N, X = LBlank p x a m :: N /\ Forall is_name N
  | _ => X = []
  end.

(** Files that are not disturbed keep their contents. *)
Definition calm (c : call) (ts ts' : list thing) : Prop :=
  forall n a o, nth_error ts n = Some (File a o) -> disturbs (map track ts) c n = false ->
  exists b, nth_error ts' n = Some (File b o) /\ keeps_contents a b.

Definition post (e : list ptr) (ts : list thing) (L : list leak) (c : call) (t' : list held)
    (e' : list ptr) (q' : queued) (C' : cells) : Prop :=
  exists ts' X, C' = all_cells ts' ++ leak_cells (X ++ L) /\ good e' ts' /\ map track ts' = t' /\
    leaves c X /\ calm c ts ts' /\ exists r, e' = e ++ r.

(** A call that works on one thing. *)
Lemma keeps_refl : forall a, keeps_contents a a.
Proof. now intros a _. Qed.

Lemma calm_replace : forall c ts i t t', nth_error ts i = Some t ->
  (disturbs (map track ts) c i = true \/
   forall a o, t = File a o -> exists b, t' = File b o /\ keeps_contents a b) ->
  calm c ts (replace ts i t').
Proof.
  intros c ts i t t' H D n a o Hn N. destruct (Nat.eq_dec i n) as [->|E].
  - rewrite H in Hn. injection Hn as ->. destruct D as [D|D]; [congruence|].
    destruct (D a o eq_refl) as [b [-> K]]. exists b. split; [|exact K].
    apply replace_same. now apply nth_lt in H.
  - exists a. split; [rewrite replace_other by exact E; exact Hn|apply keeps_refl].
Qed.

Lemma tri_handle : forall B q C e i p (k : ptr -> M B) Q,
  nth_error e i = Some p -> tri q C (k p) Q -> tri q C (bind (handle e i) k) Q.
Proof. intros B q C e i p k Q H K. unfold handle. rewrite H. exact K. Qed.

Lemma good_at : forall e ts i t p, good e ts -> nth_error ts i = Some t -> thing_at t = Some p ->
  nth_error e i = Some p.
Proof. intros e ts i t p [_ G] H A. now apply (proj2 (G i t H)). Qed.

Lemma good_own : forall e ts i t, good e ts -> nth_error ts i = Some t -> own_ok t.
Proof. intros e ts i t [_ G] H. eapply thing_own. exact (proj1 (G i t H)). Qed.

Lemma at_track : forall p ts i, at_ p (map track ts) i = true ->
  exists t, nth_error ts i = Some t /\ p (track t) = true.
Proof.
  intros p ts i H. unfold at_ in H. rewrite nth_error_map in H.
  destruct (nth_error ts i) as [t|]; [|discriminate]. now exists t.
Qed.

Lemma at_file : forall ts i, at_ is_file (map track ts) i = true ->
  exists a o, nth_error ts i = Some (File a o).
Proof.
  intros ts i H. apply at_track in H. destruct H as [[|a o| | |] [H1 H2]]; try discriminate.
  now exists a, o.
Qed.

Lemma tri_file_call : forall A q e ts L i a o c (m : ptr -> M A),
  good e ts -> nth_error ts i = Some (File a o) ->
  tri q (file_cells a) (m (f_at a)) (fun _ _ C' => exists b X,
    C' = file_cells b ++ leak_cells X /\ file_ok b /\ f_at b = f_at a /\
    (disturbs (map track ts) c i = false -> keeps_contents a b) /\ leaves c X) ->
  tri q (all_cells ts ++ leak_cells L) (bind (handle e i) (fun p => keeps e (m p)))
    (post e ts L c (map track ts)).
Proof.
  intros A q e ts L i a o c m G H T.
  eapply tri_handle; [eapply good_at; [exact G|exact H|reflexivity]|]. unfold keeps.
  eapply tri_on with (P := fun r q' t' X => exists b Y, t' = File b o /\ X = leak_cells Y /\
    file_ok b /\ f_at b = f_at a /\
    (disturbs (map track ts) c i = false -> keeps_contents a b) /\ leaves c Y); [exact H| |].
  - eapply tri_weaken; [exact T|]. intros r q' C' [b [X [-> P]]]. exists (File b o), (leak_cells X).
    split; [reflexivity|]. exists b, X. auto.
  - intros r q' t' X [b [Y [-> [-> [O [Ea [K Lv]]]]]]]. apply tri_ret.
    assert (Al : alike (File a o) (File b o)) by (split; [reflexivity|exact Ea]).
    exists (replace ts i (File b o)), Y. split; [now rewrite leak_cells_app|].
    split; [eapply good_replace; [exact G|exact H|exact Al|exact O]|].
    split; [|split; [exact Lv|split; [|exists []; now rewrite app_nil_r]]].
    + rewrite put_replace, (alike_track _ _ Al). apply put_same. rewrite nth_error_map, H. reflexivity.
    + eapply calm_replace; [exact H|].
      destruct (disturbs (map track ts) c i); [now left|right].
      intros a' o' E. injection E as <- <-. exists b. split; [reflexivity|now apply K].
Qed.

Lemma fetched_post : forall a b, file_ok a -> fetched a b ->
  file_ok b /\ f_at b = f_at a /\ keeps_contents a b.
Proof.
  intros a b O Fb. destruct (fetched_later _ _ Fb) as [L [K [_ [_ H]]]].
  split; [now apply H|]. split; [apply L|exact K].
Qed.

(** ** A call that makes something *)
Lemma tri_create : forall q e ts L c h (m : M ptr),
  good e ts -> leaves c [] ->
  tri q (leak_cells L) m (fun p _ C' => exists t, C' = thing_cells t ++ leak_cells L /\
    thing_at t = Some p /\ own_ok t /\ track t = h /\
    match t with File _ (Some _) => False | Files _ es => es = [] | _ => True end) ->
  tri q (all_cells ts ++ leak_cells L) (creates e m) (post e ts L c (map track ts ++ [h])).
Proof.
  intros q e ts L c h m G Lv T. unfold creates.
  eapply tri_call with (D := leak_cells L) (F := all_cells ts); [apply Permutation_app_comm|exact T|].
  intros p q' D' [t [-> [At [O [<- N]]]]].
  eapply tri_ret_perm with (D := all_cells (ts ++ [t]) ++ leak_cells ([] ++ L)).
  { rewrite all_cells_app. change (all_cells [t]) with (thing_cells t ++ []). cbn [app]. perm. }
  exists (ts ++ [t]), []. split; [reflexivity|]. split; [now apply good_app|].
  split; [now rewrite map_app|]. split; [exact Lv|]. split; [|now exists [p]].
  intros n a o Hn _. exists a. split; [|apply keeps_refl].
  rewrite nth_error_app1; [exact Hn|now apply nth_lt in Hn].
Qed.

(** ** Files that learn more *)

Definition moved (e : list ptr) (S : nat -> Prop) (ts ts' : list thing) : Prop :=
  good e ts' /\ map track ts' = map track ts /\
  (forall n, ~ S n -> nth_error ts' n = nth_error ts n) /\
  (forall n a o, nth_error ts n = Some (File a o) ->
     exists b, nth_error ts' n = Some (File b o) /\ later a b).

Lemma moved_refl : forall e S ts, good e ts -> moved e S ts ts.
Proof.
  intros e S ts G. split; [exact G|]. split; [reflexivity|]. split; [reflexivity|].
  intros n a o H. exists a. split; [exact H|apply later_refl].
Qed.

Lemma moved_trans : forall e S a b c, moved e S a b -> moved e S b c -> moved e S a c.
Proof.
  intros e S a b c [A1 [A2 [A3 A4]]] [B1 [B2 [B3 B4]]]. split; [exact B1|]. split; [congruence|].
  split; [intros n N; rewrite (B3 n N); now apply A3|].
  intros n x o H. destruct (A4 n x o H) as [y [Hy Ly]]. destruct (B4 n y o Hy) as [z [Hz Lz]].
  exists z. split; [exact Hz|]. eapply later_trans; eassumption.
Qed.

Lemma moved_replace : forall e (S : nat -> Prop) ts i a b o, good e ts ->
  nth_error ts i = Some (File a o) -> S i -> grown a b ->
  moved e S ts (replace ts i (File b o)) /\ nth_error (replace ts i (File b o)) i = Some (File b o).
Proof.
  intros e S ts i a b o G H Si [Ob Lb].
  assert (Al : alike (File a o) (File b o)) by (split; [reflexivity|apply Lb]).
  pose proof (nth_lt _ _ _ _ H) as Li.
  split; [|now apply replace_same]. split; [eapply good_replace; [exact G|exact H|exact Al|exact Ob]|].
  split; [rewrite put_replace, (alike_track _ _ Al); apply put_same; rewrite nth_error_map, H; reflexivity|].
  split; [intros n N; apply replace_other; intros ->; contradiction|].
  intros n x y Hn. destruct (Nat.eq_dec i n) as [<-|D].
  - rewrite H in Hn. injection Hn as <- <-. exists b. split; [now apply replace_same|exact Lb].
  - exists x. split; [now rewrite replace_other|apply later_refl].
Qed.

Lemma tri_parsed_at : forall B q e (S : nat -> Prop) ts i a o F (k : ptr -> M B) Q,
  good e ts -> nth_error ts i = Some (File a o) -> S i ->
  (forall l q' ts' b, moved e S ts ts' -> nth_error ts' i = Some (File b o) -> file_ok b ->
     languages (f_src b) = Some l -> tri q' (all_cells ts' ++ F) (k l) Q) ->
  tri q (all_cells ts ++ F) (bind (parsed (f_at a)) k) Q.
Proof.
  intros B q e S ts i a o F k Q G H Si K.
  eapply tri_on with (P := fun l q' t' X => exists b, t' = File b o /\ X = [] /\ grown a b /\
    languages (f_src b) = Some l); [exact H| |].
  - eapply tri_weaken; [apply tri_parsed; exact (good_own e ts i _ G H)|].
    intros l q' C' [b [S1 [El ->]]]. exists (File b o), []. split; [now rewrite app_nil_r|].
    exists b. split; [reflexivity|]. split; [reflexivity|]. split; [|exact El].
    split; [apply S1|apply S1].
  - intros l q' t' X [b [-> [-> [Gr El]]]]. cbn [app].
    destruct (moved_replace e S ts i a b o G H Si Gr) as [M1 M2].
    apply (K l q' _ b M1 M2); [apply Gr|exact El].
Qed.

(** ** Differences *)

Lemma own_incl : forall k l es e, In e es -> incl (e_own e) (list_cells k l es).
Proof.
  intros k l es e H. destruct es as [|x es]; [contradiction|]. cbn [list_cells].
  destruct H as [->|H]; [apply incl_tl; apply incl_left|].
  apply incl_tl. apply incl_appr. induction es as [|y es IH]; [contradiction|]. cbn [seg].
  destruct H as [->|H]; [apply incl_tl; apply incl_left|]. apply incl_tl. apply incl_appr. now apply IH.
Qed.

(** A language: one in [F], or one of a file that has been parsed. *)
Definition lang_in (ts : list thing) (F : cells) (r : ptr) : Prop :=
  (exists y c m, incl [(r, Language y c m); (c, Bytes CodeText); (m, Bytes CommentText)] F) \/
  exists n a o en, nth_error ts n = Some (File a o) /\ languages (f_src a) <> None /\
    In en (f_langs a) /\ e_item en = Some r.

Lemma lang_in_moved : forall e S ts ts' F r, moved e S ts ts' -> lang_in ts F r -> lang_in ts' F r.
Proof.
  intros e S ts ts' F r [_ [_ [_ M]]] [H|[n [a [o [en [H1 [H2 [H3 H4]]]]]]]]; [now left|right].
  destruct (M n a o H1) as [b [Hb Lb]]. exists n, b, o, en. split; [exact Hb|].
  destruct Lb as [_ [_ [_ [Ll _]]]]. destruct (Ll H2) as [E1 E2].
  split; [now rewrite E1|]. split; [now rewrite E2|exact H4].
Qed.

Lemma lang_in_cells : forall e ts F r, good e ts -> lang_in ts F r ->
  exists y c m, incl [(r, Language y c m); (c, Bytes CodeText); (m, Bytes CommentText)] (all_cells ts ++ F).
Proof.
  intros e ts F r G [[y [c [m H]]]|[n [a [o [en [H1 [H2 [H3 H4]]]]]]]].
  - exists y, c, m. now apply incl_appr.
  - destruct (languages (f_src a)) as [l|] eqn:El; [|congruence].
    pose proof (good_own e ts n _ G H1) as [O _]. rewrite Forall_forall in O.
    destruct (O en H3) as [i [y [c [m [E1 E2]]]]]. rewrite H4 in E1. injection E1 as <-.
    exists y, c, m. rewrite <- E2. eapply incl_tran; [apply (own_incl KLanguage l); exact H3|].
    apply file_langs; [apply (thing_incl ts n (File a o) F H1)|exact El].
Qed.

Lemma file_perm : forall ts i a o l F, nth_error ts i = Some (File a o) ->
  languages (f_src a) = Some l ->
  exists D, Permutation (all_cells ts ++ F) (list_cells KLanguage l (f_langs a) ++ D).
Proof.
  intros ts i a o l F H E. exists (rest_cells a ++ all_cells (replace ts i Gone) ++ F).
  rewrite (take_cells ts i _ H). cbn [thing_cells]. rewrite <- (re_langs_same a) at 1.
  rewrite (file_rest a l _ E). perm.
Qed.

Lemma tri_side : forall B q e (S : nat -> Prop) ts i a o x bl F (k : ptr -> M B) Q,
  good e ts -> nth_error ts i = Some (File a o) -> S i ->
  (forall ts', lang_in ts' F bl) ->
  (forall r q' ts', moved e S ts ts' -> lang_in ts' F r -> tri q' (all_cells ts' ++ F) (k r) Q) ->
  tri q (all_cells ts ++ F) (bind (side (f_at a) x bl) k) Q.
Proof.
  intros B q e S ts i a o x bl F k Q G H Si Hb K. unfold side. apply tri_assoc.
  eapply tri_parsed_at; [exact G|exact H|exact Si|]. intros l q' ts' b M Hi Ob El.
  apply tri_assoc. eapply tri_list_head.
  { apply file_langs; [apply (thing_incl ts' i (File b o) F Hi)|exact El]. }
  intros n En. rewrite En. apply tri_assoc.
  eapply tri_find_name; [now left|eapply file_perm; [exact Hi|exact El]|apply Ob|].
  intros [j|] Hr.
  - destruct Hr as [m [en [H1 [H2 [H3 H4]]]]].
    apply tri_assoc. eapply tri_load_node; [exact H2|]. rewrite H3.
    destruct Ob as [Ob _]. rewrite Forall_forall in Ob. destruct (Ob en H1) as [r [y [c [w [E1 E2]]]]].
    rewrite E1. apply tri_deref. apply K; [exact M|]. right. exists i, b, o, en.
    split; [exact Hi|]. split; [congruence|]. auto.
  - apply tri_ret_bind. apply K; [exact M|apply Hb].
Qed.

Lemma tri_loc_delta : forall B q e (S : nat -> Prop) ts i j a b o o' x F (k : ptr -> M B) Q,
  good e ts -> nth_error ts i = Some (File a o) -> nth_error ts j = Some (File b o') -> S i -> S j ->
  (forall d p c m N q' ts', moved e S ts ts' -> Forall is_name N ->
     tri q' (all_cells ts' ++ [(d, count_of KDelta x)] ++ leak_cells (LBlank p x c m :: N) ++ F) (k d) Q) ->
  tri q (all_cells ts ++ F) (bind (calc_loc_delta (f_at a) x (f_at b)) k) Q.
Proof.
  intros B q e S ts i j a b o o' x F k Q G Hi Hj Si Sj K. unfold calc_loc_delta, count_new.
  apply tri_assoc. apply tri_alloc. intros d. apply tri_assoc. apply tri_language_new. intros bl bc bm.
  set (F1 := [(bl, Language x bc bm); (bc, Bytes CodeText); (bm, Bytes CommentText)]
             ++ [(d, count_of KDelta x)] ++ F).
  eapply tri_perm with (D := all_cells ts ++ F1); [unfold F1; perm|].
  assert (Hb : forall ts', lang_in ts' F1 bl).
  { intros ts'. left. exists x, bc, bm. apply incl_left. }
  apply tri_assoc. eapply tri_side; [exact G|exact Hi|exact Si|exact Hb|]. intros r1 q1 t1 M1 L1.
  apply tri_assoc.
  assert (Hj1 : exists b1, nth_error t1 j = Some (File b1 o') /\ f_at b1 = f_at b).
  { destruct M1 as [_ [_ [_ M1]]]. destruct (M1 j b o' Hj) as [b1 [H1 H2]]. exists b1.
    split; [exact H1|apply H2]. }
  destruct Hj1 as [b1 [Hj1 <-]].
  eapply tri_side; [exact (proj1 M1)|exact Hj1|exact Sj|exact Hb|]. intros r2 q2 t2 M2 L2.
  pose proof (moved_trans _ _ _ _ _ M1 M2) as M3.
  apply (lang_in_moved _ _ _ _ _ _ M2) in L1.
  destruct (lang_in_cells e t2 F1 r1 (proj1 M2) L1) as [y1 [c1 [m1 I1]]].
  destruct (lang_in_cells e t2 F1 r2 (proj1 M2) L2) as [y2 [c2 [m2 I2]]].
  assert (J1 : forall X, incl [(r1, Language y1 c1 m1); (c1, Bytes CodeText); (m1, Bytes CommentText)]
    (X ++ all_cells t2 ++ F1)) by (intros X; now apply incl_appr).
  assert (J2 : forall X, incl [(r2, Language y2 c2 m2); (c2, Bytes CodeText); (m2, Bytes CommentText)]
    (X ++ all_cells t2 ++ F1)) by (intros X; now apply incl_appr).
  apply tri_assoc. eapply tri_load_language; [apply (J1 []); now left|]. cbv beta iota.
  apply tri_assoc. eapply tri_load_language; [apply (J2 []); now left|]. cbv beta iota.
  apply tri_assoc. eapply tri_calc_diff; [apply (J1 []); right; now left|apply (J2 []); right; now left|].
  intros N1 HN1. apply tri_assoc.
  assert (Jd : forall X, In (d, count_of KDelta x) (X ++ all_cells t2 ++ F1)).
  { intros X. do 2 apply in_right. unfold F1. apply in_right. now left. }
  eapply tri_load_name; [apply Jd|reflexivity|].
  apply tri_assoc. eapply tri_store with (o := count_of KDelta x).
  { instantiate (1 := leak_cells N1 ++ all_cells t2
      ++ [(bl, Language x bc bm); (bc, Bytes CodeText); (bm, Bytes CommentText)] ++ F). unfold F1. perm. }
  eapply tri_perm with (D := leak_cells N1 ++ all_cells t2 ++ F1).
  { unfold F1. cbn [count_of]. perm. }
  apply tri_assoc. eapply tri_calc_diff; [apply J1; do 2 right; now left|apply J2; do 2 right; now left|].
  intros N2 HN2. apply tri_assoc.
  rewrite app_assoc. eapply tri_load_name; [apply Jd|reflexivity|].
  apply tri_assoc. eapply tri_store with (o := count_of KDelta x).
  { instantiate (1 := (leak_cells N2 ++ leak_cells N1) ++ all_cells t2
      ++ [(bl, Language x bc bm); (bc, Bytes CodeText); (bm, Bytes CommentText)] ++ F). unfold F1. perm. }
  apply tri_ret_bind.
  eapply tri_perm; [|apply (K d bl bc bm (N2 ++ N1) q2 t2 M3); now apply Forall_app].
  change (leak_cells (LBlank bl x bc bm :: N2 ++ N1)) with
    ([(bl, Language x bc bm); (bc, Bytes CodeText); (bm, Bytes CommentText)] ++ leak_cells (N2 ++ N1)).
  rewrite leak_cells_app. cbn [count_of]. perm.
Qed.

Lemma not_texts : forall p x c m N, Forall is_name N ->
  Forall (fun l => ~ is_text l) (LBlank p x c m :: N).
Proof.
  intros p x c m N H. constructor; [intros []|]. eapply Forall_impl; [|exact H].
  intros [r|r|r y u v]; cbn; tauto.
Qed.

Lemma tri_diff_loop : forall e (S : nat -> Prop) i j p p' again dl z l (LS : list entry),
  nth_error e i = Some p -> nth_error e j = Some p' -> S i -> S j -> z = i \/ z = j ->
  forall es iter n q ts L ds a o a1 o1 a2 o2,
  good e ts -> nth_error ts z = Some (File a o) -> languages (f_src a) = Some l -> f_langs a = LS ->
  nth_error ts i = Some (File a1 o1) -> nth_error ts j = Some (File a2 o2) ->
  chain (list_cells KLanguage l LS) KLanguage es iter -> Forall (entry_ok KLanguage) es ->
  length es < n -> Forall (entry_ok KDelta) ds ->
  tri q (all_cells ts ++ list_cells KDelta dl ds ++ leak_cells L) (diff_loop n again dl p p' iter)
    (fun _ _ C' => exists ts' ds' X,
      C' = all_cells ts' ++ list_cells KDelta dl ds' ++ leak_cells (X ++ L) /\ moved e S ts ts' /\
      Forall (entry_ok KDelta) ds' /\ Forall (fun l => ~ is_text l) X).
Proof.
  intros e S i j p p' again dl z l LS Ei Ej Si Sj Z.
  induction es as [|en es IH]; intros iter n q ts L ds a o a1 o1 a2 o2 G Hz El Es Hi Hj Hc O N Hd;
    (destruct n as [|n]; [cbn in N; lia|]).
  - cbn in Hc. subst iter. cbn [diff_loop]. apply tri_ret. exists ts, ds, []. split; [reflexivity|].
    split; [now apply moved_refl|]. split; [exact Hd|constructor].
  - destruct Hc as [jn [nd [-> [H1 [H2 [H3 H4]]]]]]. cbn [diff_loop].
    apply Forall_cons_iff in O. destruct O as [[it [x [c [m [E1 E2]]]]] O]. rewrite E2 in H3.
    assert (Lc : forall ts' a' F, nth_error ts' z = Some (File a' o) -> later a a' ->
      incl (list_cells KLanguage l LS) (all_cells ts' ++ F)).
    { intros ts' a' F Hz' La. destruct La as [_ [_ [_ [La _]]]].
      destruct La as [La1 La2]; [congruence|]. rewrite <- Es, <- La2.
      apply file_langs; [apply (thing_incl ts' z (File a' o) F Hz')|congruence]. }
    pose proof (fun F => Lc ts a F Hz (later_refl a)) as Lc0.
    eapply tri_load_node; [apply Lc0; exact H1|]. rewrite H2, E1. apply tri_deref.
    eapply tri_load_name; [apply Lc0; apply H3; now left|now exists c, m|].
    eapply tri_bind with (Q := fun _ q' C' => q' = q /\
      C' = all_cells ts ++ list_cells KDelta dl ds ++ leak_cells L).
    { destruct again; [|now apply tri_ret].
      eapply tri_list_head; [apply incl_appr; apply incl_left|]. intros r Er. rewrite Er.
      eapply tri_find_name; [right; now right| |exact Hd|].
      - exists (all_cells ts ++ leak_cells L). perm.
      - intros r' _. now apply tri_ret. }
    intros skip q' C' [-> ->].
    eapply tri_bind with (Q := fun _ _ C' => exists ts' ds' X,
      C' = all_cells ts' ++ list_cells KDelta dl ds' ++ leak_cells (X ++ L) /\ moved e S ts ts' /\
      Forall (entry_ok KDelta) ds' /\ Forall (fun l => ~ is_text l) X).
    { destruct skip.
      - apply tri_ret. exists ts, ds, []. split; [reflexivity|].
        split; [now apply moved_refl|]. split; [exact Hd|constructor].
      - pose proof (good_at e ts i _ _ G Hi eq_refl) as Pi. rewrite Ei in Pi. injection Pi as Pi.
        pose proof (good_at e ts j _ _ G Hj eq_refl) as Pj. rewrite Ej in Pj. injection Pj as Pj.
        rewrite Pi, Pj.
        eapply tri_loc_delta; [exact G|exact Hi|exact Hj|exact Si|exact Sj|].
        intros d bp bc bm N1 q1 ts1 M1 HN1.
        set (X := LBlank bp x bc bm :: N1).
        eapply tri_perm with (D := ((d, count_of KDelta x) :: all_cells ts1 ++ leak_cells (X ++ L))
          ++ list_cells KDelta dl ds); [rewrite leak_cells_app; perm|].
        eapply tri_bind.
        { apply (tri_list_add q1 KDelta dl ds _ d x); [now right|exact Hd|now left]. }
        intros [] q2 C2 [-> [ds' [-> Hd']]]. unfold count_free, free_opt. apply tri_unbind. cbn [app].
        eapply tri_free; [reflexivity|].
        eapply tri_ret_perm with (D := all_cells ts1 ++ list_cells KDelta dl ds' ++ leak_cells (X ++ L)); [perm|].
        exists ts1, ds', X. split; [reflexivity|]. split; [exact M1|]. split; [exact Hd'|].
        now apply not_texts. }
    intros [] q' C' [ts1 [ds1 [X [-> [M1 [Hd1 HX]]]]]].
    destruct (proj2 (proj2 (proj2 M1)) z a o Hz) as [a' [Hz' La]].
    destruct (proj2 (proj2 (proj2 M1)) i a1 o1 Hi) as [a1' [Hi' La1]].
    destruct (proj2 (proj2 (proj2 M1)) j a2 o2 Hj) as [a2' [Hj' La2]].
    eapply tri_load_node; [apply (Lc ts1 a' _ Hz' La); exact H1|].
    pose proof La as [_ [_ [_ [La3 _]]]]. destruct La3 as [La3 La4]; [congruence|].
    eapply tri_weaken.
    + apply (IH (next nd) n q' ts1 (X ++ L) ds1 a' o a1' o1 a2' o2); auto;
        [exact (proj1 M1)|congruence|congruence|cbn in N; lia].
    + intros [] q2 C2 [ts2 [ds2 [X2 [-> [M2 [Hd2 HX2]]]]]].
      exists ts2, ds2, (X2 ++ X). split; [now rewrite <- (app_assoc X2 X L)|].
      split; [eapply moved_trans; eassumption|]. split; [exact Hd2|now apply Forall_app].
Qed.

Lemma chain_list : forall k l es, chain (list_cells k l es) k es (head_of l es).
Proof. intros k l es. apply list_chain. apply incl_refl. Qed.

Lemma cells_length : forall ts i a o l F, nth_error ts i = Some (File a o) ->
  languages (f_src a) = Some l -> length (f_langs a) <= length (all_cells ts ++ F).
Proof.
  intros ts i a o l F H E. destruct (file_perm ts i a o l F H E) as [D P].
  rewrite (Permutation_length P), app_length.
  pose proof (list_cells_length KLanguage l (f_langs a)). lia.
Qed.

Lemma tri_diff : forall q e (S : nat -> Prop) ts i j a b o o' L,
  good e ts -> nth_error ts i = Some (File a o) -> nth_error ts j = Some (File b o') -> S i -> S j ->
  tri q (all_cells ts ++ leak_cells L) (diff (f_at a) (f_at b)) (fun l _ C' => exists ts' ds X,
    C' = all_cells ts' ++ list_cells KDelta l ds ++ leak_cells (X ++ L) /\ moved e S ts ts' /\
    Forall (entry_ok KDelta) ds /\ Forall (fun l => ~ is_text l) X).
Proof.
  intros q e S ts i j a b o o' L G Hi Hj Si Sj. unfold diff, list_new.
  pose proof (good_at e ts i _ _ G Hi eq_refl) as Ei.
  pose proof (good_at e ts j _ _ G Hj eq_refl) as Ej.
  apply tri_alloc. intros dl.
  eapply tri_perm with (D := all_cells ts ++ list_cells KDelta dl [] ++ leak_cells L); [cbn [list_cells]; perm|].
  eapply tri_parsed_at; [exact G|exact Hi|exact Si|]. intros l1 q1 t1 a1 M1 Hi1 Oa1 El1.
  destruct (proj2 (proj2 (proj2 M1)) j b o' Hj) as [b1 [Hj1 Lb1]].
  eapply tri_list_head; [apply file_langs; [apply (thing_incl t1 i (File a1 o) _ Hi1)|exact El1]|].
  intros n1 En1. rewrite En1. apply tri_fuel. intros m1 Hm1.
  eapply tri_bind.
  { eapply (tri_diff_loop e S i j _ _ false dl i l1 (f_langs a1) Ei Ej Si Sj (or_introl eq_refl)
      (f_langs a1) _ m1 q1 t1 L [] a1 o a1 o b1 o'); auto.
    - exact (proj1 M1).
    - apply chain_list.
    - apply Oa1.
    - eapply Nat.le_lt_trans; [|exact Hm1]. rewrite app_length.
      pose proof (cells_length t1 i a1 o l1 (list_cells KDelta dl [] ++ leak_cells L) Hi1 El1). lia. }
  intros [] q2 C2 [t2 [ds2 [X2 [-> [M2 [Hd2 HX2]]]]]].
  destruct (proj2 (proj2 (proj2 M2)) i a1 o Hi1) as [a2 [Hi2 La2]].
  destruct (proj2 (proj2 (proj2 M2)) j b1 o' Hj1) as [b2 [Hj2 Lb2]].
  replace (f_at b) with (f_at b2) by (rewrite (proj1 Lb2); apply Lb1).
  eapply tri_parsed_at; [exact (proj1 M2)|exact Hj2|exact Sj|]. intros l3 q3 t3 b3 M3 Hj3 Ob3 El3.
  destruct (proj2 (proj2 (proj2 M3)) i a2 o Hi2) as [a3 [Hi3 La3]].
  eapply tri_list_head; [apply file_langs; [apply (thing_incl t3 j (File b3 o') _ Hj3)|exact El3]|].
  intros n3 En3. rewrite En3. apply tri_fuel. intros m3 Hm3.
  assert (Ej' : nth_error e j = Some (f_at b2)) by (rewrite (proj1 Lb2), (proj1 Lb1); exact Ej).
  eapply tri_bind.
  { eapply (tri_diff_loop e S i j _ _ true dl j l3 (f_langs b3) Ei Ej' Si Sj (or_intror eq_refl)
      (f_langs b3) _ m3 q3 t3 (X2 ++ L) ds2 b3 o' a3 o b3 o'); auto.
    - exact (proj1 M3).
    - apply chain_list.
    - apply Ob3.
    - eapply Nat.le_lt_trans; [|exact Hm3]. rewrite app_length.
      pose proof (cells_length t3 j b3 o' l3 (list_cells KDelta dl ds2 ++ leak_cells (X2 ++ L)) Hj3 El3). lia. }
  intros [] q4 C4 [t4 [ds4 [X4 [-> [M4 [Hd4 HX4]]]]]].
  apply tri_ret. exists t4, ds4, (X4 ++ X2). split; [now rewrite <- (app_assoc X4 X2 L)|].
  split; [|split; [exact Hd4|now apply Forall_app]].
  eapply moved_trans; [exact M1|]. eapply moved_trans; [exact M2|]. eapply moved_trans; eassumption.
Qed.

Lemma moved_calm : forall e S ts ts' u c, moved e S ts ts' ->
  (forall n, S n -> disturbs (map track ts) c n = true) -> calm c ts (ts' ++ u).
Proof.
  intros e S ts ts' u c [_ [_ [M _]]] D n a o H N.
  assert (H' : nth_error ts' n = Some (File a o)).
  { rewrite M; [exact H|]. intros Sn. rewrite (D n Sn) in N. discriminate. }
  exists a. split; [|apply keeps_refl]. rewrite nth_error_app1; [exact H'|now apply nth_lt in H'].
Qed.

(** ** Lists of files *)

Lemma owned_in : forall ts i f, In f (owned i ts) ->
  exists n a, nth_error ts n = Some (File a (Some i)) /\ f_at a = f.
Proof.
  intros ts i f H. unfold owned in H. apply in_flat_map in H. destruct H as [t [I H]].
  apply In_nth_error in I. destruct I as [n Hn]. destruct t as [|a [o|]| | |]; cbn in H; try contradiction.
  destruct (Nat.eqb_spec o i) as [->|]; [|contradiction]. destruct H as [<-|[]]. now exists n, a.
Qed.

Lemma files_item : forall e ts i lp es en, good e ts -> nth_error ts i = Some (Files lp es) -> In en es ->
  exists f n a, e_item en = Some f /\ nth_error ts n = Some (File a (Some i)) /\ f_at a = f.
Proof.
  intros e ts i lp es en [_ G] H I. destruct (G i _ H) as [[G1 G2] _].
  assert (J : In (e_item en) (map Some (owned i ts))) by (rewrite <- G2; now apply in_map).
  apply in_map_iff in J. destruct J as [f [E J]]. destruct (owned_in ts i f J) as [n [a [Hn Ha]]].
  exists f, n, a. auto.
Qed.

(** The files of the list with number [i]. *)
Definition of_files (ts : list thing) (i n : nat) : Prop := at_ (of_list i) (map track ts) n = true.

Lemma of_files_file : forall ts i n a, nth_error ts n = Some (File a (Some i)) -> of_files ts i n.
Proof.
  intros ts i n a H. unfold of_files, at_. rewrite nth_error_map, H. cbn. apply Nat.eqb_refl.
Qed.

Lemma not_of_files : forall ts i n lp es, nth_error ts n = Some (Files lp es) -> ~ of_files ts i n.
Proof.
  intros ts i n lp es H. unfold of_files, at_. rewrite nth_error_map, H. discriminate.
Qed.

Lemma tri_analyze_loop : forall e i lp es0 r ts0,
  nth_error ts0 i = Some (Files lp es0) ->
  forall es iter n q ts os F,
  good e ts -> moved e (of_files ts0 i) ts0 ts ->
  chain (list_cells KFile lp es0) KFile es iter -> incl es es0 ->
  length es < n -> Forall (entry_ok KLoc) os ->
  tri q (all_cells ts ++ F ++ list_cells KLoc r os) (analyze_loop n r iter) (fun _ _ C' =>
    exists ts' os', C' = all_cells ts' ++ F ++ list_cells KLoc r os' /\
      moved e (of_files ts0 i) ts0 ts' /\ Forall (entry_ok KLoc) os').
Proof.
  intros e i lp es0 r ts0 H0. induction es as [|en es IH]; intros iter n q ts os F G M Hc I N Ho;
    (destruct n as [|n]; [cbn in N; lia|]).
  - cbn in Hc. subst iter. cbn [analyze_loop]. apply tri_ret. exists ts, os. auto.
  - destruct Hc as [p [nd [-> [H1 [H2 [_ H4]]]]]]. cbn [analyze_loop].
    assert (HF : forall ts', moved e (of_files ts0 i) ts0 ts' -> nth_error ts' i = Some (Files lp es0)).
    { intros ts' [_ [_ [M' _]]]. rewrite M'; [exact H0|]. now apply (not_of_files ts0 i i lp es0). }
    destruct (files_item e ts i lp es0 en G (HF ts M) (I en (or_introl eq_refl))) as [f [k [a [E1 [E2 E3]]]]].
    eapply tri_load_node; [apply (thing_incl ts i _ _ (HF ts M)); exact H1|].
    rewrite H2, E1. apply tri_deref. subst f.
    assert (Sk : of_files ts0 i k).
    { apply of_files_file in E2. unfold of_files in *. now rewrite <- (proj1 (proj2 M)). }
    eapply tri_on with (P := fun l q' t' X => exists b, t' = File b (Some i) /\ X = [] /\ grown a b /\
      locs (f_src b) = Some l); [exact E2| |].
    { eapply tri_weaken; [apply tri_get_locs; exact (good_own e ts k _ G E2)|].
      intros l q' C' [b [-> [Gr El]]]. exists (File b (Some i)), []. split; [now rewrite app_nil_r|].
      exists b. auto. }
    intros l q' t' X [b [-> [-> [Gr El]]]]. cbn [app].
    destruct (moved_replace e (of_files ts0 i) ts k a b (Some i) G E2 Sk Gr) as [M1 Hk].
    set (ts1 := replace ts k (File b (Some i))) in *.
    pose proof (moved_trans _ _ _ _ _ M M1) as M2.
    set (R := (f_at b, Source (f_src b)) :: (filepath (f_src b), Bytes Filepath)
      :: opt_cell (diskpath (f_src b)) Diskpath ++ opt_cell (contents (f_src b)) Contents
      ++ olist KLanguage (languages (f_src b)) (f_langs b)
      ++ olist KLicense (licenses (f_src b)) (f_lics b)).
    assert (P1 : Permutation (all_cells ts1) (list_cells KLoc l (f_locs b) ++ R ++ all_cells (replace ts1 k Gone))).
    { rewrite (take_cells ts1 k _ Hk). cbn [thing_cells]. unfold file_cells, R. rewrite El. cbn [olist]. perm. }
    eapply tri_perm with (D := list_cells KLoc l (f_locs b) ++ (R ++ all_cells (replace ts1 k Gone) ++ F)
      ++ list_cells KLoc r os); [rewrite P1; perm|].
    eapply tri_bind.
    { apply tri_add_list; [now left|exact Ho|apply Gr]. }
    intros [] q2 C2 [-> [os' [-> Ho']]].
    eapply tri_perm with (D := all_cells ts1 ++ F ++ list_cells KLoc r os'); [rewrite P1; perm|].
    eapply tri_load_node; [apply (thing_incl ts1 i _ _ (HF ts1 M2)); exact H1|].
    apply IH; [exact (proj1 M1)|exact M2|exact H4|intros x Hx; apply I; now right|cbn in N; lia|exact Ho'].
Qed.

Lemma tri_analyze : forall q e ts i lp es F,
  good e ts -> nth_error ts i = Some (Files lp es) ->
  tri q (all_cells ts ++ F) (analyze lp) (fun r _ C' => exists ts' os,
    C' = all_cells ts' ++ F ++ list_cells KLoc r os /\ moved e (of_files ts i) ts ts' /\
    Forall (entry_ok KLoc) os).
Proof.
  intros q e ts i lp es F G H. unfold analyze, list_new. apply tri_alloc. intros r.
  eapply tri_perm with (D := all_cells ts ++ F ++ list_cells KLoc r []); [cbn [list_cells]; perm|].
  eapply tri_list_head; [apply (thing_incl ts i _ _ H)|]. intros n En. rewrite En.
  apply tri_fuel. intros m Hm. eapply tri_bind.
  { apply (tri_analyze_loop e i lp es r ts H es); [exact G|now apply moved_refl|apply chain_list|apply incl_refl| |constructor].
    eapply Nat.le_lt_trans; [|exact Hm]. rewrite !app_length.
    rewrite (Permutation_length (take_cells ts i _ H)). cbn [thing_cells]. rewrite app_length.
    pose proof (list_cells_length KFile lp es). lia. }
  intros [] q' C' [ts' [os [-> [M Ho]]]]. apply tri_ret. exists ts', os. auto.
Qed.
