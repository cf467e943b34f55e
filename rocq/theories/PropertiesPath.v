(** Properties C25, C26: splitting a path (sourcefile.c). *)
From Coq Require Import ZArith String List Bool Lia.
From Verif Require Import Base ParsedModel PathModel.
Import ListNotations.
Open Scope string_scope.
Open Scope Z_scope.
Open Scope list_scope.

Definition dot : Z := 46.
Definition separator (c : Z) : Prop := c = 47 \/ c = 92.

Lemma is_sep_spec c : reflect (separator c) (is_sep c).
Proof.
  unfold is_sep, separator. destruct (Z.eqb_spec c 47); destruct (Z.eqb_spec c 92); cbn; constructor; tauto.
Qed.

Lemma src_app a c b : src (a ++ c :: b) (Z.of_nat (length a)) = Ok c.
Proof.
  unfold src. destruct (Z.ltb_spec (Z.of_nat (length a)) 0); [lia|].
  rewrite Nat2Z.id, nth_error_app2, Nat.sub_diag by lia. reflexivity.
Qed.

Lemma back_ok stop suf : forall pre fuel, (length pre < fuel)%nat ->
  exists a b, pre = a ++ b /\ back fuel (pre ++ suf) stop (Z.of_nat (length pre)) = Ok (Z.of_nat (length a)) /\
    (forall c, In c b -> stop c = false) /\
    (a = [] \/ exists a' c, a = a' ++ [c] /\ stop c = true).
Proof.
  intros pre. revert suf. induction pre as [|c pre IH] using rev_ind; intros suf fuel Hf;
    (destruct fuel as [|fuel]; [lia|]); cbn [back].
  - exists [], []. cbn. split; auto. split; auto. split; [contradiction|auto].
  - rewrite app_length in *. cbn [length] in *.
    destruct (Z.gtb_spec (Z.of_nat (length pre + 1)) 0); [|lia].
    replace (Z.of_nat (length pre + 1) - 1) with (Z.of_nat (length pre)) by lia.
    rewrite <- app_assoc. cbn [app]. rewrite src_app. cbn [bind]. destruct (stop c) eqn:Ec.
    + exists (pre ++ [c]), []. rewrite app_nil_r. split; auto. split; [rewrite app_length; cbn; f_equal; lia|].
      split; [contradiction|]. right. eauto.
    + destruct (IH (c :: suf) fuel) as (a & b & -> & E & Hb & Ha); [lia|].
      exists a, (b ++ [c]). split; [rewrite app_assoc; auto|]. split; auto. split; auto.
      intros x Hx. apply in_app_iff in Hx as [Hx|[<-|[]]]; auto.
Qed.

Lemma skipn_app_exact {A} (a b : list A) : skipn (length a) (a ++ b) = b.
Proof. rewrite skipn_app, skipn_all, Nat.sub_diag. reflexivity. Qed.

(** ** C25 *)
Theorem C25_path_split :
  forall path, (exists c, In c path /\ (c = dot \/ separator c)) ->
  exists s, sourcefile_new path = Ok s /\
    (* the file name is what follows the last separator *)
    (forall c, In c (filename_of path s) -> ~ separator c) /\
    ((path = filename_of path s /\ dir_of path s = []) \/
     (exists c, separator c /\ path = dir_of path s ++ [c] ++ filename_of path s)) /\
    (* the extension is what follows the last dot of the file name *)
    ((exists base, filename_of path s = base ++ [dot] ++ ext_of path s /\ ~ In dot (ext_of path s)) \/
     (~ In dot (filename_of path s) /\ ext_of path s = [])).
Proof.
  intros path (c0 & Hc0 & Hd0). unfold sourcefile_new.
  destruct (back_ok (fun c => (c =? 46) || is_sep c) [] path (S (Z.to_nat (Z.of_nat (length path)))))
    as (a & b & Hpath & E & Hb & Ha); [lia|].
  rewrite app_nil_r in E. rewrite E. cbn [bind].
  destruct Ha as [->|(a' & c & -> & Hstop)].
  { exfalso. cbn in Hpath. subst b. specialize (Hb _ Hc0). apply orb_false_iff in Hb as [H1 H2].
    apply Z.eqb_neq in H1. destruct (is_sep_spec c0); [discriminate|]. destruct Hd0; auto. }
  assert (Ep : Z.of_nat (length (a' ++ [c])) - 1 = Z.of_nat (length a')) by (rewrite app_length; cbn; lia).
  rewrite Ep. assert (Hpath' : path = a' ++ c :: b) by (rewrite Hpath, <- app_assoc; auto).
  assert (Es : src path (Z.of_nat (length a')) = Ok c) by (rewrite Hpath'; apply src_app).
  rewrite Es. cbn [bind].
  destruct (back_ok is_sep b (a' ++ [c]) (S (Z.to_nat (Z.of_nat (length path))))) as (d & f & Hdf & E2 & Hf & Hd).
  { rewrite Hpath, !app_length. cbn [length]. lia. }
  rewrite <- Hpath in E2. rewrite E2. cbn [bind].
  eexists. split; [reflexivity|]. unfold filename_of, dir_of, ext_of. cbn [s_ext s_filename s_dirpath].
  rewrite Nat2Z.id.
  assert (Hall : path = d ++ f ++ b) by (rewrite app_assoc, <- Hdf; auto).
  assert (Hfn : skipn (length d) path = f ++ b) by (rewrite Hall; apply skipn_app_exact).
  rewrite Hfn. split; [|split].
  - intros x Hx Hs. apply in_app_iff in Hx as [Hx|Hx].
    + specialize (Hf x Hx). destruct (is_sep_spec x); [discriminate|auto].
    + specialize (Hb x Hx). apply orb_false_iff in Hb as [_ Hb]. destruct (is_sep_spec x); [discriminate|auto].
  - destruct Hd as [->|(d' & s & -> & Hs)].
    + left. split; auto.
    + right. exists s. split; [destruct (is_sep_spec s); [auto|discriminate]|].
      rewrite app_length. cbn [length].
      destruct (Z.ltb_spec (Z.of_nat (length d' + 1) - 1) 0); [lia|].
      replace (Z.to_nat (Z.of_nat (length d' + 1) - 1)) with (length d') by lia.
      rewrite Hall at 2. rewrite <- !app_assoc. rewrite firstn_app, firstn_all, Nat.sub_diag. cbn [firstn].
      rewrite app_nil_r. rewrite Hall. rewrite <- !app_assoc. reflexivity.
  - destruct (Z.eqb_spec c 46) as [->|Hc].
    + left. assert (exists f', f = f' ++ [46]) as [f' ->].
      { destruct Hd as [->|(d' & s & -> & Hs)].
        - cbn in Hdf. exists a'. auto.
        - destruct f as [|x f _] using rev_ind.
          + rewrite app_nil_r in Hdf. apply app_inj_tail in Hdf as [_ <-]. discriminate.
          + rewrite app_assoc in Hdf. apply app_inj_tail in Hdf as [_ <-]. eauto. }
      exists f'. rewrite app_length. cbn [length].
      replace (Z.to_nat (Z.of_nat (length a' + 1))) with (length (a' ++ [46])) by (rewrite app_length; cbn; lia).
      rewrite Hpath at 1 2. rewrite skipn_app_exact. split; [rewrite <- app_assoc; auto|].
      intros H. specialize (Hb _ H). discriminate.
    + right. replace (Z.to_nat (Z.of_nat (length path))) with (length path) by lia. rewrite skipn_all. split; auto.
      assert (Hcs : is_sep c = true).
      { exact Hstop. }
      assert (f = []) as ->.
      { destruct f as [|x f _] using rev_ind; auto. exfalso. rewrite app_assoc in Hdf.
        apply app_inj_tail in Hdf as [_ <-]. rewrite (Hf c) in Hcs; [discriminate|]. apply in_app_iff. cbn. auto. }
      cbn [app]. intros H. specialize (Hb _ H). discriminate.
Qed.
Print Assumptions C25_path_split.

Example C25_case :
  (exists c, In c (bytes "a.b/c\d.e.tar.gz") /\ (c = dot \/ separator c)) /\
  match sourcefile_new (bytes "a.b/c\d.e.tar.gz"), sourcefile_new (bytes "a.b/c") with
  | Ok s, Ok t => dir_of (bytes "a.b/c\d.e.tar.gz") s = bytes "a.b/c" /\
                  filename_of (bytes "a.b/c\d.e.tar.gz") s = bytes "d.e.tar.gz" /\
                  ext_of (bytes "a.b/c\d.e.tar.gz") s = bytes "gz" /\
                  ext_of (bytes "a.b/c") t = [] /\ filename_of (bytes "a.b/c") t = bytes "c"
  | _, _ => False end.
Proof. split; [exists 46; unfold dot; vm_compute; auto|]. vm_compute. repeat split. Qed.

(** ** C26 *)

(** Exactly the paths with a dot or a separator are handled without an
    out-of-bounds read (one direction is C25). *)
Theorem C26_bare_name_refuted :
  forall path, (forall c, In c path -> c <> dot /\ ~ separator c) ->
  sourcefile_new path = Ub OutOfBounds.
Proof.
  intros path Hn. unfold sourcefile_new.
  destruct (back_ok (fun c => (c =? 46) || is_sep c) [] path (S (Z.to_nat (Z.of_nat (length path)))))
    as (a & b & Hpath & E & Hb & Ha); [lia|].
  rewrite app_nil_r in E. rewrite E. cbn [bind].
  destruct Ha as [->|(a' & c & -> & Hstop)].
  - reflexivity.
  - exfalso. destruct (Hn c) as [H1 H2]. { rewrite Hpath, <- app_assoc. apply in_app_iff. cbn. auto. }
    apply Z.eqb_neq in H1. unfold dot in H1. cbn beta in Hstop. rewrite H1 in Hstop. destruct (is_sep_spec c); [auto|discriminate].
Qed.
Print Assumptions C26_bare_name_refuted.

Theorem C26_other_paths_safe :
  forall path, (exists c, In c path /\ (c = dot \/ separator c)) -> exists s, sourcefile_new path = Ok s.
Proof. intros path H. destruct (C25_path_split path H) as (s & E & _). eauto. Qed.
Print Assumptions C26_other_paths_safe.

Example C26_case : sourcefile_new (bytes "Makefile") = Ub OutOfBounds /\
  sourcefile_new (bytes "./Makefile") = Ok (mkSplit 10 2 1).
Proof. vm_compute. auto. Qed.
