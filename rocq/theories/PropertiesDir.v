(** Property C40: directory traversal (sourcefile.c). *)
From Coq Require Import ZArith String List Bool Lia.
From Verif Require Import Base Arr ParsedModel PathModel PropertiesPath DirModel DirSpec.
Import ListNotations.
Open Scope string_scope.
Open Scope Z_scope.
Open Scope list_scope.

(** * The path buffer *)
Definition holds (a : arr) (s : list Z) : Prop :=
  forall i c, nth_error s i = Some c -> cell a (Z.of_nat i) = Some c.

Lemma put_ok s : forall a off, 0 <= off -> off + Z.of_nat (length s) <= asize a ->
  exists a', put a off s = Ok a' /\ asize a' = asize a /\
    (forall i c, nth_error s i = Some c -> cell a' (off + Z.of_nat i) = Some c) /\
    (forall k, k < off -> cell a' k = cell a k).
Proof.
  induction s as [|x s IH]; intros a off Ho Hl; cbn [put length] in *.
  - exists a. repeat split; auto. intros [|i] c; discriminate.
  - destruct (aset_ex a off x) as (a1 & E1 & S1 & C1 & K1); [lia|]. rewrite E1. cbn [bind].
    destruct (IH a1 (off + 1)) as (a2 & E2 & S2 & C2 & K2); [lia|lia|].
    exists a2. split; [exact E2|]. split; [congruence|]. split.
    + intros [|i] c Hc; cbn in Hc.
      * injection Hc as ->. rewrite K2 by lia. rewrite Z.add_0_r. auto.
      * replace (off + Z.of_nat (S i)) with (off + 1 + Z.of_nat i) by lia. auto.
    + intros k Hk. rewrite K2, K1 by lia. auto.
Qed.

Lemma put_inv s : forall a off a', put a off s = Ok a' -> 0 <= off -> off <= asize a ->
  off + Z.of_nat (length s) <= asize a.
Proof.
  induction s as [|x s IH]; intros a off a' E Ho Hl; cbn [put length] in *; [lia|].
  unfold aset, inb in E. destruct ((0 <=? off) && (off <? asize a)) eqn:B; cbn [bind] in E; try discriminate.
  apply andb_true_iff in B as [_ B]. apply Z.ltb_lt in B. apply IH in E; cbn in *; lia.
Qed.

Lemma cstr_ok s : forall fuel a i, ~ In 0 s -> (length s < fuel)%nat -> 0 <= i -> i + Z.of_nat (length s) < asize a ->
  (forall k c, nth_error s k = Some c -> cell a (i + Z.of_nat k) = Some c) ->
  cell a (i + Z.of_nat (length s)) = Some 0 -> cstr fuel a i = Ok s.
Proof.
  induction s as [|x s IH]; intros fuel a i Hz Hf Hi Hs Hc H0; (destruct fuel as [|k]; [cbn in Hf; lia|]); cbn [cstr length] in *.
  - rewrite Z.add_0_r in H0. rewrite (aget_ok a i 0) by (auto; lia). cbn. auto.
  - pose proof (Hc 0%nat x eq_refl) as Hx. rewrite Z.add_0_r in Hx.
    rewrite (aget_ok a i x) by (auto; lia). cbn [bind].
    destruct (Z.eqb_spec x 0) as [->|Hx0]; [exfalso; apply Hz; cbn; auto|].
    rewrite (IH k a (i + 1)); [reflexivity| | | | | |].
    + intros H. apply Hz. cbn. auto.
    + lia.
    + lia.
    + lia.
    + intros j c Hj. replace (i + 1 + Z.of_nat j) with (i + Z.of_nat (S j)) by lia. apply Hc. auto.
    + replace (i + 1 + Z.of_nat (length s)) with (i + Z.of_nat (S (length s))) by lia. auto.
Qed.

(** * The list of files, in the order in which they are found *)
Section Tree.
  Variable P : fsnode -> Prop.
  Hypothesis Hreg : P Reg.
  Hypothesis Hlink : P Link.
  Hypothesis Hspecial : P Special.
  Hypothesis Hnone : P (Dir None).
  Hypothesis Hdir : forall es, Forall (fun e => P (snd e)) es -> P (Dir (Some es)).
  Fixpoint fsnode_rect' (t : fsnode) : P t :=
    match t with
    | Reg => Hreg | Link => Hlink | Special => Hspecial
    | Dir None => Hnone
    | Dir (Some es) =>
      Hdir es ((fix go es : Forall (fun e => P (snd e)) es :=
                  match es with
                  | [] => Forall_nil _
                  | e :: r => Forall_cons e (fsnode_rect' (snd e)) (go r)
                  end) es)
    end.
End Tree.

Definition is_hidden (name : list Z) : bool := nth 0 name 0 =? 46.

Lemma is_hidden_iff name : is_hidden name = true <-> hidden name.
Proof.
  unfold is_hidden, hidden. rewrite Z.eqb_eq. destruct name as [|c r]; cbn.
  - split; [discriminate|]. intros [r H]. discriminate.
  - split; [intros ->; eauto|]. intros [r' [= -> _]]. auto.
Qed.

Fixpoint found (dir : list Z) (t : fsnode) : list (list Z) :=
  match t with
  | Dir (Some es) =>
    flat_map (fun e => match snd e with
                       | Reg => [join dir (fst e)]
                       | Dir _ => if is_hidden (fst e) then [] else found (join dir (fst e)) (snd e)
                       | _ => []
                       end) es
  | _ => []
  end.

Lemma found_iff t : forall dir path, In path (found dir t) <-> file_at dir t path.
Proof.
  induction t as [| | | |es IH] using fsnode_rect'; intros dir path; try (split; [contradiction|intros H; inversion H; fail]).
  cbn [found]. rewrite in_flat_map. rewrite Forall_forall in IH. split.
  - intros ([name st] & He & Hp). cbn in Hp. destruct st as [| | |sub]; try contradiction.
    + destruct Hp as [<-|[]]. constructor. auto.
    + destruct (is_hidden name) eqn:Eh; [contradiction|].
      eapply at_below; eauto.
      * rewrite <- is_hidden_iff. congruence.
      * apply (IH _ He). auto.
  - intros H. inversion H as [? ? name Hin|? ? name sub ? Hin Hh Hs]; subst.
    + exists (name, Reg). cbn. auto.
    + exists (name, Dir sub). split; auto. cbn [fst snd].
      destruct (is_hidden name) eqn:Eh; [apply is_hidden_iff in Eh; contradiction|].
      apply (IH _ Hin). auto.
Qed.

Lemma join_inj dir a b x y : ~ In 47 a -> ~ In 47 b ->
  (x = [] \/ exists x', x = 47 :: x') -> (y = [] \/ exists y', y = 47 :: y') ->
  join dir a ++ x = join dir b ++ y -> a = b.
Proof.
  unfold join. rewrite <- !app_assoc. intros Ha Hb Hx Hy H. apply app_inv_head in H. cbn in H. injection H as H.
  revert b Hb H. induction a as [|c a IH]; intros b Hb H; destruct b as [|d b]; auto; cbn in H.
  - exfalso. destruct Hx as [->|[x' ->]]; [discriminate|]. injection H as <- _. apply Hb. cbn. auto.
  - exfalso. destruct Hy as [->|[y' ->]]; [discriminate|]. injection H as -> _. apply Ha. cbn. auto.
  - injection H as -> H. f_equal. apply IH; auto; intros Hi; [apply Ha|apply Hb]; cbn; auto.
Qed.

Lemma found_prefix t : forall dir path, In path (found dir t) -> exists r, path = dir ++ 47 :: r.
Proof.
  induction t as [| | | |es IH] using fsnode_rect'; intros dir path; try contradiction.
  cbn [found]. rewrite in_flat_map. rewrite Forall_forall in IH.
  intros ([name st] & He & Hp). cbn in Hp. destruct st as [| | |sub]; try contradiction.
  - destruct Hp as [<-|[]]. unfold join. cbn. eauto.
  - destruct (is_hidden name); [contradiction|]. apply (IH _ He) in Hp as [r ->]. unfold join.
    rewrite <- app_assoc. cbn. eauto.
Qed.

Lemma nodup_app {A} (a b : list A) : NoDup a -> NoDup b -> (forall x, In x a -> ~ In x b) -> NoDup (a ++ b).
Proof.
  induction a as [|x a IH]; intros Ha Hb H; cbn; auto. inversion Ha; subst. constructor.
  - rewrite in_app_iff. intros [Hi|Hi]; [contradiction|]. apply (H x); cbn; auto.
  - apply IH; auto. intros y Hy. apply H. cbn. auto.
Qed.

Lemma found_nodup t : real_tree t -> forall dir, NoDup (found dir t).
Proof.
  induction t as [| | | |es IH] using fsnode_rect'; intros Hr dir; try constructor.
  inversion Hr as [| | | |? Hnd Hok]; subst. cbn [found].
  induction es as [|[name st] es IHes]; [constructor|]. cbn [flat_map fst snd].
  inversion IH as [|? ? IH1 IH2]; subst. inversion Hnd as [|? ? Hn1 Hn2]; subst. cbn in IH1, Hn1.
  assert (Hst : name <> [] /\ ~ In 0 name /\ ~ In 47 name /\ real_tree st) by (apply (Hok name st); cbn; auto).
  destruct Hst as (_ & _ & Hs & Hrst).
  apply nodup_app.
  - destruct st; try constructor; auto; [constructor|]. destruct (is_hidden name); [constructor|]. apply IH1. auto.
  - apply IHes; auto.
    + constructor; auto. intros n s Hin. apply Hok. cbn. auto.
    + intros n s Hin. apply Hok. cbn. auto.
  - intros path H1 H2. apply in_flat_map in H2 as ([name' st'] & Hin & H2). cbn in H2.
    assert (Hst' : name' <> [] /\ ~ In 0 name' /\ ~ In 47 name' /\ real_tree st') by (apply (Hok name' st'); cbn; auto).
    destruct Hst' as (_ & _ & Hs' & _).
    assert (G : forall n s, In path (match s with Reg => [join dir n] | Dir _ => if is_hidden n then [] else found (join dir n) s | _ => [] end) ->
              exists x, path = join dir n ++ x /\ (x = [] \/ exists x', x = 47 :: x')).
    { intros n s Hp. destruct s; try contradiction.
      - destruct Hp as [<-|[]]. exists []. rewrite app_nil_r. auto.
      - destruct (is_hidden n); [contradiction|]. apply found_prefix in Hp as [r ->]. eauto. }
    destruct (G name st) as (x & Ex & Hx).
    { destruct st; auto. }
    destruct (G name' st') as (y & Ey & Hy).
    { destruct st'; auto. }
    assert (name = name') by (eapply (join_inj dir name name' x y); auto; congruence). subst name'.
    apply Hn1. apply (in_map fst) in Hin. auto.
Qed.

(** * The traversal finds them *)
Definition with_split (p : list Z) (f : list Z * split) : Prop := fst f = p /\ sourcefile_new p = Ok (snd f).

Lemma add_file_ok fs dir name :
  exists s, add_file fs (join dir name) = Ok (fs ++ [(join dir name, s)]) /\ sourcefile_new (join dir name) = Ok s.
Proof.
  destruct (C26_other_paths_safe (join dir name)) as (s & E).
  { exists 47. split; [unfold join; apply in_or_app; right; cbn; auto|]. right. left. reflexivity. }
  exists s. unfold add_file. rewrite E. auto.
Qed.

Lemma add_directory_ok t : real_tree t -> forall dir fs, ~ In 0 dir -> fits_buffer dir t ->
  exists fs', add_directory t dir fs = Ok (fs ++ fs') /\ Forall2 with_split (found dir t) fs'.
Proof.
  induction t as [| | | |es IH] using fsnode_rect'; intros Hr dir fs Hz Hfit; try (inversion Hfit; fail).
  - inversion Hfit as [|? Hl]; subst. cbn [add_directory].
    destruct (put_ok dir (anew filename_max) 0) as (a & E & S & _); [lia|cbn; lia|]. rewrite E. cbn [bind].
    cbn in S. destruct (aset_ex a (Z.of_nat (length dir)) 47) as (a2 & E2 & _); [lia|]. rewrite E2. cbn [bind].
    exists []. rewrite app_nil_r. split; auto. constructor.
  - inversion Hfit as [? ? Hl Hes|]; subst. inversion Hr as [| | | |? Hnd Hok]; subst. cbn [add_directory].
    destruct (put_ok dir (anew filename_max) 0) as (a & E & S & C & _); [lia|cbn; lia|]. rewrite E. cbn [bind].
    cbn in S. destruct (aset_ex a (Z.of_nat (length dir)) 47) as (a2 & E2 & S2 & C2 & K2); [lia|]. rewrite E2. cbn [bind].
    assert (Hpre : forall i c, nth_error (dir ++ [47]) i = Some c -> cell a2 (Z.of_nat i) = Some c).
    { intros i c Hi. destruct (Nat.lt_ge_cases i (length dir)) as [L|L].
      - rewrite nth_error_app1 in Hi by auto. rewrite K2 by lia. apply (C i c Hi).
      - rewrite nth_error_app2 in Hi by auto. destruct (i - length dir)%nat as [|k] eqn:Ek.
        + cbn in Hi. injection Hi as <-. replace i with (length dir) by lia. auto.
        + destruct k; discriminate. }
    assert (S2' : asize a2 = filename_max) by congruence.
    clear E E2 C C2 K2 S S2 a Hnd Hr Hfit. revert a2 fs Hpre S2'. cbn [found].
    induction es as [|[name st] es IHes]; intros a fs Hpre S.
    { exists []. rewrite app_nil_r. split; auto. constructor. }
    inversion IH as [|? ? IH1 IH2]; subst. cbn in IH1.
    destruct (Hes name st) as [HLen Hsub]; [cbn; auto|].
    destruct (Hok name st) as (_ & Hn0 & _ & Hrst); [cbn; auto|].
    assert (HJ : Z.of_nat (length (join dir name)) = Z.of_nat (length dir) + 1 + Z.of_nat (length name)).
    { unfold join. rewrite !app_length. cbn [length]. lia. }
    destruct (put_ok name a (Z.of_nat (length dir) + 1)) as (a1 & E1 & S1 & C1 & K1); [lia|lia|].
    rewrite E1. cbn [bind].
    destruct (aset_ex a1 (Z.of_nat (length dir) + 1 + Z.of_nat (length name)) 0) as (a2 & E2 & S2 & C2 & K2); [lia|].
    rewrite E2. cbn [bind].
    assert (Hcell : forall k c, nth_error (join dir name) k = Some c -> cell a2 (0 + Z.of_nat k) = Some c).
    { intros k c Hk. cbn [Z.add].
      assert ((k < length (join dir name))%nat) by (apply nth_error_Some; congruence).
      rewrite K2 by lia. unfold join in Hk. rewrite app_assoc in Hk.
      destruct (Nat.lt_ge_cases k (length (dir ++ [47]))) as [L|L].
      - rewrite nth_error_app1 in Hk by auto. rewrite K1; [|rewrite app_length in L; cbn in L; lia]. auto.
      - rewrite nth_error_app2 in Hk by auto. apply C1 in Hk. rewrite app_length in L, Hk. cbn in L, Hk.
        rewrite <- Hk. f_equal. lia. }
    rewrite (cstr_ok (join dir name) (Z.to_nat filename_max) a2 0); auto.
    2:{ unfold join. rewrite !in_app_iff. cbn. intros [?|[[?|[]]|?]]; auto. discriminate. }
    2:{ unfold filename_max in *. lia. }
    2:{ lia. }
    2:{ lia. }
    2:{ rewrite <- C2. f_equal. lia. }
    cbn [bind].
    assert (Hnext : forall fs1, exists fs', (fix readdir (es : list (list Z * fsnode)) (filepath : arr)
         (fs : list (list Z * split)) : res (list (list Z * split)) :=
       match es with
       | [] => Ok fs
       | (name, st) :: r =>
         filepath <- put filepath (Z.of_nat (length dir) + 1) name ;;
         filepath <- aset filepath (Z.of_nat (length dir) + 1 + Z.of_nat (length name)) 0 ;;
         path <- cstr (Z.to_nat filename_max) filepath 0 ;;
         fs <- match st with
               | Link => Ok fs
               | Dir _ =>
                 if nth 0 name 0 =? 46 then Ok fs else add_directory st path fs
               | Reg => add_file fs path
               | Special => Ok fs
               end ;;
         readdir r filepath fs
       end) es a2 fs1 = Ok (fs1 ++ fs') /\ Forall2 with_split (found dir (Dir (Some es))) fs').
    { intros fs1. apply IHes; auto.
      - intros n s Hin. apply Hes. cbn. auto.
      - intros n s Hin. apply Hok. cbn. auto.
      - intros i c Hi. assert (H : (i < length (dir ++ [47%Z]))%nat) by (apply nth_error_Some; congruence).
        rewrite app_length in H. cbn in H. rewrite K2, K1 by lia. auto.
      - congruence. }
    cbn [flat_map fst snd].
    assert (Hstep : exists f1, (match st with
               | Link => Ok fs
               | Dir _ => if nth 0 name 0 =? 46 then Ok fs else add_directory st (join dir name) fs
               | Reg => add_file fs (join dir name)
               | Special => Ok fs
               end) = Ok (fs ++ f1) /\
        Forall2 with_split (match st with
                       | Reg => [join dir name]
                       | Dir _ => if is_hidden name then [] else found (join dir name) st
                       | _ => []
                       end) f1).
    { destruct st as [| | |sub].
      - destruct (add_file_ok fs dir name) as (s & Ef & Es). exists [(join dir name, s)]. split; auto.
        constructor; [|constructor]. split; auto.
      - exists []. rewrite app_nil_r. split; [auto|constructor].
      - exists []. rewrite app_nil_r. split; [auto|constructor].
      - fold (is_hidden name). destruct (is_hidden name) eqn:Eh.
        + exists []. rewrite app_nil_r. split; [auto|constructor].
        + apply IH1; auto.
          * unfold join. rewrite !in_app_iff. cbn. intros [?|[[?|[]]|?]]; auto. discriminate.
          * apply Hsub; auto. rewrite <- is_hidden_iff. congruence. }
    destruct Hstep as (f1 & Ef1 & HF1). rewrite Ef1. cbn [bind].
    destruct (Hnext (fs ++ f1)) as (f2 & Ef2 & HF2). exists (f1 ++ f2). split.
    + rewrite app_assoc. exact Ef2.
    + apply Forall2_app; auto.
Qed.

(** ** C40 *)
Theorem C40_directory_traversal :
  forall t dir fs, real_tree t -> ~ In 0 dir -> fits_buffer dir t ->
  exists fs', add_directory t dir fs = Ok (fs ++ fs') /\
    (* the files that are added: exactly the reachable regular files, once each *)
    (forall path, In path (map fst fs') <-> file_at dir t path) /\
    NoDup (map fst fs') /\
    (* each of them split as in C25 *)
    (forall path s, In (path, s) fs' -> sourcefile_new path = Ok s).
Proof.
  intros t dir fs Hr Hz Hfit. destruct (add_directory_ok t Hr dir fs Hz Hfit) as (fs' & E & HF).
  exists fs'. split; auto.
  assert (HM : map fst fs' = found dir t).
  { clear E. induction HF as [|p f ps fs' [H _] _ IH]; cbn; auto. f_equal; auto. }
  split; [|split].
  - intros path. rewrite HM. apply found_iff.
  - rewrite HM. apply found_nodup. auto.
  - intros path s Hin. clear -HF Hin. induction HF as [|p f ps fs' [H1 H2] _ IH]; [contradiction|].
    destruct Hin as [->|Hin]; auto. cbn in *. subst. auto.
Qed.
Print Assumptions C40_directory_traversal.

(** The buffer has a fixed size: a longer path is written past its end. *)
Theorem C40_long_path_refuted :
  forall dir name st es fs, Z.of_nat (length (join dir name)) >= filename_max ->
  add_directory (Dir (Some ((name, st) :: es))) dir fs = Ub OutOfBounds.
Proof.
  intros dir name st es fs HL. cbn [add_directory].
  assert (HJ : Z.of_nat (length (join dir name)) = Z.of_nat (length dir) + 1 + Z.of_nat (length name)).
  { unfold join. rewrite !app_length. cbn [length]. lia. }
  assert (Hput : forall s a off, 0 <= off -> off + Z.of_nat (length s) > asize a -> off <= asize a -> put a off s = Ub OutOfBounds).
  { induction s as [|x s IH]; intros a off Ho Hl Hs; cbn [put length] in *; [lia|].
    unfold aset. destruct (inb a off) eqn:B; cbn [bind]; auto.
    unfold inb in B. apply andb_true_iff in B as [_ B]. apply Z.ltb_lt in B. apply IH; cbn; lia. }
  assert (Hset : forall a off v, off >= asize a -> aset a off v = Ub OutOfBounds).
  { intros a off v H. unfold aset, inb. replace (off <? asize a) with false; [rewrite andb_false_r; auto|].
    symmetry. apply Z.ltb_ge. lia. }
  destruct (Z_le_gt_dec (Z.of_nat (length dir)) filename_max) as [L|L].
  2:{ rewrite Hput; auto; unfold filename_max in *; cbn; lia. }
  destruct (put_ok dir (anew filename_max) 0) as (a & E & S & _); [lia|cbn; lia|]. rewrite E. cbn [bind]. cbn in S.
  destruct (Z_lt_le_dec (Z.of_nat (length dir)) filename_max) as [L1|L1].
  2:{ rewrite Hset by lia. auto. }
  destruct (aset_ex a (Z.of_nat (length dir)) 47) as (a2 & E2 & S2 & _); [lia|]. rewrite E2. cbn [bind].
  destruct (Z_le_gt_dec (Z.of_nat (length dir) + 1 + Z.of_nat (length name)) filename_max) as [L2|L2].
  2:{ rewrite Hput; auto; lia. }
  destruct (put_ok name a2 (Z.of_nat (length dir) + 1)) as (a3 & E3 & S3 & _); [lia|lia|]. rewrite E3. cbn [bind].
  rewrite Hset by lia. auto.
Qed.
Print Assumptions C40_long_path_refuted.

Definition ex_tree : fsnode :=
  Dir (Some [ (bytes ".", Dir None); (bytes "..", Dir None);
              (bytes ".hidden", Reg);
              (bytes ".git", Dir (Some [(bytes "config", Reg)]));
              (bytes "src", Dir (Some [ (bytes "longer_name.c", Reg); (bytes "b.h", Reg); (bytes "link", Link);
                                        (bytes "sub", Dir (Some [(bytes "x", Reg)])) ]));
              (bytes "pipe", Special); (bytes "src.c", Reg) ]).

Example C40_case :
  real_tree ex_tree /\ ~ In 0 (bytes "top") /\ fits_buffer (bytes "top") ex_tree /\
  match add_directory ex_tree (bytes "top") [] with
  | Ok fs => map fst fs = [bytes "top/.hidden"; bytes "top/src/longer_name.c"; bytes "top/src/b.h";
                           bytes "top/src/sub/x"; bytes "top/src.c"]
  | _ => False end.
Proof.
  split; [|split; [vm_compute; intuition discriminate|split]].
  - unfold ex_tree. repeat (first [ apply real_reg | apply real_link | apply real_special | apply real_unreadable |
      (apply real_dir;
       [ repeat (constructor; [vm_compute; intuition discriminate|]); constructor
       | intros name st Hin; cbn [In] in Hin;
         repeat (destruct Hin as [Hin|Hin]; [injection Hin as <- <-; split; [discriminate|];
            split; [vm_compute; intuition discriminate|]; split; [vm_compute; intuition discriminate|] |]);
         try contradiction ]) ]).
  - unfold ex_tree.
    repeat (first [ (apply fits_unreadable; vm_compute; reflexivity)
      | (apply fits_dir; [vm_compute; reflexivity|];
         intros name st Hin; cbn [In] in Hin;
         repeat (destruct Hin as [Hin|Hin]; [injection Hin as <- <-; split; [vm_compute; reflexivity|];
           intros sub Hs Hh; clear Hh; first [discriminate | injection Hs as <-] |]);
         try contradiction) ]).
  - vm_compute. reflexivity.
Qed.
