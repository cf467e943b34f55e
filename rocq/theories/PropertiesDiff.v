(** Properties C08-C14 and C43: the line diff (diff.c). *)
From Coq Require Import ZArith List Bool Lia Permutation Sorted.
From Verif Require Import Base Arr DiffModel DiffSpec DiffProofs DiffMainProofs.
Import ListNotations.
Open Scope Z_scope.

(** Inputs the diff works on in memory. *)
Definition small (text : list Z) : Prop := Z.of_nat (length text) <= 100000.

Lemma calc_small slack disk from to : small from -> small to ->
  calc_diff slack disk from to = diff_mem slack from to.
Proof.
  unfold small, calc_diff. intros H1 H2.
  destruct (Z.gtb_spec (Z.of_nat (length from)) 100000); [lia|].
  destruct (Z.gtb_spec (Z.of_nat (length to)) 100000); [lia|]. reflexivity.
Qed.

(** Running example: "a\nb\nc\na\n" to "b\n\nx\na\nb\n".  *)
Definition ex_from : list Z := [97;10;98;10;99;10;97;10].
Definition ex_to : list Z := [98;10;10;120;10;97;10;98;10].
Definition no_disk : list Z -> list Z -> list Z := fun _ _ => [].

Example ex_lines :
  has_lines ex_from [[97];[98];[99];[97]] /\ has_lines ex_to [[98];[120];[97];[98]] /\
  small ex_from /\ small ex_to.
Proof.
  split; [exists [[97];[98];[99];[97];[]]|split; [exists [[98];[];[120];[97];[98];[]]|split; unfold small; cbn; lia]];
    (split; [discriminate|]; split; [reflexivity|]; split; [|reflexivity]);
    intros p Hp Hn; cbn in Hp; repeat (destruct Hp as [<-|Hp]; [cbn in Hn; lia|]); contradiction.
Qed.

Example ex_diff : calc_diff 1 no_disk ex_from ex_to = Ok (2, 2).
Proof. vm_compute. reflexivity. Qed.

(** ** C08: the result is the one of a longest common subsequence. *)
Theorem C08_diff_is_minimal :
  forall slack disk from to lf lt added removed,
  1 <= slack -> small from -> small to -> has_lines from lf -> has_lines to lt ->
  calc_diff slack disk from to = Ok (added, removed) ->
  exists L, is_lcs L (map hash lf) (map hash lt) /\
            added = Z.of_nat (length lt) - Z.of_nat L /\
            removed = Z.of_nat (length lf) - Z.of_nat L.
Proof.
  intros slack disk from to lf lt a r Hs S1 S2 H1 H2 E. rewrite calc_small in E by auto.
  destruct (diff_mem_ok slack from to lf lt Hs H1 H2) as [[_ E']|[_ (L & HL & E')]]; [congruence|].
  rewrite E' in E. injection E as <- <-. eauto.
Qed.
Print Assumptions C08_diff_is_minimal.

(** The longest common subsequence of the example has length 2 (a b, b a). *)
Example C08_case :
  map hash [[97];[98];[99];[97]] = [98;99;100;98] /\
  subseq [98; 99] (map hash [[97];[98];[99];[97]]) /\ subseq [98; 99] (map hash [[98];[120];[97];[98]]).
Proof.
  vm_compute. split; [reflexivity|]. split; repeat first [apply sub_nil | apply sub_take | apply sub_skip].
Qed.

(** ** C09 *)
Theorem C09_diff_net :
  forall slack disk from to lf lt added removed,
  1 <= slack -> small from -> small to -> has_lines from lf -> has_lines to lt ->
  calc_diff slack disk from to = Ok (added, removed) ->
  added - removed = Z.of_nat (length lt) - Z.of_nat (length lf) /\
  0 <= added <= Z.of_nat (length lt) /\ 0 <= removed <= Z.of_nat (length lf).
Proof.
  intros slack disk from to lf lt a r Hs S1 S2 H1 H2 E.
  destruct (C08_diff_is_minimal _ _ _ _ _ _ _ _ Hs S1 S2 H1 H2 E) as (L & [(s & Hl & Q1 & Q2) _] & -> & ->).
  apply subseq_length in Q1, Q2. rewrite map_length in Q1, Q2. lia.
Qed.
Print Assumptions C09_diff_net.

Example C09_case :
  calc_diff 1 no_disk (ex_from ++ ex_from) ex_to = Ok (1, 5) /\
  length (strtok_lines (ex_from ++ ex_from)) = 8%nat /\ length (strtok_lines ex_to) = 4%nat.
Proof. vm_compute. repeat split. Qed.

(** ** C10 *)
Theorem C10_diff_identical :
  forall slack disk from to ls,
  1 <= slack -> small from -> small to -> has_lines from ls -> has_lines to ls ->
  calc_diff slack disk from to = Ok (0, 0).
Proof.
  intros slack disk from to ls Hs S1 S2 H1 H2. rewrite calc_small by auto.
  destruct (diff_mem_ok slack from to ls ls Hs H1 H2) as [[[Hz _] _]|[_ (L & HL & E')]].
  - exfalso. assert (E : middle (map hash ls) (map hash ls) = ([], [])).
    { unfold middle. assert (E : forall l, strip l l = ([], [])).
      { induction l as [|x l IH]; cbn; auto. rewrite Z.eqb_refl. auto. }
      rewrite E. reflexivity. }
    rewrite E in Hz. contradiction.
  - rewrite E'. assert (HL' : is_lcs (length ls) (map hash ls) (map hash ls)).
    { split.
      - exists (map hash ls). rewrite map_length. split; auto. split; apply subseq_refl.
      - intros s Q _. apply subseq_length in Q. rewrite map_length in Q. auto. }
    rewrite (is_lcs_unique _ _ _ _ HL HL'). f_equal. f_equal; lia.
Qed.
Print Assumptions C10_diff_identical.

(** The line "\255" has hash 0, the value on which C12 fails. *)
Example C10_case :
  hash [255] = 0 /\ calc_diff 1 no_disk [255;10;255] [255;10;10;255;10] = Ok (0, 0).
Proof. vm_compute. repeat split. Qed.

(** ** C11 *)
Theorem C11_diff_symmetric :
  forall slack disk from to a r a' r',
  1 <= slack -> small from -> small to ->
  calc_diff slack disk from to = Ok (a, r) -> calc_diff slack disk to from = Ok (a', r') ->
  a' = r /\ r' = a.
Proof.
  intros slack disk from to a r a' r' Hs S1 S2 E E'.
  pose proof (has_lines_ex from) as H1. pose proof (has_lines_ex to) as H2.
  destruct (C08_diff_is_minimal _ _ _ _ _ _ _ _ Hs S1 S2 H1 H2 E) as (L & HL & -> & ->).
  destruct (C08_diff_is_minimal _ _ _ _ _ _ _ _ Hs S2 S1 H2 H1 E') as (L' & HL' & -> & ->).
  apply is_lcs_sym in HL'. rewrite (is_lcs_unique _ _ _ _ HL HL'). auto.
Qed.
Print Assumptions C11_diff_symmetric.

(** Symmetry does not extend to definedness: only the hashes of the second
    text matter for the end marker of C12. *)
Theorem C11_definedness_symmetric_refuted :
  exists from to, small from /\ small to /\
    calc_diff 1 no_disk from to = Ok (1, 1) /\ calc_diff 1 no_disk to from = Ub Uninit.
Proof.
  exists [255], [97]. split; [unfold small; cbn; lia|]. split; [unfold small; cbn; lia|].
  vm_compute. auto.
Qed.
Print Assumptions C11_definedness_symmetric_refuted.

Example C11_case :
  calc_diff 1 no_disk (ex_from ++ ex_from) ex_to = Ok (1, 5) /\
  calc_diff 1 no_disk ex_to (ex_from ++ ex_from) = Ok (5, 1).
Proof. vm_compute. repeat split. Qed.

(** ** C12: outcomes.  [slack] counts usable bytes behind a local array. *)
Theorem C12_diff_safe :
  forall slack disk from to lf lt,
  1 <= slack -> small from -> small to -> has_lines from lf -> has_lines to lt ->
  ~ zero_is_largest (snd (middle (map hash lf) (map hash lt))) ->
  exists added removed, calc_diff slack disk from to = Ok (added, removed).
Proof.
  intros slack disk from to lf lt Hs S1 S2 H1 H2 Hz. rewrite calc_small by auto.
  destruct (diff_mem_ok slack from to lf lt Hs H1 H2) as [[Hz' _]|[_ (L & HL & E')]]; [contradiction|].
  rewrite E'. eauto.
Qed.
Print Assumptions C12_diff_safe.

Example C12_case :
  snd (middle (map hash [[97];[98];[99];[97]]) (map hash [[98];[120];[97];[98]])) = [99; 121; 98; 99] /\
  ~ zero_is_largest [99; 121; 98; 99].
Proof.
  split; [vm_compute; reflexivity|]. intros [_ H]. specialize (H 99 (or_introl eq_refl)). lia.
Qed.

(** The end marker of the value list is 0, a possible hash. *)
Theorem C12_sentinel_undefined :
  forall slack disk from to lf lt,
  1 <= slack -> small from -> small to -> has_lines from lf -> has_lines to lt ->
  zero_is_largest (snd (middle (map hash lf) (map hash lt))) ->
  calc_diff slack disk from to = Ub Uninit.
Proof.
  intros slack disk from to lf lt Hs S1 S2 H1 H2 Hz. rewrite calc_small by auto.
  destruct (diff_mem_ok slack from to lf lt Hs H1 H2) as [[_ E]|[Hz' _]]; [auto|contradiction].
Qed.
Print Assumptions C12_sentinel_undefined.

(** "a" changed to "\255" (a valid Latin-1 line, y with diaeresis). *)
Example C12_sentinel_case :
  zero_is_largest (snd (middle (map hash [[97]]) (map hash [[255]]))) /\
  calc_diff 1 no_disk [97] [255] = Ub Uninit.
Proof.
  vm_compute. split; [|reflexivity]. split; [auto|]. intros v [<-|[]]; discriminate.
Qed.

Theorem C12_safety_refuted :
  exists slack from to, 1 <= slack /\ small from /\ small to /\
    calc_diff slack no_disk from to = Ub Uninit.
Proof.
  exists 1, [97], [255]. split; [lia|]. split; [unfold small; cbn; lia|].
  split; [unfold small; cbn; lia|]. vm_compute. reflexivity.
Qed.
Print Assumptions C12_safety_refuted.

(** The terminator of the copied text is written behind the local array. *)
Theorem C12_terminator_out_of_bounds :
  forall disk from to, small from -> small to -> calc_diff 0 disk from to = Ub OutOfBounds.
Proof.
  intros disk from to S1 S2. rewrite calc_small by auto. unfold diff_mem, prepare, aset, inb, anew.
  cbn [asize]. rewrite Z.add_0_r, Z.ltb_irrefl, andb_false_r. reflexivity.
Qed.
Print Assumptions C12_terminator_out_of_bounds.

(** ** C13: different lines may be confused. *)
Theorem C13_distinct_lines_refuted :
  exists from to lf lt, small from /\ small to /\ has_lines from lf /\ has_lines to lt /\
    lf <> lt /\ length lf = 3%nat /\ calc_diff 1 no_disk from to = Ok (0, 0).
Proof.
  (* "x\nAxxb\ny" and "x\naxxa\ny" *)
  exists [120;10;65;120;120;98;10;121], [120;10;97;120;120;97;10;121],
    [[120];[65;120;120;98];[121]], [[120];[97;120;120;97];[121]].
  split; [unfold small; cbn; lia|]. split; [unfold small; cbn; lia|].
  split; [apply (has_lines_ex [120;10;65;120;120;98;10;121])|].
  split; [apply (has_lines_ex [120;10;97;120;120;97;10;121])|].
  split; [discriminate|]. split; [reflexivity|]. vm_compute. reflexivity.
Qed.
Print Assumptions C13_distinct_lines_refuted.

Theorem C13_injective_hash :
  forall slack disk from to lf lt added removed,
  1 <= slack -> small from -> small to -> has_lines from lf -> has_lines to lt ->
  (forall x y, In x (lf ++ lt) -> In y (lf ++ lt) -> hash x = hash y -> x = y) ->
  calc_diff slack disk from to = Ok (added, removed) ->
  exists L, is_lcs L lf lt /\
            added = Z.of_nat (length lt) - Z.of_nat L /\
            removed = Z.of_nat (length lf) - Z.of_nat L.
Proof.
  intros slack disk from to lf lt a r Hs S1 S2 H1 H2 Hinj E.
  destruct (C08_diff_is_minimal _ _ _ _ _ _ _ _ Hs S1 S2 H1 H2 E) as (L & HL & Ha & Hr).
  exists L. split; auto. eapply is_lcs_map_inj; eauto.
Qed.
Print Assumptions C13_injective_hash.

Theorem C13_injective_empty_diff :
  forall slack disk from to lf lt,
  1 <= slack -> small from -> small to -> has_lines from lf -> has_lines to lt ->
  (forall x y, In x (lf ++ lt) -> In y (lf ++ lt) -> hash x = hash y -> x = y) ->
  calc_diff slack disk from to = Ok (0, 0) -> lf = lt.
Proof.
  intros slack disk from to lf lt Hs S1 S2 H1 H2 Hinj E.
  destruct (C13_injective_hash _ _ _ _ _ _ _ _ Hs S1 S2 H1 H2 Hinj E) as (L & [(s & Hl & Q1 & Q2) _] & Ha & Hr).
  rewrite <- (subseq_full _ _ Q1), <- (subseq_full _ _ Q2) by lia. reflexivity.
Qed.
Print Assumptions C13_injective_empty_diff.

(** Collisions can only hide changes, never invent them. *)
Theorem C13_never_overreports :
  forall slack disk from to lf lt added removed L,
  1 <= slack -> small from -> small to -> has_lines from lf -> has_lines to lt ->
  is_lcs L lf lt ->
  calc_diff slack disk from to = Ok (added, removed) ->
  added <= Z.of_nat (length lt) - Z.of_nat L /\ removed <= Z.of_nat (length lf) - Z.of_nat L.
Proof.
  intros slack disk from to lf lt a r L Hs S1 S2 H1 H2 [(s & Hl & Q1 & Q2) _] E.
  destruct (C08_diff_is_minimal _ _ _ _ _ _ _ _ Hs S1 S2 H1 H2 E) as (L' & [_ Hm] & -> & ->).
  specialize (Hm (map hash s) (subseq_map hash _ _ Q1) (subseq_map hash _ _ Q2)).
  rewrite map_length in Hm. lia.
Qed.
Print Assumptions C13_never_overreports.

Example C13_case :
  let lf := [[97];[98];[99];[97]] in let lt := [[98];[120];[97];[98]] in
  forall x y, In x (lf ++ lt) -> In y (lf ++ lt) -> hash x = hash y -> x = y.
Proof.
  cbn. intros x y Hx Hy.
  repeat (destruct Hx as [<-|Hx]; [repeat (destruct Hy as [<-|Hy]; [vm_compute; congruence|]); contradiction|]).
  contradiction.
Qed.

(** ** C14: inserting an empty line (a newline next to a newline, at the
    beginning or at the end) changes nothing. *)
Definition line_boundary (p q : list Z) : Prop :=
  p = [] \/ (exists p', p = p' ++ [10]) \/ q = [] \/ (exists q', q = 10 :: q').

Theorem C14_empty_line_from :
  forall slack disk p q to, line_boundary p q -> small (p ++ 10 :: q) -> small to ->
  calc_diff slack disk (p ++ 10 :: q) to = calc_diff slack disk (p ++ q) to.
Proof.
  intros slack disk p q to Hb S1 S2.
  assert (S3 : small (p ++ q)) by (unfold small in *; rewrite app_length in *; cbn [length] in S1; lia).
  rewrite !calc_small by auto. unfold diff_mem.
  rewrite (prepare_lines slack (p ++ 10 :: q) (p ++ q)); auto. apply strtok_insert. auto.
Qed.
Print Assumptions C14_empty_line_from.

Theorem C14_empty_line_to :
  forall slack disk p q from, line_boundary p q -> small (p ++ 10 :: q) -> small from ->
  calc_diff slack disk from (p ++ 10 :: q) = calc_diff slack disk from (p ++ q).
Proof.
  intros slack disk p q from Hb S1 S2.
  assert (S3 : small (p ++ q)) by (unfold small in *; rewrite app_length in *; cbn [length] in S1; lia).
  rewrite !calc_small by auto. unfold diff_mem.
  rewrite (prepare_lines slack (p ++ 10 :: q) (p ++ q)); auto. apply strtok_insert. auto.
Qed.
Print Assumptions C14_empty_line_to.

Example C14_case : line_boundary [97;10] [98] /\
  calc_diff 1 no_disk ([97;10] ++ 10 :: [98]) ex_to = Ok (2, 0) /\
  (* in the middle of a line the newline does matter *)
  ~ line_boundary [97] [98] /\
  calc_diff 1 no_disk ([97] ++ 10 :: [98]) [97;98] = Ok (1, 2) /\
  calc_diff 1 no_disk ([97] ++ [98]) [97;98] = Ok (0, 0).
Proof.
  split; [right; left; exists [97]; reflexivity|]. split; [vm_compute; reflexivity|]. split.
  - intros [H|[[p' H]|[H|[q' H]]]]; try discriminate. destruct p' as [|? [|]]; discriminate.
  - vm_compute. auto.
Qed.

(** ** C43: large texts are compared by an external program whose output lines
    are counted.  The program prints one line starting with ">" per added and
    one starting with "<" per removed line. *)
Definition big (text : list Z) : Prop := 100000 < Z.of_nat (length text).

Definition lines_text (ls : list (list Z)) : list Z := flat_map (fun l => l ++ [10]) ls.

Definition starting (c : Z) (ls : list (list Z)) : Z :=
  Z.of_nat (length (filter (fun l => match l with x :: _ => x =? c | [] => false end) ls)).

Lemma starting_cons c l ls : starting c (l :: ls) =
  (match l with x :: _ => if x =? c then 1 else 0 | [] => 0 end) + starting c ls.
Proof.
  unfold starting. cbn [filter]. destruct l as [|x l]; [lia|]. destruct (x =? c); cbn [length]; lia.
Qed.

Lemma disk_read_tail l : forall room r st, ~ In 10 l -> Z.of_nat (length l) < room ->
  disk_read room false (l ++ 10 :: r) st = disk_read 9999 true r st.
Proof.
  induction l as [|c l IH]; intros room r [a d] Hn Hr; cbn [disk_read app].
  - reflexivity.
  - cbn [length] in Hr. destruct (Z.eqb_spec c 10) as [->|]; [cbn in Hn; tauto|].
    destruct (Z.eqb_spec (room - 1) 0); [lia|]. cbn [orb].
    apply IH; [cbn in Hn; tauto|lia].
Qed.

Lemma disk_read_lines ls : forall a d,
  (forall l, In l ls -> ~ In 10 l /\ Z.of_nat (length l) + 1 <= 9999) ->
  disk_read 9999 true (lines_text ls) (a, d) = (a + starting 62 ls, d + starting 60 ls).
Proof.
  induction ls as [|l ls IH]; intros a d H.
  - cbn. f_equal; unfold starting; cbn; lia.
  - destruct (H l (or_introl eq_refl)) as [Hn Hl].
    assert (H' : forall l, In l ls -> ~ In 10 l /\ Z.of_nat (length l) + 1 <= 9999) by (intros; apply H; cbn; auto).
    rewrite !starting_cons. cbn [lines_text flat_map]. fold (lines_text ls). rewrite <- app_assoc. cbn [app].
    destruct l as [|c l].
    + cbn [app disk_read]. change (10 =? 62) with false. change (10 =? 60) with false. change (10 =? 10) with true. cbn [orb]. rewrite IH by auto. f_equal; lia.
    + cbn [app disk_read]. destruct (Z.eqb_spec c 10) as [->|Hc]; [cbn in Hn; tauto|].
      cbn [length] in Hl. destruct (Z.eqb_spec (9999 - 1) 0); [lia|]. cbn [orb].
      rewrite disk_read_tail by (try lia; cbn in Hn; tauto).
      destruct (c =? 62); destruct (c =? 60); rewrite IH by auto; f_equal; lia.
Qed.

Theorem C43_disk_counts_lines :
  forall slack difftool from to ls,
  big from \/ big to -> difftool from to = lines_text ls ->
  (forall l, In l ls -> ~ In 10 l /\ Z.of_nat (length l) + 1 <= 9999) ->
  calc_diff slack difftool from to = Ok (starting 62 ls, starting 60 ls).
Proof.
  intros slack tool from to ls Hbig E H. unfold calc_diff, big in *.
  replace ((Z.of_nat (length from) >? 100000) || (Z.of_nat (length to) >? 100000)) with true.
  - unfold calc_diff_with_disk. rewrite E, disk_read_lines by auto. reflexivity.
  - symmetry. apply orb_true_iff. rewrite !Z.gtb_lt. lia.
Qed.
Print Assumptions C43_disk_counts_lines.

(** "2c2,3", "< a", "---", "> b", "> c" *)
Example C43_case :
  let ls := [[50;99;50;44;51]; [60;32;97]; [45;45;45]; [62;32;98]; [62;32;99]] in
  (forall l, In l ls -> ~ In 10 l /\ Z.of_nat (length l) + 1 <= 9999) /\
  starting 62 ls = 2 /\ starting 60 ls = 1 /\
  big (repeat 97 (Z.to_nat 100001)).
Proof.
  cbn zeta. split; [|split; [reflexivity|split; [reflexivity|]]].
  - intros l Hl. cbn in Hl. repeat (destruct Hl as [<-|Hl]; [split; [cbn; intuition discriminate|cbn; lia]|]). contradiction.
  - unfold big. rewrite repeat_length. lia.
Qed.

(** Without the length limit the claim is false: an added line of 9998 bytes
    whose last byte is ">" is counted twice. *)
Theorem C43_disk_long_line_refuted :
  exists difftool from to l,
    big from /\ difftool from to = lines_text [[49;97;50]; l] /\ ~ In 10 l /\
    starting 62 [[49;97;50]; l] = 1 /\
    calc_diff 1 difftool from to = Ok (2, 0).
Proof.
  set (l := [62; 32] ++ repeat 97 (Z.to_nat 9997) ++ [62]).
  exists (fun _ _ => lines_text [[49;97;50]; l]), (repeat 97 (Z.to_nat 100001)), [], l.
  assert (Hb : big (repeat 97 (Z.to_nat 100001))) by (unfold big; rewrite repeat_length; lia).
  split; [exact Hb|]. split; [reflexivity|]. split; [|split; [reflexivity|]].
  - unfold l. intros H. apply in_app_iff in H as [H|H]; [cbn in H; lia|].
    apply in_app_iff in H as [H|H]; [|cbn in H; lia]. apply repeat_spec in H. discriminate.
  - unfold calc_diff, big in *.
    replace ((Z.of_nat (length (repeat 97 (Z.to_nat 100001))) >? 100000) || (Z.of_nat (@length Z []) >? 100000)) with true.
    + vm_compute. reflexivity.
    + symmetry. apply orb_true_iff. left. apply Z.gtb_lt. exact Hb.
Qed.
Print Assumptions C43_disk_long_line_refuted.
