(** Properties C38, C39: the reports of the command line tool. *)
From Coq Require Import ZArith String List Bool Lia Permutation Sorting.Sorted.
From Verif Require Import Base LocModel HeapProofs LocSpec LocProofs ParsedModel ParsedSpec ParsedProofs
  FileDiffSpec FileDiffProofs PropertiesFileDiff ReportModel ReportSpec ReportProofs.
Import ListNotations.
Open Scope string_scope.
Open Scope Z_scope.
Open Scope list_scope.

(** Lexicographic order of byte strings. *)
Definition name_le (a b : loc) : Prop := String.leb (l_lang a) (l_lang b) = true.
Definition code_ge (a b : loc) : Prop := l_code b <= l_code a.

(** ** C38: sorting any list of any history *)
Lemma others_unchanged ops h ids i lst bag : run_loc_ops ([], []) ops = Ok (h, ids) ->
  nth_error ids i = Some lst -> nth_error (bags_of ops) i = Some bag ->
  exists addrs, rep h lst addrs (summary bag) /\
    forall h', frame h h' (footprint lst addrs) ->
      forall j lj, j <> i -> nth_error ids j = Some lj -> list_items h' lj = list_items h lj.
Proof.
  intros H Hi Hb. pose proof (run_loc_ops_inv ops ([], []) [] loc_inv_init) as HI. rewrite H in HI.
  destruct HI as (HL & A & HR & HD). fold (bags_of ops) in *.
  exists (A i). split; [eapply HR; eauto|]. intros h' [FL FF] j lj Hne Hj.
  assert (exists bj, nth_error (bags_of ops) j = Some bj) as [bj Hbj].
  { destruct (nth_error (bags_of ops) j) eqn:E; eauto. apply nth_error_None in E.
    assert ((j < length ids)%nat) by (apply nth_error_Some; congruence). lia. }
  pose proof (HR _ _ _ Hj Hbj) as Hr.
  rewrite (list_items_rep _ _ _ _ Hr). eapply list_items_rep. eapply rep_ext; [|exact Hr].
  intros a Ha. apply FF.
  - eapply rep_footprint_bound; eauto.
  - eapply (HD j i); eauto.
Qed.

Theorem C38_sort_by_language :
  forall ops h ids, run_loc_ops ([], []) ops = Ok (h, ids) ->
  forall i lst bag, nth_error ids i = Some lst -> nth_error (bags_of ops) i = Some bag ->
  exists h' xs, sort_loc_list_by_language h lst = Ok h' /\ list_items h' lst = Ok xs /\
    Permutation (summary bag) xs /\ StronglySorted name_le xs /\
    (forall j lj, j <> i -> nth_error ids j = Some lj -> list_items h' lj = list_items h lj).
Proof.
  intros ops h ids H i lst bag Hi Hb.
  destruct (others_unchanged ops h ids i lst bag H Hi Hb) as (addrs & Hr & Ho).
  destruct (sort_language_ok _ _ _ _ Hr) as (h' & xs & E & R & P & S & F).
  exists h', xs. split; [exact E|]. split; [eapply list_items_rep; eauto|]. split; [exact P|].
  split; [exact S|]. apply Ho. exact F.
Qed.
Print Assumptions C38_sort_by_language.

Theorem C38_sort_by_code :
  forall ops h ids, run_loc_ops ([], []) ops = Ok (h, ids) ->
  forall i lst bag, nth_error ids i = Some lst -> nth_error (bags_of ops) i = Some bag ->
  exists h' xs, sort_loc_list_by_code h lst = Ok h' /\ list_items h' lst = Ok xs /\
    Permutation (summary bag) xs /\ StronglySorted code_ge xs /\
    (forall j lj, j <> i -> nth_error ids j = Some lj -> list_items h' lj = list_items h lj).
Proof.
  intros ops h ids H i lst bag Hi Hb.
  destruct (others_unchanged ops h ids i lst bag H Hi Hb) as (addrs & Hr & Ho).
  destruct (sort_code_ok _ _ _ _ Hr) as (h' & xs & E & R & P & S & F).
  exists h', xs. split; [exact E|]. split; [eapply list_items_rep; eauto|]. split; [exact P|].
  split; [exact S|]. apply Ho. exact F.
Qed.
Print Assumptions C38_sort_by_code.

Definition sort_ops : list loc_op :=
  [LNew; LAdd 0 (mkLoc "ruby" 3 0 0 1); LAdd 0 (mkLoc "c" 7 1 0 1); LAdd 0 (mkLoc "awk" 5 0 2 1);
   LAdd 0 (mkLoc "c++" 7 0 0 2); LNew; LAdd 1 (mkLoc "z" 0 0 0 1)].

Example C38_case :
  match run_loc_ops ([], []) sort_ops with
  | Ok (h, ids) =>
    match sort_loc_list_by_language h (nth 0 ids 0%nat), sort_loc_list_by_code h (nth 0 ids 0%nat) with
    | Ok h1, Ok h2 =>
      list_items h1 (nth 0 ids 0%nat) =
        Ok [mkLoc "awk" 5 0 2 1; mkLoc "c" 7 1 0 1; mkLoc "c++" 7 0 0 2; mkLoc "ruby" 3 0 0 1] /\
      list_items h2 (nth 0 ids 0%nat) =
        Ok [mkLoc "c" 7 1 0 1; mkLoc "c++" 7 0 0 2; mkLoc "awk" 5 0 2 1; mkLoc "ruby" 3 0 0 1] /\
      list_items h2 (nth 1 ids 0%nat) = Ok [mkLoc "z" 0 0 0 1]
    | _, _ => False
    end
  | _ => False
  end.
Proof. vm_compute. auto. Qed.

(** ** C39: the summary *)

(** [ls] is what parsing the files produces (see C16). *)
Definition parsed (files : list revision) (ls : list (list plang)) : Prop :=
  Forall2 (fun f l => run_callbacks (r_text f) [] (r_events f) = Ok l) files ls.

Lemma parsed_mapM files ls : parsed files ls ->
  mapM (fun f => run_callbacks (r_text f) [] (r_events f)) files = Ok ls.
Proof.
  induction 1 as [|f l files ls E _ IH]; [reflexivity|]. cbn [mapM]. rewrite E. cbn [bind].
  rewrite IH. reflexivity.
Qed.

Lemma parsed_length files ls : parsed files ls -> length ls = length files.
Proof. induction 1; cbn; auto. Qed.

Lemma perm_over f a b : Permutation a b -> over f a = over f b.
Proof. intros H. apply zsum_perm. apply Permutation_map. auto. Qed.

Theorem C39_summary_report :
  forall files ls, Forall good_revision files -> parsed files ls ->
  Z.of_nat (length files) <= int_max -> events_total files <= int_max ->
  exists r, summary_report ls = Ok r /\
    r_count r = Z.of_nat (length files) /\
    (* one row per language, with its lines in all files and the number of files
       that contain it, by decreasing number of code lines *)
    Permutation (map (fun g => with_lines (entry files g)) (languages_all files)) (r_rows r) /\
    StronglySorted code_ge (map fst (r_rows r)) /\
    (* and the totals *)
    r_total r = mkLoc "Total" (over l_code (map (entry files) (languages_all files)))
                      (over l_comments (map (entry files) (languages_all files)))
                      (over l_blanks (map (entry files) (languages_all files)))
                      (over l_files (map (entry files) (languages_all files))) /\
    r_lines r = l_code (r_total r) + l_comments (r_total r) + l_blanks (r_total r).
Proof.
  intros files ls HG HP Hn Ht.
  destruct (files_parsed files HG) as (ls' & E & A1 & A2 & A3 & A4 & A5).
  pose proof (parsed_mapM _ _ HP) as E2. rewrite E in E2. injection E2 as ->.
  assert (HLen : length ls = length files) by (apply parsed_length; exact HP).
  set (bag := concat (map (map loc_of) ls)) in *.
  assert (Hfit : bag_fits bag) by (split; lia).
  assert (Hnn : Forall loc_nonneg bag).
  { unfold bag. apply Forall_concat, Forall_map. eapply Forall_impl; [|exact A3]. intros f Hf. apply Forall_map. auto. }
  destruct (analyze_ok ls A3 Hfit) as (h & lst & addrs & EA & Hr). fold bag in Hr.
  assert (HS : summary bag = map (entry files) (languages_all files)).
  { unfold bag. rewrite A1. apply summary_files. }
  pose proof (nonneg_summary bag Hnn) as Hns.
  pose proof (bag_fits_summary [] bag Hfit) as Hfs. cbn in Hfs. destruct Hfs as [Hfs1 Hfs2].
  rewrite HS in *. set (es := map (entry files) (languages_all files)) in *.
  destruct (sort_code_ok _ _ _ _ Hr) as (h' & xs & ES & R & P & S & F).
  unfold summary_report. rewrite count_files_ok by lia. cbn [bind]. rewrite EA. cbn [bind]. rewrite ES. cbn [bind].
  rewrite (list_items_rep _ _ _ _ R). cbn [bind].
  assert (Hnx : Forall loc_nonneg xs) by (eapply Permutation_Forall; eauto).
  assert (Hsx : forall f, zsum (map f xs) = over f es).
  { intros f. symmetry. apply perm_over. auto. }
  assert (Hlx : zsum (map lines xs) <= int_max) by (rewrite Hsx; auto).
  assert (Hge : forall f x, (f = l_code \/ f = l_comments \/ f = l_blanks \/ f = l_files) -> In x xs -> 0 <= f x).
  { intros f x Hf Hx. rewrite Forall_forall in Hnx. specialize (Hnx x Hx). unfold loc_nonneg in Hnx.
    destruct Hf as [->|[->|[->| ->]]]; lia. }
  assert (Hnz : forall f, (f = l_code \/ f = l_comments \/ f = l_blanks \/ f = l_files) -> 0 <= zsum (map f xs)).
  { intros f Hf. apply zsum_nonneg. intros z Hz. apply in_map_iff in Hz as (x & <- & Hx). apply Hge; auto. }
  assert (Hsplit : zsum (map lines xs) = zsum (map l_code xs) + zsum (map l_comments xs) + zsum (map l_blanks xs)).
  { clear. induction xs as [|x xs IH]; [reflexivity|]. cbn [map].
    change (zsum (lines x :: map lines xs)) with (lines x + zsum (map lines xs)).
    change (zsum (l_code x :: map l_code xs)) with (l_code x + zsum (map l_code xs)).
    change (zsum (l_comments x :: map l_comments xs)) with (l_comments x + zsum (map l_comments xs)).
    change (zsum (l_blanks x :: map l_blanks xs)) with (l_blanks x + zsum (map l_blanks xs)).
    unfold lines at 1. lia. }
  pose proof (Hnz l_code) as N1. pose proof (Hnz l_comments) as N2. pose proof (Hnz l_blanks) as N3.
  specialize (N1 ltac:(auto)). specialize (N2 ltac:(auto)). specialize (N3 ltac:(auto)).
  assert (Hrows : Forall (fun l => lines l <= int_max) xs).
  { apply Forall_forall. intros x Hx. etransitivity; [|exact Hlx].
    clear -Hx Hnx. induction xs as [|y xs IH]; [contradiction|]. inversion Hnx as [|? ? Hy Hn]; subst. cbn [map].
    change (zsum (lines y :: map lines xs)) with (lines y + zsum (map lines xs)).
    assert (0 <= zsum (map lines xs)).
    { apply zsum_nonneg. intros z Hz. apply in_map_iff in Hz as (x' & <- & Hx'). rewrite Forall_forall in Hn.
      specialize (Hn x' Hx'). unfold loc_nonneg, lines in *. lia. }
    destruct Hx as [->|Hx]; [lia|]. specialize (IH Hn Hx). unfold loc_nonneg, lines in *. lia. }
  rewrite rows_ok by auto. cbn [bind].
  unfold loc_list_code, loc_list_comments, loc_list_blanks, loc_list_filecount.
  rewrite (sum_field_ok l_code _ _ _ _ R) by (auto; lia). cbn [bind].
  rewrite (sum_field_ok l_comments _ _ _ _ R) by (auto; lia). cbn [bind].
  rewrite (sum_field_ok l_blanks _ _ _ _ R) by (auto; lia). cbn [bind].
  rewrite (sum_field_ok l_files _ _ _ _ R) by (auto; rewrite Hsx; auto). cbn [bind].
  rewrite ckint_ok by (unfold int_min; lia). cbn [bind].
  rewrite ckint_ok by (unfold int_min; lia). cbn [bind].
  rewrite ckint_ok by (unfold int_min; lia). cbn [bind].
  eexists. split; [reflexivity|]. cbn [r_count r_rows r_total r_lines l_code l_comments l_blanks].
  split; [lia|]. split; [|split; [|split]].
  - unfold es in P. rewrite <- (map_map (entry files) with_lines). apply Permutation_map. auto.
  - rewrite map_map. cbn. rewrite map_id. auto.
  - rewrite !Hsx. auto.
  - auto.
Qed.
Print Assumptions C39_summary_report.

(** The individual report: for every file one row per language, sorted by name;
    summing the rows of a language over the files gives its row of the summary. *)
Theorem C39_individual_report :
  forall files ls, Forall good_revision files -> parsed files ls ->
  Z.of_nat (length files) <= int_max ->
  exists rs, individual_report ls = Ok (Z.of_nat (length files), rs) /\
    Forall2 (fun f r =>
      Permutation (map (fun g => with_lines (entry [f] g)) (languages_all [f])) r /\
      StronglySorted name_le (map fst r)) files rs.
Proof.
  intros files ls HG HP Hn. unfold individual_report.
  assert (HLen : length ls = length files) by (apply parsed_length; exact HP).
  rewrite count_files_ok by lia. cbn [bind]. rewrite HLen. clear HLen Hn.
  induction HP as [|f l files ls E HP IH]; [exists []; cbn; auto|].
  inversion HG as [|? ? Hf HG']; subst. destruct (IH HG') as (rs & ER & HF).
  destruct (individual_files ls) as [rs0|w|] eqn:E0; cbn [bind] in ER; try discriminate. injection ER as <-. clear IH.
  destruct (file_parsed f Hf) as (l' & E' & A1 & A2 & A3 & A4 & A5).
  rewrite E in E'. injection E' as <-.
  assert (Hev : Z.of_nat (length (r_events f)) <= int_max) by apply Hf.
  assert (exists r, individual_rows l = Ok r /\
     Permutation (map (fun g => with_lines (entry [f] g)) (languages_all [f])) r /\ StronglySorted name_le (map fst r)) as (r & Er & Hr).
  { assert (Hnn : Forall loc_nonneg (map loc_of l)) by (apply Forall_map; auto).
    assert (Hfit : bag_fits (map loc_of l)).
    { split; [lia|]. rewrite map_map. cbn.
      assert (zsum (map (fun _ : plang => 1) l) = Z.of_nat (length l)); [|lia].
      clear. induction l as [|x l IH]; auto. cbn [map length]. unfold zsum in *. cbn [fold_right]. lia. }
    assert (exists h lst addrs, get_loc_list l = Ok (h, lst) /\ rep h lst addrs (map loc_of l)) as (h & lst & addrs & EG & Hrep).
    { set (ops := LNew :: map (LAdd 0) (map loc_of l)).
      assert (Hb : bags_of ops = [map loc_of l]).
      { unfold bags_of, ops. cbn [fold_left bag_op app]. apply bags_adds. }
      destruct (loc_no_overflow_lemma ops) as [st Est].
      - constructor; [exact I|]. rewrite map_map. apply Forall_map. auto.
      - rewrite Hb. constructor; auto.
      - destruct st as [h ids]. destruct (loc_history_lemma _ _ _ Est) as [Hl Hr]. rewrite Hb in Hl, Hr.
        unfold ops in Est. cbn [run_loc_ops run_loc_op] in Est. unfold get_loc_list.
        destruct (node_new []) as [h0 a0] eqn:En. cbn [app bind] in Est.
        rewrite map_map in Est. unfold loc_of in Est at 1. rewrite run_adds in Est.
        destruct (add_locs h0 a0 l) as [h1|w|] eqn:E1; cbn [bind] in *; try discriminate.
        injection Est as <- <-. destruct (Hr 0%nat a0 (map loc_of l)) as [addrs Hrep]; auto.
        exists h1, a0, addrs. split; auto. rewrite summary_distinct in Hrep; auto.
        rewrite map_map. auto. }
    unfold individual_rows. rewrite EG. cbn [bind].
    destruct (sort_language_ok _ _ _ _ Hrep) as (h' & xs & ES & R & P & S & F). rewrite ES. cbn [bind].
    rewrite (list_items_rep _ _ _ _ R). cbn [bind].
    assert (Hnx : Forall loc_nonneg xs) by (eapply Permutation_Forall; eauto).
    rewrite rows_ok; auto.
    - eexists. split; [reflexivity|]. split.
      + assert (HS : map (entry [f]) (languages_all [f]) = map loc_of l).
        { rewrite <- summary_files. cbn [map concat]. rewrite app_nil_r, <- A1. apply summary_distinct.
          rewrite map_map. auto. }
        rewrite <- (map_map (entry [f]) with_lines). apply Permutation_map. rewrite HS. auto.
      + rewrite map_map. cbn. rewrite map_id. auto.
    - apply Forall_forall. intros x Hx. transitivity (zsum (map lines (map loc_of l))); [|lia].
      assert (Hx' : In x (map loc_of l)) by (eapply Permutation_in; [symmetry; exact P|auto]).
      clear -Hx' Hnn. induction (map loc_of l) as [|y ys IH]; [contradiction|]. inversion Hnn as [|? ? Hy Hn]; subst. cbn [map].
      change (zsum (lines y :: map lines ys)) with (lines y + zsum (map lines ys)).
      assert (0 <= zsum (map lines ys)).
      { apply zsum_nonneg. intros z Hz. apply in_map_iff in Hz as (x' & <- & Hx''). rewrite Forall_forall in Hn.
        specialize (Hn x' Hx''). unfold loc_nonneg, lines in *. lia. }
      destruct Hx' as [->|Hx']; [lia|]. specialize (IH Hn Hx'). unfold loc_nonneg, lines in *. lia. }
  exists (r :: rs0). cbn [individual_files]. rewrite Er. cbn [bind]. rewrite E0. cbn [bind length].
  split; [|constructor; auto]. auto.
Qed.
Print Assumptions C39_individual_report.

Theorem C39_summary_is_sum :
  forall files g,
    entry files g =
    mkLoc g (zsum (map (fun f => l_code (entry [f] g)) files))
            (zsum (map (fun f => l_comments (entry [f] g)) files))
            (zsum (map (fun f => l_blanks (entry [f] g)) files))
            (zsum (map (fun f => l_files (entry [f] g)) files)) /\
    (forall f, l_files (entry [f] g) = 1 <-> In g (languages f)) /\
    (forall f, In g (languages_all [f]) <-> In g (languages f)).
Proof.
  intros files g. split; [|split].
  - unfold entry, lines_all. cbn [l_code l_comments l_blanks l_files map]. f_equal.
    + f_equal. apply map_ext. intros f. cbn. lia.
    + f_equal. apply map_ext. intros f. cbn. lia.
    + f_equal. apply map_ext. intros f. cbn. lia.
    + unfold files_with. induction files as [|f files IH]; [reflexivity|]. cbn [filter map] in *.
      change (zsum (?a :: ?b)) with (a + zsum b). destruct (existsb _ _); cbn [length]; lia.
  - intros f. cbn. unfold files_with. cbn [filter].
    destruct (existsb (String.eqb g) (languages f)) eqn:E; cbn [length].
    + split; auto. intros _. apply existsb_exists in E as (x & Hx & Ex). apply String.eqb_eq in Ex. subst. auto.
    + split; [discriminate|]. intros H. rewrite <- not_true_iff_false in E. exfalso. apply E.
      apply existsb_exists. exists g. split; auto. apply String.eqb_refl.
  - intros f. unfold languages_all. rewrite in_first_occ. cbn. rewrite app_nil_r. tauto.
Qed.
Print Assumptions C39_summary_is_sum.

Example C39_case : exists l1 l2,
  Forall good_revision [ex_r1; ex_r2] /\ parsed [ex_r1; ex_r2] [l1; l2] /\
  events_total [ex_r1; ex_r2] <= int_max /\
  summary_report [l1; l2] =
    Ok (mkReport 2 [(mkLoc "c" 3 0 1 2, 4); (mkLoc "java" 1 0 0 1, 1); (mkLoc "ruby" 0 1 0 1, 1)]
                 (mkLoc "Total" 4 1 1 4) 6) /\
  individual_report [l1; l2] =
    Ok (2, [[(mkLoc "c" 2 0 0 1, 2); (mkLoc "ruby" 0 1 0 1, 1)];
            [(mkLoc "c" 1 0 1 1, 2); (mkLoc "java" 1 0 0 1, 1)]]).
Proof.
  destruct C41_case as (G1 & G2 & _).
  destruct (parse_ok ex_r1 G1) as (l1 & E1 & _). destruct (parse_ok ex_r2 G2) as (l2 & E2 & _).
  exists l1, l2. split; [auto|]. split; [constructor; auto; constructor; auto; constructor|].
  vm_compute in E1. vm_compute in E2. injection E1 as <-. injection E2 as <-.
  split; [vm_compute; discriminate|]. vm_compute. auto.
Qed.
