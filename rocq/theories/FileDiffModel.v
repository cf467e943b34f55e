(** Diff of two revisions of a file (sourcefile.c). *)
From Coq Require Import ZArith String List Bool.
From Verif Require Import Base Arr LocModel DiffModel ParsedModel.
Import ListNotations.
Open Scope Z_scope.

(** sourcefile.c:304-311, 313-320: the entry of a language, else the empty one. *)
Definition find_pl (l : list plang) (language : string) (blank : plang) : plang :=
  match find (fun pl => String.eqb language (p_name pl)) l with
  | Some pl => pl
  | None => blank
  end.

(** sourcefile.c:294-332 [ohcount_sourcefile_calc_loc_delta].  A file is given by
    its parse result.  [slack] and [difftool] are those of [calc_diff]. *)
Definition calc_loc_delta (slack : Z) (difftool : list Z -> list Z -> list Z)
           (from_file : list plang) (language : string) (to_file : list plang) : res delta :=
  blank <- plang_new language 0 ;;
  let from := find_pl from_file language blank in
  let to := find_pl to_file language blank in
  fc <- area_string (p_code from) ;;
  tc <- area_string (p_code to) ;;
  '(ca, cr) <- calc_diff slack difftool fc tc ;;
  fm <- area_string (p_comments from) ;;
  tm <- area_string (p_comments to) ;;
  '(ma, mr) <- calc_diff slack difftool fm tm ;;
  if p_blanks from >? p_blanks to then
    r <- ckint (p_blanks from - p_blanks to) ;;
    Ok (mkDelta language ca cr ma mr 0 r)
  else
    a <- ckint (p_blanks to - p_blanks from) ;;
    Ok (mkDelta language ca cr ma mr a 0).

(** sourcefile.c:266-275: first loop of [ohcount_sourcefile_diff] *)
Fixpoint diff_from (slack : Z) (difftool : list Z -> list Z -> list Z) (from to : list plang)
         (h : heap delta) (lst : nat) (iter : list plang) : res (heap delta) :=
  match iter with
  | [] => Ok h
  | pl :: r =>
    d <- calc_loc_delta slack difftool from (p_name pl) to ;;
    h <- delta_list_add_delta h lst d ;;
    diff_from slack difftool from to h lst r
  end.

(** sourcefile.c:276-286: second loop *)
Fixpoint diff_to (slack : Z) (difftool : list Z -> list Z -> list Z) (from to : list plang)
         (h : heap delta) (lst : nat) (iter : list plang) : res (heap delta) :=
  match iter with
  | [] => Ok h
  | pl :: r =>
    o <- delta_list_get_delta h lst (p_name pl) ;;
    h <- match o with
         | Some _ => Ok h
         | None =>
           d <- calc_loc_delta slack difftool from (p_name pl) to ;;
           delta_list_add_delta h lst d
         end ;;
    diff_to slack difftool from to h lst r
  end.

(** sourcefile.c:255-289 [ohcount_sourcefile_diff] (without the logging) *)
Definition sourcefile_diff (slack : Z) (difftool : list Z -> list Z -> list Z) (from to : list plang)
  : res (heap delta * nat) :=
  let '(h, lst) := node_new [] in
  h <- diff_from slack difftool from to h lst from ;;
  h <- diff_to slack difftool from to h lst to ;;
  Ok (h, lst).
