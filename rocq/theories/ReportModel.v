(** Model of the reports of the command line tool: the two sort routines and the
    reports of /repo/src/ohcount.c:126-250, and
    [ohcount_sourcefile_list_analyze_languages] (/repo/src/sourcefile.c:400-409).

    Simplifications: a file is given by the list of languages its parse has
    produced ([list plang], see ParsedModel), the LOC list of a file is computed
    when it is needed (as sourcefile.c:236-253 does at the first call; the cache of
    sourcefile.c:237 is modelled in SourceFileModel); what is printed is modelled
    as the sequence of numbers and names, without the column layout and without
    the comment percentage (only the integer sum tested before it is computed). *)
From Coq Require Import ZArith String Ascii List Bool.
From Verif Require Import Base LocModel ParsedModel.
Import ListNotations.
Open Scope Z_scope.

(** [strcmp]: the sign of the result is what C guarantees; bytes are compared as
    unsigned.  Used in ohcount.c:132. *)
Fixpoint strcmp (a b : string) : Z :=
  match a, b with
  | EmptyString, EmptyString => 0
  | EmptyString, String _ _ => -1
  | String _ _, EmptyString => 1
  | String x a', String y b' =>
    if Ascii.eqb x y then strcmp a' b' else byte_of_ascii x - byte_of_ascii y
  end.

(** The inner loop of both sort routines (ohcount.c:131-135, 188-192): [m] is the
    best entry so far. *)
Fixpoint best_loop (fuel : nat) (better : loc -> loc -> bool) (h : heap loc)
         (m : nat) (iter2 : option nat) : res nat :=
  match iter2 with
  | None => Ok m
  | Some a2 =>
    match fuel with
    | O => OutOfFuel
    | S k =>
      n2 <- deref h iter2 ;;
      v2 <- val_of n2 ;;
      nm <- deref h (Some m) ;;
      vm <- val_of nm ;;
      best_loop k better h (if better v2 vm then a2 else m) (n_next n2)
    end
  end.

(** The outer loop (ohcount.c:128-142, 185-199); the [loc] pointers are swapped. *)
Fixpoint sort_loop (fuel : nat) (better : loc -> loc -> bool) (h : heap loc)
         (iter : option nat) : res (heap loc) :=
  match iter with
  | None => Ok h
  | Some a =>
    match fuel with
    | O => OutOfFuel
    | S k =>
      n <- deref h iter ;;
      m <- best_loop (S (length h)) better h a (n_next n) ;;
      h <- (if Nat.eqb a m then Ok h else
              va <- val_of n ;;
              nm <- deref h (Some m) ;;
              vm <- val_of nm ;;
              h <- set_val h (Some a) vm ;;
              set_val h (Some m) va) ;;
      n' <- deref h iter ;;
      sort_loop k better h (n_next n')
    end
  end.

Definition sort_by (better : loc -> loc -> bool) (h : heap loc) (lst : nat)
  : res (heap loc) :=
  n <- deref h (Some lst) ;;
  sort_loop (S (length h)) better h (n_head n).

(** ohcount.c:126-143 [sort_loc_list_by_language] *)
Definition sort_loc_list_by_language : heap loc -> nat -> res (heap loc) :=
  sort_by (fun l2 m => strcmp (l_lang l2) (l_lang m) <? 0).

(** ohcount.c:183-200 [sort_loc_list_by_code] *)
Definition sort_loc_list_by_code : heap loc -> nat -> res (heap loc) :=
  sort_by (fun l2 m => l_code m <? l_code l2).

(** sourcefile.c:400-409 [ohcount_sourcefile_list_analyze_languages], the loop; the
    LOC list of each file as in sourcefile.c:236-253. *)
Fixpoint analyze_loop (h : heap loc) (total : nat) (files : list (list plang))
  : res (heap loc) :=
  match files with
  | [] => Ok h
  | f :: r =>
    let '(h, lst) := node_new h in
    h <- add_locs h lst f ;;
    h <- loc_list_add_loc_list (S (length h)) h total lst ;;
    analyze_loop h total r
  end.

Definition analyze_languages (files : list (list plang)) : res (heap loc * nat) :=
  let '(h, total) := node_new [] in
  h <- analyze_loop h total files ;;
  Ok (h, total).

(** ohcount.c:203-208, 146-151: the number of files. *)
Fixpoint count_files {A} (count : Z) (files : list A) : res Z :=
  match files with
  | [] => Ok count
  | _ :: r => count <- ckint (count + 1) ;; count_files count r
  end.

(** One printed row (ohcount.c:220-232, 164-176): the entry and its total. *)
Definition row (l : loc) : res (loc * Z) :=
  _ <- ckint (l_comments l + l_code l) ;;
  t <- loc_total l ;;
  Ok (l, t).

Fixpoint rows (ls : list loc) : res (list (loc * Z)) :=
  match ls with
  | [] => Ok []
  | l :: r => x <- row l ;; xs <- rows r ;; Ok (x :: xs)
  end.

Record report := mkReport {
  r_count : Z;                (* Examining %i file(s) *)
  r_rows : list (loc * Z);
  r_total : loc;              (* the line Total; named so, ohcount.c:239 *)
  r_lines : Z
}.

(** ohcount.c:202-250 [summary] *)
Definition summary_report (files : list (list plang)) : res report :=
  count <- count_files 0 files ;;
  '(h, lst) <- analyze_languages files ;;
  h <- sort_loc_list_by_code h lst ;;
  ls <- list_items h lst ;;
  rs <- rows ls ;;
  code <- loc_list_code h lst ;;
  comments <- loc_list_comments h lst ;;
  blanks <- loc_list_blanks h lst ;;
  filecount <- loc_list_filecount h lst ;;
  _ <- ckint (comments + code) ;;
  s <- ckint (code + comments) ;;
  t <- ckint (s + blanks) ;;
  Ok (mkReport count rs (mkLoc "Total" code comments blanks filecount) t).

(** ohcount.c:145-181 [individual]: the rows of one file. *)
Definition individual_rows (f : list plang) : res (list (loc * Z)) :=
  '(h, lst) <- get_loc_list f ;;
  h <- sort_loc_list_by_language h lst ;;
  ls <- list_items h lst ;;
  rows ls.

Fixpoint individual_files (files : list (list plang)) : res (list (list (loc * Z))) :=
  match files with
  | [] => Ok []
  | f :: r => x <- individual_rows f ;; xs <- individual_files r ;; Ok (x :: xs)
  end.

Definition individual_report (files : list (list plang))
  : res (Z * list (list (loc * Z))) :=
  count <- count_files 0 files ;;
  rs <- individual_files files ;;
  Ok (count, rs).
