(** The characters that the command line tool prints: the calls of printf in
    /repo/src/ohcount.c:12-250, 279, for the items of [ToolModel].

    Simplifications: numbers are not negative (they are counts) where a percentage is
    computed; [float] arithmetic is that of IEEE 754 binary32, each operation rounded
    to nearest even (FLT_EVAL_METHOD 0, as on x86-64), and printf rounds the exact
    value to nearest even, as glibc does; standard output does not fail. *)
From Coq Require Import ZArith String List Bool.
From Verif Require Import Base LocModel ReportModel ToolModel.
Import ListNotations.
Open Scope string_scope.
Open Scope Z_scope.
Open Scope list_scope.

(** ** Numbers *)

(** %d and %i: the digits in front of [acc]. *)
Fixpoint digits (fuel : nat) (n : Z) (acc : list Z) : list Z :=
  match fuel with
  | O => acc
  | S k =>
    let acc := (48 + n mod 10) :: acc in
    if n <? 10 then acc else digits k (n / 10) acc
  end.
Definition decimal (n : Z) : list Z :=
  if n <? 0 then 45 :: digits (S (Z.to_nat (Z.log2 (- n)))) (- n) []
  else digits (S (Z.to_nat (Z.log2 n))) n [].

(** A minimal width: padded on the left, or on the right with the flag -. *)
Definition spaces (n : nat) : list Z := repeat 32 n.
Definition pad_left (w : nat) (s : list Z) : list Z := spaces (w - length s) ++ s.
Definition pad_right (w : nat) (s : list Z) : list Z := s ++ spaces (w - length s).

(** ** Percentages *)

(** [n / d] to the nearest integer, halves to even. *)
Definition nearest (n d : Z) : Z :=
  let q := n / d in
  let r := n mod d in
  if 2 * r <? d then q else if d <? 2 * r then q + 1 else if Z.even q then q else q + 1.

(** A float is a fraction whose denominator is a power of two.  [n / d] rounded to
    24 significant binary digits; [e] is the weight of the last of them. *)
Definition float : Type := Z * Z.
Definition to_float (n d : Z) : float :=
  if n =? 0 then (0, 1) else
  let k := Z.log2 n - Z.log2 d in
  let e := if (if 0 <=? k then d * 2 ^ k <=? n else d <=? n * 2 ^ (- k)) then k - 23 else k - 24 in
  if 0 <=? e then (nearest n (d * 2 ^ e) * 2 ^ e, 1) else (nearest (n * 2 ^ (- e)) d, 2 ^ (- e)).

(** (float)a / (a + b) * 100, ohcount.c:168-170, 225-227, 244: conversion of both ints,
    division, multiplication. *)
Definition percent (a b : Z) : float :=
  let '(n, d) := to_float a 1 in
  let '(m, c) := to_float (a + b) 1 in
  let '(n, d) := to_float (n * c) (d * m) in
  to_float (n * 100) d.

(** " %9.1f%%" *)
Definition print_percent (a b : Z) : list Z :=
  let '(n, d) := percent a b in
  let t := nearest (10 * n) d in
  [32] ++ pad_left 9 (decimal (t / 10) ++ [46] ++ decimal (t mod 10)) ++ [37].

(** ** Tables *)

Definition ln (s : string) : list Z := bytes s ++ [10].

(** ohcount.c:164-175, 220-233, 239-248 *)
Definition print_counts (zero : string) (l : loc) (total : Z) : list Z :=
  [32] ++ pad_left 10 (decimal (l_code l)) ++
  [32] ++ pad_left 10 (decimal (l_comments l)) ++
  (if 0 <? l_comments l + l_code l then print_percent (l_comments l) (l_code l) else bytes zero) ++
  [32] ++ pad_left 10 (decimal (l_blanks l)) ++
  [32] ++ pad_left 10 (decimal total).

Definition summary_row (r : loc * Z) : list Z :=
  pad_right 16 (bytes (l_lang (fst r))) ++ [32] ++ pad_left 6 (decimal (l_files (fst r))) ++
  print_counts "       0.0%" (fst r) (snd r) ++ [10].

Definition individual_row (path : list Z) (r : loc * Z) : list Z :=
  pad_right 16 (bytes (l_lang (fst r))) ++ print_counts "           " (fst r) (snd r) ++
  [32; 32] ++ path ++ [10].

Definition rule : string := "----------------  -----  ---------  ---------  ---------  ---------  ---------".

(** ohcount.c:209-249 *)
Definition print_summary (r : report) : list Z :=
  bytes "Examining " ++ decimal (r_count r) ++ ln " file(s)" ++
  [10] ++
  ln "                          Ohloh Line Count Summary                          " ++
  [10] ++
  ln "Language          Files       Code    Comment  Comment %      Blank      Total" ++
  ln rule ++
  flat_map summary_row (r_rows r) ++
  ln rule ++
  summary_row (r_total r, r_lines r).

(** ohcount.c:152-180 *)
Definition print_individual (n : Z) (rows : list (list Z * list (loc * Z))) : list Z :=
  bytes "Examining " ++ decimal n ++ ln " file(s)" ++
  ln "                              Ohloh Line Count                              " ++
  ln "Language               Code    Comment  Comment %      Blank      Total  File" ++
  ln "----------------  ---------  ---------  ---------  ---------  ---------  -----------------------------------------------" ++
  flat_map (fun f => flat_map (individual_row (fst f)) (snd f)) rows.

(** ohcount.c:69-123 *)
Definition help_text : list string := [
    "Usage: ohcount [option] [paths...]";
    "";
    "Ohloh source code line counter command line tool.";
    "   http://www.ohloh.net/";
    "";
    "[option] can be one of the following:";
    "   -a, --annotate";
    "   -d, --detect";
    "   -h, --help";
    "   -i, --individual";
    "   -l, --license";
    "   -re";
    "   -s, --summary";
    "";
    "-a, --annotate                  Show annotated source code";
    "";
    "   The contents of all source code files found within the given";
    "   paths will be emitted to stdout. Each line will be prefixed with";
    "   a tab-delimited language name and semantic categorization (code,";
    "   comment, or blank).";
    "";
    "-d, --detect                    Find source code files";
    "";
    "   Recursively find all source code files within the given paths.";
    "   For each source code file found, the file name will be emitted to";
    "   stdout prefixed with a tab-delimited language name.";
    "";
    "-h, --help                      Display this message";
    "";
    "-i, --individual                Count lines of code per file";
    "";
    "   Count lines in all source code files within the given paths, and";
    "   emit a report of the lines of code, comments, and blanks in each";
    "   language per file.";
    "";
    "-l, --license";
    "";
    "   Displays detected licensing information contained in each source";
    "   code file.";
    "";
    "-re";
    "";
    "   Prints raw entity information to the screen (mainly for debugging).";
    "";
    "-s, --summary                   Count lines of code (default)";
    "";
    "   Count lines in all source code files within the given paths, and";
    "   emit a report of the total number of lines of code, comments,";
    "   and blanks in each language. This is the default action.";
    "";
    "[paths] can refer to any number of individual files or directories.";
    "   Directories will be probed recursively. If no path is given,";
    "   the current directory will be used."].

(** ** Items *)

(** ohcount.c:19, 34-35, 45-46, 55, 279 *)
Definition print (o : output) : list Z :=
  match o with
  | BadArgument a => bytes "Bad argument: " ++ a ++ [10]
  | Annotated language entity text => bytes language ++ [9] ++ bytes entity ++ [9] ++ text
  | Detected language path => bytes language ++ [9] ++ path ++ [10]
  | HelpText => flat_map ln help_text
  | IndividualReport n rows => print_individual n rows
  | License name more filename => bytes name ++ (if more then [44] else []) ++ [32] ++ filename ++ [10]
  | Entity language entity s e =>
    bytes language ++ [9] ++ bytes entity ++ [9] ++ decimal s ++ [9] ++ decimal e ++ [10]
  | SummaryReport r => print_summary r
  end.

(** Everything that is printed. *)
Definition print_all (os : list output) : list Z := flat_map print os.
