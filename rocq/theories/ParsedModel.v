(** parsed_language.c and the parse callback of sourcefile.c. *)
From Coq Require Import ZArith String List Bool.
From Verif Require Import Base Arr LocModel.
Import ListNotations.
Open Scope Z_scope.

(** A file in memory: [size] bytes followed by a NUL (sourcefile.c:75-79,
    91-98).  Reading at [contents + i]. *)
Definition src (text : list Z) (i : Z) : res Z :=
  if i <? 0 then Ub OutOfBounds
  else match nth_error text (Z.to_nat i) with
       | Some c => Ok c
       | None => if i =? Z.of_nat (length text) then Ok 0 else Ub OutOfBounds
       end.

(** One of the two line buffers of a ParsedLanguage (structs.h:
    code/code_p/code_count and comments/comments_p/comments_count).  The cursor
    is an offset instead of a pointer. *)
Record area := mkArea { a_buf : arr; a_cur : Z; a_cnt : Z }.

Record plang := mkPlang {
  p_name : string;
  p_size : Z;
  p_code : area;
  p_comments : area;
  p_blanks : Z }.

(** parsed_language.c:14-16: malloc(buffer_size + 5) and an empty string. *)
Definition area_new (size : Z) : res area :=
  n <- ckint (size + 5) ;;
  b <- aset (anew n) 0 0 ;;
  Ok (mkArea b 0 0).

(** parsed_language.c:9-24 [ohcount_parsed_language_new] *)
Definition plang_new (name : string) (size : Z) : res plang :=
  c <- area_new size ;;
  d <- area_new size ;;
  Ok (mkPlang name size c d 0).

(** strncpy(dst + d, contents + s, n) of the C library: after a NUL in the
    source the rest is filled with NULs. *)
Fixpoint strncpy (n : nat) (dst : arr) (d : Z) (text : list Z) (s : Z) (ended : bool) : res arr :=
  match n with
  | O => Ok dst
  | S k =>
    if ended then
      dst <- aset dst d 0 ;; strncpy k dst (d + 1) text s true
    else
      c <- src text s ;;
      dst <- aset dst d c ;;
      strncpy k dst (d + 1) text (s + 1) (c =? 0)
  end.

(** parsed_language.c:26-35, 37-46: the two functions are copies of each other,
    [a] is the buffer they work on.  [p] is an offset into the file.  A negative
    length passes the test and becomes a huge unsigned count. *)
Definition area_add (size : Z) (a : area) (text : list Z) (p len : Z) : res area :=
  if a_cur a + len <? size + 5 then
    if len <? 0 then Ub NegLength else
    b <- strncpy (Z.to_nat len) (a_buf a) (a_cur a) text p false ;;
    let cur := a_cur a + len in
    b <- aset b cur 0 ;;
    cnt <- ckint (a_cnt a + 1) ;;
    Ok (mkArea b cur cnt)
  else Ok a.

(** parsed_language.c:26-35 [ohcount_parsed_language_add_code] *)
Definition add_code (pl : plang) (text : list Z) (p len : Z) : res plang :=
  a <- area_add (p_size pl) (p_code pl) text p len ;;
  Ok (mkPlang (p_name pl) (p_size pl) a (p_comments pl) (p_blanks pl)).

(** parsed_language.c:37-46 [ohcount_parsed_language_add_comment] *)
Definition add_comment (pl : plang) (text : list Z) (p len : Z) : res plang :=
  a <- area_add (p_size pl) (p_comments pl) text p len ;;
  Ok (mkPlang (p_name pl) (p_size pl) (p_code pl) a (p_blanks pl)).

(** The C string stored in a buffer, as strlen and strtok see it: bytes up to
    the first NUL. *)
Fixpoint read_string (fuel : nat) (b : arr) (i : Z) : res (list Z) :=
  match fuel with
  | O => OutOfFuel
  | S k =>
    c <- aget b i ;;
    if c =? 0 then Ok [] else r <- read_string k b (i + 1) ;; Ok (c :: r)
  end.

Definition area_string (a : area) : res (list Z) :=
  read_string (S (Z.to_nat (asize (a_buf a)))) (a_buf a) 0.

(** sourcefile.c:182, 185: while ( *p == ' ' || *p == '\t') p++; *)
Fixpoint skip_blanks (fuel : nat) (text : list Z) (p : Z) : res Z :=
  match fuel with
  | O => OutOfFuel
  | S k =>
    c <- src text p ;;
    if (c =? 32) || (c =? 9) then skip_blanks k text (p + 1) else Ok p
  end.

(** sourcefile.c:155-179: the entry of the language, created at the end of the
    list if there is none.  The linked list (head/tail pointers of a list that is
    only appended to) is represented by a Coq list. *)
Fixpoint with_lang (size : Z) (lang : string) (f : plang -> res plang) (l : list plang)
  : res (list plang) :=
  match l with
  | [] => pl <- plang_new lang size ;; pl <- f pl ;; Ok [pl]
  | x :: r =>
    if String.eqb (p_name x) lang then x <- f x ;; Ok (x :: r)
    else r <- with_lang size lang f r ;; Ok (x :: r)
  end.

(** A call of the callback: language, entity, start, end. *)
Record event := mkEvent { e_lang : string; e_entity : string; e_start : Z; e_end : Z }.

(** sourcefile.c:146-190 [parser_callback] *)
Definition parser_callback (text : list Z) (l : list plang) (e : event) : res (list plang) :=
  with_lang (Z.of_nat (length text)) (e_lang e)
    (fun pl =>
       if String.eqb (e_entity e) "lcode"%string then
         p <- skip_blanks (S (S (length text))) text (e_start e) ;;
         add_code pl text p (e_end e - p)
       else if String.eqb (e_entity e) "lcomment"%string then
         p <- skip_blanks (S (S (length text))) text (e_start e) ;;
         add_comment pl text p (e_end e - p)
       else if String.eqb (e_entity e) "lblank"%string then
         n <- ckint (p_blanks pl + 1) ;;
         Ok (mkPlang (p_name pl) (p_size pl) (p_code pl) (p_comments pl) n)
       else Ok pl) l.

(** sourcefile.c:192-195: the parser calls the callback for each line. *)
Fixpoint run_callbacks (text : list Z) (l : list plang) (es : list event) : res (list plang) :=
  match es with
  | [] => Ok l
  | e :: r => l <- parser_callback text l e ;; run_callbacks text l r
  end.

(** sourcefile.c:236-253 [ohcount_sourcefile_get_loc_list], after parsing. *)
Fixpoint add_locs (h : heap loc) (lst : nat) (l : list plang) : res (heap loc) :=
  match l with
  | [] => Ok h
  | pl :: r =>
    h <- loc_list_add_loc h lst
           (mkLoc (p_name pl) (a_cnt (p_code pl)) (a_cnt (p_comments pl)) (p_blanks pl) 1) ;;
    add_locs h lst r
  end.

Definition get_loc_list (l : list plang) : res (heap loc * nat) :=
  let '(h, lst) := node_new [] in
  h <- add_locs h lst l ;;
  Ok (h, lst).

(** A call of parsed_language.c:26-46: add [len] bytes from offset [p] of [text]
    as code or as a comment. *)
Record call := mkCall { k_code : bool; k_text : list Z; k_p : Z; k_len : Z }.

Fixpoint run_calls (pl : plang) (cs : list call) : res plang :=
  match cs with
  | [] => Ok pl
  | c :: r =>
    pl <- (if k_code c then add_code else add_comment) pl (k_text c) (k_p c) (k_len c) ;;
    run_calls pl r
  end.
