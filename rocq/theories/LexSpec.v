(** An independent account of line counting for languages with comments and strings that
    may run over several lines.  The text is read from left to right in small pieces; a
    piece is inside a comment or a string, or outside of them.  A line is code if a piece
    on it counts as code, otherwise a comment if a piece counts as comment, otherwise
    blank; one report is made at every line end. *)
From Coq Require Import ZArith String List Bool.
From Verif Require Import Base ParsedModel LineSpec.
Import ListNotations.
Open Scope string_scope.
Open Scope Z_scope.
Open Scope list_scope.

(** ** Comments and strings *)

(** What a line end does in the body: it ends the comment; it is counted like any other;
    it must not occur. *)
Inductive at_end := Cut | Inner | Deny.

(** A kind of comment or string.  A pattern is a list of sets, one for each byte. *)
Record region := mkRegion {
  g_open : list (list Z);           (* what it starts with *)
  g_ahead : list (list Z);          (* what has to follow *)
  g_close : list (list (list Z));   (* what it ends with, one of these, or at the line end *)
  g_first : kind;                   (* what the opening counts as *)
  g_kind : kind;                    (* what the bytes of the body count as *)
  g_last : kind;                    (* what the closing counts as *)
  g_nl : at_end;
  g_never : list (list (list Z));   (* what must not occur in the body *)
  g_esc : bool;                     (* a backslash and the byte after it belong together *)
  g_escnl : option kind;            (* a line end after a backslash is counted; the backslash
                                       counts as the given kind *)
  g_nest : bool;                    (* may contain others of its kind *)
  g_must : bool;                    (* is one only if it is closed *)
  g_when : option bool }.           (* only if code has been seen on the line; only if not *)

(** What has been seen on the line: code, comment.  And whether the byte before was CR, LF
    or FF, or there is none. *)
Record now := mkNow { n_code : bool; n_comment : bool; n_start : bool }.
Definition fresh (start : bool) : now := mkNow false false start.

(** The text starts with the pattern. *)
Fixpoint has (p : list (list Z)) (s : list Z) : bool :=
  match p, s with
  | [], _ => true
  | x :: p, c :: s => among c x && has p s
  | _ :: _, [] => false
  end.

Inductive place := Out | Inside (g : region) (depth : nat).

(** A piece of the text: [n] bytes without line end that count as [k]; or [n] bytes that
    end a line, inside of a comment or string or not.  And the place after it.  [Blank]:
    the bytes count as nothing. *)
Inductive piece :=
| Bytes (n : nat) (k : kind) (w : place)
| Ends (n : nat) (k : kind) (inner : bool) (w : place).

Definition newline_byte (c : Z) : bool := (c =? 10) || (c =? 12) || (c =? 13).
Definition blank_byte (c : Z) : bool := (c =? 9) || (c =? 32).

(** The first piece of a text inside of [g], at the given depth; [None] where it cannot
    go on. *)
Definition body (g : region) (n : nat) (s : list Z) : option piece :=
  match s with
  | [] => None
  | c :: r =>
    match find (fun p => has p s) (g_close g), n with
    | Some p, O => Some (Bytes (length p) (g_last g) Out)
    | close, _ =>
      if existsb (fun p => has p s) (g_never g) then None
      else
      match close, n with
      | Some p, S n => Some (Bytes (length p) (g_kind g) (Inside g n))
      | _, _ =>
      if g_nest g && has (g_open g) s then
        Some (Bytes (length (g_open g)) (g_kind g) (Inside g (S n)))
      else
        match (if c =? 92 then g_escnl g else None), line_end r with
        | Some k, S e => Some (Ends (S (S e)) k true (Inside g n))
        | _, _ =>
          match line_end s with
          | S e =>
            match g_nl g with
            | Cut => Some (Ends (S e) Blank false Out)
            | Inner => Some (Ends (S e) Blank true (Inside g n))
            | Deny => None
            end
          | O =>
            if c =? 13 then match g_nl g with Cut => Some (Bytes 1 Blank Out) | _ => None end
            else if g_esc g && (c =? 92) then
              match r with
              | d :: _ => if newline_byte d then None else Some (Bytes 2 (g_kind g) (Inside g n))
              | [] => None
              end
            else Some (Bytes 1 (if blank_byte c then Blank else g_kind g) (Inside g n))
          end
        end
      end
    end
  end.

(** The comment or string is closed somewhere. *)
Fixpoint closed (fuel : nat) (g : region) (n : nat) (s : list Z) : bool :=
  match fuel with
  | O => false
  | S fuel =>
    match body g n s with
    | Some (Bytes k _ w) | Some (Ends k _ _ w) =>
      match w with
      | Out => true
      | Inside _ n => closed fuel g n (skipn k s)
      end
    | None => false
    end
  end.

Definition opens (g : region) (s : list Z) : bool :=
  has (g_open g ++ g_ahead g) s
  && (negb (g_must g) || (let r := skipn (length (g_open g)) s in closed (length r) g 0 r)).
Definition suits (h : now) (g : region) : bool :=
  match g_when g with Some b => eqb b (n_code h) | None => true end.

(** A language: its comments and strings, the first that opens counts; words of
    which some bytes are read as a whole; what is excluded, also at the start of a line. *)
Record lexis := mkLexis {
  x_regions : list region; x_words : list (list (list Z) * nat * kind); x_never : list (list (list Z));
  x_head : list (list (list Z)) }.
Definition barred (x : lexis) (h : now) : list (list (list Z)) :=
  x_never x ++ if n_start h then x_head x else [].

(** The first piece of a text outside of comments and strings. *)
Definition outside (x : lexis) (h : now) (s : list Z) : option piece :=
  match s with
  | [] => None
  | c :: _ =>
    if existsb (fun p => has p s) (barred x h) then None
    else
      match find (fun p => has (fst (fst p)) s) (x_words x) with
      | Some (_, n, k) => Some (Bytes n k Out)
      | None =>
        match find (fun g => suits h g && opens g s) (x_regions x) with
        | Some g => Some (Bytes (length (g_open g)) (g_first g) (Inside g 0))
        | None =>
          match line_end s with
          | S e => Some (Ends (S e) Blank false Out)
          | O =>
            if c =? 11 then None
            else Some (Bytes 1 (if blank_byte c || (c =? 13) then Blank else Code) Out)
          end
        end
      end
  end.

Definition piece_of (x : lexis) (w : place) (h : now) (s : list Z) : option piece :=
  match w with Out => outside x h s | Inside g n => body g n s end.

(** ** Reports *)
(** The piece of [n] bytes ends with CR, LF or FF. *)
Definition starts (n : nat) (s : list Z) : bool := newline_byte (nth (n - 1) s 0).
Definition mark (k : kind) (start : bool) (h : now) : now :=
  match k with
  | Code => mkNow true (n_comment h) start
  | Comment => mkNow (n_code h) true start
  | Blank => mkNow (n_code h) (n_comment h) start
  end.
Definition kind_now (h : now) : kind :=
  if n_code h then Code else if n_comment h then Comment else Blank.

(** The reports for the rest [s] of a text at offset [pos]; [start] is the offset of the
    line, [h] what has been seen on it.  A blank line is reported
    without the blanks, unless it is inside of a comment or string.  [None]: the text is
    not accepted, in particular a comment that has to be closed is not. *)
Fixpoint account (fuel : nat) (x : lexis) (lang : string) (w : place) (start pos : Z)
  (h : now) (s : list Z) : option (list event) :=
  match fuel with
  | O => None
  | S fuel =>
    match s with
    | [] =>
      match w with
      | Inside (mkRegion _ _ _ _ _ _ (Inner | Deny) _ _ _ _ _ _) _ => None
      | _ => Some (match kind_now h with
                   | Blank => []
                   | k => [mkEvent lang (kind_name k) start pos]
                   end)
      end
    | _ =>
      match piece_of x w h s with
      | None => None
      | Some (Bytes n k w') =>
        account fuel x lang w' start (pos + Z.of_nat n) (mark k (starts n s) h) (skipn n s)
      | Some (Ends n k inner w') =>
        let stop := pos + Z.of_nat n in
        let kd := kind_now (mark k false h) in
        let from := match kd with Blank => if inner then start else pos | _ => start end in
        match account fuel x lang w' stop stop (fresh (starts n s)) (skipn n s) with
        | Some l => Some (mkEvent lang (kind_name kd) from stop :: l)
        | None => None
        end
      end
    end
  end.

Definition lex_lines (x : lexis) (lang : string) (text : list Z) : option (list event) :=
  account (S (length text)) x lang Out 0 0 (fresh true) text.
