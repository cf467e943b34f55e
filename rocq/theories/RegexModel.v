(** Regular expressions as the PCRE library matches them: the part of the syntax that
    licenses.c:12-734 and detector.c:914, 922, 939 use.  The library is not part of the
    repository; this is a model of its documented behaviour (pcrepattern(3), pcreapi(3),
    version 8.34 or later: \s includes the vertical tab), for the C locale, without UTF
    mode and with the newline convention LF.  Not modelled: the match limit (a search that
    backtracks more than 10,000,000 times gives up), captured groups. *)
From Coq Require Import ZArith String Ascii List Bool.
From Verif Require Import Base.
Import ListNotations.
Open Scope string_scope.
Open Scope Z_scope.
Open Scope list_scope.

(** ** Syntax *)
(** A part of a character class. *)
Inductive item :=
| Chr (c : Z)
| Range (a b : Z)
| Space                                 (* \s *)
| Wordc                                 (* \w *)
| Digitc.                               (* \d *)

(** What matches one character. *)
Inductive set :=
| Class (negated : bool) (is : list item)
| Dot.

Inductive re :=
| Empty
| Char (s : set)
| Rep (s : set) (least : nat) (most : option nat)   (* greedy *)
| Bound                                 (* \b *)
| Bol                                   (* ^; in multi-line mode also after a line feed that is not the last character *)
| Seq (a b : re)
| Or (a b : re)
| Maybe (a : re)                        (* greedy ? after a group *)
| NotAhead (a : re).                    (* (?!...) *)

(** The options given to pcre_compile. *)
Record flags := mkFlags { f_caseless : bool; f_multiline : bool; f_dotall : bool }.

(** ** Parser (pcre_compile) *)
Definition z_of (a : ascii) : Z := byte_of_ascii a.

Definition is_digit (a : ascii) : bool := (48 <=? z_of a) && (z_of a <=? 57).
Definition is_alnum (a : ascii) : bool :=
  is_digit a || ((97 <=? z_of a) && (z_of a <=? 122)) || ((65 <=? z_of a) && (z_of a <=? 90)).

(** The character after a backslash, inside or outside of a class. *)
Definition escape (a : ascii) : option item :=
  match a with
  | "s"%char => Some Space
  | "w"%char => Some Wordc
  | "d"%char => Some Digitc
  | "n"%char => Some (Chr 10)
  | "r"%char => Some (Chr 13)
  | "t"%char => Some (Chr 9)
  | "f"%char => Some (Chr 12)
  | _ => if is_alnum a then None else Some (Chr (z_of a))
  end.

(** Whether a minus sign comes next that is not the last character of a class. *)
Definition minus_next (s : string) : bool :=
  match s with
  | String "-" (String "]" _) => false
  | String "-" _ => true
  | _ => false
  end.

(** The members of a class up to the closing bracket.  Not supported: ranges that start or end
    with an escape, brackets; pcre_compile refuses ranges out of order. *)
Fixpoint parse_class (fuel : nat) (s : string) : option (list item * string) :=
  match fuel with
  | O => None
  | S k =>
    match s with
    | String "]" r => Some ([], r)
    | String "\" (String a r) =>
      if minus_next r then None
      else match escape a, parse_class k r with
           | Some i, Some (is, r) => Some (i :: is, r)
           | _, _ => None
           end
    | String "[" _ => None
    | String a (String "-" (String b r)) =>
      if (b =? "]")%char then
        match parse_class k (String "-" (String b r)) with
        | Some (is, r) => Some (Chr (z_of a) :: is, r)
        | None => None
        end
      else if (b =? "\")%char || (b =? "[")%char || (z_of b <? z_of a) then None
      else match parse_class k r with
           | Some (is, r) => Some (Range (z_of a) (z_of b) :: is, r)
           | None => None
           end
    | String a r =>
      match parse_class k r with
      | Some (is, r) => Some (Chr (z_of a) :: is, r)
      | None => None
      end
    | EmptyString => None
    end
  end.

(** A decimal number. *)
Fixpoint parse_number (fuel : nat) (n : nat) (s : string) : nat * string :=
  match fuel, s with
  | S k, String a r => if is_digit a then parse_number k (10 * n + Z.to_nat (z_of a - 48)) r else (n, s)
  | _, _ => (n, s)
  end.

(** A quantifier, if there is one: bounds and rest. *)
Definition parse_quantifier (s : string) : option (nat * option nat) * string :=
  match s with
  | String "*" r => (Some (0%nat, None), r)
  | String "+" r => (Some (1%nat, None), r)
  | String "?" r => (Some (0%nat, Some 1%nat), r)
  | String "{" (String d r) =>
    if is_digit d then
      let '(lo, r1) := parse_number (String.length s) 0 (String d r) in
      match r1 with
      | String "}" r2 => (Some (lo, Some lo), r2)
      | String "," (String d r2) =>
        if is_digit d then
          let '(hi, r3) := parse_number (String.length s) 0 (String d r2) in
          match r3 with
          | String "}" r4 => (Some (lo, Some hi), r4)
          | _ => (None, s)
          end
        else if (d =? "}")%char then (Some (lo, None), r2)
        else (None, s)
      | _ => (None, s)
      end
    else (None, s)
  | _ => (None, s)
  end.

(** Lazy and possessive quantifiers are not supported. *)
Definition more_quantifier (s : string) : bool :=
  match s with
  | String "?" _ | String "+" _ => true
  | _ => false
  end.

(** What a quantifier is applied to. *)
Inductive atom := Single (s : set) | Group (r : re) | Assertion (r : re).

Definition quantify (a : atom) (q : option (nat * option nat)) : option re :=
  match a, q with
  | Single s, None => Some (Char s)
  | Single s, Some (lo, hi) => Some (Rep s lo hi)
  | Group r, None => Some r
  | Group r, Some (0%nat, Some 1%nat) => Some (Maybe r)
  | Group _, Some _ => None             (* other repeated groups are not supported *)
  | Assertion r, None => Some r
  | Assertion _, Some _ => None
  end.

(** Alternatives; a closing parenthesis or the end of the expression ends them. *)
Fixpoint parse_alt (fuel : nat) (s : string) : option (re * string) :=
  match fuel with
  | O => None
  | S k =>
    match parse_seq k s with
    | Some (a, String "|" r) =>
      match parse_alt k r with
      | Some (b, r) => Some (Or a b, r)
      | None => None
      end
    | x => x
    end
  end
with parse_seq (fuel : nat) (s : string) : option (re * string) :=
  match fuel with
  | O => None
  | S k =>
    match s with
    | EmptyString | String ")" _ | String "|" _ => Some (Empty, s)
    | _ =>
      match parse_atom k s with
      | Some (a, r) =>
        let '(q, r) := parse_quantifier r in
        if match q with Some _ => more_quantifier r | None => false end then None
        else match quantify a q, parse_seq k r with
             | Some x, Some (y, r) => Some (Seq x y, r)
             | _, _ => None
             end
      | None => None
      end
    end
  end
with parse_atom (fuel : nat) (s : string) : option (atom * string) :=
  match fuel with
  | O => None
  | S k =>
    match s with
    | String "(" (String "?" (String "!" r)) =>
      match parse_alt k r with
      | Some (x, String ")" r) => Some (Assertion (NotAhead x), r)
      | _ => None
      end
    | String "(" (String "?" _) => None
    | String "(" r =>
      match parse_alt k r with
      | Some (x, String ")" r) => Some (Group x, r)
      | _ => None
      end
    | String "[" (String "^" r) =>
      match parse_class k r with
      | Some (i :: is, r) => Some (Single (Class true (i :: is)), r)
      | _ => None                       (* a bracket at the start is a member; not supported *)
      end
    | String "[" r =>
      match parse_class k r with
      | Some (i :: is, r) => Some (Single (Class false (i :: is)), r)
      | _ => None
      end
    | String "." r => Some (Single Dot, r)
    | String "^" r => Some (Assertion Bol, r)
    | String "\" (String "b" r) => Some (Assertion Bound, r)
    | String "\" (String a r) =>
      match escape a with
      | Some i => Some (Single (Class false [i]), r)
      | None => None
      end
    | String "$" _ | String "*" _ | String "+" _ | String "?" _ | String "\" _ => None
    | String a r => Some (Single (Class false [Chr (z_of a)]), r)
    | EmptyString => None
    end
  end.

(** pcre_compile; [None] where it fails or where the syntax is not supported here. *)
Definition compile (s : string) : option re :=
  match parse_alt (3 * String.length s + 3) s with
  | Some (r, EmptyString) => Some r
  | _ => None
  end.

(** ** Matching (pcre_exec) *)
Definition is_word (c : Z) : bool :=
  ((48 <=? c) && (c <=? 57)) || ((97 <=? c) && (c <=? 122)) || ((65 <=? c) && (c <=? 90)) || (c =? 95).

Definition item_has (i : item) (c : Z) : bool :=
  match i with
  | Chr x => c =? x
  | Range a b => (a <=? c) && (c <=? b)
  | Space => ((9 <=? c) && (c <=? 13)) || (c =? 32)
  | Wordc => is_word c
  | Digitc => (48 <=? c) && (c <=? 57)
  end.

(** The other case of a letter. *)
Definition other_case (c : Z) : Z :=
  if (65 <=? c) && (c <=? 90) then c + 32
  else if (97 <=? c) && (c <=? 122) then c - 32
  else c.

Definition set_has (fl : flags) (s : set) (c : Z) : bool :=
  match s with
  | Dot => f_dotall fl || negb (c =? 10)
  | Class neg is =>
    xorb neg (existsb (fun i => item_has i c || (f_caseless fl && item_has i (other_case c))) is)
  end.

Definition word_first (l : list Z) : bool :=
  match l with
  | c :: _ => is_word c
  | [] => false
  end.

(** Greedy repetition of a single character: as often as possible first.  [b] is the text
    before the current position, backwards. *)
Fixpoint repeat_set {A} (ok : Z -> bool) (least : nat) (most : option nat) (b t : list Z)
  (k : list Z -> list Z -> option A) : option A :=
  let stop := match least with O => k b t | S _ => None end in
  match most with
  | Some O => stop
  | _ =>
    match t with
    | c :: t' =>
      if ok c then
        match repeat_set ok (pred least) (option_map pred most) (c :: b) t' k with
        | Some x => Some x
        | None => stop
        end
      else stop
    | [] => stop
    end
  end.

(** Backtracking search: [k] is what has to match after this. *)
Fixpoint go {A} (fl : flags) (r : re) (b t : list Z) (k : list Z -> list Z -> option A) : option A :=
  match r with
  | Empty => k b t
  | Char s =>
    match t with
    | c :: t' => if set_has fl s c then k (c :: b) t' else None
    | [] => None
    end
  | Rep s lo hi => repeat_set (set_has fl s) lo hi b t k
  | Bound => if xorb (word_first b) (word_first t) then k b t else None
  | Bol =>
    match b with
    | [] => k b t
    | c :: _ => if f_multiline fl && (c =? 10) && negb (match t with [] => true | _ => false end) then k b t else None
    end
  | Seq x y => go fl x b t (fun b' t' => go fl y b' t' k)
  | Or x y =>
    match go fl x b t k with
    | Some a => Some a
    | None => go fl y b t k
    end
  | Maybe x =>
    match go fl x b t k with
    | Some a => Some a
    | None => k b t
    end
  | NotAhead x =>
    match go fl x b t (fun _ _ => Some tt) with
    | Some _ => None
    | None => k b t
    end
  end.

(** A match that starts at the current position: where it ends. *)
Definition match_here (fl : flags) (r : re) (b t : list Z) : option nat :=
  go fl r b t (fun b' _ => Some (length b')).

(** The first position where the expression matches. *)
Fixpoint search (fl : flags) (r : re) (b t : list Z) : option (nat * nat) :=
  match match_here fl r b t with
  | Some e => Some (length b, e)
  | None =>
    match t with
    | c :: t' => search fl r (c :: b) t'
    | [] => None
    end
  end.

(** pcre_exec(re, NULL, t, length t, 0, 0, ovector, ...): ovector[0] and ovector[1]; a NULL
    pattern is an error, which counts as no match. *)
Definition exec (fl : flags) (s : string) (t : list Z) : option (Z * Z) :=
  match compile s with
  | Some r =>
    match search fl r [] t with
    | Some (a, e) => Some (Z.of_nat a, Z.of_nat e)
    | None => None
    end
  | None => None
  end.

(** pcre_exec with PCRE_ANCHORED. *)
Definition exec_anchored (fl : flags) (s : string) (t : list Z) : bool :=
  match compile s with
  | Some r => match match_here fl r [] t with Some _ => true | None => false end
  | None => false
  end.
