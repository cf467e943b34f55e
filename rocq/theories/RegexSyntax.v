(** The syntax of the regular expressions as a grammar (pcrepattern(3)), written without the
    parser of RegexModel.v. *)
From Coq Require Import ZArith String Ascii List Bool.
From Verif Require Import Base RegexModel.
Import ListNotations.
Open Scope string_scope.

Definition digit (a : ascii) : Prop := (48 <= byte_of_ascii a <= 57)%Z.
Definition letter_or_digit (a : ascii) : Prop :=
  digit a \/ (97 <= byte_of_ascii a <= 122)%Z \/ (65 <= byte_of_ascii a <= 90)%Z.

(** What a backslash makes of the character after it. *)
Inductive escaped : ascii -> item -> Prop :=
| esc_space : escaped "s" Space
| esc_word : escaped "w" Wordc
| esc_digit : escaped "d" Digitc
| esc_lf : escaped "n" (Chr 10)
| esc_cr : escaped "r" (Chr 13)
| esc_tab : escaped "t" (Chr 9)
| esc_ff : escaped "f" (Chr 12)
| esc_self : forall a, ~ letter_or_digit a -> escaped a (Chr (byte_of_ascii a)).

(** The text between the brackets of a class.  A minus sign makes a range unless it is the
    first or the last character. *)
Inductive class_text : string -> list item -> Prop :=
| ct_end : class_text "" []
| ct_escape : forall a i u is, escaped a i -> (forall v, u = String "-" v -> v = "") -> class_text u is -> class_text (String "\" (String a u)) (i :: is)
| ct_range : forall a b u is, a <> "\"%char -> a <> "["%char -> a <> "]"%char -> b <> "\"%char -> b <> "["%char -> b <> "]"%char ->
    (byte_of_ascii a <= byte_of_ascii b)%Z -> class_text u is -> class_text (String a (String "-" (String b u))) (Range (byte_of_ascii a) (byte_of_ascii b) :: is)
| ct_char : forall a u is, a <> "\"%char -> a <> "["%char -> a <> "]"%char ->
    (forall v, u = String "-" v -> v = "") ->
    class_text u is -> class_text (String a u) (Chr (byte_of_ascii a) :: is).

(** Decimal numbers. *)
Inductive decimal : string -> nat -> Prop :=
| dec_one : forall a, digit a -> decimal (String a "") (Z.to_nat (byte_of_ascii a - 48))
| dec_more : forall u n a, decimal u n -> digit a ->
    decimal (u ++ String a "") (10 * n + Z.to_nat (byte_of_ascii a - 48))%nat.

Inductive quantifier : string -> nat -> option nat -> Prop :=
| q_star : quantifier "*" 0 None
| q_plus : quantifier "+" 1 None
| q_maybe : quantifier "?" 0 (Some 1%nat)
| q_times : forall u n, decimal u n -> quantifier ("{" ++ u ++ "}") n (Some n)
| q_least : forall u n, decimal u n -> quantifier ("{" ++ u ++ ",}") n None
| q_between : forall u n v m, decimal u n -> decimal v m -> quantifier ("{" ++ u ++ "," ++ v ++ "}") n (Some m).

(** Characters that do not stand for themselves. *)
Definition special : list ascii := ["("; ")"; "["; "."; "^"; "$"; "*"; "+"; "?"; "\"; "|"]%char.

(** What matches one character. *)
Inductive single : string -> set -> Prop :=
| s_dot : single "." Dot
| s_class : forall u is, class_text u is -> (forall v, u <> String "^" v) -> u <> "" ->
    single ("[" ++ u ++ "]") (Class false is)
| s_not_class : forall u is, class_text u is -> u <> "" -> single ("[^" ++ u ++ "]") (Class true is)
| s_escape : forall a i, escaped a i -> single (String "\" (String a "")) (Class false [i])
| s_char : forall a, ~ In a special -> single (String a "") (Class false [Chr (byte_of_ascii a)]).

(** Whether a text starts with a quantifier. *)
Definition quantified (v : string) : Prop := exists q lo hi w, v = q ++ w /\ quantifier q lo hi.
(** Whether a text starts with what makes a quantifier lazy or possessive. *)
Definition modified (v : string) : Prop := exists w, v = "?" ++ w \/ v = "+" ++ w.

(** Alternatives and sequences. *)
Inductive alternatives : string -> re -> Prop :=
| a_one : forall u r, sequence u r -> alternatives u r
| a_or : forall u r v r', sequence u r -> alternatives v r' -> alternatives (u ++ "|" ++ v) (Or r r')
with sequence : string -> re -> Prop :=
| s_end : sequence "" Empty
| s_single : forall u s v r, single u s -> ~ quantified v -> sequence v r -> sequence (u ++ v) (Seq (Char s) r)
| s_repeat : forall u s q lo hi v r, single u s -> quantifier q lo hi -> ~ modified v -> sequence v r ->
    sequence (u ++ q ++ v) (Seq (Rep s lo hi) r)
| s_group : forall u x v r, (forall w, u <> String "?" w) -> alternatives u x -> ~ quantified v -> sequence v r ->
    sequence ("(" ++ u ++ ")" ++ v) (Seq x r)
| s_maybe : forall u x q v r, (forall w, u <> String "?" w) -> alternatives u x -> quantifier q 0 (Some 1%nat) -> ~ modified v -> sequence v r ->
    sequence ("(" ++ u ++ ")" ++ q ++ v) (Seq (Maybe x) r)
| s_not_ahead : forall u x v r, alternatives u x -> ~ quantified v -> sequence v r ->
    sequence ("(?!" ++ u ++ ")" ++ v) (Seq (NotAhead x) r)
| s_bol : forall v r, ~ quantified v -> sequence v r -> sequence ("^" ++ v) (Seq Bol r)
| s_bound : forall v r, ~ quantified v -> sequence v r -> sequence ("\b" ++ v) (Seq Bound r).
