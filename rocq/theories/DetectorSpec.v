(** Specification of language detection: what the contents of a file say about its language.
    Bytes, not pointers; nothing here refers to the loops of detector.c. *)
From Coq Require Import ZArith String List Bool.
From Verif Require Import Base Tables.
Import ListNotations.
Open Scope string_scope.
Open Scope Z_scope.
Open Scope list_scope.

(** [n] occurs in [t]. *)
Definition occurs (n t : list Z) : Prop := exists a b, t = a ++ n ++ b.

(** [t] begins with [n]. *)
Definition begins (n t : list Z) : Prop := exists b, t = n ++ b.

(** The text before the first NUL byte. *)
Fixpoint before_nul (t : list Z) : list Z :=
  match t with
  | [] => []
  | c :: r => if c =? 0 then [] else c :: before_nul r
  end.

(** Lower case, ASCII. *)
Definition lower (c : Z) : Z := if (65 <=? c) && (c <=? 90) then c + 32 else c.

Definition Blank (c : Z) : Prop := c = 32 \/ c = 9.
Definition Newline (c : Z) : Prop := c = 13 \/ c = 10.
Definition White (c : Z) : Prop := Blank c \/ Newline c.
Definition Digit (c : Z) : Prop := 48 <= c <= 57.
Definition Lower (c : Z) : Prop := 97 <= c <= 122.
Definition Upper (c : Z) : Prop := 65 <= c <= 90.
Definition Alnum (c : Z) : Prop := Digit c \/ Lower c \/ Upper c.
Definition Word (c : Z) : Prop := Alnum c \/ c = 95.

(** [p] is what remains of [t] without leading white space. *)
Definition visible (t p : list Z) : Prop :=
  exists w, t = w ++ p /\ Forall White w /\ (forall c r, p = c :: r -> ~ White c).

(** The lines of a text: CR and LF each end a line. *)
Fixpoint lines (t : list Z) : list (list Z) :=
  match t with
  | [] => [[]]
  | c :: r =>
    if (c =? 13) || (c =? 10) then [] :: lines r
    else match lines r with
         | l :: ls => (c :: l) :: ls
         | [] => [[c]]
         end
  end.

(** What the detector sees of a line: 81 bytes, up to a NUL. *)
Definition seen (l : list Z) : list Z := before_nul (firstn 81 l).

(** *** .asx: XML (no language here) or assembler *)
Definition asx_xml (t : list Z) : Prop :=
  exists p c, visible t p /\ begins [c] p /\ In c [60; 0; 239; 254; 255].

(** *** .dat: AMPL data, something else, or nothing to decide by *)
Definition dat_ampl (t : list Z) : Prop :=
  exists p lit, visible t p /\ begins (bytes lit) p /\ In lit ["/*"; "#"; "data"; "param"; "set"].
Definition dat_undecided (t : list Z) : Prop :=
  exists p, visible t p /\ (p = [] \/ (begins [47] p /\ ~ begins [47; 42] p)).

(** *** .def, .mod: Modula-2 or (.mod) AMPL *)
Definition def_modula (t : list Z) : Prop :=
  exists p lit, visible t p /\ begins (bytes lit) p /\ In lit ["(*"; "DEFINITION"].
Definition mod_modula (t : list Z) : Prop :=
  exists p lit, visible t p /\ begins (bytes lit) p /\ In lit ["(*"; "IMPLEMENTATION"; "MODULE"].
Definition mod_ampl (t : list Z) : Prop :=
  exists p c, visible t p /\ begins [c] p /\ ~ In c [40; 73; 77].

(** *** .bas, .bi: a line number makes it classic *)
Definition numbered (l : list Z) : Prop :=
  exists d b x r, l = d ++ b ++ x :: r /\ d <> [] /\ Forall Digit d /\ b <> [] /\ Forall Blank b /\ Alnum x.
(** A file name that belongs to a Visual Basic project. *)
Definition vb_file (n : list Z) : Prop :=
  exists e, In e ["frm"; "frx"; "vba"; "vbp"; "vbs"] /\ (n = bytes e \/ exists a, n = a ++ 46 :: bytes e).

(** *** .fs: Forth or F# lines *)
Definition stripped (l p : list Z) : Prop :=
  exists w, l = w ++ p /\ Forall Blank w /\ (forall c r, p = c :: r -> ~ Blank c).
Definition forth_line (l : list Z) : Prop :=
  exists p lit, stripped l p /\ begins (bytes lit) p /\ In lit ["\ "; ": "].
Definition fsharp_line (l : list Z) : Prop :=
  exists p lit, stripped l p /\ begins (bytes lit) p /\ In lit ["|"; "let "; "type "; "//"].
(** [n] of the lines satisfy [P]. *)
Inductive count (P : list Z -> Prop) : list (list Z) -> Z -> Prop :=
| count_nil : count P [] 0
| count_yes l ls n : P l -> count P ls n -> count P (l :: ls) (n + 1)
| count_no l ls n : ~ P l -> count P ls n -> count P (l :: ls) n.

(** *** .h: signs of C++ *)
(** The line contains one of the words, standing alone.  [before] is what stands before the
    line. *)
Definition keyword (before : Z) (l : list Z) : Prop :=
  exists a w b, l = a ++ bytes w ++ b /\ In w ["class"; "namespace"; "template"; "typename"] /\
    ~ Word (last a before) /\ (forall c r, b = c :: r -> ~ Word c).
(** The line includes [name]. *)
Definition includes (l name : list Z) : Prop :=
  exists b1 b2 q r, l = [35] ++ b1 ++ bytes "include" ++ b2 ++ [q] ++ name ++ r /\
    Forall Blank b1 /\ b2 <> [] /\ Forall Blank b2 /\ In q [60; 34] /\
    Forall (fun c => c <> 62 /\ c <> 34) name /\ (forall c r', r = c :: r' -> In c [62; 34]).
(** A header with a C++ extension. *)
Definition cpp_extension (name : list Z) : Prop :=
  exists a e, name = a ++ 46 :: bytes e /\
    In e ["C"; "H"; "c++"; "cc"; "cpp"; "cxx"; "h++"; "hh"; "hpp"; "hxx"].

(** A header of the C++ standard library, or one with a C++ extension. *)
Definition cpp_header (name : list Z) : Prop :=
  (exists k, In k (map fst cppheaders) /\ bytes k = name) \/ cpp_extension name.
(** A line that makes the file C++. *)
Definition cpp_line (before : Z) (l : list Z) : Prop :=
  (exists name, includes l name /\ cpp_header name) \/ keyword before l.
(** The directory has an Objective-C file of the same name. *)
Definition companion (dir : option (list (list Z))) (filename : list Z) : Prop :=
  exists names stem x, dir = Some names /\ filename = stem ++ [x] /\ In (stem ++ bytes "m") names.

(** *** .r, .rs *)
Definition mentions_rebol (t : list Z) : Prop :=
  exists a m b, t = a ++ m ++ b /\ map lower m = bytes "rebol" /\ b <> [].
Definition renderscript (t : list Z) : Prop :=
  (exists m b, t = m ++ b /\ map lower m = bytes "#pragma version")
  \/ (exists a b, t = a ++ 10 :: bytes "#pragma version" ++ b /\ b <> []).

(** *** .aspx: the first directive *)
Definition directive (t d : list Z) : Prop :=
  exists a b, before_nul t = a ++ bytes "<%@" ++ d ++ bytes "%>" ++ b /\
    ~ occurs (bytes "<%@") (a ++ bytes "<%") /\ ~ occurs (bytes "%>") (d ++ bytes "%").
Definition vb_page (d : list Z) : Prop :=
  exists w r, map lower d = w ++ bytes "page" ++ r /\ Forall Blank w /\ occurs (bytes "language=""vb""") r.

(** *** .b: Limbo (the search for a quoted file name after include never looks into the quotes) *)
Definition limbo_at (p : list Z) : Prop :=
  (exists b, Blank b /\ begins (bytes "implement" ++ [b]) p)
  \/ (exists w, w <> [] /\ Forall Blank w /\ begins (bytes "include" ++ w ++ bytes """;") p)
  \/ (exists k, In k ["return"; "break"; "continue"] /\ begins (bytes k) p /\ occurs [59] (before_nul p))
  \/ (exists k, In k ["pick"; "case"] /\ begins (bytes k) p /\ occurs [123] (before_nul p)).

(** *** .st: three marks of Smalltalk *)
Definition assignment (l : list Z) : Prop := exists w, Forall Blank w /\ occurs ([58] ++ w ++ [61]) l.
Definition block_start (l : list Z) : Prop := exists w, Forall Blank w /\ occurs ([58] ++ w ++ [91]) l.
Definition block_end (l : list Z) : Prop := occurs [93; 46] l.
(** A colon whose next visible byte is another colon or a closing bracket hides it. *)
Definition hidden (l : list Z) : Prop :=
  exists w x, Forall Blank w /\ In x [58; 93] /\ occurs ([58] ++ w ++ [x]) l.

(** *** Fortran *)
(** How a line may start in fixed format: label, comment mark, blank. *)
Definition fixed_start (c : Z) : Prop := Blank c \/ Digit c \/ In c [67; 99; 42; 33].
(** A plain statement line: five label columns, a column without continuation mark, text
    without quotes, comment or ampersand. *)
Definition plain_text (c : Z) : Prop := ~ In c [13; 10; 33; 34; 39; 38].
Definition statement (l : list Z) : Prop :=
  exists label x text, l = label ++ x :: text /\ length label = 5%nat /\ Forall (fun c => c = 32 \/ Digit c) label /\
    (x = 32 \/ x = 48) /\ Forall plain_text text.
Definition comment_line (l : list Z) : Prop :=
  exists c r, l = c :: r /\ In c [67; 99; 42; 33].

(** *** .pl *)
(** The text starts with an interpreter line that mentions Perl. *)
Definition perl_script (t : list Z) : Prop :=
  exists a p b, t = bytes "#!" ++ a ++ p ++ b /\ ~ In 10 a /\ map lower p = bytes "perl".
Definition prolog_rule (t : list Z) : Prop := exists x, In x [32; 10] /\ occurs (bytes ":-" ++ [x]) t.

(** ** The order of the tests *)
(** What the extension table says about an extension: exactly, else in lower case. *)
Definition listed (e : list Z) : Prop := exists k v, In (k, v) extensions /\ e = bytes k.
Definition extension_says (e : list Z) (v : string) : Prop :=
  exists k, In (k, v) extensions /\ (e = bytes k \/ (~ listed e /\ map lower e = bytes k)).
Definition extension_unknown (e : list Z) : Prop := ~ listed e /\ ~ listed (map lower e).

(** What a name in a mode line stands for: the language of this name, else what the extension
    table says; then the same in lower case; "c" first of all. *)
Definition names (n : list Z) (v : string) : Prop :=
  (exists k l, In (k, l) languages /\ n = bytes k /\ v = l_name l)
  \/ ((forall k l, In (k, l) languages -> n <> bytes k) /\ exists k, In (k, v) extensions /\ n = bytes k).
Definition mode_says (n : list Z) (v : string) : Prop :=
  (map lower n = bytes "c" /\ v = "c")
  \/ (map lower n <> bytes "c" /\ (names n v \/ ((forall w, ~ names n w) /\ names (map lower n) v))).
(** The shape of a mode line: "-*-", blanks, perhaps "mode" and a colon, the name, and a blank, a
    semicolon or "-*-". *)
Inductive mode_line : list Z -> list Z -> Prop :=
| Mode a w m name x r :
    ~ occurs (bytes "-*-") (a ++ bytes "-*") ->
    Forall Blank w ->
    (m = [] /\ ~ (exists y b, name ++ x :: r = y ++ b /\ map lower y = bytes "mode")
     \/ exists y c, m = y ++ c /\ map lower y = bytes "mode" /\ Forall (fun b => Blank b \/ b = 58) c) ->
    name <> [] -> Forall (fun c => Alnum c \/ In c [95; 43; 35]) name ->
    In x [32; 9; 59] \/ begins (bytes "-*-") (x :: r) ->
    mode_line (a ++ bytes "-*-" ++ w ++ m ++ name ++ x :: r) name.
