(** An independent account of line counting for languages in which nothing but the line
    end carries over to the next line: the file is cut into physical lines, each line is
    classified by its text, and one report is made per line. *)
From Coq Require Import ZArith String List Bool.
From Verif Require Import Base ParsedModel.
Import ListNotations.
Open Scope string_scope.
Open Scope Z_scope.
Open Scope list_scope.

(** ** Physical lines *)

(** The number of bytes of the line end that a text starts with: LF, FF, CR LF, or CR
    before something else.  A CR that is the last byte of the file ends no line. *)
Definition line_end (l : list Z) : nat :=
  match l with
  | c :: r =>
    if (c =? 10)%Z || (c =? 12)%Z then 1
    else if (c =? 13)%Z then match r with [] => 0 | d :: _ => if (d =? 10)%Z then 2 else 1 end
    else 0
  | [] => 0
  end%nat.

(** The first line of a text: contents, line end, and the rest of the text. *)
Fixpoint first_line (l : list Z) : list Z * list Z * list Z :=
  match line_end l with
  | S k => ([], firstn (S k) l, skipn (S k) l)
  | O => match l with
         | [] => ([], [], [])
         | c :: r => let '(a, e, t) := first_line r in (c :: a, e, t)
         end
  end.

(** ** Kinds of lines *)
Inductive kind := Blank | Comment | Code.

Definition kind_name (k : kind) : string :=
  match k with Blank => "lblank" | Comment => "lcomment" | Code => "lcode" end.

(** Patterns for what opens a comment: one byte of a set, or one or more of them. *)
Inductive item := One (s : list Z) | Many (s : list Z).
Definition among (c : Z) (s : list Z) : bool := existsb (Z.eqb c) s.

(** The text starts with the pattern. *)
Fixpoint starts (p : list item) (s : list Z) {struct s} : bool :=
  match p with
  | [] => true
  | One cs :: p' => match s with c :: s' => among c cs && starts p' s' | [] => false end
  | Many cs :: p' =>
    match s with c :: s' => among c cs && (starts p' s' || starts p s') | [] => false end
  end.

(** How the lines of a language are classified.  [Opens ps]: a line is a comment if its
    text starts with one of the patterns, otherwise code.  [Operators cs]: a line is code
    if one of the bytes occurs, otherwise a comment. *)
Inductive rule := Opens (ps : list (list item)) | Operators (cs : list Z).

Definition text_kind (r : rule) (s : list Z) : kind :=
  match r with
  | Opens ps => if existsb (fun p => starts p s) ps then Comment else Code
  | Operators cs => if existsb (fun c => among c cs) s then Code else Comment
  end.

(** A language: the bytes that may precede the text of a line, and the rule. *)
Record style := mkStyle { st_lead : list Z; st_rule : rule }.

Fixpoint strip (lead : list Z) (s : list Z) : list Z :=
  match s with
  | c :: r => if among c lead then strip lead r else s
  | [] => []
  end.

(** The kind of a line given by its contents.  (A CR in the contents is the last byte of
    the file.) *)
Definition line_kind (st : style) (s : list Z) : kind :=
  match strip (13 :: st_lead st) s with
  | [] => Blank
  | _ => text_kind (st_rule st) (strip (st_lead st) s)
  end.

(** ** Reports *)

(** The report about the line with contents [c] and line end [e] at offset [pos]: the
    whole line, for blank lines the line end only; nothing for a blank rest of the file. *)
Definition line_reports (st : style) (lang : string) (pos : Z) (c e : list Z) : list event :=
  let stop := pos + Z.of_nat (length c + length e) in
  match line_kind st c with
  | Blank => match e with [] => [] | _ => [mkEvent lang "lblank" (pos + Z.of_nat (length c)) stop] end
  | k => [mkEvent lang (kind_name k) pos stop]
  end.

Fixpoint file_reports (n : nat) (st : style) (lang : string) (pos : Z) (l : list Z) : list event :=
  match n, l with
  | S n, _ :: _ =>
    let '(c, e, t) := first_line l in
    line_reports st lang pos c e ++ file_reports n st lang (pos + Z.of_nat (length c + length e)) t
  | _, _ => []
  end.

Definition count_lines (st : style) (lang : string) (text : list Z) : list event :=
  file_reports (length text) st lang 0 text.

(** ** Line ends by position *)

(** The offsets just after the line ends of a text that starts at [pos]. *)
Fixpoint line_stops (pos : Z) (l : list Z) : list Z :=
  match l with
  | [] => []
  | c :: r =>
    let rest := line_stops (pos + 1) r in
    if (c =? 10)%Z || (c =? 12)%Z then (pos + 1) :: rest
    else match r with
         | d :: _ => if (c =? 13)%Z && negb (d =? 10)%Z then (pos + 1) :: rest else rest
         | [] => rest
         end
  end.

(** What follows the last line end. *)
Definition last_part (l : list Z) : list Z := skipn (Z.to_nat (last (line_stops 0 l) 0)) l.

(** Complete lines. *)
Definition whole_lines (l : list Z) : Prop := l = [] \/ exists k b, l = k ++ [b] /\ (b = 10 \/ b = 12).

(** ** The languages *)
Definition word (s : string) : list item := map (fun c => One [c]) (bytes s).
(** A word in any case; [s] is given in lower case letters. *)
Definition word_ci (s : string) : list item :=
  map (fun c => One (if (97 <=? c) && (c <=? 122) then [c; c - 32] else [c])) (bytes s).

Definition blanks : list Z := [9; 32].
Definition digits : list Z := bytes "0123456789".
Definition plain (ps : list (list item)) : style := mkStyle blanks (Opens ps).

Definition styles : list (string * style) :=
  [ ("ada", plain [word "--"]);
    ("automake", plain [word "#"]);
    ("awk", plain [word "#"]);
    ("bat", plain [word_ci "rem"; word_ci "@rem"; word "::"]);
    ("brainfuck", mkStyle blanks (Operators (bytes "<>+-.,[]")));
    ("classic_basic", plain [Many digits :: Many blanks :: word "'"; Many digits :: Many blanks :: word_ci "rem"]);
    ("clearsilver", plain [word "#"]);
    ("dcl", mkStyle (36 :: blanks) (Opens [word "!"]));
    ("ebuild", plain [word "#"]);
    ("eiffel", plain [word "--"]);
    ("erlang", plain [word "%%"]);
    ("exheres", plain [word "#"]);
    ("fortranfixed", plain [word "C"]);
    ("idl_pvwave", plain [word ";"]);
    ("limbo", plain [word "#"]);
    ("make", plain [word "#"]);
    ("metafont", plain [word "%"]);
    ("metapost", plain [word "%"]);
    ("postscript", plain [word "%"]);
    ("r", plain [word "#"]);
    ("scilab", plain [word "//"]);
    ("structured_basic", plain [word "'"; word_ci "rem"]);
    ("tex", plain [word "%"]);
    ("tex_dtx", plain [word "%%"]);
    ("vhdl", plain [word "--"]);
    ("visualbasic", plain [word "'"; word_ci "rem"]) ].
