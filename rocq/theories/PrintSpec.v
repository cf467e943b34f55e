(** What a reader of the tool's tables relies on: lines, words, numerals. *)
From Coq Require Import ZArith String List Bool.
From Verif Require Import Base LocModel.
Import ListNotations.
Open Scope string_scope.
Open Scope Z_scope.
Open Scope list_scope.

(** A decimal numeral, without superfluous zeros. *)
Definition value (w : list Z) : Z := fold_left (fun a c => 10 * a + (c - 48)) w 0.
Definition numeral (n : Z) (w : list Z) : Prop :=
  w <> [] /\ Forall (fun c => 48 <= c <= 57) w /\ value w = n /\ (hd 0 w = 48 -> w = [48]).

(** [t] tenths of a percent, with its sign.  It is [a] of [a + b] up to half a tenth
    and a thousandth of a tenth. *)
Definition percentage (a b : Z) (w : list Z) : Prop :=
  exists t whole tenth, w = whole ++ [46; tenth; 37] /\ 0 <= t <= 1000 /\
    numeral (t / 10) whole /\ numeral (t mod 10) [tenth] /\
    1000 * Z.abs (t * (a + b) - 1000 * a) <= 501 * (a + b).

(** The words of a line: what is between spaces. *)
Fixpoint words (l : list Z) : list (list Z) :=
  match l with
  | [] => []
  | c :: r =>
    if c =? 32 then words r
    else match r with
         | [] => [[c]]
         | d :: _ => if d =? 32 then [c] :: words r
                     else match words r with w :: ws => (c :: w) :: ws | [] => [[c]] end
         end
  end.
Definition word (w : list Z) : Prop := w <> [] /\ ~ In 32 w /\ ~ In 10 w.

(** A text and its lines. *)
Definition made_of (ls : list (list Z)) (text : list Z) : Prop :=
  text = flat_map (fun l => l ++ [10]) ls /\ Forall (fun l => ~ In 10 l) ls.

(** The numbers of an entry that are printed are not negative. *)
Definition not_negative (r : loc * Z) : Prop :=
  0 <= l_code (fst r) /\ 0 <= l_comments (fst r) /\ 0 <= l_blanks (fst r) /\ 0 <= l_files (fst r) /\ 0 <= snd r.
Definition narrow (r : loc * Z) : Prop :=
  not_negative r /\ l_code (fst r) <= int_max /\ l_comments (fst r) <= int_max /\ l_blanks (fst r) <= int_max /\
  l_files (fst r) <= 999999 /\ snd r <= int_max /\ (length (bytes (l_lang (fst r))) <= 16)%nat.

(** A line of the summary. *)
Definition summary_says (r : loc * Z) (line : list Z) : Prop :=
  exists files code comments percent blanks total,
    words line = [bytes (l_lang (fst r)); files; code; comments; percent; blanks; total] /\
    numeral (l_files (fst r)) files /\ numeral (l_code (fst r)) code /\ numeral (l_comments (fst r)) comments /\
    numeral (l_blanks (fst r)) blanks /\ numeral (snd r) total /\
    (0 < l_comments (fst r) + l_code (fst r) -> percentage (l_comments (fst r)) (l_code (fst r)) percent) /\
    (l_comments (fst r) + l_code (fst r) = 0 -> percent = bytes "0.0%").

(** A line of the report on single files: the path follows. *)
Definition individual_says (path : list Z) (r : loc * Z) (line : list Z) : Prop :=
  exists row code comments percent blanks total, line = row ++ [32; 32] ++ path /\
    words row = [bytes (l_lang (fst r)); code; comments] ++ percent ++ [blanks; total] /\
    numeral (l_code (fst r)) code /\ numeral (l_comments (fst r)) comments /\
    numeral (l_blanks (fst r)) blanks /\ numeral (snd r) total /\
    (0 < l_comments (fst r) + l_code (fst r) ->
     exists p, percent = [p] /\ percentage (l_comments (fst r)) (l_code (fst r)) p) /\
    (l_comments (fst r) + l_code (fst r) = 0 -> percent = []).
