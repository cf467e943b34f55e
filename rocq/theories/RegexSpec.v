(** What a regular expression means: which stretches of a text it matches, as a relation
    between the expression, the text before, the stretch and the text after.  No order of
    search, no backtracking. *)
From Coq Require Import ZArith String List Bool.
From Verif Require Import Base RegexModel DetectorSpec.
Import ListNotations.
Open Scope Z_scope.
Open Scope list_scope.

(** The same character, or the same letter in the other case. *)
Definition same_letter (a b : Z) : Prop :=
  a = b \/ (Upper a /\ b = a + 32) \/ (Lower a /\ b = a - 32).

Definition WhiteSpace (c : Z) : Prop := 9 <= c <= 13 \/ c = 32.

Definition in_item (i : item) (c : Z) : Prop :=
  match i with
  | Chr x => c = x
  | Range a b => a <= c <= b
  | Space => WhiteSpace c
  | Wordc => Word c
  | Digitc => Digit c
  end.

(** The class has the character or, if case does not matter, its other case. *)
Definition in_class (fl : flags) (is : list item) (c : Z) : Prop :=
  exists i c', In i is /\ in_item i c' /\ (c' = c \/ (f_caseless fl = true /\ same_letter c c')).

Definition in_set (fl : flags) (s : set) (c : Z) : Prop :=
  match s with
  | Class false is => in_class fl is c
  | Class true is => ~ in_class fl is c
  | Dot => f_dotall fl = true \/ c <> 10
  end.

(** The text ends with a word character; it begins with one. *)
Definition ends_in_word (t : list Z) : Prop := exists a c, t = a ++ [c] /\ Word c.
Definition begins_with_word (t : list Z) : Prop := exists c r, t = c :: r /\ Word c.

(** [w], with [pre] before it and [post] after it, is matched by [r]. *)
Fixpoint matches (fl : flags) (r : re) (pre w post : list Z) : Prop :=
  match r with
  | Empty => w = []
  | Char s => exists c, w = [c] /\ in_set fl s c
  | Rep s lo hi =>
    Forall (in_set fl s) w /\ (lo <= length w)%nat /\
    match hi with Some n => (length w <= n)%nat | None => True end
  | Bound =>
    w = [] /\ ((ends_in_word pre /\ ~ begins_with_word post) \/ (~ ends_in_word pre /\ begins_with_word post))
  | Bol => w = [] /\ (pre = [] \/ (f_multiline fl = true /\ post <> [] /\ exists a, pre = a ++ [10]))
  | Seq a b => exists u v, w = u ++ v /\ matches fl a pre u (v ++ post) /\ matches fl b (pre ++ u) v post
  | Or a b => matches fl a pre w post \/ matches fl b pre w post
  | Maybe a => w = [] \/ matches fl a pre w post
  | NotAhead a => w = [] /\ ~ exists u v, post = u ++ v /\ matches fl a pre u v
  end.

(** ** Which match is taken *)
(** The lengths of all matches at the start of [t], the preferred ones first: longer
    repetitions before shorter ones, alternatives in the order they are written, an optional
    part rather than without it. *)
Fixpoint run_of (ok : Z -> bool) (t : list Z) : nat :=
  match t with
  | c :: r => if ok c then S (run_of ok r) else 0%nat
  | [] => 0%nat
  end.
Fixpoint down_to (lo n : nat) : list nat :=
  if Nat.ltb n lo then []
  else match n with O => [O] | S k => S k :: down_to lo k end.

Fixpoint ways (fl : flags) (r : re) (pre t : list Z) : list nat :=
  match r with
  | Empty => [0%nat]
  | Char s => match t with c :: _ => if set_has fl s c then [1%nat] else [] | [] => [] end
  | Rep s lo hi =>
    let n := run_of (set_has fl s) t in
    down_to lo (match hi with Some m => Nat.min m n | None => n end)
  | Bound => if xorb (word_first (rev pre)) (word_first t) then [0%nat] else []
  | Bol =>
    match rev pre, t with
    | [], _ => [0%nat]
    | c :: _, _ :: _ => if f_multiline fl && (c =? 10) then [0%nat] else []
    | _ :: _, [] => []
    end
  | Seq a b =>
    flat_map (fun i => map (fun j => (i + j)%nat) (ways fl b (pre ++ firstn i t) (skipn i t))) (ways fl a pre t)
  | Or a b => ways fl a pre t ++ ways fl b pre t
  | Maybe a => ways fl a pre t ++ [0%nat]
  | NotAhead a => match ways fl a pre t with [] => [0%nat] | _ => [] end
  end.

(** ** Puppet manifests *)
Definition white (w : list Z) : Prop := Forall WhiteSpace w.
Definition white1 (w : list Z) : Prop := white w /\ w <> [].
Definition NameChar (c : Z) : Prop := Word c \/ c = 58 \/ c = 45.
Definition name (x : list Z) : Prop := Forall NameChar x /\ x <> [].
Definition host (x : list Z) : Prop := Forall (fun c => NameChar c \/ c = 46) x /\ x <> [].
(** An optional quote. *)
Definition quote (qs : list Z) (q : list Z) : Prop := q = [] \/ exists c, q = [c] /\ In c qs.

(** The beginning of an attribute of a resource: ensure => *)
Inductive attribute : list Z -> Prop :=
| an_attribute k w : In k ["ensure"; "content"; "notify"; "require"; "source"]%string -> white1 w ->
    attribute (bytes k ++ w ++ bytes "=>").

(** The beginning of a definition. *)
Inductive construct : list Z -> Prop :=
| a_define w x w' : white1 w -> name x -> white w' ->
    construct (bytes "define" ++ w ++ x ++ w' ++ bytes "(")
| a_class w x w' b : white1 w -> name x -> white w' -> In b [40; 123] ->
    construct (bytes "class" ++ w ++ x ++ w' ++ [b])
| a_subclass w x w1 w2 y w' b : white1 w -> name x -> white1 w1 -> white1 w2 -> name y -> white w' -> In b [40; 123] ->
    construct (bytes "class" ++ w ++ x ++ w1 ++ bytes "inherits" ++ w2 ++ y ++ w' ++ [b])
| a_node w q x q' w' : white1 w -> quote [39] q -> host x -> quote [39] q' -> white w' ->
    construct (bytes "node" ++ w ++ q ++ x ++ q' ++ w' ++ bytes "{")
| an_import w : white1 w -> construct (bytes "import" ++ w ++ [34])
| an_include w q c : white1 w -> quote [34; 39] q -> NameChar c -> construct (bytes "include" ++ w ++ q ++ [c]).

(** One of these after the start of a line; white space before it may span lines. *)
Definition line_start (a : list Z) : Prop := a = [] \/ exists b, a = b ++ [10].
Definition starts_a_line (what : list Z -> Prop) (t : list Z) : Prop :=
  exists a w x b, t = a ++ w ++ x ++ b /\ line_start a /\ white w /\ what x.
Definition puppet (t : list Z) : Prop := starts_a_line attribute t \/ starts_a_line construct t.
