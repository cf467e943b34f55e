(** Specification of the parse results kept for a file. *)
From Coq Require Import ZArith String List Bool.
From Verif Require Import Base LocModel LocSpec ParsedModel.
Import ListNotations.
Open Scope Z_scope.

Definition slice (text : list Z) (s e : Z) : list Z :=
  firstn (Z.to_nat (e - s)) (skipn (Z.to_nat s) text).

Definition blank (c : Z) : bool := (c =? 32) || (c =? 9).

Fixpoint strip_blanks (l : list Z) : list Z :=
  match l with
  | c :: r => if blank c then strip_blanks r else l
  | [] => []
  end.

(** The part before the first NUL. *)
Fixpoint upto_nul (l : list Z) : list Z :=
  match l with
  | c :: r => if c =? 0 then [] else c :: upto_nul r
  | [] => []
  end.

(** A line as the copy stores it: from the first NUL on everything is NUL. *)
Definition copied (l : list Z) : list Z :=
  upto_nul l ++ repeat 0 (length l - length (upto_nul l)).

(** Lines that find room: a line is dropped when the text kept so far plus the
    line do not fit in [room] bytes. *)
Fixpoint kept (room : Z) (ls : list (list Z)) : list (list Z) :=
  match ls with
  | [] => []
  | l :: r => if Z.of_nat (length l) <=? room
              then l :: kept (room - Z.of_nat (length l)) r
              else kept room r
  end.

(** Number of bytes of a list of lines. *)
Definition volume (ls : list (list Z)) : Z := Z.of_nat (length (concat ls)).

(** The lines reported for a language, as kind [k]. *)
Definition is_event (g k : string) (e : event) : bool :=
  String.eqb (e_lang e) g && String.eqb (e_entity e) k.

Definition events_of (g k : string) (es : list event) : list event :=
  filter (is_event g k) es.

Definition lines_of (text : list Z) (g k : string) (es : list event) : list (list Z) :=
  map (fun e => strip_blanks (slice text (e_start e) (e_end e))) (events_of g k es).

(** What the parsers report (C55): spans of the file that, unless blank lines, end at
    the end of the file, or hold or are followed by something else than a blank. *)
Definition good_event (text : list Z) (e : event) : Prop :=
  (e_entity e = "lcode"%string \/ e_entity e = "lcomment"%string \/ e_entity e = "lblank"%string) /\
  0 <= e_start e <= e_end e /\ e_end e <= Z.of_nat (length text) /\
  (e_entity e <> "lblank"%string ->
   e_end e = Z.of_nat (length text) \/
   exists c, In c (slice text (e_start e) (e_end e + 1)) /\ blank c = false).

(** The pieces of text given to add_code (or add_comment). *)
Definition given (code : bool) (cs : list call) : list (list Z) :=
  map (fun c => slice (k_text c) (k_p c) (k_p c + k_len c))
      (filter (fun c => Bool.eqb (k_code c) code) cs).

Definition good_call (c : call) : Prop :=
  0 <= k_p c /\ 0 <= k_len c /\ k_p c + k_len c <= Z.of_nat (length (k_text c)).

(** Spans reported from left to right, none overlapping. *)
Fixpoint ordered_spans (from : Z) (es : list event) : Prop :=
  match es with
  | [] => True
  | e :: r => from <= e_start e <= e_end e /\ ordered_spans (e_end e) r
  end.
