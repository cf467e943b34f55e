(** Abstract syntax of the Ragel 6 machines of /repo/src/parsers/*.rl, as far as they
    are used there: regular expressions with embedded actions, conditions, scanners.
    The files in Parsers/ are transcriptions of the .rl files in this syntax. *)
From Coq Require Import ZArith String List Bool.
Import ListNotations.
Open Scope Z_scope.

(** Conditions ([when]).  A variable is one of the counters a parser declares. *)
Inductive cond :=
| CrAlone                     (* common.rl:9   p+1 < pe && *(p+1) != '\n' *)
| StartsLine                  (* common.rl:72-74 *)
| NoCode                      (* common.rl:68  !line_contains_code *)
| IsZero (v : Z)              (* v == 0 *)
| IsPos (v : Z)               (* v > 0 *)
| Less (v w : Z).             (* v < w *)

(** The macros of parser_macros.h used in the callback actions; the argument is the C
    variable that holds the language name. *)
Inductive macro :=
| Mls | Mcode | Mcomment
| Minl (lang : string)        (* std_internal_newline *)
| Mnl (lang : string)         (* std_newline *)
| Membinl (lang : string)     (* emb_internal_newline *)
| Membnl (lang : string)      (* emb_newline *)
| Mblank (lang : string).     (* check_blank_entry *)

(** Statements of actions. *)
Inductive stmt :=
| Entity (e : Z)              (* entity = e; *)
| Switch (cases : list (Z * macro))    (* switch (entity) *)
| Acode | Acomment | Als      (* common.rl:48-60 *)
| Aenqueue | Acommit          (* common.rl:28-46 *)
| Aoutry                      (* common.rl:62-64 check_blank_outry *)
| Asaw (lang : string)        (* saw *)
| Report (lang : string) (names : list string)
                              (* callback(lang, names[entity], cint(ts), cint(te)) *)
| VarSet (v : Z) (n : Z) | VarAdd (v : Z) (n : Z) | VarCopy (v w : Z)
| Hold                        (* fhold *)
| PTs                         (* p = ts *)
| Call (m : nat) | Goto (m : nat) | Ret.   (* fcall, fgoto, fret; m: instance *)

(** An action: Ragel drops a second occurrence of the same action (same name, or the
    same place in the source) in one transition, so actions have an identity. *)
Record action := mkAction { a_id : Z; a_body : list stmt }.

(** Embeddings: [>a] [@a] [$a] [%a] [%/a] and [when c], [when !c]. *)
Inductive aug :=
| Enter (a : action) | Finish (a : action) | All (a : action) | Leave (a : action)
| FinalEof (a : action)
| When (c : cond) (b : bool).

Inductive rx :=
| Lit (s : list Z)            (* 'abc' *)
| LitI (s : list Z)           (* /abc/i *)
| Cls (l : list (Z * Z))      (* a set of bytes as a list of ranges *)
| NCls (l : list (Z * Z))     (* the other bytes *)
| Alt (a b : rx)              (* a | b *)
| Diff (a b : rx)             (* a - b *)
| Cat (a b : rx)              (* a . b *)
| CatFin (a b : rx)           (* a :>> b *)
| Star (a : rx) | Plus (a : rx) | Opt (a : rx)
| Rep (n : nat) (a : rx)      (* a{n}, n > 0 *)
| NotStr (a : rx)             (* !a *)
| NotChr (a : rx)             (* ^a *)
| Aug (l : list aug) (a : rx).

(** An instantiation [name := ...]: a scanner (patterns with optional actions) or a
    plain machine. *)
Inductive instance :=
| Scanner (parts : list (rx * option action))
| Plain (r : rx).

(** One parser: its instances (the run starts in the first: the one for counting lines,
    or the one for the entities), the language of [process_last_line]. *)
Record parser := mkParser { pa_inst : list instance; pa_lang : string }.

(** Sets of bytes. *)
Definition in_ranges (l : list (Z * Z)) (c : Z) : bool :=
  existsb (fun r => (fst r <=? c) && (c <=? snd r)) l.

(** Built-in machines (Ragel guide 3.2); the alphabet is [char], bytes 0..255. *)
Definition r_any : rx := Cls [(0, 255)].
Definition r_space : rx := Cls [(9, 13); (32, 32)].
Definition r_digit : rx := Cls [(48, 57)].
Definition r_alpha : rx := Cls [(65, 90); (97, 122)].
Definition r_alnum : rx := Cls [(48, 57); (65, 90); (97, 122)].
Definition r_cntrl : rx := Cls [(0, 31); (127, 127)].

(** Sequences and alternatives associate to the left. *)
Fixpoint cats (r : rx) (l : list rx) : rx :=
  match l with [] => r | x :: l => cats (Cat r x) l end.
Fixpoint alts (r : rx) (l : list rx) : rx :=
  match l with [] => r | x :: l => alts (Alt r x) l end.
