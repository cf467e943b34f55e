(** Several texts scanned one after another in one process.  The variables of
    parser_macros.h:324-411 and the queue, parser_macros.h:43-47, are global and
    shared by all parsers, and [init] with Ragel's [write init] sets only some of
    them: the rest is what the parse before has left. *)
From Coq Require Import ZArith String List Bool.
From Verif Require Import Base ParsedModel RagelSyntax RagelBuild RagelRun ParserTable.
Import ListNotations.
Open Scope Z_scope.

(** What no parser sets at its start: last_line_start, last_line_contains_code,
    last_whole_line_comment (parser_macros.h:399-411) and the callbacks in the queue.
    (The places of [stack] above [top] survive as well; [Ret] reads only below it.) *)
Record globals := mkGlobals { g_ls : ptr; g_lcc : bool; g_wlc : bool; g_queue : list event }.

(** parser_macros.h:417-429 and [write init]: cs, top, ts, te and act.  The counters
    are local variables of the parse functions, e.g. coq.rl:123. *)
Definition start_in (m : machine) (g : globals) : res rt :=
  c <- RagelRun.entry m 0 ;;
  Ok (mkRt 0 None None None c [] false false None 0 None false (g_ls g) (g_lcc g) (g_wlc g) (g_queue g) [] []).

Definition leaves (r : rt) : globals := mkGlobals (r_last_ls r) (r_last_lcc r) (r_last_wlc r) (r_queue r).

(** A call of parse_LANG, with [count] set or not: what it reports and what it leaves. *)
Definition parse_in (count : bool) (m : machine) (text : list Z) (fuel : nat) (g : globals) :
  res (list event * globals) :=
  r <- start_in m g ;;
  r <- loop m text fuel r ;;
  r <- (if count then process_last_line m text r else Ok r) ;;
  Ok (rev (r_out r), leaves r).

(** parser.c:12-29, ohcount_parse: [None] when it returns 0, with the global variables
    untouched.  (A callback left in the queue names its language by the variable of
    the parser that made it, as the state of [RagelRun] does.) *)
Definition call_in (count : bool) (language : option string) (text : list Z) (fuel : nat) (g : globals) :
  res (option (list event) * globals) :=
  match language with
  | None => Ok (None, g)
  | Some name =>
    match find_entry name with
    | None => Ok (None, g)
    | Some en =>
      match (if count then compile (en_parser en) else compile (en_entities en)) with
      | None => Ok (None, g)
      | Some m =>
        '(es, g) <- parse_in count m text fuel g ;;
        Ok (Some (map (rename (en_vars en)) es), g)
      end
    end
  end.

(** A call of the library's scanner: to count or for the entities, language, text. *)
Record job := mkJob { j_count : bool; j_language : option string; j_text : list Z }.

(** The calls in a process: what each of them reports. *)
Fixpoint process (fuel : nat) (g : globals) (jobs : list job) : res (list (option (list event))) :=
  match jobs with
  | [] => Ok []
  | j :: js =>
    '(es, g) <- call_in (j_count j) (j_language j) (j_text j) fuel g ;;
    rest <- process fuel g js ;;
    Ok (es :: rest)
  end.
