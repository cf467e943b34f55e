(** Execution of a compiled machine on a buffer: the loop of the code
    Ragel 6 generates ([write exec], tables style) with the actions of common.rl and the
    macros of parser_macros.h. *)
From Coq Require Import ZArith String List Bool.
From Verif Require Import Base ParsedModel RagelSyntax RagelBuild.
Import ListNotations.
Open Scope Z_scope.

(** A pointer into the buffer is an offset, NULL is [None].  A machine state is the
    number of the instance and the state in its automaton; the error state is [None]. *)
Definition ptr := option Z.
Definition loc : Type := nat * positive.

(** The global variables of parser_macros.h:282-404 (and the counters of the
    parser), the queue of callbacks and the callbacks made so far, both latest first.
    Languages are named by the C variable that holds them. *)
Record rt := mkRt {
  r_p : Z; r_ts : ptr; r_te : ptr; r_act : option nat;
  r_cs : option loc; r_stack : list (option loc);
  r_wlc : bool; r_lcc : bool; r_ls : ptr;
  r_ent : Z; r_seen : option string;
  r_inq : bool; r_last_ls : ptr; r_last_lcc : bool; r_last_wlc : bool;
  r_queue : list event; r_vars : list (Z * Z); r_out : list event }.

Definition set_p x r := mkRt x (r_ts r) (r_te r) (r_act r) (r_cs r) (r_stack r) (r_wlc r) (r_lcc r) (r_ls r) (r_ent r) (r_seen r) (r_inq r) (r_last_ls r) (r_last_lcc r) (r_last_wlc r) (r_queue r) (r_vars r) (r_out r).
Definition set_ts x r := mkRt (r_p r) x (r_te r) (r_act r) (r_cs r) (r_stack r) (r_wlc r) (r_lcc r) (r_ls r) (r_ent r) (r_seen r) (r_inq r) (r_last_ls r) (r_last_lcc r) (r_last_wlc r) (r_queue r) (r_vars r) (r_out r).
Definition set_te x r := mkRt (r_p r) (r_ts r) x (r_act r) (r_cs r) (r_stack r) (r_wlc r) (r_lcc r) (r_ls r) (r_ent r) (r_seen r) (r_inq r) (r_last_ls r) (r_last_lcc r) (r_last_wlc r) (r_queue r) (r_vars r) (r_out r).
Definition set_actid x r := mkRt (r_p r) (r_ts r) (r_te r) x (r_cs r) (r_stack r) (r_wlc r) (r_lcc r) (r_ls r) (r_ent r) (r_seen r) (r_inq r) (r_last_ls r) (r_last_lcc r) (r_last_wlc r) (r_queue r) (r_vars r) (r_out r).
Definition set_cs x r := mkRt (r_p r) (r_ts r) (r_te r) (r_act r) x (r_stack r) (r_wlc r) (r_lcc r) (r_ls r) (r_ent r) (r_seen r) (r_inq r) (r_last_ls r) (r_last_lcc r) (r_last_wlc r) (r_queue r) (r_vars r) (r_out r).
Definition set_stack x r := mkRt (r_p r) (r_ts r) (r_te r) (r_act r) (r_cs r) x (r_wlc r) (r_lcc r) (r_ls r) (r_ent r) (r_seen r) (r_inq r) (r_last_ls r) (r_last_lcc r) (r_last_wlc r) (r_queue r) (r_vars r) (r_out r).
Definition set_line w c s r := mkRt (r_p r) (r_ts r) (r_te r) (r_act r) (r_cs r) (r_stack r) w c s (r_ent r) (r_seen r) (r_inq r) (r_last_ls r) (r_last_lcc r) (r_last_wlc r) (r_queue r) (r_vars r) (r_out r).
Definition set_ent x r := mkRt (r_p r) (r_ts r) (r_te r) (r_act r) (r_cs r) (r_stack r) (r_wlc r) (r_lcc r) (r_ls r) x (r_seen r) (r_inq r) (r_last_ls r) (r_last_lcc r) (r_last_wlc r) (r_queue r) (r_vars r) (r_out r).
Definition set_seen x r := mkRt (r_p r) (r_ts r) (r_te r) (r_act r) (r_cs r) (r_stack r) (r_wlc r) (r_lcc r) (r_ls r) (r_ent r) x (r_inq r) (r_last_ls r) (r_last_lcc r) (r_last_wlc r) (r_queue r) (r_vars r) (r_out r).
Definition set_inq x r := mkRt (r_p r) (r_ts r) (r_te r) (r_act r) (r_cs r) (r_stack r) (r_wlc r) (r_lcc r) (r_ls r) (r_ent r) (r_seen r) x (r_last_ls r) (r_last_lcc r) (r_last_wlc r) (r_queue r) (r_vars r) (r_out r).
Definition set_last s c w r := mkRt (r_p r) (r_ts r) (r_te r) (r_act r) (r_cs r) (r_stack r) (r_wlc r) (r_lcc r) (r_ls r) (r_ent r) (r_seen r) (r_inq r) s c w (r_queue r) (r_vars r) (r_out r).
Definition set_queue x r := mkRt (r_p r) (r_ts r) (r_te r) (r_act r) (r_cs r) (r_stack r) (r_wlc r) (r_lcc r) (r_ls r) (r_ent r) (r_seen r) (r_inq r) (r_last_ls r) (r_last_lcc r) (r_last_wlc r) x (r_vars r) (r_out r).
Definition set_vars x r := mkRt (r_p r) (r_ts r) (r_te r) (r_act r) (r_cs r) (r_stack r) (r_wlc r) (r_lcc r) (r_ls r) (r_ent r) (r_seen r) (r_inq r) (r_last_ls r) (r_last_lcc r) (r_last_wlc r) (r_queue r) x (r_out r).
Definition set_out x r := mkRt (r_p r) (r_ts r) (r_te r) (r_act r) (r_cs r) (r_stack r) (r_wlc r) (r_lcc r) (r_ls r) (r_ent r) (r_seen r) (r_inq r) (r_last_ls r) (r_last_lcc r) (r_last_wlc r) (r_queue r) (r_vars r) x.

(** Counters that were never assigned are 0 (their declarations initialise them). *)
Fixpoint var_get (l : list (Z * Z)) (v : Z) : Z :=
  match l with [] => 0 | (w, n) :: r => if v =? w then n else var_get r v end.
Fixpoint var_set (l : list (Z * Z)) (v n : Z) : list (Z * Z) :=
  match l with
  | [] => [(v, n)]
  | (w, m) :: r => if v =? w then (w, n) :: r else (w, m) :: var_set r v n
  end.

(** parser_macros.h:332 [cint]: offset of a pointer; of NULL it is undefined. *)
Definition cint (p : ptr) : res Z := match p with Some x => Ok x | None => Ub NullDeref end.

(** Comparison of pointers, NULL being the smallest. *)
Definition ptr_gt (a b : ptr) : bool :=
  match a, b with
  | Some x, Some y => y <? x
  | Some _, None => true
  | None, _ => false
  end.

(** callback(...) and parser_macros.h:69-87 [enqueue]. *)
Definition callback (lang kind : string) (s e : ptr) (r : rt) : res rt :=
  a <- cint s ;; b <- cint e ;; Ok (set_out (mkEvent lang kind a b :: r_out r) r).
Definition enqueue (lang kind : string) (s e : ptr) (r : rt) : res rt :=
  a <- cint s ;; b <- cint e ;; Ok (set_queue (mkEvent lang kind a b :: r_queue r) r).

(** parser_macros.h:106-111 *)
Definition dequeue (r : rt) : rt :=
  if r_inq r then
    let r := set_inq false r in
    set_line (r_last_wlc r) (r_last_lcc r) (r_last_ls r) r
  else r.

Definition or_ptr (a b : ptr) : ptr := match a with None => b | Some _ => a end.

(** common.rl:49-62: the actions ls, code and comment. *)
Definition do_ls (r : rt) : rt := set_line (r_wlc r) (r_lcc r) (or_ptr (r_ls r) (r_ts r)) r.
Definition do_code (r : rt) : rt :=
  set_line (r_wlc r) true (if r_lcc r then r_ls r else or_ptr (r_ls r) (r_ts r)) r.
Definition do_comment (r : rt) : rt :=
  if r_lcc r then r else set_line true false (or_ptr (r_ls r) (r_ts r)) r.

(** The kind of the current line. *)
Definition kind (r : rt) : string :=
  if r_lcc r then "lcode" else if r_wlc r then "lcomment" else "lblank".

(** parser_macros.h:174-199 *)
Definition std_internal_newline (lang : string) (r : rt) : res rt :=
  r <- (if ptr_gt (Some (r_p r)) (r_ls r) then
          (if r_inq r then enqueue else callback) lang (kind r) (r_ls r) (Some (r_p r)) r
        else Ok r) ;;
  Ok (set_line false false (Some (r_p r)) r).

(** parser_macros.h:224-237 *)
Definition std_newline (lang : string) (r : rt) : res rt :=
  let r := dequeue r in
  r <- (if ptr_gt (r_te r) (r_ls r) then
          callback lang (kind r) (if r_lcc r || r_wlc r then r_ls r else r_ts r) (r_te r) r
        else Ok r) ;;
  Ok (set_line false false None r).

(** parser_macros.h:208-215, 247-254: the embedded language that was seen. *)
Definition emb (f : string -> rt -> res rt) (lang : string) (r : rt) : res rt :=
  r <- f (match r_seen r with Some s => s | None => lang end) r ;;
  Ok (set_seen None r).

(** parser_macros.h:281-290 [is_blank_entry]: [pos] after the loop, if the rest of the
    line is blank. *)
Fixpoint blank_entry (n : nat) (text : list Z) (pos : Z) : res (option Z) :=
  match n with
  | O => OutOfFuel
  | S n =>
    c <- src text pos ;;
    if (c =? 10) || (c =? 12) then Ok (Some pos)
    else if c =? 13 then
      d <- src text (pos + 1) ;;
      Ok (Some (if d =? 10 then pos + 1 else pos))
    else if (c =? 9) || (c =? 32) then blank_entry n text (pos + 1)
    else Ok None
  end.

(** parser_macros.h:302-307 *)
Definition check_blank_entry (text : list Z) (lang : string) (r : rt) : res rt :=
  b <- blank_entry (S (length text)) text (r_p r + 1) ;;
  match b with
  | Some q => std_newline lang (set_te (Some (q + 1)) (set_p q r))
  | None => Ok r
  end.

Definition exec_macro (text : list Z) (m : macro) (r : rt) : res rt :=
  match m with
  | Mls => Ok (do_ls (dequeue r))
  | Mcode => Ok (do_code (dequeue r))
  | Mcomment => Ok (do_comment (dequeue r))
  | Minl l => std_internal_newline l r
  | Mnl l => std_newline l r
  | Membinl l => emb std_internal_newline l r
  | Membnl l => emb std_newline l r
  | Mblank l => check_blank_entry text l r
  end.

Fixpoint switch (text : list Z) (l : list (Z * macro)) (r : rt) : res rt :=
  match l with
  | [] => Ok r
  | (e, m) :: l => if r_ent r =? e then exec_macro text m r else switch text l r
  end.

(** The stack of return states has five places (parser_macros.h:312). *)
Definition stack_size : nat := 5.

Section Machine.
  Variable m : machine.
  Variable text : list Z.

  Definition dfa_of (i : nat) : res dfa :=
    match nth_error (m_dfas m) i with Some d => Ok d | None => Ub OutOfBounds end.

  Definition entry (i : nat) : res (option loc) := d <- dfa_of i ;; Ok (Some (i, df_start d)).

  (** A statement; the flag tells that the rest of the actions is skipped
      ([goto _again]). *)
  Definition exec_stmt (s : stmt) (r : rt) : res (rt * bool) :=
    match s with
    | Entity e => Ok (set_ent e r, false)
    | Switch l => r <- switch text l r ;; Ok (r, false)
    | Acode => Ok (do_code r, false)
    | Acomment => Ok (do_comment r, false)
    | Als => Ok (do_ls r, false)
    | Aenqueue =>    (* common.rl:28-37 *)
      Ok (set_last (r_ls r) (r_lcc r) (r_wlc r) (set_queue [] (set_inq true r)), false)
    | Acommit =>     (* common.rl:39-47 *)
      Ok (if r_inq r then set_inq false (set_queue [] (set_out (r_queue r ++ r_out r) r)) else r, false)
    | Aoutry =>      (* common.rl:64-66 *)
      Ok (if r_lcc r || r_wlc r then r else set_seen None r, false)
    | Asaw l => Ok (set_line false false (r_ls r) (set_seen (Some l) r), false)
    | Report l names =>
      if r_ent r <? 0 then Ub OutOfBounds else
      match nth_error names (Z.to_nat (r_ent r)) with
      | Some k => r <- callback l k (r_ts r) (r_te r) r ;; Ok (r, false)
      | None => Ub OutOfBounds
      end
    | VarSet v n => Ok (set_vars (var_set (r_vars r) v n) r, false)
    | VarAdd v n => x <- ckint (var_get (r_vars r) v + n) ;; Ok (set_vars (var_set (r_vars r) v x) r, false)
    | VarCopy v w => Ok (set_vars (var_set (r_vars r) v (var_get (r_vars r) w)) r, false)
    | Hold => Ok (set_p (r_p r - 1) r, false)
    | PTs => x <- cint (r_ts r) ;; Ok (set_p x r, false)
    | Call i =>
      c <- entry i ;;
      if Nat.ltb (length (r_stack r)) stack_size then
        Ok (set_cs c (set_stack (r_cs r :: r_stack r) r), true)
      else Ub OutOfBounds
    | Goto i => c <- entry i ;; Ok (set_cs c r, true)
    | Ret =>
      match r_stack r with
      | [] => Ub OutOfBounds
      | c :: s => Ok (set_cs c (set_stack s r), true)
      end
    end.

  Fixpoint exec_body (l : list stmt) (r : rt) : res (rt * bool) :=
    match l with
    | [] => Ok (r, false)
    | s :: l =>
      '(r, j) <- exec_stmt s r ;;
      if j then Ok (r, true) else exec_body l r
    end.

  (** The action of pattern [i] of a scanner. *)
  Definition exec_part (d : dfa) (i : nat) (r : rt) : res (rt * bool) :=
    match nth_error (df_parts d) i with
    | Some (Some a) => exec_body (a_body a) r
    | Some None => Ok (r, false)
    | None => Ub OutOfBounds
    end.

  Definition exec_instr (d : dfa) (i : instr) (r : rt) : res (rt * bool) :=
    match i with
    | User a => exec_body (a_body a) r
    | SetTe => Ok (set_te (Some (r_p r + 1)) r, false)
    | SetAct i => Ok (set_actid (Some i) r, false)
    | OnLast i => exec_part d i (set_te (Some (r_p r + 1)) r)
    | OnNext i => exec_part d i (set_p (r_p r - 1) (set_te (Some (r_p r)) r))
    | OnLag i => x <- cint (r_te r) ;; exec_part d i (set_p (x - 1) r)
    | OnAct =>
      match r_act r with
      | None => Ok (set_cs None r, true)
      | Some i => x <- cint (r_te r) ;; exec_part d i (set_p (x - 1) r)
      end
    end.

  Fixpoint exec_instrs (d : dfa) (l : list instr) (r : rt) : res (rt * bool) :=
    match l with
    | [] => Ok (r, false)
    | i :: l =>
      '(r, j) <- exec_instr d i r ;;
      if j then Ok (r, true) else exec_instrs d l r
    end.

  (** Conditions. *)
  Definition is_nl (c : Z) : bool := (c =? 13) || (c =? 10) || (c =? 12).
  Definition eval_cond (c : cond) (r : rt) : res bool :=
    match c with
    | CrAlone =>
      if r_p r + 1 <? Z.of_nat (length text) then
        x <- src text (r_p r + 1) ;; Ok (negb (x =? 10))
      else Ok false
    | StartsLine =>
      if r_p r =? 0 then Ok true
      else x <- src text (r_p r - 1) ;; Ok (is_nl x)
    | NoCode => Ok (negb (r_lcc r))
    | IsZero v => Ok (var_get (r_vars r) v =? 0)
    | IsPos v => Ok (0 <? var_get (r_vars r) v)
    | Less v w => Ok (var_get (r_vars r) v <? var_get (r_vars r) w)
    end.

  Fixpoint select (b : branch) (r : rt) : res edge :=
    match b with
    | BEdge e => Ok e
    | BIf c y n => t <- eval_cond c r ;; select (if t then y else n) r
    end.

  (** The label _again: to-state actions, error state, advance.  [None] when the loop
      is left. *)
  Definition is_scan_start (d : dfa) (k : positive) : bool := df_scan d && Pos.eqb k (df_start d).
  Inductive outcome := Go (r : rt) | Stop (r : rt).
  Definition again (r : rt) : res outcome :=
    match r_cs r with
    | None => Ok (Stop r)
    | Some (i, k) =>
      d <- dfa_of i ;;
      let r := if is_scan_start d k then set_actid None (set_ts None r) else r in
      Ok (Go (set_p (r_p r + 1) r))
    end.

  Definition state_of (d : dfa) (k : positive) : res dstate :=
    match PM.find k (df_sts d) with Some q => Ok q | None => Ub OutOfBounds end.

  (** One round: a byte, or the end of the buffer. *)
  Definition step (r : rt) : res outcome :=
    match r_cs r with
    | None => Ok (Stop r)
    | Some (i, k) =>
      d <- dfa_of i ;;
      q <- state_of d k ;;
      if r_p r =? Z.of_nat (length text) then
        match q_eof_to q with
        | Some s =>
          '(r, _) <- exec_instrs d (q_eof q) (set_cs (Some (i, s)) r) ;; again r
        | None =>
          '(r, j) <- exec_instrs d (q_eof q) r ;; if j then again r else Ok (Stop r)
        end
      else
        let r := if is_scan_start d k then set_ts (Some (r_p r)) r else r in
        c <- src text (r_p r) ;;
        cl <- match PM.find (Z.to_pos (c + 1)) (m_class m) with Some x => Ok x | None => Ub OutOfBounds end ;;
        b <- match nth_error (q_row q) cl with Some x => Ok x | None => Ub OutOfBounds end ;;
        e <- select b r ;;
        '(r, _) <- exec_instrs d (e_ins e) (set_cs (option_map (fun s => (i, s)) (e_to e)) r) ;;
        again r
    end.

  Fixpoint loop (fuel : nat) (r : rt) : res rt :=
    match fuel with
    | O => OutOfFuel
    | S fuel =>
      o <- step r ;;
      match o with Stop r => Ok r | Go r => loop fuel r end
    end.

  (** parser_macros.h:414-426 [init] and [write init]. *)
  Definition start : res rt :=
    c <- entry 0 ;;
    Ok (mkRt 0 None None None c [] false false None 0 None false None false false [] [] []).

  (** parser_macros.h:264-271 *)
  Definition process_last_line (r : rt) : res rt :=
    if r_wlc r || r_lcc r then
      callback (m_lang m) (kind r) (r_ls r) (Some (Z.of_nat (length text))) r
    else Ok r.

  (** The function parse_LANG with count set: the callbacks in order. *)
  Definition parse (fuel : nat) : res (list event) :=
    r <- start ;;
    r <- loop fuel r ;;
    r <- process_last_line r ;;
    Ok (rev (r_out r)).

  (** The function parse_LANG with count 0, for the machine of the entities. *)
  Definition parse_entities (fuel : nat) : res (list event) :=
    r <- start ;;
    r <- loop fuel r ;;
    Ok (rev (r_out r)).
End Machine.
