(** A third check of compiled machines: the entities reported.  Abstract execution that
    keeps track of which bytes of the token are white space; EntityProofs.v shows what
    acceptance means. *)
From Coq Require Import ZArith String List Bool.
From Verif Require Import Base ParsedModel RagelSyntax RagelBuild RagelRun TailCheck.
Import ListNotations.
Open Scope string_scope.
Open Scope Z_scope.
Open Scope list_scope.

(** What is known of a span of bytes: all are white space, none is, the first is not,
    nothing. *)
Inductive cls := Spaces | Solid | Starts | Other.
Definition first_cls (w : bool) : cls := if w then Spaces else Solid.
Definition add_cls (c : cls) (w : bool) : cls :=
  match c, w with
  | Spaces, true => Spaces
  | Solid, false => Solid
  | Solid, true | Starts, _ => Starts
  | Spaces, false | Other, _ => Other
  end.

(** Head: between tokens.  Token: the token begins at ts.  Done: the token was reported,
    and ends with the byte at p. *)
Inductive mode := Head | Token | Done.

(** State, stack, act and entity as they are.  [x_before]: the bytes from ts to p;
    [x_tok]: the same with the byte at p; [x_next]: there is no white space at p;
    [x_te]: the bytes from ts to te, and whether there is known to be no white space at
    te; [x_at]: te is p + 1; [x_end]: p is the end of the buffer. *)
Record est := mkX {
  x_cs : option loc; x_stack : list (option loc); x_act : option nat; x_ent : Z;
  x_mode : mode; x_before : option cls; x_tok : option cls; x_next : bool;
  x_te : option (cls * bool); x_at : bool; x_end : bool }.

Definition w_cs x a := mkX x (x_stack a) (x_act a) (x_ent a) (x_mode a) (x_before a) (x_tok a) (x_next a) (x_te a) (x_at a) (x_end a).
Definition w_stack x a := mkX (x_cs a) x (x_act a) (x_ent a) (x_mode a) (x_before a) (x_tok a) (x_next a) (x_te a) (x_at a) (x_end a).
Definition w_act x a := mkX (x_cs a) (x_stack a) x (x_ent a) (x_mode a) (x_before a) (x_tok a) (x_next a) (x_te a) (x_at a) (x_end a).
Definition w_ent x a := mkX (x_cs a) (x_stack a) (x_act a) x (x_mode a) (x_before a) (x_tok a) (x_next a) (x_te a) (x_at a) (x_end a).
Definition w_mode x a := mkX (x_cs a) (x_stack a) (x_act a) (x_ent a) x (x_before a) (x_tok a) (x_next a) (x_te a) (x_at a) (x_end a).
(** A new value of p or te. *)
Definition w_p tok at_ a := mkX (x_cs a) (x_stack a) (x_act a) (x_ent a) (x_mode a) None tok false (x_te a) at_ false.
Definition w_te te at_ a := mkX (x_cs a) (x_stack a) (x_act a) (x_ent a) (x_mode a) (x_before a) (x_tok a) (x_next a) te at_ (x_end a).

(** For each class of bytes, whether they are white space: all of them, or none. *)
Definition ws_byte (c : Z) : bool := (c =? 32) || ((9 <=? c) && (c <=? 13)).
Definition all_bytes : list Z := map Z.of_nat (seq 0 256).
Definition class_bytes (m : machine) (n : nat) : list Z :=
  filter (fun c => match PM.find (Z.to_pos (c + 1)) (m_class m) with
                   | Some x => Nat.eqb x n
                   | None => false
                   end) all_bytes.
Definition class_ws (m : machine) (n : nat) : option bool :=
  let l := class_bytes m n in
  if forallb ws_byte l then Some true
  else if forallb (fun c => negb (ws_byte c)) l then Some false
  else None.
Definition class_kinds (m : machine) : list (option bool) :=
  map (class_ws m) (seq 0 (S (fold_right Nat.max 0%nat (map snd (PM.elements (m_class m)))))).

Section Entities.
  Variable m : machine.
  Variable kinds : list (option bool).
  (** Every byte has to be in a report, or only the white space. *)
  Variable tile : bool.
  (** Whether "space" has to mean white space. *)
  Variable spaces : bool.

  Definition x_report (names : list string) (a : est) : option est :=
    match x_mode a, x_te a, x_at a with
    | Token, Some (c, b), true =>
      if x_ent a <? 0 then None else
      match nth_error names (Z.to_nat (x_ent a)) with
      | None => None
      | Some k =>
        if negb spaces ||
           (if String.eqb k "space" then match c with Spaces => b | _ => false end
            else match c with Solid | Starts => true | _ => false end)
        then Some (w_mode Done a) else None
      end
    | _, _, _ => None
    end.

  Definition x_stmt (s : stmt) (a : est) : option (est * bool) :=
    match s with
    | Entity e => Some (w_ent e a, false)
    | Report _ names => option_map (fun a => (a, false)) (x_report names a)
    | Switch _ | Aenqueue | Acommit | PTs => None
    | Acode | Acomment | Als | Aoutry | Asaw _
    | VarSet _ _ | VarCopy _ _ | VarAdd _ _ => Some (a, false)
    | Hold => match x_mode a with
              | Token => Some (w_p (x_before a) false a, false)
              | _ => None
              end
    | Call i =>
      match h_entry m i with
      | Some c => Some (w_cs (Some c) (w_stack (x_cs a :: x_stack a) a), true)
      | None => None
      end
    | Goto i => match h_entry m i with Some c => Some (w_cs (Some c) a, true) | None => None end
    | Ret => match x_stack a with
             | [] => None
             | c :: s => Some (w_cs c (w_stack s a), true)
             end
    end.

  Fixpoint x_body (l : list stmt) (a : est) : option (est * bool) :=
    match l with
    | [] => Some (a, false)
    | s :: l =>
      match x_stmt s a with
      | Some (a, true) => Some (a, true)
      | Some (a, false) => x_body l a
      | None => None
      end
    end.

  Definition x_part (d : dfa) (i : nat) (a : est) : option (est * bool) :=
    match nth_error (df_parts d) i with
    | Some (Some x) => x_body (a_body x) a
    | Some None => Some (a, false)
    | None => None
    end.

  Definition x_instr (d : dfa) (i : instr) (a : est) : option (est * bool) :=
    match x_mode a, i with
    | Token, User x | Done, User x => x_body (a_body x) a
    | Token, i =>
      match i with
      | User _ => None
      | SetTe => match x_tok a with Some c => Some (w_te (Some (c, false)) true a, false) | None => None end
      | SetAct i => Some (w_act (Some i) a, false)
      | OnLast i => match x_tok a with Some c => x_part d i (w_te (Some (c, false)) true a) | None => None end
      | OnNext i =>
        match x_before a with
        | Some c => x_part d i (w_p (Some c) true (w_te (Some (c, x_next a)) false a))
        | None => None
        end
      | OnLag i => match x_te a with Some (c, _) => x_part d i (w_p (Some c) true a) | None => None end
      | OnAct =>
        match x_act a, x_te a with
        | Some i, Some (c, _) => x_part d i (w_p (Some c) true a)
        | _, _ => None
        end
      end
    | _, _ => None
    end.

  Fixpoint x_instrs (d : dfa) (l : list instr) (a : est) : option (est * bool) :=
    match l with
    | [] => Some (a, false)
    | i :: l =>
      match x_instr d i a with
      | Some (a, true) => Some (a, true)
      | Some (a, false) => x_instrs d l a
      | None => None
      end
    end.

  (** _again *)
  Definition x_again (a : est) : option est :=
    match x_cs a with
    | None => None
    | Some (i, k) =>
      match nth_error (m_dfas m) i with
      | None => None
      | Some d =>
        if is_scan_start d k then
          if match x_mode a with
             | Done => true
             | Token => match x_tok a with Some Solid => negb tile | _ => false end
             | Head => false
             end
          then Some (mkX (x_cs a) (x_stack a) None (x_ent a) Head None None false None false false)
          else None
        else
          match x_mode a, x_tok a with
          | Token, Some c => Some (mkX (x_cs a) (x_stack a) (x_act a) (x_ent a) Token (Some c) None false (x_te a) false false)
          | _, _ => None
          end
      end
    end.

  (** The start of a step on a byte, or at the end of the buffer. *)
  Definition x_byte (start : bool) (w : bool) (a : est) : option est :=
    match x_mode a, start with
    | Head, true => Some (mkX (x_cs a) (x_stack a) (x_act a) (x_ent a) Token None (Some (first_cls w)) (negb w) None false false)
    | Token, false =>
      match x_before a with
      | Some c => Some (mkX (x_cs a) (x_stack a) (x_act a) (x_ent a) Token (Some c) (Some (add_cls c w)) (negb w) (x_te a) false false)
      | None => None
      end
    | _, _ => None
    end.
  Definition x_eof (a : est) : est :=
    mkX (x_cs a) (x_stack a) (x_act a) (x_ent a) (x_mode a) (x_before a) None true (x_te a) false true.

  Definition obind {A B} (o : option A) (f : A -> option B) : option B :=
    match o with Some x => f x | None => None end.

  Definition x_edge (d : dfa) (i : nat) (k : positive) (a : est) (n : nat) (e : edge) : option est :=
    obind (nth n kinds None) (fun w => obind (x_byte (is_scan_start d k) w a) (fun a =>
    obind (x_instrs d (e_ins e) (w_cs (option_map (fun s => (i, s)) (e_to e)) a)) (fun x => x_again (fst x)))).

  (** ** The table *)
  Definition x_table := PM.t (list est).
  Definition x_get (t : x_table) (c : loc) : list est :=
    match PM.find (loc_key c) t with Some l => l | None => [] end.
  Definition cls_same (a b : cls) : bool :=
    match a, b with
    | Spaces, Spaces | Solid, Solid | Starts, Starts | Other, Other => true
    | _, _ => false
    end.
  Definition mode_same (a b : mode) : bool :=
    match a, b with Head, Head | Token, Token | Done, Done => true | _, _ => false end.
  Definition ocls_same (a b : option cls) : bool :=
    match a, b with Some x, Some y => cls_same x y | None, None => true | _, _ => false end.
  (** Two states at the head of the loop are the same. *)
  Definition x_same (a b : est) : bool :=
    oloc_same (x_cs a) (x_cs b) && stack_same (x_stack a) (x_stack b) && nat_same (x_act a) (x_act b)
    && (x_ent a =? x_ent b) && mode_same (x_mode a) (x_mode b) && ocls_same (x_before a) (x_before b)
    && ocls_same (x_tok a) (x_tok b) && Bool.eqb (x_next a) (x_next b)
    && match x_te a, x_te b with
       | Some (c, x), Some (d, y) => cls_same c d && Bool.eqb x y
       | None, None => true
       | _, _ => false
       end
    && Bool.eqb (x_at a) (x_at b) && Bool.eqb (x_end a) (x_end b).

  Definition x_in (t : x_table) (o : option est) : bool :=
    match o with
    | Some x => match x_cs x with
                | Some c => existsb (x_same x) (x_get t c)
                | None => false
                end
    | None => false
    end.

  (** What may happen at the end of the buffer. *)
  Definition x_at_end (t : x_table) (d : dfa) (i : nat) (q : dstate) (a : est) : bool :=
    match q_eof_to q with
    | Some s => x_in t (obind (x_instrs d (q_eof q) (w_cs (Some (i, s)) (x_eof a))) (fun x => x_again (fst x)))
    | None => match q_eof q, x_mode a with [], Head => true | _, _ => false end
    end.

  Definition x_state (t : x_table) (a : est) : bool :=
    match x_cs a with
    | None => false
    | Some (i, k) =>
      match nth_error (m_dfas m) i with
      | None => false
      | Some d =>
        match PM.find k (df_sts d) with
        | None => false
        | Some q =>
          forallb (fun cb => forallb (fun e => x_in t (x_edge d i k a (fst cb) e)) (branch_edges (snd cb)))
                  (combine (seq 0 (length (q_row q))) (q_row q))
          && x_at_end t d i q a
        end
      end
    end.

  Definition x_start : option est :=
    option_map (fun c => mkX (Some c) [] None 0 Head None None false None false false) (h_entry m 0).

  Definition check_with (t : x_table) : bool :=
    forallb (fun kl => forallb (x_state t) (snd kl)) (PM.elements t) && x_in t x_start.

  (** ** Computing a table (nothing has to be shown about this) *)
  Definition x_succs (a : est) : list est :=
    match x_cs a with
    | None => []
    | Some (i, k) =>
      match nth_error (m_dfas m) i with
      | None => []
      | Some d =>
        match PM.find k (df_sts d) with
        | None => []
        | Some q =>
          let res (o : option est) := match o with Some y => [y] | None => [] end in
          flat_map (fun cb => flat_map (fun e => res (x_edge d i k a (fst cb) e)) (branch_edges (snd cb)))
                   (combine (seq 0 (length (q_row q))) (q_row q))
          ++ match q_eof_to q with
             | Some s => res (obind (x_instrs d (q_eof q) (w_cs (Some (i, s)) (x_eof a))) (fun x => x_again (fst x)))
             | None => []
             end
        end
      end
    end.

  Fixpoint x_explore (fuel : nat) (todo : list est) (t : x_table) : x_table :=
    match fuel with
    | O => t
    | S fuel =>
      match todo with
      | [] => t
      | a :: todo =>
        match x_cs a with
        | None => x_explore fuel todo t
        | Some c =>
          if existsb (x_same a) (x_get t c) then x_explore fuel todo t
          else x_explore fuel (x_succs a ++ todo) (PM.add (loc_key c) (a :: x_get t c) t)
        end
      end
    end.
  Definition table_with : x_table :=
    match x_start with
    | Some a => x_explore (Z.to_nat 1000000) [a] (PM.empty _)
    | None => PM.empty _
    end.
End Entities.

Definition entity_check (m : machine) (tile spaces : bool) (t : x_table) : bool :=
  check_with m (class_kinds m) tile spaces t.
Definition entity_table (m : machine) (tile spaces : bool) : x_table := table_with m (class_kinds m) tile spaces.
