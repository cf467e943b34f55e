(** A second check of compiled machines: the last byte of a report.  Abstract execution that
    keeps track of where a byte is known not to be a blank; TailProofs.v shows what
    acceptance means. *)
From Coq Require Import ZArith String List Bool.
From Verif Require Import Base ParsedModel RagelSyntax RagelBuild RagelRun.
From Verif Require Export Rows.
Import ListNotations.
Open Scope Z_scope.

(** State, stack, act and entity (if known) as they are.  [t_c]: the byte at p is not a
    blank; [t_b]: the byte before p is not; [t_e]: the byte before te is not; [t_end]: p
    is the end of the buffer; [t_l]: line_start is p or later; [t_k]: line_start is te - 1
    or later; [t_d = Some n]: te - p is at most n (if te is not NULL). *)
Record tst := mkT {
  t_cs : option loc; t_stack : list (option loc); t_act : option nat; t_ent : option Z;
  t_c : bool; t_b : bool; t_e : bool; t_end : bool; t_l : bool; t_k : bool; t_d : option Z }.

Definition v_cs x a := mkT x (t_stack a) (t_act a) (t_ent a) (t_c a) (t_b a) (t_e a) (t_end a) (t_l a) (t_k a) (t_d a).
Definition v_stack x a := mkT (t_cs a) x (t_act a) (t_ent a) (t_c a) (t_b a) (t_e a) (t_end a) (t_l a) (t_k a) (t_d a).
Definition v_act x a := mkT (t_cs a) (t_stack a) x (t_ent a) (t_c a) (t_b a) (t_e a) (t_end a) (t_l a) (t_k a) (t_d a).
Definition v_ent x a := mkT (t_cs a) (t_stack a) (t_act a) x (t_c a) (t_b a) (t_e a) (t_end a) (t_l a) (t_k a) (t_d a).
(** A new value of p, te or line_start. *)
Definition v_p c b l d a := mkT (t_cs a) (t_stack a) (t_act a) (t_ent a) c b (t_e a) false l (t_k a) d.
Definition v_te e d a := mkT (t_cs a) (t_stack a) (t_act a) (t_ent a) (t_c a) (t_b a) e (t_end a) (t_l a) false d.
Definition v_ls l k a := mkT (t_cs a) (t_stack a) (t_act a) (t_ent a) (t_c a) (t_b a) (t_e a) (t_end a) l k (t_d a).

Definition t_near (a : tst) : bool := match t_d a with Some n => n <=? 1 | None => false end.

Definition h_macro (m : macro) (a : tst) : option (list tst) :=
  match m with
  | Mls | Mcode | Mcomment => Some [v_ls false false a]
  | Minl _ | Membinl _ => if t_b a || t_c a || t_end a || t_l a then Some [v_ls true (t_near a) a] else None
  | Mnl _ | Membnl _ => if t_e a then Some [v_ls false false a] else None
  | Mblank _ => Some [a; v_ls false false (v_te true (Some 1) (v_p true false false None a))]
  end.

Definition happ {A} (a b : option (list A)) : option (list A) :=
  match a, b with Some a, Some b => Some (a ++ b) | _, _ => None end.

Fixpoint h_switch (l : list (Z * macro)) (a : tst) : option (list tst) :=
  match l with
  | [] => Some [a]
  | (e, m) :: l =>
    match t_ent a with
    | Some x => if x =? e then h_macro m a else h_switch l a
    | None => happ (h_macro m (v_ent (Some e) a)) (h_switch l a)
    end
  end.

Section Tail.
  Variable m : machine.

  Definition h_entry (i : nat) : option loc :=
    match nth_error (m_dfas m) i with Some d => Some (i, df_start d) | None => None end.

  Definition h_stmt (s : stmt) (a : tst) : option (list (tst * bool)) :=
    match s with
    | Entity e => Some [(v_ent (Some e) a, false)]
    | Switch l => option_map (map (fun a => (a, false))) (h_switch l a)
    | Report _ _ => None
    | Acode | Acomment | Als | Aenqueue | Acommit | Aoutry | Asaw _
    | VarSet _ _ | VarCopy _ _ | VarAdd _ _ => Some [(a, false)]
    | Hold => Some [(v_p (t_b a) false false (option_map (fun n => n + 1) (t_d a)) a, false)]
    | PTs => Some [(v_p false false false None a, false)]
    | Call i =>
      match h_entry i with
      | Some c => Some [(v_cs (Some c) (v_stack (t_cs a :: t_stack a) a), true)]
      | None => None
      end
    | Goto i => match h_entry i with Some c => Some [(v_cs (Some c) a, true)] | None => None end
    | Ret => match t_stack a with
             | [] => None
             | c :: s => Some [(v_cs c (v_stack s a), true)]
             end
    end.

  (** The results that jumped are final. *)
  Fixpoint h_then (f : tst -> option (list (tst * bool))) (l : list (tst * bool)) : option (list (tst * bool)) :=
    match l with
    | [] => Some []
    | (a, true) :: l => option_map (cons (a, true)) (h_then f l)
    | (a, false) :: l => happ (f a) (h_then f l)
    end.
  Definition hbind {A B} (o : option A) (f : A -> option B) : option B :=
    match o with Some x => f x | None => None end.

  Fixpoint h_body (l : list stmt) (a : tst) : option (list (tst * bool)) :=
    match l with
    | [] => Some [(a, false)]
    | s :: l => hbind (h_stmt s a) (h_then (h_body l))
    end.

  Definition h_part (d : dfa) (i : nat) (a : tst) : option (list (tst * bool)) :=
    match nth_error (df_parts d) i with
    | Some (Some x) => h_body (a_body x) a
    | Some None => Some [(a, false)]
    | None => None
    end.

  Definition h_instr (d : dfa) (i : instr) (a : tst) : option (list (tst * bool)) :=
    match i with
    | User x => h_body (a_body x) a
    | SetTe => Some [(v_te (t_c a) (Some 1) a, false)]
    | SetAct i => Some [(v_act (Some i) a, false)]
    | OnLast i => h_part d i (v_te (t_c a) (Some 1) a)
    | OnNext i => h_part d i (v_p (t_b a) false false (Some 1) (v_te (t_b a) None a))
    | OnLag i => h_part d i (v_p (t_e a) false (t_k a) (Some 1) a)
    | OnAct =>
      match t_act a with
      | None => Some [(v_cs None a, true)]
      | Some i => h_part d i (v_p (t_e a) false (t_k a) (Some 1) a)
      end
    end.

  Fixpoint h_instrs (d : dfa) (l : list instr) (a : tst) : option (list (tst * bool)) :=
    match l with
    | [] => Some [(a, false)]
    | i :: l => hbind (h_instr d i a) (h_then (h_instrs d l))
    end.

  (** _again *)
  Definition h_again (a : tst) : option tst :=
    match t_cs a with
    | None => None
    | Some (i, k) =>
      match nth_error (m_dfas m) i with
      | None => None
      | Some d => Some (mkT (t_cs a) (t_stack a) (if is_scan_start d k then None else t_act a) (t_ent a)
                            false (t_c a) (t_e a) false false (t_k a)
                            (option_map (fun n => Z.max 0 (n - 1)) (t_d a)))
      end
    end.

  (** No byte of the class is a blank. *)
  Definition solid_class (n : nat) : bool :=
    forallb (fun c => match PM.find (Z.to_pos (c + 1)) (m_class m) with
                      | Some x => negb (Nat.eqb x n)
                      | None => true
                      end) [9; 32].

  (** The start of a step on a byte of class [n], or at the end of the buffer. *)
  Definition h_byte (solid : bool) (a : tst) : tst :=
    mkT (t_cs a) (t_stack a) (t_act a) (t_ent a) solid (t_b a) (t_e a) false (t_l a) (t_k a) (t_d a).
  Definition h_eof (a : tst) : tst :=
    mkT (t_cs a) (t_stack a) (t_act a) (t_ent a) false (t_b a) (t_e a) true (t_l a) (t_k a) (t_d a).
  Definition h_edge (d : dfa) (i : nat) (a : tst) (solid : bool) (e : edge) : option (list (tst * bool)) :=
    h_instrs d (e_ins e) (v_cs (option_map (fun s => (i, s)) (e_to e)) (h_byte solid a)).

  (** ** The table *)
  Definition loc_key (c : loc) : positive := Z.to_pos (Z.of_nat (fst c) + 1 + 8 * Z.pos (snd c)).
  Definition h_table := PM.t (list tst).
  Definition h_get (t : h_table) (c : loc) : list tst :=
    match PM.find (loc_key c) t with Some l => l | None => [] end.

  Definition oloc_same (a b : option loc) : bool :=
    match a, b with
    | Some x, Some y => Nat.eqb (fst x) (fst y) && Pos.eqb (snd x) (snd y)
    | None, None => true
    | _, _ => false
    end.
  Fixpoint stack_same (a b : list (option loc)) : bool :=
    match a, b with
    | [], [] => true
    | x :: a, y :: b => oloc_same x y && stack_same a b
    | _, _ => false
    end.
  Definition nat_same (a b : option nat) : bool :=
    match a, b with Some x, Some y => Nat.eqb x y | None, None => true | _, _ => false end.
  (** [a] is covered by [b]. *)
  Definition t_le (a b : tst) : bool :=
    oloc_same (t_cs a) (t_cs b) && stack_same (t_stack a) (t_stack b) && nat_same (t_act a) (t_act b)
    && match t_ent b with None => true | Some y => match t_ent a with Some x => x =? y | None => false end end
    && (t_c a || negb (t_c b)) && (t_b a || negb (t_b b)) && (t_e a || negb (t_e b)) && (t_end a || negb (t_end b))
    && (t_l a || negb (t_l b)) && (t_k a || negb (t_k b))
    && match t_d b with None => true | Some y => match t_d a with Some x => x <=? y | None => false end end.

  Definition h_covered (t : h_table) (x : tst) : bool :=
    match t_cs x with
    | None => true
    | Some c =>
      match h_again x with
      | None => false
      | Some y => existsb (fun b => t_le y b) (h_get t c)
      end
    end.

  Definition h_all (P : tst * bool -> bool) (o : option (list (tst * bool))) : bool :=
    match o with Some l => forallb P l | None => false end.

  Definition h_state (t : h_table) (a : tst) : bool :=
    match t_cs a with
    | None => false
    | Some (i, k) =>
      match nth_error (m_dfas m) i with
      | None => false
      | Some d =>
        match PM.find k (df_sts d) with
        | None => false
        | Some q =>
          row_ok solid_class (fun b e => h_all (fun x => h_covered t (fst x)) (h_edge d i a b e))
                 (fun n e => h_all (fun x => h_covered t (fst x)) (h_edge d i a (solid_class n) e)) []
                 (combine (seq 0 (length (q_row q))) (q_row q))
          && match q_eof_to q with
             | Some s => h_all (fun x => h_covered t (fst x))
                           (h_instrs d (q_eof q) (v_cs (Some (i, s)) (h_eof a)))
             | None => h_all (fun x => if snd x then h_covered t (fst x) else true)
                           (h_instrs d (q_eof q) (h_eof a))
             end
        end
      end
    end.

  Definition h_start : option tst :=
    option_map (fun c => mkT (Some c) [] None (Some 0) false false true false false false (Some 0)) (h_entry 0).

  Definition tail_check (t : h_table) : bool :=
    forallb (fun kl => forallb (h_state t) (snd kl)) (PM.elements t)
    && match h_start with
       | Some a => match t_cs a with Some c => existsb (fun b => t_le a b) (h_get t c) | None => false end
       | None => false
       end.

  (** ** Computing a table (nothing has to be shown about this) *)
  Definition h_succs (a : tst) : list tst :=
    match t_cs a with
    | None => []
    | Some (i, k) =>
      match nth_error (m_dfas m) i with
      | None => []
      | Some d =>
        match PM.find k (df_sts d) with
        | None => []
        | Some q =>
          let res o := match o with
                       | Some l => flat_map (fun x => match h_again (fst x) with Some y => [y] | None => [] end) l
                       | None => [] end in
          flat_map (fun cb => flat_map (fun e => res (h_edge d i a (solid_class (fst cb)) e)) (branch_edges (snd cb)))
                   (combine (seq 0 (length (q_row q))) (q_row q))
          ++ match q_eof_to q with
             | Some s => res (h_instrs d (q_eof q) (v_cs (Some (i, s)) (h_eof a)))
             | None => res (option_map (filter snd) (h_instrs d (q_eof q) (h_eof a)))
             end
        end
      end
    end.

  Fixpoint h_explore (fuel : nat) (todo : list tst) (t : h_table) : h_table :=
    match fuel with
    | O => t
    | S fuel =>
      match todo with
      | [] => t
      | a :: todo =>
        match t_cs a with
        | None => h_explore fuel todo t
        | Some c =>
          if existsb (fun b => t_le a b) (h_get t c) then h_explore fuel todo t
          else h_explore fuel (h_succs a ++ todo) (PM.add (loc_key c) (a :: filter (fun b => negb (t_le b a)) (h_get t c)) t)
        end
      end
    end.
  Definition tail_table : h_table :=
    match h_start with
    | Some a => h_explore (Z.to_nat 1000000) [a] (PM.empty _)
    | None => PM.empty _
    end.
End Tail.
