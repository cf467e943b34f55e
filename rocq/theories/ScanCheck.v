(** A check of compiled machines: abstract execution of all transitions with an
    over-approximation of the pointers.  [check] accepts a machine together with a table
    of abstract states that is closed under the abstract steps; ScanProofs.v shows what
    acceptance means for every buffer. *)
From Coq Require Import ZArith String List Bool.
From Verif Require Import Base ParsedModel RagelSyntax RagelBuild RagelRun.
From Verif Require Export Rows.
Import ListNotations.
Open Scope Z_scope.

(** [TSome n]: ts is not NULL and n <= p - ts. *)
Inductive ats := TNone | TAny | TSome (n : Z).

(** What is known about the byte at p: nothing, its class, p is the end of the buffer. *)
Inductive apk := PAny | PClass (c : nat) | PEnd.

(** [a_te = Some n]: te and ts are not NULL and n <= te - ts.  [a_lsn]: line_start is not
    NULL.  [a_ent]: the value of entity, if known.  [a_abs]: lower bound of p.  [a_lt]: p
    is before the end of the buffer.  [a_dp = Some (d, x)]: the movement of p in the
    current step is at least d, and exactly d if x.  [a_peek]: what is known about the byte at p at the start of the step.  [a_lc]: line_contains_code or
    whole_line_comment is set.  [a_nq]: nothing is queued.  [a_tp]: te - p, if known.
    [a_in]: line_start is not the end of the buffer.  [a_vars]: (v, k) means that the
    absolute value of counter v is at most p - ts + k. *)
Record ast := mkA {
  a_cs : option loc; a_stack : list (option loc); a_act : option nat;
  a_ts : ats; a_te : option Z; a_lsn : bool; a_ent : option Z; a_abs : Z;
  a_lt : bool; a_dp : option (Z * bool); a_peek : apk; a_lc : bool; a_nq : bool; a_tp : option Z; a_in : bool; a_vars : list (Z * Z) }.

Definition w_cs x a := mkA x (a_stack a) (a_act a) (a_ts a) (a_te a) (a_lsn a) (a_ent a) (a_abs a) (a_lt a) (a_dp a) (a_peek a) (a_lc a) (a_nq a) (a_tp a) (a_in a) (a_vars a).
Definition w_stack x a := mkA (a_cs a) x (a_act a) (a_ts a) (a_te a) (a_lsn a) (a_ent a) (a_abs a) (a_lt a) (a_dp a) (a_peek a) (a_lc a) (a_nq a) (a_tp a) (a_in a) (a_vars a).
Definition w_act x a := mkA (a_cs a) (a_stack a) x (a_ts a) (a_te a) (a_lsn a) (a_ent a) (a_abs a) (a_lt a) (a_dp a) (a_peek a) (a_lc a) (a_nq a) (a_tp a) (a_in a) (a_vars a).
Definition w_te x tp a := mkA (a_cs a) (a_stack a) (a_act a) (a_ts a) x (a_lsn a) (a_ent a) (a_abs a) (a_lt a) (a_dp a) (a_peek a) (a_lc a) (a_nq a) tp (a_in a) (a_vars a).
Definition w_lsn x lc nq a := mkA (a_cs a) (a_stack a) (a_act a) (a_ts a) (a_te a) x (a_ent a) (a_abs a) (a_lt a) (a_dp a) (a_peek a) lc nq (a_tp a) (a_in a) (a_vars a).
Definition w_ent x a := mkA (a_cs a) (a_stack a) (a_act a) (a_ts a) (a_te a) (a_lsn a) x (a_abs a) (a_lt a) (a_dp a) (a_peek a) (a_lc a) (a_nq a) (a_tp a) (a_in a) (a_vars a).
Definition w_in x a := mkA (a_cs a) (a_stack a) (a_act a) (a_ts a) (a_te a) (a_lsn a) (a_ent a) (a_abs a) (a_lt a) (a_dp a) (a_peek a) (a_lc a) (a_nq a) (a_tp a) x (a_vars a).
Definition w_vars x a := mkA (a_cs a) (a_stack a) (a_act a) (a_ts a) (a_te a) (a_lsn a) (a_ent a) (a_abs a) (a_lt a) (a_dp a) (a_peek a) (a_lc a) (a_nq a) (a_tp a) (a_in a) x.
(** A new value of p. *)
Definition w_p ts abs lt dp tp vs a := mkA (a_cs a) (a_stack a) (a_act a) ts (a_te a) (a_lsn a) (a_ent a) abs lt dp (a_peek a) (a_lc a) (a_nq a) tp (a_in a) vs.

Definition ts_add (n : Z) (t : ats) : ats := match t with TSome k => TSome (k + n) | t => t end.
Definition ts_known (t : ats) : bool := match t with TSome _ => true | _ => false end.

Definition oadd (n : Z) (o : option Z) : option Z := option_map (fun d => d + n) o.

Definition dadd (n : Z) (o : option (Z * bool)) : option (Z * bool) :=
  option_map (fun d => (fst d + n, snd d)) o.

(** p is decremented. *)
Definition p_dec (a : ast) : ast :=
  w_p (ts_add (-1) (a_ts a)) (a_abs a - 1) true (dadd (-1) (a_dp a)) (oadd 1 (a_tp a))
      (map (fun x => (fst x, snd x + 1)) (a_vars a)) a.
(** p = te - 1 *)
Definition p_te (a : ast) : option ast :=
  match a_te a, a_ts a with
  | Some n, TSome _ =>
    Some (w_p (TSome (n - 1)) (n - 1) true
              (match a_tp a with Some k => dadd (k - 1) (a_dp a) | None => None end) (Some 1) [] a)
  | _, _ => None
  end.

(** The macros.  [None]: the check fails. *)
Definition k_nl (a : ast) : option ast :=
  if a_lc a && a_nq a then Some (w_in true (w_lsn false false true a)) else
  match a_te a, a_ts a with
  | Some n, TSome _ => if 1 <=? n then Some (w_in true (w_lsn false false true a)) else None
  | _, _ => None
  end.
Definition k_ls (a : ast) : ast := w_lsn (a_lsn a || ts_known (a_ts a)) (a_lc a) (a_nq a) a.
Definition k_code (a : ast) : option ast :=
  if (ts_known (a_ts a) || a_lsn a) && a_in a then Some (w_lsn true true (a_nq a) a) else None.
Definition k_dequeue (a : ast) : ast := if a_nq a then a else w_lsn false false true a.
Definition mem (l : string) (names : list string) : bool := existsb (String.eqb l) names.

(** [names]: the languages that may be reported.  [lenient]: an internal newline with line_start NULL is let pass; it ends the run. *)
Definition k_macro (names : list string) (lenient : bool) (m : macro) (a : ast) : option (list ast) :=
  match m with
  | Mls => Some [k_ls (k_dequeue a)]
  | Mcode | Mcomment => option_map (fun a => [a]) (k_code (k_dequeue a))
  | Minl l | Membinl l => if mem l names && (a_lsn a || lenient) && (0 <=? a_abs a) then Some [w_in (a_lt a) (w_lsn true false (a_nq a) a)] else None
  | Mnl l | Membnl l => if mem l names then option_map (fun a => [a]) (k_nl a) else None
  | Mblank l =>
    if mem l names && a_lt a && (-1 <=? a_abs a) then
      match a_ts a with
      | TSome n =>
        let b := w_p (TSome (n + 1)) (a_abs a + 1) true
                     (option_map (fun d => (fst d + 1, false)) (a_dp a)) (Some 1) (a_vars a) (w_te (Some (n + 2)) None a) in
        option_map (fun b => [a; b]) (k_nl b)
      | _ => None
      end
    else None
  end.

Definition oapp {A} (a b : option (list A)) : option (list A) :=
  match a, b with Some a, Some b => Some (a ++ b) | _, _ => None end.

Fixpoint k_switch (names : list string) (lenient : bool) (l : list (Z * macro)) (a : ast) : option (list ast) :=
  match l with
  | [] => Some [a]
  | (e, m) :: l =>
    match a_ent a with
    | Some x => if x =? e then k_macro names lenient m a else k_switch names lenient l a
    | None => oapp (k_macro names lenient m (w_ent (Some e) a)) (k_switch names lenient l a)
    end
  end.

Section Check.
  Variable m : machine.
  Variable names : list string.
  Variable lenient counters : bool.
  (** The entities that may be reported of a language; [lines]: the three kinds of lines
      are among them for every language. *)
  Variable may : string -> string -> bool.
  Definition lines : bool :=
    forallb (fun l => may l "lcode" && may l "lcomment" && may l "lblank")%string names.

  Definition k_entry (i : nat) : option loc :=
    match nth_error (m_dfas m) i with Some d => Some (i, df_start d) | None => None end.

  Definition v_drop (v : Z) (l : list (Z * Z)) : list (Z * Z) := filter (fun x => negb (fst x =? v)) l.
  Definition k_varset (v n : Z) (a : ast) : ast :=
    w_vars (match a_ts a with
            | TSome k => (v, Z.abs n - k) :: v_drop v (a_vars a)
            | _ => v_drop v (a_vars a)
            end) a.
  Definition k_varadd (v n : Z) (a : ast) : option (list (ast * bool)) :=
    match find (fun x => fst x =? v) (a_vars a), a_lt a, a_ts a with
    | Some (_, k), true, TSome _ =>
      if k + Z.abs n <=? 1 then Some [(w_vars ((v, k + Z.abs n) :: v_drop v (a_vars a)) a, false)]
      else if counters then Some [(w_vars (v_drop v (a_vars a)) a, false)] else None
    | _, _, _ => if counters then Some [(w_vars (v_drop v (a_vars a)) a, false)] else None
    end.

  Definition k_stmt (s : stmt) (a : ast) : option (list (ast * bool)) :=
    let one a := Some [(a, false)] in
    match s with
    | Entity e => one (w_ent (Some e) a)
    | Switch l => if lines then option_map (map (fun a => (a, false))) (k_switch names lenient l a) else None
    | Report l ks =>
      match a_ent a, a_te a with
      | Some e, Some n =>
        if mem l names && (0 <=? e) && (1 <=? n)
           && match nth_error ks (Z.to_nat e) with Some k => may l k | None => false end
        then one a else None
      | _, _ => None
      end
    | Acode | Acomment => option_map (fun a => [(a, false)]) (k_code a)
    | Als => one (k_ls a)
    | Aenqueue => if a_in a then one (w_lsn (a_lsn a) (a_lc a) false a) else None
    | Acommit => one (w_lsn (a_lsn a) (a_lc a) true a)
    | Aoutry => one a
    | Asaw l => if mem l names then one (w_lsn (a_lsn a) false (a_nq a) a) else None
    | VarSet v n => one (k_varset v n a)
    | VarCopy v _ => one (w_vars (v_drop v (a_vars a)) a)
    | VarAdd v n => k_varadd v n a
    | Hold => one (p_dec a)
    | PTs => match a_ts a with
             | TSome _ => one (w_p (TSome 0) 0 true None None [] a)
             | _ => None
             end
    | Call i =>
      match k_entry i with
      | Some c => if Nat.ltb (length (a_stack a)) stack_size
                  then Some [(w_cs (Some c) (w_stack (a_cs a :: a_stack a) a), true)] else None
      | None => None
      end
    | Goto i => match k_entry i with Some c => Some [(w_cs (Some c) a, true)] | None => None end
    | Ret => match a_stack a with
             | [] => None
             | c :: s => Some [(w_cs c (w_stack s a), true)]
             end
    end.

  (** Sequences: the results that jumped are final. *)
  Fixpoint seq_results {A} (f : ast -> option (list (A * bool))) (g : ast -> A)
           (l : list (ast * bool)) : option (list (A * bool)) :=
    match l with
    | [] => Some []
    | (a, true) :: l => option_map (cons (g a, true)) (seq_results f g l)
    | (a, false) :: l => oapp (f a) (seq_results f g l)
    end.

  Definition obnd {A B} (o : option A) (f : A -> option B) : option B :=
    match o with Some x => f x | None => None end.

  Fixpoint k_body (l : list stmt) (a : ast) : option (list (ast * bool)) :=
    match l with
    | [] => Some [(a, false)]
    | s :: l => obnd (k_stmt s a) (seq_results (k_body l) (fun a => a))
    end.

  Definition k_part (d : dfa) (i : nat) (a : ast) : option (list (ast * bool)) :=
    match nth_error (df_parts d) i with
    | Some (Some x) => k_body (a_body x) a
    | Some None => Some [(a, false)]
    | None => None
    end.

  Definition te_next (a : ast) : option Z := match a_ts a with TSome n => Some (n + 1) | _ => None end.

  Definition k_instr (d : dfa) (i : instr) (a : ast) : option (list (ast * bool)) :=
    match i with
    | User x => k_body (a_body x) a
    | SetTe => if a_lt a && (-1 <=? a_abs a) then Some [(w_te (te_next a) (Some 1) a, false)] else None
    | SetAct i => Some [(w_act (Some i) a, false)]
    | OnLast i => if a_lt a && (-1 <=? a_abs a) then k_part d i (w_te (te_next a) (Some 1) a) else None
    | OnNext i =>
      if 0 <=? a_abs a then
        k_part d i (p_dec (w_te (match a_ts a with TSome n => Some n | _ => None end) (Some 0) a))
      else None
    | OnLag i => obnd (p_te a) (k_part d i)
    | OnAct =>
      match a_act a with
      | None => Some [(w_cs None a, true)]
      | Some i => obnd (p_te a) (k_part d i)
      end
    end.

  Fixpoint k_instrs (d : dfa) (l : list instr) (a : ast) : option (list (ast * bool)) :=
    match l with
    | [] => Some [(a, false)]
    | i :: l => obnd (k_instr d i a) (seq_results (k_instrs d l) (fun a => a))
    end.

  Definition cap (n : Z) : Z := Z.min n 3.

  (** _again: the next abstract state; [None] when the loop stops.  [now]: the byte of this
      step; it will be read again if p has been decremented once. *)
  Definition peek (now : apk) (dp : option (Z * bool)) : apk :=
    match dp with Some (d, true) => if d =? -1 then now else PAny | _ => PAny end.
  Definition cap_tp (o : option Z) : option Z :=
    match o with Some k => if 0 <=? k then Some k else None | None => None end.
  Definition k_again (now : apk) (a : ast) : option ast :=
    match a_cs a with
    | None => None
    | Some (i, k) =>
      match nth_error (m_dfas m) i with
      | None => None
      | Some d =>
        let s := is_scan_start d k in
        Some (mkA (a_cs a) (a_stack a) (if s then None else a_act a)
                  (if s then TNone else match a_ts a with TSome n => TSome (cap (n + 1)) | t => t end)
                  (if s then None else option_map cap (a_te a)) (a_lsn a) (a_ent a) (cap (a_abs a + 1)) false
                  None (peek now (a_dp a)) (a_lc a) (a_nq a) (cap_tp (oadd (-1) (a_tp a))) (a_in a)
                  (if s then [] else match a_ts a with
                                     | TSome _ => map (fun x => (fst x, Z.max 0 (snd x - 1))) (a_vars a)
                                     | _ => [] end))
      end
    end.

  (** Lower bound of the position in the end, relative to the start of the token. *)
  Definition final_lo (a : ast) : option Z := match a_ts a with TSome n => Some n | _ => None end.

  (** ** The table *)
  Definition table := list (PM.t (list (ast * Z))).
  Definition t_get (t : table) (c : loc) : list (ast * Z) :=
    match nth_error t (fst c) with
    | Some x => match PM.find (snd c) x with Some l => l | None => [] end
    | None => []
    end.

  Definition loc_eqb (a b : loc) : bool := Nat.eqb (fst a) (fst b) && Pos.eqb (snd a) (snd b).
  Definition oloc_eqb (a b : option loc) : bool :=
    match a, b with Some x, Some y => loc_eqb x y | None, None => true | _, _ => false end.
  Fixpoint stack_eqb (a b : list (option loc)) : bool :=
    match a, b with
    | [], [] => true
    | x :: a, y :: b => oloc_eqb x y && stack_eqb a b
    | _, _ => false
    end.
  Definition onat_eqb (a b : option nat) : bool :=
    match a, b with Some x, Some y => Nat.eqb x y | None, None => true | _, _ => false end.

  (** [a] is covered by [b]. *)
  Definition ts_le (a b : ats) : bool :=
    match a, b with
    | _, TAny => true
    | TNone, TNone => true
    | TSome x, TSome y => y <=? x
    | _, _ => false
    end.
  Definition te_le (a b : option Z) : bool :=
    match a, b with
    | _, None => true
    | Some x, Some y => y <=? x
    | None, _ => false
    end.
  Definition a_le (a b : ast) : bool :=
    oloc_eqb (a_cs a) (a_cs b) && stack_eqb (a_stack a) (a_stack b) && onat_eqb (a_act a) (a_act b)
    && ts_le (a_ts a) (a_ts b) && te_le (a_te a) (a_te b) && (a_lsn a || negb (a_lsn b))
    && (a_lc a || negb (a_lc b)) && (a_nq a || negb (a_nq b)) && (a_in a || negb (a_in b))
    && match a_ent b with None => true | Some y => match a_ent a with Some x => x =? y | None => false end end
    && (a_abs b <=? a_abs a)
    && match a_peek b with
       | PAny => true
       | PClass y => match a_peek a with PClass x => Nat.eqb x y | _ => false end
       | PEnd => match a_peek a with PEnd => true | _ => false end
       end
    && forallb (fun x => existsb (fun y => (fst x =? fst y) && (snd y <=? snd x)) (a_vars a)) (a_vars b)
    && match a_tp b with None => true | Some y => match a_tp a with Some x => x =? y | None => false end end.

  (** Kinds of states, for the measure: start of a token, inside a token, other. *)
  Inductive phase := Start | Inside | Other.
  Definition phase_of (a : ast) : phase :=
    match a_cs a with
    | None => Other
    | Some (i, k) =>
      match nth_error (m_dfas m) i with
      | None => Other
      | Some d => if is_scan_start d k then Start
                  else if df_scan d && ts_known (a_ts a) then Inside else Other
      end
    end.

  (** Is the measure smaller after the step?  [from] with rank [r], [to] with rank [r'],
      [lo]: distance of p from the start of the token before _again, [dp]: movement. *)
  Definition weight : Z := 8.
  Definition decreases (from : phase) (r : Z) (to : phase) (r' : Z) (lo : option Z) (dp : option (Z * bool)) : bool :=
    let past := match lo with Some n => 0 <=? n | None => false end in
    let moved := match dp with Some (d, _) => r' <? r + weight * (d + 1) | None => false end in
    let stays := match dp with Some (d, _) => -1 <=? d | None => false end in
    match from, to with
    | Start, Inside => true
    | Start, _ => past
    | Inside, Inside => moved
    | Inside, _ => past
    | Other, Other => moved
    | Other, Start => stays
    | Other, Inside => false
    end.

  (** A result of a step is covered by the table. *)
  Definition covered (t : table) (now : apk) (from : phase) (r : Z) (x : ast) : bool :=
    match a_cs x with
    | None => true
    | Some c =>
      match k_again now x with
      | None => false
      | Some y => a_lt x && existsb (fun b => a_le y (fst b)
                                    && decreases from r (phase_of (fst b)) (snd b) (final_lo x) (a_dp x)) (t_get t c)
      end
    end.

  Definition init_step (a : ast) (lt : bool) : ast :=
    mkA (a_cs a) (a_stack a) (a_act a) (a_ts a) (a_te a) (a_lsn a) (a_ent a) (a_abs a) lt (Some (0, true)) (a_peek a) (a_lc a) (a_nq a) (a_tp a) (a_in a) (a_vars a).

  Definition k_edge (d : dfa) (i : nat) (a : ast) (e : edge) : option (list (ast * bool)) :=
    k_instrs d (e_ins e) (w_cs (option_map (fun s => (i, s)) (e_to e)) a).

  (** The abstract state at the start of a step on a byte. *)
  Definition k_start (d : dfa) (k : positive) (a : ast) : ast :=
    let a := init_step a true in
    if is_scan_start d k then w_p (TSome 0) (a_abs a) true (Some (0, true)) (a_tp a) [] (w_te None (a_tp a) a) else a.

  Definition all_results (P : ast * bool -> bool) (o : option (list (ast * bool))) : bool :=
    match o with Some l => forallb P l | None => false end.

  (** The cells of a row that can be met. *)
  Definition cells (a : ast) (q : dstate) : list (nat * branch) :=
    filter (fun cb => match a_peek a with PClass c => Nat.eqb c (fst cb) | PEnd => false | PAny => true end)
           (combine (seq 0 (length (q_row q))) (q_row q)).

  (** A result at the end of the buffer. *)
  Definition ends (t : table) (from : phase) (r : Z) (x : ast * bool) : bool :=
    match a_cs (fst x) with
    | None => true
    | Some _ => match from with Start => false | _ => covered t PEnd from r (fst x) end
    end.

  Definition check_state (t : table) (a : ast) (r : Z) : bool :=
    match a_cs a with
    | None => false
    | Some (i, k) =>
      match nth_error (m_dfas m) i with
      | None => false
      | Some d =>
        match PM.find k (df_sts d) with
        | None => false
        | Some q =>
          let from := phase_of a in
          let s := k_start d k a in
          (* a byte *)
          row_ok (fun _ => true)
            (fun _ e => all_results (fun x => covered t PAny from r (fst x)) (k_edge d i s e))
            (fun n e => all_results (fun x => covered t (PClass n) from r (fst x)) (k_edge d i s e)) []
            (cells a q)
          (* the end of the buffer *)
          && match a_peek a with PClass _ => true | _ =>
             match q_eof_to q with
             | Some s =>
               all_results (ends t from r) (k_instrs d (q_eof q) (w_cs (Some (i, s)) (init_step a false)))
             | None =>
               all_results (fun x => if snd x then ends t from r x else true)
                    (k_instrs d (q_eof q) (init_step a false))
             end end
        end
      end
    end.

  Definition start_state : option ast :=
    option_map (fun c => mkA (Some c) [] None TNone None false None 0 false None PAny false true None true []) (k_entry 0).

  Definition good_classes : bool :=
    let n := fold_right (fun c n => match PM.find (Z.to_pos (c + 1)) (m_class m) with
                                    | Some x => Nat.max x n
                                    | None => n
                                    end) 0%nat all_bytes in
    forallb (fun c => match PM.find (Z.to_pos (c + 1)) (m_class m) with
                      | Some x => Nat.leb x n
                      | None => false
                      end) all_bytes
    && forallb (fun d => forallb (fun e => Nat.ltb n (length (q_row (snd e)))) (PM.elements (df_sts d))) (m_dfas m).

  (** Every entry of the table is checked at its own place. *)
  Definition check_table (t : table) : bool :=
    forallb (fun e => forallb (fun kl => forallb (fun ar =>
        match a_cs (fst ar) with Some c => loc_eqb c (fst e, fst kl) | None => false end
        && (0 <=? snd ar) && (snd ar <? match phase_of (fst ar) with Other => weight | _ => 64 end)
        && (0 <=? a_abs (fst ar)) && check_state t (fst ar) (snd ar)) (snd kl))
      (PM.elements (snd e))) (combine (seq 0 (length t)) t).

  Definition check (t : table) : bool :=
    good_classes && check_table t && mem (m_lang m) names
    && match start_state with
       | Some a => match a_cs a with
                   | Some c => existsb (fun b => a_le a (fst b)) (t_get t c)
                               && match phase_of a with Inside => false | _ => true end
                   | None => false
                   end
       | None => false
       end.

  (** ** Computing a table (nothing has to be shown about this) *)
  Definition t_add (a : ast) (t : table) : table :=
    match a_cs a with
    | None => t
    | Some (i, k) =>
      (fix go n t := match t with
                     | [] => []
                     | x :: t => match n with
                                 | O => PM.add k ((a, 0) :: match PM.find k x with Some l => l | None => [] end) x :: t
                                 | S n => x :: go n t
                                 end
                     end) i t
    end.

  (** Successors with the movement. *)
  Definition succs (a : ast) : list (ast * option (Z * bool)) :=
    match a_cs a with
    | None => []
    | Some (i, k) =>
      match nth_error (m_dfas m) i with
      | None => []
      | Some d =>
        match PM.find k (df_sts d) with
        | None => []
        | Some q =>
          let res now o := match o with
                       | Some l => flat_map (fun x => match k_again now (fst x) with Some y => [(y, a_dp (fst x))] | None => [] end) l
                       | None => [] end in
          flat_map (fun cb => flat_map (fun e => res (PClass (fst cb)) (k_edge d i (k_start d k a) e)) (branch_edges (snd cb))) (cells a q)
          ++ match a_peek a with PClass _ => [] | _ =>
             match q_eof_to q with
             | Some s => res PEnd (k_instrs d (q_eof q) (w_cs (Some (i, s)) (init_step a false)))
             | None => res PEnd (option_map (filter snd) (k_instrs d (q_eof q) (init_step a false)))
             end end
        end
      end
    end.

  (** Widening at the start of a token. *)
  Variable keep : bool.
  Definition widen (a : ast) : ast :=
    match phase_of a with
    | Start => mkA (a_cs a) (a_stack a) None TNone None (keep && a_lsn a)
                   (if a_nq a then None else a_ent a) 0 false None
                   (match a_peek a with PEnd => PEnd | _ => PAny end) false (a_nq a) None (a_in a) []
    | _ => a
    end.

  Fixpoint explore (fuel : nat) (todo : list ast) (t : table) : table :=
    match fuel with
    | O => t
    | S fuel =>
      match todo with
      | [] => t
      | a :: todo =>
        match a_cs a with
        | None => explore fuel todo t
        | Some c =>
          if existsb (fun b => a_le a (fst b)) (t_get t c) then explore fuel todo t
          else explore fuel (map (fun x => widen (fst x)) (succs a) ++ todo) (t_add a t)
        end
      end
    end.

  (** Ranks: longest paths, a bounded number of rounds. *)
  Definition rank_of (t : table) (y : ast) : Z :=
    match a_cs y with
    | None => 0
    | Some c => match find (fun b => a_le y (fst b)) (t_get t c) with Some b => snd b | None => 0 end
    end.
  Definition new_rank (t : table) (a : ast) : Z :=
    fold_left (fun r yd => match phase_of a, phase_of (fst yd), snd yd with
                           | Inside, Inside, Some (d, _) | Other, Other, Some (d, _) =>
                             Z.max r (rank_of t (fst yd) - weight * (d + 1) + 1)
                           | _, _, _ => r
                           end) (succs a) 0.
  Definition has_hold : bool :=
    let body l := existsb (fun s => match s with Hold => true | _ => false end) l in
    existsb (fun d => existsb (fun q => existsb (fun b => existsb (fun e =>
       existsb (fun i => match i with User x => body (a_body x) | _ => false end) (e_ins e)) (branch_edges b)) (q_row (snd q)))
       (PM.elements (df_sts d))) (m_dfas m).
  Definition add_ranks (t : table) : table :=
    map (PM.map (map (fun ar => (fst ar, new_rank t (fst ar))))) t.

  Definition analyse : table :=
    match start_state with
    | Some a =>
      let t := explore (Z.to_nat 1000000) [a] (map (fun _ => PM.empty _) (m_dfas m)) in
      if has_hold then add_ranks (add_ranks (add_ranks (add_ranks t))) else t
    | None => []
    end.
End Check.

(** A machine that counts lines: no action reports an entity. *)
Definition counts_stmt (s : stmt) : bool := match s with Report _ _ => false | _ => true end.
Definition counts_instr (i : instr) : bool := match i with User a => forallb counts_stmt (a_body a) | _ => true end.
Definition counting (m : machine) : bool :=
  forallb (fun d =>
    forallb (fun o => match o with Some a => forallb counts_stmt (a_body a) | None => true end) (df_parts d)
    && forallb (fun q => forallb counts_instr (q_eof (snd q))
                         && forallb (fun b => forallb (fun e => forallb counts_instr (e_ins e)) (branch_edges b)) (q_row (snd q)))
               (PM.elements (df_sts d))) (m_dfas m).
