(** From Ragel expressions to deterministic automata.

    This follows the construction Ragel 6 documents and performs (Ragel guide 6.10,
    chapters 2-6): every operator works on a deterministic automaton whose transitions
    carry an ordered action table, a priority table and a table of matched patterns;
    merging states merges transitions on the same byte.  The actions of a transition
    run in the order in which the embeddings are met when the expression is walked,
    [>] before the operand, all others after it.
    Simplification: automata are not minimised (minimisation merges states that behave
    alike). *)
From Coq Require Import ZArith List Bool FMapPositive.
From Verif Require Import RagelSyntax.
Import ListNotations.
Open Scope Z_scope.

Module PM := PositiveMap.

(** * Tables *)

(** Action tables, sorted by the order number. *)
Definition acts : Type := list (Z * action).

Fixpoint set_act (o : Z) (a : action) (l : acts) : acts :=
  match l with
  | [] => [(o, a)]
  | (o', a') :: r =>
    if o <? o' then (o, a) :: l
    else if (o =? o') && (a_id a =? a_id a') then l
    else (o', a') :: set_act o a r
  end.
Definition set_acts (src dst : acts) : acts := fold_left (fun t x => set_act (fst x) (snd x) t) src dst.

(** Priority tables and tables of matched patterns, sorted by key. *)
Definition pri : Type := list (Z * Z).
Fixpoint set_pri (k v : Z) (l : pri) : pri :=
  match l with
  | [] => [(k, v)]
  | (k', v') :: r =>
    if k <? k' then (k, v) :: l else if k =? k' then (k, v) :: r else (k', v') :: set_pri k v r
  end.
Definition set_pris (src dst : pri) : pri := fold_left (fun t x => set_pri (fst x) (snd x) t) src dst.

(** First difference on a common key decides. *)
Fixpoint pri_compare (a : pri) : pri -> comparison :=
  match a with
  | [] => fun _ => Eq
  | (k, v) :: r =>
    (fix go (b : pri) : comparison :=
       match b with
       | [] => Eq
       | (k', v') :: r' =>
         if k <? k' then pri_compare r b
         else if k' <? k then go r'
         else match v ?= v' with Eq => pri_compare r r' | c => c end
       end)
  end.

(** Sets of states: sorted lists. *)
Fixpoint sins (x : positive) (l : list positive) : list positive :=
  match l with
  | [] => [x]
  | y :: r => match (x ?= y)%positive with Lt => x :: l | Eq => l | Gt => y :: sins x r end
  end.
Definition sunion (a b : list positive) : list positive := fold_left (fun s x => sins x s) a b.

Fixpoint seqb (a b : list positive) : bool :=
  match a, b with
  | [], [] => true
  | x :: a, y :: b => Pos.eqb x y && seqb a b
  | _, _ => false
  end.

(** * Transitions and states *)

(** [t_to]: the target states (all of them, before the automaton is made
    deterministic), empty for a transition to the error state. *)
Record trans := mkTrans { t_to : list positive; t_acts : acts; t_lm : pri; t_pri : pri }.

(** What happens on one class of bytes; conditions are tested in a fixed order. *)
Inductive cell := CNone | CTrans (t : trans) | CIf (c : cond) (y n : cell).

Definition cond_key (c : cond) : Z :=
  match c with
  | CrAlone => 0 | StartsLine => 1 | NoCode => 2
  | IsZero v => 16 * v + 3 | IsPos v => 16 * v + 4 | Less v w => 16 * (16 * v + w) + 5
  end.

Record st := mkSt { s_row : list cell; s_fin : bool; s_out : acts; s_outp : pri; s_eof : acts }.

(** Two transitions on the same byte: the higher priority wins, equals are merged. *)
Definition cross (a b : trans) : trans :=
  match pri_compare (t_pri a) (t_pri b) with
  | Lt => b
  | Gt => a
  | Eq => mkTrans (sunion (t_to b) (t_to a)) (set_acts (t_acts b) (t_acts a))
                  (set_pris (t_lm b) (t_lm a)) (set_pris (t_pri b) (t_pri a))
  end.

Fixpoint cell_merge (a : cell) : cell -> cell :=
  fix go (b : cell) : cell :=
    match a, b with
    | CIf c y n, CIf c' y' n' =>
      match cond_key c ?= cond_key c' with
      | Eq => CIf c (cell_merge y y') (cell_merge n n')
      | Lt => CIf c (cell_merge y b) (cell_merge n b)
      | Gt => CIf c' (go y') (go n')
      end
    | CIf c y n, _ => CIf c (cell_merge y b) (cell_merge n b)
    | _, CIf c' y' n' => CIf c' (go y') (go n')
    | CNone, _ => b
    | _, CNone => a
    | CTrans t, CTrans t' => CTrans (cross t t')
    end.

Fixpoint row_merge (a b : list cell) : list cell :=
  match a, b with
  | x :: a, y :: b => cell_merge x y :: row_merge a b
  | _, _ => []
  end.

Definition st_merge (a b : st) : st :=
  mkSt (row_merge (s_row a) (s_row b)) (s_fin a || s_fin b) (set_acts (s_out b) (s_out a))
       (set_pris (s_outp b) (s_outp a)) (set_acts (s_eof b) (s_eof a)).

Fixpoint cell_map (f : trans -> trans) (c : cell) : cell :=
  match c with
  | CNone => CNone
  | CTrans t => CTrans (f t)
  | CIf c y n => CIf c (cell_map f y) (cell_map f n)
  end.
Definition row_map (f : trans -> trans) (s : st) : st :=
  mkSt (map (cell_map f) (s_row s)) (s_fin s) (s_out s) (s_outp s) (s_eof s).

(** * Automata: states 1 .. fs_next - 1 *)
Record fsm := mkFsm { fs_start : positive; fs_sts : PM.t st; fs_next : positive }.

Section Build.
  (** Number of byte classes. *)
  Variable ncls : nat.

  Definition empty_st : st := mkSt (repeat CNone ncls) false [] [] [].

  Definition get (m : PM.t st) (k : positive) : st :=
    match PM.find k m with Some s => s | None => empty_st end.

  Definition states (f : fsm) : list (positive * st) := PM.elements (fs_sts f).

  Definition map_sts (g : positive -> st -> st) (f : fsm) : fsm :=
    mkFsm (fs_start f) (PM.mapi g (fs_sts f)) (fs_next f).

  (** ** Subset construction *)
  Record dets := mkDets {
    d_one : PM.t positive;                      (* sets of one state *)
    d_many : list (list positive * positive);   (* the others *)
    d_next : positive;
    d_todo : list (list positive * positive);
    d_sts : PM.t st }.

  Definition d_find (d : dets) (s : list positive) : option positive :=
    match s with
    | [x] => PM.find x (d_one d)
    | _ => match find (fun e => seqb (fst e) s) (d_many d) with Some (_, k) => Some k | None => None end
    end.

  Definition d_id (d : dets) (s : list positive) : dets * positive :=
    match d_find d s with
    | Some k => (d, k)
    | None =>
      let k := d_next d in
      (match s with
       | [x] => mkDets (PM.add x k (d_one d)) (d_many d) (Pos.succ k) ((s, k) :: d_todo d) (d_sts d)
       | _ => mkDets (d_one d) ((s, k) :: d_many d) (Pos.succ k) ((s, k) :: d_todo d) (d_sts d)
       end, k)
    end.

  Fixpoint d_cell (d : dets) (c : cell) : dets * cell :=
    match c with
    | CNone => (d, CNone)
    | CTrans t =>
      match t_to t with
      | [] => (d, c)
      | s => let '(d, k) := d_id d s in (d, CTrans (mkTrans [k] (t_acts t) (t_lm t) (t_pri t)))
      end
    | CIf q y n => let '(d, y) := d_cell d y in let '(d, n) := d_cell d n in (d, CIf q y n)
    end.

  Fixpoint d_row (d : dets) (r : list cell) : dets * list cell :=
    match r with
    | [] => (d, [])
    | c :: r => let '(d, c) := d_cell d c in let '(d, r) := d_row d r in (d, c :: r)
    end.

  Fixpoint d_loop (fuel : nat) (m : PM.t st) (d : dets) : option dets :=
    match d_todo d with
    | [] => Some d
    | (s, k) :: todo =>
      match fuel with
      | O => None
      | S fuel =>
        let z := match s with
                 | [] => empty_st
                 | x :: r => fold_left (fun z y => st_merge z (get m y)) r (get m x)
                 end in
        let '(d, row) := d_row (mkDets (d_one d) (d_many d) (d_next d) todo (d_sts d)) (s_row z) in
        d_loop fuel m (mkDets (d_one d) (d_many d) (d_next d) (d_todo d)
                              (PM.add k (mkSt row (s_fin z) (s_out z) (s_outp z) (s_eof z)) (d_sts d)))
      end
    end.

  (** Bound on the number of states of an automaton; a larger one is an error. *)
  Definition det_fuel : nat := Z.to_nat 20000.

  Definition det (m : PM.t st) (start : list positive) : option fsm :=
    let '(d, k) := d_id (mkDets (PM.empty _) [] 1%positive [] (PM.empty _)) start in
    match d_loop det_fuel m d with
    | Some d => Some (mkFsm k (d_sts d) (d_next d))
    | None => None
    end.

  (** ** Simple automata *)
  (** A chain of sets of classes. *)
  Definition goto (k : positive) : trans := mkTrans [k] [] [] [].
  Definition set_row (cls : list bool) (k : positive) : list cell :=
    map (fun b : bool => if b then CTrans (goto k) else CNone) cls.

  Fixpoint chain (l : list (list bool)) (k : positive) (m : PM.t st) : PM.t st * positive :=
    match l with
    | [] => (PM.add k (mkSt (repeat CNone ncls) true [] [] []) m, Pos.succ k)
    | c :: r => chain r (Pos.succ k) (PM.add k (mkSt (set_row c (Pos.succ k)) false [] [] []) m)
    end.
  Definition chain_fsm (l : list (list bool)) : fsm :=
    let '(m, n) := chain l 1%positive (PM.empty _) in mkFsm 1%positive m n.

  (** ** Operators *)
  Definition shift (o : positive) (f : fsm) : list (positive * st) :=
    (* state k becomes k + o - 1 *)
    map (fun e => (Pos.pred (fst e + o),
                   row_map (fun t => mkTrans (map (fun k => Pos.pred (k + o)) (t_to t)) (t_acts t) (t_lm t) (t_pri t)) (snd e)))
        (states f).
  Definition together (a b : fsm) : PM.t st * positive :=
    (fold_left (fun m e => PM.add (fst e) (snd e) m) (shift (fs_next a) b) (fs_sts a),
     Pos.pred (fs_start b + fs_next a)).

  Definition union (a b : fsm) : option fsm :=
    let '(m, sb) := together a b in det m [fs_start a; sb].

  (** Leaving actions and priorities of a final state go to the transitions out of it. *)
  Definition leaving (f : st) (s : st) : st :=
    row_map (fun t => match t_to t with
                      | [] => t
                      | _ => mkTrans (t_to t) (set_acts (s_out f) (t_acts t)) (t_lm t) (set_pris (s_outp f) (t_pri t))
                      end) s.

  Definition concat (a b : fsm) : option fsm :=
    let '(m, sb) := together a b in
    let start_b := get m sb in
    let m := PM.mapi (fun k s =>
        match PM.find k (fs_sts a) with
        | Some f =>
          if s_fin f then
            let z := st_merge (mkSt (s_row f) false (s_out f) (s_outp f) (s_eof f)) (leaving f start_b) in
            if s_fin z then z else mkSt (s_row z) false [] [] (s_eof z)
          else s
        | None => s
        end) m in
    det m [fs_start a].

  (** A start state without transitions into it. *)
  Definition isolate (f : fsm) : fsm :=
    mkFsm (fs_next f) (PM.add (fs_next f) (get (fs_sts f) (fs_start f)) (fs_sts f)) (Pos.succ (fs_next f)).

  Definition update_start (g : st -> st) (f : fsm) : fsm :=
    let f := isolate f in
    mkFsm (fs_start f) (PM.add (fs_start f) (g (get (fs_sts f) (fs_start f))) (fs_sts f)) (fs_next f).

  Definition nullable (f : fsm) : bool := s_fin (get (fs_sts f) (fs_start f)).

  Definition unset_fin (s : st) : st := mkSt (s_row s) false [] [] (s_eof s).
  Definition set_fin (s : st) : st := mkSt (s_row s) true (s_out s) (s_outp s) (s_eof s).

  Definition star (f : fsm) : option fsm :=
    let f := if nullable f then update_start unset_fin f else f in
    let f := isolate f in
    let start := get (fs_sts f) (fs_start f) in
    let f := map_sts (fun _ s => if s_fin s then st_merge s (leaving s start) else s) f in
    det (PM.add (fs_start f) (set_fin (get (fs_sts f) (fs_start f))) (fs_sts f)) [fs_start f].

  Definition opt (f : fsm) : option fsm := Some (update_start set_fin f).

  (** Difference: the words of the first automaton that are not words of the second;
      states without a way to a final state are removed. *)
  Definition targets (s : st) : list positive :=
    let fix go (c : cell) : list positive :=
        match c with CNone => [] | CTrans t => t_to t | CIf _ y n => go y ++ go n end in
    flat_map go (s_row s).

  Fixpoint alive_loop (fuel : nat) (f : fsm) (alive : PM.t bool) : PM.t bool :=
    match fuel with
    | O => alive
    | S fuel =>
      let next := fold_left (fun a e =>
          if PM.mem (fst e) a then a
          else if existsb (fun k => PM.mem k a) (targets (snd e)) then PM.add (fst e) true a else a)
          (states f) alive in
      if Nat.eqb (PM.cardinal next) (PM.cardinal alive) then alive else alive_loop fuel f next
    end.
  Definition remove_dead (f : fsm) : fsm :=
    let fin := fold_left (fun a (e : positive * st) => if s_fin (snd e) then PM.add (fst e) true a else a) (states f) (PM.empty bool) in
    let alive := alive_loop det_fuel f fin in
    let keep t := match t_to t with
                  | [k] => if PM.mem k alive then CTrans t else CNone
                  | _ => CTrans t
                  end in
    let fix clean (c : cell) : cell :=
        match c with
        | CNone => CNone
        | CTrans t => keep t
        | CIf q y n => match clean y, clean n with CNone, CNone => CNone | y, n => CIf q y n end
        end in
    map_sts (fun _ s => mkSt (map clean (s_row s)) (s_fin s) (s_out s) (s_outp s) (s_eof s)) f.

  Definition other_mark : Z := -1.
  Definition subtract (a b : fsm) : option fsm :=
    (* final states of [b] are marked by a leaving priority that nothing else has *)
    let b := map_sts (fun _ s => if s_fin s then mkSt (s_row s) true (s_out s) (set_pri other_mark 0 (s_outp s)) (s_eof s) else s) b in
    match union a b with
    | None => None
    | Some f =>
      let f := map_sts (fun _ s => if existsb (fun p => fst p =? other_mark) (s_outp s) then unset_fin s else s) f in
      let f := remove_dead f in
      det (fs_sts f) [fs_start f]
    end.

  (** ** Embeddings *)
  Definition add_act (o : Z) (a : action) (t : trans) : trans :=
    match t_to t with [] => t | _ => mkTrans (t_to t) (set_act o a (t_acts t)) (t_lm t) (t_pri t) end.

  Definition finals (f : fsm) (k : positive) : bool := s_fin (get (fs_sts f) k).
  Definition on_finish (g : trans -> trans) (f : fsm) : fsm :=
    map_sts (fun _ => row_map (fun t => match t_to t with [k] => if finals f k then g t else t | _ => t end)) f.
  Definition on_all (g : trans -> trans) (f : fsm) : fsm :=
    map_sts (fun _ => row_map (fun t => match t_to t with [] => t | _ => g t end)) f.
  Definition on_final_states (g : st -> st) (f : fsm) : fsm :=
    map_sts (fun _ s => if s_fin s then g s else s) f.

  Definition embed_enter (o : Z) (a : action) (f : fsm) : fsm :=
    update_start (fun s =>
      let s := row_map (add_act o a) s in
      if s_fin s then mkSt (s_row s) true (set_act o a (s_out s)) (s_outp s) (s_eof s) else s) f.
  Definition embed_leave (o : Z) (a : action) : fsm -> fsm :=
    on_final_states (fun s => mkSt (s_row s) true (set_act o a (s_out s)) (s_outp s) (s_eof s)).
  Definition embed_eof (o : Z) (a : action) : fsm -> fsm :=
    on_final_states (fun s => mkSt (s_row s) true (s_out s) (s_outp s) (set_act o a (s_eof s))).
  Definition set_trans_pri (k v : Z) (t : trans) : trans :=
    mkTrans (t_to t) (t_acts t) (t_lm t) (set_pri k v (t_pri t)).

  (** A condition on all transitions. *)
  Fixpoint guard (c : cond) (b : bool) (x : cell) : cell :=
    match x with
    | CNone => CNone
    | CTrans _ => if b then CIf c x CNone else CIf c CNone x
    | CIf c' y n =>
      match cond_key c ?= cond_key c' with
      | Eq => if b then CIf c y CNone else CIf c CNone n
      | Lt => if b then CIf c x CNone else CIf c CNone x
      | Gt => CIf c' (guard c b y) (guard c b n)
      end
    end.
  Definition embed_cond (c : cond) (b : bool) : fsm -> fsm :=
    map_sts (fun _ s => mkSt (map (guard c b) (s_row s)) (s_fin s) (s_out s) (s_outp s) (s_eof s)).

  (** Renumbering of the actions of the start transitions, before a repetition. *)
  Fixpoint renumber (o : Z) (l : acts) : acts :=
    match l with [] => [] | (_, a) :: r => (o, a) :: renumber (o + 1) r end.
  Definition start_len (f : fsm) : Z :=
    let fix go (c : cell) : Z :=
        match c with
        | CNone => 0 | CTrans t => Z.of_nat (length (t_acts t)) | CIf _ y n => Z.max (go y) (go n)
        end in
    fold_left (fun m c => Z.max m (go c)) (s_row (get (fs_sts f) (fs_start f))) 0.
  Definition shift_start (o : Z) (f : fsm) : fsm :=
    let s := get (fs_sts f) (fs_start f) in
    let s := row_map (fun t => mkTrans (t_to t) (renumber o (t_acts t)) (t_lm t) (t_pri t)) s in
    mkFsm (fs_start f) (PM.add (fs_start f) s (fs_sts f)) (fs_next f).

  (** ** Walking an expression *)
  (** [ord]: next action order; [key]: next priority key. *)
  Record ctr := mkCtr { ord : Z; key : Z }.

  (** Membership of the classes in a set of bytes (one representative per class). *)
  Variable reps : list Z.
  Definition class_set (p : Z -> bool) : list bool := map p reps.

  Definition lower (c : Z) : Z := if (65 <=? c) && (c <=? 90) then c + 32 else c.

  Definition obind {A B} (o : option A) (f : A -> option B) : option B :=
    match o with Some x => f x | None => None end.

  Definition is_enter (g : aug) : bool := match g with Enter _ => true | _ => false end.

  (** Order numbers of a list of embeddings: entering ones first. *)
  Fixpoint number (sel : aug -> bool) (o : Z) (l : list (Z * aug)) : Z * list (Z * aug) :=
    match l with
    | [] => (o, [])
    | (n, g) :: r =>
      if sel g then let '(o', r) := number sel (o + 1) r in (o', (o, g) :: r)
      else let '(o', r) := number sel o r in (o', (n, g) :: r)
    end.

  Definition embed (n : Z) (g : aug) (f : fsm) : fsm :=
    match g with
    | Enter a => embed_enter n a f
    | Finish a => on_finish (add_act n a) f
    | All a => on_all (add_act n a) f
    | Leave a => embed_leave n a f
    | FinalEof a => embed_eof n a f
    | When c b => embed_cond c b f
    end.

  Fixpoint repeat_concat (n : nat) (f acc : fsm) : option fsm :=
    match n with
    | O => Some acc
    | S n => obind (concat acc f) (repeat_concat n f)
    end.

  Fixpoint walk (r : rx) (n : ctr) : option (fsm * ctr) :=
    match r with
    | Lit s => Some (chain_fsm (map (fun x => class_set (Z.eqb x)) s), n)
    | LitI s => Some (chain_fsm (map (fun x => class_set (fun c => lower c =? lower x)) s), n)
    | Cls l => Some (chain_fsm [class_set (in_ranges l)], n)
    | NCls l => Some (chain_fsm [class_set (fun c => negb (in_ranges l c))], n)
    | Alt a b =>
      obind (walk a n) (fun '(a, n) => obind (walk b n) (fun '(b, n) =>
      obind (union a b) (fun f => Some (f, n))))
    | Diff a b =>
      obind (walk a n) (fun '(a, n) => obind (walk b n) (fun '(b, n) =>
      obind (subtract a b) (fun f => Some (f, n))))
    | Cat a b =>
      obind (walk a n) (fun '(a, n) => obind (walk b n) (fun '(b, n) =>
      obind (concat a b) (fun f => Some (f, n))))
    | CatFin a b =>
      obind (walk a n) (fun '(a, n) => obind (walk b n) (fun '(b, n) =>
      let k := key n in
      let a := on_all (set_trans_pri k 0) a in
      let b := on_finish (set_trans_pri k 1) b in
      let b := if nullable b then
                 update_start (fun s => mkSt (s_row s) (s_fin s) (s_out s) (set_pri k 1 (s_outp s)) (s_eof s)) b
               else b in
      obind (concat a b) (fun f => Some (f, mkCtr (ord n) (k + 1)))))
    | Star a =>
      obind (walk a n) (fun '(a, n) =>
      let a := if nullable a then update_start unset_fin a else a in
      let o := ord n + start_len a in
      obind (star (shift_start (ord n) a)) (fun f => Some (f, mkCtr o (key n))))
    | Plus a =>
      obind (walk a n) (fun '(a, n) =>
      let o := ord n + start_len a in
      obind (star (shift_start (ord n) a)) (fun d =>
      obind (concat a d) (fun f => Some (f, mkCtr o (key n)))))
    | Opt a => obind (walk a n) (fun '(a, n) => obind (opt a) (fun f => Some (f, n)))
    | Rep k a =>
      obind (walk a n) (fun '(a, n) =>
      let o := ord n + start_len a in
      let a := shift_start (ord n) a in
      obind (repeat_concat (pred k) a a) (fun f => Some (f, mkCtr o (key n))))
    | NotStr a =>
      obind (walk a n) (fun '(a, n) =>
      obind (star (chain_fsm [class_set (fun _ => true)])) (fun d =>
      obind (subtract d a) (fun f => Some (f, n))))
    | NotChr a =>
      obind (walk a n) (fun '(a, n) =>
      obind (subtract (chain_fsm [class_set (fun _ => true)]) a) (fun f => Some (f, n)))
    | Aug l a =>
      let '(o, l) := number is_enter (ord n) (map (fun g => (0, g)) l) in
      obind (walk a (mkCtr o (key n))) (fun '(a, n) =>
      let '(o, l) := number (fun g => negb (is_enter g)) (ord n) l in
      let a := fold_left (fun f e => match snd e with When c b => embed_cond c b f | _ => f end) l a in
      let a := fold_left (fun f e => match snd e with When _ _ => f | _ => embed (fst e) (snd e) f end) l a in
      Some (a, mkCtr o (key n)))
    end.

  (** * Scanners *)
  (** What a transition of the finished machine does, in order. *)
  Inductive instr :=
  | User (a : action)
  | SetTe                       (* te = p+1 *)
  | SetAct (i : nat)            (* act = i *)
  | OnLast (i : nat)            (* te = p+1; pattern action *)
  | OnNext (i : nat)            (* te = p; p--; pattern action *)
  | OnLag (i : nat)             (* p = te-1; pattern action *)
  | OnAct.                      (* switch (act) ... p = te-1; pattern action *)

  (** [e_to] None: the error state. *)
  Record edge := mkEdge { e_to : option positive; e_ins : list instr }.
  Inductive branch := BEdge (e : edge) | BIf (c : cond) (y n : branch).
  (** [q_eof]: instructions at the end of the input and, in states that stand for a
      token, the state to go to. *)
  Record dstate := mkD { q_row : list branch; q_eof : list instr; q_eof_to : option positive }.

  Fixpoint dedup (seen : list Z) (l : list (Z * instr)) : list instr :=
    match l with
    | [] => []
    | (_, User a) :: r => if existsb (Z.eqb (a_id a)) seen then dedup seen r else User a :: dedup (a_id a :: seen) r
    | (_, i) :: r => i :: dedup seen r
    end.
  Fixpoint ins_instr (o : Z) (i : instr) (l : list (Z * instr)) : list (Z * instr) :=
    match l with
    | [] => [(o, i)]
    | (o', i') :: r => if o <? o' then (o, i) :: l else (o', i') :: ins_instr o i r
    end.
  Definition user_instrs (l : acts) : list (Z * instr) := map (fun x => (fst x, User (snd x))) l.

  (** Parts of a scanner: walk the pattern, mark the transitions into final states,
      give the leaving actions to error transitions. *)
  Definition mark_part (o : Z) (i : nat) : fsm -> fsm :=
    on_finish (fun t => mkTrans (t_to t) (t_acts t) (set_pri o (Z.of_nat i) (t_lm t)) (t_pri t)).
  Fixpoint fill_error (a : acts) (c : cell) : cell :=
    match c with
    | CNone => CTrans (mkTrans [] a [] [])
    | CTrans t => match t_to t with [] => CTrans (mkTrans [] (set_acts a (t_acts t)) (t_lm t) (t_pri t)) | _ => c end
    | CIf q y n => CIf q (fill_error a y) (fill_error a n)
    end.
  Definition leave_to_error : fsm -> fsm :=
    map_sts (fun _ s => match s_out s with
                        | [] => s
                        | a => mkSt (map (fill_error a) (s_row s)) (s_fin s) (s_out s) (s_outp s) (s_eof s)
                        end).

  Fixpoint walk_parts (i : nat) (l : list (rx * option action)) (n : ctr) : option (list fsm * ctr) :=
    match l with
    | [] => Some ([], n)
    | (r, _) :: rest =>
      obind (walk r n) (fun '(f, n) =>
      let f := mark_part (ord n) i f in
      obind (walk_parts (S i) rest (mkCtr (ord n + 1) (key n))) (fun '(fs, n) =>
      Some (leave_to_error f :: fs, n)))
    end.

  Fixpoint union_all (f : fsm) (l : list fsm) : option fsm :=
    match l with
    | [] => Some f
    | g :: r => obind (union f g) (fun f => union_all f r)
    end.

  (** States reachable without passing through a final state (the first one may be
      final). *)
  Fixpoint reach (fuel : nat) (f : fsm) (todo : list positive) (seen : PM.t bool) : PM.t bool :=
    match fuel with
    | O => seen
    | S fuel =>
      match todo with
      | [] => seen
      | k :: todo =>
        if PM.mem k seen then reach fuel f todo seen
        else reach fuel f (filter (fun x => negb (finals f x) && negb (PM.mem x seen)) (nodup Pos.eq_dec (targets (get (fs_sts f) k))) ++ todo)
                   (PM.add k true seen)
      end
    end.
  Definition reach_fuel : nat := Z.to_nat 400000.
  Definition reachable (f : fsm) (k : positive) : PM.t bool := reach reach_fuel f [k] (PM.empty _).

  (** Item sets: which patterns may have been matched last; 0 stands for none and i + 1
      for pattern i. *)
  Definition items : Type := PM.t (list Z).
  Fixpoint zins (x : Z) (l : list Z) : list Z :=
    match l with
    | [] => [x]
    | y :: r => if x <? y then x :: l else if x =? y then l else y :: zins x r
    end.
  Definition item_get (m : items) (k : positive) : list Z :=
    match PM.find k m with Some l => l | None => [] end.
  Definition item_add (x : Z) (marked : PM.t bool) (m : items) : items :=
    PM.fold (fun k _ m => PM.add k (zins x (item_get m k)) m) marked m.

  Definition cell_list (c : cell) : list trans :=
    (fix go c := match c with CNone => [] | CTrans t => [t] | CIf _ y n => go y ++ go n end) c.
  Definition out_trans (s : st) : list trans := flat_map cell_list (s_row s).
  Definition no_out (s : st) : bool := forallb (fun c => match c with CNone => true | _ => false end) (s_row s).

  (** Pairs (target, pattern) of the matching transitions. *)
  Definition lm_pairs (f : fsm) : list (positive * Z) :=
    let add (m : items) (t : trans) : items :=
        match t_to t, t_lm t with
        | [k], (_, i) :: _ => PM.add k (zins i (item_get m k)) m
        | _, _ => m
        end in
    flat_map (fun e => map (fun i => (fst e, i)) (snd e))
      (PM.elements (fold_left (fun m e => fold_left add (out_trans (snd e)) m) (states f) (PM.empty (list Z)))).

  Definition all_items (f : fsm) : items :=
    fold_left (fun m e =>
        if no_out (get (fs_sts f) (fst e)) then m else item_add (snd e + 1) (reachable f (fst e)) m)
      (lm_pairs f) (item_add 0 (reachable f (fs_start f)) (PM.empty _)).

  (** For a matching transition into state k: does the token end have to be recorded,
      and the pattern? *)
  Definition record_match (f : fsm) (m : items) (k : positive) : bool * bool :=
    PM.fold (fun x _ (r : bool * bool) =>
        let n := length (item_get m x) in
        let many := (1 <? Z.of_nat n) in
        (fst r || many || (negb (Nat.eqb n 0) && negb (finals f x)), snd r || many))
      (reachable f k) (false, false).

  Definition err_instr (f : fsm) (m : items) (k : positive) : option instr :=
    match item_get m k with
    | [] => None
    | [i] => if i =? 0 then None
             else Some (if finals f k then OnNext (Z.to_nat (i - 1)) else OnLag (Z.to_nat (i - 1)))
    | _ => Some OnAct
    end.

  Definition big_ord : Z := 1000000000.

  Definition scan_trans (f : fsm) (m : items) (rec : PM.t (bool * bool)) (start : positive) (err : option instr) (c : cell) : branch :=
    let error (a : acts) :=
        match err with
        | Some i => mkEdge (Some start) (dedup [] (ins_instr big_ord i (user_instrs a)))
        | None => mkEdge None (dedup [] (user_instrs a))
        end in
    (fix go c :=
       match c with
       | CNone => BEdge (error [])
       | CTrans t =>
         match t_to t with
         | [k] =>
           let us := user_instrs (t_acts t) in
           match t_lm t with
           | [] => BEdge (mkEdge (Some k) (dedup [] us))
           | (o, i) :: _ =>
             let i := Z.to_nat i in
             if no_out (get (fs_sts f) k) then
               BEdge (mkEdge (Some start) (dedup [] (ins_instr o (OnLast i) us)))
             else
               let '(te, act) := match PM.find k rec with Some r => r | None => (false, false) end in
               let us := if act then ins_instr o (SetAct i) us else us in
               let us := if te then ins_instr (-1) SetTe us else us in
               BEdge (mkEdge (Some k) (dedup [] us))
           end
         | _ => BEdge (error (t_acts t))
         end
       | CIf q y n => BIf q (go y) (go n)
       end) c.

  (** A finished machine: the start state of a scanner sets ts. *)
  Record dfa := mkDfa { df_start : positive; df_scan : bool; df_sts : PM.t dstate; df_parts : list (option action) }.

  Definition finish_scanner (f : fsm) (parts : list (option action)) : dfa :=
    let f := isolate f in
    let m := all_items f in
    let rec := fold_left (fun r e => PM.add (fst e) (record_match f m (fst e)) r) (lm_pairs f) (PM.empty _) in
    mkDfa (fs_start f) true
      (PM.mapi (fun k s =>
         let err := err_instr f m k in
         let eof := user_instrs (set_acts (if s_fin s then s_out s else []) (s_eof s)) in
         mkD (map (scan_trans f m rec (fs_start f) err) (s_row s))
             (dedup [] (match err with Some i => ins_instr big_ord i eof | None => eof end))
             (match err with Some _ => Some (fs_start f) | None => None end)) (fs_sts f))
      parts.

  Definition plain_cell (c : cell) : branch :=
    (fix go c :=
       match c with
       | CNone => BEdge (mkEdge None [])
       | CTrans t => BEdge (mkEdge (match t_to t with [k] => Some k | _ => None end) (dedup [] (user_instrs (t_acts t))))
       | CIf q y n => BIf q (go y) (go n)
       end) c.

  Definition finish_plain (f : fsm) : dfa :=
    mkDfa (fs_start f) false
      (PM.mapi (fun _ s =>
         mkD (map plain_cell (s_row s))
             (dedup [] (user_instrs (set_acts (if s_fin s then s_out s else []) (s_eof s)))) None) (fs_sts f))
      [].

  Definition build_instance (i : instance) : option dfa :=
    match i with
    | Scanner parts =>
      obind (walk_parts 0 parts (mkCtr 0 0)) (fun '(fs, _) =>
      match fs with
      | [] => None
      | f :: fs => obind (union_all f fs) (fun f => Some (finish_scanner f (map snd parts)))
      end)
    | Plain r => obind (walk r (mkCtr 0 0)) (fun '(f, _) => Some (finish_plain f))
    end.
End Build.

(** * Byte classes *)
(** The sets of bytes that occur in an expression. *)
Fixpoint sets (r : rx) : list (Z -> bool) :=
  match r with
  | Lit s => map (fun x => Z.eqb x) s
  | LitI s => map (fun x c => lower c =? lower x) s
  | Cls l | NCls l => [in_ranges l]
  | Alt a b | Diff a b | Cat a b | CatFin a b => sets a ++ sets b
  | Star a | Plus a | Opt a | Rep _ a | NotStr a | NotChr a | Aug _ a => sets a
  end.
Definition inst_sets (i : instance) : list (Z -> bool) :=
  match i with
  | Scanner parts => flat_map (fun x => sets (fst x)) parts
  | Plain r => sets r
  end.

Definition all_bytes : list Z := map Z.of_nat (seq 0 256).

(** Refine a partition of the bytes by a set. *)
Fixpoint refine (p : Z -> bool) (l : list (list Z)) : list (list Z) :=
  match l with
  | [] => []
  | c :: r =>
    match partition p c with
    | ([], _) | (_, []) => c :: refine p r
    | (a, b) => a :: b :: refine p r
    end
  end.
Definition classes (l : list instance) : list (list Z) :=
  fold_left (fun cs p => refine p cs) (flat_map inst_sets l) [all_bytes].

(** The class number of each byte. *)
Definition class_map (cs : list (list Z)) : PM.t nat :=
  fold_left (fun m (e : nat * list Z) => fold_left (fun m c => PM.add (Z.to_pos (c + 1)) (fst e) m) (snd e) m)
            (combine (seq 0 (length cs)) cs) (PM.empty _).

(** A compiled parser. *)
Record machine := mkMachine { m_class : PM.t nat; m_dfas : list dfa; m_lang : String.string }.

Definition compile (p : parser) : option machine :=
  let cs := classes (pa_inst p) in
  let reps := map (fun c => hd 0 c) cs in
  match (fix go l := match l with
                     | [] => Some []
                     | i :: r => match build_instance (length cs) reps i, go r with
                                 | Some d, Some ds => Some (d :: ds)
                                 | _, _ => None
                                 end
                     end) (pa_inst p) with
  | Some ds => Some (mkMachine (class_map cs) ds (pa_lang p))
  | None => None
  end.
