(** Model of /repo/src/loc.c (and the types of /repo/src/structs.h:72-173).

    The linked lists are modelled at pointer level: a heap is a list of nodes,
    a pointer is an index, [None] is NULL.  As in C, a list is itself its first
    node ([ohcount_loc_list_new] returns a node whose head/tail are NULL).
    Simplifications: [malloc] does not fail, nothing is freed
    ([ohcount_loc_free], [ohcount_loc_list_free], loc.c:41-43, 157-167, 231-233, 409-419 are not
    modelled); the [Loc] pointed to by a node is stored inside of the node (the
    code copies the Loc when it creates a node, loc.c:60, 72, so no other
    pointer to it exists outside of the list); language names are compared as
    strings. *)
From Coq Require Import ZArith String List Bool.
From Verif Require Import Base.
Import ListNotations.
Open Scope Z_scope.

(** * Loc: structs.h:76-92 *)
Record loc := mkLoc {
  l_lang : string;
  l_code : Z;
  l_comments : Z;
  l_blanks : Z;
  l_files : Z
}.

(** loc.c:22-24 [ohcount_loc_total] *)
Definition loc_total (l : loc) : res Z :=
  s <- ckint (l_code l + l_comments l) ;;
  ckint (s + l_blanks l).

(** loc.c:26-33 [ohcount_loc_add_loc]: adds [other] into [l] if the languages
    are the same, otherwise does nothing. *)
Definition loc_add_loc (l other : loc) : res loc :=
  if String.eqb (l_lang l) (l_lang other) then
    a <- ckint (l_code l + l_code other) ;;
    b <- ckint (l_comments l + l_comments other) ;;
    c <- ckint (l_blanks l + l_blanks other) ;;
    d <- ckint (l_files l + l_files other) ;;
    Ok (mkLoc (l_lang l) a b c d)
  else Ok l.

(** loc.c:35-39 [ohcount_loc_is_equal] *)
Definition loc_is_equal (l other : loc) : bool :=
  String.eqb (l_lang l) (l_lang other) &&
  (l_code l =? l_code other) && (l_comments l =? l_comments other) &&
  (l_blanks l =? l_blanks other) && (l_files l =? l_files other).

(** * Heap of list nodes *)
Section Heap.
  Context {A : Type}.

  (** structs.h:99-118 (LocList) and 154-173 (LocDeltaList) *)
  Record node := mkNode {
    n_val : option A;
    n_next : option nat;
    n_head : option nat;
    n_tail : option nat
  }.
  Definition heap := list node.

  (** loc.c:47-54, 237-244: a fresh node; returns its address. *)
  Definition node_new (h : heap) : heap * nat :=
    (h ++ [mkNode None None None None], length h).

  Definition deref (h : heap) (p : option nat) : res node :=
    match p with
    | None => Ub NullDeref
    | Some a => match nth_error h a with
                | Some n => Ok n
                | None => Ub OutOfBounds
                end
    end.

  Definition val_of (n : node) : res A :=
    match n_val n with Some v => Ok v | None => Ub NullDeref end.

  Definition set_val (h : heap) (p : option nat) (v : A) : res heap :=
    n <- deref h p ;;
    match p with
    | Some a => Ok (upd h a (mkNode (Some v) (n_next n) (n_head n) (n_tail n)))
    | None => Ub NullDeref
    end.
  Definition set_next (h : heap) (p : option nat) (q : option nat) : res heap :=
    n <- deref h p ;;
    match p with
    | Some a => Ok (upd h a (mkNode (n_val n) q (n_head n) (n_tail n)))
    | None => Ub NullDeref
    end.
  Definition set_head (h : heap) (p : option nat) (q : option nat) : res heap :=
    n <- deref h p ;;
    match p with
    | Some a => Ok (upd h a (mkNode (n_val n) (n_next n) q (n_tail n)))
    | None => Ub NullDeref
    end.
  Definition set_tail (h : heap) (p : option nat) (q : option nat) : res heap :=
    n <- deref h p ;;
    match p with
    | Some a => Ok (upd h a (mkNode (n_val n) (n_next n) (n_head n) q))
    | None => Ub NullDeref
    end.

  (** [while (iter) { sum += f(iter); iter = iter->next; }], the loop shared by
      all summing functions (loc.c:96-144, 298-396). *)
  Fixpoint sum_loop (fuel : nat) (f : A -> res Z) (h : heap)
           (iter : option nat) (sum : Z) : res Z :=
    match iter with
    | None => Ok sum
    | Some _ =>
      match fuel with
      | O => OutOfFuel
      | S k =>
        n <- deref h iter ;;
        v <- val_of n ;;
        x <- f v ;;
        s <- ckint (sum + x) ;;
        sum_loop k f h (n_next n) s
      end
    end.

  Definition sum_list (f : A -> res Z) (h : heap) (list : nat) : res Z :=
    n <- deref h (Some list) ;;
    sum_loop (S (length h)) f h (n_head n) 0.

  (** Lookup loop of [get_loc] / [get_loc_delta] (loc.c:87-94, 288-296). *)
  Fixpoint get_loop (fuel : nat) (lang_of : A -> string) (h : heap)
           (iter : option nat) (language : string) : res (option A) :=
    match iter with
    | None => Ok None
    | Some _ =>
      match fuel with
      | O => OutOfFuel
      | S k =>
        n <- deref h iter ;;
        v <- val_of n ;;
        if String.eqb (lang_of v) language then Ok (Some v)
        else get_loop k lang_of h (n_next n) language
      end
    end.
End Heap.
Arguments node : clear implicits.
Arguments heap : clear implicits.

(** * LocList *)

(** The search loop of loc.c:65-68. *)
Fixpoint loc_find (fuel : nat) (h : heap loc) (iter : option nat)
         (language : string) : res (option nat) :=
  match iter with
  | None => Ok None
  | Some a =>
    match fuel with
    | O => OutOfFuel
    | S k =>
      n <- deref h iter ;;
      match n_val n with
      | Some v => if String.eqb (l_lang v) language then Ok (Some a)
                  else loc_find k h (n_next n) language
      | None => loc_find k h (n_next n) language
      end
    end
  end.

(** loc.c:56-77 [ohcount_loc_list_add_loc] *)
Definition loc_list_add_loc (h : heap loc) (list : nat) (l : loc)
  : res (heap loc) :=
  n <- deref h (Some list) ;;
  match n_head n with
  | None =>
    h <- set_head h (Some list) (Some list) ;;
    h <- set_tail h (Some list) (Some list) ;;
    h <- set_val h (Some list) l ;;       (* list->head is list *)
    set_next h (Some list) None
  | Some _ =>
    it <- loc_find (S (length h)) h (n_head n) (l_lang l) ;;
    match it with
    | None =>
      let '(h, item) := node_new h in
      h <- set_val h (Some item) l ;;
      h <- set_next h (n_tail n) (Some item) ;;
      set_tail h (Some list) (Some item)
    | Some a =>
      m <- deref h (Some a) ;;
      v <- val_of m ;;
      v' <- loc_add_loc v l ;;
      set_val h (Some a) v'
    end
  end.

(** loc.c:79-85 [ohcount_loc_list_add_loc_list], the loop; [fuel] bounds the
    number of iterations.  [other] may be the list that is being extended. *)
Fixpoint loc_list_add_loop (fuel : nat) (h : heap loc) (list : nat)
         (iter : option nat) : res (heap loc) :=
  match iter with
  | None => Ok h
  | Some _ =>
    match fuel with
    | O => OutOfFuel
    | S k =>
      n <- deref h iter ;;
      v <- val_of n ;;
      h' <- loc_list_add_loc h list v ;;
      n' <- deref h' iter ;;
      loc_list_add_loop k h' list (n_next n')
    end
  end.

Definition loc_list_add_loc_list (fuel : nat) (h : heap loc)
           (list other : nat) : res (heap loc) :=
  n <- deref h (Some other) ;;
  loc_list_add_loop fuel h list (n_head n).

(** loc.c:87-94 [ohcount_loc_list_get_loc] *)
Definition loc_list_get_loc (h : heap loc) (list : nat) (language : string)
  : res (option loc) :=
  n <- deref h (Some list) ;;
  get_loop (S (length h)) l_lang h (n_head n) language.

(** loc.c:96-144 *)
Definition loc_list_code := sum_list (fun l => Ok (l_code l)).
Definition loc_list_comments := sum_list (fun l => Ok (l_comments l)).
Definition loc_list_blanks := sum_list (fun l => Ok (l_blanks l)).
Definition loc_list_total := sum_list loc_total.
Definition loc_list_filecount := sum_list (fun l => Ok (l_files l)).

(** loc.c:146-155 [ohcount_loc_list_new_compact] *)
Fixpoint loc_list_compact_loop (fuel : nat) (h : heap loc) (new_list : nat)
         (iter : option nat) : res (heap loc) :=
  match iter with
  | None => Ok h
  | Some _ =>
    match fuel with
    | O => OutOfFuel
    | S k =>
      n <- deref h iter ;;
      v <- val_of n ;;
      t <- loc_total v ;;
      h <- (if t =? 0 then Ok h else loc_list_add_loc h new_list v) ;;
      n' <- deref h iter ;;
      loc_list_compact_loop k h new_list (n_next n')
    end
  end.

Definition loc_list_new_compact (h : heap loc) (list : nat)
  : res (heap loc * nat) :=
  n <- deref h (Some list) ;;
  let '(h', new_list) := node_new h in
  h'' <- loc_list_compact_loop (S (length h)) h' new_list (n_head n) ;;
  Ok (h'', new_list).

(** * LocDelta: structs.h:125-147 *)
Record delta := mkDelta {
  d_lang : string;
  d_code_added : Z;
  d_code_removed : Z;
  d_comments_added : Z;
  d_comments_removed : Z;
  d_blanks_added : Z;
  d_blanks_removed : Z
}.

(** loc.c:186-196 *)
Definition delta_net_code (d : delta) : res Z :=
  ckint (d_code_added d - d_code_removed d).
Definition delta_net_comments (d : delta) : res Z :=
  ckint (d_comments_added d - d_comments_removed d).
Definition delta_net_blanks (d : delta) : res Z :=
  ckint (d_blanks_added d - d_blanks_removed d).

(** loc.c:198-202 *)
Definition delta_net_total (d : delta) : res Z :=
  a <- delta_net_code d ;;
  b <- delta_net_comments d ;;
  s <- ckint (a + b) ;;
  c <- delta_net_blanks d ;;
  ckint (s + c).

(** loc.c:204-213 [ohcount_loc_delta_add_loc_delta] *)
Definition delta_add_delta (d other : delta) : res delta :=
  if String.eqb (d_lang d) (d_lang other) then
    a <- ckint (d_code_added d + d_code_added other) ;;
    b <- ckint (d_code_removed d + d_code_removed other) ;;
    c <- ckint (d_comments_added d + d_comments_added other) ;;
    e <- ckint (d_comments_removed d + d_comments_removed other) ;;
    f <- ckint (d_blanks_added d + d_blanks_added other) ;;
    g <- ckint (d_blanks_removed d + d_blanks_removed other) ;;
    Ok (mkDelta (d_lang d) a b c e f g)
  else Ok d.

(** loc.c:215-219 [ohcount_loc_delta_is_changed] *)
Definition delta_is_changed (d : delta) : bool :=
  negb (d_code_added d =? 0) || negb (d_code_removed d =? 0) ||
  negb (d_comments_added d =? 0) || negb (d_comments_removed d =? 0) ||
  negb (d_blanks_added d =? 0) || negb (d_blanks_removed d =? 0).

(** loc.c:221-229 [ohcount_loc_delta_is_equal] *)
Definition delta_is_equal (d other : delta) : bool :=
  String.eqb (d_lang d) (d_lang other) &&
  (d_code_added d =? d_code_added other) &&
  (d_code_removed d =? d_code_removed other) &&
  (d_comments_added d =? d_comments_added other) &&
  (d_comments_removed d =? d_comments_removed other) &&
  (d_blanks_added d =? d_blanks_added other) &&
  (d_blanks_removed d =? d_blanks_removed other).

(** * LocDeltaList *)

(** The search loop of loc.c:260-263.  Note that the C code inspects
    [list->delta], not [iter->delta]. *)
Fixpoint delta_find (fuel : nat) (h : heap delta) (list : nat)
         (iter : option nat) (language : string) : res (option nat) :=
  match iter with
  | None => Ok None
  | Some a =>
    match fuel with
    | O => OutOfFuel
    | S k =>
      l <- deref h (Some list) ;;
      n <- deref h iter ;;
      match n_val l with
      | Some v => if String.eqb (d_lang v) language then Ok (Some a)
                  else delta_find k h list (n_next n) language
      | None => delta_find k h list (n_next n) language
      end
    end
  end.

(** loc.c:246-277 [ohcount_loc_delta_list_add_loc_delta] *)
Definition delta_list_add_delta (h : heap delta) (list : nat) (d : delta)
  : res (heap delta) :=
  n <- deref h (Some list) ;;
  match n_head n with
  | None =>
    h <- set_head h (Some list) (Some list) ;;
    h <- set_tail h (Some list) (Some list) ;;
    h <- set_val h (Some list) d ;;
    set_next h (Some list) None
  | Some _ =>
    it <- delta_find (S (length h)) h list (n_head n) (d_lang d) ;;
    match it with
    | None =>
      let '(h, item) := node_new h in
      h <- set_val h (Some item) d ;;
      h <- set_next h (n_tail n) (Some item) ;;
      set_tail h (Some list) (Some item)
    | Some a =>
      m <- deref h (Some a) ;;
      v <- val_of m ;;
      v' <- delta_add_delta v d ;;
      set_val h (Some a) v'
    end
  end.

(** loc.c:279-286 [ohcount_loc_delta_list_add_loc_delta_list] *)
Fixpoint delta_list_add_loop (fuel : nat) (h : heap delta) (list : nat)
         (iter : option nat) : res (heap delta) :=
  match iter with
  | None => Ok h
  | Some _ =>
    match fuel with
    | O => OutOfFuel
    | S k =>
      n <- deref h iter ;;
      v <- val_of n ;;
      h' <- delta_list_add_delta h list v ;;
      n' <- deref h' iter ;;
      delta_list_add_loop k h' list (n_next n')
    end
  end.

Definition delta_list_add_delta_list (fuel : nat) (h : heap delta)
           (list other : nat) : res (heap delta) :=
  n <- deref h (Some other) ;;
  delta_list_add_loop fuel h list (n_head n).

(** loc.c:288-296 [ohcount_loc_delta_list_get_loc_delta] *)
Definition delta_list_get_delta (h : heap delta) (list : nat)
           (language : string) : res (option delta) :=
  n <- deref h (Some list) ;;
  get_loop (S (length h)) d_lang h (n_head n) language.

(** loc.c:298-396 *)
Definition delta_list_code_added := sum_list (fun d => Ok (d_code_added d)).
Definition delta_list_code_removed := sum_list (fun d => Ok (d_code_removed d)).
Definition delta_list_comments_added := sum_list (fun d => Ok (d_comments_added d)).
Definition delta_list_comments_removed := sum_list (fun d => Ok (d_comments_removed d)).
Definition delta_list_blanks_added := sum_list (fun d => Ok (d_blanks_added d)).
Definition delta_list_blanks_removed := sum_list (fun d => Ok (d_blanks_removed d)).
Definition delta_list_net_code := sum_list delta_net_code.
Definition delta_list_net_comments := sum_list delta_net_comments.
Definition delta_list_net_blanks := sum_list delta_net_blanks.
Definition delta_list_net_total := sum_list delta_net_total.

(** loc.c:398-407 [ohcount_loc_delta_list_new_compact] *)
Fixpoint delta_list_compact_loop (fuel : nat) (h : heap delta) (new_list : nat)
         (iter : option nat) : res (heap delta) :=
  match iter with
  | None => Ok h
  | Some _ =>
    match fuel with
    | O => OutOfFuel
    | S k =>
      n <- deref h iter ;;
      v <- val_of n ;;
      h <- (if delta_is_changed v then delta_list_add_delta h new_list v
            else Ok h) ;;
      n' <- deref h iter ;;
      delta_list_compact_loop k h new_list (n_next n')
    end
  end.

Definition delta_list_new_compact (h : heap delta) (list : nat)
  : res (heap delta * nat) :=
  n <- deref h (Some list) ;;
  let '(h', new_list) := node_new h in
  h'' <- delta_list_compact_loop (S (length h)) h' new_list (n_head n) ;;
  Ok (h'', new_list).

(** * Use of the lists by a client *)

(** The iteration every client performs over a list, e.g. ohcount.c:218-236 [summary]:
    [iter = list->head; while (iter) { ...; iter = iter->next; }]. *)
Fixpoint items_loop {A} (fuel : nat) (h : heap A) (iter : option nat)
  : res (list A) :=
  match iter with
  | None => Ok []
  | Some _ =>
    match fuel with
    | O => OutOfFuel
    | S k =>
      n <- deref h iter ;;
      v <- val_of n ;;
      r <- items_loop k h (n_next n) ;;
      Ok (v :: r)
    end
  end.

Definition list_items {A} (h : heap A) (lst : nat) : res (list A) :=
  n <- deref h (Some lst) ;;
  items_loop (S (length h)) h (n_head n).

(** A history of calls on LocLists.  Lists are numbered in creation order. *)
Inductive loc_op :=
| LNew                          (* ohcount_loc_list_new() *)
| LAdd (i : nat) (l : loc)      (* ohcount_loc_list_add_loc(list_i, l) *)
| LAddList (i j : nat)          (* ohcount_loc_list_add_loc_list(list_i, list_j) *)
| LCompact (i : nat).           (* ohcount_loc_list_new_compact(list_i) *)

Definition loc_state : Type := heap loc * list nat.

Definition run_loc_op (st : loc_state) (op : loc_op) : res loc_state :=
  let '(h, ids) := st in
  match op with
  | LNew => let '(h', a) := node_new h in Ok (h', ids ++ [a])
  | LAdd i l =>
    match nth_error ids i with
    | Some a => h' <- loc_list_add_loc h a l ;; Ok (h', ids)
    | None => Ok st              (* no such list: the client cannot call *)
    end
  | LAddList i j =>
    match nth_error ids i, nth_error ids j with
    | Some a, Some b => h' <- loc_list_add_loc_list (S (length h)) h a b ;; Ok (h', ids)
    | _, _ => Ok st
    end
  | LCompact i =>
    match nth_error ids i with
    | Some a => '(h', b) <- loc_list_new_compact h a ;; Ok (h', ids ++ [b])
    | None => Ok st
    end
  end.

Fixpoint run_loc_ops (st : loc_state) (ops : list loc_op) : res loc_state :=
  match ops with
  | [] => Ok st
  | op :: r => st' <- run_loc_op st op ;; run_loc_ops st' r
  end.

(** A history of calls on LocDeltaLists.  Adding a list to itself is kept out
    of the history ([i <> j], see [run_delta_op]): it is treated on its own, as it
    may not terminate. *)
Inductive delta_op :=
| DNew                          (* ohcount_loc_delta_list_new() *)
| DAdd (i : nat) (d : delta)    (* ohcount_loc_delta_list_add_loc_delta *)
| DAddList (i j : nat)          (* ohcount_loc_delta_list_add_loc_delta_list *)
| DCompact (i : nat).           (* ohcount_loc_delta_list_new_compact *)

Definition delta_state : Type := heap delta * list nat.

Definition run_delta_op (st : delta_state) (op : delta_op) : res delta_state :=
  let '(h, ids) := st in
  match op with
  | DNew => let '(h', a) := node_new h in Ok (h', ids ++ [a])
  | DAdd i d =>
    match nth_error ids i with
    | Some a => h' <- delta_list_add_delta h a d ;; Ok (h', ids)
    | None => Ok st
    end
  | DAddList i j =>
    if Nat.eqb i j then Ok st else
    match nth_error ids i, nth_error ids j with
    | Some a, Some b =>
      h' <- delta_list_add_delta_list (S (length h)) h a b ;; Ok (h', ids)
    | _, _ => Ok st
    end
  | DCompact i =>
    match nth_error ids i with
    | Some a => '(h', b) <- delta_list_new_compact h a ;; Ok (h', ids ++ [b])
    | None => Ok st
    end
  end.

Fixpoint run_delta_ops (st : delta_state) (ops : list delta_op) : res delta_state :=
  match ops with
  | [] => Ok st
  | op :: r => st' <- run_delta_op st op ;; run_delta_ops st' r
  end.
