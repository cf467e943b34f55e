(** Which sequences of calls of the library are in order as far as memory is
    concerned.  Nothing here refers to blocks: a client has a number of things,
    some of which are gone. *)
From Coq Require Import String List Bool Arith.
From Verif Require Import MemModel.
Import ListNotations.
Open Scope list_scope.
Open Scope nat_scope.

(** What the client holds under a number: a file that is its own or belongs to
    the list of files with the given number, a list of files, a count, a list of
    counts, or something that has been freed. *)
Inductive held := HFile (owner : option nat) | HFiles | HCount (k : kind) | HCounts (k : kind) | HGone.

Definition is_file (h : held) : bool := match h with HFile _ => true | _ => false end.
Definition is_own (h : held) : bool := match h with HFile None => true | _ => false end.
Definition is_files (h : held) : bool := match h with HFiles => true | _ => false end.
Definition is_count (k : kind) (h : held) : bool :=
  match h with HCount j => kind_same j k | _ => false end.
Definition is_counts (k : kind) (h : held) : bool :=
  match h with HCounts j => kind_same j k | _ => false end.
Definition of_list (l : nat) (h : held) : bool :=
  match h with HFile (Some o) => o =? l | _ => false end.

(** Locs and LocDeltas. *)
Definition countable (k : kind) : bool := match k with KLoc | KDelta => true | _ => false end.

Definition at_ (p : held -> bool) (t : list held) (i : nat) : bool :=
  match nth_error t i with Some h => p h | None => false end.

Fixpoint put (t : list held) (i : nat) (h : held) : list held :=
  match t, i with
  | [], _ => []
  | _ :: r, O => h :: r
  | x :: r, S i => x :: put r i h
  end.

Definition when (b : bool) (t : list held) : option (list held) := if b then Some t else None.

(** What the client holds after a call, if the call is in order: everything that
    it uses is there and of the right kind, nothing that belongs to a list is
    freed by itself, no list is added to itself and no file is given its own
    contents. *)
Definition after (t : list held) (c : call) : option (list held) :=
  match c with
  | NewFile => Some (t ++ [HFile None])
  | SetDiskpath f | SetContents f | GetPath f | GetContents f | SetLanguage f | GetLanguage f
  | Parse f | ParseWith f | Licenses f | Locs f | ShowLocs f => when (at_ is_file t f) t
  | CopyContents f g => when (at_ is_file t f && at_ is_file t g && negb (f =? g)) t
  | FreeFile f => when (at_ is_own t f) (put t f HGone)
  | Diff f g => when (at_ is_file t f && at_ is_file t g) (t ++ [HCounts KDelta])
  | LocDelta f _ g => when (at_ is_file t f && at_ is_file t g) (t ++ [HCount KDelta])
  | NewFiles => Some (t ++ [HFiles])
  | AddFile l => when (at_ is_files t l) (t ++ [HFile (Some l)])
  | CountFiles l => when (at_ is_files t l) t
  | Analyze l => when (at_ is_files t l) (t ++ [HCounts KLoc])
  | FreeFiles l =>
    when (at_ is_files t l) (map (fun h => if of_list l h then HGone else h) (put t l HGone))
  | NewCount k _ => when (countable k) (t ++ [HCount k])
  | FreeCount k c => when (at_ (is_count k) t c) (put t c HGone)
  | NewList k => when (countable k) (t ++ [HCounts k])
  | Add k l c => when (at_ (is_counts k) t l && at_ (is_count k) t c) t
  | AddList k l m => when (at_ (is_counts k) t l && at_ (is_counts k) t m && negb (l =? m)) t
  | AddLocs l f => when (at_ (is_counts KLoc) t l && at_ is_file t f) t
  | Compact k l => when (at_ (is_counts k) t l) (t ++ [HCounts k])
  | ShowList k l => when (at_ (is_counts k) t l) t
  | FreeList k l => when (at_ (is_counts k) t l) (put t l HGone)
  end.

Fixpoint afters (t : list held) (l : list call) : option (list held) :=
  match l with
  | [] => Some t
  | c :: r => match after t c with Some t' => afters t' r | None => None end
  end.

(** A client that starts with nothing. *)
Definition in_order (l : list call) : Prop := exists t, afters [] l = Some t.

(** A client that frees all that it has. *)
Definition all_freed (l : list call) : Prop :=
  exists t, afters [] l = Some t /\ Forall (eq HGone) t.

(** The calls after which the contents of the file [f] may be gone. *)
Definition disturbs (t : list held) (c : call) (f : nat) : bool :=
  match c with
  | SetContents g | CopyContents g _ | Parse g | Licenses g | Locs g | ShowLocs g | AddLocs _ g | FreeFile g => f =? g
  | Diff g h | LocDelta g _ h => (f =? g) || (f =? h)
  | Analyze l | FreeFiles l => at_ (of_list l) t f
  | _ => false
  end.

(** No call of [l] disturbs [f]. *)
Fixpoint quiet (t : list held) (l : list call) (f : nat) : bool :=
  match l with
  | [] => true
  | c :: r =>
    negb (disturbs t c f) && match after t c with Some t' => quiet t' r f | None => true end
  end.
