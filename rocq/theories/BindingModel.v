(** The Ruby classes SourceFile and SourceFileList: which memory of the C library they keep, and
    what the garbage collector does to it (ruby/ohcount.i, ruby/ohcount.rb).

    Modelled are straight programs over variables.  SWIG is taken by its manual: an object made by
    a constructor owns its C structure and frees it when it is collected (ohcount.i:205-209,
    282-284); an object for a pointer that a function or a field returns owns nothing and keeps
    nothing alive; a returned char * is copied.  The library's own use of memory is the subject of
    MemModel.v; here a whole SourceFile or SourceFileList is one thing that is there or not.
    An exception (a method that the object does not have) ends the program. *)
From Coq Require Import List Arith Bool ZArith.
Import ListNotations.

(** What a variable may hold.  An owner is the C structure of a constructor call. *)
Inductive value :=
| Owner (o : nat)           (* what SourceFile.new or SourceFileList.new returned *)
| Inside (o f : nat)        (* file [f] of the list [o], as .sf returns it *)
| Part (o : nat)            (* a breakdown, a licence list, a loc inside of what [o] owns *)
| Forever                   (* inside of something that is never freed *)
| Strings (s : nat).        (* an array of strings of the program *)

(** What a program may do.  [looks]: whether the detection of a language reads the filenames
    (detector.c:351, 557, 704), which depends on the file. *)
Inductive op :=
| NewFile (x : nat)                        (* x = SourceFile.new(path) *)
| NewList (x : nat)                        (* x = SourceFileList.new *)
| NewStrings (x : nat)                     (* x = ["a", "b"] *)
| Copy (x y : nat)                         (* x = y *)
| AddFile (l : nat)                        (* l.add_file(path) *)
| ListFile (x l i : nat)                   (* x = the .sf of element i *)
| Parts (x y : nat) (looks : bool)         (* x = y.language_breakdowns, get_license_list, loc_list *)
| Use (x : nat)                            (* x.name, x.code_count, x.next, ... *)
| Diff (x y z : nat) (looks : bool)        (* x = y.diff(z) *)
| AnalyzeLanguages (x l : nat) (looks : bool)  (* x = l.analyze_languages *)
| SetFilenames (y s : nat)                 (* y.filenames = s *)
| Filenames (y : nat)                      (* y.filenames, y.each *)
| Forget (x : nat).                        (* x = nil, or its scope ends *)

(** The variables, the owners (is it a list? its files), the filenames that were set, and how many
    files and arrays of strings there are. *)
Record world := mkWorld {
  env : list (nat * value);
  owners : list (bool * list nat);
  names : list (nat * nat);
  files : nat;
  strings : nat }.
Definition start : world := mkWorld [] [] [] 0 0.

Definition get {A} (l : list (nat * A)) (x : nat) : option A :=
  match find (fun p => fst p =? x) l with Some p => Some (snd p) | None => None end.
Definition unset {A} (l : list (nat * A)) (x : nat) : list (nat * A) :=
  filter (fun p => negb (fst p =? x)) l.
Definition set {A} (l : list (nat * A)) (x : nat) (v : A) : list (nat * A) := (x, v) :: unset l x.

Definition replace {A} (l : list A) (o : nat) (x : A) : list A := firstn o l ++ x :: skipn (S o) l.

Definition with_env (w : world) (e : list (nat * value)) : world :=
  mkWorld e (owners w) (names w) (files w) (strings w).
Definition assign (w : world) (x : nat) (v : value) : world := with_env w (set (env w) x v).

(** The owner and the file behind a value with the methods of SourceFile. *)
Definition file_of (w : world) (v : value) : option (nat * nat) :=
  match v with
  | Owner o => match nth_error (owners w) o with Some (false, [f]) => Some (o, f) | _ => None end
  | Inside o f => Some (o, f)
  | _ => None
  end.
(** The owner and the files behind a value with the methods of SourceFileList. *)
Definition list_of (w : world) (v : value) : option (nat * list nat) :=
  match v with
  | Owner o => match nth_error (owners w) o with Some (true, fs) => Some (o, fs) | _ => None end
  | _ => None
  end.

(** What an operation relies on: memory of an owner, the characters of strings of the program, or
    a pointer that is NULL. *)
Inductive need := MemoryOf (o : nat) | CharactersOf (s : nat) | NullPointer.

Definition names_if (w : world) (looks : bool) (f : nat) : list need :=
  if looks then match get (names w) f with Some s => [CharactersOf s] | None => [] end else [].

Definition opt {A B} (x : option A) (f : A -> B) : option B :=
  match x with Some a => Some (f a) | None => None end.
Definition try {A B} (x : option A) (f : A -> option B) : option B :=
  match x with Some a => f a | None => None end.

(** One operation: what it needs and what comes of it.  None: it raises an exception. *)
Definition step (w : world) (a : op) : option (list need * world) :=
  match a with
  | NewFile x =>
      (* ohcount.i:121-136 *)
      let o := length (owners w) in
      Some ([], mkWorld (set (env w) x (Owner o)) (owners w ++ [(false, [files w])]) (names w)
                        (S (files w)) (strings w))
  | NewList x =>
      (* ohcount.i:225-237 *)
      let o := length (owners w) in
      Some ([], mkWorld (set (env w) x (Owner o)) (owners w ++ [(true, [])]) (names w)
                        (files w) (strings w))
  | NewStrings x =>
      Some ([], mkWorld (set (env w) x (Strings (strings w))) (owners w) (names w) (files w)
                        (S (strings w)))
  | Copy x y => opt (get (env w) y) (fun v => ([], assign w x v))
  | AddFile l =>
      (* ohcount.i:285-287 *)
      try (get (env w) l) (fun v =>
      opt (list_of w v) (fun '(o, fs) =>
        ([MemoryOf o],
         mkWorld (env w) (replace (owners w) o (true, fs ++ [files w]))
                 (names w) (S (files w)) (strings w))))
  | ListFile x l i =>
      try (get (env w) l) (fun v =>
      opt (list_of w v) (fun '(o, fs) =>
        ([MemoryOf o],
         match nth_error fs i with
         | Some f => assign w x (Inside o f)
         | None => with_env w (unset (env w) x)
         end)))
  | Parts x y looks =>
      (* ohcount.rb:22-44, ohcount.i:100-108 *)
      try (get (env w) y) (fun v =>
      opt (file_of w v) (fun '(o, f) => (MemoryOf o :: names_if w looks f, assign w x (Part o))))
  | Use x =>
      opt (get (env w) x) (fun v =>
        (match v with
         | Owner o | Inside o _ | Part o => [MemoryOf o]
         | Forever | Strings _ => []
         end, w))
  | Diff x y z looks =>
      (* ohcount.rb:46-53, ohcount.i:109-111 *)
      try (get (env w) y) (fun v => try (get (env w) z) (fun v' =>
      try (file_of w v) (fun '(o, f) => opt (file_of w v') (fun '(o', f') =>
        (MemoryOf o :: MemoryOf o' :: names_if w looks f ++ names_if w looks f', assign w x Forever)))))
  | AnalyzeLanguages x l looks =>
      (* ohcount.i:291-293 *)
      try (get (env w) l) (fun v =>
      opt (list_of w v) (fun '(o, fs) =>
        (MemoryOf o :: flat_map (names_if w looks) fs, assign w x Forever)))
  | SetFilenames y s =>
      (* ohcount.i:113-120: the array is new, the strings are those of the program *)
      try (get (env w) y) (fun v => try (get (env w) s) (fun v' =>
      try (file_of w v) (fun '(o, f) =>
        match v' with
        | Strings t => Some ([MemoryOf o], mkWorld (env w) (owners w) (set (names w) f t) (files w) (strings w))
        | _ => None
        end)))
  | Filenames y =>
      (* ohcount.i:19-25, ohcount.rb:55-57 *)
      try (get (env w) y) (fun v =>
      opt (file_of w v) (fun '(o, f) =>
        (MemoryOf o :: match get (names w) f with Some s => [CharactersOf s] | None => [NullPointer] end, w)))
  | Forget x => Some ([], with_env w (unset (env w) x))
  end.

(** * Collection *)

(** What the collector has taken. *)
Record gone := mkGone { g_owners : list nat; g_strings : list nat }.

Definition has (l : list nat) (n : nat) : bool := existsb (Nat.eqb n) l.
Definition missing (g : gone) (n : need) : bool :=
  match n with
  | MemoryOf o => has (g_owners g) o
  | CharactersOf s => has (g_strings g) s
  | NullPointer => true
  end.

Definition held_owner (w : world) (o : nat) : bool :=
  existsb (fun p => match snd p with Owner o' => o' =? o | _ => false end) (env w).
Definition held_strings (w : world) (s : nat) : bool :=
  existsb (fun p => match snd p with Strings s' => s' =? s | _ => false end) (env w).

(** The collector may take what no variable holds; [pick] says what it takes this time. *)
Record pick := mkPick { p_owner : nat -> bool; p_strings : nat -> bool }.
Definition everything : pick := mkPick (fun _ => true) (fun _ => true).
Definition collect (w : world) (p : pick) (g : gone) : gone :=
  mkGone (g_owners g ++ filter (fun o => p_owner p o && negb (held_owner w o) && negb (has (g_owners g) o))
                               (seq 0 (length (owners w))))
         (g_strings g ++ filter (fun s => p_strings p s && negb (held_strings w s) && negb (has (g_strings g) s))
                                (seq 0 (strings w))).

(** How a program ends: by itself, by an exception, or by using memory that is not there. *)
Inductive ending := Done (w : world) (g : gone) | Exception | Crash.

(** A run; the collector works before every operation, as the schedule says. *)
Fixpoint run (schedule : nat -> pick) (i : nat) (w : world) (g : gone) (p : list op) : ending :=
  match p with
  | [] => Done w g
  | a :: p' =>
      let g' := collect w (schedule i) g in
      match step w a with
      | None => Exception
      | Some (ns, w') => if existsb (missing g') ns then Crash else run schedule (S i) w' g' p'
      end
  end.

(** * Blocks that the binding itself allocates *)

(** calloc of an array of filenames (ohcount.i:115), the lists of diff and analyze_languages. *)
Definition allocates (a : op) : bool :=
  match a with
  | SetFilenames _ _ | Diff _ _ _ _ | AnalyzeLanguages _ _ _ => true
  | _ => false
  end.
(** Collecting an owner frees the array of its filenames if it is a file (ohcount.i:205-209);
    the files of a list keep theirs (282-284, sourcefile.c:326-342, 411-421). *)
Definition frees (w : world) (o : nat) : bool :=
  match nth_error (owners w) o with
  | Some (false, [f]) => match get (names w) f with Some _ => true | None => false end
  | _ => false
  end.
(** The number of blocks after a run; [b] blocks at its beginning. *)
Fixpoint blocks (schedule : nat -> pick) (i : nat) (w : world) (g : gone) (b : Z) (p : list op) : option Z :=
  match p with
  | [] => Some b
  | a :: p' =>
      let g' := collect w (schedule i) g in
      let taken := filter (fun o => negb (has (g_owners g) o)) (g_owners g') in
      match step w a with
      | None => None
      | Some (ns, w') =>
          if existsb (missing g') ns then None
          else blocks schedule (S i) w' g'
                      (b - Z.of_nat (length (filter (frees w) taken)) + (if allocates a then 1 else 0))%Z p'
      end
  end.
