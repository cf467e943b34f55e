(** The heap blocks that ohcount allocates, uses and frees.

    The other models speak of values; this one speaks of blocks.  A block is
    what one call of [malloc] returns; it is live until it is freed, and its
    address is never used again, so that an access through a pointer to a freed
    block, or a second [free] of it, is always seen.  Such accesses and the
    dereference of NULL are faults, i.e. outcomes of their own.

    Numbers and bytes are left out: a string is a block without structure, and
    what depends on bytes and numbers (does the file open, which language is it,
    which lines does the scanner report, how many licences are there, is a text
    large, is a total zero) is answered by a stream of answers of the outside
    world over which the theorems quantify.  Names of languages are kept, since
    they decide which list item is used.  Sizes of blocks are the subject of
    C08 and C15; here a block is accessed as a whole. *)
From Coq Require Import String List Bool Arith.
Import ListNotations.
Open Scope string_scope.
Open Scope list_scope.

Definition ptr := nat.

(** What a block without structure is for: the place that allocates it. *)
Inductive site :=
| Filepath        (* sourcefile.c:26 *)
| Diskpath        (* sourcefile.c:64 *)
| Contents        (* sourcefile.c:74, 91 *)
| CodeText        (* parsed_language.c:14 *)
| CommentText     (* parsed_language.c:18 *)
| LicenseText     (* licenses.c:804 *)
| DiffArray       (* diff.c:321, 327, 465, 519, 688, 692, 694, 695, 700 *)
| TempName        (* diff.c:626 *).

(** Which of the five list types of structs.h a list item belongs to. *)
Inductive kind := KFile | KLanguage | KLicense | KLoc | KDelta.

(** structs.h:45-68 and the like: the fields of a list item. *)
Record node := { item : option ptr; next : option ptr;
                 head : option ptr; tail : option ptr }.

(** structs.h:270-330: the fields of a SourceFile that are pointers to blocks.
    [language]: [None] before detection; afterwards whether the language found
    has a parser. *)
Record source := { filepath : ptr; diskpath : option ptr; contents : option ptr;
                   language : option bool; languages : option ptr;
                   licenses : option ptr; locs : option ptr }.

Inductive obj :=
| Raw                                              (* allocated, not yet filled in *)
| Bytes (w : site)
| Source (x : source)
| Node (k : kind) (n : node)
| Language (name : string) (code comments : ptr)   (* parsed_language.c:9-24 *)
| Loc (name : string)                              (* loc.c:11-20 *)
| Delta (name : string)                            (* loc.c:171-184 *)
| Callback (name : string) (nxt : option ptr).     (* parser_macros.h:15-40 *)

(** What a language detection does with the file (detector.c): looks at its
    contents, or makes a temporary file without ".in" (detector.c:643-676), any
    number of times, and then answers whether the language has a parser. *)
Inductive detection :=
| Answer (parser : bool)
| Peek (d : detection)
| Undecorate (inner d : detection).

(** What a scanner does with its queue and its callback, see parser_macros.h and
    common.rl:30-49. *)
Inductive step :=
| Begin                    (* action enqueue *)
| Line (name : string)     (* std_internal_newline, std_newline *)
| Dequeue                  (* ls, code, comment *)
| Commit.                  (* action commit *)

(** Answers of the outside world. *)
Record answer := { opened : bool; got : bool;      (* fopen, fread *)
                   detects : detection;
                   steps : list step;
                   many : nat;                     (* licences found, lines read *)
                   yes : bool }.                   (* large text, total not zero *)

Definition no_answer : answer :=
  {| opened := false; got := false; detects := Answer false; steps := [];
     many := 0; yes := false |}.

(** Memory: the block at address [p] is [nth p blocks]; [None] if it was freed.
    [queue], [queue_end] are the globals callback_list_head and
    callback_list_tail (parser_macros.h:44-47). *)
Record state := { blocks : list (option obj);
                  queue : option ptr; queue_end : option ptr;
                  world : list answer }.

Inductive fault :=
| Null          (* dereference of NULL *)
| Dangling      (* access to a block that is not live *)
| BadFree       (* free of a block that is not live *)
| Confused      (* access to a block as if it were something else *)
| Loops.        (* a loop does not end *)

Inductive out (A : Type) :=
| Done (a : A) (s : state)
| Fault (f : fault).
Arguments Done {A}.
Arguments Fault {A}.

Definition M (A : Type) := state -> out A.

Definition ret {A} (a : A) : M A := fun s => Done a s.
Definition fail {A} (f : fault) : M A := fun _ => Fault f.
Definition bind {A B} (m : M A) (k : A -> M B) : M B := fun s =>
  match m s with Done a s' => k a s' | Fault f => Fault f end.

Notation "x <-- m ;; k" := (bind m (fun x => k))
  (at level 61, m at next level, right associativity).
Notation "' x <-- m ;; k" := (bind m (fun x => k))
  (at level 61, x pattern, m at next level, right associativity).
Notation "m ;;; k" := (bind m (fun _ => k)) (at level 61, right associativity).

(** ** Memory *)

Definition block (s : state) (p : ptr) : option obj :=
  match nth_error (blocks s) p with Some (Some o) => Some o | _ => None end.

Definition set_blocks (s : state) (b : list (option obj)) : state :=
  {| blocks := b; queue := queue s; queue_end := queue_end s; world := world s |}.

Fixpoint replace {A} (l : list A) (i : nat) (a : A) : list A :=
  match l, i with
  | [], _ => []
  | _ :: r, O => a :: r
  | x :: r, S i => x :: replace r i a
  end.

Definition alloc (o : obj) : M ptr := fun s =>
  Done (length (blocks s)) (set_blocks s (blocks s ++ [Some o])).

Definition load (p : ptr) : M obj := fun s =>
  match block s p with Some o => Done o s | None => Fault Dangling end.

Definition store (p : ptr) (o : obj) : M unit := fun s =>
  match block s p with
  | Some _ => Done tt (set_blocks s (replace (blocks s) p (Some o)))
  | None => Fault Dangling
  end.

Definition free (p : ptr) : M unit := fun s =>
  match block s p with
  | Some _ => Done tt (set_blocks s (replace (blocks s) p None))
  | None => Fault BadFree
  end.

(** free(NULL) does nothing. *)
Definition free_opt (p : option ptr) : M unit :=
  match p with Some p => free p | None => ret tt end.

Definition deref (p : option ptr) : M ptr :=
  match p with Some p => ret p | None => fail Null end.

Definition ask : M answer := fun s =>
  match world s with
  | [] => Done no_answer s
  | a :: r => Done a {| blocks := blocks s; queue := queue s;
                        queue_end := queue_end s; world := r |}
  end.

Definition set_queue (h t : option ptr) : M unit := fun s =>
  Done tt {| blocks := blocks s; queue := h; queue_end := t; world := world s |}.

Definition get_queue : M (option ptr) := fun s => Done (queue s) s.
Definition get_queue_end : M (option ptr) := fun s => Done (queue_end s) s.

(** Loops over lists get as much fuel as there are blocks: a loop that visits no
    block twice does not run out of it. *)
Definition fuel : M nat := fun s => Done (S (length (blocks s))) s.

(** Reading or writing the bytes of a string. *)
Definition touch (p : ptr) : M unit :=
  o <-- load p;;
  match o with Bytes _ => ret tt | _ => fail Confused end.

Definition load_source (p : ptr) : M source :=
  o <-- load p;;
  match o with Source x => ret x | _ => fail Confused end.

Definition kind_same (a b : kind) : bool :=
  match a, b with
  | KFile, KFile | KLanguage, KLanguage | KLicense, KLicense
  | KLoc, KLoc | KDelta, KDelta => true
  | _, _ => false
  end.

Definition load_node (k : kind) (p : ptr) : M node :=
  o <-- load p;;
  match o with
  | Node k' n => if kind_same k k' then ret n else fail Confused
  | _ => fail Confused
  end.

Definition load_language (p : ptr) : M (string * ptr * ptr) :=
  o <-- load p;;
  match o with Language x c m => ret (x, c, m) | _ => fail Confused end.

(** The name in what a list item points to. *)
Definition load_name (k : kind) (p : ptr) : M string :=
  o <-- load p;;
  match k, o with
  | KLanguage, Language x _ _ => ret x
  | KLoc, Loc x => ret x
  | KDelta, Delta x => ret x
  | _, _ => fail Confused
  end.

(** Assignments to single fields. *)
Definition set_item k p v : M unit :=
  n <-- load_node k p;;
  store p (Node k {| item := v; next := next n; head := head n; tail := tail n |}).
Definition set_next k p v : M unit :=
  n <-- load_node k p;;
  store p (Node k {| item := item n; next := v; head := head n; tail := tail n |}).
Definition set_head k p v : M unit :=
  n <-- load_node k p;;
  store p (Node k {| item := item n; next := next n; head := v; tail := tail n |}).
Definition set_tail k p v : M unit :=
  n <-- load_node k p;;
  store p (Node k {| item := item n; next := next n; head := head n; tail := v |}).

Definition set_field (p : ptr) (f : source -> source) : M unit :=
  x <-- load_source p;; store p (Source (f x)).

Definition with_diskpath v x := {| filepath := filepath x; diskpath := v;
  contents := contents x; language := language x; languages := languages x;
  licenses := licenses x; locs := locs x |}.
Definition with_contents v x := {| filepath := filepath x; diskpath := diskpath x;
  contents := v; language := language x; languages := languages x;
  licenses := licenses x; locs := locs x |}.
Definition with_language v x := {| filepath := filepath x; diskpath := diskpath x;
  contents := contents x; language := v; languages := languages x;
  licenses := licenses x; locs := locs x |}.
Definition with_languages v x := {| filepath := filepath x; diskpath := diskpath x;
  contents := contents x; language := language x; languages := v;
  licenses := licenses x; locs := locs x |}.
Definition with_licenses v x := {| filepath := filepath x; diskpath := diskpath x;
  contents := contents x; language := language x; languages := languages x;
  licenses := v; locs := locs x |}.
Definition with_locs v x := {| filepath := filepath x; diskpath := diskpath x;
  contents := contents x; language := language x; languages := languages x;
  licenses := licenses x; locs := v |}.

(** ** Lists *)

(** ohcount_sourcefile_list_new, sourcefile.c:345-352;
    ohcount_parsed_language_list_new, parsed_language.c:54-61;
    ohcount_license_list_new, licenses.c:888-895; ohcount_loc_list_new,
    loc.c:47-54; ohcount_loc_delta_list_new, loc.c:237-244. *)
Definition list_new (k : kind) : M ptr :=
  alloc (Node k {| item := None; next := None; head := None; tail := None |}).

(** "list->tail->next = item; list->tail = item", sourcefile.c:364-365,
    177-178; licenses.c:878-879; loc.c:73-74, 273-274. *)
Definition list_append (k : kind) (l i : ptr) : M unit :=
  n <-- load_node k l;;
  t <-- deref (tail n);;
  set_next k t (Some i);;;
  set_tail k l (Some i).

(** The loops that look for an item with a name: sourcefile.c:165-170, 290-305;
    loc.c:64-68, 87-94, 288-296. *)
Fixpoint find_loop (n : nat) (k : kind) (x : string) (iter : option ptr) : M (option ptr) :=
  match n with
  | O => fail Loops
  | S n =>
    match iter with
    | None => ret None
    | Some p =>
      i <-- load_node k p;;
      c <-- deref (item i);;
      y <-- load_name k c;;
      if String.eqb y x then ret (Some p) else find_loop n k x (next i)
    end
  end.

Definition find_name (k : kind) (x : string) (iter : option ptr) : M (option ptr) :=
  n <-- fuel;; find_loop n k x iter.

(** ohcount_sourcefile_list_free, sourcefile.c:411-421;
    ohcount_parsed_language_list_free, parsed_language.c:63-73;
    ohcount_license_list_free, licenses.c:897-906; ohcount_loc_list_free,
    loc.c:157-167; ohcount_loc_delta_list_free, loc.c:409-419.  They differ in
    what is done with the payload of an item. *)
Fixpoint free_loop (n : nat) (k : kind) (drop : option ptr -> M unit)
  (iter : option ptr) : M unit :=
  match n with
  | O => fail Loops
  | S n =>
    match iter with
    | None => ret tt
    | Some p =>
      i <-- load_node k p;;
      drop (item i);;;
      free p;;;
      free_loop n k drop (next i)
    end
  end.

Definition list_free (k : kind) (drop : option ptr -> M unit) (l : ptr) : M unit :=
  i <-- load_node k l;;
  match head i with
  | Some h => n <-- fuel;; free_loop n k drop (Some h)
  | None => free l
  end.

(** ** ParsedLanguage *)

(** ohcount_parsed_language_new, parsed_language.c:9-24. *)
Definition language_new (x : string) : M ptr :=
  p <-- alloc Raw;;
  c <-- alloc (Bytes CodeText);;
  m <-- alloc (Bytes CommentText);;
  store p (Language x c m);;;
  ret p.

(** ohcount_parsed_language_free, parsed_language.c:48-52. *)
Definition language_free (p : option ptr) : M unit :=
  p <-- deref p;;
  '(x, c, m) <-- load_language p;;
  free c;;;
  free m;;;
  free p.

(** ** Loc and LocDelta *)

(** The payload of a LocList item or a LocDeltaList item. *)
Definition count_of (k : kind) (x : string) : obj :=
  match k with KDelta => Delta x | _ => Loc x end.

(** ohcount_loc_new, loc.c:11-20; ohcount_loc_delta_new, loc.c:171-184. *)
Definition count_new (k : kind) (x : string) : M ptr := alloc (count_of k x).

(** ohcount_loc_free, loc.c:41-43; ohcount_loc_delta_free, loc.c:231-233. *)
Definition count_free (p : option ptr) : M unit := free_opt p.

(** loc.c:259-263: the loop compares the language of the first item again and
    again, so that it ends at once or runs to the end of the list. *)
Fixpoint delta_loop (n : nat) (l : ptr) (x : string) (iter : option ptr) : M (option ptr) :=
  match n with
  | O => fail Loops
  | S n =>
    match iter with
    | None => ret None
    | Some p =>
      f <-- load_node KDelta l;;
      found <-- match item f with
                | None => ret false
                | Some c => y <-- load_name KDelta c;; ret (String.eqb y x)
                end;;
      if found : bool then ret (Some p)
      else i <-- load_node KDelta p;; delta_loop n l x (next i)
    end
  end.

(** ohcount_loc_list_add_loc, loc.c:56-77;
    ohcount_loc_delta_list_add_loc_delta, loc.c:246-277. *)
Definition list_add (k : kind) (l c : ptr) : M unit :=
  i <-- load_node k l;;
  match head i with
  | None =>
    set_head k l (Some l);;;
    set_tail k l (Some l);;;
    x <-- load_name k c;;
    y <-- count_new k x;;
    set_item k l (Some y);;;
    set_next k l None
  | Some h =>
    x <-- load_name k c;;
    f <-- match k with
          | KDelta => n <-- fuel;; delta_loop n l x (Some h)
          | _ => find_name k x (Some h)
          end;;
    match f with
    | None =>
      j <-- list_new k;;
      y <-- count_new k x;;
      set_item k j (Some y);;;
      list_append k l j
    | Some j =>
      (* ohcount_loc_add_loc, loc.c:26-33; ohcount_loc_delta_add_loc_delta,
         loc.c:204-213: reads both, writes the first *)
      i <-- load_node k j;;
      y <-- deref (item i);;
      z <-- load_name k y;;
      store y (count_of k z)
    end
  end.

(** ohcount_loc_list_add_loc_list, loc.c:79-85;
    ohcount_loc_delta_list_add_loc_delta_list, loc.c:279-286; and, with a choice
    for each item, ohcount_loc_list_new_compact, loc.c:146-155, and
    ohcount_loc_delta_list_new_compact, loc.c:398-407. *)
Fixpoint add_loop (n : nat) (k : kind) (all : bool) (l : ptr) (iter : option ptr) : M unit :=
  match n with
  | O => fail Loops
  | S n =>
    match iter with
    | None => ret tt
    | Some p =>
      i <-- load_node k p;;
      c <-- deref (item i);;
      load_name k c;;;
      a <-- (if all then ret true else a <-- ask;; ret (yes a));;
      (if a : bool then list_add k l c else ret tt);;;
      i <-- load_node k p;;
      add_loop n k all l (next i)
    end
  end.

Definition list_add_list (k : kind) (l other : ptr) : M unit :=
  i <-- load_node k other;;
  n <-- fuel;;
  add_loop n k true l (head i).

Definition list_compact (k : kind) (l : ptr) : M ptr :=
  new <-- list_new k;;
  i <-- load_node k l;;
  n <-- fuel;;
  add_loop n k false new (head i);;;
  ret new.

(** ** SourceFile *)

(** ohcount_sourcefile_new, sourcefile.c:22-57. *)
Definition source_new : M ptr :=
  p <-- alloc Raw;;
  f <-- alloc (Bytes Filepath);;
  store p (Source {| filepath := f; diskpath := None; contents := None;
                     language := None; languages := None; licenses := None;
                     locs := None |});;;
  ret p.

(** A string given by the caller: its own ([None]), or one in the heap. *)
Definition touch_arg (a : option ptr) : M unit :=
  match a with Some p => touch p | None => ret tt end.

(** ohcount_sourcefile_set_diskpath, sourcefile.c:59-67. *)
Definition set_diskpath (p : ptr) (arg : option ptr) : M unit :=
  x <-- load_source p;;
  free_opt (diskpath x);;;
  touch_arg arg;;;
  d <-- alloc (Bytes Diskpath);;
  set_field p (with_diskpath (Some d));;;
  touch_arg arg.

(** ohcount_sourcefile_set_contents, sourcefile.c:69-79. *)
Definition set_contents (p : ptr) (arg : option ptr) : M unit :=
  x <-- load_source p;;
  free_opt (contents x);;;
  touch_arg arg;;;
  d <-- alloc (Bytes Contents);;
  set_field p (with_contents (Some d));;;
  touch_arg arg.

(** ohcount_sourcefile_get_contents, sourcefile.c:81-107. *)
Definition get_contents (p : ptr) : M (option ptr) :=
  x <-- load_source p;;
  match contents x with
  | Some c => ret (Some c)
  | None =>
    touch (match diskpath x with Some d => d | None => filepath x end);;;
    a <-- ask;;
    if opened a then
      c <-- alloc (Bytes Contents);;
      set_field p (with_contents (Some c));;;
      if got a then touch c;;; ret (Some c)
      else free c;;; set_field p (with_contents None);;; ret None
    else set_field p (with_contents None);;; ret None
  end.

(** ohcount_license_list_free drops nothing: licences are static,
    licenses.c:897-906. *)
Definition drop_license (_ : option ptr) : M unit := ret tt.

(** ohcount_sourcefile_free, sourcefile.c:328-341. *)
Definition source_free (p : ptr) : M unit :=
  x <-- load_source p;;
  free (filepath x);;;
  free_opt (diskpath x);;;
  free_opt (contents x);;;
  match languages x with
  | Some l => list_free KLanguage language_free l | None => ret tt end;;;
  match licenses x with
  | Some l => list_free KLicense drop_license l | None => ret tt end;;;
  match locs x with
  | Some l => list_free KLoc count_free l | None => ret tt end;;;
  free p.

(** ohcount_detect_language and disambiguate_in, detector.c:120-250, 643-676,
    with ohcount_sourcefile_get_language, sourcefile.c:124-130, for the
    temporary file. *)
Fixpoint detect (d : detection) (p : ptr) : M bool :=
  match d with
  | Answer b => x <-- load_source p;; touch (filepath x);;; ret b
  | Peek d =>
    c <-- get_contents p;;
    match c with Some c => touch c | None => ret tt end;;;
    detect d p
  | Undecorate inner d =>
    c <-- get_contents p;;
    match c with
    | None => ret false
    | Some c =>
      t <-- source_new;;
      x <-- load_source p;;
      match diskpath x with
      | Some q => set_diskpath t (Some q)
      | None => ret tt
      end;;;
      set_contents t (Some c);;;
      y <-- load_source t;;
      match language y with
      | Some _ => ret tt
      | None => b <-- detect inner t;; set_field t (with_language (Some b))
      end;;;
      source_free t;;;
      detect d p
    end
  end.

(** ohcount_sourcefile_get_language, sourcefile.c:124-130. *)
Definition get_language (p : ptr) : M bool :=
  x <-- load_source p;;
  match language x with
  | Some b => ret b
  | None =>
    a <-- ask;;
    b <-- detect (detects a) p;;
    set_field p (with_language (Some b));;;
    ret b
  end.

(** ohcount_sourcefile_set_language, sourcefile.c:114-122: nothing if there is
    no such language. *)
Definition set_language (p : ptr) : M unit :=
  a <-- ask;;
  if opened a then set_field p (with_language (Some (yes a))) else ret tt.

(** ** The queue of the scanners *)

(** enqueue, parser_macros.h:70-88. *)
Definition enqueue (x : string) : M unit :=
  i <-- alloc (Callback x None);;
  h <-- get_queue;;
  match h with
  | None => set_queue (Some i) (Some i)
  | Some h =>
    t <-- get_queue_end;;
    t <-- deref t;;
    o <-- load t;;
    match o with
    | Callback y _ => store t (Callback y (Some i));;; set_queue (Some h) (Some i)
    | _ => fail Confused
    end
  end.

(** free_queue, parser_macros.h:91-100. *)
Fixpoint free_queue_loop (n : nat) (iter : option ptr) : M unit :=
  match n with
  | O => fail Loops
  | S n =>
    match iter with
    | None => ret tt
    | Some p =>
      o <-- load p;;
      match o with
      | Callback _ nx => free p;;; free_queue_loop n nx
      | _ => fail Confused
      end
    end
  end.

Definition free_queue : M unit :=
  h <-- get_queue;;
  n <-- fuel;;
  free_queue_loop n h;;;
  set_queue None None.

(** The loop of action commit, common.rl:44-45. *)
Fixpoint commit_loop (n : nat) (callback : string -> M unit) (iter : option ptr) : M unit :=
  match n with
  | O => fail Loops
  | S n =>
    match iter with
    | None => ret tt
    | Some p =>
      o <-- load p;;
      match o with
      | Callback x _ =>
        callback x;;;
        o <-- load p;;
        match o with
        | Callback _ nx => commit_loop n callback nx
        | _ => fail Confused
        end
      | _ => fail Confused
      end
    end
  end.

(** A run of a scanner on the contents [c]; it reads them all the time. *)
Fixpoint scan (c : ptr) (callback : string -> M unit) (inqueue : bool)
  (l : list step) : M unit :=
  touch c;;;
  match l with
  | [] => ret tt
  | Begin :: r =>                                      (* common.rl:30-39 *)
    h <-- get_queue;;
    match h with Some _ => free_queue | None => ret tt end;;;
    set_queue None None;;;
    scan c callback true r
  | Line x :: r =>                                     (* parser_macros.h:169-190 *)
    (if inqueue then enqueue x else callback x);;;
    scan c callback inqueue r
  | Dequeue :: r => scan c callback false r            (* parser_macros.h:107-112 *)
  | Commit :: r =>                                     (* common.rl:41-49 *)
    (if inqueue then
       h <-- get_queue;;
       n <-- fuel;;
       commit_loop n callback h;;;
       free_queue
     else ret tt);;;
    scan c callback false r
  end.

(** ohcount_parse, parser.c:12-31.  A scanner that is given NULL is given the
    length 0 and reports nothing (C70_nothing). *)
Definition run_parser (p : ptr) (callback : string -> M unit) : M unit :=
  b <-- get_language p;;
  if b : bool then
    c <-- get_contents p;;
    a <-- ask;;
    match c with
    | Some c => scan c callback false (steps a)
    | None => ret tt
    end
  else ret tt.

(** parser_callback, sourcefile.c:144-187. *)
Definition parser_callback (p : ptr) (x : string) : M unit :=
  f <-- load_source p;;
  b <-- deref (contents f);;
  l <-- deref (languages f);;
  n <-- load_node KLanguage l;;
  lang <--
    match head n with
    | None =>
      set_head KLanguage l (Some l);;;
      set_tail KLanguage l (Some l);;;
      y <-- language_new x;;
      set_item KLanguage l (Some y);;;
      set_next KLanguage l None;;;
      n <-- load_node KLanguage l;;
      deref (item n)
    | Some h =>
      f <-- find_name KLanguage x (Some h);;
      j <-- match f with
            | Some j => ret j
            | None =>
              j <-- list_new KLanguage;;
              y <-- language_new x;;
              set_item KLanguage j (Some y);;;
              list_append KLanguage l j;;;
              ret j
            end;;
      n <-- load_node KLanguage j;;
      deref (item n)
    end;;
  touch b;;;
  '(_, c, m) <-- load_language lang;;
  touch c;;;
  touch m.

(** ohcount_sourcefile_parse, sourcefile.c:189-201. *)
Definition parse (p : ptr) : M unit :=
  x <-- load_source p;;
  match languages x with
  | Some _ => ret tt
  | None =>
    l <-- list_new KLanguage;;
    set_field p (with_languages (Some l));;;
    run_parser p (parser_callback p);;;
    x <-- load_source p;;
    free_opt (contents x);;;
    set_field p (with_contents None)
  end.

(** ohcount_sourcefile_get_parsed_language_list, sourcefile.c:203-207. *)
Definition parsed (p : ptr) : M ptr :=
  parse p;;;
  x <-- load_source p;;
  deref (languages x).

(** ohcount_sourcefile_parse_with_callback and
    ohcount_sourcefile_parse_entities_with_callback, sourcefile.c:209-228, with a
    callback that reads the contents, as annotate_callback does, ohcount.c:12-20. *)
Definition parse_with (p : ptr) : M unit :=
  run_parser p (fun _ => x <-- load_source p;; b <-- deref (contents x);; touch b).

(** ** Licences *)

(** The loop over the languages in ohcount_detect_license, licenses.c:797-858:
    the text is copied to a buffer, which is never freed. *)
Fixpoint license_loop (n : nat) (iter : option ptr) : M unit :=
  match n with
  | O => fail Loops
  | S n =>
    match iter with
    | None => ret tt
    | Some p =>
      i <-- load_node KLanguage p;;
      q <-- deref (item i);;
      '(_, _, m) <-- load_language q;;
      touch m;;;
      b <-- alloc (Bytes LicenseText);;
      touch m;;;
      touch b;;;
      license_loop n (next i)
    end
  end.

(** licenses.c:861-882: [n] licences remain. *)
Fixpoint license_items (n : nat) (l : ptr) : M unit :=
  match n with
  | O => ret tt
  | S n =>
    i <-- load_node KLicense l;;
    match head i with
    | None =>
      set_head KLicense l (Some l);;;
      set_tail KLicense l (Some l);;;
      set_next KLicense l None
    | Some _ =>
      j <-- list_new KLicense;;
      list_append KLicense l j
    end;;;
    license_items n l
  end.

(** ohcount_detect_license, licenses.c:778-886. *)
Definition detect_license (p : ptr) : M ptr :=
  l <-- list_new KLicense;;
  parse p;;;
  q <-- parsed p;;
  i <-- load_node KLanguage q;;
  match head i with
  | None => ret tt
  | Some h =>
    n <-- fuel;;
    license_loop n (Some h);;;
    a <-- ask;;
    license_items (many a) l
  end;;;
  ret l.

(** ohcount_sourcefile_get_license_list, sourcefile.c:230-234. *)
Definition get_licenses (p : ptr) : M (option ptr) :=
  x <-- load_source p;;
  match licenses x with
  | Some l => ret (Some l)
  | None =>
    l <-- detect_license p;;
    set_field p (with_licenses (Some l));;;
    ret (Some l)
  end.

(** ** Counts of a file *)

(** The loop of ohcount_sourcefile_get_loc_list, sourcefile.c:242-249. *)
Fixpoint loc_loop (n : nat) (l : ptr) (iter : option ptr) : M unit :=
  match n with
  | O => fail Loops
  | S n =>
    match iter with
    | None => ret tt
    | Some p =>
      i <-- load_node KLanguage p;;
      q <-- deref (item i);;
      x <-- load_name KLanguage q;;
      c <-- count_new KLoc x;;
      list_add KLoc l c;;;
      count_free (Some c);;;
      i <-- load_node KLanguage p;;
      loc_loop n l (next i)
    end
  end.

(** ohcount_sourcefile_get_loc_list, sourcefile.c:236-253. *)
Definition get_locs (p : ptr) : M ptr :=
  x <-- load_source p;;
  match locs x with
  | Some l => ret l
  | None =>
    l <-- list_new KLoc;;
    parse p;;;
    q <-- parsed p;;
    i <-- load_node KLanguage q;;
    n <-- fuel;;
    loc_loop n l (head i);;;
    set_field p (with_locs (Some l));;;
    ret l
  end.

(** ** Differences *)

(** realloc of a live block: the old block is gone. *)
Definition realloc (p : ptr) : M ptr :=
  touch p;;;
  q <-- alloc (Bytes DiffArray);;
  free p;;;
  ret q.

Fixpoint grow (n : nat) (p : ptr) : M ptr :=
  match n with O => ret p | S n => q <-- realloc p;; grow n q end.

(** prepare, diff.c:314-332: one realloc for each line. *)
Definition prepare (from : ptr) : M ptr :=
  touch from;;;
  a <-- ask;;
  p <-- alloc (Bytes DiffArray);;
  grow (many a) p.

(** ohcount_calc_diff, diff.c:671-708, and ohcount_calc_diff_with_disk,
    diff.c:641-668: the names of the temporary files are not freed. *)
Definition calc_diff (from to : ptr) : M unit :=
  touch from;;;
  touch to;;;
  a <-- ask;;
  if yes a then
    t1 <-- alloc (Bytes TempName);;
    touch from;;;
    t2 <-- alloc (Bytes TempName);;
    touch to;;;
    touch t1;;;
    touch t2
  else
    f0 <-- prepare from;;
    f1 <-- prepare to;;
    touch f0;;; touch f1;;;                    (* prune, sort, equiv *)
    member <-- realloc f1;;
    u <-- alloc (Bytes DiffArray);;            (* unsort, diff.c:461-471 *)
    touch f0;;; touch u;;;
    free u;;;
    class <-- realloc f0;;
    klist <-- alloc (Bytes DiffArray);;
    clist <-- alloc (Bytes DiffArray);;
    a <-- ask;;
    clist <-- grow (many a) clist;;            (* stone, newcand, diff.c:516-526 *)
    touch class;;; touch member;;; touch klist;;; touch clist;;;
    free member;;;
    free class;;;
    j <-- alloc (Bytes DiffArray);;
    touch klist;;; touch clist;;; touch j;;;   (* unravel *)
    free clist;;;
    free klist;;;
    touch j;;;                                 (* output *)
    free j.

(** What ohcount_sourcefile_calc_loc_delta uses of a file, sourcefile.c:288-307:
    the ParsedLanguage with the given name, or else the empty one. *)
Definition side (p : ptr) (x : string) (blank : ptr) : M ptr :=
  q <-- parsed p;;
  i <-- load_node KLanguage q;;
  f <-- find_name KLanguage x (head i);;
  match f with
  | None => ret blank
  | Some j => n <-- load_node KLanguage j;; deref (item n)
  end.

(** ohcount_sourcefile_calc_loc_delta, sourcefile.c:281-325: [blank] is never
    freed. *)
Definition calc_loc_delta (p : ptr) (x : string) (q : ptr) : M ptr :=
  d <-- count_new KDelta x;;
  blank <-- language_new x;;
  from <-- side p x blank;;
  to <-- side q x blank;;
  '(_, c1, m1) <-- load_language from;;
  '(_, c2, m2) <-- load_language to;;
  calc_diff c1 c2;;;
  y <-- load_name KDelta d;;
  store d (Delta y);;;
  calc_diff m1 m2;;;
  y <-- load_name KDelta d;;
  store d (Delta y);;;
  ret d.

(** The two loops of ohcount_sourcefile_diff, sourcefile.c:263-285; the second
    one skips the languages that the result has already. *)
Fixpoint diff_loop (n : nat) (again : bool) (l p q : ptr) (iter : option ptr) : M unit :=
  match n with
  | O => fail Loops
  | S n =>
    match iter with
    | None => ret tt
    | Some j =>
      i <-- load_node KLanguage j;;
      c <-- deref (item i);;
      x <-- load_name KLanguage c;;
      skip <-- (if again then
                  r <-- load_node KDelta l;;
                  f <-- find_name KDelta x (head r);;
                  ret (match f with Some _ => true | None => false end)
                else ret false);;
      (if skip : bool then ret tt
       else
         d <-- calc_loc_delta p x q;;
         list_add KDelta l d;;;
         count_free (Some d));;;
      i <-- load_node KLanguage j;;
      diff_loop n again l p q (next i)
    end
  end.

(** ohcount_sourcefile_diff, sourcefile.c:255-279. *)
Definition diff (p q : ptr) : M ptr :=
  l <-- list_new KDelta;;
  f <-- parsed p;;
  i <-- load_node KLanguage f;;
  n <-- fuel;;
  diff_loop n false l p q (head i);;;
  f <-- parsed q;;
  i <-- load_node KLanguage f;;
  n <-- fuel;;
  diff_loop n true l p q (head i);;;
  ret l.

(** ** Lists of files *)

(** ohcount_sourcefile_list_add_file, sourcefile.c:354-367.  The SourceFile is
    returned as well: the caller finds it in the list.
    ohcount_sourcefile_list_add_directory, sourcefile.c:369-398, allocates
    nothing but by a call of this for each file. *)
Definition add_file (l : ptr) : M ptr :=
  i <-- load_node KFile l;;
  match head i with
  | None =>
    set_head KFile l (Some l);;;
    set_tail KFile l (Some l);;;
    f <-- source_new;;
    set_item KFile l (Some f);;;
    set_next KFile l None;;;
    ret f
  | Some _ =>
    j <-- list_new KFile;;
    f <-- source_new;;
    set_item KFile j (Some f);;;
    list_append KFile l j;;;
    ret f
  end.

(** ohcount_sourcefile_list_analyze_languages, sourcefile.c:400-409. *)
Fixpoint analyze_loop (n : nat) (r : ptr) (iter : option ptr) : M unit :=
  match n with
  | O => fail Loops
  | S n =>
    match iter with
    | None => ret tt
    | Some p =>
      i <-- load_node KFile p;;
      f <-- deref (item i);;
      o <-- get_locs f;;
      list_add_list KLoc r o;;;
      i <-- load_node KFile p;;
      analyze_loop n r (next i)
    end
  end.

Definition analyze (l : ptr) : M ptr :=
  r <-- list_new KLoc;;
  i <-- load_node KFile l;;
  n <-- fuel;;
  analyze_loop n r (head i);;;
  ret r.

(** ohcount_sourcefile_list_free, sourcefile.c:411-421. *)
Definition drop_file (p : option ptr) : M unit := p <-- deref p;; source_free p.

Definition files_free (l : ptr) : M unit := list_free KFile drop_file l.

(** ** The lists of the command line tool *)

(** A loop over a list that looks at what it holds, as those that print in
    licenses, individual and summary, ohcount.c:43-48, 162-178 and 218-234. *)
Fixpoint walk (n : nat) (k : kind) (see : option ptr -> M unit) (iter : option ptr) : M unit :=
  match n with
  | O => fail Loops
  | S n =>
    match iter with
    | None => ret tt
    | Some p =>
      i <-- load_node k p;;
      see (item i);;;
      walk n k see (next i)
    end
  end.

Definition walk_list (k : kind) (see : option ptr -> M unit) (l : ptr) : M unit :=
  i <-- load_node k l;; n <-- fuel;; walk n k see (head i).

(** The name of a count; licences are not allocated (their names are literals). *)
Definition see_count (k : kind) (c : option ptr) : M unit :=
  c <-- deref c;; load_name k c;;; ret tt.
Definition see_none (c : option ptr) : M unit := ret tt.

Definition count_at (k : kind) (p : ptr) : M string :=
  i <-- load_node k p;; c <-- deref (item i);; load_name k c.

(** The inner loop of sort_loc_list_by_language and sort_loc_list_by_code,
    ohcount.c:129-135 and 186-192.  Which count is the better one is answered by
    the outside. *)
Fixpoint best_loop (n : nat) (k : kind) (best : ptr) (iter : option ptr) : M ptr :=
  match n with
  | O => fail Loops
  | S n =>
    match iter with
    | None => ret best
    | Some p =>
      count_at k p;;;
      count_at k best;;;
      a <-- ask;;
      i <-- load_node k p;;
      best_loop n k (if yes a then p else best) (next i)
    end
  end.

(** The outer loop, ohcount.c:127-142 and 184-199: the counts are exchanged, the
    items stay where they are. *)
Fixpoint sort_loop (n : nat) (k : kind) (iter : option ptr) : M unit :=
  match n with
  | O => fail Loops
  | S n =>
    match iter with
    | None => ret tt
    | Some p =>
      i <-- load_node k p;;
      f <-- fuel;;
      b <-- best_loop f k p (next i);;
      (if Nat.eqb p b then ret tt
       else
         x <-- load_node k p;;
         y <-- load_node k b;;
         set_item k p (item y);;;
         set_item k b (item x));;;
      i <-- load_node k p;;
      sort_loop n k (next i)
    end
  end.

Definition sort_list (k : kind) (l : ptr) : M unit :=
  i <-- load_node k l;; n <-- fuel;; sort_loop n k (head i).

(** ** Clients *)

(** A call of a function of the library.  A number names the result of an
    earlier call: the n-th call that creates something creates number n. *)
Inductive call :=
| NewFile | SetDiskpath (f : nat) | SetContents (f : nat)
| CopyContents (f g : nat)      (* set_contents(f, get_contents(g)) if not NULL *)
| GetPath (f : nat) | GetContents (f : nat) | SetLanguage (f : nat) | GetLanguage (f : nat)
| Parse (f : nat) | ParseWith (f : nat) | Licenses (f : nat) | Locs (f : nat)
| ShowLocs (f : nat)            (* ohcount.c:160-178 *)
| FreeFile (f : nat)
| Diff (f g : nat) | LocDelta (f : nat) (x : string) (g : nat)
| NewFiles | AddFile (l : nat) | CountFiles (l : nat) | Analyze (l : nat) | FreeFiles (l : nat)
| NewCount (k : kind) (x : string) | FreeCount (k : kind) (c : nat)
| NewList (k : kind) | Add (k : kind) (l c : nat) | AddList (k : kind) (l m : nat)
| AddLocs (l f : nat)           (* add_loc_list(l, get_loc_list(f)) *)
| Compact (k : kind) (l : nat)
| ShowList (k : kind) (l : nat) (* ohcount.c:211 and 218-234 *)
| FreeList (k : kind) (l : nat).

(** The pointers that the calls have returned. *)
Definition handle (e : list ptr) (i : nat) : M ptr :=
  match nth_error e i with Some p => ret p | None => fail Null end.

Definition creates (e : list ptr) (m : M ptr) : M (list ptr) :=
  p <-- m;; ret (e ++ [p]).
Definition keeps {A} (e : list ptr) (m : M A) : M (list ptr) :=
  m;;; ret e.

Definition run_call (e : list ptr) (c : call) : M (list ptr) :=
  match c with
  | NewFile => creates e source_new
  | SetDiskpath f => p <-- handle e f;; keeps e (set_diskpath p None)
  | SetContents f => p <-- handle e f;; keeps e (set_contents p None)
  | CopyContents f g =>
    p <-- handle e f;; q <-- handle e g;;
    keeps e (c <-- get_contents q;;
             match c with Some c => set_contents p (Some c) | None => ret tt end)
  | GetPath f => p <-- handle e f;; keeps e (x <-- load_source p;; touch (filepath x))
  | GetContents f => p <-- handle e f;; keeps e (get_contents p)
  | SetLanguage f => p <-- handle e f;; keeps e (set_language p)
  | GetLanguage f => p <-- handle e f;; keeps e (get_language p)
  | Parse f => p <-- handle e f;; keeps e (parse p)
  | ParseWith f => p <-- handle e f;; keeps e (parse_with p)
  | Licenses f =>
    p <-- handle e f;;
    keeps e (o <-- get_licenses p;; l <-- deref o;; walk_list KLicense see_none l)
  | Locs f => p <-- handle e f;; keeps e (get_locs p)
  | ShowLocs f =>
    p <-- handle e f;;
    keeps e (l <-- get_locs p;; sort_list KLoc l;;; walk_list KLoc (see_count KLoc) l)
  | FreeFile f => p <-- handle e f;; keeps e (source_free p)
  | Diff f g => p <-- handle e f;; q <-- handle e g;; creates e (diff p q)
  | LocDelta f x g =>
    p <-- handle e f;; q <-- handle e g;; creates e (calc_loc_delta p x q)
  | NewFiles => creates e (list_new KFile)
  | AddFile l => p <-- handle e l;; creates e (add_file p)
  | CountFiles l => p <-- handle e l;; keeps e (walk_list KFile see_none p)
  | Analyze l => p <-- handle e l;; creates e (analyze p)
  | FreeFiles l => p <-- handle e l;; keeps e (files_free p)
  | NewCount k x => creates e (count_new k x)
  | FreeCount k c => p <-- handle e c;; keeps e (count_free (Some p))
  | NewList k => creates e (list_new k)
  | Add k l c => p <-- handle e l;; q <-- handle e c;; keeps e (list_add k p q)
  | AddList k l m => p <-- handle e l;; q <-- handle e m;; keeps e (list_add_list k p q)
  | AddLocs l f =>
    p <-- handle e l;; q <-- handle e f;;
    keeps e (o <-- get_locs q;; list_add_list KLoc p o)
  | Compact k l => p <-- handle e l;; creates e (list_compact k p)
  | ShowList k l =>
    p <-- handle e l;;
    keeps e (sort_list k p;;; walk_list k (see_count k) p)
  | FreeList k l => p <-- handle e l;; keeps e (list_free k count_free p)
  end.

Fixpoint run_calls (e : list ptr) (l : list call) : M (list ptr) :=
  match l with
  | [] => ret e
  | c :: r => e <-- run_call e c;; run_calls e r
  end.

Definition start (w : list answer) : state :=
  {| blocks := []; queue := None; queue_end := None; world := w |}.

Definition run (l : list call) (w : list answer) : out (list ptr) :=
  run_calls [] l (start w).
