(** Model of the directory traversal: /repo/src/sourcefile.c:346-398.

    Simplifications: the file system is a finite tree that does not change during
    the traversal, [opendir] of a path opens the directory that [lstat] of the same
    path has found, and [lstat] succeeds; the list of files (sourcefile.c:346-368) is
    an append-only sequence of paths with the fields its constructor computes
    (PathModel).  FILENAME_MAX is 4096 (glibc). *)
From Coq Require Import ZArith String List Bool.
From Verif Require Import Base Arr ParsedModel PathModel.
Import ListNotations.
Open Scope Z_scope.

(** What [lstat] finds under a name.  [Dir None] is a directory that [opendir] cannot
    open; the entries of [Dir (Some es)] are in the order of [readdir], with the
    entries "." and "..". *)
Inductive fsnode :=
| Reg
| Link
| Special                                   (* socket, device, pipe *)
| Dir (entries : option (list (list Z * fsnode))).

Definition filename_max : Z := 4096.

(** strncpy(a + off, s, strlen(s)): the bytes without the NUL
    (sourcefile.c:373, 384). *)
Fixpoint put (a : arr) (off : Z) (s : list Z) : res arr :=
  match s with
  | [] => Ok a
  | c :: r => a <- aset a off c ;; put a (off + 1) r
  end.

(** The C string at the start of the buffer. *)
Fixpoint cstr (fuel : nat) (a : arr) (i : Z) : res (list Z) :=
  match fuel with
  | O => OutOfFuel
  | S k => c <- aget a i ;;
           if c =? 0 then Ok [] else r <- cstr k a (i + 1) ;; Ok (c :: r)
  end.

(** sourcefile.c:355-368 [ohcount_sourcefile_list_add_file] *)
Definition add_file (fs : list (list Z * split)) (path : list Z)
  : res (list (list Z * split)) :=
  s <- sourcefile_new path ;;
  Ok (fs ++ [(path, s)]).

(** sourcefile.c:370-398 [ohcount_sourcefile_list_add_directory]; [t] is the
    directory found at the path [directory].  '/' = 47, '.' = 46. *)
Fixpoint add_directory (t : fsnode) (directory : list Z) (fs : list (list Z * split))
  {struct t} : res (list (list Z * split)) :=
  let n := Z.of_nat (length directory) in
  filepath <- put (anew filename_max) 0 directory ;;
  filepath <- aset filepath n 47 ;;
  let f_p := n + 1 in
  match t with
  | Dir (Some es) =>
    (fix readdir (es : list (list Z * fsnode)) (filepath : arr)
         (fs : list (list Z * split)) : res (list (list Z * split)) :=
       match es with
       | [] => Ok fs
       | (name, st) :: r =>
         filepath <- put filepath f_p name ;;
         filepath <- aset filepath (f_p + Z.of_nat (length name)) 0 ;;
         path <- cstr (Z.to_nat filename_max) filepath 0 ;;
         fs <- match st with
               | Link => Ok fs
               | Dir _ =>
                 if nth 0 name 0 =? 46 then Ok fs else add_directory st path fs
               | Reg => add_file fs path
               | Special => Ok fs
               end ;;
         readdir r filepath fs
       end) es filepath fs
  | _ => Ok fs                              (* opendir fails *)
  end.
