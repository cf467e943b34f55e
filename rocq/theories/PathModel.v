(** The constructor of sourcefile.c: splitting a path. *)
From Coq Require Import ZArith String List Bool.
From Verif Require Import Base ParsedModel.
Import ListNotations.
Open Scope Z_scope.

(** '.' = 46, '/' = 47, '\\' = 92 *)
Definition is_sep (c : Z) : bool := (c =? 47) || (c =? 92).

(** sourcefile.c:31-32, 35-36: while (p > filepath && ... *(p - 1) ...) p--;
    [p] is an offset into the path (a copy of the argument with its NUL,
    sourcefile.c:25-29); [stop] is the test on the byte before. *)
Fixpoint back (fuel : nat) (path : list Z) (stop : Z -> bool) (p : Z) : res Z :=
  match fuel with
  | O => OutOfFuel
  | S k =>
    if p >? 0 then
      c <- src path (p - 1) ;;
      if stop c then Ok p else back k path stop (p - 1)
    else Ok p
  end.

(** Fields set by the constructor that depend on the path: offsets of ext and
    filename, and dirpath (the length of the directory part). *)
Record split := mkSplit { s_ext : Z; s_filename : Z; s_dirpath : Z }.

(** sourcefile.c:22-40 [ohcount_sourcefile_new].  The argument has no NUL (it is
    a C string).  The byte before the copy is outside of the allocation. *)
Definition sourcefile_new (path : list Z) : res split :=
  let length := Z.of_nat (length path) in
  let p := length in
  p <- back (S (Z.to_nat length)) path (fun c => (c =? 46) || is_sep c) p ;;
  c <- src path (p - 1) ;;
  let ext := if c =? 46 then p else length in
  p <- back (S (Z.to_nat length)) path is_sep p ;;
  let dirpath := p - 1 in
  let dirpath := if dirpath <? 0 then 0 else dirpath in
  Ok (mkSplit ext p dirpath).

(** The C strings the fields point to: sf->ext, sf->filename, and the first
    dirpath bytes of sf->filepath (sourcefile.c:40, structs.h:219-232). *)
Definition ext_of (path : list Z) (s : split) : list Z := skipn (Z.to_nat (s_ext s)) path.
Definition filename_of (path : list Z) (s : split) : list Z := skipn (Z.to_nat (s_filename s)) path.
Definition dir_of (path : list Z) (s : split) : list Z := firstn (Z.to_nat (s_dirpath s)) path.
