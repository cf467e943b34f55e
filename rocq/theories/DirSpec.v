(** Specification of the directory traversal. *)
From Coq Require Import ZArith String List Bool.
From Verif Require Import Base DirModel.
Import ListNotations.
Open Scope Z_scope.

(** [dir/name] *)
Definition join (dir name : list Z) : list Z := dir ++ [47] ++ name.

Definition hidden (name : list Z) : Prop := exists r, name = 46 :: r.

(** [file_at dir t path]: [path] is a regular file below the directory [t] at path
    [dir], reachable through directories that are not hidden; symbolic links are
    neither files nor directories. *)
Inductive file_at : list Z -> fsnode -> list Z -> Prop :=
| at_here dir es name : In (name, Reg) es ->
    file_at dir (Dir (Some es)) (join dir name)
| at_below dir es name sub path : In (name, Dir sub) es -> ~ hidden name ->
    file_at (join dir name) (Dir sub) path ->
    file_at dir (Dir (Some es)) path.

(** Every path built during the traversal, with its NUL, fits in the buffer. *)
Inductive fits_buffer : list Z -> fsnode -> Prop :=
| fits_dir dir es : Z.of_nat (length dir) < filename_max ->
    (forall name st, In (name, st) es ->
       Z.of_nat (length (join dir name)) < filename_max /\
       (forall sub, st = Dir sub -> ~ hidden name -> fits_buffer (join dir name) (Dir sub))) ->
    fits_buffer dir (Dir (Some es))
| fits_unreadable dir : Z.of_nat (length dir) < filename_max -> fits_buffer dir (Dir None).

(** A real file system: names are not empty, contain no NUL and no slash, and are
    distinct within a directory. *)
Inductive real_tree : fsnode -> Prop :=
| real_reg : real_tree Reg
| real_link : real_tree Link
| real_special : real_tree Special
| real_unreadable : real_tree (Dir None)
| real_dir es : NoDup (map fst es) ->
    (forall name st, In (name, st) es -> name <> [] /\ ~ In 0 name /\ ~ In 47 name /\ real_tree st) ->
    real_tree (Dir (Some es)).
