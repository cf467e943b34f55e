(** The calls of the library that the command line tool makes. *)
From Coq Require Import List.
From Verif Require Import ToolModel MemModel.
Import ListNotations.

(** main, ohcount.c:263-306, on [n] files: first the list (number 0), then a file
    for every path (numbers 1 to n).  That the loops of the commands visit the files
    of the list in order is part of this definition. *)
Definition listed (n : nat) : list call := NewFiles :: repeat (AddFile 0) n.

Definition each_file (n : nat) (f : nat -> list call) : list call := flat_map f (seq 1 n).

(** annotate 22-29, detect 31-38, licenses 40-51, raw_entities 58-66, help 68-124,
    individual 145-181 and summary 202-261. *)
Definition command_calls (c : command) (n : nat) : list call :=
  match c with
  | Annotate | RawEntities => each_file n (fun f => [ParseWith f])
  | Detect => each_file n (fun f => [GetLanguage f; GetPath f])
  | Help => []
  | Individual => CountFiles 0 :: each_file n (fun f => [ShowLocs f; GetPath f])
  | ToolModel.Licenses => each_file n (fun f => [Licenses f; GetPath f])
  | Summary => [CountFiles 0; Analyze 0; ShowList KLoc (S n); FreeList KLoc (S n)]
  end.

Definition tool_calls (c : command) (n : nat) : list call :=
  listed n ++ command_calls c n ++ [FreeFiles 0].
