(** When a program with the Ruby classes takes care of its objects. *)
From Coq Require Import List Arith Bool ZArith.
From Verif Require Import BindingModel.
Import ListNotations.

(** A variable still holds what an operation relies on. *)
Definition kept (w : world) (n : need) : Prop :=
  match n with
  | MemoryOf o => exists x, In (x, Owner o) (env w)
  | CharactersOf s => exists x, In (x, Strings s) (env w)
  | NullPointer => False
  end.

(** Variable [x] stands for file [f], which is part of the memory of [o]. *)
Inductive stands_for (w : world) (x : nat) : nat -> nat -> Prop :=
| stands_new : forall o f, get (env w) x = Some (Owner o) -> nth_error (owners w) o = Some (false, [f]) -> stands_for w x o f
| stands_listed : forall o f, get (env w) x = Some (Inside o f) -> stands_for w x o f.
(** Variable [x] stands for list [o] of files. *)
Inductive lists (w : world) (x : nat) : nat -> list nat -> Prop :=
| lists_new : forall o fs, get (env w) x = Some (Owner o) -> nth_error (owners w) o = Some (true, fs) -> lists w x o fs.

(** What an operation reaches: the memory of every object that it is given, the filenames of the
    files whose language it has to find out, and the filenames that it is asked for. *)
Inductive reach (w : world) : op -> need -> Prop :=
| reach_add : forall l o fs, lists w l o fs -> reach w (AddFile l) (MemoryOf o)
| reach_item : forall x l i o fs, lists w l o fs -> reach w (ListFile x l i) (MemoryOf o)
| reach_parts : forall x y b o f, stands_for w y o f -> reach w (Parts x y b) (MemoryOf o)
| reach_parts_names : forall x y o f s, stands_for w y o f -> get (names w) f = Some s -> reach w (Parts x y true) (CharactersOf s)
| reach_use_owner : forall x o, get (env w) x = Some (Owner o) -> reach w (Use x) (MemoryOf o)
| reach_use_inside : forall x o f, get (env w) x = Some (Inside o f) -> reach w (Use x) (MemoryOf o)
| reach_use_part : forall x o, get (env w) x = Some (Part o) -> reach w (Use x) (MemoryOf o)
| reach_diff : forall x y z b u o f, u = y \/ u = z -> stands_for w u o f -> reach w (Diff x y z b) (MemoryOf o)
| reach_diff_names : forall x y z u o f s, u = y \/ u = z -> stands_for w u o f -> get (names w) f = Some s ->
    reach w (Diff x y z true) (CharactersOf s)
| reach_analyze : forall x l b o fs, lists w l o fs -> reach w (AnalyzeLanguages x l b) (MemoryOf o)
| reach_analyze_names : forall x l o fs f s, lists w l o fs -> In f fs -> get (names w) f = Some s ->
    reach w (AnalyzeLanguages x l true) (CharactersOf s)
| reach_set : forall y s o f, stands_for w y o f -> reach w (SetFilenames y s) (MemoryOf o)
| reach_filenames : forall y o f, stands_for w y o f -> reach w (Filenames y) (MemoryOf o)
| reach_filenames_set : forall y o f s, stands_for w y o f -> get (names w) f = Some s -> reach w (Filenames y) (CharactersOf s)
| reach_filenames_unset : forall y o f, stands_for w y o f -> get (names w) f = None -> reach w (Filenames y) NullPointer.

(** At every operation, up to an exception. *)
Fixpoint careful (w : world) (p : list op) : Prop :=
  match p with
  | [] => True
  | a :: p' =>
      match step w a with
      | None => True
      | Some (_, w') => (forall n, reach w a n -> kept w n) /\ careful w' p'
      end
  end.

Definition nothing_gone : gone := mkGone [] [].
(** Whatever the collector does. *)
Definition never_crashes (p : list op) : Prop :=
  forall schedule, run schedule 0 start nothing_gone p <> Crash.

(** The variable that an operation assigns. *)
Definition target (a : op) : list nat :=
  match a with
  | NewFile x | NewList x | NewStrings x | Copy x _ | ListFile x _ _ | Parts x _ _ | Diff x _ _ _
  | AnalyzeLanguages x _ _ => [x]
  | AddFile _ | Use _ | SetFilenames _ _ | Filenames _ | Forget _ => []
  end.

(** The calls that allocate: [filenames=], [diff], [analyze_languages]. *)
Definition allocations (p : list op) : Z :=
  Z.of_nat (length (filter (fun a => match a with
    | SetFilenames _ _ | Diff _ _ _ _ | AnalyzeLanguages _ _ _ => true | _ => false end) p)).
(** The objects of SourceFile.new that were collected and had filenames. *)
Definition files_with_names_collected (w : world) (g : gone) : Z :=
  Z.of_nat (length (filter (fun o => match nth_error (owners w) o with
    | Some (false, [f]) => existsb (fun p => fst p =? f) (names w) | _ => false end) (g_owners g))).
