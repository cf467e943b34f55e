(** Delivery of line reports: what becomes of a report does not depend on how reports
    are stored. *)
From Coq Require Import ZArith String List Bool.
From Verif Require Import Base ParsedModel.
Import ListNotations.

(** What happens in a run: a line report is made, a token with queue begins, is
    committed, or dropped. *)
Inductive happening := Made (e : event) | Begin | Commit | Drop.

(** The queue that is open now will be committed: of the markers to come, the first is
    Commit. *)
Fixpoint committed (l : list happening) : bool :=
  match l with
  | [] => false
  | Made _ :: l => committed l
  | Commit :: _ => true
  | Begin :: _ | Drop :: _ => false
  end.

(** The reports that reach the client: those made outside of a queue, and those made
    inside of one that is committed.  [q]: a queue is open at the start. *)
Fixpoint delivered (q : bool) (l : list happening) : list event :=
  match l with
  | [] => []
  | Made e :: l => if q && negb (committed l) then delivered q l else e :: delivered q l
  | Begin :: l => delivered true l
  | Commit :: l | Drop :: l => delivered false l
  end.
