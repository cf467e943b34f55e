(** Specification of what a parser reports when it is asked for entities (-re). *)
From Coq Require Import ZArith String List Bool.
From Verif Require Import Base ParsedModel ScanSpec.
Import ListNotations.
Open Scope string_scope.
Open Scope Z_scope.
Open Scope list_scope.

(** The kinds of entities found in text of a language. *)
Definition entity_names (lang : string) : list string :=
  let is l := existsb (String.eqb lang) l in
  if is ["c"; "cpp"; "csharp"; "cuda"; "ec"; "genie"; "vala"; "glsl"; "golang"; "fsharp"]
  then ["space"; "comment"; "string"; "number"; "preproc"; "keyword"; "identifier"; "operator"; "any"]
  else if is ["lua"; "kotlin"; "rust"]
  then ["space"; "comment"; "string"; "number"; "keyword"; "identifier"; "operator"; "any"]
  else if is ["limbo"]
  then ["space"; "comment"; "string"; "number"; "keyword"; "identifier"; "operator"]
  else if is ["modula2"; "modula3"; "oberon"; "stratego"] then ["space"; "comment"; "string"]
  else if is ["haml"]
  then ["space"; "string"; "any"; "element"; "element_class"; "element_id"; "evaluator"]
  else if is ["rebol"] then ["space"; "comment"; "string"; "any"]
  else if is ["modelica"] then ["space"; "comment"; "any"]
  else if is ["bfpp"] then ["space"; "comment"; "operator"; "include"]
  else if is ["brainfuck"] then ["space"; "comment"; "operator"]
  else if is ["factor"; "vim"] then []
  else ["space"; "comment"].

(** The languages whose reports of lines and of entities are mixed up. *)
Definition mixed : list string := "modelica" :: html_like.

(** A report about some bytes of the file. *)
Definition entity_report (name : string) (text : list Z) (e : event) : Prop :=
  In (e_lang e) (may_report name) /\
  (In (e_entity e) (entity_names (e_lang e)) \/
   In name mixed /\ In (e_entity e) ["lcode"; "lcomment"; "lblank"]) /\
  0 <= e_start e < e_end e /\ e_end e <= Z.of_nat (length text).

(** isspace: the bytes that are white space. *)
Definition space (c : Z) : Prop := c = 32 \/ 9 <= c <= 13.
Definition space_at (text : list Z) (i : Z) : Prop :=
  0 <= i /\ exists c, nth_error text (Z.to_nat i) = Some c /\ space c.

(** Byte [i] belongs to the report. *)
Definition within (e : event) (i : Z) : Prop := e_start e <= i < e_end e.

(** Each report begins where the one before ends, or later. *)
Definition in_order (es : list event) : Prop :=
  ForallOrdPairs (fun a b => e_end a <= e_start b) es.

(** "space" reports are the white space up to the next byte of another kind; nothing
    else begins with white space. *)
Definition space_report (text : list Z) (e : event) : Prop :=
  if String.eqb (e_entity e) "space"
  then (forall i, within e i -> space_at text i) /\ ~ space_at text (e_end e)
  else ~ space_at text (e_start e).

(** The reports show all white space of the file, resp. all of the file. *)
Definition all_space_shown (text : list Z) (es : list event) : Prop :=
  forall i, space_at text i -> exists e, In e es /\ within e i.
Definition all_shown (text : list Z) (es : list event) : Prop :=
  forall i, 0 <= i < Z.of_nat (length text) -> exists e, In e es /\ within e i.

(** The languages in which every byte belongs to some entity; in the last three, white
    space may be part of others. *)
Definition complete : list string :=
  ["c"; "cpp"; "csharp"; "cuda"; "ec"; "genie"; "vala"; "glsl"; "golang"; "fsharp"; "lua"; "kotlin"; "rust"; "rebol";
   "bfpp"; "brainfuck"; "haml"].
Definition loose : list string := ["bfpp"; "brainfuck"; "haml"].
(** The languages without a usable search for entities. *)
Definition no_entities : list string := ["limbo"; "factor"; "vim"] ++ mixed.
