(** What the lookup tables should guarantee together.  A table is a list of keys with
    values; nothing here refers to how a lookup is done. *)
From Coq Require Import ZArith String Ascii List Bool.
From Verif Require Import Base Tables ParserTable.
Import ListNotations.
Open Scope string_scope.
Open Scope Z_scope.
Open Scope list_scope.

(** A line counting parser exists for the language. *)
Definition has_parser (g : string) : Prop := exists e, In e entries /\ en_name e = g.

(** The language table knows the language, under whatever key. *)
Definition is_language (g : string) : Prop := exists k l, In (k, l) languages /\ l_name l = g.

(** The name by which set_language and mode lines find the language is its own name. *)
Definition is_key (g : string) : Prop := exists l, In (g, l) languages.

(** A value of the extension table: a language, `binary`, or a disambiguator (after
    a byte 1 or 2). *)
Inductive value_ok : string -> Prop :=
| Plain g : has_parser g -> is_language g -> value_ok g
| Binary : value_ok (String "001"%char "")
| Ambiguous id d : In (id, d) disambiguators -> value_ok (String "002"%char id).
