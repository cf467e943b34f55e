(** Specification of the command line tool: what an invocation asks for, which files it
    is about, and what these files contain. *)
From Coq Require Import ZArith String Ascii List Bool.
From Verif Require Import Base ParsedModel ParsedSpec FileDiffSpec DirModel DirSpec LineSpec LexSpec LexTable.
From Verif Require Import Tables TablesSpec DetectorSpec ScanSpec LicenseTable ToolModel.
Import ListNotations.
Open Scope string_scope.
Open Scope Z_scope.
Open Scope list_scope.

(** ** The invocation *)

(** The options, as the text of [ohcount -h] lists them (ohcount.c:68-124). *)
Definition documented : list (command * list string) :=
  [ (Annotate, ["-a"; "--annotate"]); (Detect, ["-d"; "--detect"]); (Help, ["-h"; "--help"]);
    (Individual, ["-i"; "--individual"]); (Licenses, ["-l"; "--license"]); (RawEntities, ["-re"]);
    (Summary, ["-s"; "--summary"]) ].
Definition option_for (a : list Z) (c : command) : Prop :=
  exists os o, In (c, os) documented /\ In o os /\ a = bytes o.

(** Usage: ohcount [option] [paths...]; without an option, a summary. *)
Inductive asks : list (list Z) -> command -> list (list Z) -> Prop :=
| asks_option a c paths : option_for a c -> asks (a :: paths) c paths
| asks_default paths : (forall a r c, paths = a :: r -> ~ option_for a c) -> asks paths Summary paths.

(** Without a path, the current directory. *)
Definition places (paths : list (list Z)) : list (list Z) :=
  match paths with [] => [[46]] | _ => paths end.

Section Files.
  Variable found : list Z -> target.
  Variable content : list Z -> option (list Z).

  (** The files below a place. *)
  Definition names_file (a p : list Z) : Prop :=
    match found a with IsDir t => file_at a t p | IsFile => p = a | Nothing => False end.

  (** Directories as an operating system has them, without paths longer than the buffers of
      the tool (C40). *)
  Definition proper (a : list Z) : Prop :=
    match found a with IsDir t => real_tree t /\ ~ In 0 a /\ fits_buffer a t | _ => True end.

  (** [parts] are the files of each place, in some order. *)
  Definition files_of : list (list Z) -> list (list (list Z)) -> Prop :=
    Forall2 (fun a ps => NoDup ps /\ forall p, In p ps <-> names_file a p).

  Definition nothing_at (a : list Z) : bool := match found a with Nothing => true | _ => false end.
  Definition complaints (paths : list (list Z)) : list output := map BadArgument (filter nothing_at paths).

  (** The part of a path after its last dot, if no separator follows. *)
  Definition has_extension (path e : list Z) : Prop :=
    exists front, path = front ++ [46] ++ e /\ forall c, In c e -> c <> 46 /\ c <> 47 /\ c <> 92.

  (** The reports that the accounts of the language, by lines (C21) or by comments and
      strings (C49), give for a text. *)
  Definition accounted (g : string) (text : list Z) (es : list event) : Prop :=
    (exists st, In (g, st) styles /\ ~ In 11 text /\ es = count_lines st g text)
    \/ (exists x, In (g, x) lexes /\ lex_lines x g text = Some es).

  (** A source file of language [g]: its extension is that of the language, and its text
      has an account. *)
  Definition source_file (p : list Z) (g : string) (r : revision) : Prop :=
    exists e, has_extension p e /\ extension_says e g /\ is_language g /\
      content p = Some (r_text r) /\ (forall c, In c (r_text r) -> 0 < c < 256) /\
      Z.of_nat (length (r_text r)) + 5 <= int_max /\ accounted g (r_text r) (r_events r).

  (** A file with the extension of a binary file; nothing is counted in it. *)
  Definition binary_file (p : list Z) (r : revision) : Prop :=
    exists e, has_extension p e /\ extension_says e (String "001"%char "") /\ r = mkRev [] [].

  Definition plain_file (p : list Z) (r : revision) : Prop :=
    (exists g, source_file p g r) \/ binary_file p r.
End Files.

(** Number of lines of a kind, and of line ends. *)
Definition count (k : string) (es : list event) : Z :=
  Z.of_nat (length (filter (fun e => String.eqb (e_entity e) k) es)).
Definition line_ends (text : list Z) : Z := Z.of_nat (length (line_stops 0 text)).

(** The part of a path after its last separator. *)
Definition base_name (p f : list Z) : Prop :=
  (forall c, In c f -> c <> 47 /\ c <> 92) /\ (p = f \/ exists d c, (c = 47 \/ c = 92) /\ p = d ++ [c] ++ f).

(** The licences of a file: one line each, with a comma if it is not the last. *)
Definition printed (f : list Z) (ls : list license) : list output :=
  map (fun l => License (l_name l) true f) (removelast ls)
  ++ match rev ls with [] => [] | l :: _ => [License (l_name l) false f] end.
