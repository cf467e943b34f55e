(** What the platforms and tools of a project should be, without reference to passes, clones
    or the order of definitions. *)
From Coq Require Import String List ZArith Bool.
From Verif Require Import Tables GestaltRules GestaltModel.
Import ListNotations.
Open Scope string_scope.
Open Scope list_scope.
Open Scope Z_scope.

(** When a rule holds, given which file rules and language rules hold and which gestalts there
    are. *)
Section Holds.
  Context {L : Type} (leaf : L -> Prop) (lang : string -> Z -> Prop) (G : string -> string -> Prop).
  Fixpoint holds (r : rule L) : Prop :=
    match r with
    | Leaf l => leaf l
    | Lang l p => lang l p
    | Gest t n => G t n
    | And rs => (fix all rs := match rs with [] => True | r :: rs' => holds r /\ all rs' end) rs
    | Or rs => (fix any rs := match rs with [] => False | r :: rs' => holds r \/ any rs' end) rs
    | Not rs => match rs with [] => True | r :: _ => ~ holds r end
    end.
End Holds.

(** A list of gestalts has one with this type and this name. *)
Definition present (gs : list gestalt) (t n : string) : Prop :=
  exists g, In g gs /\ g_type g = t /\ g_name g = n.

(** ** What the files say *)

(** A file rule holds if the files together have at least as many hits as it asks for; a rule
    that looks for filenames holds if there is such a file. *)
Definition enough (R : ruby) (files : list source_file) (r : file_rule) : Prop :=
  match fr_kind r with
  | FindFilenames x _ => exists f, In f files /\ re_match R x (sf_name f) <> None
  | k => exists ns, Forall2 (fun f n => hits R k f = Ok n) files ns /\ fr_min r <= sumZ ns
  end.

(** The lines of code in the languages that satisfy [p]. *)
Definition code_in (p : string -> bool) (files : list source_file) : Z :=
  sumZ (map b_count (filter (fun b => p (b_name b)) (flat_map sf_breakdowns files))).

(** The languages that make up the whole: the ones that the tool knows by this name, without
    markup. *)
Definition programming (l : string) : bool :=
  existsb (fun p => String.eqb (fst p) l && negb (l_category (snd p) =? 1)) languages.

(** Language [l] makes up at least [p] percent of the code.  Where there is no code except in
    languages that do not count, any code is enough. *)
Definition makes_up (files : list source_file) (l : string) (p : Z) : Prop :=
  (exists f b, In f files /\ In b (sf_breakdowns f) /\ b_name b = l) /\
  let whole := code_in programming files in
  let part := code_in (String.eqb l) files in
  (0 < whole /\ p * whole <= 100 * part) \/ (whole = 0 /\ 0 < part).

(** No line count is negative. *)
Definition sane (files : list source_file) : Prop :=
  forall f b, In f files -> In b (sf_breakdowns f) -> 0 <= b_count b.

(** No rule raises an exception for one of the files. *)
Definition readable (R : ruby) (T : list (definition file_rule)) (files : list source_file) : Prop :=
  forall d l f, In d T -> In l (leaves (d_rule d)) -> In f files ->
  exists n, hits R (fr_kind l) f = Ok n.

(** A definition holds. *)
Definition justified (R : ruby) (files : list source_file) (G : string -> string -> Prop)
  (d : definition file_rule) : Prop :=
  holds (enough R files) (makes_up files) G (d_rule d).

(** [G] is what the definitions say: something is there if and only if one of its definitions
    holds. *)
Definition exact (R : ruby) (T : list (definition file_rule)) (files : list source_file)
  (G : string -> string -> Prop) : Prop :=
  forall t n, G t n <-> exists d, In d T /\ d_type d = t /\ d_name d = n /\ justified R files G d.

(** [G] has everything that follows. *)
Definition closed (R : ruby) (T : list (definition file_rule)) (files : list source_file)
  (G : string -> string -> Prop) : Prop :=
  forall d, In d T -> justified R files G d -> G (d_type d) (d_name d).

(** ** Kinds of definitions *)

Definition key := (string * string)%type.
Definition key_eqb (a b : key) : bool := String.eqb (fst a) (fst b) && String.eqb (snd a) (snd b).
Definition key_in (k : key) (l : list key) : bool := existsb (key_eqb k) l.
Definition key_of {L} (d : definition L) : key := (d_type d, d_name d).

(** The gestalts that a rule asks for; the ones that it asks for under a negation. *)
Fixpoint refs {L} (r : rule L) : list key :=
  match r with
  | Leaf _ | Lang _ _ => []
  | Gest t n => [(t, n)]
  | And rs | Or rs | Not rs =>
      (fix many rs := match rs with [] => [] | r :: rs' => refs r ++ many rs' end) rs
  end.
Fixpoint not_refs {L} (r : rule L) : list key :=
  match r with
  | Leaf _ | Lang _ _ | Gest _ _ => []
  | And rs | Or rs =>
      (fix many rs := match rs with [] => [] | r :: rs' => not_refs r ++ many rs' end) rs
  | Not rs => (fix many rs := match rs with [] => [] | r :: rs' => refs r ++ many rs' end) rs
  end.

(** A rule without negation; a rule without negation and without languages. *)
Fixpoint positive {L} (langs : bool) (r : rule L) : bool :=
  match r with
  | Leaf _ | Gest _ _ => true
  | Lang _ _ => langs
  | And rs | Or rs =>
      (fix many rs := match rs with [] => true | r :: rs' => positive langs r && many rs' end) rs
  | Not _ => false
  end.

(** A rule that never passes the name of a file on to the gestalt. *)
Fixpoint plain (r : rule file_rule) : bool :=
  match r with
  | Leaf l => match fr_kind l with FindFilenames _ _ => false | _ => true end
  | Lang _ _ | Gest _ _ | And _ | Not _ => true
  | Or rs => (fix many rs := match rs with [] => true | r :: rs' => plain r && many rs' end) rs
  end.

(** For every definition the gestalts that are decided once for all when it is looked at first:
    the ones with a single definition, which is an earlier one and asks only for such gestalts. *)
Fixpoint decided {L} (before decided_now : list key) (T : list (definition L))
  : list (definition L * list key) :=
  match T with
  | [] => []
  | d :: T' =>
      (d, decided_now) ::
      decided (key_of d :: before)
        (if forallb (fun k => key_in k decided_now) (refs (d_rule d))
            && negb (key_in (key_of d) before) && negb (key_in (key_of d) (map key_of T'))
         then key_of d :: decided_now else decided_now) T'
  end.

(** Negation only of gestalts that are decided before. *)
Definition safe {L} (T : list (definition L)) : bool :=
  forallb (fun p => forallb (fun k => key_in k (snd p)) (not_refs (d_rule (fst p))))
          (decided [] [] T).

Definition plain_table (T : list (definition file_rule)) : Prop :=
  forall d, In d T -> plain (d_rule d) = true.

(** No gestalt depends on itself: the gestalts can be numbered so that every definition asks only
    for smaller numbers. *)
Definition acyclic {L} (T : list (definition L)) : Prop :=
  exists rank : key -> nat, forall d k, In d T -> In k (refs (d_rule d)) ->
  (rank k < rank (key_of d))%nat.

(** ** Sessions *)

(** What a program may have done with the library before: analyses, and calls of
    Base.find_gestalts. *)
Inductive action := Analyze (fs : list source_file) | FindGestalts (fs : list source_file).
Definition act (R : ruby) (all : list (definition nat)) (s : store) (a : action) : store :=
  match a with
  | Analyze fs => snd (analyze R all fs s)
  | FindGestalts fs => snd (find_gestalts R all fs s)
  end.
(** The store after loading the definitions [T] and these actions. *)
Definition after (R : ruby) (T : list (definition file_rule)) (acts : list action) : store :=
  fold_left (act R (fst (load T))) acts (snd (load T)).
(** The gestalts of these files, after these actions. *)
Definition gestalts_after (R : ruby) (T : list (definition file_rule)) (acts : list action)
  (fs : list source_file) : option (outcome (list gestalt)) :=
  fst (analyze R (fst (load T)) fs (after R T acts)).

(** The rules that look for filenames in a table. *)
Definition finders (T : list (definition file_rule)) : nat :=
  length (filter (fun l => match fr_kind l with FindFilenames _ _ => true | _ => false end)
                 (flat_map (fun d => leaves (d_rule d)) T)).

(** ** pom.xml *)

(** Events that say nothing about dependencies. *)
Definition harmless (e : xml_event) : Prop :=
  match e with
  | XStart n _ => ~ In n ["project"; "plugin"; "dependency"]
  | XEnd n => ~ In n ["groupId"; "artifactId"; "plugin"; "dependency"]
  | XText _ | XOther => True
  end.

(** An identifier: an element with text. *)
Definition id_events (n t : string) : list xml_event := [XStart n []; XText t; XEnd n].

(** Outside of dependencies and plugins: harmless events and identifiers (of the project itself, of
    its parent). *)
Inductive outside : list xml_event -> Prop :=
| outside_nil : outside []
| outside_event : forall e es, harmless e -> outside es -> outside (e :: es)
| outside_id : forall n t es, In n ["groupId"; "artifactId"] -> outside es -> outside (id_events n t ++ es).

(** A dependency or a plugin: its group, its artifact (in any order), and whatever is harmless. *)
Record item := mkItem { i_type : string; i_group : string; i_artifact : string }.
Inductive item_events : item -> list xml_event -> Prop :=
| item_group_first : forall t g a attrs n1 n2 n3, In t ["plugin"; "dependency"] ->
    Forall harmless n1 -> Forall harmless n2 -> Forall harmless n3 ->
    item_events (mkItem t g a)
      (XStart t attrs :: n1 ++ id_events "groupId" g ++ n2 ++ id_events "artifactId" a ++ n3 ++ [XEnd t])
| item_artifact_first : forall t g a attrs n1 n2 n3, In t ["plugin"; "dependency"] ->
    Forall harmless n1 -> Forall harmless n2 -> Forall harmless n3 ->
    item_events (mkItem t g a)
      (XStart t attrs :: n1 ++ id_events "artifactId" a ++ n2 ++ id_events "groupId" g ++ n3 ++ [XEnd t]).

(** A dependency or a plugin with at most one kind of identifier. *)
Inductive incomplete_events : list xml_event -> Prop :=
| incomplete : forall t attrs n ids n1 n2, In t ["plugin"; "dependency"] -> In n ["groupId"; "artifactId"] ->
    Forall harmless n1 -> Forall harmless n2 -> (ids = [] \/ exists x, ids = id_events n x) ->
    incomplete_events (XStart t attrs :: n1 ++ ids ++ n2 ++ [XEnd t]).

(** The inside of a project: items, and other things around them. *)
Inductive project_events : list item -> list xml_event -> Prop :=
| project_end : forall o, outside o -> project_events [] o
| project_item : forall o i es is rest, outside o -> item_events i es -> project_events is rest ->
    project_events (i :: is) (o ++ es ++ rest)
| project_incomplete : forall o es is rest, outside o -> incomplete_events es -> project_events is rest ->
    project_events is (o ++ es ++ rest).

(** ** csproj *)

(** The Project attributes of the Import elements. *)
Definition import_of (e : xml_event) : list string :=
  match e with
  | XStart "Import" attrs => match find (fun p => String.eqb (fst p) "Project") attrs with
                             | Some p => [snd p]
                             | None => []
                             end
  | _ => []
  end.
Definition no_project (es : list xml_event) : Prop := forall attrs, ~ In (XStart "Project" attrs) es.

(** ** Rules *)

(** The breakdown of a file that a rule for a language looks at: the first one with this name. *)
Definition code_of (f : source_file) (l : string) (code : string) : Prop :=
  exists before b after, sf_breakdowns f = before ++ b :: after /\ b_name b = l /\ b_code b = code /\
  forall b', In b' before -> b_name b' <> l.

(** What a rule that asks for one hit wants to see in some file. *)
Definition sees (R : ruby) (k : file_kind) (f : source_file) : Prop :=
  match k with
  | CHeaders hs => exists l code, In l ["c"; "cpp"] /\ (sf_polyglot f = Some "c" \/ sf_polyglot f = Some "cpp") /\
      code_of f l code /\ re_match R (mkRe ("include +['<""](" ++ join "|" hs ++ ")["">']") true) code <> None
  | Filenames ns => re_match R (mkRe (join "|" (map (fun n => "(" ++ n ++ ")")%string ns)) false) (sf_path f) <> None
  | Keywords (Some l) ks => exists code, code_of f l code /\
      re_scan R (mkRe ("(" ++ join "|" ks ++ ")") false) code <> []
  | Keywords None ks => exists b, In b (sf_breakdowns f) /\
      re_scan R (mkRe ("(" ++ join "|" ks ++ ")") false) (b_code b) <> []
  | CKeywords ks => exists code, (code_of f "c" code \/
        code_of f "cpp" code /\ forall b, In b (sf_breakdowns f) -> b_name b <> "c") /\
      re_scan R (mkRe ("(" ++ join "|" ks ++ ")") false) code <> []
  | JavaImport x => exists code g gs, code_of f "java" code /\
      In (Some g :: gs) (re_scan R (mkRe "^\s*import\s+([a-zA-Z][\w\.\*\-]*)\b" false) code) /\ re_match R x g <> None
  | CSharpUsing x => exists code g gs, code_of f "csharp" code /\
      In (Some g :: gs) (re_scan R (mkRe "^\s*using\s+([a-zA-Z][\w\.\*\-]*)\s*;" false) code) /\ re_match R x g <> None
  | CsprojImport x => exists code g, re_match R (mkRe "\.csproj$" false) (sf_name f) <> None /\
      code_of f "xml" code /\ In g (csproj_calls R false (xml_stream R code)) /\ re_match R x g <> None
  | Maven t gr ar => exists code cs g a, re_match R (mkRe "\bpom\.xml$" false) (sf_name f) <> None /\
      code_of f "xml" code /\ maven_calls R maven_new (xml_stream R code) = Ok cs /\ In (t, g, a) cs /\
      re_match R gr g <> None /\ re_match R ar a <> None
  | FindFilenames x _ => re_match R x (sf_name f) <> None
  end.
