(** The inference of platforms and tools: ruby/gestalt.rb and ruby/gestalt.

    Ruby objects that are changed live in a store, so that what a clone shares with its original
    is visible.  An exception that the code raises is an outcome of its own.  Ruby's regular
    expressions and the REXML parser are arguments ([ruby]).  Left out: the warnings that
    gestalt_engine.rb:114 prints for unknown languages, and gestalt_facts.rb and
    xml_keyword_rule.rb, which nothing uses. *)
From Coq Require Import String Ascii List ZArith Bool Arith.
From Verif Require Import Tables GestaltRules.
Import ListNotations.
Open Scope string_scope.
Open Scope list_scope.
Open Scope Z_scope.

(** What a call ends with: a value, or one of Ruby's exceptions. *)
Inductive exn := NoMethodError | ArgumentError.
Inductive outcome (A : Type) := Ok (a : A) | Raised (x : exn).
Arguments Ok {A}. Arguments Raised {A}.

Definition bind {A B} (m : outcome A) (f : A -> outcome B) : outcome B :=
  match m with Ok a => f a | Raised x => Raised x end.

(** * What comes from outside *)

(** The calls that REXML::Document.parse_stream makes on its listener; [XOther] stands for the
    ones that the listeners here ignore (comments, CDATA sections, declarations). *)
Inductive xml_event :=
| XStart (name : string) (attrs : list (string * string))
| XEnd (name : string)
| XText (text : string)
| XOther.

(** Regexp#match (the whole match, then the groups), String#scan (the groups of every match, for
    an expression that has groups), and the calls of parse_stream before it ends or raises
    REXML::ParseException, which both callers ignore (maven_rule.rb:29-33, csproj_rule.rb:21-25). *)
Record ruby := mkRuby {
  re_match : re -> string -> option (list (option string));
  re_scan : re -> string -> list (list (option string));
  xml_stream : string -> list xml_event }.

(** A language breakdown as ohcount.rb:22-25 returns it: name, code, code_count. *)
Record breakdown := mkBreakdown { b_name : string; b_code : string; b_count : Z }.

(** The attributes of a SourceFile that the rules read. *)
Record source_file := mkSource {
  sf_path : string; sf_name : string; sf_polyglot : option string;
  sf_breakdowns : list breakdown }.

(** ohcount.rb:27-29 language_breakdown *)
Definition language_breakdown (f : source_file) (l : string) : option breakdown :=
  find (fun b => String.eqb (b_name b) l) (sf_breakdowns f).

(** * The listeners *)

(** String#strip: whitespace and NUL at both ends. *)
Definition is_space (c : ascii) : bool :=
  let n := nat_of_ascii c in (n =? 0)%nat || (n =? 32)%nat || ((9 <=? n) && (n <=? 13))%nat.
Fixpoint lstrip (l : list ascii) : list ascii :=
  match l with [] => [] | c :: r => if is_space c then lstrip r else l end.
Definition strip (l : list ascii) : list ascii := rev (lstrip (rev (lstrip l))).

(** What follows the last closing brace of the line, if there is one. *)
Fixpoint after_last_brace (l : list ascii) : option (list ascii) :=
  match l with
  | [] => None
  | c :: r =>
      if Ascii.eqb c "010" then None
      else match after_last_brace r with
           | Some x => Some x
           | None => if Ascii.eqb c "}" then Some r else None
           end
  end.

(** gsub(/\$\{.*\}/, ''): from the first dollar and opening brace to the last closing brace of
    the line.  [fuel] is at least the length of the text. *)
Fixpoint drop_variables (fuel : nat) (l : list ascii) : list ascii :=
  match fuel, l with
  | S k, c :: r =>
      match (if Ascii.eqb c "$" then
               match r with d :: r' => if Ascii.eqb d "{" then after_last_brace r' else None
                          | [] => None end
             else None) with
      | Some rest => drop_variables k rest
      | None => c :: drop_variables k r
      end
  | _, _ => []
  end.

(** maven_parser.rb:45-47 clean *)
Definition clean (s : string) : string :=
  let l := strip (list_ascii_of_string s) in
  string_of_list_ascii (drop_variables (length l) l).

(** maven_parser.rb:5-14 MavenListener: the instance variables. *)
Record maven := mkMaven {
  m_pom : bool; m_group : option string; m_artifact : option string; m_text : option string }.
Definition maven_new := mkMaven false None None None.

Definition attr (attrs : list (string * string)) (k : string) : option string :=
  match find (fun p => String.eqb (fst p) k) attrs with Some (_, v) => Some v | None => None end.

(** maven_parser.rb:16-28 (and csproj_parser.rb:14-21): is this the root element of the schema
    [ns]?  Without xmlns it is. *)
Definition right_namespace (R : ruby) (ns : re) (attrs : list (string * string)) : bool :=
  match attr attrs "xmlns" with
  | None => true
  | Some v => match re_match R ns v with Some _ => true | None => false end
  end.

Definition maven_ns : re := mkRe "^http:\/\/maven\.apache\.org\/POM\/" false.
Definition csproj_ns : re := mkRe "^http:\/\/schemas\.microsoft\.com\/developer\/" false.

(** What the callback of the listener is called with: type, group, artifact. *)
Definition call := (string * string * string)%type.

(** maven_parser.rb:16-51: one event.  strip of nil raises NoMethodError. *)
Definition maven_event (R : ruby) (m : maven) (e : xml_event) : outcome (maven * list call) :=
  match e with
  | XStart n attrs =>
      if String.eqb n "project" then
        Ok (mkMaven (right_namespace R maven_ns attrs) (m_group m) (m_artifact m) (m_text m), [])
      else if String.eqb n "plugin" || String.eqb n "dependency" then
        Ok (mkMaven (m_pom m) None None (m_text m), [])
      else Ok (m, [])
  | XEnd n =>
      if String.eqb n "groupId" then
        match m_text m with
        | None => Raised NoMethodError
        | Some t => Ok (mkMaven (m_pom m) (Some (clean t)) (m_artifact m) (m_text m), [])
        end
      else if String.eqb n "artifactId" then
        match m_text m with
        | None => Raised NoMethodError
        | Some t => Ok (mkMaven (m_pom m) (m_group m) (Some (clean t)) (m_text m), [])
        end
      else if String.eqb n "plugin" || String.eqb n "dependency" then
        match m_pom m, m_group m, m_artifact m with
        | true, Some g, Some a => Ok (m, [(n, g, a)])
        | _, _, _ => Ok (m, [])
        end
      else Ok (m, [])
  | XText t => Ok (mkMaven (m_pom m) (m_group m) (m_artifact m) (Some t), [])
  | XOther => Ok (m, [])
  end.

(** The calls that a whole stream leads to. *)
Fixpoint maven_calls (R : ruby) (m : maven) (es : list xml_event) : outcome (list call) :=
  match es with
  | [] => Ok []
  | e :: es' =>
      bind (maven_event R m e) (fun '(m', c) =>
      bind (maven_calls R m' es') (fun cs => Ok (c ++ cs)))
  end.

(** csproj_parser.rb:14-27: the imports that a stream reports. *)
Fixpoint csproj_calls (R : ruby) (is_csproj : bool) (es : list xml_event) : list string :=
  match es with
  | [] => []
  | XStart n attrs :: es' =>
      if String.eqb n "Project" then csproj_calls R (right_namespace R csproj_ns attrs) es'
      else if String.eqb n "Import" then
        match is_csproj, attr attrs "Project" with
        | true, Some p => p :: csproj_calls R is_csproj es'
        | _, _ => csproj_calls R is_csproj es'
        end
      else csproj_calls R is_csproj es'
  | _ :: es' => csproj_calls R is_csproj es'
  end.

(** * One file, one rule *)

(** Array#join *)
Fixpoint join (sep : string) (l : list string) : string :=
  match l with [] => "" | [s] => s | s :: r => (s ++ sep ++ join sep r)%string end.

(** c_header_rule.rb:23-28.  The expression is made from a double-quoted string, in which \s is
    a space. *)
Definition header_re (hs : list string) : re :=
  mkRe ("include +['<""](" ++ join "|" hs ++ ")["">']") true.
(** keyword_rule.rb:34-38 *)
Definition keyword_re (ks : list string) : re := mkRe ("(" ++ join "|" ks ++ ")") false.
(** filename_rule.rb:17-22 *)
Definition filename_re (fs : list string) : re :=
  mkRe (join "|" (map (fun f => "(" ++ f ++ ")")%string fs)) false.
(** java_import_rule.rb:23-25, csharp_using_rule.rb:20-22, maven_rule.rb:28, csproj_rule.rb:16 *)
Definition import_re : re := mkRe "^\s*import\s+([a-zA-Z][\w\.\*\-]*)\b" false.
Definition using_re : re := mkRe "^\s*using\s+([a-zA-Z][\w\.\*\-]*)\s*;" false.
Definition pom_re : re := mkRe "\bpom\.xml$" false.
Definition csproj_re : re := mkRe "\.csproj$" false.

Definition matches (R : ruby) (x : re) (s : string) : bool :=
  match re_match R x s with Some _ => true | None => false end.
Definition matches_nil (R : ruby) (x : re) (s : option string) : bool :=
  match s with Some s => matches R x s | None => false end.

Definition count_if {A} (p : A -> bool) (l : list A) : Z := Z.of_nat (length (filter p l)).
Definition sumZ (l : list Z) : Z := fold_right Z.add 0 l.

(** process_source_file of the FileRule classes: what it adds to @count.
    c_header_rule.rb:13-21, filename_rule.rb:13-15, keyword_rule.rb:22-32, c_keyword_rule.rb:9-15,
    java_import_rule.rb:13-21, csharp_using_rule.rb:12-18, csproj_rule.rb:15-27,
    maven_rule.rb:21-35.  A FindFilenamesRule does not count. *)
Definition hits (R : ruby) (k : file_kind) (f : source_file) : outcome Z :=
  match k with
  | CHeaders hs =>
      let lang l :=
        match language_breakdown f l with
        | None => 0
        | Some b => match re_match R (header_re hs) (b_code b) with
                    | Some m => Z.of_nat (length m)
                    | None => 0
                    end
        end in
      match sf_polyglot f with
      | Some p => if String.eqb p "c" || String.eqb p "cpp" then Ok (lang "c" + lang "cpp") else Ok 0
      | None => Ok 0
      end
  | Filenames fs => Ok (if matches R (filename_re fs) (sf_path f) then 1 else 0)
  | Keywords (Some l) ks =>
      match language_breakdown f l with
      | Some b => Ok (Z.of_nat (length (re_scan R (keyword_re ks) (b_code b))))
      | None => Ok 0
      end
  | Keywords None ks =>
      Ok (sumZ (map (fun b => Z.of_nat (length (re_scan R (keyword_re ks) (b_code b))))
                    (sf_breakdowns f)))
  | CKeywords ks =>
      match language_breakdown f "c" with
      | Some b => Ok (Z.of_nat (length (re_scan R (keyword_re ks) (b_code b))))
      | None =>
          match language_breakdown f "cpp" with
          | Some b => Ok (Z.of_nat (length (re_scan R (keyword_re ks) (b_code b))))
          | None => Ok 0
          end
      end
  | JavaImport x =>
      match language_breakdown f "java" with
      | Some b => Ok (count_if (fun m => matches_nil R x (hd None m)) (re_scan R import_re (b_code b)))
      | None => Ok 0
      end
  | CSharpUsing x =>
      match language_breakdown f "csharp" with
      | Some b => Ok (count_if (fun m => matches_nil R x (hd None m)) (re_scan R using_re (b_code b)))
      | None => Ok 0
      end
  | CsprojImport x =>
      if matches R csproj_re (sf_name f) then
        match language_breakdown f "xml" with
        | Some b => Ok (count_if (matches R x) (csproj_calls R false (xml_stream R (b_code b))))
        | None => Ok 0
        end
      else Ok 0
  | Maven t g a =>
      if matches R pom_re (sf_name f) then
        match language_breakdown f "xml" with
        | Some b =>
            bind (maven_calls R maven_new (xml_stream R (b_code b))) (fun cs =>
            Ok (count_if (fun '(t', g', a') => String.eqb t' t && matches R g g' && matches R a a') cs))
        | None => Ok 0
        end
      else Ok 0
  | FindFilenames _ _ => Ok 0
  end.

(** * The store of rule objects *)

(** trigger.rb: a name (or nil) and a count. *)
Record trigger := mkTrigger { t_name : option string; t_count : Z }.
Definition unnamed : trigger := mkTrigger None 1.

(** A FileRule object: class and arguments, @min_count, @count, and the array @triggers. *)
Record obj := mkObj { o_kind : file_kind; o_min : Z; o_count : Z; o_array : nat }.

(** Addresses are positions.  [instances] is FileRule.instances (file_rule.rb:39-45). *)
Record store := mkStore { objs : list obj; arrays : list (list trigger); instances : list nat }.
Definition no_store : store := mkStore [] [] [].

Fixpoint update {A} (l : list A) (i : nat) (x : A) : list A :=
  match l, i with
  | [], _ => []
  | _ :: r, O => x :: r
  | y :: r, S i' => y :: update r i' x
  end.

(** file_rule.rb:9-21 FileRule.new *)
Definition new_object (r : file_rule) (s : store) : nat * store :=
  let a := length (objs s) in
  (a, mkStore (objs s ++ [mkObj (fr_kind r) (fr_min r) 0 (length (arrays s))])
              (arrays s ++ [[]]) (instances s ++ [a])).

(** Object#clone copies the instance variables, so that the array is shared and initialize is not
    called; find_filenames_rule.rb:16-18 makes a new object without :min. *)
Definition clone_object (a : nat) (s : store) : nat * store :=
  match nth_error (objs s) a with
  | None => (a, s)
  | Some o =>
      match o_kind o with
      | FindFilenames x i => new_object (mkFileRule (FindFilenames x i) 1) s
      | _ => (length (objs s), mkStore (objs s ++ [o]) (arrays s) (instances s))
      end
  end.

(** Makes a rule from a rule, leaf by leaf: the block of a definition
    (logical_rule.rb:6-9, 23-25), or LogicalRule#clone (logical_rule.rb:16-21). *)
Section Build.
  Context {A B : Type} (f : A -> store -> B * store).
  Fixpoint build (r : rule A) (s : store) {struct r} : rule B * store :=
    let many := fix many (rs : list (rule A)) (s : store) {struct rs} : list (rule B) * store :=
      match rs with
      | [] => ([], s)
      | r :: rs' => let (r', s1) := build r s in let (l, s2) := many rs' s1 in (r' :: l, s2)
      end in
    match r with
    | Leaf l => let (l', s') := f l s in (Leaf l', s')
    | Lang l p => (Lang l p, s)
    | Gest t n => (Gest t n, s)
    | And rs => let (rs', s') := many rs s in (And rs', s')
    | Or rs => let (rs', s') := many rs s in (Or rs', s')
    | Not rs => let (rs', s') := many rs s in (Not rs', s')
    end.

  (** definition.rb:56-59 Definition#clone, or define_… (definition.rb:69-75), one after another. *)
  Fixpoint build_all (ds : list (definition A)) (s : store) : list (definition B) * store :=
    match ds with
    | [] => ([], s)
    | d :: ds' =>
        let (r, s1) := build (d_rule d) s in
        let (l, s2) := build_all ds' s1 in
        (mkDef (d_type d) (d_name d) r :: l, s2)
    end.
End Build.

(** The leaves of a rule, in the order of each_rule (logical_rule.rb:11-14). *)
Fixpoint leaves {L} (r : rule L) : list L :=
  match r with
  | Leaf l => [l]
  | Lang _ _ | Gest _ _ => []
  | And rs | Or rs | Not rs =>
      (fix many rs := match rs with [] => [] | r :: rs' => leaves r ++ many rs' end) rs
  end.

(** What the classes hold once ruby/gestalt.rb has been loaded: Definition.all_definitions. *)
Definition load (T : list (definition file_rule)) : list (definition nat) * store :=
  build_all new_object T no_store.

(** process_source_file of one rule object, with the exception that it may end with;
    find_filenames_rule.rb:24-29 appends to @triggers. *)
Definition process_rule (R : ruby) (f : source_file) (a : nat) (s : store) : store * option exn :=
  match nth_error (objs s) a with
  | None => (s, None)
  | Some o =>
      match o_kind o with
      | FindFilenames x i =>
          match re_match R x (sf_name f) with
          | None => (s, None)
          | Some m =>
              let old := nth (o_array o) (arrays s) [] in
              (mkStore (objs s)
                       (update (arrays s) (o_array o) (old ++ [mkTrigger (nth i m None) 1]))
                       (instances s), None)
          end
      | k =>
          match hits R k f with
          | Ok n => (mkStore (update (objs s) a (mkObj k (o_min o) (o_count o + n) (o_array o)))
                             (arrays s) (instances s), None)
          | Raised x => (s, Some x)
          end
      end
  end.

(** triggers of a FileRule object: file_rule.rb:24-30, find_filenames_rule.rb:20-22. *)
Definition object_triggers (s : store) (a : nat) : list trigger :=
  match nth_error (objs s) a with
  | None => []
  | Some o =>
      match o_kind o with
      | FindFilenames _ _ => nth (o_array o) (arrays s) []
      | _ => if o_min o <=? o_count o then [unnamed] else []
      end
  end.

(** * Languages *)

(** A hash in the order of insertion. *)
Definition counts := list (string * Z).
Fixpoint count_add (c : counts) (k : string) (n : Z) : counts :=
  match c with
  | [] => [(k, n)]
  | (k', v) :: c' => if String.eqb k' k then (k', v + n) :: c' else (k', v) :: count_add c' k n
  end.
Definition lookup {A} (c : list (string * A)) (k : string) : option A :=
  match find (fun p => String.eqb (fst p) k) c with Some (_, v) => Some v | None => None end.

(** gestalt_engine.rb:96-101 LanguageFacts#process_source_file *)
Definition add_breakdowns (c : counts) (f : source_file) : counts :=
  fold_left (fun c b => count_add c (b_name b) (b_count b)) (sf_breakdowns f) c.

(** gestalt_engine.rb:109-126: the share of a language is 100.0 * v / total, a fraction here
    (the comparison with a whole number of percent is the same as for doubles as long as
    counts stay below 2^45). *)
Definition counted (l : string) : bool :=
  match lookup languages l with
  | None => false
  | Some x => negb (l_category x =? 1)
  end.
Definition shares := list (string * (Z * Z)).
Definition language_shares (c : counts) : shares :=
  let total := sumZ (map snd (filter (fun p => counted (fst p)) c)) in
  map (fun p => (fst p, (snd p, total))) c.

(** v / total >= min: with total 0 the quotient is NaN (v = 0) or an infinity. *)
Definition at_least (v total min : Z) : bool :=
  if total =? 0 then 0 <? v
  else if 0 <? total then min * total <=? 100 * v
  else 100 * v <=? min * total.

(** gestalt_engine.rb:103-106 includes_language?; @language_percents is set by the first call
    that needs it and never again, and nil >= raises. *)
Definition includes_language (c : counts) (memo : option shares) (l : string) (min : Z)
  : outcome (bool * option shares) :=
  match lookup c l with
  | None => Ok (false, memo)
  | Some _ =>
      let p := match memo with Some p => p | None => language_shares c end in
      match lookup p l with
      | None => Raised NoMethodError
      | Some (v, total) => Ok (at_least v total min, Some p)
      end
  end.

(** * Rules *)

(** base.rb:7-11: type, name, count. *)
Record gestalt := mkGestalt { g_type : string; g_name : string; g_count : Z }.

(** gestalt_engine.rb:76-81 has_gestalt? *)
Definition has_gestalt (gs : list gestalt) (t n : string) : bool :=
  existsb (fun g => String.eqb (g_type g) t && String.eqb (g_name g) n) gs.

(** triggers of a rule: and_rule.rb:6-11, or_rule.rb:5-11, not_rule.rb:4-6, gestalt_rule.rb:13-19,
    language_rule.rb:16-22.  [leaf] gives the triggers of a file rule. *)
Section Triggers.
  Context {L : Type} (leaf : L -> list trigger) (c : counts) (gs : list gestalt).
  Fixpoint triggers (r : rule L) (memo : option shares) {struct r}
    : outcome (list trigger * option shares) :=
    match r with
    | Leaf l => Ok (leaf l, memo)
    | Lang l p =>
        bind (includes_language c memo l p) (fun '(b, memo') =>
        Ok (if b then [unnamed] else [], memo'))
    | Gest t n => Ok (if has_gestalt gs t n then [unnamed] else [], memo)
    | And rs =>
        (fix all (rs : list (rule L)) (memo : option shares) {struct rs} :=
           match rs with
           | [] => Ok ([unnamed], memo)
           | r :: rs' =>
               bind (triggers r memo) (fun '(ts, memo') =>
               match ts with [] => Ok ([], memo') | _ => all rs' memo' end)
           end) rs memo
    | Or rs =>
        (fix any (rs : list (rule L)) (memo : option shares) {struct rs} :=
           match rs with
           | [] => Ok ([], memo)
           | r :: rs' =>
               bind (triggers r memo) (fun '(ts, memo') =>
               match ts with [] => any rs' memo' | _ => Ok (ts, memo') end)
           end) rs memo
    | Not rs =>
        match rs with
        | [] => Ok ([unnamed], memo)
        | r :: _ =>
            bind (triggers r memo) (fun '(ts, memo') =>
            Ok (match ts with [] => [unnamed] | _ => [] end, memo'))
        end
    end.

  (** definition.rb:37-41 Definition#gestalts *)
  Definition contribution (d : definition L) (ts : list trigger) : list gestalt :=
    map (fun t => mkGestalt (d_type d)
                            (match t_name t with Some n => n | None => d_name d end)
                            (t_count t)) ts.
End Triggers.

(** * The engine *)

(** One pass over the definitions (gestalt_engine.rb:54-64): the definitions that stay, and the
    gestalts, which every later definition of the pass already sees. *)
Section Calc.
  Context {L : Type} (leaf : L -> list trigger) (c : counts).
  Fixpoint pass (ds : list (definition L)) (memo : option shares) (gs : list gestalt)
    : outcome (list (definition L) * option shares * list gestalt) :=
    match ds with
    | [] => Ok ([], memo, gs)
    | d :: ds' =>
        bind (triggers leaf c gs (d_rule d) memo) (fun '(ts, memo1) =>
        match ts with
        | [] => bind (pass ds' memo1 gs) (fun '(l, m, g) => Ok (d :: l, m, g))
        | _ => pass ds' memo1 (gs ++ contribution d ts)
        end)
    end.

  (** gestalt_engine.rb:50-71: passes until one finds the number of gestalts unchanged.
      None: [fuel] passes were not enough. *)
  Fixpoint passes (fuel : nat) (seen : nat) (ds : list (definition L)) (memo : option shares)
    (gs : list gestalt) : option (outcome (list (definition L) * option shares * list gestalt)) :=
    match fuel with
    | O => None
    | S k =>
        match pass ds memo gs with
        | Raised x => Some (Raised x)
        | Ok (ds', memo', gs') =>
            if (seen =? length gs')%nat then Some (Ok (ds', memo', gs'))
            else passes k (length gs') ds' memo' gs'
        end
    end.
End Calc.

(** gestalt_engine.rb:6-20 GestaltEngine: the instance variables. *)
Record engine := mkEngine {
  e_definitions : list (definition nat); e_rules : list nat;
  e_counts : counts; e_memo : option shares; e_gestalts : list gestalt }.

(** gestalt_engine.rb:9-20 GestaltEngine.new: clones every definition. *)
Definition new_engine (all : list (definition nat)) (s : store) : engine * store :=
  let (ds, s') := build_all clone_object all s in
  (mkEngine ds (flat_map (fun d => leaves (d_rule d)) ds) [] None [], s').

Fixpoint process_rules (R : ruby) (f : source_file) (rs : list nat) (s : store)
  : store * option exn :=
  match rs with
  | [] => (s, None)
  | a :: rs' =>
      match process_rule R f a s with
      | (s', None) => process_rules R f rs' s'
      | (s', Some x) => (s', Some x)
      end
  end.

(** gestalt_engine.rb:22-27 process_source_file *)
Definition process_source_file (R : ruby) (e : engine) (f : source_file) (s : store)
  : engine * store * option exn :=
  match process_rules R f (e_rules e) s with
  | (s', Some x) => (e, s', Some x)
  | (s', None) =>
      (mkEngine (e_definitions e) (e_rules e) (add_breakdowns (e_counts e) f) (e_memo e)
                (e_gestalts e), s', None)
  end.

(** gestalt_engine.rb:36-44 process.  There is no method process_source_file_list. *)
Inductive what := AFile (f : source_file) | AList (l : list source_file) | AnythingElse.
Definition process (R : ruby) (e : engine) (w : what) (s : store) : engine * store * option exn :=
  match w with
  | AFile f => process_source_file R e f s
  | AList _ => (e, s, Some NoMethodError)
  | AnythingElse => (e, s, Some ArgumentError)
  end.

(** gestalt_engine.rb:46-74 calc_gestalts, with more passes than it can need (GestaltProofs.v: it
    never is None).  After an exception the engine is given up here. *)
Definition calc_gestalts (e : engine) (s : store) : option (outcome engine) :=
  match passes (object_triggers s) (e_counts e) (S (S (length (e_definitions e)))) 0
               (e_definitions e) (e_memo e) (e_gestalts e) with
  | None => None
  | Some (Raised x) => Some (Raised x)
  | Some (Ok (ds, memo, gs)) => Some (Ok (mkEngine ds (e_rules e) (e_counts e) memo gs))
  end.

Fixpoint process_each (R : ruby) (e : engine) (fs : list source_file) (s : store)
  : engine * store * option exn :=
  match fs with
  | [] => (e, s, None)
  | f :: fs' =>
      match process R e (AFile f) s with
      | (e', s', None) => process_each R e' fs' s'
      | r => r
      end
  end.

(** gestalt.rb:31-43 SourceFileList#analyze_gestalt, then gestalts: the gestalts, and the store that
    the analysis leaves behind.  gestalt.rb:22-27 SourceFile#gestalts is the case of one file. *)
Definition analyze (R : ruby) (all : list (definition nat)) (fs : list source_file) (s : store)
  : option (outcome (list gestalt)) * store :=
  let (e, s1) := new_engine all s in
  match process_each R e fs s1 with
  | (_, s2, Some x) => (Some (Raised x), s2)
  | (e', s2, None) =>
      (match calc_gestalts e' s2 with
       | None => None
       | Some (Raised x) => Some (Raised x)
       | Some (Ok e'') => Some (Ok (e_gestalts e''))
       end, s2)
  end.

(** base.rb:31-33 Base.find_gestalts *)
Definition find_gestalts (R : ruby) (all : list (definition nat)) (fs : list source_file)
  (s : store) : outcome (list gestalt) * store :=
  let (e, s1) := new_engine all s in
  match process R e (AList fs) s1 with
  | (_, s2, Some x) => (Raised x, s2)
  | (e', s2, None) => (Ok (e_gestalts e'), s2)
  end.
