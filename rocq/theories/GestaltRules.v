(** The rules from which ruby/gestalt.rb infers the platforms and the tools of a project. *)
From Coq Require Import String List ZArith.
Import ListNotations.
Open Scope string_scope.
Open Scope Z_scope.
Open Scope list_scope.

(** A Ruby regular expression: its source and its option i. *)
Record re := mkRe { re_source : string; re_icase : bool }.

(** The classes under ruby/gestalt/rules that look at one file, with the arguments that the
    methods of logical_rule.rb:47-96 pass on.  Arrays that a rule joins hold the strings after
    to_s.  [CHeaders] c_header_rule.rb:7-11; [Filenames] filename_rule.rb:7-11; [Keywords]
    keyword_rule.rb:14-20 (None: all languages, logical_rule.rb:68-70); [CKeywords]
    c_keyword_rule.rb:5-7; [JavaImport] java_import_rule.rb:7-11; [CSharpUsing]
    csharp_using_rule.rb:7-10; [CsprojImport] csproj_rule.rb:8-13; [Maven] maven_rule.rb:9-19;
    [FindFilenames] find_filenames_rule.rb:8-13, with the number of the group that gives the name. *)
Inductive file_kind :=
| CHeaders (headers : list string)
| Filenames (filenames : list string)
| Keywords (language : option string) (keywords : list string)
| CKeywords (keywords : list string)
| JavaImport (regex : re)
| CSharpUsing (regex : re)
| CsprojImport (import : re)
| Maven (type : string) (group artifact : re)
| FindFilenames (regex : re) (name_from_match : nat).

(** The arguments of FileRule.new (file_rule.rb:9-21): the class and :min. *)
Record file_rule := mkFileRule { fr_kind : file_kind; fr_min : Z }.

(** A rule.  [Leaf] is a FileRule; the other classes are language_rule.rb, gestalt_rule.rb,
    and_rule.rb, or_rule.rb and not_rule.rb. *)
Inductive rule (L : Type) :=
| Leaf (l : L)
| Lang (language : string) (min_percent : Z)
| Gest (type name : string)
| And (rules : list (rule L))
| Or (rules : list (rule L))
| Not (rules : list (rule L)).
Arguments Leaf {L}. Arguments Lang {L}. Arguments Gest {L}.
Arguments And {L}. Arguments Or {L}. Arguments Not {L}.

(** definition.rb:27-35: a type, a fixed name and the top-level rule. *)
Record definition (L : Type) := mkDef { d_type : string; d_name : string; d_rule : rule L }.
Arguments mkDef {L}. Arguments d_type {L}. Arguments d_name {L}. Arguments d_rule {L}.
