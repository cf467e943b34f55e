(** The comments and strings of the languages, as the parsers have them. *)
From Coq Require Import ZArith String List Bool.
From Verif Require Import Base ParsedModel LineSpec LexSpec.
Import ListNotations.
Open Scope string_scope.
Open Scope Z_scope.
Open Scope list_scope.

Definition wd (s : string) : list (list Z) := map (fun c => [c]) (bytes s).
Definition wd_ci (s : string) : list (list Z) :=
  map (fun c => if (97 <=? c) && (c <=? 122) then [c; c - 32] else [c]) (bytes s).
Definition nls : list Z := [10; 12; 13].
Definition others (l : list Z) : list Z :=
  filter (fun c => negb (among c l)) (map Z.of_nat (seq 0 256)).
Definition quote : string := String (Ascii.ascii_of_nat 34) "".

(** Comments up to the line end; with continuation lines. *)
Definition line (o : string) : region := mkRegion (wd o) [] [] Comment Comment Comment Cut [] false None false false None.
Definition line_c (o : string) : region := mkRegion (wd o) [] [] Comment Comment Comment Cut [] false (Some Comment) false false None.
(** Only if code has been seen on the line, or not. *)
Definition only (b : bool) (g : region) : region :=
  mkRegion (g_open g) (g_ahead g) (g_close g) (g_first g) (g_kind g) (g_last g) (g_nl g) (g_never g) (g_esc g) (g_escnl g) (g_nest g) (g_must g) (Some b).
(** Comments over several lines; with a closing of one byte, which does not count. *)
Definition block (o c : string) : region := mkRegion (wd o) [] [wd c] Comment Comment Comment Inner [] false None false false None.
Definition block1 (o c : string) : region := mkRegion (wd o) [] [wd c] Comment Comment Blank Inner [] false None false false None.
(** Strings on one line, with and without escapes. *)
Definition str (q : string) : region := mkRegion (wd q) [] [wd q] Code Code Code Deny [] true None false true None.
Definition str_raw (q : string) : region := mkRegion (wd q) [] [wd q] Code Code Code Deny [] false None false true None.
(** Strings with escaped line ends. *)
Definition str_c (q : string) : region := mkRegion (wd q) [] [wd q] Code Code Blank Deny [] true (Some Blank) false false None.
(** Strings over several lines, with and without escapes. *)
Definition str_ml (q : string) : region := mkRegion (wd q) [] [wd q] Code Code Blank Inner [] true None false false None.
Definition str_ml_raw (q : string) : region := mkRegion (wd q) [] [wd q] Code Code Blank Inner [] false None false false None.
Definition text (o c : string) : region := mkRegion (wd o) [] [wd c] Code Code Code Inner [] false None false false None.
(** Those with queued reports. *)
Definition str_q (q : string) : region := mkRegion (wd q) [] [wd q] Code Code Blank Inner [] true (Some Blank) false false None.
Definition str_q' (q : string) : region := mkRegion (wd q) [] [wd q] Code Code Code Inner [] true None false false None.

Definition str_q1 (q : string) : region := mkRegion (wd q) [] [wd q] Code Code Blank Inner [] true None false false None.

Definition q1 : string := "'".
Definition q2 : string := quote.
Definition q3 : string := quote ++ quote ++ quote.
Definition s3 : string := "''" ++ "'".

Definition lex (l : list region) : lexis := mkLexis l [] [] [].
Definition with_words (w : list (list (list Z) * nat * kind)) (x : lexis) : lexis := mkLexis (x_regions x) w (x_never x) (x_head x).
Definition with_never (w : list (list (list Z))) (x : lexis) : lexis := mkLexis (x_regions x) (x_words x) w (x_head x).
Definition with_head (w : list (list (list Z))) (x : lexis) : lexis := mkLexis (x_regions x) (x_words x) (x_never x) w.

Definition slashes : list region := [line "//"; block "/*" "*/"].
Definition slashes_c : list region := [line_c "//"; block "/*" "*/"].
Definition strs : list region := [str q1; str q2].
Definition strs_c : list region := [str_c q1; str_c q2].
Definition c_like : lexis := lex (slashes_c ++ strs_c).
Definition java_like : lexis := lex (slashes ++ strs).
Definition objc_like : lexis := lex (slashes_c ++ strs).
Definition xml_like : lexis := lex [block "<!--" "-->"; str_raw q1; str_raw q2; text "<![CDATA[" "]]>"].
Definition xsd_like : lexis := lex [block "<!--" "-->"; str q1; str q2; text "<![CDATA[" "]]>"].
Definition words_code (l : list (list (list Z))) : list (list (list Z) * nat * kind) := map (fun p => (p, length p, Code)) l.
(** Nested comments; the delimiters must not overlap. *)
Definition overlap (o c : string) : list (list (list Z)) :=
  (if match rev (bytes o), bytes c with x :: _, y :: _ => x =? y | _, _ => false end
   then [wd o ++ skipn 1 (wd c)] else [])
  ++ (if match rev (bytes c), bytes o with x :: _, y :: _ => x =? y | _, _ => false end
   then [wd c ++ skipn 1 (wd o)] else []).
Definition nested (o c : string) (never : list (list (list Z))) : region :=
  mkRegion (wd o) [] [wd c] Comment Comment Comment Inner (overlap o c ++ never) false None true false None.
Definition lisp_like : lexis :=
  mkLexis [line ";"; block q3 q3;
           mkRegion (wd q2 ++ [others (34 :: nls)] ++ [others (34 :: nls)]) [] [wd q2] Code Code Blank Inner [] true None false false None]
          ((wd q2 ++ wd q2 ++ [others [34]], 2%nat, Code) :: words_code [wd q2 ++ [others (34 :: nls)] ++ wd q2])
          [wd q2 ++ [nls]; wd q2 ++ [others [34]] ++ [nls]] [].
Definition chars (q : string) : list (list (list Z) * nat * kind) := words_code
  [wd q ++ [others (92 :: 39 :: nls)] ++ wd q; wd q ++ [[92]] ++ [others nls] ++ wd q].
(** A regular expression; a slash before a line end is excluded. *)
Definition regex : region := mkRegion (wd "/" ++ [others (47 :: 42 :: nls)]) [] [wd "/"] Code Code Code Deny [] true None false true None.
Definition js_like : lexis :=
  mkLexis (slashes ++ strs_c ++ [regex]) [] [wd "/" ++ [nls]] [].
Definition doc (q : string) : region := block q q.

Definition ruby_like (l : list region) : lexis :=
  lex ([line "#"; block "=begin" "=end"] ++ l ++ [str_q' "`";
        mkRegion (wd "%" ++ [bytes "qQwrx"] ++ [bytes "([{"]) [] [[bytes ")]}"]] Code Code Code Inner [] true None false false None;
        mkRegion (wd "%" ++ [bytes "([{"]) [] [[bytes ")]}"]] Code Code Code Inner [] true None false false None;
        str "/"]).

(** What follows dnl in autoconf: a comment, if there is more than one blank and a byte. *)
Definition dnl (a : list (list Z)) (c : list (list (list Z))) (k : kind) (n : list (list (list Z))) : region :=
  mkRegion (wd "dnl") a c Comment Comment k Cut n false None false false None.

Definition lexes : list (string * lexis) :=
  [ ("actionscript", lex (slashes ++ strs ++ [text "<![CDATA[" "]]>"]));
    ("ampl", lex [line "#"; block "/*" "*/"]);
    ("assembler", lex ([line "//"; line ";"; line "!"; block "/*" "*/"; str q2]));
    ("c", c_like); ("cpp", c_like); ("csharp", c_like); ("cuda", c_like); ("ec", c_like); ("genie", c_like); ("vala", c_like);
    ("chaiscript", js_like);
    ("cmake", lex [line "#"; str_q' q2]);
    ("coffeescript", with_never [wd "`"; wd "###"] (lex [text s3 s3; text q3 q3; line "#"; str_q' q1; str_q' q2]));
    ("crystal", ruby_like [str_q' q2]);
    ("css", lex [block "/*" "*/"; str_ml q1; str_ml q2]);
    ("dart", lex slashes_c);
    ("dylan", with_words (chars q1) (lex (slashes ++ [str q2])));
    ("factor", lex [line "!"; str_ml q2]);
    ("forth", lex [line "\"; block1 "(" ")"; str_raw q2]);
    ("fortranfree", lex [line "!"; str_ml_raw q1; str_ml_raw q2]);
    ("fsharp", lex ([line_c "//"; block "(*" "*)"] ++ strs_c));
    ("glsl", c_like); ("golang", c_like); ("groovy", c_like);
    ("grace", lex [line "//"; mkRegion (wd q2) [] [wd q2] Code Code Blank Inner [[[92]]] false None false false None]);
    ("haxe", objc_like); ("objective_c", objc_like); ("objective_j", objc_like);
    ("jam", lex [line "#"; str_q1 q1; str_q1 q2]);
    ("java", java_like); ("pike", java_like); ("scala", java_like); ("umple", java_like);
    ("javascript", js_like); ("qml", js_like); ("typescript", js_like);
    ("julia", with_never [wd "#="] (lex [line "#"; doc s3; doc q3; str q1; str q2]));
    ("livecode", lex [line "--"; line "#"; line "//"; block "/*" "*/"; str q2]);
    ("logtalk", lex ([line "%"; block "/*" "*/"] ++ strs));
    ("prolog", lex ([line "%"; block "/*" "*/"] ++ strs));
    ("matlab", lex ([mkRegion (wd "%") [others (bytes "{")] [] Comment Comment Comment Cut [] false None false false None;
                     mkRegion (wd "...") [others (bytes "{")] [] Comment Comment Comment Cut [] false None false false None;
                     mkRegion (wd "%{") [] [wd "%}"] Comment Code Code Inner [] false None false false None] ++ strs));
    ("nsis", lex ([line "#"; line ";"; block "/*" "*/"; str "`"] ++ strs));
    ("octave", lex ([mkRegion (wd "%") [others (bytes "{")] [] Comment Comment Comment Cut [] false None false false None;
                     mkRegion (wd "...") [others (bytes "{")] [] Comment Comment Comment Cut [] false None false false None;
                     line "#";
                     mkRegion (wd "%{") [] [wd "%}"] Comment Code Code Inner [] false None false false None] ++ strs));
    ("pascal", lex [line "//"; mkRegion (wd "(*") [] [wd "*)"] Comment Code Code Inner [] false None false false None;
                    block1 "{" "}"; str_ml q1]);
    ("powershell", lex [block "<#" "#>"; line "#"; str_q q1; str_q q2]);
    ("puppet", lex [line "#"; mkRegion (wd "/*") [] [wd "*/"] Comment Code Code Inner [] false None false false None; str_ml q1]);
    ("python", lex ([line "#"; line "//"; block "/*" "*/"; doc s3; doc q3; str q1; str q2]));
    ("rust", lex (slashes_c ++ [str_c q2]));
    ("shell", lex [line "#"; str_q q1; str_q q2]);
    ("smalltalk", lex [block1 q2 q2; str_raw q1]);
    ("sql", lex ([line "--"; line "#"; line "//"; block "/*" "*/"; block1 "{" "}"] ++ strs));
    ("stratego", with_never [wd q1 ++ [nls] ++ wd q1] (with_words (words_code [wd q1 ++ [[92]] ++ [[46]] ++ wd q1; wd q1 ++ [others (92 :: 39 :: nls)] ++ wd q1]) (lex (slashes_c ++ [str_c q2]))));
    ("swift", lex slashes_c);
    ("tcl", lex [line_c "#"; str_c q2]);
    ("unrealscript", lex (slashes ++ strs_c));
    ("xaml", xml_like); ("xml", xml_like);
    ("xmlschema", xsd_like); ("xslt", xsd_like);
    ("ruby", ruby_like [str_q' q1; str_q' q2]);
    ("lisp", lisp_like); ("scheme", lisp_like); ("emacslisp", lisp_like); ("racket", lisp_like); ("clojure", lisp_like);
    ("lua", with_never [wd "--["; wd "[["; wd "[="] (lex [line "--"; str_ml q1; str_ml q2]));
    ("modelica", lex (slashes ++ [mkRegion (wd q2) [] [wd q2] Code Code Code Inner [[[13]]; [[12]]; [[92]; others [34]]] true None false false None]));
    ("blitzmax", lex [line q1; mkRegion (wd_ci "rem") [] [wd_ci "end rem"; wd_ci "endrem"] Comment Comment Comment Inner [] false None false false None; str q2]);
    ("ocaml", lex [nested "(*" "*)" []; str q2]);
    ("augeas", lex [nested "(*" "*)" []; str q2]);
    ("coq", lex [nested "(*" "*)" []; mkRegion (wd q2) [] [wd q2] Code Code Blank Deny [] false None false false None]);
    ("dmd", lex (slashes_c ++ [nested "/+" "+/" [[[11]]]; str_c q1; str_c q2; str_c "`"]));
    ("haskell", with_words (chars q1) (lex [mkRegion (wd "--") [others [62]] [] Comment Comment Comment Cut [] false None false false None; nested "{-" "-}" []; str_c q2]));
    ("elm", with_words (chars q1) (lex [mkRegion (wd "--") [others [62]] [] Comment Comment Comment Cut [] false None false false None; nested "{-" "-}" []; str_c q2]));
    ("kotlin", with_never [wd q3] (lex [line "//"; nested "/*" "*/" []; str q2]));
    ("mathematica", with_never [wd q2 ++ [nls] ++ wd q2] (with_words (words_code [wd q2 ++ [others (34 :: nls)] ++ wd q2]) (lex [nested "(*" "*)" []])));
    ("modula3", lex [nested "(*" "*)" [[[11]]]; str_c q1; str_c q2]);
    ("rexx", lex [nested "/*" "*/" [[[11]]]; str q1; str q2]);
    ("html", with_never [wd_ci "<style"; wd_ci "<script"] (lex [block "<!--" "-->"; str q1; str q2]));
    ("mxml", with_never [wd "<mx:Style>"; wd "<mx:Script>"] (lex [block "<!--" "-->"; str_ml q1; str_ml q2]));
    ("nix", with_never [wd q2; wd "''"] (lex [line "#"; block "/*" "*/"]));
    ("modula2", with_never [wd q1] (lex [nested "(*" "*)" [[[11]]]; str_raw q2]));
    ("oberon", with_never [wd q1] (lex [nested "(*" "*)" [[[11]]]; str_raw q2]));
    ("boo", with_never [wd q2 ++ [others [34]]; wd q2 ++ wd q2 ++ [others [34]]; wd "/" ++ [others [42; 47]]; wd q1]
              (lex [line "#"; line "//"; nested "/*" "*/" [[[11]]]; block q3 q3]));
    ("autoconf", lex [dnl [[9; 32]; others nls] [] Comment []; dnl [[9; 32]] [[[9; 32]]] Blank [];
                      dnl [] [[others (9 :: 32 :: 11 :: 91 :: 100 :: nls)]] Code [wd "["; wd "d"; [[11]]];
                      mkRegion (wd "[") [] [wd "]"] Code Code Blank Inner [] false None true false None]);
    ("bfpp", mkLexis [line "="; mkRegion (wd "@include(") [] [wd ")"] Code Code Blank Inner [] false None false false None;
                      mkRegion (wd "@") [] [] Comment Comment Comment Cut [[others []]] false None false false None]
               [([others (bytes "+-<>.,[]%!#^:;=@" ++ [9; 32; 11] ++ nls)], 1%nat, Comment);
                (wd "@" ++ [others (bytes "i")], 1%nat, Comment)] [] []);
    ("perl", with_head [wd "="] (with_words [(wd "=", 1%nat, Blank)] (lex [line "#"; str_q' q1; str_q' q2; str_q' "`"; str "/"])));
    ("vim", lex [only false (line q2); only true (mkRegion (wd q2) [] [wd q2] Code Code Code Deny [] true None false false None);
                 mkRegion (wd q1) [] [wd q1] Code Code Code Deny [] true None false false None])
  ].
