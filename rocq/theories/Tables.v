(** The lookup tables of /repo/src/hash/*.gperf, in full (written by tools/tables.py).  The
    C code generated by gperf is not part of the repository; the model uses its contract: a
    lookup with a string and its length finds the entry with this key, if any.  Entries are
    in file order. *)
From Coq Require Import ZArith String Ascii List Bool.
From Verif Require Import Base.
Import ListNotations.
Open Scope string_scope.
Open Scope Z_scope.
Open Scope list_scope.

(** extensions.gperf:4 [BINARY], detector.c:20 [ISBINARY] *)
Definition binary : string := String "001"%char EmptyString.
Definition is_binary (v : string) : bool :=
  match v with String c _ => (c =? "001")%char | EmptyString => false end.

(** extensions.gperf:5 [DISAMBIGUATE], detector.c:21-22 [ISAMBIGUOUS], [DISAMBIGUATEWHAT] *)
Definition ambiguous (what : string) : string := String "002"%char what.
Definition is_ambiguous (v : string) : bool :=
  match v with String c _ => (c =? "002")%char | EmptyString => false end.
Definition ambiguous_what (v : string) : string :=
  match v with String _ r => r | EmptyString => EmptyString end.

(** The contract of the generated lookup functions. *)
Fixpoint lookup {A} (t : list (string * A)) (key : list Z) : option A :=
  match t with
  | [] => None
  | (k, v) :: r => if zlist_eqb (bytes k) key then Some v else lookup r key
  end.

(** extensions.gperf:9-255 *)
Definition extensions : list (string * string) := [
  ("4th", "forth");
  ("C", "cpp");
  ("H", "cpp");
  ("ada", "ada");
  ("adb", "ada");
  ("ads", "ada");
  ("aiff", binary);
  ("as", "actionscript");
  ("as8", "assembler");
  ("ascx", ambiguous "aspx");
  ("asm", "assembler");
  ("aspx", ambiguous "aspx");
  ("asx", ambiguous "asx");
  ("au", binary);
  ("aug", "augeas");
  ("avi", binary);
  ("awk", "awk");
  ("b", ambiguous "b");
  ("bas", ambiguous "basic");
  ("bat", "bat");
  ("bf", "brainfuck");
  ("bfpp", "bfpp");
  ("bi", ambiguous "basic");
  ("bmp", binary);
  ("bmx", "blitzmax");
  ("boo", "boo");
  ("c", "c");
  ("c++", "cpp");
  ("cache", binary);
  ("cc", "cpp");
  ("chai", "chaiscript");
  ("clj", "clojure");
  ("cls", "tex");
  ("cmake", "cmake");
  ("coffee", "coffeescript");
  ("com", "dcl");
  ("cpp", "cpp");
  ("cr", "crystal");
  ("cs", ambiguous "cs");
  ("csproj", "xml");
  ("css", "css");
  ("ctp", "php");
  ("cu", "cuda");
  ("cxx", "cpp");
  ("d", "dmd");
  ("dart", "dart");
  ("dat", ambiguous "dat");
  ("def", ambiguous "def");
  ("di", "dmd");
  ("doc", binary);
  ("dtx", "tex_dtx");
  ("dylan", "dylan");
  ("e", "eiffel");
  ("ebuild", "ebuild");
  ("ec", "ec");
  ("eclass", "ebuild");
  ("eh", "ec");
  ("el", "emacslisp");
  ("elm", "elm");
  ("erl", "erlang");
  ("exheres-0", "exheres");
  ("exlib", "exheres");
  ("f", ambiguous "fortran");
  ("f03", ambiguous "fortran");
  ("f08", ambiguous "fortran");
  ("f77", ambiguous "fortran");
  ("f90", ambiguous "fortran");
  ("f95", ambiguous "fortran");
  ("factor", "factor");
  ("fr", "forth");
  ("frag", "glsl");
  ("frt", "forth");
  ("for", ambiguous "fortran");
  ("forth", "forth");
  ("fpp", ambiguous "fortran");
  ("frm", "visualbasic");
  ("frx", "visualbasic");
  ("fs", ambiguous "fs");
  ("fth", "forth");
  ("ftn", ambiguous "fortran");
  ("gemspec", "ruby");
  ("gif", binary);
  ("glsl", "glsl");
  ("go", "golang");
  ("groovy", "groovy");
  ("grace", "grace");
  ("grc", "grace");
  ("gs", "genie");
  ("gz", binary);
  ("h", ambiguous "h");
  ("h++", "cpp");
  ("haml", "haml");
  ("hh", "cpp");
  ("hpp", "cpp");
  ("hrl", "erlang");
  ("hs", "haskell");
  ("htm", "html");
  ("html", "html");
  ("hx", "haxe");
  ("hxx", "cpp");
  ("i3", "modula3");
  ("icns", binary);
  ("in", ambiguous "in");
  ("inc", ambiguous "inc");
  ("j", "objective_j");
  ("jar", binary);
  ("java", "java");
  ("jpeg", binary);
  ("jpg", binary);
  ("js", "javascript");
  ("jl", "julia");
  ("jsp", "jsp");
  ("kdebuild-1", "ebuild");
  ("kt", "kotlin");
  ("lc", "livecode");
  ("latex", "tex");
  ("lisp", "lisp");
  ("lsp", "lisp");
  ("ltx", "tex");
  ("lgt", "logtalk");
  ("lua", "lua");
  ("m", ambiguous "m");
  ("m3", "modula3");
  ("m4", "autoconf");
  ("m4a", binary);
  ("mf", "metafont");
  ("mk", "make");
  ("ml", "ocaml");
  ("ml4", "ocaml");
  ("mli", "ocaml");
  ("mm", "objective_c");
  ("mo", "modelica");
  ("mod", ambiguous "mod");
  ("mov", binary);
  ("mp", "metapost_with_tex");
  ("mp3", binary);
  ("mpg", binary);
  ("mt", "mathematica");
  ("mustache", "html");
  ("mxml", "mxml");
  ("nix", "nix");
  ("nse", "lua");
  ("nsi", "nsis");
  ("nsh", "nsis");
  ("ob2", "oberon");
  ("obn", "oberon");
  ("ogg", binary);
  ("p6", "perl");
  ("p8", "lua");
  ("pas", "pascal");
  ("perl", "perl");
  ("pdf", binary);
  ("ph", "perl");
  ("php", "php");
  ("php3", "php");
  ("php4", "php");
  ("php5", "php");
  ("pike", "pike");
  ("pl", ambiguous "pl");
  ("pm", "perl");
  ("pmc", "c");
  ("pmod", "pike");
  ("png", binary);
  ("pnt", binary);
  ("pod", "perl");
  ("pp", ambiguous "pp");
  ("ppt", binary);
  ("pro", ambiguous "pro");
  ("ps", "postscript");
  ("ps1", "powershell");
  ("py", "python");
  ("qml", "qml");
  ("qt", binary);
  ("r", ambiguous "r");
  ("r3", "rebol");
  ("ra", binary);
  ("rb", "ruby");
  ("rbw", "ruby");
  ("reb", "rebol");
  ("rebol", "rebol");
  ("rex", "rexx");
  ("rexx", "rexx");
  ("rhtml", "rhtml");
  ("rkt", "racket");
  ("rktd", "racket");
  ("rktl", "racket");
  ("rs", ambiguous "rs");
  ("ru", "ruby");
  ("run", "ampl");
  ("s", "assembler");
  ("sc", "scheme");
  ("scala", "scala");
  ("sce", "scilab");
  ("sci", "scilab");
  ("scm", "scheme");
  ("sh", "shell");
  ("sld", "scheme");
  ("sls", "scheme");
  ("sps", "scheme");
  ("sql", "sql");
  ("ss", "scheme");
  ("st", ambiguous "st");
  ("str", "stratego");
  ("sty", "tex");
  ("svg", binary);
  ("svgz", binary);
  ("svn", binary);
  ("swf", binary);
  ("swift", "swift");
  ("t", "perl");
  ("tac", "python");
  ("tap", "python");
  ("tar", binary);
  ("tcl", "tcl");
  ("tex", "tex");
  ("tgz", binary);
  ("tif", binary);
  ("tiff", binary);
  ("tpl", "html");
  ("uc", "unrealscript");
  ("umple", "umple");
  ("ts", "typescript");
  ("tsx", "typescript");
  ("vala", "vala");
  ("vapi", "vala");
  ("v", "coq");
  ("vb", "visualbasic");
  ("vba", "visualbasic");
  ("vbs", "visualbasic");
  ("vert", "glsl");
  ("vhd", "vhdl");
  ("vhdl", "vhdl");
  ("vim", "vim");
  ("wav", binary);
  ("wl", "mathematica");
  ("wlt", "mathematica");
  ("xaml", "xaml");
  ("xhtml", "html");
  ("xls", binary);
  ("xlw", binary);
  ("xml", "xml");
  ("xs", "c");
  ("xsd", "xmlschema");
  ("xsl", "xslt");
  ("z80", "assembler");
  ("zip", binary);
  ("zpt", "html")].

(** filenames.gperf:6-22 *)
Definition filenames : list (string * string) := [
  ("CMakeLists.txt", "cmake");
  ("Jamfile", "jam");
  ("Jamrules", "jam");
  ("GNUmakefile", "make");
  ("Makefile", "make");
  ("Makefile.am", "automake");
  ("configure", "autoconf");
  ("configure.ac", "autoconf");
  ("configure.in", "autoconf");
  ("init.pp", "puppet");
  ("makefile", "make");
  ("Rakefile", "ruby");
  ("rakefile", "ruby");
  ("Gemfile", "ruby");
  ("Vagrantfile", "ruby");
  ("PKGBUILD", "shell");
  ("script.utf8", "livecode")].

(** languages.h:134 [LanguageMap] without the key; category 0 code, 1 markup, 2 build. *)
Record language := mkLanguage { l_name : string; l_nice : string; l_category : Z }.

(** languages.gperf:6-129 *)
Definition languages : list (string * language) := [
  ("actionscript", mkLanguage "actionscript" "ActionScript" 0);
  ("ada", mkLanguage "ada" "Ada" 0);
  ("ampl", mkLanguage "ampl" "AMPL" 0);
  ("assembler", mkLanguage "assembler" "Assembler" 0);
  ("augeas", mkLanguage "augeas" "Augeas" 0);
  ("autoconf", mkLanguage "autoconf" "Autoconf" 2);
  ("automake", mkLanguage "automake" "Automake" 2);
  ("awk", mkLanguage "awk" "AWK" 0);
  ("bat", mkLanguage "bat" "DOS batch script" 0);
  ("bash", mkLanguage "shell" "shell script" 0);
  ("blitzmax", mkLanguage "blitzmax" "BlitzMax" 0);
  ("boo", mkLanguage "boo" "Boo" 0);
  ("brainfuck", mkLanguage "brainfuck" "Brainfuck" 0);
  ("bfpp", mkLanguage "bfpp" "Brainfuck++" 0);
  ("c", mkLanguage "c" "C" 0);
  ("chaiscript", mkLanguage "chaiscript" "ChaiScript" 0);
  ("classic_basic", mkLanguage "classic_basic" "Classic Basic" 0);
  ("clearsilver", mkLanguage "clearsilver" "ClearSilver" 0);
  ("clearsilver_template", mkLanguage "clearsilver_template" "ClearSilver" 0);
  ("clojure", mkLanguage "clojure" "Clojure" 0);
  ("cmake", mkLanguage "cmake" "Cmake script" 2);
  ("coffescript", mkLanguage "coffeescript" "CoffeeScript" 0);
  ("coq", mkLanguage "coq" "Coq" 0);
  ("cpp", mkLanguage "cpp" "C++" 0);
  ("crystal", mkLanguage "crystal" "Crystal" 0);
  ("cs_aspx", mkLanguage "cs_aspx" "" 0);
  ("csharp", mkLanguage "csharp" "C#" 0);
  ("css", mkLanguage "css" "CSS" 1);
  ("cuda", mkLanguage "cuda" "CUDA" 0);
  ("dart", mkLanguage "dart" "Dart" 0);
  ("dcl", mkLanguage "dcl" "DCL" 0);
  ("dmd", mkLanguage "dmd" "D" 0);
  ("dtx", mkLanguage "tex_dtx" "DTX for TeX/LaTeX" 1);
  ("dylan", mkLanguage "dylan" "Dylan" 0);
  ("ebuild", mkLanguage "ebuild" "Ebuild" 0);
  ("ec", mkLanguage "ec" "eC" 0);
  ("eiffel", mkLanguage "eiffel" "Eiffel" 0);
  ("elm", mkLanguage "elm" "Elm" 0);
  ("emacslisp", mkLanguage "emacslisp" "Emacs lisp" 0);
  ("erlang", mkLanguage "erlang" "Erlang" 0);
  ("exheres", mkLanguage "exheres" "Exheres" 0);
  ("factor", mkLanguage "factor" "Factor" 0);
  ("forth", mkLanguage "forth" "Forth" 0);
  ("fortranfixed", mkLanguage "fortranfixed" "Fortan (Fixed-format)" 0);
  ("fortranfree", mkLanguage "fortranfree" "Fortan (Free-format)" 0);
  ("fsharp", mkLanguage "fsharp" "F#" 0);
  ("genie", mkLanguage "genie" "Genie" 0);
  ("glsl", mkLanguage "glsl" "OpenGL Shading Language" 0);
  ("golang", mkLanguage "golang" "Golang" 0);
  ("grace", mkLanguage "grace" "Grace" 0);
  ("groovy", mkLanguage "groovy" "Groovy" 0);
  ("haml", mkLanguage "haml" "Haml" 1);
  ("haskell", mkLanguage "haskell" "Haskell" 0);
  ("haxe", mkLanguage "haxe" "HaXe" 0);
  ("html", mkLanguage "html" "HTML" 1);
  ("idl_pvwave", mkLanguage "idl_pvwave" "IDL/PV-WAVE/GDL" 0);
  ("jam", mkLanguage "jam" "Jam" 2);
  ("java", mkLanguage "java" "Java" 0);
  ("javascript", mkLanguage "javascript" "JavaScript" 0);
  ("julia", mkLanguage "julia" "Julia" 0);
  ("jsp", mkLanguage "jsp" "" 0);
  ("kotlin", mkLanguage "kotlin" "Kotlin" 0);
  ("limbo", mkLanguage "limbo" "Limbo" 0);
  ("lisp", mkLanguage "lisp" "Lisp" 0);
  ("livecode", mkLanguage "livecode" "LiveCode" 0);
  ("logtalk", mkLanguage "logtalk" "Logtalk" 0);
  ("lua", mkLanguage "lua" "Lua" 0);
  ("make", mkLanguage "make" "Make" 2);
  ("mathematica", mkLanguage "mathematica" "Mathematica" 0);
  ("matlab", mkLanguage "matlab" "Matlab" 0);
  ("metafont", mkLanguage "metafont" "MetaFont" 1);
  ("metapost", mkLanguage "metapost" "MetaPost" 1);
  ("metapost_with_tex", mkLanguage "metapost_with_tex" "" 0);
  ("modelica", mkLanguage "modelica" "Modelica" 0);
  ("modula2", mkLanguage "modula2" "Modula-2" 0);
  ("modula3", mkLanguage "modula3" "Modula-3" 0);
  ("mxml", mkLanguage "mxml" "MXML" 1);
  ("nix", mkLanguage "nix" "Nix" 0);
  ("nsis", mkLanguage "nsis" "NSIS" 0);
  ("oberon", mkLanguage "oberon" "Oberon" 0);
  ("objective_c", mkLanguage "objective_c" "Objective-C" 0);
  ("objective_j", mkLanguage "objective_j" "Objective-J" 0);
  ("ocaml", mkLanguage "ocaml" "Objective Caml" 0);
  ("octave", mkLanguage "octave" "" 0);
  ("pascal", mkLanguage "pascal" "Pascal" 0);
  ("perl", mkLanguage "perl" "Perl" 0);
  ("php", mkLanguage "php" "PHP" 0);
  ("pike", mkLanguage "pike" "Pike" 0);
  ("postscript", mkLanguage "postscript" "PostScript" 1);
  ("powershell", mkLanguage "powershell" "PowerShell" 0);
  ("prolog", mkLanguage "prolog" "Prolog" 0);
  ("puppet", mkLanguage "puppet" "Puppet" 0);
  ("python", mkLanguage "python" "Python" 0);
  ("qml", mkLanguage "qml" "QML" 1);
  ("r", mkLanguage "r" "R" 0);
  ("racket", mkLanguage "racket" "Racket" 0);
  ("rebol", mkLanguage "rebol" "REBOL" 0);
  ("rexx", mkLanguage "rexx" "rexx" 0);
  ("rhtml", mkLanguage "rhtml" "" 0);
  ("ruby", mkLanguage "ruby" "Ruby" 0);
  ("rust", mkLanguage "rust" "Rust" 0);
  ("scala", mkLanguage "scala" "Scala" 0);
  ("scheme", mkLanguage "scheme" "Scheme" 0);
  ("scilab", mkLanguage "scilab" "Scilab" 0);
  ("shell", mkLanguage "shell" "shell script" 0);
  ("smalltalk", mkLanguage "smalltalk" "Smalltalk" 0);
  ("stratego", mkLanguage "stratego" "Stratego" 0);
  ("structured_basic", mkLanguage "structured_basic" "Structured Basic" 0);
  ("sql", mkLanguage "sql" "SQL" 0);
  ("swift", mkLanguage "swift" "Swift" 0);
  ("tcl", mkLanguage "tcl" "TCL" 0);
  ("tex", mkLanguage "tex" "TeX/LaTeX" 1);
  ("umple", mkLanguage "umple" "Umple" 0);
  ("unrealscript", mkLanguage "unrealscript" "UnrealScript" 0);
  ("typescript", mkLanguage "typescript" "TypeScript" 0);
  ("vala", mkLanguage "vala" "Vala" 0);
  ("vb_aspx", mkLanguage "vb_aspx" "" 0);
  ("vhdl", mkLanguage "vhdl" "VHDL" 0);
  ("vim", mkLanguage "vim" "Vim script" 0);
  ("visualbasic", mkLanguage "visualbasic" "Visual Basic" 0);
  ("xaml", mkLanguage "xaml" "XAML" 1);
  ("xml", mkLanguage "xml" "XML" 1);
  ("xslt", mkLanguage "xslt" "XSL Transformation" 0);
  ("xmlschema", mkLanguage "xmlschema" "XML Schema" 1)].

(** cppheaders.gperf:3-91 *)
Definition cppheaders : list (string * Z) := [
  ("algorithm", 1);
  ("array", 1);
  ("bitset", 1);
  ("cassert", 1);
  ("ccomplex", 1);
  ("cctype", 1);
  ("cerrno", 1);
  ("cfenv", 1);
  ("cfloat", 1);
  ("cinttypes", 1);
  ("ciso646", 1);
  ("climits", 1);
  ("clocale", 1);
  ("cmath", 1);
  ("csetjmp", 1);
  ("csignal", 1);
  ("cstdarg", 1);
  ("cstdbool", 1);
  ("cstddef", 1);
  ("cstdint", 1);
  ("cstdio", 1);
  ("cstdlib", 1);
  ("cstring", 1);
  ("ctgmath", 1);
  ("ctime", 1);
  ("cwchar", 1);
  ("cwctype", 1);
  ("deque", 1);
  ("exception", 1);
  ("fstream", 1);
  ("functional", 1);
  ("iomanip", 1);
  ("ios", 1);
  ("iosfwd", 1);
  ("iostream", 1);
  ("istream", 1);
  ("iterator", 1);
  ("limits", 1);
  ("list", 1);
  ("locale", 1);
  ("map", 1);
  ("memory", 1);
  ("new", 1);
  ("numeric", 1);
  ("ostream", 1);
  ("queue", 1);
  ("random", 1);
  ("regex", 1);
  ("set", 1);
  ("sstream", 1);
  ("stack", 1);
  ("stdexcept", 1);
  ("streambuf", 1);
  ("string", 1);
  ("system_error", 1);
  ("tuple", 1);
  ("type_traits", 1);
  ("typeinfo", 1);
  ("unordered_map", 1);
  ("unordered_set", 1);
  ("utility", 1);
  ("valarray", 1);
  ("vector", 1);
  ("tr1/array", 1);
  ("tr1/ccomplex", 1);
  ("tr1/cctype", 1);
  ("tr1/cfenv", 1);
  ("tr1/cfloat", 1);
  ("tr1/cinttypes", 1);
  ("tr1/climits", 1);
  ("tr1/cmath", 1);
  ("tr1/complex", 1);
  ("tr1/cstdarg", 1);
  ("tr1/cstdbool", 1);
  ("tr1/cstdint", 1);
  ("tr1/cstdio", 1);
  ("tr1/cstdlib", 1);
  ("tr1/ctgmath", 1);
  ("tr1/ctime", 1);
  ("tr1/cwchar", 1);
  ("tr1/cwctype", 1);
  ("tr1/memory", 1);
  ("tr1/random", 1);
  ("tr1/regex", 1);
  ("tr1/tuple", 1);
  ("tr1/type_traits", 1);
  ("tr1/unordered_map", 1);
  ("tr1/unordered_set", 1);
  ("tr1/utility", 1)].

(** The functions of detector.c named in disambiguatefuncs.gperf. *)
Inductive func := F_aspx | F_asx | F_b | F_basic | F_cs | F_dat | F_def | F_fortran | F_fs | F_h | F_in | F_inc | F_m | F_mod | F_pl | F_pp | F_pro | F_r | F_rs | F_st.

(** disambiguatefuncs.gperf:28-47 *)
Definition disambiguators : list (string * func) := [
  ("aspx", F_aspx);
  ("asx", F_asx);
  ("b", F_b);
  ("basic", F_basic);
  ("cs", F_cs);
  ("dat", F_dat);
  ("def", F_def);
  ("fortran", F_fortran);
  ("fs", F_fs);
  ("h", F_h);
  ("in", F_in);
  ("inc", F_inc);
  ("m", F_m);
  ("mod", F_mod);
  ("pl", F_pl);
  ("pp", F_pp);
  ("pro", F_pro);
  ("r", F_r);
  ("rs", F_rs);
  ("st", F_st)].

(** parsers.gperf:116-239: the languages that have a parser (the parsers themselves
    are in ParserTable). *)
Definition parser_names : list string := [
  "actionscript"; "ada"; "ampl"; "assembler"; "augeas"; "autoconf"; "automake"; "awk"; "bat"; "blitzmax"; "boo"; "brainfuck"; "bfpp"; "c"; "chaiscript"; "cmake"; "classic_basic"; "clearsilver"; "clearsilver_template"; "clojure"; "coffeescript"; "coq"; "crystal"; "cpp"; "cs_aspx"; "csharp"; "css"; "cuda"; "dart"; "dcl"; "dmd"; "dylan"; "ebuild"; "ec"; "eiffel"; "elm"; "erlang"; "exheres"; "emacslisp"; "factor"; "forth"; "fortranfixed"; "fortranfree"; "fsharp"; "genie"; "glsl"; "golang"; "grace"; "groovy"; "haskell"; "haml"; "haxe"; "html"; "idl_pvwave"; "jam"; "java"; "javascript"; "julia"; "jsp"; "kotlin"; "lisp"; "limbo"; "lisp"; "livecode"; "logtalk"; "lua"; "make"; "mathematica"; "matlab"; "metafont"; "metapost"; "metapost_with_tex"; "modelica"; "modula2"; "modula3"; "mxml"; "nix"; "nsis"; "oberon"; "objective_c"; "objective_j"; "ocaml"; "octave"; "pascal"; "perl"; "php"; "pike"; "postscript"; "powershell"; "prolog"; "puppet"; "python"; "qml"; "r"; "racket"; "rebol"; "rexx"; "rhtml"; "ruby"; "rust"; "scala"; "scheme"; "scilab"; "shell"; "smalltalk"; "stratego"; "structured_basic"; "sql"; "swift"; "tcl"; "tex"; "tex_dtx"; "umple"; "unrealscript"; "typescript"; "vala"; "vb_aspx"; "vhdl"; "vim"; "visualbasic"; "xaml"; "xml"; "xslt"; "xmlschema"].
