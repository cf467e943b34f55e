(** The parsers by language: hash/parsers.gperf and the parse functions it names, with the
    values of the language variables while the function runs (written by
    tools/ragel/table.py).  parse_cpp and the like set the variable, call another parse
    function and restore it; parse_cs_aspx does so around its own machine. *)
From Coq Require Import ZArith String List Bool.
From Verif Require Import Base ParsedModel RagelSyntax RagelBuild RagelRun.
From Verif.Parsers Require Actionscript Ada Ampl Assembler Augeas Autoconf Automake Awk Bat Bfpp Blitzmax Boo Brainfuck C Chaiscript ClassicBasic Clearsilver Clearsilverhtml Cmake Coffeescript Coq Crystal CsAspx Css D Dart Dcl Dylan Ebuild Eiffel Elm Erlang Exheres Factor Forth Fortranfixed Fortranfree Fsharp Glsl Golang Grace Groovy Haml Haskell Haxe Html IdlPvwave Jam Java Javascript Jsp Julia Kotlin Limbo Lisp Livecode Logtalk Lua Makefile Mathematica Matlab Metafont Metapost MetapostWithTex Modelica Modula2 Modula3 Mxml Nix Nsis Oberon ObjectiveC ObjectiveJ Ocaml Octave Pascal Perl Phphtml Pike Postscript Powershell Prolog Puppet Python R Rebol Rexx Rhtml Ruby Rust Scala Scilab Shell Smalltalk Sql Stratego StructuredBasic Swift Tcl Tex TexDtx Umple Unrealscript VbAspx Vhdl Vim VisualBasic Xaml Xml Xmlschema Xslt.
Import ListNotations.
Open Scope string_scope.
Open Scope Z_scope.
Open Scope list_scope.

(** An entry of the table: the machines for counting lines and for the entities. *)
Record entry := mkEntry { en_name : string; en_parser : parser; en_entities : parser;
                       en_vars : list (string * string) }.


Definition entries1 : list entry := [
  (* parsers.gperf:116, actionscript.rl:108-121 *) mkEntry "actionscript" Actionscript.the_parser Actionscript.the_entities [("AS_LANG", "actionscript")];
  (* parsers.gperf:120, augeas.rl:110-125 *) mkEntry "augeas" Augeas.the_parser Augeas.the_entities [("AUGEAS_LANG", "augeas")];
  (* parsers.gperf:124, bat.rl:85-98 *) mkEntry "bat" Bat.the_parser Bat.the_entities [("BAT_LANG", "bat")];
  (* parsers.gperf:128, bfpp.rl:108-121 *) mkEntry "bfpp" Bfpp.the_parser Bfpp.the_entities [("BFPP_LANG", "bfpp")];
  (* parsers.gperf:132, classic_basic.rl:86-99 *) mkEntry "classic_basic" ClassicBasic.the_parser ClassicBasic.the_entities [("CB_LANG", "classic_basic")];
  (* parsers.gperf:136, coffeescript.rl:153-166 *) mkEntry "coffeescript" Coffeescript.the_parser Coffeescript.the_entities [("COFFEESCRIPT_LANG", "coffeescript"); ("JS_LANG", "javascript")];
  (* parsers.gperf:140, cs_aspx.rl:218-236 *) mkEntry "cs_aspx" CsAspx.the_parser CsAspx.the_entities [("CS_ASPX_LANG", "html"); ("CSS_LANG", "css"); ("JS_LANG", "javascript"); ("C_LANG", "csharp")];
  (* parsers.gperf:144, dart.rl:101-114 *) mkEntry "dart" Dart.the_parser Dart.the_entities [("DART_LANG", "dart")];
  (* parsers.gperf:148, ebuild.rl:91-104 *) mkEntry "ebuild" Ebuild.the_parser Ebuild.the_entities [("EBUILD_LANG", "ebuild")];
  (* parsers.gperf:152, erlang.rl:91-104 *) mkEntry "erlang" Erlang.the_parser Erlang.the_entities [("ERLANG_LANG", "erlang")];
  (* parsers.gperf:156, forth.rl:100-113 *) mkEntry "forth" Forth.the_parser Forth.the_entities [("FORTH_LANG", "forth")];
  (* parsers.gperf:160, c.rl:215-223 *) mkEntry "genie" C.the_parser C.the_entities [("C_LANG", "genie")];
  (* parsers.gperf:164, groovy.rl:126-139 *) mkEntry "groovy" Groovy.the_parser Groovy.the_entities [("GROOVY_LANG", "groovy")];
  (* parsers.gperf:168, html.rl:164-177 *) mkEntry "html" Html.the_parser Html.the_entities [("HTML_LANG", "html"); ("CSS_LANG", "css"); ("JS_LANG", "javascript")];
  (* parsers.gperf:172, javascript.rl:122-135 *) mkEntry "javascript" Javascript.the_parser Javascript.the_entities [("JS_LANG", "javascript")];
  (* parsers.gperf:176, lisp.rl:113-126 *) mkEntry "lisp" Lisp.the_parser Lisp.the_entities [("LISP_LANG", "lisp")];
  (* parsers.gperf:180, logtalk.rl:102-115 *) mkEntry "logtalk" Logtalk.the_parser Logtalk.the_entities [("LOGTALK_LANG", "logtalk")];
  (* parsers.gperf:184, matlab.rl:106-119 *) mkEntry "matlab" Matlab.the_parser Matlab.the_entities [("MATLAB_LANG", "matlab")];
  (* parsers.gperf:188, modelica.rl:117-129 *) mkEntry "modelica" Modelica.the_parser Modelica.the_entities [("MODELICA_LANG", "modelica")];
  (* parsers.gperf:192, nix.rl:160-173 *) mkEntry "nix" Nix.the_parser Nix.the_entities [("NIX_LANG", "nix"); ("SHELL_LANG", "shell")];
  (* parsers.gperf:196, objective_j.rl:109-122 *) mkEntry "objective_j" ObjectiveJ.the_parser ObjectiveJ.the_entities [("OBJJ_LANG", "objective_j")];
  (* parsers.gperf:200, perl.rl:138-151 *) mkEntry "perl" Perl.the_parser Perl.the_entities [("PERL_LANG", "perl")];
  (* parsers.gperf:204, powershell.rl:122-135 *) mkEntry "powershell" Powershell.the_parser Powershell.the_entities [("POWERSHELL_LANG", "powershell")];
  (* parsers.gperf:208, javascript.rl:141-149 *) mkEntry "qml" Javascript.the_parser Javascript.the_entities [("JS_LANG", "qml")];
  (* parsers.gperf:212, rexx.rl:111-126 *) mkEntry "rexx" Rexx.the_parser Rexx.the_entities [("REXX_LANG", "rexx")];
  (* parsers.gperf:216, scala.rl:101-114 *) mkEntry "scala" Scala.the_parser Scala.the_entities [("SCALA_LANG", "scala")];
  (* parsers.gperf:220, smalltalk.rl:96-109 *) mkEntry "smalltalk" Smalltalk.the_parser Smalltalk.the_entities [("SMALLTALK_LANG", "smalltalk")];
  (* parsers.gperf:224, swift.rl:98-111 *) mkEntry "swift" Swift.the_parser Swift.the_entities [("SWIFT_LANG", "swift")];
  (* parsers.gperf:228, umple.rl:103-116 *) mkEntry "umple" Umple.the_parser Umple.the_entities [("UMPLE_LANG", "umple")];
  (* parsers.gperf:232, vb_aspx.rl:218-233 *) mkEntry "vb_aspx" VbAspx.the_parser VbAspx.the_entities [("VB_ASPX_LANG", "html"); ("CSS_LANG", "css"); ("JS_LANG", "javascript"); ("VB_LANG", "visualbasic")];
  (* parsers.gperf:236, xaml.rl:108-121 *) mkEntry "xaml" Xaml.the_parser Xaml.the_entities [("XAML_LANG", "xaml")]].

Definition entries2 : list entry := [
  (* parsers.gperf:117, ada.rl:88-101 *) mkEntry "ada" Ada.the_parser Ada.the_entities [("ADA_LANG", "ada")];
  (* parsers.gperf:121, autoconf.rl:103-118 *) mkEntry "autoconf" Autoconf.the_parser Autoconf.the_entities [("AC_LANG", "autoconf")];
  (* parsers.gperf:125, blitzmax.rl:109-122 *) mkEntry "blitzmax" Blitzmax.the_parser Blitzmax.the_entities [("BLITZMAX_LANG", "blitzmax")];
  (* parsers.gperf:129, c.rl:165-178 *) mkEntry "c" C.the_parser C.the_entities [("C_LANG", "c")];
  (* parsers.gperf:133, clearsilver.rl:88-101 *) mkEntry "clearsilver" Clearsilver.the_parser Clearsilver.the_entities [("CS_LANG", "clearsilver")];
  (* parsers.gperf:137, coq.rl:116-131 *) mkEntry "coq" Coq.the_parser Coq.the_entities [("COQ_LANG", "coq")];
  (* parsers.gperf:141, c.rl:193-201 *) mkEntry "csharp" C.the_parser C.the_entities [("C_LANG", "csharp")];
  (* parsers.gperf:145, dcl.rl:90-103 *) mkEntry "dcl" Dcl.the_parser Dcl.the_entities [("DCL_LANG", "dcl")];
  (* parsers.gperf:149, c.rl:237-245 *) mkEntry "ec" C.the_parser C.the_entities [("C_LANG", "ec")];
  (* parsers.gperf:153, exheres.rl:91-104 *) mkEntry "exheres" Exheres.the_parser Exheres.the_entities [("EXHERES_LANG", "exheres")];
  (* parsers.gperf:157, fortranfixed.rl:89-102 *) mkEntry "fortranfixed" Fortranfixed.the_parser Fortranfixed.the_entities [("FORTRANFIXED_LANG", "fortranfixed")];
  (* parsers.gperf:161, glsl.rl:168-181 *) mkEntry "glsl" Glsl.the_parser Glsl.the_entities [("GLSL_LANG", "glsl")];
  (* parsers.gperf:165, haskell.rl:127-142 *) mkEntry "haskell" Haskell.the_parser Haskell.the_entities [("HASKELL_LANG", "haskell")];
  (* parsers.gperf:169, idl_pvwave.rl:86-98 *) mkEntry "idl_pvwave" IdlPvwave.the_parser IdlPvwave.the_entities [("IDL_PVWAVE_LANG", "idl_pvwave")];
  (* parsers.gperf:173, julia.rl:123-136 *) mkEntry "julia" Julia.the_parser Julia.the_entities [("JULIA_LANG", "julia")];
  (* parsers.gperf:177, limbo.rl:129-142 *) mkEntry "limbo" Limbo.the_parser Limbo.the_entities [("LIMBO_LANG", "limbo")];
  (* parsers.gperf:181, lua.rl:153-168 *) mkEntry "lua" Lua.the_parser Lua.the_entities [("LUA_LANG", "lua")];
  (* parsers.gperf:185, metafont.rl:89-102 *) mkEntry "metafont" Metafont.the_parser Metafont.the_entities [("METAFONT_LANG", "metafont")];
  (* parsers.gperf:189, modula2.rl:128-143 *) mkEntry "modula2" Modula2.the_parser Modula2.the_entities [("MODULA2_LANG", "modula2")];
  (* parsers.gperf:193, nsis.rl:102-115 *) mkEntry "nsis" Nsis.the_parser Nsis.the_entities [("NSIS_LANG", "nsis")];
  (* parsers.gperf:197, ocaml.rl:109-124 *) mkEntry "ocaml" Ocaml.the_parser Ocaml.the_entities [("OCAML_LANG", "ocaml")];
  (* parsers.gperf:201, phphtml.rl:219-234 *) mkEntry "php" Phphtml.the_parser Phphtml.the_entities [("PHTML_LANG", "html"); ("CSS_LANG", "css"); ("JS_LANG", "javascript"); ("PHP_LANG", "php")];
  (* parsers.gperf:205, prolog.rl:102-115 *) mkEntry "prolog" Prolog.the_parser Prolog.the_entities [("PROLOG_LANG", "prolog")];
  (* parsers.gperf:209, r.rl:92-105 *) mkEntry "r" R.the_parser R.the_entities [("R_LANG", "r")];
  (* parsers.gperf:213, rhtml.rl:219-234 *) mkEntry "rhtml" Rhtml.the_parser Rhtml.the_entities [("RHTML_LANG", "html"); ("CSS_LANG", "css"); ("JS_LANG", "javascript"); ("RUBY_LANG", "ruby")];
  (* parsers.gperf:217, lisp.rl:141-149 *) mkEntry "scheme" Lisp.the_parser Lisp.the_entities [("LISP_LANG", "scheme")];
  (* parsers.gperf:221, stratego.rl:127-140 *) mkEntry "stratego" Stratego.the_parser Stratego.the_entities [("STRATEGO_LANG", "stratego")];
  (* parsers.gperf:225, tcl.rl:104-117 *) mkEntry "tcl" Tcl.the_parser Tcl.the_entities [("TCL_LANG", "tcl")];
  (* parsers.gperf:229, unrealscript.rl:119-132 *) mkEntry "unrealscript" Unrealscript.the_parser Unrealscript.the_entities [("UNREALSCRIPT_LANG", "unrealscript")];
  (* parsers.gperf:233, vhdl.rl:90-103 *) mkEntry "vhdl" Vhdl.the_parser Vhdl.the_entities [("VHDL_LANG", "vhdl")];
  (* parsers.gperf:237, xml.rl:110-123 *) mkEntry "xml" Xml.the_parser Xml.the_entities [("XML_LANG", "xml")]].

Definition entries3 : list entry := [
  (* parsers.gperf:118, ampl.rl:96-109 *) mkEntry "ampl" Ampl.the_parser Ampl.the_entities [("AMPL_LANG", "ampl")];
  (* parsers.gperf:122, automake.rl:90-103 *) mkEntry "automake" Automake.the_parser Automake.the_entities [("AM_LANG", "automake")];
  (* parsers.gperf:126, boo.rl:126-141 *) mkEntry "boo" Boo.the_parser Boo.the_entities [("BOO_LANG", "boo")];
  (* parsers.gperf:130, chaiscript.rl:123-136 *) mkEntry "chaiscript" Chaiscript.the_parser Chaiscript.the_entities [("CHAI_LANG", "chaiscript")];
  (* parsers.gperf:134, clearsilverhtml.rl:220-235 *) mkEntry "clearsilver_template" Clearsilverhtml.the_parser Clearsilverhtml.the_entities [("CSHTML_LANG", "html"); ("CSS_LANG", "css"); ("JS_LANG", "javascript"); ("CS_LANG", "clearsilver")];
  (* parsers.gperf:138, crystal.rl:160-173 *) mkEntry "crystal" Crystal.the_parser Crystal.the_entities [("CRYSTAL_LANG", "crystal")];
  (* parsers.gperf:142, css.rl:117-130 *) mkEntry "css" Css.the_parser Css.the_entities [("CSS_LANG", "css")];
  (* parsers.gperf:146, d.rl:160-175 *) mkEntry "dmd" D.the_parser D.the_entities [("D_LANG", "dmd")];
  (* parsers.gperf:150, eiffel.rl:87-100 *) mkEntry "eiffel" Eiffel.the_parser Eiffel.the_entities [("EIFFEL_LANG", "eiffel")];
  (* parsers.gperf:154, lisp.rl:130-138 *) mkEntry "emacslisp" Lisp.the_parser Lisp.the_entities [("LISP_LANG", "emacslisp")];
  (* parsers.gperf:158, fortranfree.rl:103-116 *) mkEntry "fortranfree" Fortranfree.the_parser Fortranfree.the_entities [("FORTRANFREE_LANG", "fortranfree")];
  (* parsers.gperf:162, golang.rl:165-178 *) mkEntry "golang" Golang.the_parser Golang.the_entities [("GOLANG_LANG", "golang")];
  (* parsers.gperf:166, haml.rl:198-215 *) mkEntry "haml" Haml.the_parser Haml.the_entities [("HAML_LANG", "haml"); ("RUBY_LANG", "ruby")];
  (* parsers.gperf:170, jam.rl:109-122 *) mkEntry "jam" Jam.the_parser Jam.the_entities [("JAM_LANG", "jam")];
  (* parsers.gperf:174, jsp.rl:219-234 *) mkEntry "jsp" Jsp.the_parser Jsp.the_entities [("JSP_LANG", "html"); ("CSS_LANG", "css"); ("JS_LANG", "javascript"); ("JAVA_LANG", "java")];
  (* parsers.gperf:178, lisp.rl:113-126 *) mkEntry "lisp" Lisp.the_parser Lisp.the_entities [("LISP_LANG", "lisp")];
  (* parsers.gperf:182, makefile.rl:90-103 *) mkEntry "make" Makefile.the_parser Makefile.the_entities [("MAKE_LANG", "make")];
  (* parsers.gperf:186, metapost.rl:89-102 *) mkEntry "metapost" Metapost.the_parser Metapost.the_entities [("METAPOST_LANG", "metapost")];
  (* parsers.gperf:190, modula3.rl:146-161 *) mkEntry "modula3" Modula3.the_parser Modula3.the_entities [("MODULA3_LANG", "modula3")];
  (* parsers.gperf:194, oberon.rl:128-143 *) mkEntry "oberon" Oberon.the_parser Oberon.the_entities [("OBERON_LANG", "oberon")];
  (* parsers.gperf:198, octave.rl:106-119 *) mkEntry "octave" Octave.the_parser Octave.the_entities [("OCTAVE_LANG", "octave")];
  (* parsers.gperf:202, pike.rl:101-114 *) mkEntry "pike" Pike.the_parser Pike.the_entities [("PIKE_LANG", "pike")];
  (* parsers.gperf:206, puppet.rl:111-124 *) mkEntry "puppet" Puppet.the_parser Puppet.the_entities [("PUPPET_LANG", "puppet")];
  (* parsers.gperf:210, lisp.rl:163-171 *) mkEntry "racket" Lisp.the_parser Lisp.the_entities [("LISP_LANG", "racket")];
  (* parsers.gperf:214, ruby.rl:170-183 *) mkEntry "ruby" Ruby.the_parser Ruby.the_entities [("RUBY_LANG", "ruby")];
  (* parsers.gperf:218, scilab.rl:93-106 *) mkEntry "scilab" Scilab.the_parser Scilab.the_entities [("SCILAB_LANG", "scilab")];
  (* parsers.gperf:222, structured_basic.rl:86-100 *) mkEntry "structured_basic" StructuredBasic.the_parser StructuredBasic.the_entities [("SB_LANG", "structured_basic")];
  (* parsers.gperf:226, tex.rl:85-98 *) mkEntry "tex" Tex.the_parser Tex.the_entities [("TEX_LANG", "tex")];
  (* parsers.gperf:230, javascript.rl:151-159 *) mkEntry "typescript" Javascript.the_parser Javascript.the_entities [("JS_LANG", "typescript")];
  (* parsers.gperf:234, vim.rl:85-98 *) mkEntry "vim" Vim.the_parser Vim.the_entities [("VIM_LANG", "vim")];
  (* parsers.gperf:238, xslt.rl:110-123 *) mkEntry "xslt" Xslt.the_parser Xslt.the_entities [("XSLT_LANG", "xslt")]].

Definition entries4 : list entry := [
  (* parsers.gperf:119, assembler.rl:101-114 *) mkEntry "assembler" Assembler.the_parser Assembler.the_entities [("ASM_LANG", "assembler")];
  (* parsers.gperf:123, awk.rl:90-103 *) mkEntry "awk" Awk.the_parser Awk.the_entities [("AWK_LANG", "awk")];
  (* parsers.gperf:127, brainfuck.rl:89-102 *) mkEntry "brainfuck" Brainfuck.the_parser Brainfuck.the_entities [("BRAINFUCK_LANG", "brainfuck")];
  (* parsers.gperf:131, cmake.rl:108-121 *) mkEntry "cmake" Cmake.the_parser Cmake.the_entities [("CMAKE_LANG", "cmake")];
  (* parsers.gperf:135, lisp.rl:152-160 *) mkEntry "clojure" Lisp.the_parser Lisp.the_entities [("LISP_LANG", "clojure")];
  (* parsers.gperf:139, c.rl:182-190 *) mkEntry "cpp" C.the_parser C.the_entities [("C_LANG", "cpp")];
  (* parsers.gperf:143, c.rl:226-234 *) mkEntry "cuda" C.the_parser C.the_entities [("C_LANG", "cuda")];
  (* parsers.gperf:147, dylan.rl:101-114 *) mkEntry "dylan" Dylan.the_parser Dylan.the_entities [("DYLAN_LANG", "dylan")];
  (* parsers.gperf:151, elm.rl:127-142 *) mkEntry "elm" Elm.the_parser Elm.the_entities [("ELM_LANG", "elm")];
  (* parsers.gperf:155, factor.rl:90-103 *) mkEntry "factor" Factor.the_parser Factor.the_entities [("FACTOR_LANG", "factor")];
  (* parsers.gperf:159, fsharp.rl:166-179 *) mkEntry "fsharp" Fsharp.the_parser Fsharp.the_entities [("FSHARP_LANG", "fsharp")];
  (* parsers.gperf:163, grace.rl:96-109 *) mkEntry "grace" Grace.the_parser Grace.the_entities [("GRACE_LANG", "grace")];
  (* parsers.gperf:167, haxe.rl:108-121 *) mkEntry "haxe" Haxe.the_parser Haxe.the_entities [("HX_LANG", "haxe")];
  (* parsers.gperf:171, java.rl:103-116 *) mkEntry "java" Java.the_parser Java.the_entities [("JAVA_LANG", "java")];
  (* parsers.gperf:175, kotlin.rl:156-171 *) mkEntry "kotlin" Kotlin.the_parser Kotlin.the_entities [("KOTLIN_LANG", "kotlin")];
  (* parsers.gperf:179, livecode.rl:100-113 *) mkEntry "livecode" Livecode.the_parser Livecode.the_entities [("LIVECODE_LANG", "livecode")];
  (* parsers.gperf:183, mathematica.rl:112-127 *) mkEntry "mathematica" Mathematica.the_parser Mathematica.the_entities [("MATHEMATICA_LANG", "mathematica")];
  (* parsers.gperf:187, metapost_with_tex.rl:123-136 *) mkEntry "metapost_with_tex" MetapostWithTex.the_parser MetapostWithTex.the_entities [("MPTEX_LANG", "metapost"); ("TEX_LANG", "tex")];
  (* parsers.gperf:191, mxml.rl:182-195 *) mkEntry "mxml" Mxml.the_parser Mxml.the_entities [("MXML_LANG", "mxml"); ("CSS_LANG", "css"); ("AS_LANG", "actionscript")];
  (* parsers.gperf:195, objective_c.rl:108-121 *) mkEntry "objective_c" ObjectiveC.the_parser ObjectiveC.the_entities [("OBJC_LANG", "objective_c")];
  (* parsers.gperf:199, pascal.rl:120-133 *) mkEntry "pascal" Pascal.the_parser Pascal.the_entities [("PASCAL_LANG", "pascal")];
  (* parsers.gperf:203, postscript.rl:87-100 *) mkEntry "postscript" Postscript.the_parser Postscript.the_entities [("POSTSCRIPT_LANG", "postscript")];
  (* parsers.gperf:207, python.rl:127-140 *) mkEntry "python" Python.the_parser Python.the_entities [("PYTHON_LANG", "python")];
  (* parsers.gperf:211, rebol.rl:107-122 *) mkEntry "rebol" Rebol.the_parser Rebol.the_entities [("REBOL_LANG", "rebol")];
  (* parsers.gperf:215, rust.rl:155-168 *) mkEntry "rust" Rust.the_parser Rust.the_entities [("RUST_LANG", "rust")];
  (* parsers.gperf:219, shell.rl:113-126 *) mkEntry "shell" Shell.the_parser Shell.the_entities [("SHELL_LANG", "shell")];
  (* parsers.gperf:223, sql.rl:111-124 *) mkEntry "sql" Sql.the_parser Sql.the_entities [("SQL_LANG", "sql")];
  (* parsers.gperf:227, tex_dtx.rl:86-99 *) mkEntry "tex_dtx" TexDtx.the_parser TexDtx.the_entities [("TEX_DTX_LANG", "tex_dtx")];
  (* parsers.gperf:231, c.rl:204-212 *) mkEntry "vala" C.the_parser C.the_entities [("C_LANG", "vala")];
  (* parsers.gperf:235, visual_basic.rl:88-101 *) mkEntry "visualbasic" VisualBasic.the_parser VisualBasic.the_entities [("VB_LANG", "visualbasic")];
  (* parsers.gperf:239, xmlschema.rl:112-125 *) mkEntry "xmlschema" Xmlschema.the_parser Xmlschema.the_entities [("XMLSCHEMA_LANG", "xmlschema")]].

Definition entries : list entry := entries1 ++ entries2 ++ entries3 ++ entries4.

(** The value of a language variable. *)
Fixpoint value (vs : list (string * string)) (v : string) : string :=
  match vs with
  | [] => v
  | (w, x) :: r => if String.eqb v w then x else value r v
  end.

Definition rename (vs : list (string * string)) (e : event) : event :=
  mkEvent (value vs (e_lang e)) (e_entity e) (e_start e) (e_end e).

(** parse_xxx(buffer, length, 1, callback, userdata): the callbacks made.  [None]: the
    machine has no meaning (this does not happen). *)
Definition run_entry (en : entry) (text : list Z) (fuel : nat) : option (res (list event)) :=
  match compile (en_parser en) with
  | Some m => Some (es <- parse m text fuel ;; Ok (map (rename (en_vars en)) es))
  | None => None
  end.

(** parse_xxx(buffer, length, 0, callback, userdata). *)
Definition run_entities (en : entry) (text : list Z) (fuel : nat) : option (res (list event)) :=
  match compile (en_entities en) with
  | Some m => Some (es <- parse_entities m text fuel ;; Ok (map (rename (en_vars en)) es))
  | None => None
  end.

(** ohcount_hash_parser_from_language (generated from hash/parsers.gperf): the entry
    with the name. *)
Definition find_entry (name : string) : option entry :=
  find (fun en => String.eqb name (en_name en)) entries.

(** parser.c:12-29 ohcount_parse with count 1: [None] when it returns 0. *)
Definition ohcount_parse (language : option string) (text : list Z) (fuel : nat)
  : option (res (list event)) :=
  match language with
  | Some name => match find_entry name with
                 | Some en => run_entry en text fuel
                 | None => None
                 end
  | None => None
  end.

(** parser.c:12-29 ohcount_parse with count 0 (-re). *)
Definition ohcount_parse_entities (language : option string) (text : list Z) (fuel : nat)
  : option (res (list event)) :=
  match language with
  | Some name => match find_entry name with
                 | Some en => run_entities en text fuel
                 | None => None
                 end
  | None => None
  end.
