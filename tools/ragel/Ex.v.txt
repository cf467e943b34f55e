From Coq Require Import ZArith List Extraction ExtrOcamlBasic ExtrOcamlNatInt ExtrOcamlZInt ExtrOcamlString.
From Verif Require Import Base RagelSyntax RagelBuild RagelRun ParsedModel.
From Verif.Parsers Require Actionscript Ada Ampl Assembler Augeas Autoconf Automake Awk Bat Bfpp Blitzmax Boo Brainfuck C Chaiscript ClassicBasic Clearsilver Clearsilverhtml Cmake Coffeescript Coq Crystal CsAspx Css D Dart Dcl Dylan Ebuild Eiffel Elm Erlang Exheres Factor Forth Fortranfixed Fortranfree Fsharp Glsl Golang Grace Groovy Haml Haskell Haxe Html IdlPvwave Jam Java Javascript Jsp Julia Kotlin Limbo Lisp Livecode Logtalk Lua Makefile Mathematica Matlab Metafont Metapost MetapostWithTex Modelica Modula2 Modula3 Mxml Nix Nsis Oberon ObjectiveC ObjectiveJ Ocaml Octave Pascal Perl Php Phphtml Pike Postscript Powershell Prolog Puppet Python R Rebol Rexx Rhtml Ruby Rust Scala Scilab Shell Smalltalk Sql Stratego StructuredBasic Swift Tcl Tex TexDtx Umple Unrealscript VbAspx Vhdl Vim VisualBasic Xaml Xml Xmlschema Xslt.
Definition all := Actionscript.the_parser :: Ada.the_parser :: Ampl.the_parser :: Assembler.the_parser :: Augeas.the_parser :: Autoconf.the_parser :: Automake.the_parser :: Awk.the_parser :: Bat.the_parser :: Bfpp.the_parser :: Blitzmax.the_parser :: Boo.the_parser :: Brainfuck.the_parser :: C.the_parser :: Chaiscript.the_parser :: ClassicBasic.the_parser :: Clearsilver.the_parser :: Clearsilverhtml.the_parser :: Cmake.the_parser :: Coffeescript.the_parser :: Coq.the_parser :: Crystal.the_parser :: CsAspx.the_parser :: Css.the_parser :: D.the_parser :: Dart.the_parser :: Dcl.the_parser :: Dylan.the_parser :: Ebuild.the_parser :: Eiffel.the_parser :: Elm.the_parser :: Erlang.the_parser :: Exheres.the_parser :: Factor.the_parser :: Forth.the_parser :: Fortranfixed.the_parser :: Fortranfree.the_parser :: Fsharp.the_parser :: Glsl.the_parser :: Golang.the_parser :: Grace.the_parser :: Groovy.the_parser :: Haml.the_parser :: Haskell.the_parser :: Haxe.the_parser :: Html.the_parser :: IdlPvwave.the_parser :: Jam.the_parser :: Java.the_parser :: Javascript.the_parser :: Jsp.the_parser :: Julia.the_parser :: Kotlin.the_parser :: Limbo.the_parser :: Lisp.the_parser :: Livecode.the_parser :: Logtalk.the_parser :: Lua.the_parser :: Makefile.the_parser :: Mathematica.the_parser :: Matlab.the_parser :: Metafont.the_parser :: Metapost.the_parser :: MetapostWithTex.the_parser :: Modelica.the_parser :: Modula2.the_parser :: Modula3.the_parser :: Mxml.the_parser :: Nix.the_parser :: Nsis.the_parser :: Oberon.the_parser :: ObjectiveC.the_parser :: ObjectiveJ.the_parser :: Ocaml.the_parser :: Octave.the_parser :: Pascal.the_parser :: Perl.the_parser :: Php.the_parser :: Phphtml.the_parser :: Pike.the_parser :: Postscript.the_parser :: Powershell.the_parser :: Prolog.the_parser :: Puppet.the_parser :: Python.the_parser :: R.the_parser :: Rebol.the_parser :: Rexx.the_parser :: Rhtml.the_parser :: Ruby.the_parser :: Rust.the_parser :: Scala.the_parser :: Scilab.the_parser :: Shell.the_parser :: Smalltalk.the_parser :: Sql.the_parser :: Stratego.the_parser :: StructuredBasic.the_parser :: Swift.the_parser :: Tcl.the_parser :: Tex.the_parser :: TexDtx.the_parser :: Umple.the_parser :: Unrealscript.the_parser :: VbAspx.the_parser :: Vhdl.the_parser :: Vim.the_parser :: VisualBasic.the_parser :: Xaml.the_parser :: Xml.the_parser :: Xmlschema.the_parser :: Xslt.the_parser :: nil.
Extraction Language OCaml. Set Extraction Optimize. Extract Constant det_fuel => "1000000". Extraction "ex.ml" all compile parse.
