Actionscript
Ada
Ampl
Assembler
Augeas
Autoconf
Automake
Awk
Bat
Bfpp
Blitzmax
Boo
Brainfuck
C
Chaiscript
ClassicBasic
Clearsilver
Clearsilverhtml
Cmake
Coffeescript
Coq
Crystal
CsAspx
Css
D
Dart
Dcl
Dylan
Ebuild
Eiffel
Elm
Erlang
Exheres
Factor
Forth
Fortranfixed
Fortranfree
Fsharp
Glsl
Golang
Grace
Groovy
Haml
Haskell
Haxe
Html
IdlPvwave
Jam
Java
Javascript
Jsp
Julia
Kotlin
Limbo
Lisp
Livecode
Logtalk
Lua
Makefile
Mathematica
Matlab
Metafont
Metapost
MetapostWithTex
Modelica
Modula2
Modula3
Mxml
Nix
Nsis
Oberon
ObjectiveC
ObjectiveJ
Ocaml
Octave
Pascal
Perl
Php
Phphtml
Pike
Postscript
Powershell
Prolog
Puppet
Python
R
Rebol
Rexx
Rhtml
Ruby
Rust
Scala
Scilab
Shell
Smalltalk
Sql
Stratego
StructuredBasic
Swift
Tcl
Tex
TexDtx
Umple
Unrealscript
VbAspx
Vhdl
Vim
VisualBasic
Xaml
Xml
Xmlschema
Xslt