-Q theories Verif
theories/Base.v
theories/LocModel.v
theories/HeapProofs.v
theories/LocSpec.v
theories/LocProofs.v
theories/DeltaProofs.v
theories/PropertiesLoc.v
theories/Arr.v
theories/DiffSpec.v
theories/DiffModel.v
theories/DiffSortProofs.v
theories/DiffStoneProofs.v
theories/DiffProofs.v
theories/DiffEquivProofs.v
theories/DiffLcsProofs.v
theories/DiffOutProofs.v
theories/DiffMainProofs.v
theories/PropertiesDiff.v
theories/ParsedModel.v
theories/ParsedSpec.v
theories/ParsedProofs.v
theories/PropertiesParsed.v
theories/PathModel.v
theories/PropertiesPath.v
theories/FileDiffModel.v
theories/FileDiffSpec.v
theories/FileDiffProofs.v
theories/PropertiesFileDiff.v
theories/ReportModel.v
theories/ReportSpec.v
theories/ReportProofs.v
theories/PropertiesReport.v
theories/DirModel.v
theories/DirSpec.v
theories/PropertiesDir.v
theories/SourceFileModel.v
theories/PropertiesSourceFile.v
theories/RagelSyntax.v
theories/RagelBuild.v
theories/RagelRun.v
theories/Parsers/Common.v
theories/Parsers/Actionscript.v
theories/Parsers/Ada.v
theories/Parsers/Ampl.v
theories/Parsers/Assembler.v
theories/Parsers/Augeas.v
theories/Parsers/Autoconf.v
theories/Parsers/Automake.v
theories/Parsers/Awk.v
theories/Parsers/Bat.v
theories/Parsers/Bfpp.v
theories/Parsers/Blitzmax.v
theories/Parsers/Boo.v
theories/Parsers/Brainfuck.v
theories/Parsers/C.v
theories/Parsers/Chaiscript.v
theories/Parsers/ClassicBasic.v
theories/Parsers/Clearsilver.v
theories/Parsers/Css.v
theories/Parsers/Javascript.v
theories/Parsers/Clearsilverhtml.v
theories/Parsers/Cmake.v
theories/Parsers/Coffeescript.v
theories/Parsers/Coq.v
theories/Parsers/Crystal.v
theories/Parsers/CsAspx.v
theories/Parsers/D.v
theories/Parsers/Dart.v
theories/Parsers/Dcl.v
theories/Parsers/Dylan.v
theories/Parsers/Ebuild.v
theories/Parsers/Eiffel.v
theories/Parsers/Elm.v
theories/Parsers/Erlang.v
theories/Parsers/Exheres.v
theories/Parsers/Factor.v
theories/Parsers/Forth.v
theories/Parsers/Fortranfixed.v
theories/Parsers/Fortranfree.v
theories/Parsers/Fsharp.v
theories/Parsers/Glsl.v
theories/Parsers/Golang.v
theories/Parsers/Grace.v
theories/Parsers/Groovy.v
theories/Parsers/Ruby.v
theories/Parsers/Haml.v
theories/Parsers/Haskell.v
theories/Parsers/Haxe.v
theories/Parsers/Html.v
theories/Parsers/IdlPvwave.v
theories/Parsers/Jam.v
theories/Parsers/Java.v
theories/Parsers/Jsp.v
theories/Parsers/Julia.v
theories/Parsers/Kotlin.v
theories/Parsers/Limbo.v
theories/Parsers/Lisp.v
theories/Parsers/Livecode.v
theories/Parsers/Logtalk.v
theories/Parsers/Lua.v
theories/Parsers/Makefile.v
theories/Parsers/Mathematica.v
theories/Parsers/Matlab.v
theories/Parsers/Metafont.v
theories/Parsers/Metapost.v
theories/Parsers/Tex.v
theories/Parsers/MetapostWithTex.v
theories/Parsers/Modelica.v
theories/Parsers/Modula2.v
theories/Parsers/Modula3.v
theories/Parsers/Mxml.v
theories/Parsers/Shell.v
theories/Parsers/Nix.v
theories/Parsers/Nsis.v
theories/Parsers/Oberon.v
theories/Parsers/ObjectiveC.v
theories/Parsers/ObjectiveJ.v
theories/Parsers/Ocaml.v
theories/Parsers/Octave.v
theories/Parsers/Pascal.v
theories/Parsers/Perl.v
theories/Parsers/Php.v
theories/Parsers/Phphtml.v
theories/Parsers/Pike.v
theories/Parsers/Postscript.v
theories/Parsers/Powershell.v
theories/Parsers/Prolog.v
theories/Parsers/Puppet.v
theories/Parsers/Python.v
theories/Parsers/R.v
theories/Parsers/Rebol.v
theories/Parsers/Rexx.v
theories/Parsers/Rhtml.v
theories/Parsers/Rust.v
theories/Parsers/Scala.v
theories/Parsers/Scilab.v
theories/Parsers/Smalltalk.v
theories/Parsers/Sql.v
theories/Parsers/Stratego.v
theories/Parsers/StructuredBasic.v
theories/Parsers/Swift.v
theories/Parsers/Tcl.v
theories/Parsers/TexDtx.v
theories/Parsers/Umple.v
theories/Parsers/Unrealscript.v
theories/Parsers/VisualBasic.v
theories/Parsers/VbAspx.v
theories/Parsers/Vhdl.v
theories/Parsers/Vim.v
theories/Parsers/Xaml.v
theories/Parsers/Xml.v
theories/Parsers/Xmlschema.v
theories/Parsers/Xslt.v
theories/Rows.v
theories/ScanCheck.v
theories/ScanProofs.v
theories/ParserTable.v
theories/Checked.v
theories/ScanCert.v
theories/ScanSpec.v
theories/ScanCerts1.v
theories/ScanCerts2.v
theories/ScanCerts3.v
theories/ScanCerts4.v
theories/PropertiesScan.v
theories/TailCheck.v
theories/TailProofs.v
theories/PropertiesTail.v
theories/OpenComments.v
theories/PropertiesOpen.v
theories/LineSpec.v
theories/LineCheck.v
theories/LineProofs.v
theories/LineCerts.v
theories/PropertiesLines.v
theories/LexSpec.v
theories/LexCheck.v
theories/LexFacts.v
theories/LexProofs.v
theories/LexBytes.v
theories/LexTable.v
theories/LexCerts.v
theories/LexLines.v
theories/LexHeads.v
theories/PropertiesLex.v
theories/StopProofs.v
theories/PropertiesStop.v
theories/QueueSpec.v
theories/PropertiesQueue.v
theories/Tables.v
theories/TablesSpec.v
theories/PropertiesTables.v
theories/DetectorModel.v
theories/DetectorSpec.v
theories/DetectorProofs.v
theories/DisambProofs.v
theories/DisambProofs2.v
theories/DisambProofs3.v
theories/DisambProofs4.v
theories/DisambProofs5.v
theories/DisambProofs6.v
theories/DisambProofs7.v
theories/DetectProofs.v
theories/DetectProofs2.v
theories/PropertiesDisamb.v
theories/DisambSpec2.v
theories/DisambProofs8.v
theories/DisambProofs9.v
theories/PropertiesDisamb2.v
theories/PropertiesDetect.v
theories/RegexModel.v
theories/RegexSpec.v
theories/RegexProofs.v
theories/RegexProofs2.v
theories/RegexSyntax.v
theories/RegexProofs3.v
theories/LicenseTable.v
theories/LicenseModel.v
theories/LicenseSpec.v
theories/LicenseProofs.v
theories/LicenseProofs2.v
theories/LicenseProofs3.v
theories/PropertiesLicense.v
theories/PropertiesRegex.v
theories/RecordSpec.v
theories/RecordProofs.v
theories/ToolModel.v
theories/ToolSpec.v
theories/ToolProofs.v
theories/PropertiesTool.v
theories/EntitySpec.v
theories/EntityCheck.v
theories/EntityProofs.v
theories/EntityCert.v
theories/PropertiesEntity.v
theories/PropertiesAny.v
theories/MemModel.v
theories/MemLogic.v
theories/MemLists.v
theories/MemSort.v
theories/MemFiles.v
theories/MemParse.v
theories/MemSpec.v
theories/MemClient.v
theories/MemCalls.v
theories/MemRun.v
theories/MemTool.v
theories/PropertiesMem.v
theories/PropertiesToolMem.v
theories/ProcessModel.v
theories/ProcessProofs.v
theories/PropertiesProcess.v
theories/PrintModel.v
theories/PrintSpec.v
theories/PrintProofs.v
theories/PropertiesPrint.v
theories/GestaltRules.v
theories/GestaltTable.v
theories/GestaltModel.v
theories/GestaltSpec.v
theories/GestaltProofs.v
theories/GestaltStore.v
theories/GestaltProofs2.v
theories/GestaltProofs3.v
theories/PropertiesGestalt.v
theories/BindingModel.v
theories/BindingSpec.v
theories/BindingProofs.v
theories/PropertiesBinding.v
theories/GestaltOutModel.v
theories/GestaltOutProofs.v
theories/PropertiesGestaltOut.v
theories/PropertiesHash.v
theories/LexConcat.v
theories/PropertiesConcat.v
theories/LexEnds.v
theories/PropertiesEnds.v
theories/LexSpaces.v
theories/PropertiesSpaces.v
theories/PropertiesEmpty.v
theories/LexFinal.v
theories/PropertiesFinal.v
theories/LexIndent.v
theories/PropertiesIndent.v
theories/PropertiesMisread.v
theories/PropertiesOrder.v
theories/PropertiesLayout.v
theories/PropertiesSlash.v
