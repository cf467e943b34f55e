(** The definitions of platforms and tools: ruby/gestalt/definitions.rb,
    dot_net_definitions.rb, java_definitions.rb, jasper_definitions.rb, in the order in which
    ruby/gestalt.rb:12-15 loads them (written by tools/gestalt.py; the numbers are lines). *)
From Coq Require Import String List ZArith.
From Verif Require Import GestaltRules.
Import ListNotations.
Open Scope string_scope.
Open Scope Z_scope.
Open Scope list_scope.

Definition all_definitions : list (definition file_rule) := [
  (* definitions.rb *)
  (* 16 *) mkDef "platform" "posix" (Or [Leaf (mkFileRule (CHeaders ["pthread.h"; "xstrtol.h"; "xreadlink.h"; "fatal-signal.h"; "diacrit.h"; "syslog.h"; "sys/stat.h"]) 1); Lang "autoconf" 0]);
  (* 24 *) mkDef "platform" "win32" (Or [Leaf (mkFileRule (CHeaders ["windows.h"]) 1); Leaf (mkFileRule (CKeywords ["WM_PAINT"; "ReleaseDC"; "WndProc"]) 2)]);
  (* 29 *) mkDef "platform" "visualbasic" (Or [Lang "visualbasic" 5]);
  (* 33 *) mkDef "platform" "ruby" (Or [Lang "ruby" 15]);
  (* 37 *) mkDef "platform" "rails" (Or [And [Gest "platform" "ruby"; Leaf (mkFileRule (Keywords (Some "ruby") ["RAILS_ROOT"]) 1)]]);
  (* 44 *) mkDef "platform" "java" (Or [Lang "java" 15]);
  (* 48 *) mkDef "platform" "javascript" (Or [Lang "javascript" 20]);
  (* 52 *) mkDef "platform" "jquery" (Or [Leaf (mkFileRule (Filenames ["jquery-\d.\d.\d.min.js$"]) 1)]);
  (* 56 *) mkDef "platform" "mootools" (Or [Leaf (mkFileRule (Filenames ["\bmootools-\d(\.\d)*(-core)?(-..)?\.js$"]) 1)]);
  (* 60 *) mkDef "platform" "prototype" (Or [Leaf (mkFileRule (Filenames ["\bprototype(-\d+(\.\d)+)?.js$"]) 1)]);
  (* 64 *) mkDef "platform" "yui" (Or [Or [Leaf (mkFileRule (Filenames ["\byahoo-min\.js$"]) 1); Leaf (mkFileRule (Keywords (Some "html") ["\byahoo-min\.js\b"]) 1)]]);
  (* 71 *) mkDef "platform" "dojo" (Or [Or [Leaf (mkFileRule (Filenames ["\bdojo\.js$"]) 1); Leaf (mkFileRule (Keywords (Some "html") ["\bdojo\.xd\.js\b"]) 1)]]);
  (* 78 *) mkDef "platform" "flash" (Or [Or [Lang "actionscript" 1; And [Gest "platform" "java"; Leaf (mkFileRule (JavaImport (mkRe "^(flash)\..+" false)) 1)]]]);
  (* 88 *) mkDef "platform" "flex" (Or [Or [Lang "mxml" 1; And [Gest "platform" "java"; Leaf (mkFileRule (JavaImport (mkRe "^(mx)\..+" false)) 1)]]]);
  (* 98 *) mkDef "platform" "xwindows" (Or [Leaf (mkFileRule (CHeaders ["Xlib.h"; "X11\/xpm.h"; "X11/Xlib.h"]) 1)]);
  (* 102 *) mkDef "platform" "mac" (Or [Leaf (mkFileRule (CKeywords ["AppleEvent"; "AEBuildAppleEvent"]) 1); Leaf (mkFileRule (Filenames ["\.plist"]) 1)]);
  (* 110 *) mkDef "platform" "php" (Or [Lang "php" 15]);
  (* 114 *) mkDef "platform" "wxwidgets" (Or [Leaf (mkFileRule (CHeaders ["wx/window.h"]) 1)]);
  (* 118 *) mkDef "platform" "zendframework" (Or [And [Gest "platform" "php"; Leaf (mkFileRule (Keywords (Some "php") ["Zend_Controller_Action"]) 1)]]);
  (* 125 *) mkDef "platform" "symfony" (Or [And [Gest "platform" "php"; Leaf (mkFileRule (Keywords (Some "php") ["sfCore"; "sfConfig"]) 1)]]);
  (* 132 *) mkDef "platform" "pear" (Or [And [Gest "platform" "php"; Or [Leaf (mkFileRule (Filenames ["\bpackage\.xml(\.tpl)?$"]) 1); Leaf (mkFileRule (Keywords (Some "xml") ["pear\.php\.net/dtd/package\-2\.0"]) 1)]]]);
  (* 142 *) mkDef "platform" "moodle" (Or [And [Gest "platform" "php"; Leaf (mkFileRule (Keywords (Some "php") ["moodle"]) 1)]]);
  (* 149 *) mkDef "platform" "sql" (Or [Lang "sql" 0]);
  (* 153 *) mkDef "platform" "mysql" (Or [Leaf (mkFileRule (Keywords (Some "php") ["mysql_connect"]) 1)]);
  (* 157 *) mkDef "platform" "postgresql" (Or [Leaf (mkFileRule (Keywords (Some "php") ["pg_connect"]) 1)]);
  (* 161 *) mkDef "platform" "python" (Or [Lang "python" 15]);
  (* 165 *) mkDef "platform" "perl" (Or [Lang "perl" 20]);
  (* 169 *) mkDef "platform" "scripting" (Or [Gest "platform" "javascript"; Gest "platform" "perl"; Gest "platform" "php"; Gest "platform" "python"; Gest "platform" "ruby"]);
  (* 177 *) mkDef "platform" "cakephp" (Or [And [Gest "platform" "php"; Leaf (mkFileRule (Keywords (Some "php") ["CAKE_CORE_INCLUDE_PATH"]) 1)]]);
  (* 184 *) mkDef "platform" "kde" (Or [Leaf (mkFileRule (CHeaders ["KDEInit.h"; "kdeversion.h"]) 1)]);
  (* 188 *) mkDef "platform" "gtk" (Or [Leaf (mkFileRule (CKeywords ["gtk_init"; "gtk_main"; "gtk_window_new"; "GtkWidget"]) 1)]);
  (* 192 *) mkDef "platform" "drupal" (Or [And [Gest "platform" "php"; Or [Leaf (mkFileRule (Keywords (Some "php") ["drupal_set_message"]) 1); Leaf (mkFileRule (Keywords (Some "php") ["drupal_render"]) 1); Leaf (mkFileRule (Keywords (Some "php") ["Drupal"]) 3)]]]);
  (* 203 *) mkDef "platform" "msdos" (Or [Leaf (mkFileRule (CKeywords ["__MSDOS__"; "MSDOS"]) 2)]);
  (* 207 *) mkDef "platform" "eclipseplatform" (Or [Leaf (mkFileRule (JavaImport (mkRe "org\.eclipse\." false)) 1)]);
  (* 214 *) mkDef "tool" "visualstudio" (Or [Leaf (mkFileRule (Filenames ["\.(sln|vcproj|vsproj|csproj|vbproj|vbp)$"]) 1)]);
  (* 218 *) mkDef "tool" "eclipse" (Or [Leaf (mkFileRule (Filenames ["\.(project|classpath)$"]) 1)]);
  (* 222 *) mkDef "tool" "netbeans" (Or [Leaf (mkFileRule (Filenames ["\bnbplatform\b"]) 1); Leaf (mkFileRule (Filenames ["\.nbm$"]) 1)]);
  (* 229 *) mkDef "platform" "arm" (Or [Leaf (mkFileRule (CHeaders ["arm4.h"; "arm3.h"]) 1); Leaf (mkFileRule (CKeywords ["arm_int32_t"; "arm_start_application"; "__arm__"]) 1); Leaf (mkFileRule (Keywords (Some "make") ["\b\-mabi\b"; "\barmcc\b"]) 1); Leaf (mkFileRule (Keywords (Some "java") ["\barm\-eabi"]) 1); Leaf (mkFileRule (Keywords (Some "assembler") ["\bsmlal\b"; "\bsmulw\b"; "\borrs\b"]) 1); Gest "platform" "arm_neon"; Leaf (mkFileRule (JavaImport (mkRe "org\.opengroup\.arm" false)) 1)]);
  (* 241 *) mkDef "platform" "arm_neon" (Or [Leaf (mkFileRule (Keywords (Some "assembler") ["\bvld1\.\d\d\b"; "\bvld1\.\d\d\b"; "\bvmov\b"; "\bvmov\.u8\b"]) 1); Leaf (mkFileRule (Keywords (Some "make") ["\bneon\b"; "\bNEON\b"]) 1)]);
  (* 249 *) mkDef "platform" "sse3_atom_flag" (Or [Leaf (mkFileRule (Keywords (Some "make") ["SSE3_ATOM"]) 1)]);
  (* 253 *) mkDef "platform" "xl_flag" (Or [Leaf (mkFileRule (Keywords (Some "make") ["\bxL\b"; "\/QxL\b"]) 1)]);
  (* 257 *) mkDef "platform" "atom" (Or [Gest "platform" "sse3_atom_flag"; Gest "platform" "xl_flag"]);
  (* 263 *) mkDef "platform" "intel_compiler" (Or [Leaf (mkFileRule (Keywords (Some "make") ["\bicc\b"]) 1)]);
  (* 267 *) mkDef "platform" "gcc" (Or [Leaf (mkFileRule (Keywords (Some "make") ["\bgcc\b"]) 1)]);
  (* 273 *) mkDef "platform" "clutter" (Or [Leaf (mkFileRule (CKeywords ["ClutterActor"; "\bclutter_actor_"; "ClutterStage"; "ClutterBehavior"; "clutter_main"]) 1); Leaf (mkFileRule (Keywords (Some "csharp") ["ClutterActor"; "\bclutter_actor_"; "ClutterStage"; "ClutterBehavior"; "clutter_main"]) 1); Leaf (mkFileRule (Keywords (Some "perl") ["Clutter::Behavior"; "Clutter::Actor"; "Clutter::Stage"]) 1); Leaf (mkFileRule (Keywords (Some "java") ["ClutterActor"; "ClutterStage"; "ClutterShader"]) 1); Leaf (mkFileRule (Keywords (Some "ruby") ["Clutter::Actor"; "Clutter::Stage"; "Clutter::Shader"; "Clutter::Cairo"]) 1)]);
  (* 281 *) mkDef "platform" "moblin_misc" (Or [Leaf (mkFileRule (CKeywords ["\""org\.moblin\."; "MOBLIN_NETBOOK_SYSTEM_TRAY_H"; "org_Moblin_"; "\""org\.Moblin\."; "url=""http://moblin.org"">http://moblin.org</ulink>"]) 1); Leaf (mkFileRule (Keywords (Some "make") ["org.moblin."; "moblin-netbook"]) 1); Leaf (mkFileRule (Filenames ["moblin-netbook-system-tray.h$"]) 1)]);
  (* 287 *) mkDef "platform" "nbtk" (Or [Leaf (mkFileRule (CKeywords ["\bnbtk_[a-z]+"; "\bNbtk[A-Z][a-z]+"]) 1); Leaf (mkFileRule (Keywords (Some "java") ["\bnbtk_[a-z]+"; "\bNbtk[A-Z][a-z]+"]) 1); Leaf (mkFileRule (Keywords (Some "ruby") ["\bnbtk_[a-z]+"; "\bNbtk[A-Z][a-z]+"]) 1); Leaf (mkFileRule (Filenames ["nbtk\/nbtk.h"]) 1)]);
  (* 294 *) mkDef "platform" "moblin" (Or [Gest "platform" "clutter"; Gest "platform" "moblin_misc"; Gest "platform" "nbtk"]);
  (* 302 *) mkDef "platform" "android" (Or [Leaf (mkFileRule (JavaImport (mkRe "\bandroid\." false)) 1)]);
  (* 308 *) mkDef "platform" "iphone" (Or [Leaf (mkFileRule (Keywords (Some "objective_c") ["\bUIApplicationMain"; "\bUIWindow"; "\bUIView"; "\bUIResponder"]) 1)]);
  (* 314 *) mkDef "platform" "hildon" (Or [Leaf (mkFileRule (CKeywords ["\bHildonFile"; "\bhildon_file_"; "\bHildonProgram"; "\bHildonWindow"; "\bhildon_window"]) 1); Leaf (mkFileRule (CHeaders ["hildon/hildon.h"]) 1); And [Leaf (mkFileRule (Keywords (Some "python") ["\bimport hildon"]) 1); Leaf (mkFileRule (Keywords (Some "python") ["\bimport gtk"]) 1)]]);
  (* 322 *) mkDef "platform" "maemo" (Or [Gest "platform" "hildon"]);
  (* 326 *) mkDef "platform" "mid_combined" (Or [Gest "platform" "clutter"; Gest "platform" "nbtk"; Gest "platform" "moblin"; Gest "platform" "maemo"; Gest "platform" "android"; Gest "platform" "iphone"]);
  (* 337 *) mkDef "platform" "windows_ce_incomplete" (Or [Leaf (mkFileRule (Keywords (Some "csharp") ["Microsoft\.WindowsCE"; "Microsoft\.WindowsMobile"]) 1); Leaf (mkFileRule (Keywords (Some "vb") ["Microsoft\.WindowsCE"; "Microsoft\.WindowsMobile"]) 1)]);
  (* 343 *) mkDef "platform" "native_code" (Or [Lang "c" 5; Lang "cpp" 5; Lang "cncpp" 5; Lang "assembly" 5; Lang "d" 5; Lang "fortran" 5; Lang "haskell" 5; Lang "cobol" 5]);
  (* dot_net_definitions.rb *)
  (* 4 *) mkDef "platform" "dot_net" (Or [Or [Lang "csharp" 10; Gest "platform" "asp_net"; Gest "platform" "wpf"; Gest "platform" "silverlight"]]);
  (* 13 *) mkDef "platform" "asp_net" (Or [Leaf (mkFileRule (Filenames ["\.(aspx|ascx|ashx|asax|axd)$"]) 1)]);
  (* 17 *) mkDef "platform" "wpf" (Or [Leaf (mkFileRule (Filenames ["\.xaml$"]) 1)]);
  (* 21 *) mkDef "platform" "silverlight" (Or [Or [Leaf (mkFileRule (CSharpUsing (mkRe "^System.Web.Silverlight\b" false)) 1); Leaf (mkFileRule (Keywords (Some "html") ["\basp:Silverlight\b"]) 1); Leaf (mkFileRule (CsprojImport (mkRe "\bSilverlight\b" false)) 1); And [Gest "platform" "asp_net"; Gest "platform" "wpf"]]]);
  (* java_definitions.rb *)
  (* 6 *) mkDef "platform" "glassfish" (Or [And [Gest "platform" "java"; Or [Leaf (mkFileRule (FindFilenames (mkRe "\b(sun\-web|sun\-ejb\-jar|sun\-application(\-client))\.xml\b" false) 0) 1); Leaf (mkFileRule (Maven "dependency" (mkRe "^org.glassfish\b" false) (mkRe ".*" false)) 1)]]]);
  (* 16 *) mkDef "platform" "jboss" (Or [And [Gest "platform" "java"; Or [Leaf (mkFileRule (FindFilenames (mkRe "\bjboss(\-app|cmp\-jdbc|\-web|\-build|\-client)\.xml\b" false) 0) 1); Leaf (mkFileRule (Maven "dependency" (mkRe "^org.jboss\b" false) (mkRe ".*" false)) 1)]]]);
  (* 26 *) mkDef "platform" "weblogic" (Or [And [Gest "platform" "java"; Or [Leaf (mkFileRule (FindFilenames (mkRe "\bweblogic(\-ejb\-jar|\-ra|\-application|\-cmp\-rdbms\jar)\.xml\b" false) 0) 1); Leaf (mkFileRule (Maven "plugin" (mkRe "^org\.codehaus\.mojo\b" false) (mkRe "^weblogic\-maven\-plugin\b" false)) 1)]]]);
  (* 36 *) mkDef "platform" "jonas" (Or [And [Gest "platform" "java"; Leaf (mkFileRule (FindFilenames (mkRe "\bjonas\-ejb\-jar\.xml\b" false) 0) 1)]]);
  (* 43 *) mkDef "platform" "websphere" (Or [And [Gest "platform" "java"; Leaf (mkFileRule (FindFilenames (mkRe "\bibm\-(application|web|webservices|webservicesclient)\-.+\.xmi$" false) 0) 1)]]);
  (* 50 *) mkDef "platform" "tomcat" (Or [And [Gest "platform" "java"; Or [Leaf (mkFileRule (JavaImport (mkRe "^org\.apache\.tomcat\b" false)) 1); Leaf (mkFileRule (Maven "dependency" (mkRe "^org\.apache\.tomcat\b" false) (mkRe ".*" false)) 1)]]]);
  (* 60 *) mkDef "platform" "appserver" (Or [Or [Gest "platform" "glassfish"; Gest "platform" "jboss"; Gest "platform" "weblogic"; Gest "platform" "tomcat"; Gest "platform" "jonas"; Gest "platform" "websphere"]]);
  (* 71 *) mkDef "platform" "ejb2" (Or [And [Gest "platform" "java"; Or [Leaf (mkFileRule (FindFilenames (mkRe "(.+\-)ejb\-jar\.xml\b" false) 0) 1); Leaf (mkFileRule (Keywords (Some "java") ["EJBHome"; "EJBRemote"; "SessionBean"]) 1)]]]);
  (* 85 *) mkDef "platform" "ejb3.1" (Or [And [Gest "platform" "java"; Or [Leaf (mkFileRule (Keywords (Some "java") ["@Schedule"; "@Singleton"; "@Asynchronous"]) 1); Leaf (mkFileRule (Keywords (Some "java") ["(?-mix:@EJB\(.*\bmappedName\s*=\s*""java:(global|app|module)/.+"".*\))"]) 1); Leaf (mkFileRule (Keywords (Some "java") ["(?-mix:\blookup\(\s*""java:(global|app|module)/.+""\s*\))"]) 1)]]]);
  (* 96 *) mkDef "platform" "ejb3+" (Or [And [Gest "platform" "java"; Or [Gest "platform" "ejb3.1"; Leaf (mkFileRule (Keywords (Some "java") ["@EJB"; "@Stateless"; "@Statefull"; "@Entity"; "@Remote"; "@Local"; "@BusinessMethod"]) 1); Leaf (mkFileRule (JavaImport (mkRe "^javax\.persistence\b" false)) 1)]]]);
  (* 107 *) mkDef "platform" "ejb3.0" (Or [And [Gest "platform" "ejb3+"; Not [Gest "platform" "ejb3.1"]]]);
  (* 114 *) mkDef "platform" "servlet" (Or [And [Gest "platform" "java"; Or [Leaf (mkFileRule (JavaImport (mkRe "^javax\.servlet\b" false)) 1); Leaf (mkFileRule (Maven "dependency" (mkRe "^javax\.servlet\b" false) (mkRe ".*" false)) 1)]]]);
  (* 124 *) mkDef "platform" "struts" (Or [And [Gest "platform" "java"; Or [Leaf (mkFileRule (Filenames ["\bstruts(\-config)?\.xml$"; "\bstruts\.jar$"]) 1); Leaf (mkFileRule (JavaImport (mkRe "^org\.apache\.struts\b" false)) 1); Leaf (mkFileRule (Maven "dependency" (mkRe "^org\.apache\.struts\b" false) (mkRe ".*" false)) 1)]]]);
  (* 135 *) mkDef "platform" "springframework" (Or [And [Gest "platform" "java"; Or [Leaf (mkFileRule (Filenames ["spring\.jar$"]) 1); Leaf (mkFileRule (JavaImport (mkRe "^org\.springframework\b" false)) 1); Leaf (mkFileRule (Maven "dependency" (mkRe "^org\.springframework\b" false) (mkRe ".*" false)) 1)]]]);
  (* 146 *) mkDef "platform" "jsf" (Or [And [Gest "platform" "java"; Or [Leaf (mkFileRule (JavaImport (mkRe "^javax\.faces\b" false)) 1); Leaf (mkFileRule (Maven "dependency" (mkRe "^javax\.faces\b" false) (mkRe ".*" false)) 1)]]]);
  (* 156 *) mkDef "platform" "googlewebtoolkit" (Or [And [Gest "platform" "java"; Leaf (mkFileRule (JavaImport (mkRe "^com\.google\.gwt\b" false)) 1)]]);
  (* 165 *) mkDef "platform" "hibernate" (Or [And [Gest "platform" "java"; Or [Leaf (mkFileRule (Filenames ["\bhibernate\d\.jar$"]) 1); Leaf (mkFileRule (JavaImport (mkRe "^org\.hibernate\b" false)) 1); Leaf (mkFileRule (Maven "dependency" (mkRe "^org\.hibernate$" false) (mkRe ".*" false)) 1)]]]);
  (* 176 *) mkDef "platform" "jpa" (Or [And [Gest "platform" "java"; Leaf (mkFileRule (JavaImport (mkRe "^javax\.persistence\b" false)) 1)]]);
  (* 183 *) mkDef "platform" "toplink" (Or [And [Gest "platform" "java"; Leaf (mkFileRule (JavaImport (mkRe "^oracle\.toplink\b" false)) 1)]]);
  (* 190 *) mkDef "platform" "castor" (Or [And [Gest "platform" "java"; Leaf (mkFileRule (JavaImport (mkRe "^org\.exolab\.castor\b" false)) 1)]]);
  (* 197 *) mkDef "platform" "db4o" (Or [And [Gest "platform" "java"; Leaf (mkFileRule (JavaImport (mkRe "^com\.db4o\b" false)) 1)]]);
  (* 206 *) mkDef "platform" "openesb" (Or [And [Gest "platform" "java"; Leaf (mkFileRule (JavaImport (mkRe "^org\.openesb\b" false)) 1)]]);
  (* 213 *) mkDef "platform" "muleesb" (Or [And [Gest "platform" "java"; Leaf (mkFileRule (JavaImport (mkRe "^org\.mule\b" false)) 1)]]);
  (* 220 *) mkDef "platform" "servicemix" (Or [And [Gest "platform" "java"; Or [Leaf (mkFileRule (JavaImport (mkRe "^org\.apache\.servicemix\b" false)) 1); Leaf (mkFileRule (Maven "dependency" (mkRe "^org.apache.servicemix\b" false) (mkRe ".*" false)) 1)]]]);
  (* 230 *) mkDef "platform" "jbossesb" (Or [And [Gest "platform" "java"; Leaf (mkFileRule (JavaImport (mkRe "^org\.jboss\.soa\.esb\b" false)) 1)]]);
  (* 237 *) mkDef "platform" "openesb" (Or [And [Gest "platform" "java"; Leaf (mkFileRule (JavaImport (mkRe "^org\.openesb\b" false)) 1)]]);
  (* 246 *) mkDef "platform" "opensso" (Or [And [Gest "platform" "java"; Or [Leaf (mkFileRule (Filenames ["\bopensso\.war$"]) 1); Leaf (mkFileRule (JavaImport (mkRe "^com\.sun\.identity\.(authentication|agents)\b" false)) 1)]]]);
  (* 256 *) mkDef "platform" "maven" (Or [And [Gest "platform" "java"; Leaf (mkFileRule (FindFilenames (mkRe "\bpom\.xml$" false) 0) 1)]]);
  (* jasper_definitions.rb *)
  (* 4 *) mkDef "platform" "jaspersoft" (Or [Or [Gest "platform" "jaspersoft_keyword"; Gest "platform" "jasper_reports"; Gest "platform" "jasper_server"; Gest "platform" "jasper_ireport"; Gest "platform" "jasper_intelligence"]]);
  (* 14 *) mkDef "platform" "jaspersoft_keyword" (Or [Leaf (mkFileRule (Keywords None ["(?i-mx:jaspersoft)"]) 1)]);
  (* 18 *) mkDef "platform" "jasper_reports" (Or [Or [Gest "platform" "jasper_reports_keyword"; Gest "platform" "jasper_reports_java"]]);
  (* 25 *) mkDef "platform" "jasper_reports_keyword" (Or [Leaf (mkFileRule (Keywords None ["(?i-mx:jasper[ _-]?reports?)"]) 1)]);
  (* 29 *) mkDef "platform" "jasper_reports_java" (Or [Or [Leaf (mkFileRule (Maven "dependency" (mkRe "jasperreports" false) (mkRe ".*" false)) 1); Leaf (mkFileRule (Keywords (Some "java") ["\bnet\.sf\.jasperreports\b"]) 1)]]);
  (* 36 *) mkDef "platform" "jasper_server" (Or [Or [Gest "platform" "jasper_server_keyword"; Gest "platform" "jasper_server_java"]]);
  (* 43 *) mkDef "platform" "jasper_server_keyword" (Or [Leaf (mkFileRule (Keywords None ["(?i-mx:jasper[ _-]?server)"]) 1)]);
  (* 47 *) mkDef "platform" "jasper_server_java" (Or [Leaf (mkFileRule (Keywords (Some "java") ["\bcom\.jaspersoft\.jasperserver\b"]) 1)]);
  (* 51 *) mkDef "platform" "jasper_intelligence" (Or [Leaf (mkFileRule (Keywords (Some "java") ["\bcom\.jaspersoft\.ji"]) 1)]);
  (* 55 *) mkDef "platform" "jasper_ireport" (Or [And [Leaf (mkFileRule (Keywords None ["(?i-mx:jasper)"]) 1); Leaf (mkFileRule (Keywords None ["(?i-mx:ireport)"]) 1)]])].
