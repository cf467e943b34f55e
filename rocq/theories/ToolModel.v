(** Model of the command line tool: /repo/src/ohcount.c:12-66, 252-307 and
    /repo/src/hash/options.gperf, on top of the models of its parts: the constructor of a
    source file (PathModel), the traversal of directories (DirModel), detection
    (DetectorModel), the parsers (ParserTable), the record of a file (ParsedModel), the
    reports (ReportModel) and the licences (LicenseModel).

    Oracles: what the arguments name and what the files contain ([found], [content]); they
    do not change while the tool runs.  libmagic, PCRE ([magic], [pcre], [exec], see
    DetectorModel and LicenseModel).
    Simplifications: what is printed is a sequence of items (PrintModel has their
    characters); [fuel] bounds the steps of the parsers (C18). *)
From Coq Require Import ZArith String List Bool.
From Verif Require Import Base Arr LocModel ParsedModel PathModel DirModel DetectorModel.
From Verif Require ParserTable RegexModel.
From Verif Require Import LicenseTable LicenseModel ReportModel.
Import ListNotations.
Open Scope string_scope.
Open Scope Z_scope.
Open Scope list_scope.

(** ohcount.h:142-148 *)
Inductive command := Annotate | Detect | Help | Individual | Licenses | RawEntities | Summary.

(** hash/options.gperf *)
Definition options : list (string * command) :=
  [("-a", Annotate); ("--annotate", Annotate); ("-d", Detect); ("--detect", Detect);
   ("-h", Help); ("--help", Help); ("-i", Individual); ("--individual", Individual);
   ("-l", Licenses); ("--license", Licenses); ("-re", RawEntities);
   ("-s", Summary); ("--summary", Summary)].

(** ohcount_hash_command_from_flag *)
Definition command_from_flag (arg : list Z) : option command :=
  match find (fun p => if list_eq_dec Z.eq_dec (bytes (fst p)) arg then true else false) options with
  | Some p => Some (snd p)
  | None => None
  end.

(** What opendir and fopen find at the path of an argument (links followed): a directory
    that can be opened, a file that can be opened, or nothing. *)
Inductive target := IsDir (t : fsnode) | IsFile | Nothing.

(** What is printed. *)
Inductive output :=
| BadArgument (arg : list Z)
| Annotated (language entity : string) (text : list Z)
| Detected (language : string) (path : list Z)
| HelpText
| IndividualReport (n : Z) (rows : list (list Z * list (loc * Z)))
| License (name : string) (more : bool) (filename : list Z)
| Entity (language entity : string) (s e : Z)
| SummaryReport (r : report).

Section Tool.
  Variable pl : platform.
  Variable magic : file -> list Z.
  Variable pcre : string -> list Z -> bool.
  Variable exec : RegexModel.flags -> string -> list Z -> option (Z * Z).
  Variable found : list Z -> target.
  Variable content : list Z -> option (list Z).
  Variable fuel : nat.

  (** A file of the list: its path and where its parts start (DirModel). *)
  Definition item : Type := list Z * split.

  (** sourcefile.c:82-109: an empty file gives NULL, as does one that cannot be opened. *)
  Definition contents_of (f : item) : option (list Z) :=
    match content (fst f) with Some (c :: r) => Some (c :: r) | _ => None end.
  Definition text_of (f : item) : list Z := match contents_of f with Some c => c | None => [] end.

  (** sourcefile.c:22-57, 127-133: the fields the detector looks at. *)
  Definition language_of (f : item) : res (option string) :=
    ohcount_detect_language pl magic pcre
      (mkFile (fst f) (ext_of (fst f) (snd f)) (filename_of (fst f) (snd f)) false (contents_of f) None).

  (** parser.c:12-29 *)
  Definition reports_of (f : item) : res (list event) :=
    g <- language_of f ;;
    match ParserTable.ohcount_parse g (text_of f) fuel with
    | Some r => r
    | None => Ok []
    end.

  (** sourcefile.c:192-207 *)
  Definition record_of (f : item) : res (list plang) :=
    es <- reports_of f ;; run_callbacks (text_of f) [] es.

  Fixpoint each {A B} (g : A -> res B) (l : list A) : res (list B) :=
    match l with [] => Ok [] | x :: r => y <- g x ;; ys <- each g r ;; Ok (y :: ys) end.

  (** ohcount.c:12-20: the array has no place for the final NUL. *)
  Definition annotate_callback (text : list Z) (e : event) : res output :=
    let length := e_end e - e_start e in
    if length <=? 0 then Ub NegLength else      (* char buf[length] *)
    buf <- strncpy (Z.to_nat length) (anew length) 0 text (e_start e) false ;;
    buf <- aset buf length 0 ;;
    s <- read_string (S (Z.to_nat length)) buf 0 ;;
    Ok (Annotated (e_lang e) (e_entity e) s).

  (** ohcount.c:22-29 *)
  Definition annotate (fs : list item) : res (list output) :=
    os <- each (fun f => es <- reports_of f ;; each (annotate_callback (text_of f)) es) fs ;;
    Ok (List.concat os).

  (** ohcount.c:31-38; printf("%s") of NULL is undefined. *)
  Definition detect (fs : list item) : res (list output) :=
    each (fun f => g <- language_of f ;;
                   match g with Some g => Ok (Detected g (fst f)) | None => Ub NullDeref end) fs.

  (** ohcount.c:40-51 *)
  Fixpoint license_lines (filename : list Z) (ls : list license) : list output :=
    match ls with
    | [] => []
    | l :: r => License (l_name l) (match r with [] => false | _ => true end) filename :: license_lines filename r
    end.
  Definition licenses (fs : list item) : res (list output) :=
    os <- each (fun f => r <- record_of f ;; ls <- ohcount_detect_license exec r ;;
                         Ok (license_lines (filename_of (fst f) (snd f)) ls)) fs ;;
    Ok (List.concat os).

  (** ohcount.c:53-66 *)
  Definition raw_entities (fs : list item) : res (list output) :=
    os <- each (fun f => g <- language_of f ;;
                  match ParserTable.ohcount_parse_entities g (text_of f) fuel with
                  | Some r => es <- r ;; Ok (map (fun e => Entity (e_lang e) (e_entity e) (e_start e) (e_end e)) es)
                  | None => Ok []
                  end) fs ;;
    Ok (List.concat os).

  (** ohcount.c:145-181, see ReportModel. *)
  Definition individual (fs : list item) : res (list output) :=
    rs <- each record_of fs ;;
    '(n, rows) <- individual_report rs ;;
    Ok [IndividualReport n (combine (map fst fs) rows)].

  (** ohcount.c:202-250, see ReportModel. *)
  Definition summary (fs : list item) : res (list output) :=
    rs <- each record_of fs ;;
    r <- summary_report rs ;;
    Ok [SummaryReport r].

  (** ohcount.c:269-280: the arguments that are paths. *)
  Fixpoint collect (args : list (list Z)) (fs : list item) (bad : list output) : res (list item * list output) :=
    match args with
    | [] => Ok (fs, bad)
    | a :: r =>
      match found a with
      | IsDir t => fs <- add_directory t a fs ;; collect r fs bad
      | IsFile => fs <- add_file fs a ;; collect r fs bad
      | Nothing => collect r fs (bad ++ [BadArgument a])
      end
    end.

  (** ohcount.c:252-307 [main]; [args] without the name of the program. *)
  Definition main (args : list (list Z)) : res (list output) :=
    let command := match args with a :: _ => command_from_flag a | [] => None end in
    let paths := match command with Some _ => tl args | None => args end in
    let command := match command with Some c => c | None => Summary end in
    '(fs, bad) <-
      match paths with
      | [] =>
        fs <- match found [46] with IsDir t => add_directory t [46] [] | _ => Ok [] end ;;
        Ok (fs, [])
      | _ => collect paths [] []
      end ;;
    os <- match command with
          | Annotate => annotate fs
          | Detect => detect fs
          | Help => Ok [HelpText]
          | Individual => individual fs
          | Licenses => licenses fs
          | RawEntities => raw_entities fs
          | Summary => summary fs
          end ;;
    Ok (bad ++ os).
End Tool.
