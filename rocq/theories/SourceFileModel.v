(** Model of the SourceFile object: /repo/src/sourcefile.c:59-253 and
    /repo/src/parser.c:12-30, as a state machine over API calls.

    Oracles (Section variables): the detector (detector.c, see DetectorModel), the
    language table and the parser table with the parsers behind it, the licence
    detector (licenses.c, see LicenseModel) and the disk.
    Simplifications: the disk does not change during one call (it may change
    arbitrarily between two calls); files are shorter than 2^31 bytes; [fopen] of a
    directory counts as a failure; nothing is freed except where the code drops a
    buffer. *)
From Coq Require Import ZArith String List Bool.
From Verif Require Import Base LocModel ParsedModel.
Import ListNotations.
Open Scope Z_scope.

Section SourceFile.
  Variable lic : Type.

  (** The disk: contents of the file at a path, None if it cannot be opened. *)
  Definition disk : Type := list Z -> option (list Z).

  (** sourcefile.c:22-57 fields that change (structs.h:205-268). *)
  Record sf := mkSf {
    f_path : list Z;
    f_diskpath : option (list Z);
    f_contents : option (list Z);      (* NULL or the bytes before the final NUL *)
    f_size : Z;
    f_language : option string;
    f_detected : bool;
    f_parsed : option (list plang);
    f_license : option lic;
    f_loc : option (list loc)
  }.

  (** sourcefile.c:42-56 *)
  Definition sf_new (path : list Z) : sf :=
    mkSf path None None (-1) None false None None None.

  (** What a call does outside of the object. *)
  Inductive effect :=
  | Read (path : list Z)               (* opens a file *)
  | Detect                             (* runs the detector *)
  | Scan (language : string) (text : list Z)   (* runs a parser *)
  | License.                           (* runs the licence detector *)

  (** Oracles. *)
  Variable det_reads : sf -> bool.     (* does the detector look at the contents? *)
  Variable det : sf -> option (list Z) -> option string.
  Variable language_at : string -> option string.   (* the name in the entry of a key, languages.gperf *)
  Variable parser_of : string -> option (list Z -> list event).
  Variable licenses_of : list plang -> lic.

  Definition set_contents_size (f : sf) (c : option (list Z)) (n : Z) : sf :=
    mkSf (f_path f) (f_diskpath f) c n (f_language f) (f_detected f) (f_parsed f)
         (f_license f) (f_loc f).

  (** sourcefile.c:59-69 *)
  Definition set_diskpath (f : sf) (p : list Z) : sf :=
    mkSf (f_path f) (Some p) (f_contents f) (f_size f) (f_language f) (f_detected f)
         (f_parsed f) (f_license f) (f_loc f).

  (** sourcefile.c:71-80; the argument is a C string. *)
  Definition set_contents (f : sf) (s : list Z) : sf :=
    set_contents_size f (Some s) (Z.of_nat (length s)).

  (** sourcefile.c:82-109.  fread(buf, size, 1, f) returns 0 for an empty file. *)
  Definition get_contents (d : disk) (f : sf) : sf * list effect * option (list Z) :=
    match f_contents f with
    | Some c => (f, [], Some c)
    | None =>
      let path := match f_diskpath f with Some p => p | None => f_path f end in
      match d path with
      | Some c =>
        if Z.of_nat (length c) =? 0 then (set_contents_size f None 0, [Read path], None)
        else (set_contents_size f (Some c) (Z.of_nat (length c)), [Read path], Some c)
      | None => (set_contents_size f None 0, [Read path], None)
      end
    end.

  (** sourcefile.c:111-115 *)
  Definition get_contents_size (d : disk) (f : sf) : sf * list effect * Z :=
    if f_size f <? 0 then
      let '(f, e, _) := get_contents d f in (f, e, f_size f)
    else (f, [], f_size f).

  (** sourcefile.c:117-125 *)
  Definition set_language (f : sf) (g : string) : sf :=
    match language_at g with
    | Some name =>
      mkSf (f_path f) (f_diskpath f) (f_contents f) (f_size f) (Some name) true
           (f_parsed f) (f_license f) (f_loc f)
    | None => f
    end.

  (** sourcefile.c:127-133 *)
  Definition get_language (d : disk) (f : sf) : sf * list effect * option string :=
    if f_detected f then (f, [], f_language f)
    else
      let reads := det_reads f in
      let '(f, e) := if reads then let '(f', e', _) := get_contents d f in (f', e')
                     else (f, []) in
      let g := det f (if reads then f_contents f else None) in
      (mkSf (f_path f) (f_diskpath f) (f_contents f) (f_size f) g true
            (f_parsed f) (f_license f) (f_loc f), e ++ [Detect], g).

  (** parser.c:12-30 [ohcount_parse] with a callback: the events it reports.  A NULL
      buffer has length 0. *)
  Definition ohcount_parse (d : disk) (f : sf) : sf * list effect * list event :=
    let '(f, e1, g) := get_language d f in
    match g with
    | None => (f, e1, [])
    | Some g =>
      match parser_of g with
      | None => (f, e1, [])
      | Some parser =>
        let '(f, e2, c) := get_contents d f in
        let '(f, e3, n) := get_contents_size d f in
        let text := match c with Some c => firstn (Z.to_nat n) c | None => [] end in
        (f, e1 ++ e2 ++ e3 ++ [Scan g text], parser text)
      end
    end.

  (** sourcefile.c:189-201 *)
  Definition sf_parse (d : disk) (f : sf) : res (sf * list effect) :=
    match f_parsed f with
    | Some _ => Ok (f, [])
    | None =>
      let '(f, e, es) := ohcount_parse d f in
      let text := match f_contents f with Some c => c | None => [] end in
      l <- run_callbacks text [] es ;;
      Ok (mkSf (f_path f) (f_diskpath f) None (f_size f) (f_language f) (f_detected f)
               (Some l) (f_license f) (f_loc f), e)
    end.

  (** sourcefile.c:203-207 *)
  Definition get_parsed (d : disk) (f : sf) : res (sf * list effect * list plang) :=
    '(f, e) <- sf_parse d f ;;
    match f_parsed f with
    | Some l => Ok (f, e, l)
    | None => Ub NullDeref
    end.

  (** sourcefile.c:230-234; licenses.c looks at the parse result. *)
  Definition get_license (d : disk) (f : sf) : res (sf * list effect * lic) :=
    match f_license f with
    | Some l => Ok (f, [], l)
    | None =>
      '(f, e, pl) <- get_parsed d f ;;
      let l := licenses_of pl in
      Ok (mkSf (f_path f) (f_diskpath f) (f_contents f) (f_size f) (f_language f) (f_detected f)
               (f_parsed f) (Some l) (f_loc f), e ++ [License], l)
    end.

  (** sourcefile.c:236-253 *)
  Definition get_loc (d : disk) (f : sf) : res (sf * list effect * list loc) :=
    match f_loc f with
    | Some l => Ok (f, [], l)
    | None =>
      '(f, e) <- sf_parse d f ;;
      '(f, e', pl) <- get_parsed d f ;;
      '(h, lst) <- get_loc_list pl ;;
      l <- list_items h lst ;;
      Ok (mkSf (f_path f) (f_diskpath f) (f_contents f) (f_size f) (f_language f) (f_detected f)
               (f_parsed f) (f_license f) (Some l), e ++ e', l)
    end.

  (** API calls and their answers. *)
  Inductive op :=
  | SetDiskpath (p : list Z)
  | SetContents (s : list Z)
  | GetContents
  | GetSize
  | SetLanguage (g : string)
  | GetLanguage
  | GetParsed                          (* also ohcount_sourcefile_parse *)
  | ParseWithCallback                  (* sourcefile.c:209-216 *)
  | GetLicense
  | GetLoc.

  Inductive answer :=
  | ANone
  | AContents (c : option (list Z))
  | ASize (n : Z)
  | ALanguage (g : option string)
  | AParsed (l : list plang)
  | AEvents (es : list event)
  | ALicense (l : lic)
  | ALoc (l : list loc).

  Definition step (d : disk) (f : sf) (o : op) : res (sf * list effect * answer) :=
    match o with
    | SetDiskpath p => Ok (set_diskpath f p, [], ANone)
    | SetContents s => Ok (set_contents f s, [], ANone)
    | GetContents => let '(f, e, c) := get_contents d f in Ok (f, e, AContents c)
    | GetSize => let '(f, e, n) := get_contents_size d f in Ok (f, e, ASize n)
    | SetLanguage g => Ok (set_language f g, [], ANone)
    | GetLanguage => let '(f, e, g) := get_language d f in Ok (f, e, ALanguage g)
    | GetParsed => '(f, e, l) <- get_parsed d f ;; Ok (f, e, AParsed l)
    | ParseWithCallback => let '(f, e, es) := ohcount_parse d f in Ok (f, e, AEvents es)
    | GetLicense => '(f, e, l) <- get_license d f ;; Ok (f, e, ALicense l)
    | GetLoc => '(f, e, l) <- get_loc d f ;; Ok (f, e, ALoc l)
    end.

  (** A session: at each call the disk may be a different one. *)
  Fixpoint run (f : sf) (ops : list (disk * op)) : res (sf * list (list effect * answer)) :=
    match ops with
    | [] => Ok (f, [])
    | (d, o) :: r =>
      '(f, e, a) <- step d f o ;;
      '(f, as_) <- run f r ;;
      Ok (f, (e, a) :: as_)
    end.
End SourceFile.
