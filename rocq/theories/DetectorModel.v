(** Model of /repo/src/detector.c.

    A pointer into a NUL terminated buffer is the list of bytes from there to the
    terminator, so [*p] is the first byte, or 0 at the terminator ([deref]); a buffer may
    contain further NUL bytes.  [p < eof] says that the list is not empty.  Loops of the form
    while (f( *p)) p++ with f false for NUL never leave the buffer ([skip]).

    What C leaves undefined but what has an obvious effect on usual machines is controlled by
    the record [platform]; with the platform [strict] all of it is the outcome [Ub].

    Oracles: libmagic ([magic]: the text it answers; failures of libmagic, which end the
    program, are left out) and the regular expressions of disambiguate_pp and
    disambiguate_pl ([pcre]).
    Simplifications: [ctype] functions are those of the C locale, with bytes over 127 in no
    class (glibc; formally undefined for negative char); [contents_size] is the length of the
    contents; pointers may be moved out of an object as long as they are only compared; a
    variable length array may have length 0 (GNU C); files are shorter than 2^31 bytes. *)
From Coq Require Import ZArith String List Bool.
From Verif Require Import Base ParsedModel PathModel Tables.
Import ListNotations.
Open Scope string_scope.
Open Scope Z_scope.
Open Scope list_scope.

Record platform := mkPlatform {
  slack : Z;               (* bytes after a local array that can be written without harm *)
  before_line : option Z;  (* the byte before the array [line] of disambiguate_h, if it can be read *)
  before_path : option Z;  (* the byte before the heap copy of a path, if it can be read *)
  loop_ends : bool         (* is a pointer into a local array above the heap (detector.c:230)? *)
}.
Definition strict : platform := mkPlatform 0 None None false.

(** The fields of the SourceFile that the detector uses (structs.h:205-268). *)
Record file := mkFile {
  d_path : list Z;                     (* filepath *)
  d_ext : list Z;                      (* ext *)
  d_filename : list Z;                 (* filename *)
  d_disk : bool;                       (* diskpath is set *)
  d_contents : option (list Z);        (* what ohcount_sourcefile_get_contents returns *)
  d_dir : option (list (list Z))       (* filenames *)
}.

(** ** The C library *)

Definition deref (p : list Z) : Z := hd 0 p.
Definition blank (c : Z) : bool := (c =? 32) || (c =? 9).
Definition is_eol (c : Z) : bool := (c =? 13) || (c =? 10).
Definition is_digit (c : Z) : bool := (48 <=? c) && (c <=? 57).
Definition is_lower (c : Z) : bool := (97 <=? c) && (c <=? 122).
Definition is_upper (c : Z) : bool := (65 <=? c) && (c <=? 90).
Definition is_alnum (c : Z) : bool := is_digit c || is_lower c || is_upper c.
Definition is_space (c : Z) : bool := (c =? 32) || ((9 <=? c) && (c <=? 13)).
Definition to_lower (c : Z) : Z := if is_upper c then c + 32 else c.

(** while (f( *p)) p++, f(0) false *)
Fixpoint skip (f : Z -> bool) (p : list Z) : list Z :=
  match p with
  | [] => []
  | c :: r => if f c then skip f r else p
  end.

(** The part of [p] that [skip f] leaves out. *)
Fixpoint taken (f : Z -> bool) (p : list Z) : list Z :=
  match p with
  | [] => []
  | c :: r => if f c then c :: taken f r else []
  end.

(** The C string at [p]. *)
Definition cstr (p : list Z) : list Z := taken (fun c => negb (c =? 0)) p.

(** strncmp(p, lit, strlen(lit)) == 0 *)
Fixpoint starts (lit p : list Z) : bool :=
  match lit, p with
  | [], _ => true
  | c :: lit, x :: p => (x =? c) && starts lit p
  | _ :: _, [] => false
  end.

(** strncasecmp(p, lit, strlen(lit)) == 0 *)
Fixpoint starts_nocase (lit p : list Z) : bool :=
  match lit, p with
  | [], _ => true
  | c :: lit, x :: p => (to_lower x =? to_lower c) && starts_nocase lit p
  | _ :: _, [] => false
  end.

Definition startsb (lit : string) (p : list Z) : bool := starts (bytes lit) p.

(** strstr(p, lit) *)
Fixpoint strstr (p lit : list Z) : option (list Z) :=
  if starts lit p then Some p
  else
    match p with
    | [] => None
    | c :: r => if c =? 0 then None else strstr r lit
    end.

Definition has (p : list Z) (lit : string) : bool :=
  match strstr p (bytes lit) with Some _ => true | None => false end.

(** The part of [p] before its suffix [q] (q - p bytes). *)
Definition upto (p q : list Z) : list Z := firstn (length p - length q) p.

(** The bytes after the last '.' of [p], or all of [p]: while (p > start && p[-1] != '.') p--; *)
Fixpoint after_dot (p : list Z) : list Z :=
  match p with
  | [] => []
  | c :: r => if existsb (Z.eqb 46) r then after_dot r else if c =? 46 then r else p
  end.

Definition no_lang : option string := None.

Section Detector.
  Variable pl : platform.
  (** The text libmagic gives for the file, a C string. *)
  Variable magic : file -> list Z.
  (** pcre_exec(re, ...) > -1 for the regular expression with this source. *)
  Variable pcre : string -> list Z -> bool.

  (** Storing the terminating NUL at index [n] of a local array of [size] bytes. *)
  Definition store (size n : Z) : res unit :=
    if n <? size + slack pl then Ok tt else Ub OutOfBounds.

  (** char buf[n]; strncpy(buf, p, n); buf[n] = '\0'; *)
  Definition vla (n : Z) : res unit :=
    if n <? 0 then Ub NegLength else store n n.

  Definition zlen (l : list Z) : Z := Z.of_nat (length l).

  Definition contents (f : file) : list Z :=
    match d_contents f with Some c => c | None => [] end.

  (** ** Lines

      detector.c:324-328, 573-577 and similar: the line at [p] is copied into an array of 81
      bytes. *)
  Definition fetch (l : list Z) : res (list Z) :=
    let length := if zlen l <=? 81 then zlen l else 81 in
    _ <- store 81 length ;;
    Ok (cstr (firstn (Z.to_nat length) l)).

  (** detector.c:323-347 and similar: the loop over the lines; [step] gets the line and ends
      the function with [inr]. *)
  Fixpoint each_line {A} (fuel : nat) (step : list Z -> A -> res (A + option string))
           (p : list Z) (a : A) : res (A + option string) :=
    match fuel with
    | O => OutOfFuel
    | S k =>
      match p with
      | [] => Ok (inl a)
      | _ =>
        let pe := skip (fun c => negb (is_eol c)) p in
        line <- fetch (upto p pe) ;;
        r <- step line a ;;
        match r with
        | inr g => Ok (inr g)
        | inl a => each_line k step (skip is_eol pe) a
        end
      end
    end.

  Definition lines_loop {A} (f : file) (step : list Z -> A -> res (A + option string)) (a : A) :=
    each_line (S (length (contents f))) step (contents f) a.

  (** ** libmagic *)

  (** A read of the array [line] of magic_parse at offset [i]. *)
  Definition peek (line : list Z) (i : Z) : res Z := src line i.

  (** detector.c:60 while ( *p == ' ') p--; *)
  Fixpoint back_blanks (fuel : nat) (line : list Z) (p : Z) : res Z :=
    match fuel with
    | O => OutOfFuel
    | S k => c <- peek line p ;; if c =? 32 then back_blanks k line (p - 1) else Ok p
    end.

  (** detector.c:61 while (p != line && isalnum( *(p - 1))) p--; *)
  Fixpoint back_alnum (fuel : nat) (line : list Z) (p : Z) : res Z :=
    match fuel with
    | O => OutOfFuel
    | S k =>
      if p =? 0 then Ok p
      else c <- peek line (p - 1) ;; if is_alnum c then back_alnum k line (p - 1) else Ok p
    end.

  (** detector.c:56-64: the word before "script", without switches *)
  Fixpoint script_word (fuel : nat) (line : list Z) (p : Z) : res (Z * Z) :=
    match fuel with
    | O => OutOfFuel
    | S k =>
      let p := p - 1 in
      let pe := p in
      p <- back_blanks (S (length line)) line p ;;
      p <- back_alnum (S (length line)) line p ;;
      p <- (if p =? 0 then Ok p
            else c <- peek line (p - 1) ;; Ok (if c =? 45 then p - 1 else p)) ;;
      c <- peek line p ;;
      if c =? 45 then script_word k line p else Ok (p, pe)
    end.

  Definition language_named (name : list Z) : option string :=
    match lookup languages name with Some l => Some (l_name l) | None => None end.

  (** detector.c:32-72 [magic_parse]; [line] has at most 79 bytes, so the copies fit into
      buf[80] unless the length is negative. *)
  Definition magic_parse (line : list Z) : res (option string) :=
    let line := map to_lower line in
    let first :=
      if startsb "script text" line then
        match strstr line (bytes "for ") with
        | Some p => language_named (taken is_alnum (skipn 4 p))
        | None => None
        end
      else None in
    match first with
    | Some g => Ok (Some g)
    | None =>
      match strstr line (bytes "script") with
      | Some q =>
        '(p, pe) <- script_word (S (length line)) line (zlen line - zlen q) ;;
        if pe - p <? 0 then Ub NegLength
        else Ok (language_named (firstn (Z.to_nat (pe - p)) (skipn (Z.to_nat p) line)))
      | None => Ok (if has line "xml" then Some "xml" else None)
      end
    end.

  (** detector.c:76-116 [detect_language_magic] *)
  Definition detect_magic (f : file) : res (option string) :=
    if d_disk f then magic_parse (firstn 79 (magic f))
    else
      match d_contents f with
      | None => Ok None
      | Some _ => magic_parse (firstn 79 (magic f))
      end.

  (** ** Disambiguators *)

  (** detector.c:227-254 [disambiguate_aspx] *)
  Definition disambiguate_aspx (f : file) : res (option string) :=
    match contents f with
    | [] => Ok (Some "cs_aspx")
    | c =>
      (* without "%>" after it the search goes on behind "<%@", in vain *)
      match strstr c (bytes "<%@") with
      | None => Ok (Some "cs_aspx")
      | Some p =>
        match strstr p (bytes "%>") with
        | None => Ok (Some "cs_aspx")
        | Some pe =>
          let p := skipn 3 p in
          let length := zlen p - zlen pe in
          _ <- vla length ;;
          let buf := map to_lower (upto p pe) in
          let p := skip blank buf in
          if startsb "page" p && has (skipn 4 p) "language=""vb""" then Ok (Some "vb_aspx")
          else
            (* p now points into buf *)
            if loop_ends pl then Ok (Some "cs_aspx") else Ub OutOfBounds
        end
      end
    end.

  (** detector.c:257-279 [disambiguate_asx] *)
  Fixpoint asx_loop (p : list Z) : option string :=
    match p with
    | [] => Some "assembler"
    | c :: r =>
      if blank c || is_eol c then asx_loop r
      else if existsb (Z.eqb c) [60; 0; 239; 254; 255] then None
      else Some "assembler"
    end.
  Definition disambiguate_asx (f : file) : res (option string) := Ok (asx_loop (contents f)).

  (** detector.c:314-371 [disambiguate_basic] *)
  Definition basic_line (line : list Z) (a : unit) : res (unit + option string) :=
    if is_digit (deref line) then
      let p := skip is_digit line in
      if blank (deref p) then
        if is_alnum (deref (skip blank p)) then Ok (inr (Some "classic_basic")) else Ok (inl a)
      else Ok (inl a)
    else Ok (inl a).
  Definition is_vb_name (name : list Z) : bool :=
    existsb (fun e => zlist_eqb (after_dot name) (bytes e)) ["frm"; "frx"; "vba"; "vbp"; "vbs"].
  Definition disambiguate_basic (f : file) : res (option string) :=
    r <- lines_loop f basic_line tt ;;
    match r with
    | inr g => Ok g
    | inl _ =>
      match d_dir f with
      | Some names => if existsb is_vb_name names then Ok (Some "visualbasic") else Ok (Some "structured_basic")
      | None => Ok (Some "structured_basic")
      end
    end.

  (** detector.c:281-312: the loop of [disambiguate_b]; true for Limbo.  After an include that
      does not decide, the scan goes on behind the byte after the blanks (tl; past the
      terminator the loop ends as at the terminator).  A scan for the closing quote that
      starts at the opening quote stays there. *)
  Fixpoint b_loop (fuel : nat) (p : list Z) : res bool :=
    match fuel with
    | O => OutOfFuel
    | S k =>
      match p with
      | [] => Ok false
      | _ =>
        if startsb "implement" p && blank (deref (skipn 9 p)) then Ok true
        else if startsb "include" p && blank (deref (skipn 7 p)) then
          let p := skip blank (skipn 7 p) in
          if startsb """;" p then Ok true else b_loop k (tl p)
        else if startsb "return" p || startsb "break" p || startsb "continue" p then
          if has p ";" then Ok true else b_loop k (tl p)
        else if startsb "pick" p || startsb "case" p then
          if has p "{" then Ok true else b_loop k (tl p)
        else b_loop k (tl p)
      end
    end.
  Definition disambiguate_b (f : file) : res (option string) :=
    limbo <- b_loop (S (length (contents f))) (contents f) ;;
    if (limbo : bool) then Ok (Some "limbo") else disambiguate_basic f.

  (** detector.c:373-380 [disambiguate_cs] *)
  Definition disambiguate_cs (f : file) : res (option string) :=
    match d_contents f with
    | Some c => Ok (if has c "<?cs" then Some "clearsilver_template" else Some "csharp")
    | None => Ok (Some "csharp")
    end.

  (** detector.c:382-415 [disambiguate_dat] *)
  Fixpoint dat_loop (p : list Z) : option string :=
    match p with
    | [] => None
    | c :: r =>
      if blank c || is_eol c then dat_loop r
      else if c =? 47 then if deref r =? 42 then Some "ampl" else None
      else if c =? 35 then Some "ampl"
      else if c =? 100 then if startsb "data" p then Some "ampl" else Some binary
      else if c =? 112 then if startsb "param" p then Some "ampl" else Some binary
      else if c =? 115 then if startsb "set" p then Some "ampl" else Some binary
      else Some binary
    end.
  Definition disambiguate_dat (f : file) : res (option string) := Ok (dat_loop (contents f)).

  (** detector.c:417-440 [disambiguate_def] *)
  Fixpoint def_loop (p : list Z) : option string :=
    match p with
    | [] => None
    | c :: r =>
      if blank c || is_eol c then def_loop r
      else if c =? 40 then if deref r =? 42 then Some "modula2" else None
      else if c =? 68 then if startsb "DEFINITION" p then Some "modula2" else None
      else None
    end.
  Definition disambiguate_def (f : file) : res (option string) := Ok (def_loop (contents f)).

  (** detector.c:442-471 [disambiguate_fs]; the counters have no bound here (long). *)
  Fixpoint fs_loop (fuel : nat) (p : list Z) (forth fsharp : Z) : res (Z * Z) :=
    match fuel with
    | O => OutOfFuel
    | S k =>
      if deref p =? 0 then Ok (forth, fsharp)
      else
        let p := skip blank p in
        let '(forth, fsharp) :=
          if startsb "\ " p then (forth + 1, fsharp)
          else if startsb ": " p then (forth + 1, fsharp)
          else if startsb "|" p then (forth, fsharp + 1)
          else if startsb "let " p then (forth, fsharp + 1)
          else if startsb "type " p then (forth, fsharp + 1)
          else if startsb "//" p then (forth, fsharp + 1)
          else (forth, fsharp) in
        let p := skip (fun c => negb (c =? 0) && negb (is_eol c)) p in
        fs_loop k (skip is_eol p) forth fsharp
    end.
  Definition disambiguate_fs (f : file) : res (option string) :=
    match d_contents f with
    | None => Ok None
    | Some c =>
      '(forth, fsharp) <- fs_loop (S (length c)) c 0 0 ;;
      Ok (if forth >? fsharp then Some "forth" else if forth <? fsharp then Some "fsharp" else None)
    end.

  (** detector.c:512-524: skipping a quoted part; p is at the opening quote [q], the result
      at the closing quote or the end of the line, with the new column. *)
  Definition quoted (q : Z) (p : list Z) (i : Z) : list Z * Z :=
    if deref p =? q then
      let p' := skip (fun c => negb (c =? q) && negb (is_eol c)) (tl p) in
      (p', i + (zlen p - zlen p'))
    else (p, i).

  (** detector.c:488-531: the rest of a statement line from column [i]; None: free format. *)
  Fixpoint fortran_line (fuel : nat) (p : list Z) (i : Z) (blanklabel : bool)
    : res (option (list Z)) :=
    match fuel with
    | O => OutOfFuel
    | S k =>
      match p with
      | [] => Ok (Some [])
      | c :: r =>
        if is_eol c then Ok (Some p)
        else
          let p := r in
          let i := i + 1 in
          let c := deref p in
          let blanklabel := if i <=? 5 then blanklabel && (c =? 32) else blanklabel in
          if (i <=? 5) && negb (is_digit c) && negb (c =? 32) && negb (c =? 33) then Ok None
          else if (i =? 6) && negb blanklabel && negb (c =? 32) && negb (c =? 48) then Ok None
          else if (c =? 33) && negb (i =? 6) then
            fortran_line k (skip (fun c => negb (is_eol c)) p) i blanklabel
          else
            let '(p, i) := quoted 34 p i in
            let '(p, i) := quoted 39 p i in
            if (6 <? i) && (i <=? 72) && (deref p =? 38) then Ok None
            else fortran_line k p i blanklabel
      end
    end.

  (** detector.c:473-544 [disambiguate_fortran]; true for fixed format *)
  Fixpoint fortran_loop (fuel : nat) (p : list Z) : res bool :=
    match fuel with
    | O => OutOfFuel
    | S k =>
      match p with
      | [] => Ok true
      | c :: r =>
        if blank c || is_digit c then
          q <- fortran_line (S (length p)) p (if c =? 9 then 5 else 1) (blank c) ;;
          match q with
          | None => Ok false
          | Some p => fortran_loop k (skip is_eol p)
          end
        else if existsb (Z.eqb c) [67; 99; 42; 33] then
          fortran_loop k (skip is_eol (skip (fun c => negb (is_eol c)) p))
        else Ok false
      end
    end.
  Definition disambiguate_fortran (f : file) : res (option string) :=
    fixed <- fortran_loop (S (length (contents f))) (contents f) ;;
    Ok (Some (if (fixed : bool) then "fortranfixed" else "fortranfree")).

  (** detector.c:581-611: an include line of a C++ header *)
  Definition h_include (line : list Z) : res bool :=
    if deref line =? 35 then
      let p := skip blank (tl line) in
      if startsb "include" p && blank (deref (skipn 7 p)) then
        let p := skip blank (skipn 8 p) in
        if (deref p =? 60) || (deref p =? 34) then
          let p := tl p in
          let pe := skip (fun c => negb (c =? 62) && negb (c =? 34)) p in
          _ <- store 81 (zlen p - zlen pe) ;;
          match lookup cppheaders (upto p pe) with
          | Some _ => Ok true
          | None =>
            let ext := after_dot (upto line pe) in
            _ <- store 81 (zlen ext) ;;
            match lookup extensions ext with
            | Some v => Ok (v =? "cpp")%string
            | None => Ok false
            end
          end
        else Ok false
      else Ok false
    else Ok false.

  (** detector.c:613-631: the keyword loop; [prev] is the byte before [p], None where reading
      it is undefined. *)
  Fixpoint h_keywords (fuel : nat) (prev : option Z) (p : list Z) : res bool :=
    match fuel with
    | O => OutOfFuel
    | S k =>
      match p with
      | [] => Ok false
      | c :: r =>
        if is_lower c then
          match prev with
          | None => Ub OutOfBounds
          | Some b =>
            if negb (is_alnum b) && negb (b =? 95) then
              let pe := skip is_lower p in
              let word := upto p pe in
              found <- (if negb (is_alnum (deref pe)) && negb (deref pe =? 95) then
                          _ <- store 81 (zlen word) ;;
                          Ok (existsb (fun w => zlist_eqb word (bytes w))
                                      ["class"; "namespace"; "template"; "typename"])
                        else Ok false) ;;
              if (found : bool) then Ok true
              else h_keywords k (Some (deref pe)) (tl pe)
            else h_keywords k (Some c) r
          end
        else h_keywords k (Some c) r
      end
    end.

  Definition h_line (line : list Z) (a : unit) : res (unit + option string) :=
    inc <- h_include line ;;
    if (inc : bool) then Ok (inr (Some "cpp"))
    else
      kw <- h_keywords (S (length line)) (before_line pl) line ;;
      if (kw : bool) then Ok (inr (Some "cpp")) else Ok (inl a).

  (** detector.c:546-641 [disambiguate_h] *)
  Definition disambiguate_h (f : file) : res (option string) :=
    objc <- (if zlist_eqb (d_ext f) (bytes "h") then
               (* char path[length]; path[length] = '\0'; the last byte becomes 'm' *)
               _ <- vla (zlen (d_filename f)) ;;
               let path := firstn (length (d_filename f) - 1) (d_filename f) ++ [109] in
               Ok (match d_dir f with
                   | Some names => existsb (zlist_eqb path) names
                   | None => false
                   end)
             else Ok false) ;;
    if (objc : bool) then Ok (Some "objective_c")
    else
      r <- lines_loop f h_line tt ;;
      match r with
      | inr g => Ok g
      | inl _ => Ok (Some "c")
      end.

  (** detector.c:677-690 [disambiguate_inc]: the loop ends before the first NUL *)
  Fixpoint inc_loop (p : list Z) : option string :=
    match p with
    | [] => None
    | c :: r =>
      if c =? 0 then Some binary
      else if (c =? 63) && startsb "php" r then Some "php"
      else inc_loop r
    end.
  Definition disambiguate_inc (f : file) : res (option string) :=
    match d_contents f with
    | Some c => Ok (inc_loop (cstr c))
    | None => Ok None
    end.

  (** detector.c:692-861 [disambiguate_m] *)
  Record scores := mkScores {
    mathematica : Z; matlab : Z; objc : Z; limbo : Z; octave : bool
  }.

  (** detector.c:703-735: what the other files of the directory say.  A name is looked at in
      one of the three ways only, by its length. *)
  Definition m_dir_one (name : list Z) : option bool :=   (* Some true: C file, Some false: header *)
    let n := length name in
    let tail k := skipn (n - k) name in
    if (4 <=? n)%nat then
      if existsb (fun e => zlist_eqb (tail 4%nat) (bytes e)) [".cpp"; ".c++"; ".cxx"] then Some true
      else None
    else if (3 <=? n)%nat then
      if zlist_eqb (tail 3%nat) (bytes ".cc") then Some true else None
    else if (2 <=? n)%nat then
      if zlist_eqb (tail 2%nat) (bytes ".h") then Some false
      else if zlist_eqb (tail 2%nat) (bytes ".c") || zlist_eqb (tail 2%nat) (bytes ".C") then Some true
      else None
    else None.
  Fixpoint m_dir (names : list (list Z)) (has_h : bool) : bool * bool :=
    match names with
    | [] => (has_h, false)
    | n :: r =>
      match m_dir_one n with
      | Some true => (has_h, true)
      | Some false => m_dir r true
      | None => m_dir r has_h
      end
    end.

  (** detector.c:750-788: tell-tale lines *)
  Definition m_telltale (line : list Z) (s : scores) : scores :=
    let p := skip blank line in
    let c := deref p in
    let 'mkScores ma ml ob li oc := s in
    if c =? 37 then mkScores ma (ml + 1) ob li oc
    else if (c =? 35) && startsb "#import" p then mkScores ma ml (ob + 1) li oc
    else if c =? 35 then
      let p := skip (Z.eqb 35) p in
      if blank (deref p) then mkScores ma (ml + 1) ob (li + 1) true else s
    else if startsb "//" p || startsb "/*" p then mkScores ma ml (ob + 1) li oc
    else if (c =? 43) || (c =? 45) then mkScores ma ml (ob + 1) li oc
    else if (c =? 64) || (c =? 35) then
      if startsb "@implementation" p || startsb "@interface" p then mkScores ma ml (ob + 1) li oc
      else s
    else if startsb "function" p then
      let p := skip blank (skipn 8 p) in
      if deref p =? 40 then mkScores ma (ml + 1) ob li oc else s
    else s.
    (* detector.c:777-788, the include of Limbo: at the quote, the byte before is a blank, never 'm' *)

  (** detector.c:790-808: Octave keywords *)
  Fixpoint m_octave (fuel : nat) (prev : option Z) (p : list Z) : res bool :=
    match fuel with
    | O => OutOfFuel
    | S k =>
      match p with
      | [] => Ok false
      | c :: r =>
        match prev with
        | Some b =>
          if is_lower c && negb (is_alnum b) then
            let pe := skip (fun c => is_lower c || (c =? 95)) p in
            let word := upto p pe in
            found <- (if negb (is_alnum (deref pe)) then
                        _ <- store 81 (zlen word) ;;
                        Ok (existsb (fun w => zlist_eqb word (bytes w))
                                    ["end_try_catch"; "end_unwind_protect"; "endfunction"; "endwhile"])
                      else Ok false) ;;
            rest <- m_octave k (Some (deref pe)) (tl pe) ;;
            Ok ((found : bool) || rest)
          else m_octave k (Some c) r
        | None => m_octave k (Some c) r
        end
      end
    end.

  (** detector.c:810-824: Limbo declarations *)
  Definition m_declaration (p : list Z) : bool :=
    (startsb "module" p && negb (is_alnum (deref (skipn 6 p))))
    || (startsb "adt" p && negb (is_alnum (deref (skipn 3 p))))
    || (startsb "fn (" p || startsb "fn(" p)
    || (startsb "con" p && blank (deref (skipn 3 p))).
  Fixpoint m_limbo (fuel : nat) (p : list Z) : res Z :=
    match fuel with
    | O => OutOfFuel
    | S k =>
      match p with
      | [] => Ok 0
      | c :: r =>
        if (c =? 58) && blank (deref r) then
          n <- m_limbo k (tl r) ;;
          Ok (if m_declaration (tl r) then n + 1 else n)
        else m_limbo k r
      end
    end.

  (** detector.c:826-842: Mathematica operators *)
  Fixpoint m_mathematica (fuel : nat) (p : list Z) : res Z :=
    match fuel with
    | O => OutOfFuel
    | S k =>
      match p with
      | [] => Ok 0
      | c :: r =>
        let p := if c =? 38 then skip blank r else p in
        let one (b : bool) := if b then 1 else 0 in
        let post := one ((c =? 38) && existsb (Z.eqb (deref p)) [44; 41; 93]) in
        n <- m_mathematica k (tl p) ;;
        Ok (post + one (startsb "(*" p) + one (startsb "/." p) + one (startsb "__" p)
            + one (startsb "@@" p) + n)
      end
    end.

  Definition m_line (line : list Z) (s : scores) : res (scores + option string) :=
    let s := m_telltale line s in
    oc <- m_octave (S (length line)) None line ;;
    li <- m_limbo (S (length line)) line ;;
    ma <- m_mathematica (S (length line)) line ;;
    Ok (inl (mkScores (mathematica s + ma) (matlab s) (objc s) (limbo s + li) (octave s || oc))).

  Definition disambiguate_m (f : file) : res (option string) :=
    let '(has_h, has_c) := match d_dir f with Some names => m_dir names false | None => (false, false) end in
    r <- lines_loop f m_line (mkScores 0 0 (if has_h && negb has_c then 5 else 0) 0 false) ;;
    match r with
    | inr g => Ok g
    | inl s =>
      Ok (Some
        (if (limbo s >? objc s) && (limbo s >? matlab s) && (limbo s >? mathematica s) then "limbo"
         else if (objc s >? matlab s) && (objc s >? mathematica s) then "objective_c"
         else if mathematica s >? matlab s then "mathematica"
         else if octave s then "octave" else "matlab"))
    end.

  (** detector.c:863-890 [disambiguate_mod] *)
  Fixpoint mod_loop (p : list Z) : option string :=
    match p with
    | [] => None
    | c :: r =>
      if blank c || is_eol c then mod_loop r
      else if c =? 40 then if deref r =? 42 then Some "modula2" else None
      else if c =? 73 then if startsb "IMPLEMENTATION" p then Some "modula2" else None
      else if c =? 77 then if startsb "MODULE" p then Some "modula2" else None
      else Some "ampl"
    end.
  Definition disambiguate_mod (f : file) : res (option string) := Ok (mod_loop (contents f)).

  (** detector.c:895-900 [mystrnlen]: the text given to PCRE *)
  Definition text_for_pcre (n : Z) (c : list Z) : list Z := firstn (Z.to_nat n) (cstr c).

  (** detector.c:902-929 [disambiguate_pp] *)
  Definition re_puppet1 : string :=
    "^\s*(ensure|content|notify|require|source)\s+=>".
  Definition re_puppet2 : string :=
    "^\s*(define\s+[\w:-]+\s*\(|class\s+[\w:-]+(\s+inherits\s+[\w:-]+)?\s*[\({]|node\s+\'?[\w:\.-]+\'?\s*{|import\s+""|include\s+[""']?[\w:-][""']?)".
  Definition disambiguate_pp (f : file) : res (option string) :=
    match d_contents f with
    | None => Ok None
    | Some c =>
      let t := text_for_pcre 10000 c in
      Ok (Some (if pcre re_puppet1 t || pcre re_puppet2 t then "puppet" else "pascal"))
    end.

  (** detector.c:931-949 [disambiguate_pl]; anchored, caseless *)
  Definition re_perl : string := "#![^\n]*perl".
  Definition disambiguate_pl (f : file) : res (option string) :=
    match d_contents f with
    | None => Ok None
    | Some c =>
      if pcre re_perl (text_for_pcre 100 c) then Ok (Some "perl")
      else if has c ":- " then Ok (Some "prolog")
      else match strstr c [58; 45; 10] with
           | Some _ => Ok (Some "prolog")
           | None => Ok (Some "perl")
           end
    end.

  (** detector.c:951-967 [disambiguate_pro] *)
  Fixpoint pro_loop (p : list Z) : bool :=
    match p with
    | [] => false
    | _ :: r =>
      existsb (fun w => startsb w p) ["SOURCES +="; "SOURCES+="; "CONFIG +="; "CONFIG+="] || pro_loop r
    end.
  Definition disambiguate_pro (f : file) : res (option string) :=
    Ok (Some (if pro_loop (contents f) then "make" else "idl_pvwave")).

  (** detector.c:969-987 [disambiguate_r] *)
  Fixpoint r_loop (p : list Z) : bool :=
    match p with
    | [] => false
    | _ :: r => if zlen p >? 5 then starts_nocase (bytes "rebol") p || r_loop r else false
    end.
  Definition disambiguate_r (f : file) : res (option string) :=
    match d_contents f with
    | None => Ok (Some "r")
    | Some c => Ok (Some (if r_loop c then "rebol" else "r"))
    end.

  (** detector.c:989-1016 [disambiguate_rs] *)
  Fixpoint rs_loop (p : list Z) : bool :=
    match p with
    | [] => false
    | _ :: r => if zlen p >? 16 then starts (10 :: bytes "#pragma version") p || rs_loop r else false
    end.
  Definition disambiguate_rs (f : file) : res (option string) :=
    match d_contents f with
    | None => Ok (Some "rust")
    | Some c =>
      if starts_nocase (bytes "#pragma version") c then Ok None
      else Ok (if rs_loop c then None else Some "rust")
    end.

  (** detector.c:1018-1058 [disambiguate_st]: the three things found so far *)
  Definition found : Type := bool * bool * bool.
  Definition found_all (s : found) : bool := let '(a, b, c) := s in a && b && c.
  Fixpoint st_line (fuel : nat) (p : list Z) (s : found) : res (found + option string) :=
    match fuel with
    | O => OutOfFuel
    | S k =>
      match p with
      | [] => Ok (inl s)
      | c :: r =>
        let '(assignment, start, end_) := s in
        let '(p, s) :=
          if c =? 58 then
            let p := skip blank r in
            if deref p =? 61 then (p, (true, start, end_))
            else if deref p =? 91 then (p, (assignment, true, end_))
            else (p, s)
          else if (c =? 93) && (deref r =? 46) then (p, (assignment, start, true))
          else (p, s) in
        if found_all s then Ok (inr (Some "smalltalk"))
        else st_line k (tl p) s
      end
    end.
  Definition disambiguate_st (f : file) : res (option string) :=
    r <- lines_loop f (fun line => st_line (S (length line)) line) (false, false, false) ;;
    match r with
    | inr g => Ok g
    | inl _ => Ok None
    end.

  (** ** The mode line *)

  (** detector.c:142-157: the first line, or the line after it if it starts with "#!".  The
      array [line] (81 zero bytes at first) keeps what earlier, longer lines left in it.
      Result: the array.  Blank lines after "#!" are skipped together; if the file ends there
      the last line remains. *)
  Fixpoint mode_array (fuel : nat) (p : list Z) (arr : list Z) : res (list Z) :=
    match fuel with
    | O => OutOfFuel
    | S k =>
      match p with
      | [] => Ok arr
      | _ =>
        let pe := skip (fun c => negb (is_eol c)) p in
        let l := upto p pe in
        let length := if zlen l <=? 81 then zlen l else 81 in
        _ <- store 81 length ;;
        let n := Z.to_nat length in
        (* strncpy stops at a NUL and fills up with NULs *)
        let s := cstr (firstn n l) in
        let arr := s ++ repeat 0 (n - List.length s) ++ [0] ++ skipn (S n) arr in
        if startsb "#!" arr then mode_array k (skip is_eol pe) arr else Ok arr
      end
    end.

  (** detector.c:168: while (!isspace( *pe) && *pe != ';' && pe != strstr(pe, "-*-")) pe++; in
      the array, of which at most 81 bytes can be read. *)
  Fixpoint mode_end (p : list Z) : res (list Z) :=
    match p with
    | [] => Ub OutOfBounds
    | c :: r =>
      if is_space c || (c =? 59) || startsb "-*-" p then Ok p else mode_end r
    end.

  (** detector.c:158-200; the outer None: no language found, go on *)
  Definition find_named (name : list Z) : option string :=
    match language_named name with
    | Some g => Some g
    | None => lookup extensions name
    end.
  Definition emacs_mode (f : file) : res (option string) :=
    arr <- mode_array (S (length (contents f))) (contents f) (repeat 0 81%nat) ;;
    match strstr arr (bytes "-*-") with
    | None => Ok None
    | Some p =>
      let p := skip blank (skipn 3 p) in
      let p := if starts_nocase (bytes "mode") p then skip (fun c => blank c || (c =? 58)) (skipn 4 p) else p in
      pe <- mode_end (firstn (81 - (length arr - length p)) p) ;;
      let n := zlen (firstn (81 - (length arr - length p)) p) - zlen pe in
      _ <- store 81 n ;;
      (* strncpy stops at a NUL: then the length given to the tables is not the length of
         the string, and nothing is found there *)
      let buf := firstn (Z.to_nat n) p in
      if zlist_eqb (map to_lower (cstr buf)) (bytes "c") then Ok (Some "c")
      else if negb (zlen (cstr buf) =? n) then Ok None
      else
        match find_named buf with
        | Some v => Ok (Some v)
        | None => Ok (find_named (map to_lower buf))
        end
    end.

  (** ** detector.c:120-225 [ohcount_detect_language] *)

  (** sourcefile.c:22-40 applied to a heap copy (PathModel): ext and filename; a path
      without '.', '/' and '\' reads the byte before it. *)
  Definition path_fields (path : list Z) : res (list Z * list Z) :=
    match sourcefile_new path with
    | Ok s => Ok (ext_of path s, filename_of path s)
    | Ub w =>
      match before_path pl with
      | Some b => Ok (if b =? 46 then path else [], path)
      | None => Ub w
      end
    | OutOfFuel => OutOfFuel
    end.

  (** detector.c:125-138: the two lookups by extension *)
  Definition by_extension (f : file) : option string :=
    match lookup extensions (d_ext f) with
    | Some v => Some v
    | None => lookup extensions (map to_lower (d_ext f))
    end.

  (** [special]: the mode "c" ends the function at once (detector.c:174-176) with LANG_C,
      which is not ambiguous, so that it makes no difference here. *)
  Definition first_guess (f : file) : res (option string) :=
    match by_extension f with
    | Some v => Ok (Some v)
    | None =>
      m <- emacs_mode f ;;
      match m with
      | Some v => Ok (Some v)
      | None =>
        match lookup filenames (d_filename f) with
        | Some v => Ok (Some v)
        | None => detect_magic f
        end
      end
    end.

  Fixpoint detect (fuel : nat) (f : file) : res (option string) :=
    match fuel with
    | O => OutOfFuel
    | S k =>
      (* detector.c:643-675 [disambiguate_in] *)
      let disambiguate_in (f : file) : res (option string) :=
        let p := d_path f in
        let n := zlen p - 3 in
        let early := match strstr p (bytes ".") with
                     | Some q => zlen p - zlen q <=? n
                     | None => true            (* NULL is below every pointer *)
                     end in
        if early then
          _ <- vla n ;;
          let buf := firstn (Z.to_nat n) p in
          match d_contents f with
          | None => Ok None
          | Some c =>
            '(ext, name) <- path_fields buf ;;
            detect k (mkFile buf ext name (d_disk f) (Some (cstr c)) (d_dir f))
          end
        else Ok None in
      let disambiguate (d : func) : res (option string) :=
        match d with
        | F_aspx => disambiguate_aspx f
        | F_asx => disambiguate_asx f
        | F_b => disambiguate_b f
        | F_basic => disambiguate_basic f
        | F_cs => disambiguate_cs f
        | F_dat => disambiguate_dat f
        | F_def => disambiguate_def f
        | F_fortran => disambiguate_fortran f
        | F_fs => disambiguate_fs f
        | F_h => disambiguate_h f
        | F_in => disambiguate_in f
        | F_inc => disambiguate_inc f
        | F_m => disambiguate_m f
        | F_mod => disambiguate_mod f
        | F_pl => disambiguate_pl f
        | F_pp => disambiguate_pp f
        | F_pro => disambiguate_pro f
        | F_r => disambiguate_r f
        | F_rs => disambiguate_rs f
        | F_st => disambiguate_st f
        end in
      g <- first_guess f ;;
      match g with
      | None => Ok None
      | Some v =>
        if is_ambiguous v then
          match lookup disambiguators (bytes (ambiguous_what v)) with
          | Some d => disambiguate d
          | None => Ok (Some v)
          end
        else Ok (if is_binary v then None else Some v)
      end
    end.

  (** The recursion of disambiguate_in shortens the path. *)
  Definition ohcount_detect_language (f : file) : res (option string) :=
    detect (S (length (d_path f))) f.

  (** detector.c:1060-1077 [ohcount_is_binary_filename] *)
  Definition is_binary_filename (name : list Z) : res bool :=
    if existsb (Z.eqb 46) name then
      let p := after_dot name in
      match lookup extensions p with
      | Some v => Ok (is_binary v)
      | None =>
        _ <- vla (zlen p) ;;
        match lookup extensions (map to_lower p) with
        | Some v => Ok (is_binary v)
        | None => Ok false
        end
      end
    else Ok false.
End Detector.
