(** licenses.c: licence detection.  The regular expression library is an argument [exec];
    [exec fl re t] is what pcre_exec reports for the expression [re] compiled with [fl] on
    the text [t]: the first two elements of ovector, [None] for a negative result.
    RegexModel.exec is one such argument. *)
From Coq Require Import ZArith String List Bool.
From Verif Require Import Base Arr ParsedModel RegexModel LicenseTable.
Import ListNotations.
Open Scope string_scope.
Open Scope Z_scope.
Open Scope list_scope.

(** licenses.c:737-761 [compile_regexps]: PCRE_MULTILINE implies PCRE_DOTALL. *)
Definition compile_flags (o : opts) : flags := mkFlags (o_caseless o) (o_multiline o) (o_multiline o).

(** ispunct of the C locale.  For bytes above 127 the argument is a negative char, for which
    the C library (glibc) answers no. *)
Definition ispunct (c : Z) : bool :=
  ((33 <=? c) && (c <=? 47)) || ((58 <=? c) && (c <=? 64)) || ((91 <=? c) && (c <=? 96)) || ((123 <=? c) && (c <=? 126)).

(** ** Normalisation of the comments *)
(** licenses.c:814: while ( *p == ' ' || *p == '\t' || ispunct( *p)) p++; *)
Fixpoint skip_lead (fuel : nat) (c : list Z) (p : Z) : res Z :=
  match fuel with
  | O => OutOfFuel
  | S k =>
    x <- src c p ;;
    if (x =? 32) || (x =? 9) || ispunct x then skip_lead k c (p + 1) else Ok p
  end.

(** licenses.c:816-817: the contents of the line *)
Fixpoint copy_line (fuel : nat) (c : list Z) (p_max q_max : Z) (p : Z) (b : arr) (q : Z) : res (Z * arr * Z) :=
  match fuel with
  | O => OutOfFuel
  | S k =>
    if p <? p_max then
      x <- src c p ;;
      if negb (x =? 13) && negb (x =? 10) && (q <? q_max) then
        b <- aset b q x ;; copy_line k c p_max q_max (p + 1) b (q + 1)
      else Ok (p, b, q)
    else Ok (p, b, q)
  end.

(** licenses.c:819: while ( *p == '\r' || *p == '\n') p++; *)
Fixpoint skip_newlines (fuel : nat) (c : list Z) (p : Z) : res Z :=
  match fuel with
  | O => OutOfFuel
  | S k =>
    x <- src c p ;;
    if (x =? 13) || (x =? 10) then skip_newlines k c (p + 1) else Ok p
  end.

(** licenses.c:812-822: the loop over the lines *)
Fixpoint normalise_loop (fuel : nat) (c : list Z) (p_max q_max : Z) (p : Z) (b : arr) (q : Z) : res (arr * Z) :=
  match fuel with
  | O => OutOfFuel
  | S k =>
    if (p <? p_max) && (q <? q_max) then
      let n := S (S (length c)) in
      p <- skip_lead n c p ;;
      '(p, b, q) <- copy_line n c p_max q_max p b q ;;
      p <- skip_newlines n c p ;;
      if q <? q_max then
        b <- aset b q 32 ;; normalise_loop k c p_max q_max p b (q + 1)
      else normalise_loop k c p_max q_max p b q
    else Ok (b, q)
  end.

(** The [n] bytes from [i] on, as pcre_exec reads them. *)
Fixpoint read_bytes (n : nat) (b : arr) (i : Z) : res (list Z) :=
  match n with
  | O => Ok []
  | S k => x <- aget b i ;; r <- read_bytes k b (i + 1) ;; Ok (x :: r)
  end.

(** licenses.c:800-823: the buffer given to pcre_exec.  [c] is the string comments, without
    its NUL; the comments of a parsed language are never NULL (parsed_language.c:15). *)
Definition normalise (c : list Z) : res (list Z) :=
  let len := Z.of_nat (length c) in
  n <- ckint (len + 1) ;;
  '(b, q) <- normalise_loop (S (length c)) c len n 0 (anew n) 0 ;;
  b <- (if q <? n then aset b q 0 else Ok b) ;;
  read_bytes (Z.to_nat q) b 0.

(** ** Matching *)
Section Engine.
  Variable exec : flags -> string -> list Z -> option (Z * Z).

  (** buffer + m0, m1 - m0 (licenses.c:833) *)
  Definition stretch (t : list Z) (m0 m1 : Z) : res (list Z) :=
    if (0 <=? m0) && (m0 <=? m1) && (m1 <=? Z.of_nat (length t))
    then Ok (firstn (Z.to_nat (m1 - m0)) (skipn (Z.to_nat m0) t))
    else Ub OutOfBounds.

  (** licenses.c:828-837: the match of an entry, unless it is to be excluded. *)
  Definition candidate (t : list Z) (l : license) : res (option (Z * Z)) :=
    match exec (compile_flags (l_re_flags l)) (l_re l) t with
    | None => Ok None
    | Some (m0, m1) =>
      match l_exclude_re l with
      | None => Ok (Some (m0, m1))
      | Some x =>
        s <- stretch t m0 m1 ;;
        match exec (compile_flags (l_exclude_re_flags l)) x s with
        | Some _ => Ok None
        | None => Ok (Some (m0, m1))
        end
      end
    end.

  (** licenses.c:838-853: the loop over the entries before this one.  [done] is
      potential_licenses_s/_e below j; the result has the new values and those of j. *)
  Fixpoint sweep (m0 m1 : Z) (done : list (Z * Z)) (cur : Z * Z) : list (Z * Z) * (Z * Z) :=
    match done with
    | [] => ([], cur)
    | (s, e) :: r =>
      let cur := if ((s <? m0) && (m1 <=? e)) || ((s <=? m0) && (m1 <? e)) then (-1, -1) else cur in
      let k := if ((m0 <? s) && (e <=? m1)) || ((m0 <=? s) && (e <? m1)) then (-1, -1) else (s, e) in
      let '(r, cur) := sweep m0 m1 r cur in
      (k :: r, cur)
    end.

  (** licenses.c:825-855: the loop over the entries *)
  Fixpoint scan (t : list Z) (ls : list license) (done : list (Z * Z)) : res (list (Z * Z)) :=
    match ls with
    | [] => Ok done
    | l :: r =>
      m <- candidate t l ;;
      match m with
      | None => scan t r (done ++ [(-1, -1)])
      | Some (m0, m1) =>
        let '(done, cur) := sweep m0 m1 done (m0, m1) in
        scan t r (done ++ [cur])
      end
    end.

  (** licenses.c:798-857: the loop over the languages, which starts over for each. *)
  Fixpoint languages (cs : list (list Z)) (found : list (Z * Z)) : res (list (Z * Z)) :=
    match cs with
    | [] => Ok found
    | c :: r => t <- normalise c ;; found <- scan t license_map [] ;; languages r found
    end.

  (** licenses.c:763-776 [OVERRIDE_LICENSE] *)
  Definition override (all : list (license * (Z * Z))) (l : license) (name more : string) : bool :=
    String.eqb (l_name l) name &&
    existsb (fun x => (-1 <? fst (snd x)) && String.eqb (l_name (fst x)) more) all.

  (** licenses.c:862-866 *)
  Definition overridden (all : list (license * (Z * Z))) (l : license) : bool :=
    override all l "gpl" "gpl3" || override all l "gpl" "gpl3_or_later"
    || override all l "gpl3" "gpl3_or_later" || override all l "bsd_2clause_ish" "bsd_ish".

  (** licenses.c:860-881: the list of licences *)
  Definition report (found : list (Z * Z)) : list license :=
    let all := combine license_map found in
    map fst (filter (fun x => (-1 <? fst (snd x)) && negb (overridden all (fst x))) all).

  (** licenses.c:778-885 [ohcount_detect_license], from the comments of the parsed
      languages.  The linked list, which is only appended to, is a Coq list. *)
  Definition detect (cs : list (list Z)) : res (list license) :=
    match cs with
    | [] => Ok []
    | _ => found <- languages cs [] ;; Ok (report found)
    end.

  (** The strings comments of the parsed languages. *)
  Fixpoint comments (pls : list plang) : res (list (list Z)) :=
    match pls with
    | [] => Ok []
    | pl :: r => c <- area_string (p_comments pl) ;; cs <- comments r ;; Ok (c :: cs)
    end.

  Definition ohcount_detect_license (pls : list plang) : res (list license) :=
    cs <- comments pls ;; detect cs.
End Engine.
