(** Specification of licence detection: what the normalised comments are, and which licences
    are to be reported for them. *)
From Coq Require Import ZArith String List Bool.
From Verif Require Import Base RegexModel DetectorSpec RegexSpec LicenseTable.
Import ListNotations.
Open Scope string_scope.
Open Scope Z_scope.
Open Scope list_scope.

(** ** Normalised comments *)
(** Punctuation: visible, but no letter or digit. *)
Definition Punct (c : Z) : Prop := 33 <= c <= 126 /\ ~ Alnum c.
(** What may stand at the margin of a comment. *)
Definition Margin (c : Z) : Prop := Blank c \/ Punct c.

(** [p] is the line [l] without its margin. *)
Definition without_margin (l p : list Z) : Prop :=
  exists w, l = w ++ p /\ Forall Margin w /\ (forall c r, p = c :: r -> ~ Margin c).

Definition nonempty (l : list Z) : bool := match l with [] => false | _ => true end.

(** The lines of the comments that count: the first, and the others unless empty. *)
Definition kept_lines (t : list Z) : list (list Z) :=
  match t, lines t with
  | [], _ | _, [] => []
  | _, l :: ls => l :: filter nonempty ls
  end.

(** [n] is the text [t] as one line: the lines without their margins, a blank after each. *)
Definition one_line (t n : list Z) : Prop :=
  exists ps, Forall2 without_margin (kept_lines t) ps /\ n = concat (map (fun p => p ++ [32]) ps).

(** ** Licences *)
(** A subsequence: some elements, in the same order. *)
Inductive subsequence {A} : list A -> list A -> Prop :=
| subs_nil l : subsequence [] l
| subs_take x a l : subsequence a l -> subsequence (x :: a) (x :: l)
| subs_skip x a l : subsequence a l -> subsequence a (x :: l).

Section Engine.
  Variable exec : flags -> string -> list Z -> option (Z * Z).

  (** Matches lie within the text. *)
  Definition engine_ok : Prop := forall fl x t m0 m1,
    exec fl x t = Some (m0, m1) -> 0 <= m0 <= m1 /\ m1 <= Z.of_nat (length t).

  (** In multi-line mode a dot matches a line end too. *)
  Definition options (o : opts) : flags :=
    {| f_caseless := o_caseless o; f_multiline := o_multiline o; f_dotall := o_multiline o |}.

  (** The licence is mentioned in [t], at the place [m]; terms that it excludes do not occur
      there. *)
  Definition mentioned (t : list Z) (l : license) (m : Z * Z) : Prop :=
    exec (options (l_re_flags l)) (l_re l) t = Some m /\
    (forall x a s b, l_exclude_re l = Some x -> t = a ++ s ++ b ->
       fst m = Z.of_nat (length a) -> snd m = Z.of_nat (length a + length s) ->
       exec (options (l_exclude_re_flags l)) x s = None).

  (** The place [m] is part of the place [m']. *)
  Definition part_of (m m' : Z * Z) : Prop := fst m' <= fst m /\ snd m <= snd m' /\ m <> m'.

  (** Mentioned, and not just as part of the mention of another licence. *)
  Definition stands (t : list Z) (l : license) (m : Z * Z) : Prop :=
    mentioned t l m /\ forall l' m', In l' license_map -> mentioned t l' m' -> ~ part_of m m'.

  (** Licences that say less than another one. *)
  Definition more_specific : list (string * string) :=
    [("gpl", "gpl3"); ("gpl", "gpl3_or_later"); ("gpl3", "gpl3_or_later"); ("bsd_2clause_ish", "bsd_ish")].

  Definition to_report (t : list Z) (l : license) : Prop :=
    In l license_map /\ (exists m, stands t l m) /\
    ~ exists l' m, In l' license_map /\ In (l_name l, l_name l') more_specific /\ stands t l' m.
End Engine.

(** ** Names of licences in running text *)
(** The words [ws], one after the other, each in any case, with at least [n] separators
    between two of them; [sep] says what may separate. *)
Inductive spelled (sep : list Z -> Prop) : list string -> list Z -> Prop :=
| spelled_last w x : Forall2 same_letter (bytes w) x -> spelled sep [w] x
| spelled_more w ws x g r : Forall2 same_letter (bytes w) x -> sep g -> spelled sep ws r ->
    spelled sep (w :: ws) (x ++ g ++ r).

(** The name stands in [t] as words of their own. *)
Definition named (sep : list Z -> Prop) (ws : list string) (t : list Z) : Prop :=
  exists pre x post, t = pre ++ x ++ post /\ spelled sep ws x /\ ~ ends_in_word pre /\ ~ begins_with_word post.

(** White space, at least [n] characters of it. *)
Definition white_gap (n : nat) (g : list Z) : Prop := Forall WhiteSpace g /\ (n <= length g)%nat.

(** The same in a comment: blanks, or the end of a line and the margin of the next one, or
    several of these. *)
Inductive comment_gap : list Z -> Prop :=
| gap_blanks b : Forall Blank b -> comment_gap b
| gap_line g c m : comment_gap g -> Newline c -> Forall Margin m -> comment_gap (g ++ c :: m).

(** Names by which licences are known, and whether their words must be separated. *)
Definition names_of_licenses : list (string * nat * list string) := [
  ("academic", 0%nat, ["Academic"; "Free"; "License"]);
  ("adaptive", 0%nat, ["Adaptive"; "Public"; "License"]);
  ("affero", 1%nat, ["GNU"; "Affero"; "General"; "Public"; "License"]);
  ("apple_open_source", 0%nat, ["Apple"; "Public"; "Source"; "License"]);
  ("artistic", 0%nat, ["artistic"; "license"]);
  ("boost", 0%nat, ["boost"; "software"; "license"]);
  ("bsd", 0%nat, ["bsd"; "license"]);
  ("cecill", 0%nat, ["cecill"]);
  ("cecill_b", 0%nat, ["cecill-b"]);
  ("cecill_c", 0%nat, ["cecill-c"]);
  ("computer_associates_trusted", 0%nat, ["computer"; "associates"; "trusted"; "open"; "source"; "license"]);
  ("common_development_and_distribution", 0%nat, ["common"; "development"; "and"; "distribution"; "license"]);
  ("common_public", 0%nat, ["common"; "public"; "license"]);
  ("cua_office", 0%nat, ["CUA"; "office"; "public"; "license"]);
  ("eu_datagrid", 0%nat, ["eu"; "datagrid"; "software"; "license"]);
  ("eclipse", 0%nat, ["eclipse"; "public"; "license"]);
  ("educational", 0%nat, ["educational"; "community"; "license"]);
  ("entessa", 0%nat, ["entessa"; "public"; "license"]);
  ("fair", 0%nat, ["fair"; "license"]);
  ("frameworx", 0%nat, ["frameworx"; "license"]);
  ("gpl", 0%nat, ["gpl"]);
  ("gpl", 0%nat, ["gplv2"]);
  ("gpl", 0%nat, ["gnu"; "general"; "public"; "license"]);
  ("gpl", 0%nat, ["www.gnu.org/licenses/gpl.txt"]);
  ("lgpl", 0%nat, ["lgpl"]);
  ("historical", 0%nat, ["historical"; "permission"; "notice"; "and"; "disclaimer"]);
  ("ibm_public", 0%nat, ["ibm"; "public"; "license"]);
  ("intel_open_source", 0%nat, ["intel"; "open"; "source"; "license"]);
  ("jabber_open_source", 0%nat, ["jabber"; "open"; "source"; "license"]);
  ("mit", 0%nat, ["mit"; "license"]);
  ("mitre", 0%nat, ["mitre"; "collaborative"; "virtual"; "workspace"; "license"]);
  ("motosoto", 0%nat, ["motosoto"; "license"]);
  ("mozilla_public_1", 0%nat, ["mozilla"; "public"; "license"]);
  ("nasa_open", 0%nat, ["nasa"; "open"; "source"; "agreement"]);
  ("naumen", 0%nat, ["naumen"; "public"; "license"]);
  ("nethack", 0%nat, ["nethack"; "general"; "public"; "license"]);
  ("nokia_open_source", 0%nat, ["nokia"; "open"; "source"; "license"]);
  ("oclc_research", 0%nat, ["oclc"; "research"; "public"; "license"]);
  ("open_group_test", 0%nat, ["open"; "group"; "test"; "suite"; "license"]);
  ("open_software", 0%nat, ["open"; "software"; "license"]);
  ("php_license", 0%nat, ["php"; "license"]);
  ("python_license", 0%nat, ["python"; "license"]);
  ("python_software_foundation", 0%nat, ["python"; "software"; "foundation"; "license"]);
  ("qt_public", 0%nat, ["qt"; "public"; "license"]);
  ("realnetworks_public_source", 0%nat, ["realnetworks"; "public"; "source"; "license"]);
  ("reciprocal_public", 0%nat, ["reciprocal"; "public"; "license"]);
  ("ricoh_source", 0%nat, ["ricoh"; "source"; "code"; "public"; "license"]);
  ("sleepycat", 0%nat, ["sleepycat"; "license"]);
  ("sugarcrm_1_1_3", 0%nat, ["sugar"; "public"; "license"; "version"; "1.1.3"]);
  ("sun_industry_standards", 0%nat, ["sun"; "industry"; "standards"; "source"; "license"]);
  ("sun_public", 0%nat, ["sun"; "public"; "license"]);
  ("sybase_open_watcom", 0%nat, ["sybase"; "open"; "watcom"; "public"; "license"]);
  ("u_of_i_ncsa", 0%nat, ["university"; "of"; "illinois/ncsa"; "open"; "source"; "license"]);
  ("vovida_software", 0%nat, ["vovida"; "software"; "license"]);
  ("w3c", 0%nat, ["w3c"; "license"]);
  ("wx_windows", 0%nat, ["wxwindows"; "library"; "license"]);
  ("x_net", 0%nat, ["x.net"; "license"]);
  ("zope", 0%nat, ["zope"; "public"; "license"]);
  ("zlib_libpng", 0%nat, ["zlib/libpng"; "license"]);
  ("wtfpl_2", 0%nat, ["wtfpl"]);
  ("wtfpl_2", 0%nat, ["wtf"; "public"; "license"])].
