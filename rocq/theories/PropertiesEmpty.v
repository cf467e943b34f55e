(** Property C98: empty files. *)
From Coq Require Import ZArith String List Bool Lia.
From Verif Require Import Base ParsedModel PathModel DirModel Tables TablesSpec PropertiesTables DetectorModel DetectorSpec
  DetectProofs DetectProofs2 PropertiesDetect.
From Verif Require Import RagelRun ParserTable ScanSpec PropertiesScan ToolModel.
Import ListNotations.
Open Scope string_scope.
Open Scope Z_scope.
Open Scope list_scope.

(** ** C98 *)

(** No parser reports anything about an empty text, and all of them accept it. *)
Theorem C98_no_lines : forall name fuel, find_entry name <> None -> step_bound [] <= Z.of_nat fuel ->
  ohcount_parse (Some name) [] fuel = Some (Ok []).
Proof.
  intros name fuel Hn Hb.
  assert (Hf : ScanSpec.file []) by (split; [intros c []|vm_compute; discriminate]).
  assert (Hok : exists es, ohcount_parse (Some name) [] fuel = Some (Ok es)).
  { assert (H0 : forall f r, ohcount_parse (Some name) [] f = Some (Ok []) -> ohcount_parse (Some name) [] fuel = Some r -> r <> OutOfFuel -> r = Ok []).
    { intros f r H1 H2 H3. eapply C18_result_unique; eauto. discriminate. }
    destruct (in_dec string_dec name html_like) as [Hh|Hh].
    - destruct (C44_html_like_safe_but_null _ _ _ Hh Hf Hb) as (r & Hr & Hk). exists []. rewrite Hr. f_equal.
      apply (H0 3000%nat r); [|exact Hr|destruct Hk as [->|(es & ->)]; discriminate].
      assert (C : Forall (fun n => ohcount_parse (Some n) [] 3000 = Some (Ok [])) html_like) by (repeat constructor; vm_compute; reflexivity).
      rewrite Forall_forall in C. exact (C _ Hh).
    - destruct (string_dec name "rebol") as [->|Hr]; [|apply C44_scanners_safe; auto].
      destruct (C44_rebol_safe_but_overflow _ _ Hf Hb) as (r & Hr & Hk). exists []. rewrite Hr. f_equal.
      apply (H0 3000%nat r); [vm_compute; reflexivity|exact Hr|destruct Hk as [->|(es & ->)]; discriminate]. }
  destruct Hok as (es & He). rewrite He. do 2 f_equal.
  pose proof (C19_reports_inside_file _ _ _ _ Hf He) as HF. destruct HF as [|e es' Hr _]; [reflexivity|].
  destruct Hr as (_ & _ & H1 & H2). cbn [length] in H2. lia.
Qed.
Print Assumptions C98_no_lines.

(** What the libraries for file types and regular expressions would say is not asked. *)
Theorem C98_name_decides : forall pl magic magic' pcre pcre' f, d_disk f = false -> d_contents f = None ->
  ohcount_detect_language pl magic pcre f = ohcount_detect_language pl magic' pcre' f.
Proof.
  intros pl magic magic' pcre pcre' f Hd Hc. unfold ohcount_detect_language. rewrite !detect_eq.
  assert (E : first_guess pl magic f = first_guess pl magic' f) by (unfold first_guess, detect_magic; rewrite Hd, Hc; reflexivity).
  rewrite E. destruct (first_guess pl magic' f) as [[v|]| |]; cbn [bind]; auto. destruct (is_ambiguous v); auto.
  destruct (lookup disambiguators _) as [d|]; auto. unfold run, run_in, disambiguate_pp, disambiguate_pl. rewrite Hc. destruct d; reflexivity.
Qed.
Print Assumptions C98_name_decides.

(** Without a known extension or name there is no language. *)
Theorem C98_no_language : forall pl magic pcre f, fits pl f -> d_disk f = false -> d_contents f = None ->
  extension_unknown (d_ext f) -> unnamed f -> ohcount_detect_language pl magic pcre f = Ok None.
Proof.
  intros pl magic pcre f [S F] Hd Hc U N. unfold ohcount_detect_language. rewrite !detect_eq.
  assert (E : first_guess pl magic f = Ok None).
  { unfold first_guess. apply unknown_iff in U. rewrite U, (no_mode pl f S F).
    2:{ unfold contents. rewrite Hc. intros (a & b & E). destruct a; discriminate E. }
    cbn [bind]. destruct (lookup filenames (d_filename f)) as [g|] eqn:L.
    - exfalso. apply lookup_in in L as (k & E & I). exact (N k g I (eq_sym E)).
    - unfold detect_magic. rewrite Hd, Hc. reflexivity. }
  rewrite E. reflexivity.
Qed.
Print Assumptions C98_no_language.

(** With an ambiguous extension an empty file has this language. *)
Definition of_empty : list (string * option string) :=
  [("ascx", Some "cs_aspx"); ("aspx", Some "cs_aspx"); ("asx", Some "assembler"); ("b", Some "structured_basic");
   ("bas", Some "structured_basic"); ("bi", Some "structured_basic"); ("cs", Some "csharp"); ("dat", None); ("def", None);
   ("f", Some "fortranfixed"); ("f03", Some "fortranfixed"); ("f08", Some "fortranfixed"); ("f77", Some "fortranfixed");
   ("f90", Some "fortranfixed"); ("f95", Some "fortranfixed"); ("for", Some "fortranfixed"); ("fpp", Some "fortranfixed");
   ("fs", None); ("ftn", Some "fortranfixed"); ("inc", None); ("m", Some "matlab"); ("mod", None); ("pl", None); ("pp", None);
   ("pro", Some "idl_pvwave"); ("r", Some "r"); ("rs", Some "rust"); ("st", None)].
Theorem C98_ambiguous : forall pl magic pcre path name ext g, In (ext, g) of_empty ->
  ohcount_detect_language pl magic pcre (mkFile path (bytes ext) name false None None) = Ok g.
Proof.
  intros pl magic pcre path name ext g H. unfold of_empty in H. cbn [In] in H.
  repeat destruct H as [H|H]; try contradiction; injection H as <- <-; vm_compute; reflexivity.
Qed.
Print Assumptions C98_ambiguous.

(** The tool: a file that is empty or cannot be read has the language that its name gives, and
    nothing is counted. *)
Section Tool.
  Variable pl : platform.
  Variables magic magic' : DetectorModel.file -> list Z.
  Variables pcre pcre' : string -> list Z -> bool.
  Variable content : list Z -> option (list Z).
  Variable fuel : nat.
  Definition nothing (f : item) : Prop := content (fst f) = None \/ content (fst f) = Some [].

  Theorem C98_tool : forall f, nothing f -> step_bound [] <= Z.of_nat fuel ->
    language_of pl magic pcre content f = language_of pl magic' pcre' content f /\
    (forall g, language_of pl magic pcre content f = Ok g ->
       reports_of pl magic pcre content fuel f = Ok [] /\ record_of pl magic pcre content fuel f = Ok []).
  Proof.
    intros f Hn Hb. assert (Hc : contents_of content f = None) by (unfold contents_of; destruct Hn as [-> | ->]; reflexivity).
    split; [unfold language_of; apply C98_name_decides; auto|].
    intros g Hg. assert (Hr : reports_of pl magic pcre content fuel f = Ok []).
    { unfold reports_of. rewrite Hg. cbn [bind]. unfold text_of. rewrite Hc. destruct g as [name|]; [|reflexivity].
      destruct (find_entry name) eqn:E; [rewrite C98_no_lines; auto; congruence|]. unfold ohcount_parse. rewrite E. reflexivity. }
    split; [exact Hr|]. unfold record_of. rewrite Hr. reflexivity.
  Qed.
End Tool.
Print Assumptions C98_tool.

(** ** Cases *)
Lemma pair_in k v : existsb (fun e => String.eqb (fst e) k && String.eqb (snd e) v) extensions = true -> In (k, v) extensions.
Proof.
  intros H. apply existsb_exists in H as ([k' v'] & Hi & H). cbn [fst snd] in H. apply andb_prop in H as [H1 H2].
  apply String.eqb_eq in H1, H2. subst. exact Hi.
Qed.
Example C98_case :
  ohcount_parse (Some "c") [] 3000 = Some (Ok []) /\ step_bound [] = 2304 /\
  (forall pl magic pcre, ohcount_detect_language pl magic pcre (mkFile (bytes "d/a.rs") (bytes "rs") (bytes "a.rs") false None None) = Ok (Some "rust")) /\
  extension_unknown (bytes "zz") /\ listed (bytes "rs").
Proof.
  split; [vm_compute; reflexivity|]. split; [reflexivity|].
  split; [intros; apply C98_ambiguous; unfold of_empty; repeat (try (left; reflexivity); right)|].
  split; [|exists "rs", (ambiguous "rs"); split; [apply pair_in; vm_compute; reflexivity|reflexivity]].
  change (bytes "zz") with (d_ext (mkFile [] (bytes "zz") [] false None None)). apply unknown_iff. vm_compute. reflexivity.
Qed.
