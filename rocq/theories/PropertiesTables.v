(** Property C29: the gperf tables fit together. *)
From Coq Require Import ZArith String List Bool Lia.
From Verif Require Import Base Tables ParserTable TablesSpec.
Import ListNotations.
Open Scope string_scope.
Open Scope Z_scope.
Open Scope list_scope.

Lemma lookup_in {A} (t : list (string * A)) k v :
  lookup t k = Some v -> exists s, bytes s = k /\ In (s, v) t.
Proof.
  induction t as [|[s w] t IH]; cbn; [discriminate|].
  destruct (zlist_eqb (bytes s) k) eqn:E.
  - intros [= ->]. apply zlist_eqb_eq in E. eauto.
  - intros H. destruct (IH H) as (s' & ? & ?). eauto.
Qed.

Lemma lookup_none {A} (t : list (string * A)) s v :
  lookup t (bytes s) = None -> ~ In (s, v) t.
Proof.
  induction t as [|[s' w] t IH]; cbn; [auto|].
  destruct (zlist_eqb (bytes s') (bytes s)) eqn:E; [discriminate|].
  intros H [I|I]; [injection I as -> ->; rewrite zlist_eqb_refl in E; discriminate|].
  exact (IH H I).
Qed.

Definition has_parserb (g : string) : bool := existsb (fun e => en_name e =? g)%string entries.
Definition is_languageb (g : string) : bool := existsb (fun e => l_name (snd e) =? g)%string languages.
Definition is_keyb (g : string) : bool := existsb (fun e => fst e =? g)%string languages.

Lemma has_parserb_ok g : has_parserb g = true -> has_parser g.
Proof.
  unfold has_parserb, has_parser. rewrite existsb_exists.
  intros (e & I & E). apply String.eqb_eq in E. eauto.
Qed.
Lemma is_languageb_ok g : is_languageb g = true -> is_language g.
Proof.
  unfold is_languageb, is_language. rewrite existsb_exists.
  intros ([k l] & I & E). apply String.eqb_eq in E. cbn in E. eauto.
Qed.
Lemma is_keyb_ok g : is_keyb g = true <-> is_key g.
Proof.
  unfold is_keyb, is_key. rewrite existsb_exists. split.
  - intros ([k l] & I & E). apply String.eqb_eq in E. cbn in E. subst. eauto.
  - intros (l & I). exists (g, l). split; [exact I|apply String.eqb_refl].
Qed.

Definition value_okb (v : string) : bool :=
  (has_parserb v && is_languageb v) || (v =? binary)%string
  || (is_ambiguous v && existsb (fun e => fst e =? ambiguous_what v)%string disambiguators).

Lemma value_okb_ok v : value_okb v = true -> value_ok v.
Proof.
  unfold value_okb. rewrite !orb_true_iff, !andb_true_iff. intros [[[H1 H2]|H]|[H1 H2]].
  - apply Plain; [apply has_parserb_ok|apply is_languageb_ok]; auto.
  - apply String.eqb_eq in H as ->. exact Binary.
  - apply existsb_exists in H2 as ([id d] & I & E). apply String.eqb_eq in E. cbn in E.
    destruct v as [|c v]; [discriminate|]. cbn in E, H1. subst.
    apply Ascii.eqb_eq in H1 as ->. exact (Ambiguous _ _ I).
Qed.

Fixpoint nodupb (l : list string) : bool :=
  match l with
  | [] => true
  | s :: r => negb (existsb (String.eqb s) r) && nodupb r
  end.
Lemma nodupb_ok l : nodupb l = true -> NoDup l.
Proof.
  induction l as [|s l IH]; cbn; [constructor|]. rewrite andb_true_iff, negb_true_iff.
  intros [H1 H2]. constructor; auto. intros I.
  assert (E : existsb (String.eqb s) l = true); [|congruence].
  apply existsb_exists. exists s. split; [exact I|apply String.eqb_refl].
Qed.

(** No key occurs twice, so that a lookup has one answer. *)
Theorem C29_keys_unique :
  NoDup (map fst extensions) /\ NoDup (map fst filenames) /\ NoDup (map fst languages) /\
  NoDup (map fst cppheaders) /\ NoDup (map fst disambiguators).
Proof.
  split; [|split; [|split; [|split]]]; apply nodupb_ok; vm_compute; reflexivity.
Qed.
Print Assumptions C29_keys_unique.

(** Whatever the extension table answers is a language with a parser, `binary`, or an
    existing disambiguator. *)
Theorem C29_extensions_closed : forall ext v,
  lookup extensions ext = Some v -> value_ok v.
Proof.
  assert (C : forallb (fun e => value_okb (snd e)) extensions = true) by (vm_compute; reflexivity).
  intros ext v H. apply lookup_in in H as (s & _ & I).
  rewrite forallb_forall in C. exact (value_okb_ok _ (C _ I)).
Qed.
Print Assumptions C29_extensions_closed.

(** The file name table answers with a language that has a parser. *)
Theorem C29_filenames_closed : forall name g,
  lookup filenames name = Some g -> has_parser g /\ is_language g.
Proof.
  assert (C : forallb (fun e => has_parserb (snd e) && is_languageb (snd e)) filenames = true)
    by (vm_compute; reflexivity).
  intros name g H. apply lookup_in in H as (s & _ & I).
  rewrite forallb_forall in C. specialize (C _ I). apply andb_true_iff in C as [C1 C2].
  split; [apply has_parserb_ok|apply is_languageb_ok]; auto.
Qed.
Print Assumptions C29_filenames_closed.

(** Every language of the language table has a parser, and every parser is for a language of
    the table. *)
Theorem C29_languages_have_parsers : forall g, is_language g <-> has_parser g.
Proof.
  assert (C1 : forallb (fun e => has_parserb (l_name (snd e))) languages = true)
    by (vm_compute; reflexivity).
  assert (C2 : forallb (fun e => is_languageb (en_name e)) entries = true)
    by (vm_compute; reflexivity).
  rewrite forallb_forall in C1, C2. intros g. split.
  - intros (k & l & I & <-). exact (has_parserb_ok _ (C1 _ I)).
  - intros (e & I & <-). exact (is_languageb_ok _ (C2 _ I)).
Qed.
Print Assumptions C29_languages_have_parsers.

(** Every language a parser can report (the values of its language variables) is a language
    of the table. *)
Theorem C29_reported_languages_known : forall e v g,
  In e entries -> In (v, g) (en_vars e) -> is_language g.
Proof.
  assert (C : forallb (fun e => forallb (fun v => is_languageb (snd v)) (en_vars e)) entries = true)
    by (vm_compute; reflexivity).
  rewrite forallb_forall in C. intros e v g I J. specialize (C _ I).
  rewrite forallb_forall in C. exact (is_languageb_ok _ (C _ J)).
Qed.
Print Assumptions C29_reported_languages_known.

(** Expected: a language can be named by its own name.  False: the key of CoffeeScript is
    misspelled, and that of DocTeX is "dtx"; these are the only two. *)
Theorem C29_own_name_refuted : exists g, is_language g /\ has_parser g /\ ~ is_key g.
Proof.
  exists "coffeescript". split; [|split].
  - apply is_languageb_ok. vm_compute. reflexivity.
  - apply has_parserb_ok. vm_compute. reflexivity.
  - rewrite <- is_keyb_ok. vm_compute. discriminate.
Qed.
Print Assumptions C29_own_name_refuted.

Theorem C29_own_name : forall g, is_language g ->
  (is_key g <-> g <> "coffeescript" /\ g <> "tex_dtx").
Proof.
  assert (C : forallb (fun e => eqb (is_keyb (l_name (snd e)))
                (negb (l_name (snd e) =? "coffeescript")%string
                 && negb (l_name (snd e) =? "tex_dtx")%string)) languages = true)
    by (vm_compute; reflexivity).
  rewrite forallb_forall in C. intros g (k & l & I & <-). specialize (C _ I). cbn [fst snd] in C.
  apply eqb_prop in C. rewrite <- is_keyb_ok, C, andb_true_iff, !negb_true_iff, !String.eqb_neq.
  reflexivity.
Qed.
Print Assumptions C29_own_name.

(** A key other than the name leads to the same language for these three keys only. *)
Theorem C29_aliases : forall k l, In (k, l) languages -> k <> l_name l ->
  (k, l_name l) = ("bash", "shell") \/ (k, l_name l) = ("coffescript", "coffeescript") \/
  (k, l_name l) = ("dtx", "tex_dtx").
Proof.
  assert (C : forallb (fun e => (fst e =? l_name (snd e))%string
     || ((fst e =? "bash")%string && (l_name (snd e) =? "shell")%string)
     || ((fst e =? "coffescript")%string && (l_name (snd e) =? "coffeescript")%string)
     || ((fst e =? "dtx")%string && (l_name (snd e) =? "tex_dtx")%string)) languages = true)
    by (vm_compute; reflexivity).
  rewrite forallb_forall in C. intros k l I N. specialize (C _ I). cbn [fst snd] in C.
  rewrite !orb_true_iff, !andb_true_iff, !String.eqb_eq in C.
  destruct C as [[[C|[-> ->]]|[-> ->]]|[-> ->]]; auto. contradiction.
Qed.
Print Assumptions C29_aliases.

Example C29_case :
  lookup extensions (bytes "py") = Some "python" /\ has_parser "python" /\
  lookup extensions (bytes "gif") = Some binary /\
  lookup extensions (bytes "h") = Some (ambiguous "h") /\
  lookup filenames (bytes "Makefile") = Some "make" /\
  is_language "tex_dtx".
Proof.
  split; [reflexivity|]. split; [apply has_parserb_ok; vm_compute; reflexivity|].
  do 3 (split; [reflexivity|]). apply is_languageb_ok. vm_compute. reflexivity.
Qed.
