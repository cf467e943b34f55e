(** A check of compiled scanners against the line by line account of LineSpec.v: abstract
    execution of all transitions together with what is known about the kind of the
    current line.  LineProofs.v shows what acceptance means for every buffer. *)
From Coq Require Import ZArith String List Bool.
From Verif Require Import Base ParsedModel RagelSyntax RagelBuild RagelRun LineSpec.
Import ListNotations.
Open Scope Z_scope.

(** What is known about the current line: all bytes up to p may precede the text; its
    kind depends on the bytes from p on; its kind. *)
Inductive phase := PBlank | PRest (r : rule) | PKnown (k : kind).

Definition is_nil {A} (l : list A) : bool := match l with [] => true | _ => false end.

Definition deriv1 (c : Z) (p : list item) : list (list item) :=
  match p with
  | One s :: q => if among c s then [q] else []
  | Many s :: q => if among c s then [q; p] else []
  | [] => [[]]
  end.
Definition deriv (r : rule) (c : Z) : phase :=
  match r with
  | Opens ps =>
    let qs := flat_map (deriv1 c) ps in
    if existsb is_nil qs then PKnown Comment
    else match qs with [] => PKnown Code | _ => PRest (Opens qs) end
  | Operators cs => if among c cs then PKnown Code else PRest r
  end.
Definition fin (r : rule) : kind :=
  match r with
  | Opens ps => if existsb is_nil ps then Comment else Code
  | Operators _ => Comment
  end.

(** te: unknown; from ts to p; p; p+1 (p at the start of the step). *)
Inductive tep := TeNone | TeOld | TeP | TeNew.
(** The value of p in a step: as at the start; one less; te-1. *)
Inductive pos := Cur | Back | AtTe.
(** The byte of the step: part of the line contents; the last byte of a line end; the
    byte after a line end; a CR at the start of a token; the first byte of the line end
    (or the end of the buffer), in a token that started before it. *)
Inductive mode := Txt | NL | After | CR | Stp.
(** The byte before p in a token: nothing special; a CR that is a line end; a CR that is
    followed by LF or nothing. *)
Inductive crs := CNo | CLone | CMore.
(** What is known about the byte at p: nothing; its class; there is none. *)
Inductive nxt := NAny | NClass (c : nat) | NEnd.

(** State between steps.  [a_ls]: line_start is the start of the line, otherwise NULL. *)
Record ast := mkL {
  a_cs : positive; a_lcc : bool; a_wlc : bool; a_ls : bool; a_ph : phase;
  a_ent : option Z; a_act : option nat; a_te : bool; a_inq : option (bool * bool * bool);
  a_cr : crs; a_nx : nxt }.

(** State inside a step.  [w_nl]: the line has been reported. *)
Record wst := mkW {
  w_lcc : bool; w_wlc : bool; w_ls : bool; w_ent : option Z; w_act : option nat;
  w_te : tep; w_pos : pos; w_inq : option (bool * bool * bool); w_nl : bool }.

Definition v_line c w s x := mkW c w s (w_ent x) (w_act x) (w_te x) (w_pos x) (w_inq x) (w_nl x).
Definition v_ent e x := mkW (w_lcc x) (w_wlc x) (w_ls x) e (w_act x) (w_te x) (w_pos x) (w_inq x) (w_nl x).
Definition v_act a x := mkW (w_lcc x) (w_wlc x) (w_ls x) (w_ent x) a (w_te x) (w_pos x) (w_inq x) (w_nl x).
Definition v_te t p x := mkW (w_lcc x) (w_wlc x) (w_ls x) (w_ent x) (w_act x) t p (w_inq x) (w_nl x).
Definition v_inq q x := mkW (w_lcc x) (w_wlc x) (w_ls x) (w_ent x) (w_act x) (w_te x) (w_pos x) q (w_nl x).
Definition v_nl x := mkW false false false (w_ent x) (w_act x) (w_te x) (w_pos x) (w_inq x) true.

Definition kind_eqb (a b : kind) : bool :=
  match a, b with Blank, Blank | Comment, Comment | Code, Code => true | _, _ => false end.

(** The kind of the line the flags stand for. *)
Definition flag_kind (lcc wlc : bool) : kind := if lcc then Code else if wlc then Comment else Blank.

Section Check.
  Variable st : style.
  Variable lang : string.

  (** The sets of the style have no line end in them. *)
  Definition clean_set (s : list Z) : bool :=
    negb (among 10 s) && negb (among 12 s) && negb (among 13 s).
  Definition clean_item (i : item) : bool := match i with One s | Many s => clean_set s end.
  Definition clean : bool :=
    clean_set (st_lead st)
    && match st_rule st with
       | Opens ps => forallb (fun p => negb (is_nil p) && forallb clean_item p) ps
       | Operators cs => clean_set cs
       end.

  Definition advance (ph : phase) (c : Z) : phase :=
    match ph with
    | PBlank => if among c (st_lead st) then PBlank else deriv (st_rule st) c
    | PRest r => deriv r c
    | PKnown k => ph
    end.
  Definition decide (ph : phase) : kind :=
    match ph with
    | PBlank => Blank
    | PRest r => fin r
    | PKnown k => k
    end.

  Section Step.
    Variable md : mode.
    (** The kind of the line, if known at the start of the step. *)
    Variable k : option kind.

    Definition k_dequeue (x : wst) : wst :=
      match w_inq x with
      | Some (c, w, s) => v_inq None (v_line c w s x)
      | None => x
      end.
    Definition k_ls (x : wst) : wst := v_line (w_lcc x) (w_wlc x) true x.
    Definition k_code (x : wst) : wst := v_line true (w_wlc x) (w_ls x || negb (w_lcc x)) x.
    Definition k_comment (x : wst) : wst := if w_lcc x then x else v_line false true true x.
    Definition k_nl (l : string) (x : wst) : option wst :=
      let x := k_dequeue x in
      match md, w_te x, k with
      | NL, TeNew, Some kd | After, TeP, Some kd =>
        if String.eqb l lang && negb (w_nl x) && kind_eqb (flag_kind (w_lcc x) (w_wlc x)) kd
           && (w_ls x || negb (w_lcc x || w_wlc x))
        then Some (v_nl x) else None
      | _, _, _ => None
      end.

    Definition k_macro (mc : macro) (x : wst) : option wst :=
      if w_nl x then None else
      match mc with
      | Mls => Some (k_ls (k_dequeue x))
      | Mcode => Some (k_code (k_dequeue x))
      | Mcomment => Some (k_comment (k_dequeue x))
      | Mnl l => k_nl l x
      | _ => None
      end.

    Fixpoint k_switch (l : list (Z * macro)) (e : Z) (x : wst) : option wst :=
      match l with
      | [] => Some x
      | (f, mc) :: l => if e =? f then k_macro mc x else k_switch l e x
      end.

    Definition k_stmt (s : stmt) (x : wst) : option wst :=
      if w_nl x then None else
      match s with
      | Entity e => Some (v_ent (Some e) x)
      | Switch l => match w_ent x with Some e => k_switch l e x | None => None end
      | Acode => Some (k_code x)
      | Acomment => Some (k_comment x)
      | Als => Some (k_ls x)
      | Aenqueue => Some (v_inq (Some (w_lcc x, w_wlc x, w_ls x)) x)
      | Acommit => Some (v_inq None x)
      | Hold => match w_pos x with Cur => Some (v_te (w_te x) Back x) | _ => None end
      | _ => None
      end.

    Fixpoint k_body (l : list stmt) (x : wst) : option wst :=
      match l with
      | [] => Some x
      | s :: l => match k_stmt s x with Some y => k_body l y | None => None end
      end.

    Definition k_part (d : dfa) (i : nat) (x : wst) : option wst :=
      match nth_error (df_parts d) i with
      | Some (Some a) => k_body (a_body a) x
      | Some None => Some x
      | None => None
      end.

    Definition k_instr (d : dfa) (i : instr) (x : wst) : option wst :=
      if w_nl x then None else
      match i with
      | User a => k_body (a_body a) x
      | SetTe =>
        match md, w_pos x with
        | Txt, Cur => Some (v_te TeNew Cur x)
        | Txt, Back => Some (v_te TeP Back x)
        | _, _ => None
        end
      | SetAct i => Some (v_act (Some i) x)
      | OnLast i =>
        match md, w_pos x with
        | Txt, Cur | NL, Cur => k_part d i (v_te TeNew Cur x)
        | _, _ => None
        end
      | OnNext i =>
        match md, w_pos x with
        | Txt, Cur | Stp, Cur | After, Cur => k_part d i (v_te TeP Back x)
        | _, _ => None
        end
      | OnLag i =>
        match w_te x with
        | TeOld => k_part d i (v_te TeOld AtTe x)
        | _ => None
        end
      | OnAct =>
        match w_act x, w_te x with
        | Some i, TeOld => k_part d i (v_te TeOld AtTe x)
        | _, _ => None
        end
      end.

    Fixpoint k_instrs (d : dfa) (l : list instr) (x : wst) : option wst :=
      match l with
      | [] => Some x
      | i :: l => match k_instr d i x with Some y => k_instrs d l y | None => None end
      end.
  End Step.

  (** The state after a step with byte of mode [md], phases before and after the byte. *)
  Definition fresh (d : dfa) (x : wst) : ast :=
    mkL (df_start d) false false false PBlank (w_ent x) None false None CNo NAny.
  Definition settle (d : dfa) (md : mode) (cr : crs) (nx : nxt) (pre post : phase) (to : positive) (x : wst) : option ast :=
    let scan := Pos.eqb to (df_start d) in
    if w_nl x then
      if scan then
        match md, w_pos x, w_inq x with
        | NL, Cur, None | After, Back, None => Some (fresh d x)
        | _, _, _ => None
        end
      else None
    else
      let nx := match w_pos x with Back => nx | _ => NAny end in
      let ph := match w_pos x, post, pre with
                | Cur, _, _ => Some post
                | Back, _, _ => Some pre
                | AtTe, PKnown k, _ => Some post
                | AtTe, _, PBlank => Some PBlank
                | AtTe, _, _ => None
                end in
      match ph with
      | None => None
      | Some ph =>
        if scan then
          match w_inq x, md, w_pos x with
          | None, Txt, _ | None, Stp, Back | None, Stp, AtTe =>
            if w_ls x then
              Some (mkL to (w_lcc x) (w_wlc x) true ph (w_ent x) None false None CNo nx)
            else None
          | _, _, _ => None
          end
        else
          match md, w_pos x with
          | Txt, Cur =>
            Some (mkL to (w_lcc x) (w_wlc x) (w_ls x) ph (w_ent x) (w_act x)
                      (match w_te x with TeNone => false | _ => true end) (w_inq x) CNo nx)
          | Txt, Back =>
            match w_te x with
            | TeNew => None
            | t => Some (mkL to (w_lcc x) (w_wlc x) (w_ls x) ph (w_ent x) (w_act x)
                             (match t with TeNone => false | _ => true end) (w_inq x) CNo nx)
            end
          | CR, Cur =>
            match w_te x, w_inq x with
            | TeNone, None => Some (mkL to (w_lcc x) (w_wlc x) (w_ls x) ph (w_ent x) (w_act x) false None cr NAny)
            | _, _ => None
            end
          | _, _ => None
          end
      end.

  Definition enter (d : dfa) (a : ast) : wst :=
    mkW (a_lcc a) (a_wlc a) (a_ls a) (a_ent a) (a_act a)
        (if a_te a then TeOld else TeNone) Cur (a_inq a) false.

  Definition do_edge (d : dfa) (md : mode) (cr : crs) (nx : nxt) (pre post : phase) (e : edge) (a : ast) : option ast :=
    match e_to e with
    | None => None
    | Some to =>
      match k_instrs md (match post with PKnown k => Some k | _ => None end) d (e_ins e) (enter d a) with
      | Some x => settle d md cr nx pre post to x
      | None => None
      end
    end.

  Definition is_lf (c : Z) : bool := (c =? 10) || (c =? 12).
  (** Steps on byte [c]: the possible successors. *)
  Definition on_byte (m : machine) (d : dfa) (q : dstate) (a : ast) (c : Z) : option (list ast) :=
    match PM.find (Z.to_pos (c + 1)) (m_class m) with
    | None => None
    | Some cl =>
      if match a_nx a with NAny => false | NClass n => negb (Nat.eqb n cl) | NEnd => true end then Some [] else
      match nth_error (q_row q) cl with
      | None => None
      | Some b =>
        let scan := Pos.eqb (a_cs a) (df_start d) in
        let known := PKnown (decide (a_ph a)) in
        let one md post e := option_map (fun x => [x]) (do_edge d md CNo (NClass cl) (a_ph a) post e a) in
        match a_cr a with
        | CMore =>
          if c =? 10 then match b with BEdge e => one NL (a_ph a) e | _ => None end else Some []
        | CLone =>
          if c =? 10 then Some []
          else match b with
               | BEdge e => one After (a_ph a) e
               | BIf CrAlone (BEdge y) (BEdge n) =>
                 match do_edge d After CNo (NClass cl) (a_ph a) (a_ph a) y a, do_edge d After CNo (NClass cl) (a_ph a) (a_ph a) n a with
                 | Some u, Some v => Some [u; v]
                 | _, _ => None
                 end
               | _ => None
               end
        | CNo =>
          if is_lf c then
            match b with
            | BEdge e => one (if scan then NL else Stp) known e
            | _ => None
            end
          else if c =? 13 then
            match b with
            | BEdge e => if scan then None else one Stp known e
            | BIf CrAlone (BEdge y) (BEdge n) =>
              let md := if scan then CR else Stp in
              match do_edge d md CLone (NClass cl) (a_ph a) known y a, do_edge d md CMore (NClass cl) (a_ph a) known n a with
              | Some u, Some v => Some [u; v]
              | _, _ => None
              end
            | _ => None
            end
          else match b with
               | BEdge e => one Txt (advance (a_ph a) c) e
               | _ => None
               end
        end
      end
    end.

  (** At the end of the buffer: [Some None] when the scanner stops as it should, or is
      not there. *)
  Definition on_end (d : dfa) (q : dstate) (a : ast) : option (option ast) :=
    let k := decide (a_ph a) in
    match a_cr a, a_nx a with
    | CLone, _ | _, NClass _ => Some None
    | _, _ =>
    match q_eof_to q with
    | Some to =>
      if (match a_cr a with CNo => false | _ => true end) || Pos.eqb (a_cs a) (df_start d) then None
      else option_map Some (do_edge d Stp CNo NEnd (a_ph a) (PKnown k) (mkEdge (Some to) (q_eof q)) a)
    | None =>
      if is_nil (q_eof q) && kind_eqb (flag_kind (a_lcc a) (a_wlc a)) k
         && (a_ls a || negb (a_lcc a || a_wlc a))
      then Some None else None
    end
    end.

  (** ** Tables *)
  Definition item_eqb (a b : item) : bool :=
    match a, b with
    | One s, One t | Many s, Many t => if list_eq_dec Z.eq_dec s t then true else false
    | _, _ => false
    end.
  Fixpoint list_eqb {A} (f : A -> A -> bool) (l k : list A) : bool :=
    match l, k with
    | [], [] => true
    | x :: l, y :: k => f x y && list_eqb f l k
    | _, _ => false
    end.
  Definition rule_eqb (a b : rule) : bool :=
    match a, b with
    | Opens p, Opens q => list_eqb (list_eqb item_eqb) p q
    | Operators s, Operators t => if list_eq_dec Z.eq_dec s t then true else false
    | _, _ => false
    end.
  Definition phase_eqb (a b : phase) : bool :=
    match a, b with
    | PBlank, PBlank => true
    | PRest r, PRest s => rule_eqb r s
    | PKnown k, PKnown l => kind_eqb k l
    | _, _ => false
    end.
  Definition oeqb {A} (f : A -> A -> bool) (a b : option A) : bool :=
    match a, b with Some x, Some y => f x y | None, None => true | _, _ => false end.
  Definition ast_eqb (a b : ast) : bool :=
    Pos.eqb (a_cs a) (a_cs b) && eqb (a_lcc a) (a_lcc b) && eqb (a_wlc a) (a_wlc b)
    && eqb (a_ls a) (a_ls b) && phase_eqb (a_ph a) (a_ph b) && oeqb Z.eqb (a_ent a) (a_ent b)
    && oeqb Nat.eqb (a_act a) (a_act b) && eqb (a_te a) (a_te b)
    && oeqb (fun x y => eqb (fst (fst x)) (fst (fst y)) && eqb (snd (fst x)) (snd (fst y)) && eqb (snd x) (snd y)) (a_inq a) (a_inq b)
    && match a_cr a, a_cr b with CNo, CNo | CLone, CLone | CMore, CMore => true | _, _ => false end
    && match a_nx a, a_nx b with
       | NAny, NAny | NEnd, NEnd => true
       | NClass i, NClass j => Nat.eqb i j
       | _, _ => false
       end.

  Definition table := PM.t (list ast).
  Definition t_mem (t : table) (a : ast) : bool :=
    match PM.find (a_cs a) t with Some l => existsb (ast_eqb a) l | None => false end.

  (** All bytes but the vertical tab. *)
  Definition the_bytes : list Z := filter (fun c => negb (c =? 11)) all_bytes.

  Definition check_state (m : machine) (d : dfa) (t : table) (a : ast) : bool :=
    match PM.find (a_cs a) (df_sts d) with
    | None => false
    | Some q =>
      forallb (fun c => match on_byte m d q a c with
                        | Some l => forallb (t_mem t) l
                        | None => false
                        end) the_bytes
      && match on_end d q a with
         | Some (Some b) => t_mem t b
         | Some None => true
         | None => false
         end
    end.

  Definition start_state (d : dfa) : ast :=
    mkL (df_start d) false false false PBlank (Some 0) None false None CNo NAny.

  Definition line_check (m : machine) (t : table) : bool :=
    match m_dfas m with
    | d :: _ =>
      df_scan d && clean && String.eqb (m_lang m) lang && t_mem t (start_state d)
      && forallb (fun kl => forallb (fun a => Pos.eqb (a_cs a) (fst kl) && check_state m d t a) (snd kl)) (PM.elements t)
    | [] => false
    end.

  (** ** Computing a table (nothing has to be shown about this) *)
  Definition succs (m : machine) (d : dfa) (a : ast) : list ast :=
    match PM.find (a_cs a) (df_sts d) with
    | None => []
    | Some q =>
      flat_map (fun c => match on_byte m d q a c with Some l => l | None => [] end) the_bytes
      ++ match on_end d q a with Some (Some b) => [b] | _ => [] end
    end.
  Definition t_add (t : table) (a : ast) : table :=
    PM.add (a_cs a) (a :: match PM.find (a_cs a) t with Some l => l | None => [] end) t.
  Fixpoint explore (fuel : nat) (m : machine) (d : dfa) (todo : list ast) (t : table) : table :=
    match fuel, todo with
    | S f, a :: todo =>
      if t_mem t a then explore f m d todo t
      else explore f m d (succs m d a ++ todo) (t_add t a)
    | _, _ => t
    end.
  Definition line_table (m : machine) : table :=
    match m_dfas m with
    | d :: _ => explore (Z.to_nat 1000000) m d [start_state d] (PM.empty _)
    | [] => PM.empty _
    end.
End Check.
