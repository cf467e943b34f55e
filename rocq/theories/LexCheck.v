(** A check of compiled scanners against the account of LexSpec.v: abstract execution of
    all transitions together with the pieces of the account.  LexProofs.v shows what
    acceptance means for every buffer. *)
From Coq Require Import ZArith String List Bool.
From Verif Require Import Base ParsedModel RagelSyntax RagelBuild RagelRun LineSpec LexSpec.
Import ListNotations.
Open Scope Z_scope.

Definition nil_b {A} (l : list A) : bool := match l with [] => true | _ => false end.

(** The account has read up to some offset, the base; offsets are relative to it.  Place:
    outside, none of the first [k] comments and strings opens here; inside of one. *)
Inductive aplace := AOut (k : nat) | AIn (j : nat).

(** What is known of the byte after the known ones: nothing; there is one, not LF; it is
    LF or there is none; there is none. *)
Inductive nxt := NAny | NNoLf | NLfEnd | NEof.

(** A comment or string that has been opened on trial: its number, the known bytes, te, ts
    and what had been seen on the line. *)
Record try := mkTry {
  y_j : nat; y_v : list Z; y_te : option Z; y_ts : option Z; y_now : now }.

(** The saved flags when callbacks are queued: code, comment, line_start is the start of
    the line (or NULL); none has been queued yet. *)
Record saved := mkSaved { q_c : bool; q_w : bool; q_s : bool; q_cur : bool }.

(** The depth of nested comments: whether it is zero; a counter, its value minus the
    depth. *)
Record depth := mkD { d_z : option bool; d_off : option (Z * Z) }.
Definition no_depth : depth := mkD None None.

(** An abstract state.  [b_ls]: line_start is the start of the line, otherwise NULL.
    [b_v]: the known bytes from the base on.  [b_nl]: the line has just been reported by
    std_newline. *)
Record ast := mkA {
  b_cs : positive; b_lcc : bool; b_wlc : bool; b_ls : bool;
  b_ent : option Z; b_act : option nat; b_inq : option saved; b_nl : bool;
  b_at : aplace; b_v : list Z; b_nx : nxt; b_now : now; b_try : option try;
  b_p : option Z; b_te : option Z; b_ts : option Z; b_dep : depth }.

Definition u_cs c x := mkA c (b_lcc x) (b_wlc x) (b_ls x) (b_ent x) (b_act x) (b_inq x) (b_nl x) (b_at x) (b_v x) (b_nx x) (b_now x) (b_try x) (b_p x) (b_te x) (b_ts x) (b_dep x).
Definition u_line c w s x := mkA (b_cs x) c w s (b_ent x) (b_act x) (b_inq x) (b_nl x) (b_at x) (b_v x) (b_nx x) (b_now x) (b_try x) (b_p x) (b_te x) (b_ts x) (b_dep x).
Definition u_ent e x := mkA (b_cs x) (b_lcc x) (b_wlc x) (b_ls x) e (b_act x) (b_inq x) (b_nl x) (b_at x) (b_v x) (b_nx x) (b_now x) (b_try x) (b_p x) (b_te x) (b_ts x) (b_dep x).
Definition u_act e x := mkA (b_cs x) (b_lcc x) (b_wlc x) (b_ls x) (b_ent x) e (b_inq x) (b_nl x) (b_at x) (b_v x) (b_nx x) (b_now x) (b_try x) (b_p x) (b_te x) (b_ts x) (b_dep x).
Definition u_inq e x := mkA (b_cs x) (b_lcc x) (b_wlc x) (b_ls x) (b_ent x) (b_act x) e (b_nl x) (b_at x) (b_v x) (b_nx x) (b_now x) (b_try x) (b_p x) (b_te x) (b_ts x) (b_dep x).
Definition u_nl e x := mkA (b_cs x) (b_lcc x) (b_wlc x) (b_ls x) (b_ent x) (b_act x) (b_inq x) e (b_at x) (b_v x) (b_nx x) (b_now x) (b_try x) (b_p x) (b_te x) (b_ts x) (b_dep x).
Definition u_ref a v n w t x := mkA (b_cs x) (b_lcc x) (b_wlc x) (b_ls x) (b_ent x) (b_act x) (b_inq x) (b_nl x) a v n w t (b_p x) (b_te x) (b_ts x) (b_dep x).
Definition u_try t x := mkA (b_cs x) (b_lcc x) (b_wlc x) (b_ls x) (b_ent x) (b_act x) (b_inq x) (b_nl x) (b_at x) (b_v x) (b_nx x) (b_now x) t (b_p x) (b_te x) (b_ts x) (b_dep x).
Definition u_nx n x := u_ref (b_at x) (b_v x) n (b_now x) (b_try x) x.
Definition u_pos p t s x := mkA (b_cs x) (b_lcc x) (b_wlc x) (b_ls x) (b_ent x) (b_act x) (b_inq x) (b_nl x) (b_at x) (b_v x) (b_nx x) (b_now x) (b_try x) p t s (b_dep x).
Definition u_dep d x := mkA (b_cs x) (b_lcc x) (b_wlc x) (b_ls x) (b_ent x) (b_act x) (b_inq x) (b_nl x) (b_at x) (b_v x) (b_nx x) (b_now x) (b_try x) (b_p x) (b_te x) (b_ts x) d.
Definition u_p p x := u_pos p (b_te x) (b_ts x) x.
(** te, ts are assigned. *)
Definition u_te t x :=
  u_try (option_map (fun y => mkTry (y_j y) (y_v y) None (y_ts y) (y_now y)) (b_try x))
        (u_pos (b_p x) t (b_ts x) x).
Definition u_ts s x :=
  u_try (option_map (fun y => mkTry (y_j y) (y_v y) (y_te y) None (y_now y)) (b_try x))
        (u_pos (b_p x) (b_te x) s x).

Definition kind_eqb (a b : kind) : bool :=
  match a, b with Blank, Blank | Comment, Comment | Code, Code => true | _, _ => false end.

(** ** Looking at the known bytes *)
Inductive tri := Yes | No | Dunno.
Definition is_eof (n : nxt) : bool := match n with NEof => true | _ => false end.

Fixpoint look (p : list (list Z)) (v : list Z) (n : nxt) : tri :=
  match p, v with
  | [], _ => Yes
  | x :: p, c :: v => if among c x then look p v n else No
  | _ :: _, [] => if is_eof n then No else Dunno
  end.

(** The length of the line end, if it can be told. *)
Definition end_look (v : list Z) (n : nxt) : option nat :=
  match v with
  | [] => if is_eof n then Some 0%nat else None
  | c :: r =>
    if (c =? 10) || (c =? 12) then Some 1%nat
    else if c =? 13 then
      match r with
      | [] => match n with NNoLf => Some 1%nat | NEof => Some 0%nat | _ => None end
      | d :: _ => Some (if d =? 10 then 2%nat else 1%nat)
      end
    else Some 0%nat
  end.

(** Pieces; [d]: the change of the depth. *)
Inductive apiece :=
| ABytes (n : nat) (k : kind) (w : aplace) (d : Z)
| AEnds (n : nat) (k : kind) (inner : bool) (w : aplace).

(** The next piece: not known; known; one of a comment or string that opens if it is
    closed. *)
Inductive answer := More | Sure (o : option apiece) | Trial (j : nat).

Inductive wordly := NoWord | Word (n : nat) (k : kind) | MayWord.

Section Check.
  Variable x : lexis.
  Variable lang : string.
  (** The bytes that occur. *)
  Variable bs : list Z.

  Definition region_of (j : nat) : option region := nth_error (x_regions x) j.

  (** One of the patterns is there. *)
  Definition any_look (l : list (list (list Z))) (v : list Z) (n : nxt) : tri :=
    if existsb (fun p => match look p v n with Yes => true | _ => false end) l then Yes
    else if existsb (fun p => match look p v n with Dunno => true | _ => false end) l then Dunno
    else No.

  (** The first of the words. *)
  Fixpoint first_word (l : list (list (list Z) * nat * kind)) (v : list Z) (n : nxt) : wordly :=
    match l with
    | [] => NoWord
    | p :: l =>
      match look (fst (fst p)) v n with
      | No => first_word l v n
      | Yes => Word (snd (fst p)) (snd p)
      | Dunno => MayWord
      end
    end.

  (** [z]: whether the depth is zero. *)
  Definition known_body (g : region) (j : nat) (z : option bool) (v : list Z) (n : nxt) : answer :=
    match v with
    | [] => if is_eof n then match g_nl g with Cut => More | _ => Sure None end else More
    | c :: r =>
      match first_word (map (fun p => (p, length p, Blank)) (g_close g)) v n with
      | MayWord => More
      | Word l _ =>
        match (if g_nest g then z else Some true) with
        | None => More
        | Some true => Sure (Some (ABytes l (g_last g) (AOut 0) 0))
        | Some false =>
          match any_look (g_never g) v n with
          | Yes => Sure None
          | Dunno => More
          | No => Sure (Some (ABytes l (g_kind g) (AIn j) (-1)))
          end
        end
      | NoWord =>
        match any_look (g_never g) v n with
        | Yes => Sure None
        | Dunno => More
        | No =>
        match (if g_nest g then look (g_open g) v n else No) with
        | Dunno => More
        | Yes => Sure (Some (ABytes (length (g_open g)) (g_kind g) (AIn j) 1))
        | No =>
        let plain :=
          if newline_byte c && match g_nl g with Deny => true | _ => false end then Sure None else
          match end_look v n with
          | None => More
          | Some (S e) =>
            match g_nl g with
            | Cut => Sure (Some (AEnds (S e) Blank false (AOut 0)))
            | Inner => Sure (Some (AEnds (S e) Blank true (AIn j)))
            | Deny => Sure None
            end
          | Some O =>
            if c =? 13 then match g_nl g with Cut => Sure (Some (ABytes 1 Blank (AOut 0) 0)) | _ => Sure None end
            else if g_esc g && (c =? 92) then
              match r with
              | d :: _ => if newline_byte d then Sure None else Sure (Some (ABytes 2 (g_kind g) (AIn j) 0))
              | [] => if is_eof n then Sure None else More
              end
            else Sure (Some (ABytes 1 (if blank_byte c then Blank else g_kind g) (AIn j) 0))
          end in
        match (if c =? 92 then g_escnl g else None) with
        | Some k =>
          match end_look r n with
          | None => More
          | Some (S e) => Sure (Some (AEnds (S (S e)) k true (AIn j)))
          | Some O => plain
          end
        | None => plain
        end
        end
      end
      end
    end.

  (** The first of the comments and strings, from number [j] on, that may open. *)
  Fixpoint first_open (h : now) (l : list region) (j : nat) (v : list Z) (n : nxt) : tri * nat * option region :=
    match l with
    | [] => (No, j, None)
    | g :: l =>
      match (if suits h g then look (g_open g ++ g_ahead g) v n else No) with
      | No => first_open h l (S j) v n
      | t => (t, j, Some g)
      end
    end.

  Definition known_out (k : nat) (h : now) (v : list Z) (n : nxt) : answer :=
    match v with
    | [] => More
    | c :: _ =>
      match any_look (barred x h) v n with
      | Yes => Sure None
      | Dunno => More
      | No =>
        match first_word (x_words x) v n with
        | MayWord => More
        | Word l kd => Sure (Some (ABytes l kd (AOut 0) 0))
        | NoWord =>
          match first_open h (skipn k (x_regions x)) k v n with
          | (Yes, j, Some g) =>
            if g_must g then Trial j else Sure (Some (ABytes (length (g_open g)) (g_first g) (AIn j) 0))
          | (No, _, _) =>
            match end_look v n with
            | None => More
            | Some (S e) => Sure (Some (AEnds (S e) Blank false (AOut 0)))
            | Some O =>
              if c =? 11 then Sure None
              else Sure (Some (ABytes 1 (if blank_byte c || (c =? 13) then Blank else Code) (AOut 0) 0))
            end
          | _ => More
          end
        end
      end
    end.

  Definition known_at (w : aplace) (z : option bool) (h : now) (v : list Z) (n : nxt) : answer :=
    match w with
    | AOut k => known_out k h v n
    | AIn j => match region_of j with Some g => known_body g j z v n | None => More end
    end.
  Definition known (a : ast) : answer := known_at (b_at a) (d_z (b_dep a)) (b_now a) (b_v a) (b_nx a).

  (** ** Reading on *)
  Definition less (n : nat) (o : option Z) : option Z :=
    match o with
    | Some t => if t <? Z.of_nat n then None else Some (t - Z.of_nat n)
    | None => None
    end.
  Definition advance (n : nat) (k : kind) (w : aplace) (t : option try) (a : ast) : ast :=
    u_pos (option_map (fun p => p - Z.of_nat n) (b_p a)) (less n (b_te a)) (less n (b_ts a))
      (u_ref w (skipn n (b_v a)) (b_nx a) (mark k (starts n (b_v a)) (b_now a)) t a).
  (** The depth changes by [d]; a comment that is entered has depth zero. *)
  Definition next_z (w w' : aplace) (d : Z) (z : option bool) : option bool :=
    match w, w' with
    | AOut _, _ => Some true
    | AIn _, AOut _ => None
    | AIn _, AIn _ => if d =? 0 then z else if 0 <? d then Some false else None
    end.
  Definition deepen (w : aplace) (d : Z) (a : ast) : ast :=
    u_dep (mkD (next_z (b_at a) w d (d_z (b_dep a)))
               (match b_at a, w with
                | AOut _, _ => d_off (b_dep a)
                | AIn _, AOut _ => None
                | AIn _, AIn _ => option_map (fun c => (fst c, snd c - d)) (d_off (b_dep a))
                end)) a.

  (** The trial fails. *)
  Definition revert (y : try) (a : ast) : ast :=
    u_pos (match b_p a, b_te a, y_te y with
           | Some p, Some t, Some t0 => Some (t0 + (p - t))
           | _, _, _ => None
           end) (y_te y) (y_ts y) (u_dep no_depth (u_ref (AOut (S (y_j y))) (y_v y) NAny (y_now y) None a)).

  (** The trial starts. *)
  Definition on_trial (j : nat) (g : region) (a : ast) : ast :=
    advance (length (g_open g)) (g_first g) (AIn j)
      (Some (mkTry j (b_v a) (b_te a) (b_ts a) (b_now a))) a.

  Definition allowed (n : nat) (w : aplace) (a : ast) : bool :=
    match b_te a, w with
    | Some t, AOut _ => Z.of_nat n <=? t
    | Some t, AIn _ => match b_at a with AOut _ => negb (t =? 0) | AIn _ => true end
    | _, _ => true
    end.

  (** The check fails; there is no such text; the account goes on. *)
  Inductive out := Fail | Dead | Live (a : ast).

  (** Reads pieces without line end up to [lim]. *)
  Fixpoint eat (fuel : nat) (lim : Z) (a : ast) : out :=
    match fuel with
    | O => Live a
    | S fuel =>
      match known a with
      | More => Live a
      | Sure None => match b_try a with Some y => Live (revert y a) | None => Dead end
      | Sure (Some (AEnds _ _ _ _)) => Live a
      | Sure (Some (ABytes n k w d)) =>
        if (Z.of_nat n <=? lim) && Nat.leb n (length (b_v a)) && negb (Nat.eqb n 0) && allowed n w a then
          eat fuel (lim - Z.of_nat n)
              (advance n k w (match w with AOut _ => None | AIn _ => b_try a end) (deepen w d a))
        else Live a
      | Trial j =>
        match region_of j, b_try a, b_inq a with
        | Some g, None, None =>
          let n := length (g_open g) in
          if (Z.of_nat n <=? lim) && Nat.leb n (length (b_v a)) && negb (Nat.eqb n 0) && allowed n (AIn j) a then
            eat fuel (lim - Z.of_nat n) (on_trial j g (deepen (AIn j) 0 a))
          else Live a
        | _, _, _ => Fail
        end
      end
    end.
  Definition eat_to (lim : Z) (a : ast) : out := eat (S (length (b_v a))) lim a.

  Definition andthen (o : out) (f : ast -> out) : out :=
    match o with Live a => f a | Fail => Fail | Dead => Dead end.

  (** ** Actions *)
  Definition k_dequeue (a : ast) : out :=
    match b_inq a with
    | Some q =>
      if q_cur q then Live (u_inq None (u_line (q_c q) (q_w q) (q_s q) a))
      else Fail
    | None => Live a
    end.
  (** line_start is the start of the line, or becomes so. *)
  Definition k_ls (a : ast) : ast := u_line (b_lcc a) (b_wlc a) true a.
  Definition k_code (a : ast) : ast := u_line true (b_wlc a) (if b_lcc a then b_ls a else true) a.
  Definition k_comment (a : ast) : ast := if b_lcc a then a else u_line false true true a.

  (** A line end that the account is to read, up to [target]. *)
  Definition at_line_end (inner : bool) (target : Z) (a : ast) : out :=
    match known a with
    | Sure (Some (AEnds n k i w)) =>
      let now := mark k false (b_now a) in
      if eqb i inner && (Z.of_nat n =? target) && Nat.leb n (length (b_v a)) && negb (Nat.eqb n 0)
         && kind_eqb (kind_now (mkNow (b_lcc a) (b_wlc a) false)) (kind_now now)
         && match kind_now now, inner with
            | Blank, false => match b_ts a with Some 0 => true | _ => false end
            | _, _ => b_ls a
            end
      then
        Live (u_line false false inner
             (u_nl (negb inner)
             (u_inq (option_map (fun q => mkSaved (q_c q) (q_w q) (q_s q) false) (b_inq a))
             (u_pos (option_map (fun p => p - Z.of_nat n) (b_p a)) (less n (b_te a)) (less n (b_ts a))
             (u_ref w (skipn n (b_v a)) (b_nx a) (fresh (starts n (b_v a))) None (deepen w 0 a))))))
      else Fail
    | Sure None => Dead
    | _ => Fail
    end.

  (** The offset [t] after reading up to it as far as possible. *)
  Definition k_nl (l : string) (a : ast) : out :=
    andthen (k_dequeue a) (fun a =>
      match b_te a with
      | Some t =>
        andthen (eat_to t a) (fun a =>
          match b_te a, b_try a with
          | Some t, None => if String.eqb l lang then at_line_end false t a else Fail
          | _, _ => Fail
          end)
      | None => Fail
      end).
  Definition k_inl (l : string) (a : ast) : out :=
    match b_p a with
    | Some p =>
      andthen (eat_to p a) (fun a =>
        match b_p a, b_try a with
        | Some p, None => if String.eqb l lang then at_line_end true p a else Fail
        | _, _ => Fail
        end)
    | None => Fail
    end.

  Definition k_macro (mc : macro) (a : ast) : out :=
    if b_nl a then Fail else
    match mc with
    | Mls => andthen (k_dequeue a) (fun a => Live (k_ls a))
    | Mcode => andthen (k_dequeue a) (fun a => Live (k_code a))
    | Mcomment => andthen (k_dequeue a) (fun a => Live (k_comment a))
    | Mnl l => k_nl l a
    | Minl l => k_inl l a
    | _ => Fail
    end.

  Fixpoint k_switch (l : list (Z * macro)) (e : Z) (a : ast) : out :=
    match l with
    | [] => Live a
    | (f, mc) :: l => if e =? f then k_macro mc a else k_switch l e a
    end.

  Definition k_stmt (s : stmt) (a : ast) : out :=
    if b_nl a then Fail else
    match s with
    | Entity e => Live (u_ent (Some e) a)
    | Switch l => match b_ent a with Some e => k_switch l e a | None => Fail end
    | Acode => Live (k_code a)
    | Acomment => Live (k_comment a)
    | Als => Live (k_ls a)
    | Aenqueue =>
      match b_inq a, b_try a with
      | None, None => Live (u_inq (Some (mkSaved (b_lcc a) (b_wlc a) (b_ls a) true)) a)
      | _, _ => Fail
      end
    | Acommit => match b_try a with None => Live (u_inq None a) | Some _ => Fail end
    | VarSet v n =>
      match b_at a with
      | AOut _ => Live (u_dep (mkD (d_z (b_dep a)) (Some (v, n))) a)
      | AIn _ => Fail
      end
    | VarAdd v n =>
      match d_off (b_dep a) with
      | Some (u, m) => if u =? v then Live (u_dep (mkD (d_z (b_dep a)) (Some (u, m + n))) a) else Fail
      | None => Fail
      end
    | Hold => match b_p a with Some p => Live (u_p (Some (p - 1)) a) | None => Fail end
    | _ => Fail
    end.

  Fixpoint k_body (l : list stmt) (a : ast) : out :=
    match l with
    | [] => Live a
    | s :: l => andthen (k_stmt s a) (k_body l)
    end.

  Definition k_part (d : dfa) (i : nat) (a : ast) : out :=
    match nth_error (df_parts d) i with
    | Some (Some b) => k_body (a_body b) a
    | Some None => Live a
    | None => Fail
    end.

  Definition k_instr (d : dfa) (i : instr) (a : ast) : out :=
    if b_nl a then Fail else
    match i with
    | User b => k_body (a_body b) a
    | SetTe => match b_p a with Some p => Live (u_te (Some (p + 1)) a) | None => Fail end
    | SetAct i => Live (u_act (Some i) a)
    | OnLast i => match b_p a with Some p => k_part d i (u_te (Some (p + 1)) a) | None => Fail end
    | OnNext i => match b_p a with Some p => k_part d i (u_p (Some (p - 1)) (u_te (Some p) a)) | None => Fail end
    | OnLag i => match b_te a with Some t => k_part d i (u_p (Some (t - 1)) a) | None => Fail end
    | OnAct =>
      match b_act a, b_te a with
      | Some i, Some t => k_part d i (u_p (Some (t - 1)) a)
      | _, _ => Fail
      end
    end.

  Fixpoint k_instrs (d : dfa) (l : list instr) (a : ast) : out :=
    match l with
    | [] => Live a
    | i :: l => andthen (k_instr d i a) (k_instrs d l)
    end.

  (** ** Steps *)
  (** What lies ahead is forgotten. *)
  Definition forget (a : ast) : ast :=
    match b_p a, b_at a with
    | Some 0, AOut _ => u_dep no_depth (u_ref (b_at a) [] NAny (b_now a) (b_try a) a)
    | _, _ => a
    end.
  Definition unsure (a : ast) : ast :=
    match b_at a with
    | AIn _ => if nil_b (b_v a) then u_dep (mkD None (d_off (b_dep a))) a else a
    | AOut _ => a
    end.
  Definition settle (d : dfa) (to : positive) (a : ast) : out :=
    match b_p a with
    | None => Fail
    | Some p =>
      let a := u_p (Some (p + 1)) (u_cs to a) in
      if p + 1 <? 0 then Fail else
      if Pos.eqb to (df_start d) then
        if b_nl a then
          match b_inq a, b_try a with
          | None, None => if p + 1 =? 0 then Live (forget (u_nl false (u_act None (u_ts None (u_te None a))))) else Fail
          | _, _ => Fail
          end
        else
          andthen (eat_to (p + 1) (u_act None (u_ts None (u_te None a)))) (fun a =>
            match b_p a, b_inq a, b_ls a with Some _, None, true => Live (forget a) | _, _, _ => Fail end)
      else if b_nl a then Fail
      else andthen (eat_to (p + 1) a) (fun a => match b_p a with Some _ => Live (unsure a) | None => Fail end)
    end.

  (** The account does not accept the rest; on trial: the comment or string is not
      closed. *)
  Fixpoint doomed (fuel : nat) (trial : bool) (w : aplace) (z : option bool) (h : now) (v : list Z) (n : nxt) : bool :=
    match fuel with
    | O => false
    | S fuel =>
      let go i w' d h' :=
        match w' with
        | AOut _ => negb trial
        | AIn _ => true
        end && negb (Nat.eqb i 0) && Nat.leb i (length v)
        && doomed fuel trial w' (next_z w w' d z) h' (skipn i v) n in
      match known_at w z h v n with
      | Sure None => true
      | Sure (Some (ABytes i k w' d)) => go i w' d (mark k (starts i v) h)
      | Sure (Some (AEnds i _ _ w')) => go i w' 0 (fresh (starts i v))
      | _ => false
      end
    end.
  Definition is_doomed (a : ast) : bool :=
    doomed (S (length (b_v a))) (match b_try a with None => false | Some _ => true end)
           (b_at a) (d_z (b_dep a)) (b_now a) (b_v a) (b_nx a).
  Definition is_dead (a : ast) : bool := match b_try a with None => is_doomed a | Some _ => false end.

  Definition do_edge (d : dfa) (e : edge) (a : ast) : out :=
    if is_dead a then Dead else
    match b_p a, e_to e with
    | o, Some to =>
      andthen (match o with Some p => eat_to p a | None => Live a end) (fun a =>
      andthen (k_instrs d (e_ins e) a) (settle d to))
    | Some p, None => match eat_to (p + 1) a with Dead => Dead | _ => Fail end
    | _, _ => Fail
    end.

  (** The byte at [i] relative to the base is [c], if that may be. *)
  Definition learn (i : Z) (c : Z) (a : ast) : out :=
    match nth_error (b_v a) (Z.to_nat i) with
    | Some b => if b =? c then Live a else Dead
    | None =>
      if negb (i =? Z.of_nat (length (b_v a))) then Fail else
      match b_nx a with
      | NEof => Dead
      | NNoLf => if c =? 10 then Dead else Live (u_ref (b_at a) (b_v a ++ [c]) NAny (b_now a) (b_try a) a)
      | NLfEnd => if c =? 10 then Live (u_ref (b_at a) (b_v a ++ [c]) NAny (b_now a) (b_try a) a) else Dead
      | NAny => Live (u_ref (b_at a) (b_v a ++ [c]) NAny (b_now a) (b_try a) a)
      end
    end.

  (** The edges that may be taken, with what has been learned. *)
  Fixpoint select_edge (b : branch) (a : ast) : option (list (edge * ast)) :=
    match b with
    | BEdge e => Some [(e, a)]
    | BIf CrAlone y n =>
      match b_p a with
      | Some p =>
        if p <? 0 then None else
        match nth_error (b_v a) (Z.to_nat (p + 1)) with
        | Some c => select_edge (if c =? 10 then n else y) a
        | None =>
          if negb (p + 1 =? Z.of_nat (length (b_v a))) then None else
          match b_nx a with
          | NAny =>
            match select_edge y (u_nx NNoLf a), select_edge n (u_nx NLfEnd a) with
            | Some l, Some k => Some (l ++ k)
            | _, _ => None
            end
          | NNoLf => select_edge y a
          | NLfEnd | NEof => select_edge n a
          end
        end
      | None => None
      end
    | BIf StartsLine y n =>
      match b_p a with
      | Some p =>
        if p <? 0 then None else
        if p =? 0 then select_edge (if n_start (b_now a) then y else n) a
        else match nth_error (b_v a) (Z.to_nat (p - 1)) with
             | Some c => select_edge (if newline_byte c then y else n) a
             | None => None
             end
      | None => None
      end
    | BIf NoCode y n => select_edge (if b_lcc a then n else y) a
    | BIf (IsZero v) y n =>
      match b_at a, d_off (b_dep a) with
      | AIn _, Some (u, 0) =>
        if negb (u =? v) then None else
        match d_z (b_dep a) with
        | Some b => select_edge (if b then y else n) a
        | None =>
          match select_edge y (u_dep (mkD (Some true) (Some (u, 0))) a),
                select_edge n (u_dep (mkD (Some false) (Some (u, 0))) a) with
          | Some l, Some k => Some (l ++ k)
          | _, _ => None
          end
        end
      | _, _ => None
      end
    | _ => None
    end.

  Fixpoint all_edges (d : dfa) (l : list (edge * ast)) : option (list ast) :=
    match l with
    | [] => Some []
    | (e, a) :: l =>
      match do_edge d e a, all_edges d l with
      | Live b, Some k => Some (b :: k)
      | Dead, Some k => Some k
      | _, _ => None
      end
    end.

  (** Steps on byte [c]: the possible successors. *)
  Definition on_byte (m : machine) (d : dfa) (q : dstate) (a : ast) (c : Z) : option (list ast) :=
    match b_p a with
    | None => None
    | Some i =>
      if i <? 0 then None else
      match learn i c a with
      | Fail => None
      | Dead => Some []
      | Live a =>
        match PM.find (Z.to_pos (c + 1)) (m_class m) with
        | None => None
        | Some cl =>
          match nth_error (q_row q) cl with
          | None => None
          | Some b =>
            let a := if Pos.eqb (b_cs a) (df_start d) then u_ts (Some i) a else a in
            if is_dead a then Some [] else
            match eat_to i a with
            | Fail => None
            | Dead => Some []
            | Live a =>
              match select_edge b a with
              | Some l => all_edges d l
              | None => None
              end
            end
          end
        end
      end
    end.

  (** The account has come to the end of the text, and the flags are right. *)
  Definition finished (a : ast) : bool :=
    nil_b (b_v a) && is_eof (b_nx a)
    && match b_try a, b_inq a with None, None => true | _, _ => false end
    && match b_at a with
       | AOut _ => true
       | AIn j => match region_of j with Some (mkRegion _ _ _ _ _ _ Cut _ _ _ _ _ _) => true | _ => false end
       end
    && kind_eqb (kind_now (mkNow (b_lcc a) (b_wlc a) false)) (kind_now (b_now a))
    && match kind_now (b_now a) with Blank => true | _ => b_ls a end.

  (** At the end of the buffer. *)
  Definition on_end (d : dfa) (q : dstate) (a : ast) : option (list ast) :=
    match b_p a with
    | None => None
    | Some i =>
      if i <? Z.of_nat (length (b_v a)) then Some []
      else if negb (i =? Z.of_nat (length (b_v a))) then None else
      match b_nx a with
      | NNoLf => Some []
      | _ =>
        let a := u_nx NEof a in
        if is_dead a then Some [] else
        let a := match b_try a with Some y => if is_doomed a then revert y a else a | None => a end in
        match q_eof_to q with
        | Some to => if Pos.eqb (b_cs a) (df_start d) then None else all_edges d [(mkEdge (Some to) (q_eof q), a)]
        | None =>
          match b_p a with None => None | Some i =>
          match eat_to i a with
          | Dead => Some []
          | Fail => None
          | Live a => if nil_b (q_eof q) && finished a then Some [] else None
          end end
        end
      end
    end.

  (** ** Tables *)
  Fixpoint list_eqb {A} (f : A -> A -> bool) (l k : list A) : bool :=
    match l, k with
    | [], [] => true
    | x :: l, y :: k => f x y && list_eqb f l k
    | _, _ => false
    end.
  Definition oeqb {A} (f : A -> A -> bool) (a b : option A) : bool :=
    match a, b with Some x, Some y => f x y | None, None => true | _, _ => false end.
  Definition peqb (a b : now) : bool :=
    eqb (n_code a) (n_code b) && eqb (n_comment a) (n_comment b) && eqb (n_start a) (n_start b).
  Definition try_eqb (a b : try) : bool :=
    Nat.eqb (y_j a) (y_j b) && list_eqb Z.eqb (y_v a) (y_v b) && oeqb Z.eqb (y_te a) (y_te b)
    && oeqb Z.eqb (y_ts a) (y_ts b) && peqb (y_now a) (y_now b).
  Definition saved_eqb (a b : saved) : bool :=
    eqb (q_c a) (q_c b) && eqb (q_w a) (q_w b) && eqb (q_s a) (q_s b) && eqb (q_cur a) (q_cur b).
  Definition ast_eqb (a b : ast) : bool :=
    Pos.eqb (b_cs a) (b_cs b) && list_eqb Z.eqb (b_v a) (b_v b)
    && eqb (b_lcc a) (b_lcc b) && eqb (b_wlc a) (b_wlc b)
    && eqb (b_ls a) (b_ls b)
    && oeqb Z.eqb (b_ent a) (b_ent b) && oeqb Nat.eqb (b_act a) (b_act b)
    && oeqb saved_eqb (b_inq a) (b_inq b) && eqb (b_nl a) (b_nl b)
    && match b_at a, b_at b with AOut i, AOut j | AIn i, AIn j => Nat.eqb i j | _, _ => false end
    && match b_nx a, b_nx b with NAny, NAny | NNoLf, NNoLf | NLfEnd, NLfEnd | NEof, NEof => true | _, _ => false end
    && peqb (b_now a) (b_now b) && oeqb try_eqb (b_try a) (b_try b)
    && oeqb Z.eqb (b_p a) (b_p b) && oeqb Z.eqb (b_te a) (b_te b) && oeqb Z.eqb (b_ts a) (b_ts b)
    && oeqb eqb (d_z (b_dep a)) (d_z (b_dep b))
    && oeqb (fun c d => (fst c =? fst d) && (snd c =? snd d)) (d_off (b_dep a)) (d_off (b_dep b)).

  Definition table := PM.t (list ast).
  Definition key (a : ast) : positive :=
    Z.to_pos (Zpos (b_cs a) * 257 + match b_v a with c :: _ => c | [] => 256 end).
  Definition t_mem (t : table) (a : ast) : bool :=
    match PM.find (key a) t with Some l => existsb (ast_eqb a) l | None => false end.

  Definition check_state (m : machine) (d : dfa) (t : table) (a : ast) : bool :=
    match PM.find (b_cs a) (df_sts d) with
    | None => false
    | Some q =>
      forallb (fun c => match on_byte m d q a c with
                        | Some l => forallb (t_mem t) l
                        | None => false
                        end) bs
      && match on_end d q a with
         | Some l => forallb (t_mem t) l
         | None => false
         end
    end.

  Definition start_state (d : dfa) : ast :=
    mkA (df_start d) false false false (Some 0) None None false (AOut 0) [] NAny (fresh true) None (Some 0) None None no_depth.

  (** No empty patterns. *)
  Definition sane : bool :=
    forallb (fun g => negb (Nat.eqb (length (g_open g)) 0) && forallb (fun p => negb (Nat.eqb (length p) 0)) (g_close g)) (x_regions x).

  Definition lex_check (m : machine) (t : table) : bool :=
    match m_dfas m with
    | d :: _ =>
      df_scan d && sane && String.eqb (m_lang m) lang && t_mem t (start_state d)
      && forallb (fun kl => forallb (fun a => Pos.eqb (key a) (fst kl) && check_state m d t a) (snd kl)) (PM.elements t)
    | [] => false
    end.

  (** ** Computing a table (nothing has to be shown about this) *)
  Definition succs (m : machine) (d : dfa) (a : ast) : list ast :=
    match PM.find (b_cs a) (df_sts d) with
    | None => []
    | Some q =>
      flat_map (fun c => match on_byte m d q a c with Some l => l | None => [] end) bs
      ++ match on_end d q a with Some l => l | _ => [] end
    end.
  Definition t_add (t : table) (a : ast) : table :=
    PM.add (key a) (a :: match PM.find (key a) t with Some l => l | None => [] end) t.
  Fixpoint explore (fuel : nat) (m : machine) (d : dfa) (todo : list ast) (t : table) : table :=
    match fuel, todo with
    | S f, a :: todo =>
      if t_mem t a then explore f m d todo t
      else explore f m d (succs m d a ++ todo) (t_add t a)
    | _, _ => t
    end.
  Definition lex_table (m : machine) : table :=
    match m_dfas m with
    | d :: _ => explore (Z.to_nat 1000000) m d [start_state d] (PM.empty _)
    | [] => PM.empty _
    end.
End Check.

(** ** Bytes that are not distinguished *)
Definition sets (x : lexis) : list (list Z) :=
  flat_map (fun g => g_open g ++ g_ahead g ++ List.concat (g_close g) ++ List.concat (g_never g)) (x_regions x)
  ++ flat_map (fun p => fst (fst p)) (x_words x) ++ List.concat (x_never x) ++ List.concat (x_head x)
  ++ map (fun c => [c]) [9; 10; 11; 12; 13; 32; 92].

Definition sig (l : list (list Z)) (m : machine) (c : Z) : option nat * list bool :=
  (PM.find (Z.to_pos (c + 1)) (m_class m), map (among c) l).
Definition sig_eqb (a b : option nat * list bool) : bool :=
  oeqb Nat.eqb (fst a) (fst b) && list_eqb eqb (snd a) (snd b).
Definition sigs (l : list (list Z)) (m : machine) : list (Z * (option nat * list bool)) :=
  map (fun c => (c, sig l m c)) all_bytes.
Definition rep (l : list (list Z)) (m : machine) (tb : list (Z * (option nat * list bool))) (c : Z) : Z :=
  match find (fun e => sig_eqb (snd e) (sig l m c)) tb with Some e => fst e | None => c end.
Definition reps (x : lexis) (m : machine) : list Z :=
  let l := sets x in
  let tb := sigs l m in
  nodup Z.eq_dec (map (rep l m tb) all_bytes).

