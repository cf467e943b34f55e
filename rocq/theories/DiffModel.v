(** Model of src/diff.c, the in-memory line diff.

    All arrays live in C memory as modelled in [Arr]: the [struct line] arrays
    are flat arrays of [int] (serial at [2k], value at [2k+1]) because the code
    overlays the [int] arrays [member] and [class] on them.

    Simplifications.
    - [char] is signed (x86); [<<] of a negative [long] and the conversion to
      [short] have their usual two's complement meaning (gcc).
    - Buffers are at most 100000 bytes here (diff.c:671-678), so that [int]
      values stay far from overflow; their overflow is not modelled.
    - Computing (not dereferencing) a pointer before the start of an array in
      [sort] is not counted as undefined.
    - malloc/realloc never fail; free is not modelled. *)
From Coq Require Import ZArith List Bool Lia.
From Verif Require Import Base Arr.
Import ListNotations.
Open Scope Z_scope.

(** diff.c:282-308 [hash].  [char] is signed and [long] has 64 bits, so the sum
    of at most 100000 shifted bytes does not overflow; shifting a negative value
    to the left is the multiplication that compilers implement. *)
Definition schar (c : Z) : Z := if c <? 128 then c else c - 256.
Definition low (x : Z) : Z := Z.land x 65535.
Definition high (x : Z) : Z := Z.shiftr x 16.
Definition to_short (x : Z) : Z :=
  let y := x mod 65536 in if y <? 32768 then y else y - 65536.

Fixpoint hash_loop (sum shift : Z) (line : list Z) : Z :=
  match line with
  | [] => sum
  | c :: r =>
    let shift := Z.land shift 15 in
    hash_loop (sum + Z.shiftl (schar c) shift) (shift + 7) r
  end.

Definition hash (line : list Z) : Z :=
  let sum := hash_loop 1 0 line in
  let sum := low sum + high sum in
  to_short (low sum) + to_short (high sum).

(** [strtok(_, "\n")] called until it returns NULL: the maximal non-empty
    pieces between newlines (C library contract). *)
Fixpoint split_nl (s : list Z) : list (list Z) :=
  match s with
  | [] => [[]]
  | c :: r =>
    if c =? 10 then [] :: split_nl r
    else match split_nl r with
         | l :: ls => (c :: l) :: ls
         | [] => [[c]]
         end
  end.

Definition nonempty (l : list Z) : bool := match l with [] => false | _ => true end.
Definition strtok_lines (s : list Z) : list (list Z) := filter nonempty (split_nl s).

(** diff.c:265-268 [struct line] *)
Definition serial_at (base k : Z) : Z := 2 * (base + k).
Definition value_at (base k : Z) : Z := 2 * (base + k) + 1.

(** diff.c:324-329, the loop over the lines. *)
Fixpoint prepare_loop (j : Z) (p : arr) (ls : list (list Z)) : res (Z * arr) :=
  match ls with
  | [] => Ok (j, p)
  | l :: r =>
    let j := j + 1 in
    let p := arealloc p (2 * (j + 3)) in
    p <- aset p (value_at 0 j) (hash l) ;;
    prepare_loop j p r
  end.

(** diff.c:315-333 [prepare].  The local array [bufcpy] has [strlen(buf)]
    bytes, and the terminator is written at index [strlen(buf)]; [slack] is the
    number of bytes that happen to be usable behind the array.  The copy by
    [strncpy] stays in bounds. *)
Definition prepare (slack : Z) (buf : list Z) : res (Z * arr) :=
  let n := Z.of_nat (length buf) in
  _ <- aset (anew (n + slack)) n 0 ;;
  prepare_loop 0 (anew (2 * 3)) (strtok_lines buf).

(** diff.c:347-364 [change]; the state is (added, removed). *)
Definition change (len0 len1 a b c d : Z) (st : Z * Z) : Z * Z :=
  let '(added, removed) := st in
  if (a >? b) && (c >? d) then st else
  let a := if a <=? 1 then 1 else a in
  let b := if b >? len0 then len0 else b in
  let removed := if a <=? b then removed + (b - a + 1) else removed in
  let c := if c <=? 1 then 1 else c in
  let d := if d >? len1 then len1 else d in
  let added := if c <=? d then added + (d - c + 1) else added in
  (added, removed).

(** diff.c:431-459 [sort].  [ai] and [aim] are indices relative to [a = base];
    [aim = ai + m] throughout.  The serial numbers are read even where C's
    short-circuit evaluation would not look at them; they are initialised by
    [prune], so this adds no undefined behaviour. *)
Fixpoint sort_inner (fuel : nat) (f : arr) (base m ai : Z) : res arr :=
  match fuel with
  | O => OutOfFuel
  | S k =>
    let aim := ai + m in
    v <- aget f (value_at base aim) ;;
    u <- aget f (value_at base ai) ;;
    s <- aget f (serial_at base aim) ;;
    t <- aget f (serial_at base ai) ;;
    if (v >? u) || ((v =? u) && (s >? t)) then Ok f
    else
      f <- aset f (serial_at base ai) s ;;
      f <- aset f (value_at base ai) v ;;
      f <- aset f (serial_at base aim) t ;;
      f <- aset f (value_at base aim) u ;;
      if ai - m >? 0 then sort_inner k f base m (ai - m) else Ok f
  end.

(** for (j = a+1; j <= a+(n-m); j++) *)
Fixpoint sort_mid (fuel : nat) (f : arr) (base n m j : Z) : res arr :=
  if j <=? n - m then
    match fuel with
    | O => OutOfFuel
    | S k =>
      f <- sort_inner (S (Z.to_nat n)) f base m j ;;
      sort_mid k f base n m (j + 1)
    end
  else Ok f.

(** for (m /= 2; m != 0; m /= 2) *)
Fixpoint sort_outer (fuel : nat) (f : arr) (base n m : Z) : res arr :=
  if m =? 0 then Ok f
  else
    match fuel with
    | O => OutOfFuel
    | S k =>
      f <- sort_mid (S (Z.to_nat n)) f base n m 1 ;;
      sort_outer k f base n (m / 2)
    end.

(** for (i = 1; i <= n; i *= 2) m = 2*i - 1; *)
Fixpoint sort_m (fuel : nat) (n i m : Z) : res Z :=
  if i <=? n then
    match fuel with
    | O => OutOfFuel
    | S k => sort_m k n (i * 2) (2 * i - 1)
    end
  else Ok m.

Definition sort (f : arr) (base n : Z) : res arr :=
  m <- sort_m (S (Z.to_nat n)) n 1 0 ;;
  sort_outer (S (Z.to_nat n)) f base n (m / 2).

(** diff.c:461-471 [unsort]; [f] and the destination [b] are the same memory,
    [b] starting at offset 0 and [f] at [base].  The loops run i = 1..l. *)
Fixpoint unsort_read (cnt : nat) (f : arr) (base i : Z) (a : arr) : res arr :=
  match cnt with
  | O => Ok a
  | S k =>
    s <- aget f (serial_at base i) ;;
    v <- aget f (value_at base i) ;;
    a <- aset a s v ;;
    unsort_read k f base (i + 1) a
  end.

Fixpoint unsort_write (cnt : nat) (a : arr) (i : Z) (b : arr) : res arr :=
  match cnt with
  | O => Ok b
  | S k =>
    v <- aget a i ;;
    b <- aset b i v ;;
    unsort_write k a (i + 1) b
  end.

Definition unsort (f : arr) (base l : Z) : res arr :=
  a <- unsort_read (Z.to_nat l) f base 1 (anew (l + 1)) ;;
  unsort_write (Z.to_nat l) a 1 f.

(** diff.c:473-488 [prune] *)
Fixpoint prune_pref (fuel : nat) (f0 f1 : arr) (len0 len1 pref : Z) : res Z :=
  if (pref <? len0) && (pref <? len1) then
    match fuel with
    | O => OutOfFuel
    | S k =>
      u <- aget f0 (value_at 0 (pref + 1)) ;;
      v <- aget f1 (value_at 0 (pref + 1)) ;;
      if u =? v then prune_pref k f0 f1 len0 len1 (pref + 1) else Ok pref
    end
  else Ok pref.

Fixpoint prune_suff (fuel : nat) (f0 f1 : arr) (len0 len1 pref suff : Z) : res Z :=
  if (suff <? len0 - pref) && (suff <? len1 - pref) then
    match fuel with
    | O => OutOfFuel
    | S k =>
      u <- aget f0 (value_at 0 (len0 - suff)) ;;
      v <- aget f1 (value_at 0 (len1 - suff)) ;;
      if u =? v then prune_suff k f0 f1 len0 len1 pref (suff + 1) else Ok suff
    end
  else Ok suff.

(** for(i=0;i<=slen[j];i++) sfile[j][i].serial = i; *)
Fixpoint prune_serial (cnt : nat) (f : arr) (base i : Z) : res arr :=
  match cnt with
  | O => Ok f
  | S k =>
    f <- aset f (serial_at base i) i ;;
    prune_serial k f base (i + 1)
  end.

(** diff.c:490-514 [equiv].  [a] = f0 at [base], [b] = f1 at [base],
    [c] = f1 at offset 0. *)
Fixpoint equiv_class (fuel : nat) (f0 f1 : arr) (base n m i j : Z) : res arr :=
  if i <=? n then
    match fuel with
    | O => OutOfFuel
    | S k =>
      if j <=? m then
        u <- aget f0 (value_at base i) ;;
        v <- aget f1 (value_at base j) ;;
        if u <? v then
          f0 <- aset f0 (value_at base i) 0 ;; equiv_class k f0 f1 base n m (i + 1) j
        else if u =? v then
          f0 <- aset f0 (value_at base i) j ;; equiv_class k f0 f1 base n m (i + 1) j
        else equiv_class k f0 f1 base n m i (j + 1)
      else
        f0 <- aset f0 (value_at base i) 0 ;; equiv_class k f0 f1 base n m (i + 1) j
    end
  else Ok f0.

(** The inner loop [while(b[j+1].value == b[j].value)]; returns (c, j). *)
Fixpoint equiv_run (fuel : nat) (f1 : arr) (base j : Z) : res (arr * Z) :=
  match fuel with
  | O => OutOfFuel
  | S k =>
    v' <- aget f1 (value_at base (j + 1)) ;;
    v <- aget f1 (value_at base j) ;;
    if v' =? v then
      let j := j + 1 in
      s <- aget f1 (serial_at base j) ;;
      f1 <- aset f1 j s ;;
      equiv_run k f1 base j
    else Ok (f1, j)
  end.

(** The outer loop [while(++j <= m)], entered with the incremented [j]. *)
Fixpoint equiv_member (fuel : nat) (f1 : arr) (base m j : Z) : res (arr * Z) :=
  if j <=? m then
    match fuel with
    | O => OutOfFuel
    | S k =>
      s <- aget f1 (serial_at base j) ;;
      f1 <- aset f1 j (- s) ;;
      '(f1, j) <- equiv_run (S (Z.to_nat m)) f1 base j ;;
      equiv_member k f1 base m (j + 1)
    end
  else Ok (f1, j).

Definition equiv (f0 f1 : arr) (base n m : Z) : res (arr * arr) :=
  f0 <- equiv_class (S (Z.to_nat (n + m))) f0 f1 base n m 1 1 ;;
  f1 <- aset f1 (value_at base (m + 1)) 0 ;;
  '(f1, j) <- equiv_member (S (Z.to_nat m)) f1 base m 1 ;;
  f1 <- aset f1 j (-1) ;;
  Ok (f0, f1).

(** diff.c:259-263, 278-279, 516-525: candidates; [clen] is the length. *)
Record cand := mkCand { c_x : Z; c_y : Z; c_pred : Z }.

Definition newcand (cl : list cand) (x y pred : Z) : list cand * Z :=
  (cl ++ [mkCand x y pred], Z.of_nat (length cl)).

Definition cand_at (cl : list cand) (i : Z) : res cand :=
  if i <? 0 then Ub OutOfBounds else
  match nth_error cl (Z.to_nat i) with
  | Some q => Ok q
  | None => Ub OutOfBounds
  end.

(** clist[c[l]].y *)
Definition ky (cl : list cand) (c : arr) (l : Z) : res Z :=
  i <- aget c l ;;
  q <- cand_at cl i ;;
  Ok (c_y q).

(** diff.c:527-545 [search] *)
Fixpoint search_loop (fuel : nat) (cl : list cand) (c : arr) (i j y : Z) : res Z :=
  match fuel with
  | O => OutOfFuel
  | S k =>
    let l := (i + j) / 2 in
    if l >? i then
      t <- ky cl c l ;;
      if t >? y then search_loop k cl c i l y
      else if t <? y then search_loop k cl c l j y
      else Ok l
    else Ok (l + 1)
  end.

Definition search (cl : list cand) (c : arr) (k y : Z) : res Z :=
  t <- ky cl c k ;;
  if t <? y then Ok (k + 1)
  else search_loop (S (S (Z.to_nat k))) cl c 0 (k + 1) y.

(** diff.c:547-583 [stone].  The body of the do-while loop, entered with the
    current [y]; returns (clist, c, k). *)
Fixpoint stone_do (fuel : nat) (b : arr) (cl : list cand) (c : arr)
         (k i j y oldl oldc : Z) : res (list cand * arr * Z) :=
  match fuel with
  | O => OutOfFuel
  | S fu =>
    (* [continue]: j is advanced and the loop condition evaluated *)
    let next cl c k oldl oldc :=
      y <- aget b (j + 1) ;;
      if y >? 0 then stone_do fu b cl c k i (j + 1) y oldl oldc
      else Ok (cl, c, k) in
    q <- cand_at cl oldc ;;
    if y <=? c_y q then next cl c k oldl oldc
    else
      l <- search cl c k y ;;
      oldc <- (if l =? oldl + 1 then Ok oldc else aget c (l - 1)) ;;
      if l <=? k then
        t <- ky cl c l ;;
        if t <=? y then next cl c k oldl oldc
        else
          tc <- aget c l ;;
          let '(cl, q) := newcand cl i y oldc in
          c <- aset c l q ;;
          next cl c k l tc
      else
        let '(cl, q) := newcand cl i y oldc in
        c <- aset c l q ;;
        Ok (cl, c, k + 1)
  end.

(** for(i=1; i<=n; i++) *)
Fixpoint stone_loop (cnt : nat) (a b : arr) (m : Z) (cl : list cand) (c : arr)
         (k i : Z) : res (list cand * arr * Z) :=
  match cnt with
  | O => Ok (cl, c, k)
  | S cn =>
    j <- aget a i ;;
    if j =? 0 then stone_loop cn a b m cl c k (i + 1)
    else
      y <- aget b j ;;
      oldc <- aget c 0 ;;
      '(cl, c, k) <- stone_do (S (Z.to_nat m)) b cl c k i j (- y) 0 oldc ;;
      stone_loop cn a b m cl c k (i + 1)
  end.

(** [m] only serves as fuel for the do-while loops. *)
Definition stone (a : arr) (n : Z) (b : arr) (m : Z) (c : arr)
  : res (list cand * arr * Z) :=
  let '(cl, q) := newcand [] 0 0 0 in
  c <- aset c 0 q ;;
  stone_loop (Z.to_nat n) a b m cl c 0 1.

(** diff.c:585-599 [unravel] *)
Fixpoint unravel_init (cnt : nat) (J : arr) (len0 len1 pref suff i : Z) : res arr :=
  match cnt with
  | O => Ok J
  | S k =>
    J <- aset J i (if i <=? pref then i
                   else if i >? len0 - suff then i + len1 - len0
                   else 0) ;;
    unravel_init k J len0 len1 pref suff (i + 1)
  end.

Fixpoint unravel_walk (fuel : nat) (cl : list cand) (J : arr) (pref p : Z) : res arr :=
  match fuel with
  | O => OutOfFuel
  | S k =>
    q <- cand_at cl p ;;
    if c_y q =? 0 then Ok J
    else
      J <- aset J (c_x q + pref) (c_y q + pref) ;;
      unravel_walk k cl J pref (c_pred q)
  end.

Definition unravel (cl : list cand) (J : arr) (len0 len1 pref suff p : Z) : res arr :=
  J <- unravel_init (S (Z.to_nat len0)) J len0 len1 pref suff 0 ;;
  unravel_walk (S (length cl)) cl J pref p.

(** diff.c:601-620 [output] *)
Fixpoint output_skip (fuel : nat) (J : arr) (m i0 : Z) : res Z :=
  if i0 <=? m then
    match fuel with
    | O => OutOfFuel
    | S k =>
      u <- aget J i0 ;;
      v <- aget J (i0 - 1) ;;
      if u =? v + 1 then output_skip k J m (i0 + 1) else Ok i0
    end
  else Ok i0.

Fixpoint output_zeros (fuel : nat) (J : arr) (m i1 : Z) : res Z :=
  if i1 <? m then
    match fuel with
    | O => OutOfFuel
    | S k =>
      u <- aget J (i1 + 1) ;;
      if u =? 0 then output_zeros k J m (i1 + 1) else Ok i1
    end
  else Ok i1.

Fixpoint output_loop (fuel : nat) (J : arr) (len0 len1 i0 : Z) (st : Z * Z) : res (Z * Z) :=
  if i0 <=? len0 then
    match fuel with
    | O => OutOfFuel
    | S k =>
      i0 <- output_skip (S (Z.to_nat len0)) J len0 i0 ;;
      v <- aget J (i0 - 1) ;;
      let j0 := v + 1 in
      i1 <- output_zeros (S (Z.to_nat len0)) J len0 (i0 - 1) ;;
      w <- aget J (i1 + 1) ;;
      let j1 := w - 1 in
      J <- aset J i1 j1 ;;
      output_loop k J len0 len1 (i1 + 1) (change len0 len1 i0 i1 j0 j1 st)
    end
  else Ok st.

Definition output (J : arr) (len0 len1 : Z) : res (Z * Z) :=
  J <- aset J 0 0 ;;
  J <- aset J (len0 + 1) (len1 + 1) ;;
  st <- output_loop (S (S (2 * Z.to_nat len0))) J len0 len1 1 (0, 0) ;;
  Ok (if len0 =? 0 then change len0 len1 1 0 1 len1 st else st).

(** diff.c:680-707, after the size test: the in-memory diff. *)
Definition diff_mem (slack : Z) (from to : list Z) : res (Z * Z) :=
  '(len0, f0) <- prepare slack from ;;
  '(len1, f1) <- prepare slack to ;;
  pref <- prune_pref (S (Z.to_nat len0)) f0 f1 len0 len1 0 ;;
  suff <- prune_suff (S (Z.to_nat len0)) f0 f1 len0 len1 pref 0 ;;
  let n := len0 - pref - suff in
  let m := len1 - pref - suff in
  f0 <- prune_serial (S (Z.to_nat n)) f0 pref 0 ;;
  f1 <- prune_serial (S (Z.to_nat m)) f1 pref 0 ;;
  f0 <- sort f0 pref n ;;
  f1 <- sort f1 pref m ;;
  '(f0, f1) <- equiv f0 f1 pref n m ;;
  let member := arealloc f1 (m + 2) in
  f0 <- unsort f0 pref n ;;
  let class := arealloc f0 (n + 2) in
  '(cl, klist, k) <- stone class n member m (anew (n + 2)) ;;
  p <- aget klist k ;;
  J <- unravel cl (anew (len0 + 2)) len0 len1 pref suff p ;;
  output J len0 len1.

(** diff.c:654-661: the output of the external diff program is read with
    fgets into [char line[10000]]; a line of the program's output longer than
    9999 bytes arrives in several pieces.  [room] bytes are left in the buffer,
    [start] tells whether the next byte goes to line[0]. *)
Fixpoint disk_read (room : Z) (start : bool) (out : list Z) (st : Z * Z) : Z * Z :=
  match out with
  | [] => st
  | c :: r =>
    let '(added, removed) := st in
    let st := if start
              then (if c =? 62 then added + 1 else added,
                    if c =? 60 then removed + 1 else removed)
              else st in
    if (c =? 10) || (room - 1 =? 0) then disk_read 9999 true r st
    else disk_read (room - 1) false r st
  end.

(** diff.c:642-669 [ohcount_calc_diff_with_disk].  [difftool from to] is what
    the program "diff --normal --suppress-common-lines --new-file" prints for
    two files with these contents.  Temporary files and popen are taken to
    work. *)
Definition calc_diff_with_disk (difftool : list Z -> list Z -> list Z)
           (from to : list Z) : Z * Z :=
  disk_read 9999 true (difftool from to) (0, 0).

(** diff.c:671-708 [ohcount_calc_diff] *)
Definition calc_diff (slack : Z) (difftool : list Z -> list Z -> list Z)
           (from to : list Z) : res (Z * Z) :=
  if (Z.of_nat (length from) >? 100000) || (Z.of_nat (length to) >? 100000)
  then Ok (calc_diff_with_disk difftool from to)
  else diff_mem slack from to.
