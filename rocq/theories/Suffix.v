(** * Model of the suffix sort: /repo/src/drpm_search.c lines 368-681

    [sfxsrt_create], [sfxsrt_search] and what they use.  The program calls the hash variant
    instead ([Search]); these functions are compiled into the library, too.  Lengths are below
    2^62, so that positions, sums of two of them and their negations are written without
    reduction; what depends on [last_offset] is reduced modulo 2^64.  Failing allocations are
    not modelled. *)
From Verif Require Import Base Seq Search.

(** A loop: one step goes on or ends. *)
Fixpoint while {S R} (fuel : nat) (f : S -> res (S + R)) (s : S) : res R :=
  match fuel with
  | O => NoFuel
  | Datatypes.S fuel => x <- f s ;; match x with inl s => while fuel f s | inr r => Ok r end
  end.

(** The exchanges in [suffix_split], lines 579-581 and others. *)
Definition swap (l : list Z) (a b : Z) : res (list Z) :=
  x <- rd l a ;; y <- rd l b ;; l <- store l a y ;; store l b x.

(** [V[I[k] + h]]. *)
Definition key (Ix V : list Z) (h k : Z) : res Z := p <- rd Ix k ;; rd V (u64 (p + h)).

(** Lines 574-584: the smallest keys of the entries from [k] on come first; how many there
    are.  The state is [i], [j], [x] and the array. *)
Definition select_step (V : list Z) (h k fin : Z) (s : Z * Z * Z * list Z)
  : res ((Z * Z * Z * list Z) + (Z * list Z)) :=
  let '(i, j, x, Ix) := s in
  if k + i <? fin then
    v <- key Ix V h (k + i) ;;
    let '(j, x) := if v <? x then (0, v) else (j, x) in
    if v =? x then Ix <- swap Ix (k + j) (k + i) ;; Ok (inl (i + 1, j + 1, x, Ix))
    else Ok (inl (i + 1, j, x, Ix))
  else Ok (inr (j, Ix)).
Definition select (Ix V : list Z) (h k fin : Z) : res (Z * list Z) :=
  x <- key Ix V h k ;;
  while (Z.to_nat (fin - k) + 1) (select_step V h k fin) (1, 1, x, Ix).

(** Lines 586-587 and 641-642: entries [a] to [a + n) of [Ix] get the number [g]. *)
Fixpoint mark (n : nat) (Ix V : list Z) (a g : Z) : res (list Z) :=
  match n with
  | O => Ok V
  | S n => p <- rd Ix a ;; V <- store V p g ;; mark n Ix V (a + 1) g
  end.
(** Lines 588-589 and 643-644: a group of one is sorted. *)
Definition single (Ix : list Z) (a n : Z) : res (list Z) := if n =? 1 then store Ix a (-1) else Ok Ix.

(** [suffix_split], drpm_search.c lines 565-593: short groups. *)
Definition small_step (h fin : Z) (s : Z * list Z * list Z)
  : res ((Z * list Z * list Z) + (list Z * list Z)) :=
  let '(k, Ix, V) := s in
  if k <? fin then
    '(j, Ix) <- select Ix V h k fin ;;
    V <- mark (Z.to_nat j) Ix V k (k + j - 1) ;;
    Ix <- single Ix k j ;;
    Ok (inl (k + j, Ix, V))
  else Ok (inr (Ix, V)).
Definition small_split (Ix V : list Z) (start len h : Z) : res (list Z * list Z) :=
  while (Z.to_nat len + 1) (small_step h (start + len)) (start, Ix, V).

(** Lines 598-603: how many keys are below [x] and how many equal it. *)
Fixpoint tally (n : nat) (Ix V : list Z) (h x i jj kk : Z) : res (Z * Z) :=
  match n with
  | O => Ok (jj, kk)
  | S n =>
    v <- key Ix V h i ;;
    tally n Ix V h x (i + 1) (if v <? x then jj + 1 else jj) (if v =? x then kk + 1 else kk)
  end.

(** Lines 607-625: entries that do not belong to the first part are exchanged. *)
Definition low_step (V : list Z) (h x jj kk : Z) (s : Z * Z * Z * list Z)
  : res ((Z * Z * Z * list Z) + (Z * Z * list Z)) :=
  let '(i, j, k, Ix) := s in
  if i <? jj then
    v <- key Ix V h i ;;
    if v <? x then Ok (inl (i + 1, j, k, Ix))
    else if v =? x then Ix <- swap Ix i (jj + j) ;; Ok (inl (i, j + 1, k, Ix))
    else Ix <- swap Ix i (kk + k) ;; Ok (inl (i, j, k + 1, Ix))
  else Ok (inr (j, k, Ix)).
(** Lines 627-636: the same for the second part. *)
Definition mid_step (V : list Z) (h x jj kk : Z) (s : Z * Z * list Z)
  : res ((Z * Z * list Z) + list Z) :=
  let '(j, k, Ix) := s in
  if jj + j <? kk then
    v <- key Ix V h (jj + j) ;;
    if v =? x then Ok (inl (j + 1, k, Ix))
    else Ix <- swap Ix (jj + j) (kk + k) ;; Ok (inl (j, k + 1, Ix))
  else Ok (inr Ix).

(** [suffix_split], drpm_search.c lines 565-648. *)
Fixpoint suffix_split (fuel : nat) (Ix V : list Z) (start len h : Z) : res (list Z * list Z) :=
  match fuel with
  | O => NoFuel
  | S fuel =>
    if len <? 16 then small_split Ix V start len h
    else
      let fin := start + len in
      x <- key Ix V h (start + len / 2) ;;
      '(jj, kk) <- tally (Z.to_nat len) Ix V h x start 0 0 ;;
      let jj := jj + start in
      let kk := kk + jj in
      '(j, k, Ix) <- while (2 * Z.to_nat len + 1) (low_step V h x jj kk) (start, 0, 0, Ix) ;;
      Ix <- while (2 * Z.to_nat len + 1) (mid_step V h x jj kk) (j, k, Ix) ;;
      '(Ix, V) <- (if start <? jj then suffix_split fuel Ix V start (jj - start) h else Ok (Ix, V)) ;;
      V <- mark (Z.to_nat (kk - jj)) Ix V jj (kk - 1) ;;
      Ix <- single Ix jj (kk - jj) ;;
      if kk <? fin then suffix_split fuel Ix V kk (fin - kk) h else Ok (Ix, V)
  end.

(** [bucketsort], drpm_search.c lines 532-563.  The table of buckets, which is full of zeros at
    first, is a list of its changes. *)
Definition table : Type := list (Z * Z).
Fixpoint bucket (B : table) (c : Z) : Z :=
  match B with
  | [] => 0
  | (x, v) :: B => if c =? x then v else bucket B c
  end.
Definition in_table (n c : Z) : res unit := if (0 <=? c) && (c <? n) then Ok tt else Ub OobRead.
(** Lines 540-544. *)
Fixpoint bucket_fill (n : nat) (buckets : Z) (V : list Z) (B : table) : res (list Z * table) :=
  match n with
  | O => Ok (V, B)
  | S n =>
    c <- rd V (Z.of_nat n) ;;
    _ <- in_table buckets c ;;
    V <- store V (Z.of_nat n) (bucket B c) ;;
    bucket_fill n buckets V ((c, Z.of_nat n + 1) :: B)
  end.
(** Lines 547-552: one bucket. *)
Fixpoint bucket_empty (fuel : nat) (g d i : Z) (Ix V : list Z) : res (Z * list Z * list Z) :=
  match fuel with
  | O => NoFuel
  | S fuel =>
    if d <=? 0 then Ok (i, Ix, V)
    else
      let c := d - 1 in
      d <- rd V c ;;
      V <- store V c g ;;
      Ix <- store Ix i (if (d =? 0) && (g =? i) then -1 else c) ;;
      bucket_empty fuel g d (i - 1) Ix V
  end.
Definition empty_step (buckets : Z) (B : table) (s : Z * Z * list Z * list Z)
  : res ((Z * Z * list Z * list Z) + (list Z * list Z)) :=
  let '(j, i, Ix, V) := s in
  if 0 <? i then
    _ <- in_table buckets j ;;
    '(i, Ix, V) <- bucket_empty (length V + 1) i (bucket B j) i Ix V ;;
    Ok (inl (j - 1, i, Ix, V))
  else Ok (inr (Ix, V)).
Definition bucketsort (Ix V : list Z) (len buckets : Z) : res (list Z * list Z) :=
  '(V, B) <- bucket_fill (Z.to_nat len) buckets V [] ;;
  '(Ix, V) <- while (Z.to_nat buckets + 1) (empty_step buckets B) (buckets - 1, len, Ix, V) ;;
  V <- store V len 0 ;;
  Ix <- store Ix 0 (-1) ;;
  Ok (Ix, V).

(** [sfxsrt_create], drpm_search.c lines 409-447: the keys of two or three bytes, for which
    [d] is 1 or 2, and how often each byte occurs.  [oldv] is kept as a number of [d] bytes. *)
Fixpoint fill_keys (n : nat) (d : Z) (old : list Z) (i oldv : Z) (F V : list Z)
  : res (Z * list Z * list Z) :=
  match n with
  | O => Ok (oldv, F, V)
  | S n =>
    b <- rd old i ;;
    f <- rd F b ;;
    F <- store F b (f + 1) ;;
    let v := oldv mod 256 ^ d * 256 + b in
    V <- store V (i - d) (v + d) ;;
    fill_keys n d old (i + 1) v F V
  end.
(** Lines 413-415 and 430-431: the first bytes. *)
Fixpoint first_keys (n : nat) (old : list Z) (i oldv : Z) (F : list Z) : res (Z * list Z) :=
  match n with
  | O => Ok (oldv, F)
  | S n =>
    b <- rd old i ;;
    f <- rd F b ;;
    F <- store F b (f + 1) ;;
    first_keys n old (i + 1) (oldv * 256 + b) F
  end.
(** Lines 421-424 and 437-438: the last positions, whose keys are completed with zeros. *)
Fixpoint last_keys (n : nat) (d i oldv : Z) (V : list Z) : res (list Z) :=
  match n with
  | O => Ok V
  | S n =>
    let v := oldv mod 256 ^ d * 256 in
    V <- store V i (v + d) ;;
    last_keys n d (i + 1) v V
  end.
(** Lines 426-427 and 440: the positions after the end. *)
Fixpoint end_keys (n : nat) (i : Z) (V : list Z) : res (list Z) :=
  match n with
  | O => Ok V
  | S n => V <- store V i (Z.of_nat n) ;; end_keys n (i + 1) V
  end.
Definition all_keys (d : Z) (old : list Z) (F V : list Z) : res (list Z * list Z) :=
  let n := zlen old in
  '(oldv, F) <- first_keys (Z.to_nat d) old 0 0 F ;;
  '(oldv, F, V) <- fill_keys (Z.to_nat (n - d)) d old d oldv F V ;;
  V <- last_keys (Z.to_nat d) d (n - d) oldv V ;;
  V <- end_keys (Z.to_nat d) n V ;;
  Ok (F, V).

(** Lines 443-446: from numbers of bytes to places in the array. *)
Fixpoint sum_counts (n : nat) (val : Z) (F : list Z) : res (list Z) :=
  F2 <- store F (Z.of_nat n) val ;;
  match n with
  | O => Ok F2
  | S m => f <- rd F (Z.of_nat m) ;; sum_counts m (val - f) F2
  end.

(** Lines 453-471: one pass over the groups; the state is [i], [l] and the arrays. *)
Definition pass_step (len h : Z) (s : Z * Z * list Z * list Z)
  : res ((Z * Z * list Z * list Z) + (list Z * list Z)) :=
  let '(i, l, Ix, V) := s in
  if i <? len then
    x <- rd Ix i ;;
    if x <? 0 then Ok (inl (i - x, l - x, Ix, V))
    else
      Ix <- (if 0 <? l then store Ix (i - l) (- l) else Ok Ix) ;;
      v <- rd V x ;;
      let l := v + 1 - i in
      '(Ix, V) <- suffix_split (Z.to_nat l + 1) Ix V i l h ;;
      Ok (inl (i + l, 0, Ix, V))
  else Ix <- (if 0 <? l then store Ix (i - l) (- l) else Ok Ix) ;; Ok (inr (Ix, V)).
Definition order_step (len : Z) (s : Z * list Z * list Z)
  : res ((Z * list Z * list Z) + (list Z * list Z)) :=
  let '(h, Ix, V) := s in
  x <- rd Ix 0 ;;
  if x =? - len then Ok (inr (Ix, V))
  else
    '(Ix, V) <- while (Z.to_nat len + 1) (pass_step len h) (0, 0, Ix, V) ;;
    Ok (inl (h + h, Ix, V)).

(** Lines 474-475. *)
Fixpoint invert (n : nat) (i : Z) (Ix V : list Z) : res (list Z) :=
  match n with
  | O => Ok Ix
  | S n => v <- rd V i ;; Ix <- store Ix v i ;; invert n (i + 1) Ix V
  end.

(** [sfxsrt_create], drpm_search.c lines 377-489: the suffix array and the table [F]. *)
Definition sfxsrt_create (old : list Z) : res (list Z * list Z) :=
  let n := zlen old in
  let zeros := repeat 0 (length old + 3) in
  let d := if 0xFFFFFF <? n then 2 else 1 in
  let buckets := if 0xFFFFFF <? n then 0x1000002 else 0x10001 in
  '(F, V) <- all_keys d old (repeat 0 257) zeros ;;
  let len := n + d in
  F <- sum_counts 256 len F ;;
  '(Ix, V) <- bucketsort zeros V len buckets ;;
  let len := len + 1 in
  '(Ix, V) <- while (Z.to_nat len + 2) (order_step len) (d + 1, Ix, V) ;;
  Ix <- invert (Z.to_nat len) 0 Ix V ;;
  Ok (Ix, F).

(** [memcmp] of [n] bytes: is the result negative? *)
Fixpoint memcmp_below (n : nat) (a : list Z) (i : Z) (b : list Z) (j : Z) : res bool :=
  match n with
  | O => Ok false
  | S n =>
    x <- rd a i ;; y <- rd b j ;;
    if x =? y then memcmp_below n a (i + 1) b (j + 1) else Ok (x <? y)
  end.

(** [suffix_search], drpm_search.c lines 650-681, for [new + scan]: the length of the match,
    and its place if one was stored. *)
Definition halve_step (sfxar old new : list Z) (scan : Z) (s : Z * Z) : res ((Z * Z) + (Z * Z)) :=
  let '(start, fin) := s in
  if 2 <=? fin - start then
    let half := start + (fin - start) / 2 in
    p <- rd sfxar half ;;
    b <- memcmp_below (Z.to_nat (Z.min (zlen new - scan) (u64 (zlen old - p)))) old p new scan ;;
    if b : bool then Ok (inl (half, fin)) else Ok (inl (start, half))
  else Ok (inr (start, fin)).
Definition suffix_search (sfxar old new : list Z) (scan start fin : Z) : res (Z * option Z) :=
  let m p := match_len old p (u64 (zlen old - p)) new scan (zlen new - scan) in
  if fin <? start then Ok (0, None)
  else if start =? fin then
    p <- rd sfxar start ;; l <- m p ;; Ok (l, Some p)
  else
    '(start, fin) <- while (Z.to_nat (fin - start) + 1) (halve_step sfxar old new scan) (start, fin) ;;
    p <- rd sfxar start ;;
    q <- rd sfxar fin ;;
    a <- m p ;;
    b <- m q ;;
    Ok (Z.max a b, Some (if b <? a then p else q)).

(** Lines 510-513: bytes that the old match has right. *)
Fixpoint score (n : nat) (old new : list Z) (off mini s : Z) : res Z :=
  match n with
  | O => Ok s
  | S n =>
    x <- rd old (u64 (mini + off)) ;;
    y <- rd new mini ;;
    score n old new off (mini + 1) (if x =? y then u64 (s + 1) else s)
  end.

(** [sfxsrt_search], drpm_search.c lines 497-530, with the result and what is stored in
    [*pos_ret] and [*len_ret].  The state is [scan], [miniscan], [old_score], [len] and the
    place. *)
Definition search_step (sfxar F old new : list Z) (off : Z) (s : Z * Z * Z * Z * Z)
  : res ((Z * Z * Z * Z * Z) + (Z * Z * Z)) :=
  let '(scan, mini, sc, len, pos) := s in
  if scan <? zlen new then
    c <- rd new scan ;;
    lo <- rd F c ;;
    hi <- rd F (c + 1) ;;
    '(len, at_) <- suffix_search sfxar old new scan (lo + 1) hi ;;
    let pos := match at_ with Some p => p | None => pos end in
    let limit := Z.min (scan + len) (u64 (zlen old - off)) in
    sc <- score (Z.to_nat (limit - mini)) old new off mini sc ;;
    if (0 <? len) && (len =? sc) then Ok (inl (scan + len, scan + len, 0, len, pos))
    else if 32 <? u64 (len - sc) then Ok (inr (scan, pos, len))
    else
      let at_ := u64 (scan + off) in
      hit <- (if at_ <? zlen old then x <- rd old at_ ;; Ok (x =? c) else Ok false) ;;
      Ok (inl (scan + 1, scan + len, if hit : bool then u64 (sc - 1) else sc, len, pos))
  else Ok (inr (scan, pos, len)).
Definition sfxsrt_search (sfxar F old new : list Z) (off scan : Z) : res (Z * Z * Z) :=
  while (length new + 2) (search_step sfxar F old new off) (scan, scan, 0, 0, 0).
