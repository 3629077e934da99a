(** * Model of the match search: /repo/src/drpm_search.c lines 51-366

    This is the hash variant; the suffix-sort variant (lines 368-681), which is
    not called by any other code, is in [Suffix].  Buffer lengths are below 2^63, so sums of
    two positions inside buffers do not wrap and are written without [u64];
    every subtraction and every use of [last_offset] is reduced modulo 2^64. *)
From Verif Require Import Base.

(** drpm_search.c line 51 and lines 75-76. *)
Definition HSIZE : Z := 16.

(** drpm_search.c lines 84-138, in decimal. *)
Definition noise : list Z :=
  [
   2615476900; 3128000746; 843990863; 179012689; 216872976;
   559458664; 1807562609; 1973429545; 1106271252; 3257289607;
   526889817; 3442279197; 1239157764; 2689262684; 1792944295;
   755127551; 3737521276; 3740647556; 259522504; 287318518;
   1601001502; 3814630367; 840351668; 3584231485; 2120477133;
   2861697270; 3661576568; 4262339911; 165654560; 3648287429;
   3150851806; 303754194; 245357547; 2070896028; 2224262723;
   812207917; 2260183032; 4021246070; 641209062; 3068431839;
   3465468288; 1307939297; 1965390645; 797498623; 2757885508;
   3395369805; 3649060723; 3926221317; 3435821705; 254655239;
   3309188510; 3893166391; 724380253; 3485546778; 733198021;
   3060460092; 15352222; 3462060676; 2921162514; 318076602;
   293587908; 2849294197; 632542742; 4024067496; 2951999323;
   6454888; 1720524441; 143462127; 4177183309; 3883161543;
   1758707380; 2451385035; 2484136649; 3622978457; 3420374167;
   2563349217; 1702898476; 2179056580; 2704325385; 396917677;
   2802018262; 344348884; 49492855; 2250299574; 3182175677;
   2963725905; 3595322737; 2753059744; 2739066639; 1058915521;
   70108110; 233348931; 2795182183; 1007046161; 2904435774;
   2522933453; 3547007434; 1216934440; 1638509628; 3646296344;
   892500350; 1906531362; 3972085612; 2872174166; 2294091061;
   1111171293; 954492188; 1013159844; 1249579737; 145870643;
   3495969079; 2956328376; 1226234403; 2838795411; 3627920027;
   341802389; 2256875990; 2897317655; 2631089007; 423510713;
   652205122; 1349114106; 1542333678; 1417008326; 828058636;
   4150587205; 28767467; 1622815269; 2316728188; 1275448616;
   1407762898; 3366415589; 2152055270; 1630701394; 783995682;
   876934114; 2444799761; 2966349429; 1440481114; 4144373472;
   668456505; 2762930377; 1124011599; 1651856488; 476881907;
   3841270481; 660995251; 3792472725; 980004519; 1454058575;
   2236737160; 3770422466; 663123647; 2302370050; 3035671355;
   3042827689; 2689356319; 3380611214; 2435508929; 139565997;
   2568159955; 1536270939; 1768790100; 2597893311; 1103855137;
   2791120387; 2239307049; 2303167143; 1166140215; 1505419441;
   3774651891; 1171849260; 2016888399; 3659718202; 499467453;
   1612549037; 1720388284; 2053029809; 985708068; 1591831933;
   2616902535; 3197039116; 2368398212; 2174601173; 2085179879;
   3859654422; 207290483; 3023781271; 3466163437; 258547113;
   1264676192; 2410276889; 1060700979; 1868757718; 1513272956;
   1004990915; 92606723; 4280844941; 2856559978; 123567573;
   613174142; 1392370667; 4146999002; 1571223391; 793856217;
   3403853486; 4255577061; 4284537087; 719061714; 498974028;
   3557862780; 2351450798; 959379680; 936676154; 1737686685;
   2905791994; 356905550; 975572851; 3072641590; 3306215249;
   1334704530; 756535; 690920253; 2737775887; 2187579716;
   4239262998; 514728323; 3568246823; 3326802659; 3887288292;
   3750120170; 2160882117; 243355123; 1724669761; 2235189626;
   2726846995; 1580507882; 257145415; 1905018954; 4195289874;
   869030399; 1924435463; 2339329980; 701466733; 424711515;
   3444740364; 1290596197; 96652286; 1239371626; 525090612;
   4208728585; 4074134052; 293557652; 3728377062; 1222324260;
   3507268021
  ].

(** One step of the hash, drpm_search.c line 148 (and line 260):
    [x = (x << 1) ^ (x & (1u << 31) ? 1 : 0) ^ noise[b]] on [uint32_t].
    The table has 256 entries and [b] is an [unsigned char]. *)
Definition buz_step (x b : Z) : Z :=
  u32 (Z.lxor (Z.lxor (u32 (Z.shiftl x 1)) (if Z.testbit x 31 then 1 else 0))
              (getz noise b)).

(** [buzhash(buf + off)], drpm_search.c lines 143-151: reads HSIZE bytes. *)
Definition buzhash (buf : list Z) (off : Z) : res Z :=
  l <- rd_range buf off HSIZE ;;
  Ok (fold_left buz_step l 2211651060 (* 0x83D31DF4 *)).

(** [match_len(old + a, la, new + b, lb)], drpm_search.c lines 60-71. *)
Fixpoint match_len_loop (n : nat) (old : list Z) (a : Z) (new : list Z) (b : Z) : res Z :=
  match n with
  | O => Ok 0
  | S n' =>
      x <- rd old a ;;
      y <- rd new b ;;
      if x =? y
      then (r <- match_len_loop n' old (a + 1) new (b + 1) ;; Ok (1 + r))
      else Ok 0
  end.

Definition match_len (old : list Z) (a la : Z) (new : list Z) (b lb : Z) : res Z :=
  match_len_loop (Z.to_nat (Z.min la lb)) old a new b.

(** [memcmp(x + a, y + b, HSIZE) == 0]; memcmp may read all HSIZE bytes. *)
Definition memcmp16 (x : list Z) (a : Z) (y : list Z) (b : Z) : res bool :=
  p <- rd_range x a HSIZE ;;
  q <- rd_range y b HSIZE ;;
  Ok (list_eqb p q).

(** The hash table of [struct hash], drpm_search.c lines 78-81: [calloc]ed, so
    an absent key is 0.  Represented by the list of assignments, latest first. *)
Record htab : Type := { ht_assoc : list (Z * Z); ht_len : Z }.

Fixpoint assoc_get (l : list (Z * Z)) (k : Z) : Z :=
  match l with
  | [] => 0
  | (k', v) :: l' => if k =? k' then v else assoc_get l' k
  end.

(** [hash_table[k]] with bounds check. *)
Definition ht_get (h : htab) (k : Z) : res Z :=
  if (0 <=? k) && (k <? ht_len h) then Ok (assoc_get (ht_assoc h) k) else Ub OobRead.

(** [hash_table[k] = v] with bounds check. *)
Definition ht_set (h : htab) (k v : Z) : res htab :=
  if (0 <=? k) && (k <? ht_len h)
  then Ok {| ht_assoc := (k, v) :: ht_assoc h; ht_len := ht_len h |}
  else Ub OobWrite.

(** drpm_search.c lines 159-165. *)
Definition primes : list Z :=
  [65537; 98317; 147481; 221227; 331841; 497771; 746659; 1120001;
   1680013; 2520031; 3780053; 5670089; 8505137; 12757739; 19136609;
   28704913; 43057369; 64586087; 96879131; 145318741; 217978121;
   326967209; 490450837; 735676303; 1103514463; 1655271719].

(** drpm_search.c lines 172-177: the first prime above the wanted length, or
    0xFFFFFFFF. *)
Definition pick_prime (want : Z) : Z :=
  match find (fun p => want <? p) primes with
  | Some p => p
  | None => UINT32_MAX
  end.

(** The slot after [key], drpm_search.c lines 187, 191, 272, 285. *)
Definition next_key (h : htab) (key : Z) : Z :=
  if key =? ht_len h - 1 then 0 else key + 1.

(** Body of the loop of [hash_create], drpm_search.c lines 185-193, at [off].
    Line 189 compares with [old_ptr + hash_table[key]], which is one byte past
    the block that the slot denotes (slots hold offset + 1); kept as is. *)
Definition hash_create_step (old : list Z) (h : htab) (off : Z) : res htab :=
  k <- buzhash old off ;;
  let key := k mod ht_len h in
  v <- ht_get h key ;;
  if v =? 0 then ht_set h key (off + 1)
  else
    v2 <- ht_get h (next_key h key) ;;
    if negb (v2 =? 0) then Ok h
    else
      same <- memcmp16 old off old v ;;
      if same then Ok h
      else ht_set h (next_key h key) (off + 1).

(** drpm_search.c lines 184-194; one round per HSIZE bytes. *)
Fixpoint hash_create_loop (n : nat) (old : list Z) (h : htab) (off : Z) : res htab :=
  match n with
  | O => Ok h
  | S n' =>
      h' <- hash_create_step old h off ;;
      hash_create_loop n' old h' (off + HSIZE)
  end.

(** [hash_create], drpm_search.c lines 153-200 (allocation failure left out). *)
Definition hash_create (old : list Z) : res htab :=
  let old_len := zlen old in
  let want := 4 * ((old_len + HSIZE - 1) / HSIZE) in
  hash_create_loop (Z.to_nat (old_len / HSIZE)) old
    {| ht_assoc := []; ht_len := pick_prime want |} 0.

(** Local variables of [hash_search], drpm_search.c lines 217-235. *)
Record hs : Type := mkhs {
  h_scan : Z; h_scan_start : Z;
  h_last_scan : Z; h_last_pos : Z; h_last_len : Z;
  h_old_score : Z; h_old_score_num : Z; h_old_score_start : Z;
  h_prekey : Z }.

(** What one round of the [while (true)] loop does: go round again, or [break]
    with the values of scan, pos and len. *)
Inductive hs_next : Type :=
| HsGo (s : hs)
| HsBreak (scan pos len : Z).

Section Search.
  Context (h : htab) (old new : list Z) (last_offset : Z).
  Let old_len : Z := zlen old.
  Let new_len : Z := zlen new.

  (** drpm_search.c lines 319-323: extend a match backwards, at most [n] bytes. *)
  Fixpoint hs_back (n : nat) (scan pos len : Z) : res (Z * Z * Z) :=
    match n with
    | O => Ok (scan, pos, len)
    | S n' =>
        if (0 <? pos) && (0 <? scan) then
          x <- rd old (pos - 1) ;;
          y <- rd new (scan - 1) ;;
          if x =? y then hs_back n' (scan - 1) (pos - 1) (len + 1)
          else Ok (scan, pos, len)
        else Ok (scan, pos, len)
    end.

  (** One term of the score, drpm_search.c lines 327, 332 and 337. *)
  Definition score_at (m : Z) : res bool :=
    let q := u64 (m + last_offset) in
    if q <? old_len then
      x <- rd old q ;;
      y <- rd new m ;;
      Ok (x =? y)
    else Ok false.

  (** drpm_search.c lines 326-328 and 336-340: add up [n] terms from [m]. *)
  Fixpoint score_loop (n : nat) (m score : Z) : res Z :=
    match n with
    | O => Ok score
    | S n' =>
        b <- score_at m ;;
        score_loop n' (m + 1) (if b : bool then score + 1 else score)
    end.

  (** drpm_search.c lines 324-341: the updated score, number and start. *)
  Definition hs_score (s : hs) (scan len : Z) : res (Z * Z * Z) :=
    if negb (h_old_score_start s + 1 =? scan) || (h_old_score_num s =? 0)
       || (len <? h_old_score_num s - 1)
    then
      sc <- score_loop (Z.to_nat len) scan 0 ;;
      Ok (sc, len, scan)
    else
      b <- score_at (h_old_score_start s) ;;
      let sc := if b : bool then u64 (h_old_score s - 1) else h_old_score s in
      let start := h_old_score_start s + 1 in
      let num := h_old_score_num s - 1 in
      sc' <- score_loop (Z.to_nat (len - num)) (start + num) sc ;;
      Ok (sc', len, start).

  (** New rolling hash after a jump, drpm_search.c lines 314-315 and 351-352. *)
  Definition hs_rehash (scan prekey : Z) : res Z :=
    if scan + HSIZE <? new_len then buzhash new scan else Ok prekey.

  (** Label [gotit], drpm_search.c lines 307-353. *)
  Definition hs_gotit (s : hs) : res hs_next :=
    let scan := h_last_scan s in
    let len := h_last_len s in
    let pos := h_last_pos s in
    if u64 (scan + last_offset) =? pos then
      let scan := scan + len in
      pk <- hs_rehash scan (h_prekey s) ;;
      Ok (HsGo (mkhs scan scan (h_last_scan s) (h_last_pos s) 0
                     (h_old_score s) (h_old_score_num s) (h_old_score_start s) pk))
    else
      '(scan, pos, len) <- hs_back (Z.to_nat (u64 (scan - h_scan_start s))) scan pos len ;;
      '(sc, num, start) <- hs_score s scan len ;;
      if 32 <=? u64 (len - sc) then Ok (HsBreak scan pos len)
      else
        let scan := if 3 * HSIZE + 32 <? len then scan + (len - (3 * HSIZE + 32)) else scan in
        let scan := if scan <=? h_last_scan s then h_last_scan s + 1 else scan in
        pk <- hs_rehash scan (h_prekey s) ;;
        Ok (HsGo (mkhs scan scan (h_last_scan s) (h_last_pos s) 0 sc num start pk)).

  (** Label [scannext], drpm_search.c lines 257-268.  0x83D31DF4 ^ 0x07A63BE9 =
      2222269981 = 0x8475261D. *)
  Definition hs_scannext (s : hs) : res hs_next :=
    if (32 <=? h_last_len s) && (HSIZE <=? u64 (h_scan s - h_last_scan s)) then hs_gotit s
    else
      b1 <- rd new (h_scan s + HSIZE) ;;
      b0 <- rd new (h_scan s) ;;
      let xprekey := Z.lxor (getz noise b0) 2222269981 in
      let pk := Z.lxor (buz_step (h_prekey s) b1)
                  (Z.lxor (u32 (Z.shiftl xprekey 16)) (Z.shiftr xprekey 16)) in
      Ok (HsGo (mkhs (h_scan s + 1) (h_scan_start s)
                     (h_last_scan s) (h_last_pos s) (h_last_len s)
                     (h_old_score s) (h_old_score_num s) (h_old_score_start s) (u32 pk))).

  (** drpm_search.c lines 280-299: try the block three HSIZE further on. *)
  Definition hs_lookahead (scan pos len : Z) : res (Z * Z) :=
    if scan + HSIZE * 4 <=? new_len then
      k2 <- buzhash new (scan + 3 * HSIZE) ;;
      let key2 := k2 mod ht_len h in
      pos2 <- ht_get h key2 ;;
      pos2 <- (if pos2 =? 0 then Ok pos2
               else
                 same <- memcmp16 new (scan + 3 * HSIZE) old (pos2 - 1) ;;
                 if same then Ok pos2 else ht_get h (next_key h key2)) ;;
      if 1 + 3 * HSIZE <? pos2 then
        let pos2 := pos2 - (1 + 3 * HSIZE) in
        if negb (pos2 =? pos) then
          len2 <- match_len old pos2 (u64 (old_len - pos2)) new scan (u64 (new_len - scan)) ;;
          if len <? len2 then Ok (pos2, len2) else Ok (pos, len)
        else Ok (pos, len)
      else Ok (pos, len)
    else Ok (pos, len).

  (** drpm_search.c lines 279-305: a verified HSIZE-byte match at [pos]. *)
  Definition hs_match (s : hs) (pos : Z) : res hs_next :=
    let scan := h_scan s in
    l <- match_len old (pos + HSIZE) (u64 (old_len - pos - HSIZE))
                   new (scan + HSIZE) (u64 (new_len - scan - HSIZE)) ;;
    '(pos, len) <- hs_lookahead scan pos (l + HSIZE) ;;
    if h_last_len s <? len then
      hs_scannext (mkhs scan (h_scan_start s) scan pos len
                     (h_old_score s) (h_old_score_num s) (h_old_score_start s) (h_prekey s))
    else hs_scannext s.

  (** One round of the loop, drpm_search.c lines 247-353.  On [break] at line
      250 the C variables pos and len are whatever they were; lines 356-360
      overwrite them, so 0 stands for them here. *)
  Definition hs_step (s : hs) : res hs_next :=
    if u64 (new_len - HSIZE) <=? h_scan s then
      if 32 <=? h_last_len s then hs_gotit s else Ok (HsBreak (h_scan s) 0 0)
    else
      let key := h_prekey s mod ht_len h in
      pos <- ht_get h key ;;
      if pos =? 0 then hs_scannext s
      else
        same <- memcmp16 old (pos - 1) new (h_scan s) ;;
        if same then hs_match s (pos - 1)
        else
          pos <- ht_get h (next_key h key) ;;
          if pos =? 0 then hs_scannext s
          else
            same <- memcmp16 old (pos - 1) new (h_scan s) ;;
            if same then hs_match s (pos - 1) else hs_scannext s.

  Fixpoint hs_loop (fuel : nat) (s : hs) : res (Z * Z * Z) :=
    match fuel with
    | O => NoFuel
    | S f =>
        r <- hs_step s ;;
        match r with
        | HsGo s' => hs_loop f s'
        | HsBreak scan pos len => Ok (scan, pos, len)
        end
    end.

  (** Bound on the number of rounds used by the model (shown to suffice). *)
  Definition hs_fuel : nat := Z.to_nat ((new_len + 2) * (new_len + 3)).

  (** [hash_search], drpm_search.c lines 208-366; returns (scan, *pos_ret,
      *len_ret). *)
  Definition hash_search (scan : Z) : res (Z * Z * Z) :=
    pk <- (if scan <=? u64 (new_len - HSIZE) then buzhash new scan else Ok 0) ;;
    '(scan, pos, len) <- hs_loop hs_fuel (mkhs scan scan 0 0 0 0 0 0 pk) ;;
    if u64 (new_len - HSIZE) <=? scan then Ok (new_len, 0, 0) else Ok (scan, pos, len).
End Search.
