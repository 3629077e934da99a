(** * Patches: model of the lists of patched files, /repo/src/drpm_make.c lines 69-87 and 621-1014

    [patches_read] allocates [struct rpm_patches] without setting it (line 883), and [read_rpmlist] does not set
    [filename_len] (line 727).  [zeroed] is [false] for the code as it is, where such memory is indeterminate; [true]
    describes what the code does if this memory happens to be zero. *)
From Verif Require Import Base Utils Rpm Expand Archive Seq.

(** [struct patch_file], drpm_make.c lines 71-76, of 32 bytes; a byte of the name may be indeterminate. *)
Record pfile := mkpf { pf_name : list (option Z); pf_mode : Z; pf_flags : Z; pf_md5 : list Z }.
(** [struct patch_info], drpm_make.c lines 78-82; [None] is a pair of [files] and [file_count] that was never set. *)
Record pinfo := mkpi { pi_nevr : list Z; pi_files : option (list pfile) }.

(** drpm_make.c lines 46 and 48-50. *)
Definition MAGIC_RPML : list Z := [82; 80; 77; 76].
Definition RPMFILE_UNPATCHED : Z := 1024.
Definition S_IFREG : Z := 32768.

Section List.
Variable zeroed : bool.
(** The contents of the file; positions of the descriptor are offsets into it. *)
Variable data : list Z.

(** [read] of [n] bytes that must all be there. *)
Definition rpml_read (pos n : Z) : res (list Z * Z) :=
  if n =? 0 then Ok ([], pos)
  else if zlen data <? pos + n then Err EFormat else Ok (slice data pos n, pos + n).

(** [rpml_get_uint16], [rpml_get_uint32], drpm_make.c lines 623-647. *)
Definition rpml_get_uint16 (pos : Z) : res (Z * Z) :=
  '(b, pos) <- rpml_read pos 2 ;; x <- parse_be16_at b 0 ;; Ok (x, pos).
Definition rpml_get_uint32 (pos : Z) : res (Z * Z) :=
  '(b, pos) <- rpml_read pos 4 ;; x <- parse_be32_at b 0 ;; Ok (x, pos).

(** [rpml_get_string], drpm_make.c lines 649-667: only the length is read if the string is not wanted. *)
Definition rpml_get_string (pos : Z) (want : bool) : res (list Z * Z) :=
  '(b, pos) <- rpml_read pos 1 ;;
  len <- rd b 0 ;;
  if want then '(s, pos) <- rpml_read pos len ;; Ok (cstring s, pos) else Ok ([], pos).

(** The buffer of names: its bytes, and [filename_len], [None] before it is set. *)
Definition nbuf : Type := list (option Z) * option Z.

(** [rpml_get_filename], drpm_make.c lines 669-714. *)
Definition rpml_get_filename (pos : Z) (nb : nbuf) : res (nbuf * Z) :=
  '(b, pos) <- rpml_read pos 2 ;;
  off <- rd b 0 ;;
  b1 <- rd b 1 ;;
  '(len, pos) <- (if b1 =? 255 then rpml_get_uint16 pos else Ok (b1, pos)) ;;
  let new_len := off + len + 1 in
  let '(buf, cap) := nb in
  match cap with
  | None => Ub Uninit
  | Some cap =>
      let '(buf, cap) := if cap <? new_len then (buf ++ repeat None (Z.to_nat (new_len - zlen buf)), new_len) else (buf, cap) in
      '(s, pos) <- rpml_read pos len ;;
      if zlen buf <? new_len then Ub OobWrite
      else Ok ((firstn (Z.to_nat off) buf ++ map Some s ++ [Some 0] ++ skipn (Z.to_nat new_len) buf, Some cap), pos)
  end.

(** The string in a buffer, as [strlen] and [strcpy] see it. *)
Fixpoint buf_string (l : list (option Z)) : res (list Z) :=
  match l with
  | [] => Ub OobRead
  | None :: _ => Ub Uninit
  | Some x :: l => if x =? 0 then Ok [] else s <- buf_string l ;; Ok (x :: s)
  end.

(** [resize16] of [patch->files], drpm_make.c lines 771 and 795: uses [file_count] and the old pointer. *)
Definition more_files (files : option (list pfile)) : res (list pfile) :=
  match files with None => Ub Uninit | Some l => Ok l end.

(** drpm_make.c lines 763-765. *)
Fixpoint skip_strings (n : nat) (pos : Z) : res Z :=
  match n with O => Ok pos | S n => '(_, pos) <- rpml_get_string pos false ;; skip_strings n pos end.

(** drpm_make.c lines 770-785; every round reads at least two bytes. *)
Fixpoint unpatched_files (fuel : nat) (n pos : Z) (nb : nbuf) (files : option (list pfile))
  : res (nbuf * option (list pfile) * Z) :=
  if n =? 0 then Ok (nb, files, pos)
  else
    match fuel with
    | O => NoFuel
    | S fuel =>
        l <- more_files files ;;
        '(nb, pos) <- rpml_get_filename pos nb ;;
        name <- buf_string (fst nb) ;;
        unpatched_files fuel (n - 1) pos nb
          (Some (l ++ [mkpf (map Some name ++ [Some 0]) S_IFREG RPMFILE_UNPATCHED (zeros 16)]))
    end.

(** Sizes behind the mode, drpm_make.c lines 814-832: [num] and the position. *)
Definition skip_numbers (pos : Z) : res (Z * Z) :=
  '(b, pos) <- rpml_read pos 1 ;;
  num <- rd b 0 ;;
  if num =? 255 then
    '(b, pos) <- rpml_read pos 2 ;;
    num2 <- rd b 0 ;;
    num <- rd b 1 ;;
    let pos := if 0 <? num2 then pos + (num2 + 1) else pos in
    Ok (num, if Z.land num 252 =? 0 then pos else pos + (Z.land (Z.shiftr num 2) 63 + 1))
  else
    let pos := if Z.land num 224 =? 0 then pos else pos + (Z.land (Z.shiftr num 5) 7 + 1) in
    Ok (num, if Z.land num 28 =? 0 then pos else pos + (Z.land (Z.shiftr num 2) 7 + 1)).

(** Size and MD5, drpm_make.c lines 838-847: the MD5 is only read if the size was not, and then there is nothing left. *)
Definition size_and_md5 (num pos : Z) : res Z :=
  let n := num mod 4 + 1 in
  if pos + n <=? zlen data then Ok (pos + n)
  else
    let got := slice data pos (Z.max 0 (zlen data - pos)) in
    x <- parse_be32_at (zeros (4 - n) ++ got ++ zeros (n - zlen got)) 0 ;;
    if 0 <? x then Err EFormat else Ok (Z.max pos (zlen data)).

(** The loop of drpm_make.c lines 788-851: the name is allocated but not copied. *)
Fixpoint listed_files (fuel : nat) (pos : Z) (nb : nbuf) (files : option (list pfile)) : res (option (list pfile) * Z) :=
  match fuel with
  | O => NoFuel
  | S fuel =>
      '(nb, pos) <- rpml_get_filename pos nb ;;
      name <- buf_string (fst nb) ;;
      if zlen name =? 0 then Ok (files, pos)
      else
        l <- more_files files ;;
        let fname := if list_eqb (slice name 0 2) [46; 47] then skipn 2 name else name in
        '(mode, pos) <- rpml_get_uint16 pos ;;
        pos <- (if mode =? 0 then Ok pos
                else
                  '(num, pos) <- skip_numbers pos ;;
                  pos <- (if S_ISCHR mode || S_ISBLK mode then '(_, pos) <- rpml_get_uint32 pos ;; Ok pos else Ok pos) ;;
                  if S_ISREG mode || S_ISLNK mode then size_and_md5 num pos else Ok pos) ;;
        listed_files fuel pos nb (Some (l ++ [mkpf (repeat None (S (length fname))) mode 0 (zeros 16)]))
  end.

(** [read_rpmlist], drpm_make.c lines 723-859, from position [pos] behind the magic. *)
Definition read_rpmlist_body (pos : Z) : res pinfo :=
  '(name, pos) <- rpml_get_string pos true ;;
  '(evr, pos) <- rpml_get_string pos true ;;
  let nevr := name ++ [45] ++ evr in
  '(_, pos) <- rpml_get_string pos false ;;
  '(_, pos) <- rpml_get_uint32 pos ;;
  '(patches, pos) <- rpml_get_uint16 pos ;;
  let nb := ([], if zeroed then Some 0 else None) in
  let files := if zeroed then Some [] else None in
  '(nb, files, pos) <-
    (if 0 <? patches then
       pos <- skip_strings (Z.to_nat patches) pos ;;
       '(n, pos) <- rpml_get_uint32 pos ;;
       unpatched_files (S (length data)) n pos nb files
     else Ok (nb, files, pos)) ;;
  '(files, _) <- listed_files (S (length data)) pos nb files ;;
  Ok (mkpi nevr files).
Definition read_rpmlist : res pinfo :=
  '(magic, pos) <- rpml_read 0 4 ;;
  if negb (list_eqb magic MAGIC_RPML) then Err EFormat else read_rpmlist_body pos.
End List.

Section Patches.
Variable L : libs.
Variable zeroed : bool.

(** Files of an RPM, drpm_make.c lines 913-933.  The array is allocated with [file_count] bytes; an element is taken as
    written as a whole. *)
Fixpoint print_files (n i : Z) (l : list file_info) : res (list pfile) :=
  match l with
  | [] => Ok []
  | f :: l =>
      if n <? 32 * (i + 1) then Ub OobWrite
      else
        m <- parse_md5 (fi_md5 f) 16 ;;
        match m with
        | None => Err EFormat
        | Some m => l <- print_files n (i + 1) l ;; Ok (mkpf (map Some (skip_slash (fi_name f)) ++ [Some 0]) (fi_mode f) (fi_flags f) m :: l)
        end
  end.

(** The list of all files, drpm_make.c lines 904-942. *)
Definition read_print (data : list Z) : res pinfo :=
  if zlen data <? 4 then Err EIo
  else if list_eqb (slice data 0 4) MAGIC_RPM_BYTES then
    '(r, _, _, _) <- rpm_read L data DontRead false ;;
    '(files, _) <- rpm_get_file_info L false r ;;
    l <- print_files (zlen files) 0 files ;;
    Ok (mkpi (rpm_get_nevr L r) (Some l))
  else if list_eqb (slice data 0 4) MAGIC_RPML then read_rpmlist_body zeroed data 4
  else Err EFormat.

(** [patches_read], drpm_make.c lines 862-953, for two names; [None] is a file that cannot be opened.  After an error,
    [patches_destroy] (lines 955-975) runs over [rpmprint.file_count] elements. *)
Definition patches_read (print patch : option (list Z)) : res (pinfo * pinfo) :=
  let r :=
    patch <- match patch with None => Err EIo | Some d => read_rpmlist zeroed d end ;;
    print <- match print with None => Err EIo | Some d => read_print d end ;;
    Ok (print, patch) in
  match r with
  | Err e => if zeroed then Err e else Ub Uninit
  | r => r
  end.

(** [patches_check_nevr], drpm_make.c lines 978-987. *)
Definition patches_check_nevr (p : pinfo * pinfo) (nevr : list Z) : res unit :=
  if list_eqb (pi_nevr (fst p)) nevr && list_eqb (pi_nevr (snd p)) nevr then Ok tt else Err EArgs.

(** The first file of a name, drpm_make.c lines 996-998 and 1004-1006. *)
Fixpoint find_name (l : list pfile) (name : list Z) : res (option pfile) :=
  match l with
  | [] => Ok None
  | f :: l => n <- buf_string (pf_name f) ;; if list_eqb name n then Ok (Some f) else find_name l name
  end.

(** [is_unpatched], drpm_make.c lines 990-1014. *)
Definition is_unpatched (print patch : list pfile) (name md5 : list Z) : res bool :=
  p <- find_name print name ;;
  match p with
  | None => Ok false
  | Some f =>
      if Z.land (pf_flags f) RPMFILE_UNPATCHED =? 0 then Ok false
      else
        q <- find_name patch name ;;
        match q with
        | None => Ok true
        | Some g => h <- dump_hex (pf_md5 g) 16 ;; Ok (negb (list_eqb md5 h))
        end
  end.
End Patches.
