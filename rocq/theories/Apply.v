(** * Apply: model of [drpm_apply] and [drpm_check], /repo/src/drpm.c lines 498-835

    The content of the new RPM file is part of the result also when an error is returned: the file is
    created (or truncated) before anything else is looked at. *)
From Verif Require Import Base Utils DeltaComp Stream Rpm Seq Delta DeltaRead Expand FileSys Blocks Fill FsFill.

(** What was written to the new file, and how the code that wrote it ended. *)
Definition wres (A : Type) : Type := (list Z * res A)%type.
Definition wbind {A B} (x : wres A) (k : A -> wres B) : wres B :=
  match x with
  | (out, Ok a) => let '(out', r) := k a in (out ++ out', r)
  | (out, Err e) => (out, Err e)
  | (out, Ub u) => (out, Ub u)
  | (out, NoFuel) => (out, NoFuel)
  end.
Definition calc {A} (r : res A) : wres A := ([], r).          (** writes nothing *)
Definition put {A} (r : res (A * list Z)) : wres A :=          (** writes the second component *)
  match r with
  | Ok (a, out) => (out, Ok a)
  | Err e => ([], Err e)
  | Ub u => ([], Ub u)
  | NoFuel => ([], NoFuel)
  end.

Declare Scope wres_scope.
Delimit Scope wres_scope with wres.
Notation "x <~ e ;; k" := (wbind e (fun x => k)) (at level 61, e at next level, right associativity) : wres_scope.
Notation "' p <~ e ;; k" := (wbind e (fun p => k))
  (at level 61, p pattern, e at next level, right associativity) : wres_scope.
Local Open Scope wres_scope.

(** MAX_CORE_BLOCKS, drpm_block.c line 38. *)
Definition MAX_CORE_BLOCKS : Z := 5000.

(** Conversion to [signed char]. *)
Definition s8 (x : Z) : Z := if x <? 128 then x else x - 256.
(** drpm.c lines 707-708: [buffer[i] += (signed char)addblk_buf[i]]. *)
Fixpoint add_block (buffer add : list Z) : list Z :=
  match buffer, add with
  | x :: buffer, a :: add => u8 (x + s8 a) :: add_block buffer add
  | _, _ => []
  end.

Section Rebuild.
Variable cd : codec.
(** State of [fill_block] and the function. *)
Variable S : Type.
Variable fill : blocks S -> nat -> Z -> Z -> res (blocks S).

(** Blocks, add block stream, output. *)
Definition rstate : Type := (blocks S * option dstrm * cwrap)%type.

(** One external copy: the loop of drpm.c lines 696-719. *)
Fixpoint rebuild_ext (fuel : nat) (s : rstate) (off len cnt id : Z) : wres rstate :=
  if 0 <? len then
    match fuel with
    | O => ([], NoFuel)
    | Datatypes.S f =>
        let '(b, add, w) := s in
        '(b, x) <~ calc (blocks_next S MAX_CORE_BLOCKS fill b off len cnt id) ;;
        '(add, x) <~ calc (match add with
                           | None => Ok (None, x)
                           | Some a => ('(a, y) <- decompstrm_read cd a (zlen x) ;; Ok (Some a, add_block x y))%res
                           end) ;;
        w <~ put (wrapper_write cd w x) ;;
        rebuild_ext f (b, add, w) (u64 (off + zlen x)) (len - zlen x) cnt (id + 1)
    end
  else ([], Ok s).

(** The external copies before an internal copy, drpm.c lines 689-722: state, offset and number of
    copies done. *)
Fixpoint rebuild_exts (s : rstate) (exts : list (Z * Z)) (off cnt : Z) : wres (rstate * Z * Z) :=
  match exts with
  | [] => ([], Ok (s, off, cnt))
  | (d, l) :: exts =>
      let off := u64 (off + s32 d) in
      s <~ rebuild_ext (copy_fuel l) s off l cnt (off / BLOCK_SIZE) ;;
      rebuild_exts s exts (u64 (off + l)) (cnt + 1)
  end.

(** The loop over the internal copies, drpm.c lines 681-730. *)
Fixpoint rebuild_ints (s : rstate) (ints exts : list (Z * Z)) (off cnt : Z) (data : list Z) (pos : Z) : wres rstate :=
  match ints with
  | [] => ([], Ok s)
  | (todo, l) :: ints =>
      if zlen exts <? todo then ([], Err EFormat)
      else
        '(s, off, cnt) <~ rebuild_exts s (slice exts 0 todo) off cnt ;;
        let '(b, add, w) := s in
        x <~ calc (rd_range data pos l) ;;
        w <~ put (wrapper_write cd w x) ;;
        rebuild_ints (b, add, w) ints (from exts todo) off cnt data (pos + l)
  end.

(** Internal data is bytes after reading a delta. *)
Definition int_bytes (d : deltarpm) : list Z := match d_idata d with IBytes b => b | IPtrs _ _ => [] end.

(** drpm.c lines 668-741, with [head] the header of a standard delta's target: writes everything and
    returns the data of the MD5 computation.  The loop runs [int_copies_count] times: if there are fewer internal
    copies in memory (the reader computes the size of the array in 32 bits), it reads behind them. *)
Definition rebuild (d : deltarpm) (b : blocks S) (add : option dstrm) : wres (list Z) :=
  w <~ calc (wrapper_init cd (d_hlen d) (d_tcomp d) (d_tlevel d)) ;;
  '(_, _, w) <~ rebuild_ints (b, add, w) (d_int d) (d_ext d) 0 0 (int_bytes d) 0 ;;
  _ <~ calc (rd_range (d_int d) 0 (d_intn d)) ;;
  put (match wrapper_finish cd w with
       | Ok (out, data) => Ok (data, out)
       | Err e => Err e | Ub u => Ub u | NoFuel => NoFuel
       end).
End Rebuild.

Section Apply.
Variable L : libs.
(** Reading the header of an installed package, [rpm_read_header] (drpm_rpm.c lines 1000-1090). *)
Variable installed : list Z -> res rpm.
(** The installed files and the output of "prelink -u", see [FsFill]. *)
Variable fs : fsys.
Variable unprelinked : list Z -> res (list Z).
(** Value of the static counter of drpm_block.c line 312. *)
Variable clean : Z.

(** [no_full_md5], drpm.c line 552. *)
Definition no_full_md5 (d : deltarpm) : bool := list_eqb (d_md5 d) (zeros 16).

(** Reading the old package, drpm.c lines 554-580. *)
Definition read_old (old : option (list Z)) (d : deltarpm) : res rpm :=
  match old with
  | Some file =>
      '(r, _, _, _) <- rpm_read L file ReadDecomp false ;;
      (if d_type d =? TYPE_RPMONLY then
         m <- rpm_signature_get_md5 L r ;;
         match m with
         | None => Err EFormat
         | Some m =>
             seq <- rd_range (d_seq d) 0 16 ;;
             if negb (list_eqb seq m) then Err EMismatch else Ok r
         end
       else Ok r)
  | None =>
      if d_type d =? TYPE_RPMONLY then Err EArgs
      else match d_head d with
           | HRpm t => if rpm_is_sourcerpm L t then Err EArgs else installed (d_src_nevr d)
           | HNevr _ => Err EProg (* not a standard delta *)
           end
  end%res.

(** Files and expanded order of a standard delta, drpm.c lines 590-599. *)
Definition expand_old (d : deltarpm) (r : rpm) : res (list file_info * list cpio_file) :=
  if d_type d =? TYPE_RPMONLY then Ok ([], [])
  else
    '(files, _) <- rpm_get_file_info L false r ;;
    sha <- rpm_get_digest_algo L r ;;
    idx <- expand_sequence L None (Some (d_seq d)) files sha ;;
    Ok (files, idx).

(** Everything before something is written, drpm.c lines 549-605: the old package with the lead and signature of the
    new one, files and order. *)
Definition apply_prepare (old : option (list Z)) (d : deltarpm) : res (rpm * list file_info * list cpio_file) :=
  r <- read_old old d ;;
  if negb (list_eqb (d_src_nevr d) (rpm_get_nevr L r)) then Err EMismatch
  else
    '(files, idx) <- expand_old d r ;;
    patched <- rpm_replace_lead_and_signature L r (d_leadsig d) ;;
    Ok (patched, files, idx).

(** The add block stream, drpm.c lines 624-631. *)
Definition open_add (d : deltarpm) : res (option dstrm) :=
  if 0 <? zlen (d_add d) then s <- decompstrm_init false (d_add d) ;; Ok (Some s) else Ok None.

(** Header written in front of the payload of a standard delta, drpm.c lines 654-666. *)
Definition target_header (d : deltarpm) : res (list Z) :=
  if d_type d =? TYPE_RPMONLY then Ok []
  else match d_head d with
       | HRpm t => t <- rpm_patch_payload_format L t str_cpio ;; Ok (rpm_fetch_header t)
       | HNevr _ => Err EProg
       end.

(** drpm.c lines 616-741: writes the new RPM, returns the MD5.  [blocks_create] looks at [ext_copies_count] copies
    (drpm_block.c lines 200-207), of which fewer may be in memory. *)
Definition apply_diff (S : Type) (fill : blocks S -> nat -> Z -> Z -> res (blocks S)) (src : S) (d : deltarpm) : wres (list Z) :=
  b <~ calc (blocks_create S (d_extlen d) (d_ext d) src clean) ;;
  _ <~ calc (rd_range (d_ext d) 0 (d_extn d)) ;;
  add <~ calc (open_add d) ;;
  _ <~ (d_leadsig d, Ok tt) ;;
  header <~ put (match target_header d with
                 | Ok h => Ok (h, h) | Err e => Err e | Ub u => Ub u | NoFuel => NoFuel
                 end) ;;
  data <~ rebuild (lb_codec L) S fill d b add ;;
  ([], Ok (lb_md5 L ((if no_full_md5 d then [] else d_leadsig d) ++ header ++ data))).

(** drpm.c lines 607-614: the delta of an RPM to itself. *)
Definition is_nodiff (d : deltarpm) : bool :=
  (d_type d =? TYPE_RPMONLY) && (d_tcomp d =? COMP_NONE) && (d_intn d =? 0) && (d_extn d =? 0).

(** drpm.c lines 743-761. *)
Definition final_check (d : deltarpm) (patched : rpm) (md5 : list Z) : res unit :=
  if no_full_md5 d then
    m <- rpm_signature_get_md5 L patched ;;
    match m with
    | Some m => if negb (list_eqb md5 m) then Err EMismatch else Ok tt
    | None => Ok tt
    end
  else if negb (list_eqb md5 (d_md5 d)) then Err EMismatch else Ok tt.

(** Dispatch on where blocks come from, drpm_block.c lines 160-185. *)
Definition apply_from (old : option (list Z)) (d : deltarpm) (patched : rpm) (files : list file_info)
           (idx : list cpio_file) : wres (list Z) :=
  match old with
  | Some _ =>
      if d_type d =? TYPE_RPMONLY
      then apply_diff rsrc (in_order rsrc MAX_CORE_BLOCKS next_rpmonly) (rpmonly_source patched (d_extlen d)) d
      else apply_diff ssrc (in_order ssrc MAX_CORE_BLOCKS (next_standard files idx)) (standard_source patched idx) d
  | None => apply_diff fsrc (fill_filesystem fs unprelinked files idx MAX_CORE_BLOCKS) (fs_source idx) d
  end.

(** [drpm_apply], drpm.c lines 498-781, after the checks for NULL names and [creat]; [old] is [None] if the old RPM is
    to be taken from the file system. *)
Definition drpm_apply (old : option (list Z)) (delta_file : list Z) : wres unit :=
  d <~ calc (read_deltarpm L delta_file) ;;
  '(patched, files, idx) <~ calc (apply_prepare old d) ;;
  md5 <~ (if is_nodiff d then let '(out, md5) := rpm_write L patched true (negb (no_full_md5 d)) in (out, Ok md5)
          else apply_from old d patched files idx) ;;
  calc (final_check d patched md5).

(** [drpm_check], drpm.c lines 783-835: [check] is the check of a file on disk for the given mode, [None] for a mode other
    than [DRPM_CHECK_FULL] and [DRPM_CHECK_FILESIZES]. *)
Definition drpm_check (delta_file : list Z) (check : option (list Z -> bool -> list Z -> Z -> res unit)) : res unit :=
  match check with
  | None => Err EArgs
  | Some _ =>
      d <- read_deltarpm L delta_file ;;
      r <- installed (d_src_nevr d) ;;
      if negb (list_eqb (d_src_nevr d) (rpm_get_nevr L r)) then Err EMismatch
      else if d_type d =? TYPE_STANDARD then
        '(files, _) <- rpm_get_file_info L false r ;;
        sha <- rpm_get_digest_algo L r ;;
        _ <- expand_sequence L check (Some (d_seq d)) files sha ;;
        Ok tt
      else Ok tt
  end.
End Apply.
