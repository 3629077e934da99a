(** * DiskOut: the code that writes files, when the disk can be full

    The writing parts of Stream.v, Rpm.v, DeltaWrite.v, Make.v and Apply.v once more, with the outcome of every [write]
    and [Fwrite].  There, everything that is given to [write] gets into the file.  The results of [close] and [Fclose]
    are not looked at anywhere in the code; errors that the system reports only then are not represented. *)
From Verif Require Import Base Utils DeltaComp Stream Rpm Seq Delta DeltaRead DeltaWrite Diff Expand FileSys Blocks Fill FsFill Apply Make.

(** What the system does with one [write]: it fails, or it takes at most so many bytes. *)
Inductive grant := Fails | Takes (n : Z).

(** A file that is open for writing at its end, and what happens to the next writes; those that are not listed take
    everything.  [dk_short] is not in the program: it says whether a write has taken less than it was given. *)
Record disk := mkdisk { dk_file : list Z; dk_grants : list grant; dk_short : bool }.

(** [write] of the system: what is returned. *)
Definition sys_write (k : disk) (buf : list Z) : disk * Z :=
  match dk_grants k with
  | [] => (mkdisk (dk_file k ++ buf) [] (dk_short k), zlen buf)
  | Fails :: g => (mkdisk (dk_file k) g true, -1)
  | Takes n :: g =>
      let n := Z.min (Z.max 0 n) (zlen buf) in
      (mkdisk (dk_file k ++ slice buf 0 n) g (dk_short k || (n <? zlen buf)), n)
  end.

(** Programs that write to the file. *)
Definition D (A : Type) : Type := disk -> disk * res A.
Definition dcalc {A} (r : res A) : D A := fun k => (k, r).      (** writes nothing *)
Definition dbind {A B} (m : D A) (f : A -> D B) : D B := fun k =>
  match m k with
  | (k, Ok a) => f a k
  | (k, Err e) => (k, Err e)
  | (k, Ub u) => (k, Ub u)
  | (k, NoFuel) => (k, NoFuel)
  end.

Declare Scope disk_scope.
Delimit Scope disk_scope with disk.
Notation "x <~ e ;; k" := (dbind e (fun x => k)) (at level 61, e at next level, right associativity) : disk_scope.
Notation "' p <~ e ;; k" := (dbind e (fun p => k))
  (at level 61, p pattern, e at next level, right associativity) : disk_scope.
Local Open Scope disk_scope.

(** [if (write(filedesc, buf, len) != (ssize_t)len) return DRPM_ERR_IO], drpm.c lines 648-651 and 659-662, drpm_write.c
    lines 47, 60, 235-258 and 357, drpm_compstrm.c lines 521-524 and 583-586. *)
Definition dwrite (buf : list Z) : D unit := fun k =>
  let '(k, n) := sys_write k buf in (k, if n =? zlen buf then Ok tt else Err EIo).
(** The same with [Fwrite] of librpm, drpm_rpm.c lines 506-508 and 527-528; it calls [write] once, and not at all if there
    is nothing to write. *)
Definition dfwrite (buf : list Z) : D unit := if zlen buf =? 0 then dcalc (Ok tt) else dwrite buf.
(** The same if there is something to write, drpm_compstrm.c lines 520-524 and 582-586. *)
Definition dwrite_some (fd : bool) (buf : list Z) : D unit := if fd && (0 <? zlen buf) then dwrite buf else dcalc (Ok tt).

(** ** Compression *)
Section Streams.
Variable cd : codec.

(** [compstrm_write], drpm_compstrm.c lines 563-591. *)
Definition disk_strm_write (s : cstrm) (piece : list Z) : D cstrm :=
  if cs_finished s then dcalc (Err EProg)
  else if zlen piece =? 0 then dcalc (Ok s)
  else
    let data := cs_data s ++ write_chunk cd s piece in
    out <~ dcalc (rd_range data (cs_pos s) (zlen data - cs_pos s)) ;;
    _ <~ dwrite_some (cs_fd s) out ;;
    dcalc (Ok (mkcs (cs_comp s) (cs_level s) (cs_fd s) (cs_fed s ++ [piece]) data (zlen data) false)).

(** [compstrm_finish], drpm_compstrm.c lines 502-536: all compressed data.  The stream is only destroyed afterwards. *)
Definition disk_strm_finish (s : cstrm) : D (list Z) :=
  if cs_finished s then dcalc (Err EProg)
  else if cs_comp s =? COMP_NONE then dcalc (Ok (cs_data s))
  else
    let data := cs_data s ++ c_flush cd (cs_comp s) (cs_level s) (cs_fed s) in
    _ <~ dwrite_some (cs_fd s) (slice data (cs_pos s) (zlen data - cs_pos s)) ;;
    dcalc (Ok data).

(** [compstrm_wrapper_write], drpm_write.c lines 342-366. *)
Definition disk_wrapper_write (w : cwrap) (buffer : list Z) : D cwrap :=
  if 0 <? cw_left w then
    if zlen buffer =? 0 then dcalc (Ok w)
    else
      let n := Z.min (cw_left w) (zlen buffer) in
      let head := slice buffer 0 n in
      let rest := slice buffer n (zlen buffer - n) in
      _ <~ dwrite head ;;
      s <~ disk_strm_write (cw_strm w) rest ;;
      dcalc (Ok (mkcw s (cw_len w) (cw_left w - n) (cw_uncomp w ++ head)))
  else
    s <~ disk_strm_write (cw_strm w) buffer ;;
    dcalc (Ok (mkcw s (cw_len w) (cw_left w) (cw_uncomp w))).

(** [compstrm_wrapper_finish], drpm_write.c lines 368-391. *)
Definition disk_wrapper_finish (w : cwrap) : D (list Z) :=
  data <~ disk_strm_finish (cw_strm w) ;;
  dcalc (if 0 <? cw_left w then Ub Uninit else Ok (cw_uncomp w ++ data)).

(** ** Applying *)
Section Rebuild.
Variable S : Type.
Variable fill : blocks S -> nat -> Z -> Z -> res (blocks S).

(** The loop of drpm.c lines 696-719. *)
Fixpoint disk_ext (fuel : nat) (s : rstate S) (off len cnt id : Z) : D (rstate S) :=
  if 0 <? len then
    match fuel with
    | O => dcalc NoFuel
    | Datatypes.S f =>
        let '(b, add, w) := s in
        '(b, x) <~ dcalc (blocks_next S MAX_CORE_BLOCKS fill b off len cnt id) ;;
        '(add, x) <~ dcalc (match add with
                            | None => Ok (None, x)
                            | Some a => ('(a, y) <- decompstrm_read cd a (zlen x) ;; Ok (Some a, add_block x y))%res
                            end) ;;
        w <~ disk_wrapper_write w x ;;
        disk_ext f (b, add, w) (u64 (off + zlen x)) (len - zlen x) cnt (id + 1)
    end
  else dcalc (Ok s).

(** drpm.c lines 689-722. *)
Fixpoint disk_exts (s : rstate S) (exts : list (Z * Z)) (off cnt : Z) : D (rstate S * Z * Z) :=
  match exts with
  | [] => dcalc (Ok (s, off, cnt))
  | (d, l) :: exts =>
      let off := u64 (off + s32 d) in
      s <~ disk_ext (copy_fuel l) s off l cnt (off / BLOCK_SIZE) ;;
      disk_exts s exts (u64 (off + l)) (cnt + 1)
  end.

(** drpm.c lines 681-730. *)
Fixpoint disk_ints (s : rstate S) (ints exts : list (Z * Z)) (off cnt : Z) (data : list Z) (pos : Z) : D (rstate S) :=
  match ints with
  | [] => dcalc (Ok s)
  | (todo, l) :: ints =>
      if zlen exts <? todo then dcalc (Err EFormat)
      else
        '(s, off, cnt) <~ disk_exts s (slice exts 0 todo) off cnt ;;
        let '(b, add, w) := s in
        x <~ dcalc (rd_range data pos l) ;;
        w <~ disk_wrapper_write w x ;;
        disk_ints (b, add, w) ints (from exts todo) off cnt data (pos + l)
  end.

(** drpm.c lines 668-741, as [rebuild]. *)
Definition disk_rebuild (d : deltarpm) (b : blocks S) (add : option dstrm) : D (list Z) :=
  w <~ dcalc (wrapper_init cd (d_hlen d) (d_tcomp d) (d_tlevel d)) ;;
  '(_, _, w) <~ disk_ints (b, add, w) (d_int d) (d_ext d) 0 0 (int_bytes d) 0 ;;
  _ <~ dcalc (rd_range (d_int d) 0 (d_intn d)) ;;
  disk_wrapper_finish w.
End Rebuild.
End Streams.

(** [rpm_write], drpm_rpm.c lines 485-547: the MD5 of what was given to be written. *)
Definition disk_rpm_write (L : libs) (r : rpm) (include_archive full_md5 : bool) : D (list Z) :=
  let a := if include_archive then rp_archive r else [] in
  _ <~ dfwrite (rp_lead r) ;;
  _ <~ dfwrite (rpm_export_signature r) ;;
  _ <~ dfwrite (rpm_export_header r) ;;
  _ <~ dfwrite a ;;
  dcalc (Ok (lb_md5 L ((if full_md5 then rp_lead r ++ rpm_export_signature r else []) ++ rpm_export_header r ++ a))).

Section Apply.
Variable L : libs.
Variable installed : list Z -> res rpm.
Variable fs : fsys.
Variable unprelinked : list Z -> res (list Z).
Variable clean : Z.

(** drpm.c lines 616-741, as [apply_diff]. *)
Definition disk_diff (S : Type) (fill : blocks S -> nat -> Z -> Z -> res (blocks S)) (src : S) (d : deltarpm) : D (list Z) :=
  b <~ dcalc (blocks_create S (d_extlen d) (d_ext d) src clean) ;;
  _ <~ dcalc (rd_range (d_ext d) 0 (d_extn d)) ;;
  add <~ dcalc (open_add d) ;;
  _ <~ dwrite (d_leadsig d) ;;
  header <~ (if d_type d =? TYPE_RPMONLY then dcalc (Ok [])
             else h <~ dcalc (target_header L d) ;; _ <~ dwrite h ;; dcalc (Ok h)) ;;
  data <~ disk_rebuild (lb_codec L) S fill d b add ;;
  dcalc (Ok (lb_md5 L ((if no_full_md5 d then [] else d_leadsig d) ++ header ++ data))).

(** As [apply_from]. *)
Definition disk_from (old : option (list Z)) (d : deltarpm) (patched : rpm) (files : list file_info)
           (idx : list cpio_file) : D (list Z) :=
  match old with
  | Some _ =>
      if d_type d =? TYPE_RPMONLY
      then disk_diff rsrc (in_order rsrc MAX_CORE_BLOCKS next_rpmonly) (rpmonly_source patched (d_extlen d)) d
      else disk_diff ssrc (in_order ssrc MAX_CORE_BLOCKS (next_standard files idx)) (standard_source patched idx) d
  | None => disk_diff fsrc (fill_filesystem fs unprelinked files idx MAX_CORE_BLOCKS) (fs_source idx) d
  end.

(** [drpm_apply], drpm.c lines 498-781, as [Apply.drpm_apply]; run on an empty file. *)
Definition disk_apply (old : option (list Z)) (delta_file : list Z) : D unit :=
  d <~ dcalc (read_deltarpm L delta_file) ;;
  '(patched, files, idx) <~ dcalc (apply_prepare L installed old d) ;;
  md5 <~ (if is_nodiff d then disk_rpm_write L patched true (negb (no_full_md5 d))
          else disk_from old d patched files idx) ;;
  dcalc (final_check L d patched md5).
End Apply.

(** ** Making *)
Section Make.
Variable L : libs.

(** [write_deltarpm], drpm_write.c lines 67-272; the compressed stream is only in memory (line 96).  Run on an empty file,
    which stands for the one that is created or truncated in lines 222-235. *)
Definition disk_write_deltarpm (d : deltarpm) : D unit :=
  if negb (d_type d =? TYPE_STANDARD) && negb (d_type d =? TYPE_RPMONLY) then dcalc (Err EProg)
  else
    strm <~ dcalc (s <- compstrm_init (lb_codec L) false (d_comp d) (d_level d) ;;
                   ps <- delta_pieces d ;;
                   s <- write_pieces L s ps ;;
                   '(_, _, strm) <- compstrm_finish (lb_codec L) s ;;
                   Ok strm)%res ;;
    match d_head d with
    | HRpm r =>
        if d_type d =? TYPE_STANDARD then
          let header := rpm_fetch_header r in
          let r := rpm_signature_make L r (zlen header + zlen strm) (lb_md5 L (header ++ strm)) in
          _ <~ disk_rpm_write L r false false ;;
          dwrite strm
        else dcalc (Err EProg)
    | HNevr nevr =>
        if d_type d =? TYPE_RPMONLY then
          _ <~ dwrite [100; 114; 112; 109] ;;
          _ <~ dwrite (version_str d) ;;
          _ <~ dwrite (create_be32 (u32 (zlen nevr + 1))) ;;
          _ <~ dwrite (nevr ++ [0]) ;;
          _ <~ dwrite (create_be32 (u32 (zlen (d_add d)))) ;;
          _ <~ dwrite (d_add d) ;;
          dwrite strm
        else dcalc (Err EProg)
    end.

(** Writing out a buffer of stdio, in [fprintf] or [fclose]: what a write has not taken is tried again, an error ends it. *)
Fixpoint stdio_flush (grants : list grant) (file text : list Z) : disk :=
  match grants with
  | [] => mkdisk (file ++ text) [] false
  | Fails :: g => mkdisk file g true
  | Takes n :: g =>
      let n := Z.min (Z.max 0 n) (zlen text) in
      if n =? zlen text then mkdisk (file ++ text) g false else stdio_flush g (file ++ slice text 0 n) (from text n)
  end.

(** [write_seqfile], drpm_write.c lines 274-297: the file, and what is returned.  Nothing is done with the results of
    [fprintf] (line 290) and [fclose] (line 294). *)
Definition disk_write_seqfile (d : deltarpm) (grants : list grant) : disk * res unit :=
  match write_seqfile d with
  | Ok text => (stdio_flush grants [] text, Ok tt)
  | Err e => (mkdisk [] grants false, Err e)
  | Ub u => (mkdisk [] grants false, Ub u)
  | NoFuel => (mkdisk [] grants false, NoFuel)
  end.

(** [drpm_make], drpm.c lines 292-494, as [Make.drpm_make]: the delta file, the sequence file if one was begun, the result. *)
Definition disk_make (o : option make_options) (old new : option (list Z)) (named : bool) (delta_grants seq_grants : list grant)
  : disk * option disk * res unit :=
  let rpm_only := match o with Some o => o_rpmonly o | None => false end in
  let opts := match o with Some o => o | None => default_options end in
  let '(k, r) :=
    (if negb named || match old, new with None, None => true | _, _ => false end then dcalc (Err EArgs)
     else if rpm_only && (o_version opts <? 3) then dcalc (Err EArgs)
     else
       d <~ dcalc (match old, new with
                   | Some old, Some new => diff_delta L opts false old new
                   | Some solo, None | None, Some solo =>
                       if rpm_only then nodiff_delta L opts solo else diff_delta L opts true solo solo
                   | None, None => Err EArgs
                   end) ;;
       _ <~ disk_write_deltarpm d ;;
       dcalc (Ok d)) (mkdisk [] delta_grants false) in
  match r with
  | Ok d => if o_seqfile opts then let '(q, r) := disk_write_seqfile d seq_grants in (k, Some q, r) else (k, None, Ok tt)
  | Err e => (k, None, Err e)
  | Ub u => (k, None, Ub u)
  | NoFuel => (k, None, NoFuel)
  end.
End Make.
