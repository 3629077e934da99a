(** * Make: model of [drpm_make], /repo/src/drpm.c lines 292-494, and [fill_nodiff_deltarpm], /repo/src/drpm_make.c
    lines 1020-1063

    The options below have no lists of patched files: reading these ([Patches]) never succeeds ([C37_reading_refuted]),
    so that [drpm_make] does not go on with them. *)
From Verif Require Import Base Utils DeltaComp Stream Rpm Delta Diff DeltaWrite Archive.

(** [struct drpm_make_options], drpm_private.h lines 93-106, without the memory limit, which is not used, and the patch
    lists; of the sequence file only whether there is one. *)
Record make_options := mkopts {
  o_rpmonly : bool; o_version : Z; o_from_rpm : bool; o_comp : Z; o_level : Z;
  o_addblk : bool; o_acomp : Z; o_alevel : Z; o_seqfile : bool
}.

(** [drpm_make_options_defaults], drpm_options.c lines 59-82; the codec is USHRT_MAX. *)
Definition default_options : make_options := mkopts false 3 true 65535 0 true COMP_BZIP2 0 false.

Section Make.
Variable L : libs.

(** The add block: the stream of drpm_diff.c lines 131, 238, 255 gets the buffers made by the diff. *)
Definition add_block_data (comp level : Z) (pieces : list (list Z)) : res (list Z) :=
  s <- compstrm_init (lb_codec L) false comp level ;;
  s <- write_pieces L s pieces ;;
  '(_, _, data) <- compstrm_finish (lb_codec L) s ;;
  Ok data.

(** [make_diff], drpm_diff.c lines 77-280, with the compression of the add block.  The stream is opened before the diff
    starts. *)
Definition diff_and_add (o : make_options) (old new : list Z) : res (diff_result * list Z) :=
  _ <- (if o_addblk o then _ <- compstrm_init (lb_codec L) false (o_acomp o) (o_alevel o) ;; Ok tt else Ok tt) ;;
  r <- make_diff old new (o_addblk o) ;;
  add <- (if o_addblk o then add_block_data (o_acomp o) (o_alevel o) (dr_add r) else Ok []) ;;
  Ok (r, add).

(** [fill_nodiff_deltarpm], drpm_make.c lines 1020-1063. *)
Definition nodiff_delta (o : make_options) (file : list Z) : res deltarpm :=
  let '(comp, level) := if o_from_rpm o then (COMP_GZIP, 0) else (o_comp o, o_level o) in
  '(r, _, seq, full) <- rpm_read L file ReadUncomp true ;;
  Ok (mkdelta TYPE_RPMONLY comp level (HNevr (rpm_get_nevr L r)) (o_version o) (rpm_get_nevr L r) seq full
        (rpm_size_full r) COMP_NONE 0 [] (rpm_size_header r) 0 [] (rpm_fetch_lead_and_signature r) 0
        0 0 [] [] 0 [] 0 (IBytes [])).

(** The diff of two packages, drpm.c lines 353-466; [solo] if there is only one, which is old and new then.
    [add_data_len] is a [uint32_t], so that a longer add block is cut (drpm_diff.c line 259). *)
Definition diff_delta (o : make_options) (solo : bool) (old new : list Z) : res deltarpm :=
  '(old_rpm, seq) <- (if solo then Ok (None, [])
                      else '(r, _, seq, _) <- rpm_read L old ReadDecomp (o_rpmonly o) ;; Ok (Some r, seq)) ;;
  '(new_rpm, tcomp, _, full) <- rpm_read L new ReadDecomp false ;;
  let old_rpm := match old_rpm with Some r => r | None => new_rpm end in
  fmt <- rpm_get_payload_format L new_rpm ;;
  if negb (fmt =? 1) then Err EFormat
  else
    tlevel <- rpm_get_comp_level L new_rpm ;;
    let '(comp, level) := if o_from_rpm o then (tcomp, tlevel) else (o_comp o, o_level o) in
    let leadsig := rpm_fetch_lead_and_signature new_rpm in
    let size := rpm_size_full new_rpm in
    if o_rpmonly o then
      let old_data := rpm_fetch_header old_rpm ++ rpm_fetch_archive old_rpm in
      let new_data := rpm_fetch_header new_rpm ++ rpm_fetch_archive new_rpm in
      off <- rpm_find_payload_format_offset new_rpm ;;
      '(r, add) <- diff_and_add o old_data new_data ;;
      Ok (mkdelta TYPE_RPMONLY comp level (HNevr (rpm_get_nevr L new_rpm)) (o_version o) (rpm_get_nevr L old_rpm) seq full
            size tcomp tlevel [] (u32 (zlen (rpm_fetch_header new_rpm))) 0 [] leadsig off
            (zlen (dr_int r)) (zlen (dr_ext r)) (dr_int r) (dr_ext r) (zlen old_data) (slice add 0 (u32 (zlen add)))
            (dr_int_len r) (IPtrs new_data (dr_int_off r)))
    else
      '(old_cpio, seq, adjs) <- parse_cpio L None (3 <=? o_version o) old_rpm ;;
      let new_cpio := rpm_fetch_archive new_rpm in
      target <- rpm_patch_payload_format L new_rpm str_drpm ;;
      off <- rpm_find_payload_format_offset target ;;
      '(r, add) <- diff_and_add o old_cpio new_cpio ;;
      Ok (mkdelta TYPE_STANDARD comp level (HRpm target) (o_version o) (rpm_get_nevr L old_rpm) seq full
            size tcomp tlevel [] 0 (zlen adjs) adjs leadsig off
            (zlen (dr_int r)) (zlen (dr_ext r)) (dr_int r) (dr_ext r) (zlen old_cpio) (slice add 0 (u32 (zlen add)))
            (dr_int_len r) (IPtrs new_cpio (dr_int_off r))).

(** [drpm_make], drpm.c lines 292-494: the content of the delta file and of the sequence file, if one is wanted; names
    that are NULL are [None]. *)
Definition drpm_make (o : option make_options) (old new : option (list Z)) (named : bool)
  : res (list Z * option (list Z)) :=
  if negb named || match old, new with None, None => true | _, _ => false end then Err EArgs
  else
    let rpm_only := match o with Some o => o_rpmonly o | None => false end in
    let o := match o with Some o => o | None => default_options end in
    if rpm_only && (o_version o <? 3) then Err EArgs
    else
      d <- match old, new with
           | Some old, Some new => diff_delta o false old new
           | Some solo, None | None, Some solo => if rpm_only then nodiff_delta o solo else diff_delta o true solo solo
           | None, None => Err EArgs
           end ;;
      file <- write_deltarpm L d ;;
      seq <- (if o_seqfile o then s <- write_seqfile d ;; Ok (Some s) else Ok None) ;;
      Ok (file, seq).
End Make.
