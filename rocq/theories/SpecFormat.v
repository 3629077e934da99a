(** * SpecFormat: the delta file format and what a faithful copy of a delta record is,
    independently of the reading and writing code *)
From Verif Require Import Base SpecCodec SpecDelta SpecStream Utils Rpm Delta.

Definition is_u32 (x : Z) : Prop := 0 <= x < 2 ^ 32.

(** A string that can be stored with a terminating NUL. *)
Definition c_string (s : list Z) : Prop := Forall (fun c => 1 <= c < 256) s.

(** librpm reads back a header that it exported, whatever follows in the file. *)
Definition readable (L : libs) (h : list Z) : Prop :=
  forall rest, lb_read L (HEADER_MAGIC ++ h ++ rest) = Some (h, 8 + zlen h).

(** librpm on a cut input: the header is there completely or not at all. *)
Definition header_cut (L : libs) : Prop := forall l h n k, lb_read L l = Some (h, n) -> 0 <= k ->
  lb_read L (slice l 0 k) = if n <=? k then Some (h, n) else None.

(** Internal data as one byte string: the bytes, or the pieces pointed to, one for each
    internal copy. *)
Definition idata_bytes (d : deltarpm) : list Z :=
  match d_idata d with
  | IBytes b => b
  | IPtrs new offs => concat (map (fun q => slice new (fst q) (snd (snd q))) (combine offs (d_int d)))
  end.

(** Arrays of pairs of 32-bit numbers with fewer than 2^29 entries. *)
Definition pair_array (n : Z) (l : list (Z * Z)) : Prop :=
  n = zlen l /\ zlen l < 2 ^ 29 /\ Forall (fun p => is_u32 (fst p) /\ is_u32 (snd p)) l.

(** Well-formed delta records: what [drpm_make] hands to the writer. *)
Record wf_delta (L : libs) (d : deltarpm) : Prop := {
  wf_comp : d_comp d = 0 \/ real_comp (d_comp d);
  wf_level : 0 <= d_level d <= 9;
  wf_version : 1 <= d_version d <= 3;
  wf_src : c_string (d_src_nevr d) /\ zlen (d_src_nevr d) < 2 ^ 32 - 2;
  wf_seq : bytes (d_seq d) /\ 16 <= zlen (d_seq d) < 2 ^ 32;
  wf_md5 : bytes (d_md5 d) /\ zlen (d_md5 d) = 16;
  wf_target : 2 <= d_version d ->
    is_u32 (d_size d) /\ supported_comp (d_tcomp d) /\ 0 <= d_tlevel d < 256 /\
    bytes (d_param d) /\ zlen (d_param d) < 2 ^ 32;
  wf_off : d_version d = 3 ->
    is_u32 (d_hlen d) /\ pair_array (d_offn d) (d_off d) /\
    Forall (fun p => snd p <> 2 ^ 31) (d_off d);
  wf_leadsig : bytes (d_leadsig d) /\ 112 <= zlen (d_leadsig d) < 2 ^ 32;
  wf_fmtoff : is_u32 (d_fmtoff d);
  wf_int : pair_array (d_intn d) (d_int d) /\ zsum (map snd (d_int d)) <= d_intlen d;
  wf_ext : pair_array (d_extn d) (d_ext d) /\ Forall (fun p => fst p <> 2 ^ 31) (d_ext d) /\
    Forall (fun e => 0 <= fst e /\ 0 < fst e + snd e <= d_extlen d) (extents 0 (d_ext d));
  wf_extlen : 0 <= d_extlen d < if d_version d =? 3 then 2 ^ 63 else 2 ^ 32;
  wf_add : bytes (d_add d) /\ zlen (d_add d) < 2 ^ 32;
  wf_intlen : 0 <= d_intlen d < if d_version d =? 3 then 2 ^ 62 else 2 ^ 32;
  wf_idata : match d_idata d with
             | IBytes b => bytes b /\ zlen b = d_intlen d
             | IPtrs new offs => bytes new /\ zsum (map snd (d_int d)) = d_intlen d /\
                 Forall2 (fun o p => 0 <= o /\ o + snd p <= zlen new) offs (d_int d)
             end;
  wf_head : match d_head d with
            | HNevr nevr =>
                d_type d = TYPE_RPMONLY /\ d_version d = 3 /\ d_hlen d <> 0 /\ zlen (d_seq d) = 16 /\
                c_string nevr /\ zlen nevr < 2 ^ 32 - 2
            | HRpm r =>
                d_type d = TYPE_STANDARD /\
                zlen (rp_lead r) = 96 /\ slice (rp_lead r) 0 4 = [237; 171; 238; 219] /\
                readable L (rp_hdr r) /\ is_ok (rpm_get_comp L r) /\
                forall size md5, readable L (lb_mksig L size md5) /\
                  zlen (lb_mksig L size md5) + zlen (rp_hdr r) < 2 ^ 32 - 200
            end
}.

(** [d'] carries everything that [d] says; what format version 1 or 2 has no room for
    is zero or empty.  The level of the delta's own compression is not stored. *)
Record reads_back (L : libs) (d d' : deltarpm) : Prop := {
  rb_type : d_type d' = d_type d;
  rb_comp : d_comp d' = d_comp d;
  rb_version : d_version d' = d_version d;
  rb_src : d_src_nevr d' = d_src_nevr d;
  rb_seq : d_seq d' = d_seq d;
  rb_md5 : d_md5 d' = d_md5 d;
  rb_target : if 2 <=? d_version d
              then d_size d' = d_size d /\ d_tcomp d' = d_tcomp d /\ d_tlevel d' = d_tlevel d /\
                   d_param d' = d_param d
              else d_size d' = 0 /\ d_tlevel d' = 0 /\ d_param d' = [];
  rb_off : if d_version d =? 3
           then d_hlen d' = d_hlen d /\ d_offn d' = d_offn d /\ d_off d' = d_off d
           else d_hlen d' = 0 /\ d_offn d' = 0 /\ d_off d' = [];
  rb_leadsig : d_leadsig d' = d_leadsig d;
  rb_fmtoff : d_fmtoff d' = d_fmtoff d;
  rb_int : d_intn d' = d_intn d /\ d_int d' = d_int d;
  rb_ext : d_extn d' = d_extn d /\ d_ext d' = d_ext d;
  rb_extlen : d_extlen d' = d_extlen d;
  rb_add : d_add d' = d_add d;
  rb_intlen : d_intlen d' = d_intlen d;
  rb_idata : d_idata d' = IBytes (idata_bytes d);
  rb_head : match d_head d with
            | HNevr nevr => d_head d' = HNevr nevr
            | HRpm r => exists r', d_head d' = HRpm r' /\ rp_lead r' = rp_lead r /\
                                   rp_hdr r' = rp_hdr r /\
                                   (d_version d = 1 -> rpm_get_comp L r = Ok (d_tcomp d'))
            end
}.

(** What the reader must guarantee about any file it accepts. *)
Record consistent (d : deltarpm) : Prop := {
  co_seq : 16 <= zlen (d_seq d);
  co_md5 : zlen (d_md5 d) = 16;
  co_only : d_type d = TYPE_RPMONLY -> zlen (d_seq d) = 16 /\ d_version d = 3 /\ d_hlen d <> 0;
  co_leadsig : 112 <= zlen (d_leadsig d);
  co_data : exists b, d_idata d = IBytes b /\ zlen b = d_intlen d;
  co_int : zsum (map snd (d_int d)) <= d_intlen d;
  co_intu : Forall (fun p => 0 <= fst p < 2 ^ 32 /\ 0 <= snd p < 2 ^ 32) (d_int d);
  co_extlen : 0 <= d_extlen d < 2 ^ 64;
  co_hlen : 0 <= d_hlen d;
  co_intn : 0 <= d_intn d < 2 ^ 32 /\ zlen (d_int d) = d_intn d mod 2 ^ 31;
  co_extn : 0 <= d_extn d < 2 ^ 32 /\ zlen (d_ext d) = d_extn d mod 2 ^ 31;
  co_ext : d_extlen d < 2 ^ 63 ->
    Forall (fun e => 0 <= fst e /\ 0 <= snd e < 2 ^ 32 /\ 0 < fst e + snd e <= d_extlen d) (extents 0 (d_ext d))
}.

(** [x] is data that the decoder [comp] puts out for some beginning of [b]. *)
Definition yields (cd : Stream.codec) (comp : Z) (b x : list Z) : Prop :=
  exists cs rest, concat cs ++ rest = b /\
    (if comp =? 0 then x = concat cs else dec_run cd comp [] cs = (x, None)).

(** Decoders given bytes put out bytes. *)
Definition decodes_bytes (cd : Stream.codec) : Prop :=
  forall comp hist c, bytes c -> bytes (fst (Stream.d_step cd comp hist c)).

(** The number at an offset; missing bytes do not matter. *)
Definition be32_at (x : list Z) (o : Z) : Z := be_val (slice x o 4).

(** A decoded payload declares a source NEVR of 2^32-1 bytes, or 2^29 or more offset
    adjustments, internal copies or external copies. *)
Definition huge_counts (x : list Z) : Prop :=
  let version := (getz x 3 - 48) mod 2 ^ 16 in
  let nevr_len := be32_at x 4 in
  let o1 := 8 + nevr_len in
  let o2 := o1 + 4 + be32_at x o1 + 16 in
  let o3 := if 2 <=? version then o2 + 12 + be32_at x (o2 + 8) else o2 in
  let adjs := if version =? 3 then be32_at x (o3 + 4) else 0 in
  let o4 := if version =? 3 then o3 + 8 + 8 * adjs else o3 in
  let o5 := o4 + 4 + be32_at x o4 in
  nevr_len = 2 ^ 32 - 1 \/ 2 ^ 29 <= adjs \/
  2 ^ 29 <= be32_at x (o5 + 4) \/ 2 ^ 29 <= be32_at x (o5 + 8).

(** The same for a whole file: the target NEVR of an rpm-only delta is 2^32-1 bytes, or the
    payload is like that. *)
Definition huge_file (cd : Stream.codec) (file : list Z) : Prop :=
  (slice file 0 4 = [100; 114; 112; 109] /\ be32_at file 8 = 2 ^ 32 - 1) \/
  exists pre payload comp x, file = pre ++ payload /\ yields cd comp payload x /\ huge_counts x.
