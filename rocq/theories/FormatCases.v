(** * FormatCases: concrete deltas and witnesses for the format properties *)
From Verif Require Import Base BaseLemmas Utils UtilsProofs SpecCodec SpecDelta SpecStream SpecFormat Stream ToyCodec
  DeltaComp Rpm Delta DeltaWrite DeltaRead FormatFinal FormatSafe ToyLibs.

Lemma roundtrip_final L d : codec_ok (lb_codec L) -> wf_delta L d ->
  exists file d', write_deltarpm L d = Ok file /\ read_deltarpm L file = Ok d' /\ reads_back L d d'.
Proof. intros Hc W. apply roundtrip; auto. Qed.

Lemma cut_final L d file dd n :
  codec_ok (lb_codec L) -> header_cut L -> wf_delta L d ->
  write_deltarpm L d = Ok file -> read_deltarpm L file = Ok dd -> 0 <= n < zlen file ->
  (exists e, read_deltarpm L (slice file 0 n) = Err e) \/
  d_comp d <> 0 /\ read_deltarpm L (slice file 0 n) = Ok dd.
Proof. intros Hc Hh W. apply cut_rejected; auto. Qed.

Lemma old_lengths L d : codec_ok (lb_codec L) -> wf_delta L d -> d_version d < 3 ->
  d_extlen d < 2 ^ 32 /\ d_intlen d < 2 ^ 32 /\
  exists file d', write_deltarpm L d = Ok file /\ read_deltarpm L file = Ok d' /\
    d_extlen d' = d_extlen d /\ d_intlen d' = d_intlen d.
Proof.
  intros Hc W Hv. pose proof (wf_extlen _ _ W) as He. pose proof (wf_intlen _ _ W) as Hi.
  replace (d_version d =? 3) with false in * by lia. split; [lia|]. split; [lia|].
  destruct (roundtrip_final L d Hc W) as (file & d' & E1 & E2 & R). exists file, d'.
  split; [auto|]. split; [auto|]. destruct R. auto.
Qed.

Definition toy_lead : list Z := MAGIC_RPM_BYTES ++ repeat 3 92.
Definition toy_hdr : list Z := toy_header [1; 2; 3; 4; 5].
Definition toy_rpm : rpm := mkrpm toy_lead (toy_header [7]) toy_hdr [] 0 0.
Definition neg1 : Z := 2 ^ 32 - 1.

(** Standard, version 3, gzip; two adjustments (one negative), three internal copies (one of
    length 0), three external copies (one backwards), add data. *)
Definition delta_std : deltarpm := mkdelta TYPE_STANDARD 1 9 (HRpm toy_rpm) 3
  [97; 45; 49; 45; 49] (repeat 9 16 ++ [18; 52]) (repeat 200 16) 4000 1 9 [1; 2]
  120 2 [(10, 4); (90, neg1 - 6)] (repeat 5 120) 33
  3 3 [(1, 3); (0, 0); (2, 4)] [(2, 5); (neg1 - 2, 3); (0, 1)] 50 [1; 255; 0; 3] 7 (IBytes [1; 2; 3; 4; 5; 6; 7]).

(** rpm-only, version 3, not compressed, internal data still pointing into the archive. *)
Definition delta_only : deltarpm := mkdelta TYPE_RPMONLY 0 0 (HNevr [98; 45; 50; 45; 49]) 3
  [97; 45; 49; 45; 49] (repeat 9 16) (repeat 200 16) 4000 4 6 []
  120 0 [] (repeat 5 120) 33
  2 1 [(0, 3); (1, 2)] [(4, 5)] 50 [1; 255; 0; 3] 5 (IPtrs [1; 2; 3; 4; 5; 6; 7; 8] [1; 6]).

Definition with_version (v extlen : Z) (d : deltarpm) : deltarpm :=
  mkdelta (d_type d) (d_comp d) (d_level d) (d_head d) v (d_src_nevr d) (d_seq d) (d_md5 d) (d_size d)
    (d_tcomp d) (d_tlevel d) (d_param d) (d_hlen d) (d_offn d) (d_off d) (d_leadsig d) (d_fmtoff d)
    (d_intn d) (d_extn d) (d_int d) (d_ext d) extlen (d_add d) (d_intlen d) (d_idata d).
Definition delta_v2 : deltarpm := with_version 2 50 delta_std.
Definition delta_v2_big : deltarpm :=
  mkdelta TYPE_STANDARD 1 9 (HRpm toy_rpm) 2
  [97; 45; 49; 45; 49] (repeat 9 16 ++ [18; 52]) (repeat 200 16) 4000 1 9 [1; 2]
  0 0 [] (repeat 5 120) 33
  1 1 [(1, 3)] [(2, 3)] (2 ^ 32 + 5) [] 3 (IBytes [1; 2; 3]).

Lemma toy_wf_head :
  zlen (rp_lead toy_rpm) = 96 /\ slice (rp_lead toy_rpm) 0 4 = [237; 171; 238; 219] /\
  readable toylibs (rp_hdr toy_rpm) /\ is_ok (rpm_get_comp toylibs toy_rpm) /\
  forall size md5, readable toylibs (lb_mksig toylibs size md5) /\
    zlen (lb_mksig toylibs size md5) + zlen (rp_hdr toy_rpm) < 2 ^ 32 - 200.
Proof.
  split; [reflexivity|]. split; [reflexivity|]. split.
  { apply toy_readable; [apply bytesb_ok; reflexivity|reflexivity]. }
  split; [eexists; reflexivity|]. intros size md5. split; [apply toy_sig_readable|].
  cbn [lb_mksig toylibs]. rewrite toy_sig_len. reflexivity.
Qed.

Ltac small :=
  repeat first
    [ apply bytesb_ok; reflexivity
    | match goal with
      | |- Forall _ _ => constructor
      | |- _ /\ _ => split
      | |- c_string _ => unfold c_string
      | |- pair_array _ _ => unfold pair_array
      | |- is_u32 _ => unfold is_u32
      | |- _ = _ => reflexivity
      | |- _ < _ => reflexivity
      | |- _ <= _ => discriminate
      | |- _ <> _ => discriminate
      end ].

Lemma wf_std_any v : 1 <= v <= 3 -> wf_delta toylibs (with_version v 50 delta_std).
Proof.
  intros Hv. split; unfold with_version;
  cbn [delta_std d_type d_comp d_level d_head d_version d_src_nevr d_seq d_md5 d_size
    d_tcomp d_tlevel d_param d_hlen d_offn d_off d_leadsig d_fmtoff
    d_intn d_extn d_int d_ext d_extlen d_add d_intlen d_idata].
  - right. unfold real_comp. cbn. auto.
  - lia.
  - lia.
  - small.
  - small.
  - small.
  - intros _. small. unfold supported_comp. cbn. tauto.
  - intros _. small.
  - small.
  - small.
  - small.
  - split; [small|]. split; [small|].
    match goal with |- Forall _ ?e => let v := eval vm_compute in e in assert (E : e = v) by (vm_compute; reflexivity) end.
    rewrite E. repeat (constructor; [cbn; lia|]). constructor.
  - split; [lia|]. destruct (v =? 3); reflexivity.
  - small.
  - split; [lia|]. destruct (v =? 3); reflexivity.
  - small.
  - split; [reflexivity|]. exact toy_wf_head.
Qed.

Lemma wf_only : wf_delta toylibs delta_only.
Proof.
  split; 
  cbn [delta_only d_type d_comp d_level d_head d_version d_src_nevr d_seq d_md5 d_size
    d_tcomp d_tlevel d_param d_hlen d_offn d_off d_leadsig d_fmtoff
    d_intn d_extn d_int d_ext d_extlen d_add d_intlen d_idata].
  - left. reflexivity.
  - lia.
  - lia.
  - small.
  - small.
  - small.
  - intros _. small. unfold supported_comp. cbn. tauto.
  - intros _. small.
  - small.
  - small.
  - small.
  - split; [small|]. split; [small|].
    match goal with |- Forall _ ?e => let v := eval vm_compute in e in assert (E : e = v) by (vm_compute; reflexivity) end.
    rewrite E. repeat (constructor; [cbn; lia|]). constructor.
  - split; [lia|]. reflexivity.
  - small.
  - split; [lia|]. reflexivity.
  - split; [apply bytesb_ok; reflexivity|]. split; [reflexivity|].
    repeat constructor; discriminate.
  - small.
Qed.

Lemma case_std : wf_delta toylibs delta_std /\ codec_ok (lb_codec toylibs) /\
  is_ok (file <- write_deltarpm toylibs delta_std ;; read_deltarpm toylibs file).
Proof.
  split; [apply (wf_std_any 3); lia|]. split; [exact toy_ok|]. eexists. vm_compute. reflexivity.
Qed.
Lemma case_only : wf_delta toylibs delta_only /\ codec_ok (lb_codec toylibs) /\
  is_ok (file <- write_deltarpm toylibs delta_only ;; read_deltarpm toylibs file).
Proof.
  split; [apply wf_only|]. split; [exact toy_ok|]. eexists. vm_compute. reflexivity.
Qed.
Lemma case_cut : header_cut toylibs /\ codec_ok (lb_codec toylibs) /\ wf_delta toylibs delta_std /\
  exists file dd, write_deltarpm toylibs delta_std = Ok file /\ read_deltarpm toylibs file = Ok dd /\
                  read_deltarpm toylibs (slice file 0 (zlen file - 1)) = Err EFormat.
Proof.
  split; [exact toy_header_cut|]. split; [exact toy_ok|]. split; [apply (wf_std_any 3); lia|].
  do 2 eexists. split; [vm_compute; reflexivity|]. split; vm_compute; reflexivity.
Qed.
Lemma case_accepted : exists file d, write_deltarpm toylibs delta_std = Ok file /\
  read_deltarpm toylibs file = Ok d /\ d_ext d <> [] /\ d_int d <> [].
Proof.
  do 2 eexists. split; [vm_compute; reflexivity|]. split; [vm_compute; reflexivity|]. split; discriminate.
Qed.
Lemma case_v2 : wf_delta toylibs delta_v2 /\ d_version delta_v2 = 2.
Proof. split; [apply (wf_std_any 2); lia|reflexivity]. Qed.
Lemma truncated_length : exists file d',
  d_version delta_v2_big = 2 /\ d_extlen delta_v2_big = 2 ^ 32 + 5 /\
  write_deltarpm toylibs delta_v2_big = Ok file /\ read_deltarpm toylibs file = Ok d' /\
  d_extlen d' = 5.
Proof.
  do 2 eexists. split; [reflexivity|]. split; [reflexivity|]. split; [vm_compute; reflexivity|].
  split; vm_compute; reflexivity.
Qed.

(** ** Hostile files *)
Lemma case_garbage : decodes_bytes (lb_codec toylibs) /\ bytes (repeat 237 200) /\
  read_deltarpm toylibs (repeat 237 200) = Err EFormat.
Proof. split; [exact toy_decodes_bytes|]. split; [apply bytesb_ok; reflexivity|vm_compute; reflexivity]. Qed.

Definition DLT3 : list Z := [68; 76; 84; 51].
Definition only_file (nevr_len : Z) (rest : list Z) : list Z :=
  [100; 114; 112; 109] ++ DLT3 ++ create_be32 nevr_len ++ rest.
(** rpm-only file with an empty name, no add data and the given payload. *)
Definition only_payload (payload : list Z) : list Z := only_file 0 (create_be32 0 ++ payload).
(** Payload up to the counts. *)
Definition hostile (intn extn : Z) (rest : list Z) : list Z :=
  DLT3 ++ create_be32 0 ++ create_be32 16 ++ repeat 1 16 ++ repeat 2 16 ++
  create_be32 1000 ++ create_be32 1 ++ create_be32 0 ++ create_be32 100 ++ create_be32 0 ++
  create_be32 112 ++ repeat 0 112 ++ create_be32 0 ++ create_be32 intn ++ create_be32 extn ++ rest.

Lemma name_overflow : exists file, bytes file /\ zlen file = 17 /\
  read_deltarpm toylibs file = Ub OobWrite.
Proof.
  exists (only_file (2 ^ 32 - 1) [1; 2; 3; 4; 5]). split; [apply bytesb_ok; vm_compute; reflexivity|].
  split; vm_compute; reflexivity.
Qed.

Lemma wild_copy : exists file d,
  bytes file /\ read_deltarpm toylibs file = Ok d /\ d_extlen d = 2 ^ 64 - 1 /\
  Exists (fun e => fst e < 0) (extents 0 (d_ext d)).
Proof.
  exists (only_payload (hostile 0 1 (create_be32 (2 ^ 31 + 2) ++ create_be32 1 ++ repeat 255 8 ++ create_be32 0 ++ create_be64 0))).
  eexists. split; [apply bytesb_ok; vm_compute; reflexivity|]. split; [vm_compute; reflexivity|].
  split; [vm_compute; reflexivity|]. match goal with |- Exists _ ?e => let v := eval vm_compute in e in assert (E : e = v) by (vm_compute; reflexivity) end.
  rewrite E. constructor. reflexivity.
Qed.

(** The reader stops at the first number, so the 2^29 iterations are not run. *)
Lemma count_overflow : exists file, bytes file /\ zlen file < 300 /\
  read_deltarpm toylibs file = Ub OobWrite.
Proof.
  exists (only_payload (hostile (2 ^ 29) 0 [0; 0; 0; 1])). split; [apply bytesb_ok; vm_compute; reflexivity|].
  split; [vm_compute; reflexivity|]. lazy. reflexivity.
Qed.
