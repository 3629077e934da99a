(** * Properties C01, C02, C03: the diff step

    Statements use the specification [SpecDelta] (meaning of copy instructions)
    and the model functions themselves; nothing else. *)
From Verif Require Import Base BaseLemmas Sat Search SearchProofs Diff DiffProofs SpecDelta
     CopiesProofs ExtentProofs DiffFinal.

(** C01: diff then patch reproduces the new bytes exactly. *)
Theorem C01_diff_patch_roundtrip : forall (old new : list Z) (addblk : bool),
  bytes new -> zlen old < 2 ^ 31 -> zlen new < 2 ^ 31 ->
  new = [] \/ 16 <= zlen new ->
  exists d data,
    make_diff old new addblk = Ok d /\
    int_data_of new (dr_int_off d) (dr_int d) = Ok data /\
    patch_delta old (dr_ext d) (dr_int d) data
                (if addblk then Some (concat (dr_add d)) else None) = Some new.
Proof. exact diff_patch_roundtrip. Qed.
Print Assumptions C01_diff_patch_roundtrip.

(** The same for old data up to 2^63 bytes, where offsets no longer fit in 31 bits
    and filler copies appear, provided the copies can be counted in 32 bits. *)
Theorem C01_diff_patch_roundtrip_large_old : forall (old new : list Z) (addblk : bool),
  bytes new -> zlen old < 2 ^ 63 -> zlen new < 2 ^ 31 ->
  new = [] \/ 16 <= zlen new ->
  exists d, make_diff old new addblk = Ok d /\
    (zlen (dr_ext d) < 2 ^ 32 ->
     exists data,
       int_data_of new (dr_int_off d) (dr_int d) = Ok data /\
       patch_delta old (dr_ext d) (dr_int d) data
                   (if addblk then Some (concat (dr_add d)) else None) = Some new).
Proof. exact diff_patch_roundtrip_large. Qed.
Print Assumptions C01_diff_patch_roundtrip_large_old.

(** A case with two matches, a moved block, changed bytes and inserted bytes. *)
Definition ex_ramp (a n : Z) : list Z :=
  map (fun i => (Z.of_nat i * 7 + a) mod 256) (seq 0 (Z.to_nat n)).
Definition ex_old : list Z := ex_ramp 3 80 ++ ex_ramp 100 60.
Definition ex_new : list Z := ex_ramp 100 50 ++ [1; 2; 3] ++ ex_ramp 3 40 ++ [9; 9] ++ ex_ramp 41 37.

Example C01_case_add :
  bytes ex_new /\ zlen ex_old < 2 ^ 31 /\ zlen ex_new < 2 ^ 31 /\ 16 <= zlen ex_new /\
  (exists d, make_diff ex_old ex_new true = Ok d /\
             dr_ext d = [(80, 50); (u32 (-130), 79)] /\ dr_int d = [(1, 3); (1, 0)] /\
             getz (concat (dr_add d)) 90 = 238).
Proof.
  split; [apply bytesb_ok; vm_compute; reflexivity|].
  split; [reflexivity|]. split; [reflexivity|]. split; [vm_compute; discriminate|].
  eexists. split; [vm_compute; reflexivity|]. split; [|split]; vm_compute; reflexivity.
Qed.

Example C01_case_noadd :
  exists d data, make_diff ex_old ex_new false = Ok d /\
    int_data_of ex_new (dr_int_off d) (dr_int d) = Ok data /\ zlen data = 42 /\
    patch_delta ex_old (dr_ext d) (dr_int d) data None = Some ex_new.
Proof.
  do 2 eexists. split; [vm_compute; reflexivity|]. split; [vm_compute; reflexivity|].
  split; vm_compute; reflexivity.
Qed.

(** C02: the search only reports genuine matches, reads only inside the buffers and
    terminates, for every hash table the code builds. *)
Theorem C02_search_sound : forall (old new : list Z) (last_offset start : Z),
  zlen old < 2 ^ 63 -> 16 <= zlen new < 2 ^ 63 -> 0 <= start <= zlen new ->
  exists h scan pos len,
    hash_create old = Ok h /\
    hash_search h old new last_offset start = Ok (scan, pos, len) /\
    ((scan = zlen new /\ pos = 0 /\ len = 0) \/
     (start <= scan /\ 1 <= len /\ scan + len <= zlen new /\
      0 <= pos /\ pos + len <= zlen old /\
      slice old pos len = slice new scan len)).
Proof. exact search_sound. Qed.
Print Assumptions C02_search_sound.

(** C02: the whole loop of the diff step is total: no undefined behaviour, no
    endless loop, for buffers of any size a C object can have; and the extents it
    returns tile the new data and lie inside the old data. *)
Theorem C02_diff_total : forall (old new : list Z) (addblk : bool),
  zlen old < 2 ^ 63 -> zlen new < 2 ^ 63 -> new = [] \/ 16 <= zlen new ->
  exists dcs adds,
    make_diff_copies old new addblk = Ok (dcs, adds) /\
    Forall (fun d => 0 <= dc_old_off d /\ 0 <= dc_old_len d /\
                     dc_old_off d + dc_old_len d <= zlen old) dcs /\
    concat (map (fun d => slice new (dc_new_off d - dc_old_len d) (dc_old_len d)
                          ++ slice new (dc_new_off d) (dc_new_len d)) dcs) = new.
Proof. exact diff_total. Qed.
Print Assumptions C02_diff_total.

Example C02_case : exists dcs adds,
  make_diff_copies ex_old ex_new false = Ok (dcs, adds) /\ zlen dcs = 3.
Proof. do 2 eexists. split; vm_compute; reflexivity. Qed.

(** Outside the stated range (new data of 1 to 15 bytes) the search reads out of
    bounds: new_len - HSIZE wraps around. *)
Theorem C02_short_new_refuted : exists old new,
  zlen new = 15 /\ bytes old /\ bytes new /\ make_diff old new false = Ub OobRead.
Proof. exact short_new_oob. Qed.
Print Assumptions C02_short_new_refuted.

(** C03, for old extents below 2 GiB: every output byte comes from where the diff
    copies say, whatever the offsets (up to 2^63) and the new lengths. The full
    statement, without [dc_old_len d < 2 ^ 31], is false: see below. *)
Theorem C03_extents_denoted_partial : forall dcs : list diff_copy,
  Forall (fun d => 0 <= dc_old_off d /\ 0 <= dc_old_len d < 2 ^ 31 /\
                   dc_old_off d + dc_old_len d < 2 ^ 63 /\ 0 <= dc_new_len d) dcs ->
  exists exts ints,
    create_diff_copies dcs = Ok (exts, ints) /\
    (zlen exts < 2 ^ 32 ->
     forall k, 0 <= k ->
       byte_src (delta_ops ints (extents 0 exts)) 0 k =
       byte_src (flat_map (fun d => [OCopy (dc_old_off d) (dc_old_len d);
                                     OData (dc_new_len d)]) dcs) 0 k).
Proof. exact extents_denoted. Qed.
Print Assumptions C03_extents_denoted_partial.

(** A jump of more than 4 GiB forwards and back again needs filler copies. *)
Example C03_case :
  create_diff_copies [mkdc 5000000000 10 10 3; mkdc 7 20 33 3000000000] =
  Ok ([(2147483647, 0); (2147483647, 0); (705032706, 10);
       (2147483649, 0); (2147483649, 0); (3589934587, 20)],
      [(3, 3); (3, 2147483647); (0, 852516353)]).
Proof. vm_compute. reflexivity. Qed.

(** C03 fails for an old extent of 2 GiB or more that does not start at the running
    offset: the extent after it is decoded at the wrong place. *)
Theorem C03_two_gib_extent_refuted : exists dcs exts ints k,
  create_diff_copies dcs = Ok (exts, ints) /\
  byte_src (flat_map (fun d => [OCopy (dc_old_off d) (dc_old_len d);
                                OData (dc_new_len d)]) dcs) 0 k = Some (FromOld 100) /\
  byte_src (delta_ops ints (extents 0 exts)) 0 k = Some (FromOld 110).
Proof. exact two_gib_extent. Qed.
Print Assumptions C03_two_gib_extent_refuted.
