(** * RpmCases: an RPM file written as text, headers of several kinds *)
From Coq Require Import String.
From Verif Require Import Base BaseLemmas SpecCodec Utils UtilsProofs Rpm ToyCodec ToyLibs SpecMake TextCases SpecRpm.

(** Headers as in the file format; the compression level is the whole header; two tables of files. *)
Definition text_read (l : list Z) : option (list Z * Z) :=
  let n := 8 + be_val (slice l 8 4) * 16 + be_val (slice l 12 4) in
  if list_eqb (slice l 0 8) mark && (0 <=? be_val (slice l 8 4)) && (0 <=? be_val (slice l 12 4)) && (8 + n <=? zlen l) then Some (slice l 8 n, 8 + n) else None.
Definition text_table (h : list Z) : file_tags :=
  if list_eqb h [2] then mkft (Some [text "/a"; text "/b"]) (Some [0; 1]) (Some [[]; []]) (Some [0; 0]) (Some [8; 9]) (Some [33188; 33188]) (Some [3; 3]) (Some [[]; []]) (Some [1])
  else mkft None (Some [0]) (Some [[]]) (Some [0]) (Some [8]) (Some [33188]) (Some [3]) (Some [[]]) None.
Definition text_libs : libs := mklibs toy toy_md5 (lb_sha256 toylibs) text_read (fun l => Some l) (fun h tag => if tag =? 1126 then Some h else None)
  (fun _ => text "a-1-1") (fun _ => None) (fun _ => None) toy_mksig (fun _ _ => None) text_table.

Lemma text_inside : headers_inside text_libs.
Proof.
  intros input h n. change (lb_read text_libs input) with (text_read input). unfold text_read. set (a := be_val (slice input 8 4)). set (b := be_val (slice input 12 4)).
  destruct (_ && (8 + _ <=? _)) eqn:E; [|discriminate]. intros H. assert (n = 8 + (8 + a * 16 + b)) as -> by congruence. apply andb_prop in E as [E E3]. apply andb_prop in E as [E E2]. apply andb_prop in E as [_ E1]. lia.
Qed.

(** Lead; signature with 3 bytes of data, 5 bytes of padding; header with an index entry and 3 bytes of data; payload. *)
Definition text_rpm : list Z :=
  [237; 171; 238; 219; 3; 0] ++ repeat 0 90 ++ [142; 173; 232; 1; 0; 0; 0; 0] ++ [0; 0; 0; 0; 0; 0; 0; 3] ++ text "sig" ++ repeat 0 5 ++
  [142; 173; 232; 1; 0; 0; 0; 0] ++ [0; 0; 0; 1; 0; 0; 0; 3] ++ [0; 0; 4; 100; 0; 0; 0; 6; 0; 0; 0; 0; 0; 0; 0; 1] ++ text "hdr" ++ text "payload".
Lemma parts_case : headers_inside text_libs /\
  (exists r seq full, rpm_read text_libs text_rpm ReadUncomp false = Ok (r, 0, seq, full) /\
     rp_archive r = text "payload" /\ rp_csize r = 7 /\ slice (rp_hdr r) 24 3 = text "hdr" /\ slice (rp_sig r) 8 3 = text "sig") /\
  rpm_read text_libs (217 :: tl text_rpm) ReadUncomp false = Err EFormat /\
  rpm_read text_libs (slice text_rpm 0 150) ReadUncomp false = Err EFormat.
Proof.
  split; [exact text_inside|]. split; [|split; vm_compute; reflexivity].
  do 3 eexists. split; [vm_compute; reflexivity|]. split; [reflexivity|]. split; [reflexivity|]. split; reflexivity.
Qed.

Lemma level_case : exists L r1 r2 r3,
  lb_string L (rp_hdr r1) 1126 = Some (text "T0") /\ rpm_get_comp_level L r1 = Ok 0 /\
  lb_string L (rp_hdr r2) 1126 = Some (text "-1") /\ rpm_get_comp_level L r2 = Ok 65535 /\
  lb_string L (rp_hdr r3) 1126 = Some (text "19T8") /\ rpm_get_comp_level L r3 = Err EFormat.
Proof.
  exists text_libs, (mkrpm [] [] (text "T0") [] 0 0), (mkrpm [] [] (text "-1") [] 0 0), (mkrpm [] [] (text "19T8") [] 0 0).
  repeat split; vm_compute; reflexivity.
Qed.

(** The second and third entries are for the payload format. *)
Definition three_entries : rpm := mkrpm [] []
  ([0; 0; 0; 3; 0; 0; 0; 12] ++ [0; 0; 3; 232; 0; 0; 0; 6; 0; 0; 0; 0; 0; 0; 0; 1] ++ [0; 0; 4; 100; 0; 0; 0; 6; 0; 0; 0; 7; 0; 0; 0; 1] ++
   [0; 0; 4; 100; 0; 0; 0; 6; 0; 0; 0; 2; 0; 0; 0; 1] ++ text "n~~~~~~cpio~") [] 0 0.
Lemma entry_case : whole_header (rp_hdr three_entries) /\ entries (rp_hdr three_entries) = 3 /\
  entry_tag (rp_hdr three_entries) 0 <> 1124 /\ entry_tag (rp_hdr three_entries) 1 = 1124 /\ entry_tag (rp_hdr three_entries) 2 = 1124 /\
  rpm_find_payload_format_offset three_entries = Ok 7.
Proof.
  split; [|split; [|split; [vm_compute; discriminate|split; [|split]]]]; try (vm_compute; reflexivity).
  split; [apply bytesb_ok; vm_compute; reflexivity|]. split; vm_compute; [discriminate|reflexivity].
Qed.

Lemma files_case : columns (lb_files text_libs [2]) 2 /\ ft_colors (lb_files text_libs [2]) = Some [1] /\
  rpm_get_file_info text_libs true (mkrpm [] [] [2] [] 0 0) = Err EFormat /\
  (exists f g, rpm_get_file_info text_libs false (mkrpm [] [] [2] [] 0 0) = Ok ([f; g], false) /\ fi_name g = text "/b" /\ fi_size g = 9) /\
  ~ complete (lb_files text_libs [3]) /\ rpm_get_file_info text_libs true (mkrpm [] [] [3] [] 0 0) = Ok ([], false).
Proof.
  split; [repeat split; eexists; split; reflexivity|]. split; [reflexivity|]. split; [reflexivity|].
  split; [do 2 eexists; split; [reflexivity|split; reflexivity]|]. split; [|reflexivity]. intros [H _]. apply H. reflexivity.
Qed.
