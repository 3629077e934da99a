(** * WireCases: a delta file written out *)
From Coq Require Import String.
From Verif Require Import Base SpecCodec SpecStream SpecFormat Rpm Delta DeltaWrite DeltaRead ToyCodec ToyLibs FormatFinal FormatCases TextCases SpecRpm SpecWire WireProofs BaseLemmas.

Definition file_only : list Z :=
  text "drpmDLT3" ++ [0; 0; 0; 6] ++ text "b-2-1" ++ [0] ++ [0; 0; 0; 4; 1; 255; 0; 3] ++
  text "DLT3" ++ [0; 0; 0; 6] ++ text "a-1-1" ++ [0] ++ [0; 0; 0; 16] ++ repeat 9 16 ++ repeat 200 16 ++
  [0; 0; 15; 160; 0; 0; 6; 6; 0; 0; 0; 0; 0; 0; 0; 120; 0; 0; 0; 0; 0; 0; 0; 120] ++ repeat 5 120 ++
  [0; 0; 0; 33; 0; 0; 0; 2; 0; 0; 0; 1; 0; 0; 0; 0; 0; 0; 0; 1; 0; 0; 0; 3; 0; 0; 0; 2; 0; 0; 0; 4; 0; 0; 0; 5] ++
  [0; 0; 0; 0; 0; 0; 0; 50; 0; 0; 0; 0; 0; 0; 0; 0; 0; 0; 0; 5; 2; 3; 4; 7; 8].

Lemma case_file : write_deltarpm toylibs delta_only = Ok file_only /\
  match read_deltarpm toylibs file_only with
  | Ok d => d_type d = 1 /\ d_comp d = 0 /\ d_version d = 3 /\ d_head d = HNevr (text "b-2-1") /\ d_src_nevr d = text "a-1-1" /\
            d_seq d = repeat 9 16 /\ d_md5 d = repeat 200 16 /\ d_size d = 4000 /\ d_tcomp d = 4 /\ d_tlevel d = 6 /\ d_param d = [] /\
            d_hlen d = 120 /\ d_off d = [] /\ d_leadsig d = repeat 5 120 /\ d_fmtoff d = 33 /\
            d_int d = [(0, 3); (1, 2)] /\ d_ext d = [(4, 5)] /\ d_extlen d = 50 /\ d_add d = [1; 255; 0; 3] /\ d_idata d = IBytes [2; 3; 4; 7; 8]
  | _ => False
  end.
Proof. split; [vm_compute; reflexivity|]. vm_compute. repeat split. Qed.

(** Negative numbers and the two sizes of length fields: version 3 and version 2 of the same delta. *)
Lemma case_wire : wf_delta toylibs delta_std /\ wf_delta toylibs delta_v2 /\
  signeds (map snd (d_off delta_std)) = [0; 0; 0; 4; 128; 0; 0; 7] /\
  zlen (wire delta_std) = zlen (wire delta_v2) + 8 + 16 + 8.
Proof. split; [apply case_std|]. split; [apply (wf_std_any 2); lia|]. split; vm_compute; reflexivity. Qed.

Lemma case_reader : wf_delta toylibs delta_only /\ readable toylibs (toy_header [7]) /\ decodes (lb_codec toylibs) (d_comp delta_only) (wire delta_only) (wire delta_only) /\
  bytes (wire delta_only) /\ 8 <= zlen (wire delta_only) /\ sniff (wire delta_only) = d_comp delta_only /\
  wire_front delta_only (toy_header [7]) ++ wire delta_only = file_only.
Proof.
  split; [apply case_only|]. split; [apply toy_readable; [apply bytesb_ok; reflexivity|reflexivity]|]. split; [reflexivity|].
  split; [apply bytesb_ok; vm_compute; reflexivity|]. split; [vm_compute; discriminate|]. split; vm_compute; reflexivity.
Qed.
