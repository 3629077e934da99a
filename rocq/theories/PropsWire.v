(** * Property C05, continued: the bytes of the delta format *)
From Coq Require Import String.
From Verif Require Import Base SpecCodec SpecDelta SpecStream SpecFormat Rpm Delta DeltaWrite DeltaRead ToyLibs FormatCases TextCases SpecRpm SpecWire WireProofs WireCases.

(** C05: what is written has the bytes of the format, field after field ... *)
Theorem C05_layout : forall L d, wf_delta L d -> codec_ok (lb_codec L) -> exists file payload,
  write_deltarpm L d = Ok file /\ file = wire_front d (wire_signature L d payload) ++ payload /\
  decodes (lb_codec L) (d_comp d) payload (wire d) /\ (d_comp d = 0 -> payload = wire d).
Proof. exact layout. Qed.
Print Assumptions C05_layout.

(** ... and every file with the bytes of the format is read as what it says, whoever wrote and compressed it and whatever
    is in its signature. *)
Theorem C05_reader : forall L d, wf_delta L d -> forall sig payload,
  readable L sig -> zlen sig + match d_head d with HRpm r => zlen (rp_hdr r) | HNevr _ => 0 end < 2 ^ 32 - 200 ->
  decodes (lb_codec L) (d_comp d) payload (wire d) -> bytes payload -> 8 <= zlen payload -> sniff payload = d_comp d ->
  exists d', read_deltarpm L (wire_front d sig ++ payload) = Ok d' /\ reads_back L d d'.
Proof. exact reader. Qed.
Print Assumptions C05_reader.

(** An rpm-only delta, byte by byte. *)
Example C05_case_bytes : write_deltarpm toylibs delta_only = Ok file_only /\
  match read_deltarpm toylibs file_only with
  | Ok d => d_type d = 1 /\ d_comp d = 0 /\ d_version d = 3 /\ d_head d = HNevr (text "b-2-1") /\ d_src_nevr d = text "a-1-1" /\
            d_seq d = repeat 9 16 /\ d_md5 d = repeat 200 16 /\ d_size d = 4000 /\ d_tcomp d = 4 /\ d_tlevel d = 6 /\ d_param d = [] /\
            d_hlen d = 120 /\ d_off d = [] /\ d_leadsig d = repeat 5 120 /\ d_fmtoff d = 33 /\
            d_int d = [(0, 3); (1, 2)] /\ d_ext d = [(4, 5)] /\ d_extlen d = 50 /\ d_add d = [1; 255; 0; 3] /\ d_idata d = IBytes [2; 3; 4; 7; 8]
  | _ => False
  end.
Proof. exact case_file. Qed.

Example C05_case_wire : wf_delta toylibs delta_std /\ wf_delta toylibs delta_v2 /\
  signeds (map snd (d_off delta_std)) = [0; 0; 0; 4; 128; 0; 0; 7] /\
  zlen (wire delta_std) = zlen (wire delta_v2) + 8 + 16 + 8.
Proof. exact case_wire. Qed.

Example C05_case_reader : wf_delta toylibs delta_only /\ readable toylibs (toy_header [7]) /\ decodes (lb_codec toylibs) (d_comp delta_only) (wire delta_only) (wire delta_only) /\
  bytes (wire delta_only) /\ 8 <= zlen (wire delta_only) /\ sniff (wire delta_only) = d_comp delta_only /\
  wire_front delta_only (toy_header [7]) ++ wire delta_only = file_only.
Proof. exact case_reader. Qed.
