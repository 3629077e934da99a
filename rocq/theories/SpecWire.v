(** * SpecWire: the bytes of a delta file *)
From Coq Require Import String.
From Verif Require Import Base SpecCodec SpecStream SpecFormat Rpm Delta TextCases SpecRpm.

(** A number in [k] bytes, the most significant one first. *)
Fixpoint be (k : nat) (x : Z) : list Z := match k with O => [] | S k => x / 256 ^ Z.of_nat k mod 256 :: be k x end.
(** A string of bytes and its length before it. *)
Definition counted (s : list Z) : list Z := be 4 (zlen s) ++ s.
(** Columns of a table of 32-bit numbers; signed ones are kept as sign and magnitude. *)
Definition signed (x : Z) : Z := if x <? 2 ^ 31 then x else x - 2 ^ 32.
Definition numbers (l : list Z) : list Z := concat (map (be 4) l).
Definition signeds (l : list Z) : list Z := concat (map (fun x => be 4 (sign_magnitude (signed x))) l).

(** Codes of the compression methods: none, gzip, bzip2, lzma, xz, zstd. *)
Definition method_code (comp : Z) : Z := nth (Z.to_nat comp) [0; 1; 2; 5; 6; 0; 7] 0.

(** What is in the compressed part; 1, 2 and 3 are the versions of the format. *)
Definition wire (d : deltarpm) : list Z :=
  let v := d_version d in
  let long x := if v =? 3 then be 8 x else be 4 x in
  text "DLT" ++ [48 + v] ++
  counted (d_src_nevr d ++ [0]) ++ counted (d_seq d) ++ d_md5 d ++
  (if v =? 1 then [] else be 4 (d_size d) ++ be 4 (method_code (d_tcomp d) + 256 * d_tlevel d) ++ counted (d_param d)) ++
  (if v =? 3 then be 4 (d_hlen d) ++ be 4 (zlen (d_off d)) ++ numbers (map fst (d_off d)) ++ signeds (map snd (d_off d)) else []) ++
  counted (d_leadsig d) ++ be 4 (d_fmtoff d) ++
  be 4 (zlen (d_int d)) ++ be 4 (zlen (d_ext d)) ++
  numbers (map fst (d_int d)) ++ numbers (map snd (d_int d)) ++ signeds (map fst (d_ext d)) ++ numbers (map snd (d_ext d)) ++
  long (d_extlen d) ++ (if d_type d =? 0 then counted (d_add d) else counted []) ++
  long (zlen (idata_bytes d)) ++ idata_bytes d.

(** What is in front of it: in standard deltas (type 0) lead, signature and header of an RPM file, in rpm-only deltas
    (type 1) a magic, the name of the target and the add block. *)
Definition wire_front (d : deltarpm) (sig : list Z) : list Z :=
  match d_head d with
  | HRpm r => SpecRpm.front (rp_lead r) sig ++ mark ++ rp_hdr r
  | HNevr nevr => text "drpmDLT3" ++ counted (nevr ++ [0]) ++ counted (d_add d)
  end.
(** The signature has size and digest of everything after it. *)
Definition wire_signature (L : libs) (d : deltarpm) (payload : list Z) : list Z :=
  match d_head d with
  | HRpm r => let body := mark ++ rp_hdr r ++ payload in lb_mksig L (zlen body mod 2 ^ 32) (lb_md5 L body)
  | HNevr _ => []
  end.
