(** * Properties C09, C10: the compressed file order *)
From Verif Require Import Base BaseLemmas Rpm Seq Expand SeqProofs SeqFinal ToyLibs.

(** C09: every list of file indices that fits the table is encoded without error, and both
    ends agree on it, whatever the digest in front. *)
Theorem C09_sequence_roundtrip : forall count l, 0 <= count < 2 ^ 32 ->
  Forall (fun i => 0 <= i < count) l -> zlen l <= count ->
  exists code, seq_encode l = Ok code /\ bytes code /\
    forall digest, zlen digest = 16 -> seq_positions (digest ++ code) count = Ok l.
Proof. exact roundtrip_seq. Qed.
Print Assumptions C09_sequence_roundtrip.

(** Runs, gaps, a step back, a repetition, and a number of several digits. *)
Example C09_case :
  let l := [3; 4; 5; 6; 7; 8; 9; 10; 11; 12; 500; 501; 2; 2; 0] in
  seq_encode l = Ok [3; 161; 252; 114; 2; 16; 33; 0; 16] /\
  seq_positions (repeat 7 16 ++ [3; 161; 252; 114; 2; 16; 33; 0; 16]) 600 = Ok l.
Proof. vm_compute. split; reflexivity. Qed.

(** C10: for an arbitrary sequence, decoding ends, reports at most a format error, and stores at
    most [count] positions, none beyond [count]; undefined behaviour is limited to the
    store one past the table and to oversized shifts.  Partial: both do happen, see below. *)
Theorem C10_decode_bounds_partial : forall sequence count, bytes sequence -> 0 <= count < 2 ^ 64 - 1 ->
  match seq_positions sequence count with
  | Ok out => zlen out <= count /\ Forall (fun p => 0 <= p <= count) out
  | Err e => e = EFormat
  | Ub u => u = OobWrite \/ u = BadShift
  | NoFuel => False
  end.
Proof. exact positions_bounds. Qed.
Print Assumptions C10_decode_bounds_partial.

(** C10: expanding a sequence that the encoder produced has no undefined behaviour (with any
    digest in front, even a wrong one, and any file list whose digests fit the digest buffer). *)
Theorem C10_generated_safe_partial : forall L check,
  (forall c, check = Some c -> forall n a d z, defined (c n a d z)) ->
  forall l digest code files sha,
  Forall (fun i => 0 <= i < zlen files) l -> zlen l <= zlen files -> zlen files < 2 ^ 32 ->
  Forall (fun f => zlen (fi_md5 f) <= 65) files -> zlen digest = 16 -> seq_encode l = Ok code ->
  defined (expand_sequence L check (Some (digest ++ code)) files sha).
Proof. exact generated_safe. Qed.
Print Assumptions C10_generated_safe_partial.

(** One directory "/d". *)
Definition one_dir : list file_info := [mkfi [47; 100] 0 [] 0 4096 16877 0 [] 0].

Example C10_case : seq_encode [0] = Ok [16] /\
  expand_sequence toylibs None (Some (lb_md5 toylibs ([100; 0] ++ [0; 0; 65; 237; 0; 0; 0; 0; 0; 0; 0; 0]) ++ [16])) one_dir false
  = Ok [mkcf 0 116 0 0; mkcf (-1) 124 0 116] /\
  expand_sequence toylibs None (Some (repeat 0 16 ++ [16])) one_dir false = Err EMismatch.
Proof. vm_compute. repeat split; reflexivity. Qed.

(** C10 is false of the code: the table has room for [count] positions, but the check lets one more
    be stored... *)
Theorem C10_table_overflow_refuted : exists sequence files,
  bytes sequence /\ expand_sequence toylibs None (Some sequence) files false = Ub OobWrite.
Proof. exists (repeat 0 16 ++ [32]), one_dir. split; [apply bytesb_ok|]; vm_compute; reflexivity. Qed.
Print Assumptions C10_table_overflow_refuted.

(** ... and position [count] itself is accepted, so that a file entry past the end is read... *)
Theorem C10_file_overread_refuted : exists sequence files,
  bytes sequence /\ expand_sequence toylibs None (Some sequence) files false = Ub OobRead.
Proof. exists (repeat 0 16 ++ [1; 16]), one_dir. split; [apply bytesb_ok|]; vm_compute; reflexivity. Qed.
Print Assumptions C10_file_overread_refuted.

(** ... a long run of continuation digits shifts by more than 63 ... *)
Theorem C10_shift_refuted : exists sequence files,
  bytes sequence /\ expand_sequence toylibs None (Some sequence) files false = Ub BadShift.
Proof. exists (repeat 0 16 ++ repeat 136 12), one_dir. split; [apply bytesb_ok|]; vm_compute; reflexivity. Qed.
Print Assumptions C10_shift_refuted.

(** ... and a sequence made by the encoder overflows the table if the archive listed a
    file more often than there are files. *)
Theorem C10_repeated_file_refuted : exists l code,
  Forall (fun i => 0 <= i < 1) l /\ seq_encode l = Ok code /\
  expand_sequence toylibs None (Some (repeat 0 16 ++ code)) one_dir false = Ub OobWrite.
Proof.
  exists [0; 0], [16; 1]. split; [repeat constructor; lia|]. split; vm_compute; reflexivity.
Qed.
Print Assumptions C10_repeated_file_refuted.
