(** * PropsHandle: reading a delta and asking about it (C22) *)
From Verif Require Import Base SpecCodec SpecDelta SpecStream SpecFormat SpecHandle Stream Rpm Delta DeltaRead DeltaWrite
  Handle HandleFinal HandleProofs ToyCodec ToyLibs FormatCases.

(** C22: every getter returns, for every integer, what the table of tags says about the delta in the file, or the argument
    error. *)
Theorem C22_getters : forall L open name file d h,
  open name = Some file -> read_deltarpm L file = Ok d -> drpm_read L open true (Some name) = Ok h -> forall tag,
  (drpm_get_ullong (Some h) tag true = match tagged L name d tag with Some (Number n) => Ok n | _ => Err EArgs end) /\
  (drpm_get_ulong (Some h) tag true = match tagged L name d tag with
     | Some (Number n) => if (tag =? 17) || (tag =? 18) then Err EArgs else Ok n | _ => Err EArgs end) /\
  (narrow tag -> drpm_get_uint (Some h) tag true = drpm_get_ullong (Some h) tag true) /\
  (~ narrow tag -> drpm_get_uint (Some h) tag true = Err EArgs) /\
  (drpm_get_string (Some h) tag true = match tagged L name d tag with Some (Text s) => Ok s | _ => Err EArgs end) /\
  (drpm_get_ulong_array (Some h) tag true = match tagged L name d tag with
     | Some (Array []) => Ok (None, 0) | Some (Array l) => Ok (Some l, zlen l) | _ => Err EArgs end).
Proof. exact getters. Qed.
Print Assumptions C22_getters.

(** C22: for a delta that was written, this is what was put into it (format version 3, which has room for everything). *)
Theorem C22_written : forall L open name d file,
  codec_ok (lb_codec L) -> wf_delta L d -> d_version d = 3 ->
  zlen (d_seq d) < 2 ^ 31 -> zlen (d_leadsig d) < 2 ^ 31 -> zlen (d_param d) < 2 ^ 31 ->
  write_deltarpm L d = Ok file -> open name = Some file ->
  exists h, drpm_read L open true (Some name) = Ok h /\ forall tag,
    (drpm_get_ullong (Some h) tag true = match tagged L name d tag with Some (Number n) => Ok n | _ => Err EArgs end) /\
    (drpm_get_string (Some h) tag true = match tagged L name d tag with Some (Text s) => Ok s | _ => Err EArgs end) /\
    (drpm_get_ulong_array (Some h) tag true = match tagged L name d tag with
       | Some (Array []) => Ok (None, 0) | Some (Array l) => Ok (Some l, zlen l) | _ => Err EArgs end).
Proof. exact written. Qed.
Print Assumptions C22_written.

(** C22: numeric getters agree, for all handles. *)
Theorem C22_agree : forall h tag room,
  (forall n, drpm_get_uint h tag room = Ok n -> drpm_get_ulong h tag room = Ok n) /\
  (forall n, drpm_get_ulong h tag room = Ok n -> drpm_get_ullong h tag room = Ok n).
Proof. exact agree. Qed.
Print Assumptions C22_agree.

(** C22: every tag of the table belongs to one kind of getter, all other integers to none. *)
Theorem C22_one_kind : forall h tag,
  let n := match drpm_get_ullong (Some h) tag true with Err EArgs => 0 | _ => 1 end in
  let s := match drpm_get_string (Some h) tag true with Err EArgs => 0 | _ => 1 end in
  let a := match drpm_get_ulong_array (Some h) tag true with Err EArgs => 0 | _ => 1 end in
  n + s + a = (if (0 <=? tag) && (tag <=? 18) then 1 else 0).
Proof. exact one_kind. Qed.
Print Assumptions C22_one_kind.

(** C22: null pointers are an argument error. *)
Theorem C22_null : forall h tag room, h = None \/ room = false ->
  drpm_get_uint h tag room = Err EArgs /\ drpm_get_ulong h tag room = Err EArgs /\ drpm_get_ullong h tag room = Err EArgs /\
  drpm_get_string h tag room = Err EArgs /\ drpm_get_ulong_array h tag room = Err EArgs.
Proof. exact null_args. Qed.
Print Assumptions C22_null.

(** C22: a delta that can be read gives a handle, unless its sequence, its lead and signature or its compression parameters
    have 2^31 bytes or more; then [drpm_read] writes outside of a buffer. *)
Theorem C22_read_exact : forall L open name file d, open name = Some file -> read_deltarpm L file = Ok d ->
  (zlen (d_seq d) < 2 ^ 31 /\ zlen (d_leadsig d) < 2 ^ 31 /\ zlen (d_param d) < 2 ^ 31 ->
   is_ok (drpm_read L open true (Some name))) /\
  (~ (zlen (d_seq d) < 2 ^ 31 /\ zlen (d_leadsig d) < 2 ^ 31 /\ zlen (d_param d) < 2 ^ 31) ->
   drpm_read L open true (Some name) = Ub OobWrite).
Proof. exact read_exact. Qed.
Print Assumptions C22_read_exact.

(** The second case happens for a delta that is well-formed. *)
Theorem C22_long_parameters_refuted : exists file d,
  write_deltarpm toylibs d = Ok file /\ wf_delta toylibs d /\ is_ok (read_deltarpm toylibs file) /\
  forall name, drpm_read toylibs (fun _ => Some file) true (Some name) = Ub OobWrite.
Proof. exact long_param. Qed.
Print Assumptions C22_long_parameters_refuted.

(** C22: after a handle was destroyed, the pointer is refused by every call: destroying once more, and every getter. *)
Theorem C22_destroyed : forall h, exists x, drpm_destroy (Some (Some h)) = Ok x /\ drpm_destroy (Some x) = Err EArgs /\
  drpm_destroy None = Err EArgs /\
  forall tag target, drpm_get_uint x tag target = Err EArgs /\ drpm_get_ulong x tag target = Err EArgs /\
    drpm_get_ullong x tag target = Err EArgs /\ drpm_get_string x tag target = Err EArgs /\
    drpm_get_ulong_array x tag target = Err EArgs.
Proof. exact destroyed. Qed.
Print Assumptions C22_destroyed.

(** A standard delta with two adjustments, three internal and three external copies. *)
Example C22_case : exists file h,
  write_deltarpm toylibs delta_std = Ok file /\ drpm_read toylibs (fun _ => Some file) true (Some [97]) = Ok h /\
  drpm_get_uint (Some h) 7 true = Ok 4000 /\ drpm_get_ullong (Some h) 17 true = Ok 50 /\ drpm_get_ulong (Some h) 17 true = Err EArgs /\
  drpm_get_string (Some h) 10 true = Ok (Some [48; 49; 48; 50]) /\ drpm_get_string (Some h) 0 true = Ok (Some [97]) /\
  drpm_get_ulong_array (Some h) 12 true = Ok (Some [10; 4; 90; 2 ^ 32 - 7], 4) /\
  drpm_get_ulong_array (Some h) 15 true = Ok (Some [1; 3; 0; 0; 2; 4], 6) /\
  drpm_get_string (Some h) 19 true = Err EArgs /\ drpm_get_uint (Some h) (-1) true = Err EArgs.
Proof.
  assert (H : match write_deltarpm toylibs delta_std with
              | Ok file => is_ok (drpm_read toylibs (fun _ => Some file) true (Some [97]))
              | _ => False end) by (vm_compute; eexists; reflexivity).
  destruct (write_deltarpm toylibs delta_std) as [file| | |] eqn:E; try (destruct H; fail). destruct H as [h Eh]. exists file, h.
  split; [reflexivity|]. split; [exact Eh|].
  assert (Ef : Ok file = write_deltarpm toylibs delta_std) by auto. vm_compute in Ef. injection Ef as ->.
  vm_compute in Eh. injection Eh as <-. repeat split; vm_compute; reflexivity.
Qed.
