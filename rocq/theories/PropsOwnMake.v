(** * PropsOwnMake: what [drpm_make] releases (C45) and forgets (C46) *)
From Verif Require Import Own OwnCodec OwnRpm OwnRead OwnMake SpecOwn OwnCases OwnMakeFinal.
Require Import ZArith List.
Import ListNotations.
Open Scope Z_scope.

(** C45: making a delta, standard or RPM-only, as long as memory is there, whatever else fails:
    nothing is released twice or used after its release, no pointer is used that was not
    set. *)
Theorem C45_make_partial : forall e ps alone only v3 add seqfile,
  e_oom e = false -> andb alone only = false -> sound e ps (drpm_make alone only v3 add seqfile).
Proof. exact make_diff_sound. Qed.
Print Assumptions C45_make_partial.

(** The same for RPM-only deltas of one package, if the hash functions work. *)
Theorem C45_make_identity_partial : forall ps v3 add seqfile,
  sound calm ps (drpm_make true true v3 add seqfile).
Proof. exact make_identity_sound. Qed.
Print Assumptions C45_make_identity_partial.

(** C46: when it succeeds, it leaves nothing, its copy of the options included. *)
Theorem C46_make_partial : forall e ps alone only v3 add seqfile,
  e_oom e = false -> andb alone only = false ->
  clean e ps (drpm_make alone only v3 add seqfile) (fun ok => ok = true).
Proof. exact make_diff_clean. Qed.
Print Assumptions C46_make_partial.
Theorem C46_make_identity_partial : forall ps v3 add seqfile,
  clean calm ps (drpm_make true true v3 add seqfile) (fun ok => ok = true).
Proof. exact make_identity_clean. Qed.
Print Assumptions C46_make_identity_partial.

(** All kinds succeed, after dozens of resources; with three entries in the archive, too, and
    after a failure on the way nothing is left. *)
Example C45_make_case :
  match drpm_make false false true true true (mkst [] 0 [] calm),
        drpm_make false true true true true (mkst [] 0 [] calm),
        drpm_make true false true false true (mkst [] 0 [] calm),
        drpm_make true true true true true (mkst [] 0 [] calm),
        drpm_make false false true true true (mkst [] 0 (good 32 ++ [3]) calm),
        drpm_make false false true true true (mkst [] 0 (good 36 ++ [1]) odd_hash) with
  | Done a s, Done a2 s2, Done a3 s3, Done a4 s4, Done a5 s5, Done a6 s6 =>
      a = true /\ next s = 70 /\ a2 = true /\ next s2 = 48 /\ a3 = true /\ 48 < next s3 /\
      a4 = true /\ next s4 = 23 /\ a5 = true /\ next s5 = 79 /\ a6 = false /\ live s6 = []
  | _, _, _, _, _, _ => False
  end.
Proof. vm_compute. repeat split. Qed.

(** C45 is false without memory for the table of blocks: a null pointer is used if its struct
    could not be had ([hash_free] in drpm_search.c), a released struct if the rest could not
    be had. *)
Theorem C45_make_table_refuted : exists ps ps',
  drpm_make false false true true false (mkst [] 0 ps no_memory) = Bad UseNull /\
  drpm_make false false true true false (mkst [] 0 ps' no_memory) = Bad UseDead.
Proof. exists (good 68 ++ [1]), (good 69 ++ [1]). split; vm_compute; reflexivity. Qed.
Print Assumptions C45_make_table_refuted.

(** C45 is false without memory for RPM-only deltas: if the archive of the new package cannot
    grow, that of the old one is released twice (drpm.c lines 421-425). *)
Theorem C45_make_grow_refuted : exists ps,
  drpm_make false true true true false (mkst [] 0 ps no_memory) = Bad FreeDead.
Proof. exists (good 55 ++ [1]). vm_compute. reflexivity. Qed.
Print Assumptions C45_make_grow_refuted.

(** C45 is false without memory for RPM-only deltas of one package: a pointer that was not set
    is used ([solo_rpm] in drpm_make.c). *)
Theorem C45_make_junk_refuted : exists ps,
  drpm_make true true true true false (mkst [] 0 ps no_memory) = Bad UseJunk.
Proof. exists (good 2 ++ [1]). vm_compute. reflexivity. Qed.
Print Assumptions C45_make_junk_refuted.

(** C45 is false for them, too, if the hash function fails: the archive that was read so far is
    released twice (drpm_rpm.c lines 208-217). *)
Theorem C45_make_hash_refuted : exists ps,
  drpm_make true true true true false (mkst [] 0 ps odd_hash) = Bad FreeDead.
Proof. exists (good 11 ++ [2; 0; 1]). vm_compute. reflexivity. Qed.
Print Assumptions C45_make_hash_refuted.

(** C46 is false when it fails: if the version of the options does not fit, if the new package
    cannot be read, if its header does not name the format, if the delta cannot be written. *)
Theorem C46_make_refuted :
  leaks calm [] (drpm_make false true false true true) false /\
  leaks calm (good 14 ++ [1]) (drpm_make false false true true true) false /\
  leaks calm (good 27 ++ [1]) (drpm_make false false true true true) false /\
  leaks calm (good 58 ++ [1]) (drpm_make false false true true true) false.
Proof. repeat split; eexists; split; vm_compute; first [reflexivity | discriminate]. Qed.
Print Assumptions C46_make_refuted.
