(** * PropsOwn: resources are released once (C45) and not forgotten (C46) *)
From Verif Require Import Own OwnCodec OwnRpm OwnRead OwnClient OwnCheck SpecOwn OwnFinal OwnCases.
Require Import ZArith List.
Import ListNotations.
Open Scope Z_scope.

(** C45: programs that read deltas, ask about them, and make options, whatever fails
    (allocations, hash functions, reads, codecs, librpm): in every order of calls nothing is
    released twice or used after its release, and no pointer that was not set is used. *)
Theorem C45_clients : forall e ps calls, sound e ps (execs nobody calls).
Proof. exact clients_sound. Qed.
Print Assumptions C45_clients.

(** An execution in which nothing fails, one in which the second read fails without memory:
    something is alive at the end of both. *)
Example C45_clients_case :
  match execs nobody program (mkst [] 0 [] wild), execs nobody program (mkst [] 0 (good 120 ++ [1; 1; 1]) wild) with
  | Done c s, Done c' s' =>
      c_failed c = false /\ length (live s) = 17%nat /\ c_failed c' = true /\ length (live s') = 17%nat
  | _, _ => False
  end.
Proof. vm_compute. repeat split. Qed.

(** C45: checking a sequence against a package file, whatever fails. *)
Theorem C45_sequence_package : forall e ps, sound e ps (drpm_check_sequence false CNone).
Proof. exact sequence_package_sound. Qed.
Print Assumptions C45_sequence_package.

(** C45: checking a sequence or a delta against the installed files, in all modes, as long as
    memory is there, the hash functions work, and section tables make sense. *)
Theorem C45_sequence_installed_partial : forall ps mode, sound calm ps (drpm_check_sequence true mode).
Proof. exact sequence_sound. Qed.
Print Assumptions C45_sequence_installed_partial.
Theorem C45_check_partial : forall ps mode, sound calm ps (drpm_check mode).
Proof. exact check_sound. Qed.
Print Assumptions C45_check_partial.

(** Executions of both kinds: with a file that is as it was, with one that is not. *)
Example C45_check_case :
  (exists s, drpm_check_sequence false CNone (mkst [] 0 (good 11 ++ [2; 0; 0; 2; 0; 0; 0; 0]) wild) = Done true s) /\
  (exists s, drpm_check_sequence true CSize (mkst [] 0 same_file calm) = Done true s) /\
  (exists s, drpm_check_sequence true CSize (mkst [] 0 prelinked_file calm) = Done true s) /\
  (exists s, drpm_check_sequence true CSize (mkst [] 0 odd_file calm) = Done false s) /\
  (exists s, drpm_check CFull (mkst [] 0 [] calm) = Done true s).
Proof. repeat split; eexists; vm_compute; reflexivity. Qed.

(** C45 is false without memory: [rpm_read_header] then releases pointers that were never set
    (drpm_rpm.c line 1021), or a header that belongs to the iterator (line 1073). *)
Theorem C45_header_junk_refuted : exists ps,
  drpm_check_sequence true CNone (mkst [] 0 ps no_memory) = Bad FreeJunk.
Proof. exists (good 5 ++ [1]). vm_compute. reflexivity. Qed.
Print Assumptions C45_header_junk_refuted.
Theorem C45_header_twice_refuted : exists ps,
  drpm_check_sequence true CNone (mkst [] 0 ps no_memory) = Bad FreeDead.
Proof. exists (good 9 ++ [1]). vm_compute. reflexivity. Qed.
Print Assumptions C45_header_twice_refuted.

(** C45 is false for some section tables: [is_prelinked] releases a pointer into a block. *)
Theorem C45_section_table_refuted : exists ps,
  drpm_check_sequence true CSize (mkst [] 0 ps odd_elf) = Bad FreeJunk.
Proof. exists odd_file. vm_compute. reflexivity. Qed.
Print Assumptions C45_section_table_refuted.

(** C45 is false for [drpm_make_options_destroy] if the variable holds a null pointer, as it
    does after a call of that function. *)
Theorem C45_options_destroy_refuted : exists o s,
  bind options_init (fun p => options_destroy (snd p)) (mkst [] 0 [] calm) = Done o s /\
  options_destroy o s = Bad UseNull.
Proof. do 2 eexists. split; vm_compute; reflexivity. Qed.
Print Assumptions C45_options_destroy_refuted.

(** C46: programs in which no [drpm_read] fails can release everything: handles, options, and
    the blocks they were given; whatever else fails. *)
Theorem C46_clients_partial : forall e ps calls, clean e ps (whole calls) (fun failed => failed = false).
Proof. exact clients_clean. Qed.
Print Assumptions C46_clients_partial.

Example C46_clients_case :
  match execs nobody program (mkst [] 0 (good 93 ++ [1]) wild), whole program (mkst [] 0 (good 93 ++ [1]) wild) with
  | Done c s, Done failed s' => (10 < length (live s))%nat /\ failed = false /\ live s' = []
  | _, _ => False
  end.
Proof. vm_compute. repeat split. repeat constructor. Qed.

(** C46: checking a sequence against a package leaves nothing, whatever fails. *)
Theorem C46_sequence_package : forall e ps, clean e ps (drpm_check_sequence false CNone) (fun _ => True).
Proof. exact sequence_package. Qed.
Print Assumptions C46_sequence_package.

(** C46 is false for [drpm_read]: when it fails, it can leave a package behind. *)
Theorem C46_read_refuted : exists ps, leaks calm ps drpm_read (false, drpm_null).
Proof. exists (good 3 ++ [1]). eexists. split; vm_compute; [reflexivity|discriminate]. Qed.
Print Assumptions C46_read_refuted.

(** C46 is false for every successful check of an installed package: the exported header is
    released on no path.  Everything else is. *)
Theorem C46_sequence_installed_refuted : forall ps mode s,
  drpm_check_sequence true mode (mkst [] 0 ps calm) = Done true s -> exists n, live s = [n].
Proof. exact sequence_leaks. Qed.
Print Assumptions C46_sequence_installed_refuted.
Theorem C46_check_refuted : forall ps mode s,
  drpm_check mode (mkst [] 0 ps calm) = Done true s -> exists n, live s = [n].
Proof. exact check_leaks. Qed.
Print Assumptions C46_check_refuted.
Example C46_installed_case :
  leaks calm same_file (drpm_check_sequence true CSize) true /\ leaks calm [] (drpm_check CFull) true.
Proof. split; eexists; split; vm_compute; first [reflexivity | discriminate]. Qed.
