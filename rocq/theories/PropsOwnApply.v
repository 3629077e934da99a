(** * PropsOwnApply: what [drpm_apply] releases (C45) and forgets (C46) *)
From Verif Require Import Own OwnCodec OwnRpm OwnRead OwnBlocks OwnApply SpecOwn OwnCases.
From Verif Require Import OwnApplyFinal OwnPage.
Require Import ZArith List.
Import ListNotations.
Open Scope Z_scope.

(** C45: applying a delta to an old package that is given as a file, with any limits on the
    blocks in memory and on the open files, as long as there is memory and blocks can be moved
    to a temporary file, whatever else fails: nothing is released twice or used after its
    release, no pointer is used that was not set. *)
Theorem C45_apply_partial : forall e ps lim mo add,
  0 < lim -> 0 < mo -> e_oom e = false -> e_page e = false ->
  sound e ps (drpm_apply lim mo true add).
Proof. exact apply_package_sound. Qed.
Print Assumptions C45_apply_partial.

(** The same for an installed package, if the hash functions, the section tables of files and
    [prelink] are good, too. *)
Theorem C45_apply_installed_partial : forall ps lim mo add,
  0 < lim -> 0 < mo -> sound calm ps (drpm_apply lim mo false add).
Proof. exact apply_installed_sound. Qed.
Print Assumptions C45_apply_installed_partial.

(** C46: when it succeeds with a package that is given as a file, it leaves nothing. *)
Theorem C46_apply_partial : forall e ps lim mo add,
  0 < lim -> 0 < mo -> e_oom e = false -> e_page e = false ->
  clean e ps (drpm_apply lim mo true add) (fun ok => ok = true).
Proof. exact apply_package. Qed.
Print Assumptions C46_apply_partial.

(** Both kinds of deltas can be applied to a package, both to one that is installed; with two
    internal copies of two external ones each, that read the archive or files, with one block
    and one file at a time, prelinked ones included; after a failure nothing is left. *)
Definition archive_part : list Z := good 97 ++ [2; 2; 0; 0; 0; 1; 2; 0; 0; 1; 2].
Definition archive : list Z := archive_part ++ good 14 ++ [1].
Definition files : list Z := good 89 ++ [2; 2; 0; 0; 0; 1; 0; 2; 0; 1] ++ good 9 ++ [1].
Definition runs (m : M bool) (ps : list Z) : option (bool * Z * nat) :=
  match m (mkst [] 0 ps calm) with Done a s => Some (a, next s, length (live s)) | _ => None end.
Example C45_apply_case :
  runs (drpm_apply 5000 50 true true) [] = Some (true, 58, 0%nat) /\
  runs (drpm_apply 5000 50 true true) ([0; 0; 0; 1] ++ good 46 ++ [1]) = Some (true, 28, 0%nat) /\
  runs (drpm_apply 5000 50 true true) archive = Some (true, 66, 0%nat) /\
  runs (drpm_apply 1 1 true true) archive = Some (true, 63, 0%nat) /\
  runs (drpm_apply 5000 50 true true) (archive_part ++ good 13 ++ [1]) =
    Some (false, 62, 0%nat) /\
  runs (drpm_apply 5000 50 false true) files = Some (true, 72, 1%nat) /\
  runs (drpm_apply 1 1 false true) files = Some (true, 70, 1%nat).
Proof. vm_compute. repeat split. Qed.

(** C46 is false for an installed package, however the delta is applied: the exported header
    is always left ([rpm_read_header] in drpm_rpm.c), and nothing else. *)
Theorem C46_apply_installed_refuted : forall ps lim mo add s,
  0 < lim -> 0 < mo -> drpm_apply lim mo false add (mkst [] 0 ps calm) = Done true s ->
  exists n, live s = [n].
Proof. exact apply_installed_left. Qed.
Print Assumptions C46_apply_installed_refuted.
Theorem C46_apply_installed_case_refuted : leaks calm [] (drpm_apply 5000 50 false true) true.
Proof. eexists; split; vm_compute; [reflexivity | discriminate]. Qed.
Print Assumptions C46_apply_installed_case_refuted.

(** C46 is false for RPM-only deltas and deltas of source packages if no old package is given:
    [drpm_apply] then returns without releasing anything (drpm.c lines 573-577). *)
Theorem C46_apply_early_refuted :
  leaks calm ([0; 0; 0; 1] ++ good 46 ++ [1]) (drpm_apply 5000 50 false true) false /\
  leaks calm (good 63 ++ [1]) (drpm_apply 5000 50 false true) false.
Proof. split; eexists; split; vm_compute; first [reflexivity | discriminate]. Qed.
Print Assumptions C46_apply_early_refuted.

(** C46 is false when the delta cannot be read, and when the compression of the new package
    cannot be started. *)
Theorem C46_apply_refuted :
  leaks calm (good 4 ++ [1]) (drpm_apply 5000 50 true true) false /\
  leaks calm (good 9 ++ [1]) (drpm_apply 5000 50 true true) false /\
  leaks calm (good 96 ++ [1; 1]) (drpm_apply 5000 50 true true) false.
Proof. repeat split; eexists; split; vm_compute; first [reflexivity | discriminate]. Qed.
Print Assumptions C46_apply_refuted.

(** C45 is false without memory for the tables of blocks: what [blocks_create] released is used
    by [blocks_destroy] (drpm_block.c lines 167-230); for the header of the target: librpm is
    given a null pointer; for the compressed data of the target: they are released twice
    (drpm_write.c lines 379-382). *)
Theorem C45_apply_memory_refuted : exists ps ps' ps'',
  drpm_apply 5000 50 true true (mkst [] 0 ps no_memory) = Bad UseDead /\
  drpm_apply 5000 50 true true (mkst [] 0 ps' no_memory) = Bad UseNull /\
  drpm_apply 5000 50 true true (mkst [] 0 ps'' no_memory) = Bad FreeDead.
Proof.
  exists (good 107 ++ [1]), (good 118 ++ [1]), (good 132 ++ [1]).
  repeat split; vm_compute; reflexivity.
Qed.
Print Assumptions C45_apply_memory_refuted.

(** C45 is false if there is no temporary file for the blocks that do not fit, whatever the
    limit is (5000 in the program): the block that could not be written is released and stays
    in its list ([write_page_block]). *)
Theorem C45_apply_page_refuted : forall lim mo,
  0 < lim -> exists ps, broken no_page ps (drpm_apply lim mo true true).
Proof. exact page_broken. Qed.
Print Assumptions C45_apply_page_refuted.
(** What happens with room for one block. *)
Example C45_apply_page_case : exists ps,
  drpm_apply 1 50 true true (mkst [] 0 ps no_page) = Bad UseDead.
Proof.
  exists (good 97 ++ [1; 2] ++ good 11 ++ [1; 0; 0; 1; 0; 0; 1; 0; 0; 1]). vm_compute. reflexivity.
Qed.

(** C45 is false for installed files if [prelink] cannot undo its work: the descriptor that was
    closed before is closed again ([fillblock_prelink]); and if the section table of a file
    is not there, as in C45_section_table_refuted. *)
Theorem C45_apply_prelink_refuted : exists ps ps',
  drpm_apply 5000 50 false true (mkst [] 0 ps no_undo) = Bad FreeDead /\
  drpm_apply 5000 50 false true (mkst [] 0 ps' odd_elf) = Bad FreeJunk.
Proof.
  exists (good 89 ++ [1; 1; 0; 0; 0; 1; 0; 1; 0; 1] ++ good 9 ++ [1] ++ good 8 ++ [1]),
         (good 89 ++ [1; 1; 0; 0; 0; 1; 0; 1; 0; 1] ++ good 5 ++ [1]).
  split; vm_compute; reflexivity.
Qed.
Print Assumptions C45_apply_prelink_refuted.
