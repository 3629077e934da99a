(** * PropsOwnPatches: what lists of patched files do to ownership (C45, C46) *)
From Verif Require Import Own OwnCodec OwnRpm OwnRead OwnMake OwnPatches SpecOwn OwnCases OwnPatchesProofs.
Require Import ZArith List.
Import ListNotations.
Open Scope Z_scope.

(** C45 is false whenever [drpm_make] is given lists of patched files and has memory for their struct: whatever the
    lists contain, whether they exist or not, and whatever the rest of it does, a pointer is used or released that was
    never set. *)
Theorem C45_patches_refuted : forall e ps rest, e_oom e = false -> broken e ps (make_patched false rest).
Proof. exact patched_broken. Qed.
Print Assumptions C45_patches_refuted.

(** If that memory happens to be zero, lists of files are read and everything is released; also if a list does not
    exist, or ends too early, or there are different names in the lists. *)
Definition no_files : list Z := good 12.
Definition two_files : list Z := good 7 ++ [1] ++ good 3 ++ [1] ++ good 7.
Example C45_patches_case :
  match make_patched true (ret true) (mkst [] 0 (no_files ++ good 2 ++ [0] ++ no_files) calm),
        make_patched true (ret true) (mkst [] 0 (no_files ++ good 2 ++ [0] ++ tl (tl two_files)) calm),
        make_patched true (ret true) (mkst [] 0 [1] calm),
        make_patched true (ret true) (mkst [] 0 [0; 1] calm),
        make_patched true (ret true) (mkst [] 0 (no_files ++ [1]) calm),
        make_patched true (ret true) (mkst [] 0 (no_files ++ good 13 ++ [1]) calm),
        make_patched false (ret true) (mkst [] 0 (no_files ++ good 2 ++ [0] ++ no_files) calm) with
  | Done a s, Done a1 s1, Done a2 s2, Done a3 s3, Done a4 s4, Done a5 s5, Bad b =>
      a = true /\ live s = [] /\ next s = 11 /\ a1 = true /\ live s1 = [] /\ next s1 = 17 /\
      a2 = false /\ live s2 = [] /\ a3 = false /\ live s3 = [] /\ a4 = false /\ live s4 = [] /\
      a5 = false /\ live s5 = [] /\ b = FreeJunk
  | _, _, _, _, _, _, _ => False
  end.
Proof. vm_compute. repeat split. Qed.

(** Even if that memory is zero, C45 is false of a list that ends inside the name of the package, which is released
    twice, and of one that ends inside the name of the second file, since the block of the first one is. *)
Theorem C45_patches_cut_refuted : exists ps ps', forall rest,
  make_patched true rest (mkst [] 0 ps calm) = Bad FreeDead /\
  make_patched true rest (mkst [] 0 ps' calm) = Bad FreeDead.
Proof.
  exists [0; 0; 0; 1], (good 7 ++ [1] ++ good 3 ++ [1] ++ [0; 0; 1]). intros rest. split; vm_compute; reflexivity.
Qed.
Print Assumptions C45_patches_cut_refuted.

(** The same for a package given as print, if a digest of a file with others behind it cannot be read: their names are
    released, but were never set. *)
Theorem C45_patches_package_refuted : exists ps, forall rest,
  make_patched true rest (mkst [] 0 ps calm) = Bad FreeJunk.
Proof. exists (no_files ++ good 2 ++ [1] ++ good 9 ++ [2; 1]). intros rest. vm_compute. reflexivity. Qed.
Print Assumptions C45_patches_package_refuted.

(** C46 is false of a list that ends inside the name of the first file: its block stays. *)
Theorem C46_patches_cut_refuted : exists ps, forall rest, leaks calm ps (make_patched true rest) false.
Proof. exists (good 11 ++ [1]). intros rest. eexists. split; [vm_compute; reflexivity|discriminate]. Qed.
Print Assumptions C46_patches_cut_refuted.

(** C46 is false of a package given as print, even if all goes well: the package and the table of its files stay. *)
Theorem C46_patches_refuted : exists ps, leaks calm ps (make_patched true (ret true)) true.
Proof. exists (no_files ++ good 2 ++ [1]). eexists. split; [vm_compute; reflexivity|discriminate]. Qed.
Print Assumptions C46_patches_refuted.
