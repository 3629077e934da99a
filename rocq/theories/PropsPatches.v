(** * Property C37: lists of patched files

    Specification vocabulary: [SpecPatches]. *)
From Verif Require Import Base BaseLemmas Utils Rpm Expand Archive Seq ToyLibs Patches SpecPatches PatchesProofs.

(** C37 is false of every list, as reading two lists is undefined behaviour whatever they contain, even if one of the
    files cannot be opened: it depends on memory that was never set. *)
Theorem C37_reading_refuted : forall L print patch, exists u, patches_read L false print patch = Ub u.
Proof. exact patches_undefined. Qed.
Print Assumptions C37_reading_refuted.

(** A list without files would be read if this memory was zero. *)
Example C37_reading_case :
  let p := w_list (mkpl [97] [49; 45; 49] [] 5 [] [] []) in
  patches_read toylibs false (Some p) (Some p) = Ub Uninit /\
  patches_read toylibs true (Some p) (Some p) = Ok (mkpi [97; 45; 49; 45; 49] (Some []), mkpi [97; 45; 49; 45; 49] (Some [])).
Proof. cbn zeta. split; vm_compute; reflexivity. Qed.

(** Names of files that are not patched are read, if this memory was zero and patches have no names. *)
Example C37_names_case :
  read_rpmlist true (w_list (mkpl [97] [49; 45; 49] [] 5 [[]] [[98]; [99; 100]] [mkls [98] 16877 0 (zeros 16)])) =
    Ok (mkpi [97; 45; 49; 45; 49] (Some [mkpf [Some 98; Some 0] 32768 1024 (zeros 16);
      mkpf [Some 99; Some 100; Some 0] 32768 1024 (zeros 16); mkpf [None; None] 16877 0 (zeros 16)])) /\
  (let p := Some (w_list (mkpl [97] [49; 45; 49] [] 5 [] [] [])) in
   patches_read toylibs true (Some [1; 2; 3]) p = Err EIo /\ patches_read toylibs true (Some [1; 2; 3; 4]) p = Err EFormat).
Proof. cbn zeta. repeat split; vm_compute; reflexivity. Qed.

Ltac written :=
  unfold wf_plist, text; cbn [pl_name pl_evr pl_host pl_time pl_patches pl_unpatched pl_files ls_name ls_mode ls_size ls_md5];
  repeat match goal with
  | |- _ /\ _ => split
  | |- Forall _ _ => constructor
  | |- _ -> _ => intros
  | |- [] = [] \/ _ => left; reflexivity
  | |- _ \/ _ => right
  | |- _ => first [discriminate | reflexivity | lia | (vm_compute; first [reflexivity | discriminate | intuition discriminate])]
  end.

(** Even then a list with the name of the build host is not read: the name is not skipped. *)
Theorem C37_host_refuted : exists p, wf_plist p /\ pl_files p = [] /\ pl_patches p = [] /\ read_rpmlist true (w_list p) = Err EFormat.
Proof. exists (mkpl [97] [49; 45; 49] [104] 5 [] [] []). split; [written|]. split; [reflexivity|]. split; vm_compute; reflexivity. Qed.
Print Assumptions C37_host_refuted.

(** Neither is a list with a file that has an MD5: the MD5 is not read. *)
Theorem C37_md5_refuted : exists p, wf_plist p /\ pl_host p = [] /\ pl_patches p = [] /\ read_rpmlist true (w_list p) = Err EFormat.
Proof.
  exists (mkpl [97] [49; 45; 49] [] 5 [] [] [mkls [98] 33188 5 (repeat 7 16)]).
  split; [written|]. split; [reflexivity|]. split; vm_compute; reflexivity.
Qed.
Print Assumptions C37_md5_refuted.

(** What is read of a directory has no name: comparing it uses memory that was never set. *)
Theorem C37_name_refuted : exists p l name, wf_plist p /\ pl_host p = [] /\ pl_patches p = [] /\
  read_rpmlist true (w_list p) = Ok (mkpi (pl_name p ++ [45] ++ pl_evr p) (Some l)) /\ zlen l = zlen (pl_files p) /\
  forall md5, is_unpatched l l name md5 = Ub Uninit.
Proof.
  exists (mkpl [97] [49; 45; 49] [] 5 [] [] [mkls [98] 16877 0 (zeros 16)]), [mkpf [None; None] 16877 0 (zeros 16)], [98].
  split; [written|]. split; [reflexivity|]. split; [reflexivity|]. split; [vm_compute; reflexivity|]. split; [reflexivity|].
  intros md5. reflexivity.
Qed.
Print Assumptions C37_name_refuted.

(** The list of all files may be an RPM: its files are never read, as the memory for them is too short. *)
Theorem C37_rpm_refuted : forall l, l <> [] -> ~ is_ok (print_files (zlen l) 0 l).
Proof. exact print_undefined. Qed.
Print Assumptions C37_rpm_refuted.

(** C37, the use of lists: a file counts as not patched if the list of all files says so and the list of the patch has
    no file of the name with the same MD5.  Missing: the lists are not what was read, as they cannot be read. *)
Theorem C37_unpatched_partial : forall ps qs name md5,
  Forall (fun x => Forall (fun c => c <> 0) (fst (fst x))) ps -> Forall (fun x => Forall (fun c => c <> 0) (fst (fst x))) qs ->
  Forall (fun x => zlen (snd x) = 16 /\ Forall (fun b => 0 <= b < 256) (snd x)) qs -> Forall (fun b => 0 <= b < 256) md5 ->
  exists b, is_unpatched (map stored_file ps) (map stored_file qs) name (hex_text md5) = Ok b /\
  (b = true <-> exists flags m, first_named ps name = Some (flags, m) /\ Z.testbit flags 10 = true /\
     match first_named qs name with None => True | Some (_, m') => m' <> md5 end).
Proof. exact unpatched_ok. Qed.
Print Assumptions C37_unpatched_partial.

Example C37_unpatched_case :
  let ps := map stored_file [([97], 0, zeros 16); ([98; 99], 1024, zeros 16); ([99], 1025, zeros 16)] in
  let qs := map stored_file [([97], 0, zeros 16); ([98; 99], 0, repeat 171 16)] in
  map (fun '(n, m) => is_unpatched ps qs n (hex_text m))
    [([97], zeros 16); ([98; 99], zeros 16); ([98; 99], repeat 171 16); ([99], zeros 16); ([100], zeros 16)] =
  [Ok false; Ok true; Ok false; Ok true; Ok false].
Proof. cbn zeta. vm_compute. reflexivity. Qed.
