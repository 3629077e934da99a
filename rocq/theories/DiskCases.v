(** * DiskCases: concrete runs on full disks *)
From Verif Require Import Base FileSys Utils DeltaComp Stream Rpm Delta DeltaWrite DeltaRead Make Apply SpecMake DiskOut ToyLibs ApplyCases MakeCases.

(** The delta of ApplyCases: length of the file, result, whether a write took too little. *)
Definition disk_toy (grants : list grant) : Z * res unit * bool :=
  let '(k, r) := disk_apply toylibs (fun _ => Err ENoInstall) no_files (fun _ => Err EIo) 0 (Some old_file) (written good_delta) (mkdisk [] grants false) in
  (zlen (dk_file k), r, dk_short k).

(** The delta of a package to itself, with a sequence file. *)
Definition self_make (delta_grants seq_grants : list grant) : disk * option disk * res unit :=
  disk_make mlibs (Some (m_options true 3 true true)) (Some (package_file m_plain)) None true delta_grants seq_grants.
Definition self_delta : disk := Eval vm_compute in fst (fst (self_make [] [])).
Definition self_text : list Z := Eval vm_compute in
  match snd (fst (self_make [] [])) with Some q => dk_file q | None => [] end.
