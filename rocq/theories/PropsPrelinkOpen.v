(** * Property C49: undoing prelink *)
From Verif Require Import Base BaseLemmas SpecCodec Stream Rpm ToyLibs FileSys Prelink SpecPrelink Check SpecCheck CheckCases PrelinkOpen PrelinkOpenProofs.

(** C49: with a program, a temporary file and a process for it, the result is what is at the place for the output when the
    program has ended, and it is an error if nothing is there. *)
Theorem C49_result : forall h tmp filename template data,
  ho_mkstemp h = Some template -> tmp_find tmp template = None ->
  (snd (prelink_open h tmp filename) = Ok data <->
   ho_stat h = true /\ ho_fork h = true /\ ho_open h = true /\
   match ho_child h filename with NoExec => Some [] | Ended _ file => file end = Some data).
Proof. exact open_ok. Qed.
Print Assumptions C49_result.

(** C49: a file is left behind exactly if there is no process, or if the file is there but cannot be opened; never if the
    result is good.  Missing: it should never be left. *)
Theorem C49_left_partial : forall h tmp filename, (forall template, ho_mkstemp h = Some template -> tmp_find tmp template = None) ->
  (forall data, snd (prelink_open h tmp filename) = Ok data -> fst (prelink_open h tmp filename) = tmp) /\
  (fst (prelink_open h tmp filename) <> tmp <->
   ho_stat h = true /\ ho_mkstemp h <> None /\
   (ho_fork h = false \/
    (ho_fork h = true /\ ho_open h = false /\ match ho_child h filename with NoExec => Some [] | Ended _ file => file end <> None))).
Proof. exact open_left. Qed.
Print Assumptions C49_left_partial.

Theorem C49_left_refuted : exists h tmp filename, (forall template, ho_mkstemp h = Some template -> tmp_find tmp template = None) /\
  snd (prelink_open h tmp filename) = Err EOther /\ fst (prelink_open h tmp filename) <> tmp.
Proof.
  exists (mkhost true (Some [116]) false true (fun _ => NoExec)), [], [47; 97]. split; [reflexivity|].
  split; [reflexivity|]. vm_compute. discriminate.
Qed.
Print Assumptions C49_left_refuted.

(** C49: failures of prelink are not noticed: an empty file, or what it had written until then, counts as its output. *)
Theorem C49_status_refuted : exists h h' tmp filename, (forall template, ho_mkstemp h = Some template -> tmp_find tmp template = None) /\
  ho_mkstemp h' = ho_mkstemp h /\
  ho_child h filename = NoExec /\ snd (prelink_open h tmp filename) = Ok [] /\
  ho_child h' filename = Ended 1 (Some [127; 69]) /\ snd (prelink_open h' tmp filename) = Ok [127; 69].
Proof.
  exists (mkhost true (Some [116]) true true (fun _ => NoExec)), (mkhost true (Some [116]) true true (fun _ => Ended 1 (Some [127; 69]))), [], [47; 97].
  repeat split.
Qed.
Print Assumptions C49_status_refuted.

(** C49: so a prelinked file is reported as changed if prelink cannot be run (unless the recorded digest is that of the
    empty file). *)
Theorem C49_checks : forall L fs h tmp name sha digest filesize data size,
  hashes_ok L -> zlen digest = digest_len sha -> 0 < filesize ->
  fs_open fs name = Some data -> fs_stat fs name = Some size -> bytes data -> has_table data -> has_undo data -> ~ bad_names data -> filesize < size ->
  (forall template, ho_mkstemp h = Some template -> tmp_find tmp template = None) ->
  ho_stat h = true -> ho_mkstemp h <> None -> ho_fork h = true -> ho_open h = true -> ho_child h name = NoExec ->
  digest <> hash L sha [] ->
  let undo := fun n => snd (prelink_open h tmp n) in
  check_full L fs undo name sha digest filesize = Err EMismatch /\ check_filesize L fs undo name sha digest filesize = Err EMismatch.
Proof. exact failed_checks. Qed.
Print Assumptions C49_checks.

(** A directory with another file in it; prelink works, removes the file, cannot be run, is missing. *)
Example C49_case :
  let tmp := [([120], [1; 2])] in let a := [47; 97] in
  let host c := mkhost true (Some [116]) true true (fun n => if list_eqb n a then c else NoExec) in
  tmp_find tmp [116] = None /\
  prelink_open (host (Ended 0 (Some k_hello))) tmp a = (tmp, Ok k_hello) /\
  prelink_open (host (Ended 1 None)) tmp a = (tmp, Err EIo) /\
  prelink_open (host NoExec) tmp a = (tmp, Ok []) /\
  prelink_open (mkhost false (Some [116]) true true (fun _ => NoExec)) tmp a = (tmp, Err EOther) /\
  prelink_open (mkhost true None true true (fun _ => NoExec)) tmp a = (tmp, Err EIo) /\
  fst (prelink_open (mkhost true (Some [116]) true false (fun _ => NoExec)) tmp a) = ([116], []) :: tmp.
Proof. repeat split. Qed.
(** The prelinked file of C31 with the program working and not. *)
Example C49_case_checks :
  let a := [47; 97] in let d := toy_md5 k_hello in
  let undo c n := snd (prelink_open (mkhost true (Some [116]) true true (fun _ => c)) [] n) in
  bytes (elf_case 3 UNDO_NAME) /\ has_table (elf_case 3 UNDO_NAME) /\ has_undo (elf_case 3 UNDO_NAME) /\ ~ bad_names (elf_case 3 UNDO_NAME) /\
  fs_open p_fs a = Some (elf_case 3 UNDO_NAME) /\ fs_stat p_fs a = Some 210 /\ d <> hash toylibs false [] /\
  check_full toylibs p_fs (undo (Ended 0 (Some k_hello))) a false d 5 = Ok tt /\
  check_filesize toylibs p_fs (undo (Ended 0 (Some k_hello))) a false d 5 = Ok tt /\
  check_full toylibs p_fs (undo NoExec) a false d 5 = Err EMismatch.
Proof.
  cbn zeta. destruct elf_prelinked as (A & B & C & D). repeat (split; [assumption|]). split; [vm_compute; reflexivity|]. split; [reflexivity|].
  split; [vm_compute; discriminate|]. split; [vm_compute; reflexivity|]. split; vm_compute; reflexivity.
Qed.
