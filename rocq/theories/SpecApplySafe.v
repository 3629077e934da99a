(** * Specification: installed packages that a standard delta can be applied to without undefined behaviour *)
From Verif Require Import Base Rpm Seq SpecArchive SpecFs.

(** File table of an installed package: sizes of RPM, digests no longer than in any RPM. *)
Record sound_table (files : list file_info) : Prop := {
  st_wf : Forall wf_file files;
  st_md5 : Forall (fun f => zlen (fi_md5 f) <= 65) files;
  st_count : zlen files < 2 ^ 30
}.

(** A sequence that some list of the files, none more often than there are files, is encoded to, where the index of a file
    with contents is less than the length of the list. *)
Definition lists_placed (files : list file_info) (sequence : list Z) : Prop :=
  exists l digest code, Forall (fun i => 0 <= i < zlen files) l /\ zlen l <= zlen files /\
    zlen digest = 16 /\ seq_encode l = Ok code /\ sequence = digest ++ code /\
    forall i f, In i l -> rd files i = Ok f -> has_data f -> i < zlen l.
