(** * SpecMakeSafe: packages that deltas can be made of without undefined behaviour (C44) *)
From Verif Require Import Base Rpm SpecArchive SpecApply.

(** Headers as librpm returns them: two counts and not more than 2 GiB. *)
Record librpm_sane (L : libs) : Prop := {
  ls_read : forall input h n, lb_read L input = Some (h, n) -> 8 <= zlen h < 2 ^ 31;
  ls_set : forall h fmt h', lb_setfmt L h fmt = Some h' -> 8 <= zlen h' < 2 ^ 31
}.

(** What is true of the archive and of the file list of a package, if there is any. *)
Definition of_package (L : libs) (file : list Z) (P : list Z -> list file_info -> Prop) : Prop :=
  forall r comp seq full whole, rpm_read L file ReadDecomp whole = Ok (r, comp, seq, full) ->
  P (rp_archive r) [] /\ forall files colors, rpm_get_file_info L true r = Ok (files, colors) -> P (rp_archive r) files.

(** The old archive and its files are in order and smaller than 4 GiB. *)
Definition sound_source (archive : list Z) (files : list file_info) : Prop := zlen archive < 2 ^ 32 /\ sound_files archive files.

(** The new archive is not shorter than the unit of comparison, unless it is empty. *)
Definition sound_target (archive : list Z) (files : list file_info) : Prop :=
  zlen archive < 2 ^ 62 /\ (archive = [] \/ 16 <= zlen archive).

(** The old and the new package; a single one is both. *)
Definition source_file (old new : option (list Z)) : option (list Z) := match old with Some f => Some f | None => new end.
Definition target_file (old new : option (list Z)) : option (list Z) := match new with Some f => Some f | None => old end.
