(** * SpecCheck: vocabulary for the checks of installed files *)
From Verif Require Import Base SpecPrelink Stream Rpm FileSys.

(** Files that prelink has nothing to do with: no ELF file with a section for undoing it (or with section names that
    the library cannot read). *)
Definition plain (data : list Z) : Prop := ~ (has_table data /\ (bad_names data \/ has_undo data)).
Definition plain_files (fs : fsys) : Prop := forall name data, fs_open fs name = Some data -> bytes data /\ plain data.
(** Files whose size is what can be read from them, no ELF files with section names that the library cannot read. *)
Definition sound_files (fs : fsys) : Prop := forall name data, fs_open fs name = Some data ->
  bytes data /\ fs_stat fs name = Some (zlen data) /\ ~ (has_table data /\ bad_names data).
Definition readable (fs : fsys) (name : list Z) : bool := match fs_open fs name with Some _ => true | None => false end.

Definition digest_len (sha : bool) : Z := if sha then 32 else 16.
Definition hash (L : libs) (sha : bool) (data : list Z) : list Z := if sha then lb_sha256 L data else lb_md5 L data.
Definition hashes_ok (L : libs) : Prop := forall x, zlen (lb_md5 L x) = 16 /\ zlen (lb_sha256 L x) = 32.
(** The digest of the beginning of a file is the recorded one. *)
Definition right_digest (L : libs) (sha : bool) (digest data : list Z) (filesize : Z) : res unit :=
  if list_eqb (hash L sha (slice data 0 filesize)) digest then Ok tt else Err EMismatch.
(** The contents that installed files stand for: prelinking is undone for files that are bigger than recorded and have the
    section for it. *)
Definition stands_for (fs : fsys) (unprelinked : list Z -> res (list Z)) (name : list Z) (filesize : Z) (contents : list Z) : Prop :=
  exists data, fs_open fs name = Some data /\
  ((filesize < zlen data /\ has_table data /\ has_undo data /\ unprelinked name = Ok contents) \/
   (~ (filesize < zlen data /\ has_table data /\ has_undo data) /\ contents = data)).
