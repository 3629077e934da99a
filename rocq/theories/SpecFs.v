(** * SpecFs: the archive that installed files stand for *)
From Verif Require Import Base CpioHeader Rpm Expand Archive SpecArchive FileSys Prelink SpecBlocks.

Section Installed.
Variable fs : fsys.
(** What "prelink -u" puts out for a file. *)
Variable unprelinked : list Z -> res (list Z).

(** The file has not the recorded size, and a section that says that it is prelinked. *)
Definition looks_prelinked (f : file_info) : bool :=
  match fs_open fs (fi_name f), fs_stat fs (fi_name f) with
  | Some d, Some size => negb (size =? fi_size f) && match is_prelinked d (slice d 0 128) with Ok p => p | _ => false end
  | _, _ => false
  end.

(** The installed contents of a file, as far as its recorded size goes; prelinking is undone. *)
Definition installed_data (f : file_info) : list Z :=
  if looks_prelinked f then match unprelinked (fi_name f) with Ok d => slice d 0 (fi_size f) | _ => [] end
  else match fs_open fs (fi_name f) with Some d => slice d 0 (fi_size f) | None => [] end.

(** Normalised entry of a file with its installed contents, and the archive of some files. *)
Definition fs_head (f : file_info) : list Z := new_head f (skip_slash (fi_name f)).
Definition fs_body (f : file_info) : list Z := new_body f (if S_ISREG (fi_mode f) then installed_data f else []).
Definition fs_entries (fl : list file_info) : list Z := concat (map (fun f => fs_head f ++ fs_body f) fl).
Definition fs_archive (fl : list file_info) : list Z := fs_entries fl ++ trailer.

(** A file that has contents to be read. *)
Definition has_data (f : file_info) : Prop := S_ISREG (fi_mode f) = true /\ fi_size f <> 0.

(** It can be opened and has at least the recorded size, where prelinking can be undone if it looks prelinked. *)
Definition readable_file (f : file_info) : Prop :=
  exists d, fs_open fs (fi_name f) = Some d /\
    if looks_prelinked f then exists u, unprelinked (fi_name f) = Ok u /\ fi_size f <= zlen u
    else fi_size f <= zlen d /\ (fs_stat fs (fi_name f) = Some (fi_size f) \/ is_prelinked d (slice d 0 128) = Ok false).

(** Padded lengths fit 32 bits. *)
Definition fits (f : file_info) : Prop :=
  if S_ISREG (fi_mode f) then fi_size f <= 2 ^ 32 - 4
  else if S_ISLNK (fi_mode f) then zlen (fi_linkto f) <= 2 ^ 32 - 4 else True.

(** No block starts inside the target of a symbolic link. *)
Definition whole_links (fl : list file_info) : Prop :=
  forall before f later, fl = before ++ f :: later -> S_ISLNK (fi_mode f) = true ->
  let start := zlen (fs_entries before ++ fs_head f) in
  forall q, ~ (start < q * BS < start + zlen (fi_linkto f)).
End Installed.
