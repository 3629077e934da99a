(** * FileSys: the installed files as the library sees them *)
From Verif Require Import Base.

(** What [stat] says about the size of a file ([None]: it fails), and what can be read from a file
    that was opened ([None]: it cannot be opened).  Simplified: every [read] returns as much as was
    asked for until the end of the file, none fails, and nothing changes while the library runs. *)
Record fsys := mkfs { fs_stat : list Z -> option Z; fs_open : list Z -> option (list Z) }.

(** [pread(fd, buf, len, off)]: [None] if less than [len] bytes were read. *)
Definition pread (data : list Z) (len off : Z) : option (list Z) :=
  if (off <? 0) || (zlen data <? off + len) then None else Some (slice data off len).

(** Nothing is installed. *)
Definition no_files : fsys := mkfs (fun _ => None) (fun _ => None).
