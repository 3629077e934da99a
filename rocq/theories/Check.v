(** * Check: models of the checks of installed files, /repo/src/drpm_apply.c lines 283-484

    The checks have the form expected by [expand_sequence]: name, whether the digest is SHA-256, recorded digest and
    size. *)
From Verif Require Import Base Utils Stream Rpm FileSys Prelink.

Section Check.
Variable L : libs.
Variable fs : fsys.
(** [prelink_open], drpm_apply.c lines 623-663: the output of "prelink -u" for a file. *)
Variable unprelinked : list Z -> res (list Z).

(** [BUFFER_SIZE], drpm_apply.c line 36. *)
Definition BUFFER_SIZE : Z := 4096.

(** [checksum_init] ... [checksum_final], drpm_apply.c lines 428-480, of all that was passed to [checksum_update]. *)
Definition checksum (sha : bool) (data : list Z) : list Z := if sha then lb_sha256 L data else lb_md5 L data.
(** [memcmp] of a digest with the recorded one over [checksum_digest_len], drpm_apply.c lines 372 and 415. *)
Definition same_digest (sha : bool) (a b : list Z) : res bool :=
  let n := if sha then 32 else 16 in
  a <- rd_range a 0 n ;; b <- rd_range b 0 n ;; Ok (list_eqb a b).

(** The loops of drpm_apply.c lines 361-367 and 399-405: what is added to the checksum of the file [data] from
    offset [pos] on; [filesize] bytes are still wanted. *)
Fixpoint read_loop (fuel : nat) (data : list Z) (pos filesize : Z) : res (list Z) :=
  match fuel with
  | O => NoFuel
  | S fuel =>
      if filesize <=? 0 then Ok []
      else
        let buf := slice data pos BUFFER_SIZE in
        if zlen buf <=? 0 then Ok []
        else
          let part := if filesize <? zlen buf then slice buf 0 filesize else buf in
          rest <- read_loop fuel data (pos + zlen buf) (filesize - zlen part) ;;
          Ok (part ++ rest)
  end.
Definition read_file (data : list Z) (pos filesize : Z) : res (list Z) := read_loop (S (length data)) data pos filesize.

(** [check_prelink], drpm_apply.c lines 383-424.  Line 406 looks at [read_len], which was never set if the recorded size is 0
    (the callers are only used with sizes that are not, line 208). *)
Definition check_prelink (name : list Z) (sha : bool) (digest : list Z) (filesize : Z) : res unit :=
  data <- unprelinked name ;;
  m <- read_file data 0 filesize ;;
  _ <- (if filesize <=? 0 then Ub Uninit else Ok tt) ;;
  same <- same_digest sha (checksum sha m) digest ;;
  if same then Ok tt else Err EMismatch.

(** [check_filesize], drpm_apply.c lines 285-320.  (The descriptor is not closed if [is_prelinked] fails.) *)
Definition check_filesize (name : list Z) (sha : bool) (digest : list Z) (filesize : Z) : res unit :=
  match fs_stat fs name with
  | None => Err ENoInstall
  | Some size =>
      if size =? filesize then Ok tt
      else if filesize <? size then
        match fs_open fs name with
        | None => Err EIo
        | Some data =>
            let buf := slice data 0 128 in
            prelink <- (if 0 <? zlen buf then is_prelinked data buf else Ok false) ;;
            if prelink then check_prelink name sha digest filesize else Err EMismatch
        end
      else Err EMismatch
  end.

(** [check_full], drpm_apply.c lines 322-381.  [fstat] of the opened file is taken not to fail. *)
Definition check_full (name : list Z) (sha : bool) (digest : list Z) (filesize : Z) : res unit :=
  match fs_open fs name with
  | None => Err EIo
  | Some data =>
      let size := match fs_stat fs name with Some size => size | None => zlen data end in
      let buf := slice data 0 BUFFER_SIZE in
      '(prelink, part, pos) <-
        (if (filesize <? size) && (0 <? zlen buf) then
           prelink <- is_prelinked data buf ;;
           Ok (prelink, if filesize <? zlen buf then slice buf 0 filesize else buf, zlen buf)
         else Ok (false, [], 0)) ;;
      if prelink then check_prelink name sha digest filesize
      else
        rest <- read_file data pos (filesize - zlen part) ;;
        same <- same_digest sha (checksum sha (part ++ rest)) digest ;;
        if same then Ok tt else Err EMismatch
  end.
End Check.
