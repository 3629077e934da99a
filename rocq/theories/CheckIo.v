(** * CheckIo: the checks of installed files, /repo/src/drpm_apply.c lines 322-424, when [read] fails or returns less than asked for

    The outcomes of successive calls of [read] are a list: failure, or the most that the call returns.  Calls that the list has no
    outcome for return all that is asked for.  Simplified: [pread] in [is_prelinked] neither fails nor returns less. *)
From Verif Require Import Base Utils Stream Rpm FileSys Prelink Check.

(** [read], POSIX: at least one byte unless at the end of the file, at most [len]. *)
Definition some_read (outs : list (option Z)) (data : list Z) (pos len : Z) : option (list Z) * list (option Z) :=
  match outs with
  | [] => (Some (slice data pos len), [])
  | None :: outs => (None, outs)
  | Some n :: outs => (Some (slice data pos (Z.min len (Z.max 1 n))), outs)
  end.

Section CheckIo.
Variable L : libs.
Variable fs : fsys.
Variable unprelinked : list Z -> res (list Z).

(** The loops of drpm_apply.c lines 361-367 and 399-405: what is added to the checksum, and whether the last [read_len] is
    negative. *)
Fixpoint io_loop (fuel : nat) (outs : list (option Z)) (data : list Z) (pos filesize : Z) : res (list Z * bool) :=
  match fuel with
  | O => NoFuel
  | S fuel =>
      if filesize <=? 0 then Ok ([], false)
      else
        match some_read outs data pos BUFFER_SIZE with
        | (None, _) => Ok ([], true)
        | (Some buf, outs) =>
            if zlen buf <=? 0 then Ok ([], false)
            else
              let part := if filesize <? zlen buf then slice buf 0 filesize else buf in
              '(rest, failed) <- io_loop fuel outs data (pos + zlen buf) (filesize - zlen part) ;;
              Ok (part ++ rest, failed)
        end
  end.

(** [check_prelink], drpm_apply.c lines 383-424. *)
Definition io_check_prelink (outs : list (option Z)) (name : list Z) (sha : bool) (digest : list Z) (filesize : Z) : res unit :=
  data <- unprelinked name ;;
  '(m, failed) <- io_loop (S (length data)) outs data 0 filesize ;;
  _ <- (if filesize <=? 0 then Ub Uninit else Ok tt) ;;
  if (failed : bool) then Err EIo
  else
    same <- same_digest sha (checksum L sha m) digest ;;
    if same then Ok tt else Err EMismatch.

(** [check_full], drpm_apply.c lines 322-381.  [outs] is for the reads of the file, [outs'] for those of the output of prelink.  The
    result of the last [read] is not looked at, nor is that of the one in line 346 if it is negative. *)
Definition io_check_full (outs outs' : list (option Z)) (name : list Z) (sha : bool) (digest : list Z) (filesize : Z) : res unit :=
  match fs_open fs name with
  | None => Err EIo
  | Some data =>
      let size := match fs_stat fs name with Some size => size | None => zlen data end in
      '(prelink, part, pos, outs) <-
        (if filesize <? size then
           match some_read outs data 0 BUFFER_SIZE with
           | (None, outs) => Ok (false, [], 0, outs)
           | (Some buf, outs) =>
               if 0 <? zlen buf then
                 prelink <- is_prelinked data buf ;;
                 Ok (prelink, if filesize <? zlen buf then slice buf 0 filesize else buf, zlen buf, outs)
               else Ok (false, [], 0, outs)
           end
         else Ok (false, [], 0, outs)) ;;
      if (prelink : bool) then io_check_prelink outs' name sha digest filesize
      else
        '(rest, _) <- io_loop (S (length data)) outs data pos (filesize - zlen part) ;;
        same <- same_digest sha (checksum L sha (part ++ rest)) digest ;;
        if same then Ok tt else Err EMismatch
  end.
End CheckIo.
