(** * Ident: models of the code that takes package and sequence identifiers apart, /repo/src/drpm_rpm.c
    ([rpm_read_header]) and /repo/src/drpm.c ([drpm_check_sequence])

    C strings are lists without the terminating NUL. *)
From Verif Require Import Base Utils Stream Rpm Seq Expand.

(** [strrchr] (libc): offset of the last [c]. *)
Fixpoint strrchr (s : list Z) (c : Z) : option Z :=
  match s with
  | [] => None
  | x :: r => match strrchr r c with
              | Some i => Some (i + 1)
              | None => if x =? c then Some 0 else None
              end
  end.

(** Name, epoch, version and release as looked up in the database. *)
Record nevr_parts := mkparts { np_name : list Z; np_epoch : option (list Z); np_version : list Z; np_release : list Z }.

(** Splitting of the identifier, drpm_rpm.c lines 1026-1054.  Each separator found is overwritten by NUL, which
    ends the string searched next. *)
Definition split_nevr (nevr : list Z) : res nevr_parts :=
  match strrchr nevr 45 with
  | None => Err EFormat
  | Some r =>
      if r =? 0 then Err EFormat else
      let release := from nevr (r + 1) in
      let str := slice nevr 0 r in
      match strrchr str 58 with
      | None =>
          match strrchr str 45 with
          | None => Err EFormat
          | Some v =>
              if v =? 0 then Err EFormat
              else Ok (mkparts (slice str 0 v) None (from str (v + 1)) release)
          end
      | Some v =>
          if v =? 0 then Err EFormat else
          let version := from str (v + 1) in
          let str := slice str 0 v in
          match strrchr str 45 with
          | None => Err EFormat
          | Some e =>
              if e =? 0 then Err EFormat
              else Ok (mkparts (slice str 0 e) (Some (from str (e + 1))) version release)
          end
      end
  end.

(** [rpm_read_header] without an architecture, drpm_rpm.c lines 1000-1090.  [db] is the first match of the
    database iterator: the header, exported and imported again.  An RPM without lead and signature results. *)
Definition rpm_read_header (db : nevr_parts -> option (list Z)) (nevr : list Z) : res rpm :=
  p <- split_nevr nevr ;;
  match db p with
  | None => Err ENoInstall
  | Some hdr => Ok (mkrpm [] [] hdr [] 0 0)
  end.

(** Splitting of a sequence identifier, drpm.c lines 861-882. *)
Definition split_sequence (sequence : list Z) : res (list Z * list Z) :=
  match strrchr sequence 45 with
  | None => Err EFormat
  | Some i =>
      if i =? 0 then Err EFormat else
      let hex := from sequence (i + 1) in
      let seq_len := zlen hex / 2 in
      if seq_len <? 16 then Err EFormat else
      r <- parse_hex hex seq_len ;;
      match r with
      | None => Err EFormat
      | Some seq => if zlen seq =? seq_len then Ok (slice sequence 0 i, seq) else Err EFormat
      end
  end.

(** [DRPM_CHECK_NONE], [DRPM_CHECK_FULL], [DRPM_CHECK_FILESIZES], drpm.h. *)
Definition CHECK_NONE : Z := 0.
Definition CHECK_FULL : Z := 1.
Definition CHECK_FILESIZES : Z := 2.

Section CheckSequence.
Variable L : libs.
Variable db : nevr_parts -> option (list Z).
(** [check_full] and [check_filesize], drpm_apply.c lines 285-381. *)
Variable full filesizes : list Z -> bool -> list Z -> Z -> res unit.

(** The switch of drpm_apply.c lines 92-105. *)
Definition check_of (mode : Z) : option (list Z -> bool -> list Z -> Z -> res unit) :=
  if mode =? CHECK_FULL then Some full else if mode =? CHECK_FILESIZES then Some filesizes else None.

(** [drpm_check_sequence], drpm.c lines 837-928.  [old] is the content of the old RPM file, [None] if no file
    is named. *)
Definition drpm_check_sequence (old : option (list Z)) (sequence : option (list Z)) (mode : Z) : res unit :=
  match sequence with
  | None => Err EArgs
  | Some sequence =>
      if negb ((mode =? CHECK_NONE) || (mode =? CHECK_FILESIZES) || (mode =? CHECK_FULL)) then Err EArgs
      else if match old with Some _ => negb (mode =? CHECK_NONE) | None => false end then Err EArgs
      else
        '(nevr, seq) <- split_sequence sequence ;;
        '(r, rpm_only) <-
          match old with
          | None => r <- rpm_read_header db nevr ;; Ok (r, false)
          | Some file =>
              '(r, _, _, _) <- rpm_read L file DontRead false ;;
              m <- rpm_signature_get_md5 L r ;;
              Ok (r, match m with Some m => (zlen seq =? 16) && list_eqb (slice seq 0 16) m | None => false end)
          end ;;
        if negb (list_eqb nevr (rpm_get_nevr L r)) then Err EMismatch
        else if rpm_only then Ok tt
        else
          '(files, _) <- rpm_get_file_info L false r ;;
          sha <- rpm_get_digest_algo L r ;;
          _ <- expand_sequence L (check_of mode) (Some seq) files sha ;;
          Ok tt
  end.
End CheckSequence.
