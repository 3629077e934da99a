(** * Handle: [struct drpm], [drpm_read] and the getters of /repo/src/drpm.c

    A handle is what the user of the library gets from [drpm_read].  Pointers given by the caller
    are modelled by what the code asks about them: whether they are NULL. *)
From Verif Require Import Base Utils Rpm Delta DeltaRead.

(** [struct drpm], drpm_private.h lines 67-91.  Strings are without the terminating NUL; [None]
    is a null pointer.  The arrays are what was allocated for them, their sizes are fields
    of their own. *)
Record handle := mkhandle {
  h_filename : option (list Z); h_version : Z; h_type : Z; h_comp : Z;
  h_sequence : option (list Z); h_src_nevr : option (list Z); h_tgt_nevr : option (list Z);
  h_size : Z; h_md5 : option (list Z); h_tcomp : Z; h_param : option (list Z);
  h_hlen : Z; h_off : list Z; h_leadsig : option (list Z); h_fmtoff : Z;
  h_int : list Z; h_ext : list Z; h_extlen : Z; h_intlen : Z;
  h_off_size : Z; h_int_size : Z; h_ext_size : Z
}.

(** An array of pairs as it lies in memory. *)
Definition flat (l : list (Z * Z)) : list Z := flat_map (fun p => [fst p; snd p]) l.

(** [malloc(len * 2 + 1)] (32-bit arithmetic) followed by [dump_hex], drpm_read.c lines 509,
    513-514 and 528-532. *)
Definition hex_copy (b : list Z) : res (list Z) :=
  let len := zlen b in
  if u32 (len * 2 + 1) <? len * 2 + 1 then Ub OobWrite else dump_hex b len.

(** [malloc(size * 4)] followed by [memcpy], drpm_read.c lines 515-520 and 534-539: the number of
    bytes is computed in 32 bits in both places, so that a part of the array may be missing. *)
Definition array_copy (size : Z) (l : list (Z * Z)) : res (list Z) :=
  if 0 <? size then rd_range (flat l) 0 (u32 (size * 4) / 4) else Ok [].

Section Read.
Variable L : libs.

(** [deltarpm_to_drpm], drpm_read.c lines 484-557.  [filename] is the [filename] of the delta. *)
Definition deltarpm_to_drpm (filename : list Z) (d : deltarpm) : res handle :=
  let off_size := u32 (d_offn d * 2) in
  let int_size := u32 (d_intn d * 2) in
  let ext_size := u32 (d_extn d * 2) in
  sequence <- hex_copy (d_seq d) ;;
  md5 <- dump_hex (d_md5 d) 16 ;;
  leadsig <- hex_copy (d_leadsig d) ;;
  param <- (if 0 <? zlen (d_param d) then p <- hex_copy (d_param d) ;; Ok (Some p) else Ok None) ;;
  off <- array_copy off_size (d_off d) ;;
  int <- array_copy int_size (d_int d) ;;
  ext <- array_copy ext_size (d_ext d) ;;
  let tgt_nevr := match d_head d with HRpm r => rpm_get_nevr L r | HNevr nevr => nevr end in
  Ok (mkhandle (Some filename) (d_version d) (d_type d) (d_comp d) (Some sequence)
        (Some (d_src_nevr d)) (Some tgt_nevr) (d_size d) (Some md5) (d_tcomp d) param
        (d_hlen d) off (Some leadsig) (d_fmtoff d) int ext (d_extlen d) (d_intlen d)
        off_size int_size ext_size).

(** [drpm_read], drpm.c lines 66-92.  [filename] is [None] for NULL, [room] tells that
    [delta_ret] is not NULL, [open] gives the contents of a file by name ([None]: it cannot be opened).
    The result is the handle stored in [*delta_ret]; after an error it is NULL. *)
Definition drpm_read (open : list Z -> option (list Z)) (room : bool) (filename : option (list Z))
  : res handle :=
  match filename with
  | None => Err EArgs
  | Some name =>
      if negb room then Err EArgs
      else match open name with
           | None => Err EIo
           | Some file => d <- read_deltarpm L file ;; deltarpm_to_drpm name d
           end
  end.
End Read.

(** Tags, drpm.h lines 123-141. *)
Definition TAG_FILENAME : Z := 0.
Definition TAG_VERSION : Z := 1.
Definition TAG_TYPE : Z := 2.
Definition TAG_COMP : Z := 3.
Definition TAG_SEQUENCE : Z := 4.
Definition TAG_SRCNEVR : Z := 5.
Definition TAG_TGTNEVR : Z := 6.
Definition TAG_TGTSIZE : Z := 7.
Definition TAG_TGTMD5 : Z := 8.
Definition TAG_TGTCOMP : Z := 9.
Definition TAG_TGTCOMPPARAM : Z := 10.
Definition TAG_TGTHEADERLEN : Z := 11.
Definition TAG_ADJELEMS : Z := 12.
Definition TAG_TGTLEAD : Z := 13.
Definition TAG_PAYLOADFMTOFF : Z := 14.
Definition TAG_INTCOPIES : Z := 15.
Definition TAG_EXTCOPIES : Z := 16.
Definition TAG_EXTDATALEN : Z := 17.
Definition TAG_INTDATALEN : Z := 18.

(** Getters.  [h] is [None] if the handle is NULL; [room] tells that the pointers to where the result
    goes are not NULL.  The handle is only read.  All fields fit the types they are cast to. *)

(** [drpm_get_uint], drpm.c lines 107-133. *)
Definition drpm_get_uint (h : option handle) (tag : Z) (room : bool) : res Z :=
  match h with
  | None => Err EArgs
  | Some h =>
      if negb room then Err EArgs
      else if tag =? TAG_VERSION then Ok (h_version h)
      else if tag =? TAG_TYPE then Ok (h_type h)
      else if tag =? TAG_COMP then Ok (h_comp h)
      else if tag =? TAG_TGTSIZE then Ok (h_size h)
      else if tag =? TAG_TGTCOMP then Ok (h_tcomp h)
      else Err EArgs
  end.

(** [drpm_get_ulong], drpm.c lines 135-167. *)
Definition drpm_get_ulong (h : option handle) (tag : Z) (room : bool) : res Z :=
  match h with
  | None => Err EArgs
  | Some h =>
      if negb room then Err EArgs
      else if tag =? TAG_VERSION then Ok (h_version h)
      else if tag =? TAG_TYPE then Ok (h_type h)
      else if tag =? TAG_COMP then Ok (h_comp h)
      else if tag =? TAG_TGTSIZE then Ok (h_size h)
      else if tag =? TAG_TGTCOMP then Ok (h_tcomp h)
      else if tag =? TAG_TGTHEADERLEN then Ok (h_hlen h)
      else if tag =? TAG_PAYLOADFMTOFF then Ok (h_fmtoff h)
      else Err EArgs
  end.

(** [drpm_get_ullong], drpm.c lines 169-207. *)
Definition drpm_get_ullong (h : option handle) (tag : Z) (room : bool) : res Z :=
  match h with
  | None => Err EArgs
  | Some h =>
      if negb room then Err EArgs
      else if tag =? TAG_VERSION then Ok (h_version h)
      else if tag =? TAG_TYPE then Ok (h_type h)
      else if tag =? TAG_COMP then Ok (h_comp h)
      else if tag =? TAG_TGTSIZE then Ok (h_size h)
      else if tag =? TAG_TGTCOMP then Ok (h_tcomp h)
      else if tag =? TAG_TGTHEADERLEN then Ok (h_hlen h)
      else if tag =? TAG_PAYLOADFMTOFF then Ok (h_fmtoff h)
      else if tag =? TAG_EXTDATALEN then Ok (h_extlen h)
      else if tag =? TAG_INTDATALEN then Ok (h_intlen h)
      else Err EArgs
  end.

(** [drpm_get_string], drpm.c lines 209-251: a copy of the string, or NULL. *)
Definition drpm_get_string (h : option handle) (tag : Z) (room : bool) : res (option (list Z)) :=
  match h with
  | None => Err EArgs
  | Some h =>
      if negb room then Err EArgs
      else if tag =? TAG_FILENAME then Ok (h_filename h)
      else if tag =? TAG_SEQUENCE then Ok (h_sequence h)
      else if tag =? TAG_SRCNEVR then Ok (h_src_nevr h)
      else if tag =? TAG_TGTNEVR then Ok (h_tgt_nevr h)
      else if tag =? TAG_TGTMD5 then Ok (h_md5 h)
      else if tag =? TAG_TGTCOMPPARAM then Ok (h_param h)
      else if tag =? TAG_TGTLEAD then Ok (h_leadsig h)
      else Err EArgs
  end.

(** The loop at drpm.c lines 284-285: [n] elements from index [i]. *)
Fixpoint copy_elems (n : nat) (i : Z) (array : list Z) : res (list Z) :=
  match n with
  | O => Ok []
  | S n => v <- rd array i ;; r <- copy_elems n (i + 1) array ;; Ok (v :: r)
  end.

(** [drpm_get_ulong_array], drpm.c lines 253-289: the array (NULL if empty) and its size. *)
Definition drpm_get_ulong_array (h : option handle) (tag : Z) (room : bool)
  : res (option (list Z) * Z) :=
  match h with
  | None => Err EArgs
  | Some h =>
      if negb room then Err EArgs
      else
        '(array, size) <-
          (if tag =? TAG_ADJELEMS then Ok (h_off h, h_off_size h)
           else if tag =? TAG_INTCOPIES then Ok (h_int h, h_int_size h)
           else if tag =? TAG_EXTCOPIES then Ok (h_ext h, h_ext_size h)
           else Err EArgs) ;;
        if size =? 0 then Ok (None, size)
        else copy <- copy_elems (Z.to_nat size) 0 array ;; Ok (Some copy, size)
  end.

(** [drpm_destroy], drpm.c lines 94-105: what the pointer given by the caller holds afterwards
    ([None] outside: the pointer to the handle is NULL; inside: the handle is). *)
Definition drpm_destroy (h : option (option handle)) : res (option handle) :=
  match h with
  | None | Some None => Err EArgs
  | Some (Some _) => Ok None
  end.
