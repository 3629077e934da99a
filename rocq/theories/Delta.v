(** * Delta: [struct deltarpm] and [struct drpm] of /repo/src/drpm_private.h *)
From Verif Require Import Base Rpm.

(** Union [head], drpm_private.h lines 285-288. *)
Inductive dhead := HRpm (r : rpm) | HNevr (nevr : list Z).

(** Internal data, drpm_private.h lines 313-317: bytes, or pointers into the new data given
    by offsets. *)
Inductive idata := IBytes (b : list Z) | IPtrs (new : list Z) (offs : list Z).

(** [struct deltarpm], drpm_private.h lines 280-318.  Strings are without the terminating
    NUL; buffers are lists, so their length fields are the lengths of the lists, except for the
    element counts and the data lengths, which are kept as fields of their own.
    Arrays of pairs of numbers are lists of pairs. *)
Record deltarpm := mkdelta {
  d_type : Z; d_comp : Z; d_level : Z; d_head : dhead; d_version : Z;
  d_src_nevr : list Z; d_seq : list Z; d_md5 : list Z;
  d_size : Z; d_tcomp : Z; d_tlevel : Z; d_param : list Z;
  d_hlen : Z; d_offn : Z; d_off : list (Z * Z);
  d_leadsig : list Z; d_fmtoff : Z;
  d_intn : Z; d_extn : Z; d_int : list (Z * Z); d_ext : list (Z * Z);
  d_extlen : Z; d_add : list Z; d_intlen : Z; d_idata : idata
}.

Definition TYPE_STANDARD : Z := 0.   (** drpm.h *)
Definition TYPE_RPMONLY : Z := 1.
