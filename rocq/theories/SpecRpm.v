(** * SpecRpm: the parts of an RPM file and what its header says, with the numbers and names of the file format written out *)
From Coq Require Import String.
From Verif Require Import Base SpecCodec Rpm TextCases.

(** librpm reads at least the 16 bytes that every header starts with and nothing after the end of the input. *)
Definition headers_inside (L : libs) : Prop := forall input h n, lb_read L input = Some (h, n) -> 16 <= n <= zlen input.

(** The lead has 96 bytes and starts with ED AB EE DB; the signature is padded so that the header starts at a multiple
    of 8 bytes; the rest is the payload. *)
Definition parts (L : libs) (file lead sig hdr payload : list Z) : Prop :=
  exists s gap h, file = lead ++ s ++ gap ++ h ++ payload /\
    zlen lead = 96 /\ firstn 4 lead = [237; 171; 238; 219] /\
    lb_read L (s ++ gap ++ h ++ payload) = Some (sig, zlen s) /\
    zlen gap < 8 /\ (exists k, 96 + zlen s + zlen gap = 8 * k) /\
    lb_read L (h ++ payload) = Some (hdr, zlen h).

(** What stands before signature and header in a file. *)
Definition mark : list Z := [142; 173; 232; 1; 0; 0; 0; 0].
(** The file as it is written: the signature is followed by zeros up to a multiple of 8 bytes. *)
Definition front (lead sig : list Z) : list Z := lead ++ mark ++ sig ++ repeat 0 (Z.to_nat ((- zlen sig) mod 8)).

(** Names of compressors (tag 1125) and of payload formats (tag 1124). *)
Definition compressors : list (list Z * Z) :=
  [ (text "gzip", 1); (text "bzip2", 2); (text "lzma", 3); (text "xz", 4); (text "lzip", 5); (text "zstd", 6) ].
Definition formats : list (list Z * Z) := [ (text "drpm", 0); (text "cpio", 1); (text "xar", 2) ].
Definition named (L : libs) (hdr : list Z) (tag : Z) (table : list (list Z * Z)) (code : Z) : Prop :=
  exists name, lb_string L hdr tag = Some name /\ In (name, code) table.

(** Number of a decimal digit. *)
Definition digit (c : Z) : Prop := 48 <= c <= 57.

(** The [k]-th index entry of a header: tag and position of its data. *)
Definition entry_tag (hdr : list Z) (k : Z) : Z := be_val (slice hdr (8 + 16 * k) 4).
Definition entry_pos (hdr : list Z) (k : Z) : Z := be_val (slice hdr (8 + 16 * k + 8) 4).
Definition entries (hdr : list Z) : Z := be_val (slice hdr 0 4).

(** One row of the table of files. *)
Definition same_row (t : file_tags) (k : nat) (f : file_info) : Prop :=
  let at_ {A} (o : option (list A)) (x : A) := match o with Some l => nth_error l k = Some x | None => False end in
  at_ (ft_names t) (fi_name f) /\ at_ (ft_flags t) (fi_flags f) /\ at_ (ft_md5s t) (fi_md5 f) /\ at_ (ft_rdevs t) (fi_rdev f) /\
  at_ (ft_sizes t) (fi_size f) /\ at_ (ft_modes t) (fi_mode f) /\ at_ (ft_verify t) (fi_verify f) /\ at_ (ft_linktos t) (fi_linkto f) /\
  match ft_colors t with Some l => fi_color f = nth k l 0 | None => fi_color f = 0 end.

(** A tag is there, with [n] values. *)
Definition has {A} (o : option (list A)) (n : Z) : Prop := exists l, o = Some l /\ zlen l = n.
Definition columns (t : file_tags) (n : Z) : Prop :=
  has (ft_names t) n /\ has (ft_flags t) n /\ has (ft_md5s t) n /\ has (ft_rdevs t) n /\ has (ft_sizes t) n /\ has (ft_modes t) n /\
  has (ft_verify t) n /\ has (ft_linktos t) n.
Definition complete (t : file_tags) : Prop :=
  ft_names t <> None /\ ft_flags t <> None /\ ft_md5s t <> None /\ ft_rdevs t <> None /\ ft_sizes t <> None /\ ft_modes t <> None /\
  ft_verify t <> None /\ ft_linktos t <> None.
