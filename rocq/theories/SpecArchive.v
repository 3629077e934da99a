(** * SpecArchive: CPIO archives, the altered archive, and offset adjustments

    What parsing an archive while making a standard delta is supposed to compute. *)
From Verif Require Import Base SpecCodec CpioHeader Rpm Expand Archive.

(** ** Listing of an archive *)

(** The [k]-th 8-digit field of the header at [o]. *)
Definition field_at (archive : list Z) (o k : Z) : option Z := hex_val_from 0 (slice archive (o + 6 + 8 * k) 8).

(** A header at [o]: magic, twelve hexadecimal fields, and the two that matter (name size, of
    which only 16 bits are kept, and file size). *)
Record header_at (archive : list Z) (o namesize size : Z) : Prop := {
  ha_range : 0 <= o /\ o + 110 <= zlen archive;
  ha_magic : slice archive o 6 = CPIO_MAGIC;
  ha_fields : forall k, 0 <= k < 12 -> field_at archive o k <> None;
  ha_size : field_at archive o 6 = Some size;
  ha_namesize : exists n, field_at archive o 11 = Some n /\ namesize = n mod 2 ^ 16
}.

(** A name of [namesize] bytes after the header at [o]: what precedes the first NUL; the last
    byte counts as NUL. *)
Record name_at (archive : list Z) (o namesize : Z) (name : list Z) : Prop := {
  na_range : 0 < namesize /\ o + 110 + namesize <= zlen archive;
  na_name : name = cstring (slice archive (o + 110) (namesize - 1))
}.

(** A name without "./". *)
Definition plain_name (name : list Z) : list Z :=
  match name with 46 :: 47 :: r => r | _ => name end.

(** An entry: offset, name, length of header, name and padding, size of the data. *)
Record entry := mken { en_off : Z; en_name : list Z; en_hlen : Z; en_size : Z }.
(** Where its data starts, and where the next entry starts. *)
Definition en_body (e : entry) : Z := en_off e + en_hlen e.
Definition en_next (e : entry) : Z := en_body e + en_size e + padding (en_size e) 4.
Definition en_data (archive : list Z) (e : entry) : list Z := slice archive (en_body e) (en_size e).

(** The entries from offset [o] up to the trailer. *)
Inductive listing (archive : list Z) : Z -> list entry -> Prop :=
| l_trailer o namesize size :
    header_at archive o namesize size -> name_at archive o namesize CPIO_TRAILER ->
    listing archive o []
| l_entry o namesize size name es e :
    header_at archive o namesize size -> name_at archive o namesize name -> name <> CPIO_TRAILER ->
    e = mken o (plain_name name) (110 + namesize + padding (110 + namesize) 4) size ->
    en_next e <= zlen archive ->
    listing archive (en_next e) es ->
    listing archive o (e :: es).

(** ** The altered archive *)

(** Ranges of the C types, and lengths for which the 16-bit name size does not wrap. *)
Record wf_file (f : file_info) : Prop := {
  wf_mode : 0 <= fi_mode f < 2 ^ 16;
  wf_size : 0 <= fi_size f < 2 ^ 32;
  wf_rdev : 0 <= fi_rdev f < 2 ^ 16;
  wf_name : zlen (fi_name f) < 65533;
  wf_linkto : zlen (fi_linkto f) < 2 ^ 32
}.

Section Altered.
Variable unpatched : option (list Z -> list Z -> bool).
Variable files : list file_info.
Variable colors : bool.
Variable sha : bool.
Variable archive : list Z.

(** The first file with a name, with its index. *)
Definition file_of (name : list Z) : option (Z * file_info) :=
  find (fun p => list_eqb name (skip_slash (fi_name (snd p))))
       (combine (map Z.of_nat (seq 0 (length files))) files).

(** Regular files are wanted unless they may differ on disk: size as recorded, none of the flags
    %config, missingok, %ghost; digest and size verified; no ELF color outside a library directory;
    not patched away.  All other files are wanted. *)
Definition wanted (f : file_info) (name : list Z) (size : Z) : bool :=
  if S_ISREG (fi_mode f) then
    (size =? fi_size f)
    && negb (Z.testbit (fi_flags f) 0 || Z.testbit (fi_flags f) 3 || Z.testbit (fi_flags f) 6)
    && (Z.testbit (fi_verify f) 0 && Z.testbit (fi_verify f) 1)
    && negb (colors && (Z.testbit (fi_color f) 0 || Z.testbit (fi_color f) 1) && negb (IN_MULTILIB_DIR name))
    && negb (match unpatched with Some u => u name (fi_md5 f) | None => false end)
  else true.

Definition kept_entry : Type := entry * Z * file_info.
Definition ke_entry (k : kept_entry) : entry := fst (fst k).
Definition ke_index (k : kept_entry) : Z := snd (fst k).
Definition ke_file (k : kept_entry) : file_info := snd k.

(** The entries kept, with the file each belongs to. *)
Definition keep (e : entry) : list kept_entry :=
  match file_of (en_name e) with
  | Some (i, f) => if wanted f (en_name e) (en_size e) then [(e, i, f)] else []
  | None => []
  end.
Definition kept (es : list entry) : list kept_entry := flat_map keep es.

(** Zero padding to a multiple of four. *)
Definition align4 (l : list Z) : list Z := l ++ zeros (padding (zlen l) 4).

Definition is_device (f : file_info) : bool := S_ISBLK (fi_mode f) || S_ISCHR (fi_mode f).

(** Normalised header and name of a kept entry, and its contents. *)
Definition new_head (f : file_info) (name : list Z) : list Z :=
  align4 (cpio_header_write
            (mkch 0 (fi_mode f) 0 0 1 0 (entry_size f) 0 0
               (if is_device f then fi_rdev f / 256 else 0) (if is_device f then fi_rdev f mod 256 else 0)
               (zlen name + 3))
          ++ [46; 47] ++ name ++ [0]).
Definition new_body (f : file_info) (data : list Z) : list Z :=
  align4 (if S_ISLNK (fi_mode f) then fi_linkto f else data).
Definition new_bytes (k : kept_entry) : list Z :=
  new_head (ke_file k) (en_name (ke_entry k)) ++ new_body (ke_file k) (en_data archive (ke_entry k)).

Definition trailer : list Z :=
  align4 (cpio_header_write (mkch 0 0 0 0 1 0 0 0 0 0 0 11) ++ CPIO_TRAILER ++ [0]).

(** The altered archive. *)
Definition altered (ks : list kept_entry) : list Z := concat (map new_bytes ks) ++ trailer.

(** The digest recorded for a file: pairs of hexadecimal digits (a single last character does not count). *)
Definition even_part (s : list Z) : list Z := slice s 0 (2 * (zlen s / 2)).
Definition recorded (f : file_info) : list Z :=
  match hex_bytes (even_part (fi_md5 f)) with Some d => d | None => [] end.
Definition digest_ok (f : file_info) : Prop :=
  S_ISREG (fi_mode f) = true -> fi_size f <> 0 ->
  exists d, hex_bytes (even_part (fi_md5 f)) = Some d /\ zlen d = if sha then 32 else 16.

(** Network byte order. *)
Definition be4 (x : Z) : list Z := [x / 2 ^ 24; x / 2 ^ 16 mod 256; x / 2 ^ 8 mod 256; x mod 256].

(** What the sequence digest covers of a file: name, mode, size, device, and link target or digest. *)
Definition meta (f : file_info) : list Z :=
  skip_slash (fi_name f) ++ [0] ++ be4 (fi_mode f) ++ be4 (entry_size f) ++ be4 (entry_rdev f)
  ++ (if S_ISLNK (fi_mode f) then fi_linkto f ++ [0]
      else if S_ISREG (fi_mode f) && (0 <? fi_size f) then recorded f else []).

End Altered.

(** ** Offset adjustments *)

(** Sum of the adjustments recorded up to altered offset [a]; [p] is the offset of the
    previous adjustment.  The second components are 32-bit patterns of signed numbers. *)
Fixpoint adj_sum (p : Z) (adjs : list (Z * Z)) (a : Z) : Z :=
  match adjs with
  | [] => 0
  | (d, o) :: adjs => (if p + d <=? a then s32 o else 0) + adj_sum (p + d) adjs a
  end.

(** Original and altered offset of each kept entry. *)
Fixpoint offsets (archive : list Z) (a : Z) (ks : list kept_entry) : list (Z * Z) :=
  match ks with
  | [] => []
  | k :: ks => (en_off (ke_entry k), a) :: offsets archive (a + zlen (new_bytes archive k)) ks
  end.

(** Places where the displacement changes are less than 4 GiB apart ([prev]: the last such place,
    [disp]: the displacement since then). *)
Fixpoint close (prev disp : Z) (l : list (Z * Z)) : Prop :=
  match l with
  | [] => True
  | (o, a) :: l => if o - a =? disp then close prev disp l else a - prev < 2 ^ 32 /\ close a (o - a) l
  end.

(** ** The index of the altered archive *)

(** Where each kept entry lies in the altered archive: index of the file, lengths of head and body, offset;
    at the end the trailer. *)
Fixpoint layout (archive : list Z) (a : Z) (ks : list kept_entry) : list cpio_file :=
  match ks with
  | [] => [mkcf (-1) (zlen trailer) 0 a]
  | k :: ks =>
      mkcf (ke_index k) (zlen (new_head (ke_file k) (en_name (ke_entry k))))
        (zlen (new_body (ke_file k) (en_data archive (ke_entry k)))) a
      :: layout archive (a + zlen (new_bytes archive k)) ks
  end.

(** Contents whose padded length fits 32 bits, and no contents for special files and directories. *)
Definition plain_entry (k : kept_entry) : Prop :=
  if S_ISREG (fi_mode (ke_file k)) then fi_size (ke_file k) <= 2 ^ 32 - 4
  else if S_ISLNK (fi_mode (ke_file k)) then zlen (fi_linkto (ke_file k)) <= 2 ^ 32 - 4
  else en_size (ke_entry k) = 0.

(** The data of the entry is followed by zeros up to a multiple of four. *)
Definition zero_padded (archive : list Z) (k : kept_entry) : Prop :=
  S_ISREG (fi_mode (ke_file k)) = true ->
  let e := ke_entry k in slice archive (en_body e + en_size e) (padding (en_size e) 4) = zeros (padding (en_size e) 4).
