(** * SpecPrelink: ELF files with a section for undoing prelink *)
From Verif Require Import Base SpecCodec.

(** Number of [len] bytes at [off], least significant byte first or last. *)
Definition num (le : bool) (data : list Z) (off len : Z) : Z :=
  be_val (if le then rev (slice data off len) else slice data off len).

Section Elf.
Variable data : list Z.

Definition class64 : bool := getz data 4 =? 2.
Definition little : bool := negb (getz data 5 =? 2).
Definition is_elf : Prop := 52 <= zlen data /\ slice data 0 4 = [127; 69; 76; 70] /\ (class64 = true -> 64 <= zlen data).
(** The section header table: [e_shoff], [e_shentsize], [e_shnum], [e_shstrndx]. *)
Definition table_off : Z := if class64 then num little data 40 8 else num little data 32 4.
Definition header_size : Z := num little data (if class64 then 58 else 46) 2.
Definition entries : Z := num little data (if class64 then 60 else 48) 2.
Definition names_index : Z := num little data (if class64 then 62 else 50) 2.
(** Offsets that the library follows. *)
Definition follows (off : Z) : Prop := off < if little then 2 ^ 31 else 2 ^ 32.
Definition has_table : Prop :=
  is_elf /\ follows table_off /\ (if class64 then 64 else 40) <= header_size < 32768 /\ names_index < entries /\
  table_off + entries * header_size <= zlen data.
Definition entry (i : Z) : Z := table_off + i * header_size.
(** The header of the section of section names: [sh_type], [sh_offset], [sh_size]. *)
Definition names_type : Z := num little data (entry names_index + 4) 4.
Definition names_off : Z := if class64 then num little data (entry names_index + 24) 8 else num little data (entry names_index + 16) 4.
Definition names_len : Z := if class64 then num little data (entry names_index + 32) 8 else num little data (entry names_index + 20) 4.
(** Headers for which the library gives up: not of type [SHT_STRTAB], offset or size too big. *)
Definition bad_names : Prop :=
  names_type <> 3 \/ 2 ^ 32 <= names_off \/ (little = true /\ names_off = 2 ^ 32 - 1) \/ 2 ^ 31 <= names_len.
(** There is a section named ".gnu.prelink_undo" (offset of the name: [sh_name]). *)
Definition has_undo : Prop :=
  follows names_off /\ names_off + names_len <= zlen data /\
  exists i, 0 <= i < entries /\ let o := num little data (entry i) 4 in
    o + 18 <= names_len /\
    slice data (names_off + o) 18 = [46; 103; 110; 117; 46; 112; 114; 101; 108; 105; 110; 107; 95; 117; 110; 100; 111; 0].
End Elf.
