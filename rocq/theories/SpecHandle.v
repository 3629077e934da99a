(** * SpecHandle: what the getters of a delta are documented to return (drpm.h lines 119-142 and 483-640) *)
From Verif Require Import Base Rpm Delta.

(** Lower-case hexadecimal text. *)
Definition hex_char (n : Z) : Z := if n <? 10 then 48 + n else 87 + n.
Definition hex_text (b : list Z) : list Z :=
  concat (map (fun x => [hex_char (x / 16 mod 16); hex_char (x mod 16)]) b).

(** A value of the table of tags: a number, a string (absent: no parameters) or an array. *)
Inductive value := Number (n : Z) | Text (s : option (list Z)) | Array (l : list Z).

(** Pairs in a row. *)
Definition in_row (l : list (Z * Z)) : list Z := concat (map (fun p => [fst p; snd p]) l).

(** The table of tags for a delta [d] in the file [name]. *)
Definition tagged (L : libs) (name : list Z) (d : deltarpm) (tag : Z) : option value :=
  match tag with
  | 0 => Some (Text (Some name))
  | 1 => Some (Number (d_version d))
  | 2 => Some (Number (d_type d))
  | 3 => Some (Number (d_comp d))
  | 4 => Some (Text (Some (hex_text (d_seq d))))
  | 5 => Some (Text (Some (d_src_nevr d)))
  | 6 => Some (Text (Some (match d_head d with HRpm r => lb_nevr L (rp_hdr r) | HNevr n => n end)))
  | 7 => Some (Number (d_size d))
  | 8 => Some (Text (Some (hex_text (d_md5 d))))
  | 9 => Some (Number (d_tcomp d))
  | 10 => Some (Text (match d_param d with [] => None | p => Some (hex_text p) end))
  | 11 => Some (Number (d_hlen d))
  | 12 => Some (Array (in_row (d_off d)))
  | 13 => Some (Text (Some (hex_text (d_leadsig d))))
  | 14 => Some (Number (d_fmtoff d))
  | 15 => Some (Array (in_row (d_int d)))
  | 16 => Some (Array (in_row (d_ext d)))
  | 17 => Some (Number (d_extlen d))
  | 18 => Some (Number (d_intlen d))
  | _ => None
  end.

(** Tags whose numbers are documented for the getters of [unsigned] and of [unsigned long]
    (the size of the target for both, as in the code). *)
Definition narrow (tag : Z) : Prop := In tag [1; 2; 3; 7; 9].
Definition long (tag : Z) : Prop := narrow tag \/ In tag [11; 14].
