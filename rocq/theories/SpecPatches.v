(** * SpecPatches: lists of patched files as they are written *)
From Verif Require Import Base Expand.

(** A file of a list. *)
Record listed := mkls { ls_name : list Z; ls_mode : Z; ls_size : Z; ls_md5 : list Z }.
(** A list: name and version of the package, build host and time, names of the patches, files that are not patched, all
    other files. *)
Record plist := mkpl {
  pl_name : list Z; pl_evr : list Z; pl_host : list Z; pl_time : Z; pl_patches : list (list Z);
  pl_unpatched : list (list Z); pl_files : list listed
}.

Definition be16 (x : Z) : list Z := [x / 256; x mod 256].
Definition be32 (x : Z) : list Z := [x / 2 ^ 24; x / 2 ^ 16 mod 256; x / 256 mod 256; x mod 256].

(** A string with its length; a file name that shares nothing with the one before. *)
Definition w_string (s : list Z) : list Z := zlen s :: s.
Definition w_name (s : list Z) : list Z := 0 :: (if zlen s <? 255 then [zlen s] else 255 :: be16 (zlen s)) ++ s.

(** A file with a size of four bytes and nothing about its owner; the MD5 follows if there is one. *)
Definition w_file (f : listed) : list Z :=
  w_name (ls_name f) ++ be16 (ls_mode f) ++
  (if S_ISREG (ls_mode f) || S_ISLNK (ls_mode f)
   then 3 :: be32 (ls_size f) ++ (if 0 <? ls_size f then ls_md5 f else []) else [3]).

Definition w_list (p : plist) : list Z :=
  [82; 80; 77; 76] ++ w_string (pl_name p) ++ w_string (pl_evr p) ++ w_string (pl_host p) ++ be32 (pl_time p) ++
  be16 (zlen (pl_patches p)) ++
  (match pl_patches p with
   | [] => []
   | _ => concat (map w_string (pl_patches p)) ++ be32 (zlen (pl_unpatched p)) ++ concat (map w_name (pl_unpatched p))
   end) ++
  concat (map w_file (pl_files p)) ++ w_name [].

(** Strings of bytes without NUL. *)
Definition text (n : Z) (s : list Z) : Prop := 0 < zlen s <= n /\ Forall (fun c => 0 < c < 256) s.
(** A list that can be written; devices are left out. *)
Definition wf_plist (p : plist) : Prop :=
  text 255 (pl_name p) /\ text 255 (pl_evr p) /\ (pl_host p = [] \/ text 255 (pl_host p)) /\ 0 <= pl_time p < 2 ^ 32 /\
  zlen (pl_patches p) < 2 ^ 16 /\ Forall (text 255) (pl_patches p) /\
  (pl_patches p = [] -> pl_unpatched p = []) /\ zlen (pl_unpatched p) < 2 ^ 32 /\ Forall (text 4096) (pl_unpatched p) /\
  Forall (fun f => text 4096 (ls_name f) /\ 0 < ls_mode f < 2 ^ 16 /\ S_ISCHR (ls_mode f) = false /\ S_ISBLK (ls_mode f) = false /\
                   0 <= ls_size f < 2 ^ 32 /\ zlen (ls_md5 f) = 16 /\ Forall (fun c => 0 <= c < 256) (ls_md5 f)) (pl_files p).

(** What is left of a list after it was read: names, flags and MD5 sums.  The first file of a name counts. *)
Fixpoint first_named (l : list (list Z * Z * list Z)) (name : list Z) : option (Z * list Z) :=
  match l with
  | [] => None
  | (n, flags, md5) :: l => if list_eqb n name then Some (flags, md5) else first_named l name
  end.

(** Lower-case hexadecimal text of some bytes. *)
Definition hex_char (d : Z) : Z := if d <? 10 then 48 + d else 87 + d.
Definition hex_text (l : list Z) : list Z := concat (map (fun b => [hex_char (b / 16); hex_char (b mod 16)]) l).
