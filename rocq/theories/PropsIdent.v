(** * Properties C12 and C32: sequence and package identifiers

    Specification vocabulary: [SpecIdent]. *)
From Verif Require Import Base SpecCodec Utils Stream Rpm Seq Delta DeltaRead DeltaWrite Expand Apply Make SpecMake MakeCases Ident SpecIdent IdentProofs IdentFinal.

(** C12: the line of the sequence file is taken apart into what it was made of, with and without the newline at its end. *)
Theorem C12_line_parses_back : forall d, bytes (d_seq d) -> 16 <= zlen (d_seq d) < 2 ^ 31 -> d_src_nevr d <> [] ->
  exists id, write_seqfile d = Ok (id ++ [10]) /\ ~ In 10 (from id (zlen (d_src_nevr d))) /\
    split_sequence id = Ok (d_src_nevr d, d_seq d) /\ split_sequence (id ++ [10]) = Ok (d_src_nevr d, d_seq d).
Proof. exact write_seqfile_text. Qed.
Print Assumptions C12_line_parses_back.

(** C12: which texts are sequence identifiers, and of what. *)
Theorem C12_identifiers : forall s nevr seq, split_sequence s = Ok (nevr, seq) <-> sequence_text nevr seq s.
Proof. exact split_sequence_exact. Qed.
Print Assumptions C12_identifiers.

(** C12: all other texts are format errors. *)
Theorem C12_malformed : forall s, (forall nevr seq, ~ sequence_text nevr seq s) -> split_sequence s = Err EFormat.
Proof. exact split_sequence_malformed. Qed.
Print Assumptions C12_malformed.

(** C12: a package file that a delta can be applied to is accepted for the sequence identifier of the delta. *)
Theorem C12_accepted_for_source : forall L db full filesizes installed fs unprelinked clean old delta d out line,
  read_deltarpm L delta = Ok d -> bytes (d_seq d) -> d_src_nevr d <> [] -> write_seqfile d = Ok line ->
  drpm_apply L installed fs unprelinked clean (Some old) delta = (out, Ok tt) ->
  (forall r comp m1 m2, rpm_read L old ReadDecomp false = Ok (r, comp, m1, m2) -> forall m, lb_sig_md5 L (rp_sig r) = Some m -> zlen m = 16) ->
  drpm_check_sequence L db full filesizes (Some old) (Some line) 0 = Ok tt.
Proof. exact check_accepts. Qed.
Print Assumptions C12_accepted_for_source.

(** C12: for an installed package, checking the sequence identifier of a standard delta is checking the delta. *)
Theorem C12_same_as_check : forall L db full filesizes delta d line mode,
  read_deltarpm L delta = Ok d -> bytes (d_seq d) -> d_src_nevr d <> [] -> d_type d = TYPE_STANDARD ->
  write_seqfile d = Ok line -> mode = 1 \/ mode = 2 ->
  drpm_check_sequence L db full filesizes None (Some line) mode = drpm_check L (rpm_read_header db) delta (check_of full filesizes mode).
Proof. exact check_same. Qed.
Print Assumptions C12_same_as_check.

(** The packages of C19: the identifiers of an rpm-only and of a standard delta made for them, checked against the package and
    against another one, and against a database that has the package ("full" accepts all files, "sizes" none). *)
Definition line_with (L : libs) (o : make_options) (old new : list Z) : list Z :=
  match drpm_make L (Some o) (Some old) (Some new) true with Ok (_, Some line) => line | _ => [] end.
Definition i_line (only : bool) : list Z := line_with mlibs (m_options only 3 true true) (package_file m_old) (package_file m_new).
Definition i_db (p : nevr_parts) : option (list Z) := match p with mkparts [97] None [49] [51] => Some (p_hdr m_old) | _ => None end.
Definition i_check (old : option (list Z)) (line : list Z) (mode : Z) : res unit :=
  drpm_check_sequence mlibs i_db (fun _ _ _ _ => Ok tt) (fun _ _ _ _ => Err EMismatch) old (Some line) mode.
Example C12_case : let only := i_line true in let standard := i_line false in
  zlen only = 5 + 1 + 2 * 16 + 1 /\ zlen standard = 5 + 1 + 2 * 19 + 1 /\
  i_check (Some (package_file m_old)) only 0 = Ok tt /\
  i_check (Some (package_file m_old)) standard 0 = Ok tt /\
  i_check (Some (package_file m_new)) only 0 = Err EMismatch /\
  i_check (Some (package_file m_new)) standard 0 = Err EMismatch /\
  i_check None standard 1 = Ok tt /\ i_check None standard 2 = Err EMismatch /\
  i_check (Some (package_file m_old)) standard 1 = Err EArgs.
Proof. vm_compute. repeat split. Qed.

(** C32: which texts denote packages, and which. *)
Theorem C32_identifiers : forall s p, split_nevr s = Ok p <-> nevr_text p s.
Proof. exact split_nevr_exact. Qed.
Print Assumptions C32_identifiers.

(** C32: all other texts are format errors. *)
Theorem C32_malformed : forall s, (forall p, ~ nevr_text p s) -> split_nevr s = Err EFormat.
Proof. exact split_nevr_malformed. Qed.
Print Assumptions C32_malformed.

(** "a-b-1:2-3", "a-b-2-3", and texts without name, version or release; a colon in a name makes an epoch of the rest of it. *)
Example C32_case :
  split_nevr [97; 45; 98; 45; 49; 58; 50; 45; 51] = Ok (mkparts [97; 45; 98] (Some [49]) [50] [51]) /\
  split_nevr [97; 45; 98; 45; 50; 45; 51] = Ok (mkparts [97; 45; 98] None [50] [51]) /\
  nevr_text (mkparts [97; 45; 98] (Some [49]) [50] [51]) [97; 45; 98; 45; 49; 58; 50; 45; 51] /\
  split_nevr [97; 45; 51] = Err EFormat /\ split_nevr [45; 50; 45; 51] = Err EFormat /\ split_nevr [97; 58; 50; 45; 51] = Err EFormat /\
  split_nevr [58; 50; 45; 51] = Err EFormat /\ split_nevr [97; 98] = Err EFormat /\ split_nevr [] = Err EFormat /\
  split_nevr [97; 45; 98; 58; 99; 45; 50; 45; 51] = Ok (mkparts [97] (Some [98]) [99; 45; 50] [51]).
Proof.
  repeat split; try (vm_compute; reflexivity).
  apply (text_epoch [97; 45; 98] [49] [50] [51]); [discriminate| | |]; cbn [In]; intros [H|[]]; discriminate.
Qed.
