(** * ApplySafeCases: deltas for the properties of [ApplySafe] *)
From Verif Require Import Base FileSys BaseLemmas Utils UtilsProofs SpecCodec SpecStream SpecFormat Stream ToyCodec CpioHeader CodecFinal
  DeltaComp Rpm Delta DeltaWrite DeltaRead Seq Expand Blocks Archive Fill SpecArchive SpecApply Apply ToyLibs FormatCases ArchiveCases ApplyCases.

(** A delta with other counts of copies, lead and signature, or external copies. *)
Definition with_counts (intn extn : Z) (d : deltarpm) : deltarpm :=
  mkdelta (d_type d) (d_comp d) (d_level d) (d_head d) (d_version d) (d_src_nevr d) (d_seq d) (d_md5 d) (d_size d)
    (d_tcomp d) (d_tlevel d) (d_param d) (d_hlen d) (d_offn d) (d_off d) (d_leadsig d) (d_fmtoff d)
    intn extn (d_int d) (d_ext d) (d_extlen d) (d_add d) (d_intlen d) (d_idata d).
Definition with_leadsig (leadsig : list Z) (d : deltarpm) : deltarpm :=
  mkdelta (d_type d) (d_comp d) (d_level d) (d_head d) (d_version d) (d_src_nevr d) (d_seq d) (d_md5 d) (d_size d)
    (d_tcomp d) (d_tlevel d) (d_param d) (d_hlen d) (d_offn d) (d_off d) leadsig (d_fmtoff d)
    (d_intn d) (d_extn d) (d_int d) (d_ext d) (d_extlen d) (d_add d) (d_intlen d) (d_idata d).
Definition with_ext (ext : list (Z * Z)) (extlen : Z) (d : deltarpm) : deltarpm :=
  mkdelta (d_type d) (d_comp d) (d_level d) (d_head d) (d_version d) (d_src_nevr d) (d_seq d) (d_md5 d) (d_size d)
    (d_tcomp d) (d_tlevel d) (d_param d) (d_hlen d) (d_offn d) (d_off d) (d_leadsig d) (d_fmtoff d)
    (d_intn d) (zlen ext) (d_int d) ext extlen (d_add d) (d_intlen d) (d_idata d).

(** The signature declares 200 entries. *)
Definition long_signature : list Z := slice (d_leadsig good_delta) 0 104 ++ [0; 0; 0; 200] ++ from (d_leadsig good_delta) 108.

(** No header in an archive declares an empty name, found out by trying every offset. *)
Definition named (archive : list Z) : bool :=
  forallb (fun o => negb (list_eqb (slice archive (Z.of_nat o) 6) CPIO_MAGIC) ||
                    match field_at archive (Z.of_nat o) 11 with Some n => negb (n mod 2 ^ 16 =? 0) | None => true end)
    (seq 0 (length archive)).
Lemma named_ok archive : named archive = true -> forall o size, ~ header_at archive o 0 size.
Proof.
  intros H o size [[Ho Hl] Hm _ _ (n & Hn & Hz)]. unfold named in H. rewrite forallb_forall in H. specialize (H (Z.to_nat o)).
  rewrite Z2Nat.id in H by lia. rewrite Hm, Hn in H. rewrite list_eqb_refl in H.
  assert (Hin : In (Z.to_nat o) (seq 0 (length archive))) by (apply in_seq; unfold zlen in Hl; lia). specialize (H Hin). cbn [negb orb] in H. lia.
Qed.

Lemma ex_sound : sound_files ex_archive ex_files.
Proof.
  split; [exact ex_wf| |reflexivity|].
  - repeat constructor; vm_compute; discriminate.
  - apply named_ok. vm_compute. reflexivity.
Qed.
