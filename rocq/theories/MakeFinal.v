(** * MakeFinal: the lemmas about making, in the form of the properties *)
From Verif Require Import Base BaseLemmas SpecCodec SpecStream SpecFormat SpecDelta Stream DeltaComp Rpm Delta Diff DeltaWrite DeltaRead FormatCases UtilsProofs Archive SpecArchive Expand Apply
  Make SpecMake FormatFinal PackageProofs MakeRun MakeOnly MakeStd MakeNodiff.

Lemma make_apply_small L old new level o installed fs unprelinked clean :
  codec_ok (lb_codec L) -> md5_16 L -> package_ok L old -> package_ok L new -> package_has_md5 L old ->
  cpio_target L new level -> recompresses L new level -> zlen (package_data old) < 2 ^ 31 -> zlen (package_data new) < 2 ^ 29 - 2 ->
  options_ok L o (zlen (package_data new)) -> o_rpmonly o = true -> o_version o = 3 -> lb_md5 L (package_file new) <> zeros 16 ->
  exists delta d seq, drpm_make L (Some o) (Some (package_file old)) (Some (package_file new)) true = Ok (delta, seq) /\
    read_deltarpm L delta = Ok d /\ d_type d = TYPE_RPMONLY /\
    drpm_apply L installed fs unprelinked clean (Some (package_file old)) delta = (package_file new, Ok tt).
Proof.
  intros Hc Hm Ho Hn Hs Ht Hr H1 H2 Hop Hon Hv Hz. apply (make_apply L old new level); auto; [lia|].
  assert (S1 : 16 <= zlen (package_data new)).
  { destruct (pk_hdr _ _ Hn) as [[_ [H8 _]] _]. unfold package_data. rewrite !zlen_app. change (zlen HEADER_MAGIC) with 8. pose proof (zlen_nonneg (p_archive new)). lia. }
  apply few_copies_small; [apply (bytes_data L); auto|lia|lia].
Qed.

Lemma std_readable L old new files colors sha es h level o solo :
  codec_ok (lb_codec L) -> md5_16 L -> package_ok L old -> package_ok L new ->
  standard_source_ok L old files colors sha es -> cpio_target L new level -> standard_target_ok L new h ->
  let cpio := altered (p_archive old) (kept None files colors es) in
  zlen (p_archive old) < 2 ^ 31 -> zlen cpio < 2 ^ 31 -> 16 <= zlen (p_archive new) < 2 ^ 31 ->
  few_copies cpio (p_archive new) (o_addblk o) -> few_adjustments L old -> options_ok L o (zlen (p_archive new)) -> o_rpmonly o = false ->
  (solo = true -> old = new) ->
  exists delta d seq, drpm_make L (Some o) (Some (package_file old)) (if solo then None else Some (package_file new)) true = Ok (delta, seq) /\
    read_deltarpm L delta = Ok d /\ d_type d = TYPE_STANDARD /\ d_version d = o_version o /\
    d_src_nevr d = lb_nevr L (p_hdr old) /\ d_md5 d = lb_md5 L (package_file new) /\
    exists t, d_head d = HRpm t /\ rp_hdr t = h.
Proof.
  intros Hc Hm Ho Hn Hs Ht Hst cpio H1 H2 H3 Hf Ha Hop Hon Hso.
  destruct (make_std L old new files colors sha es h level o Hc Hm Ho Hn Hs Ht Hst H1 H2 H3 Hf Ha Hop Hon solo Hso) as
    (delta & d & r & add & off & sequence & adjs & seq & Em & Er & RB & _).
  exists delta, d, seq. split; [auto|]. split; [auto|]. destruct RB as [R1 R2 R3 R4 R5 R6 _ _ _ _ _ _ _ _ _ _ R17].
  split; [exact R1|]. split; [exact R3|]. split; [exact R4|]. split; [exact R6|]. destruct R17 as (t & E1 & _ & E2 & _). exists t. auto.
Qed.

Lemma only_readable L old new level o :
  codec_ok (lb_codec L) -> md5_16 L -> package_ok L old -> package_ok L new -> cpio_target L new level ->
  zlen (package_data old) < 2 ^ 31 -> zlen (package_data new) < 2 ^ 31 -> few_copies (package_data old) (package_data new) (o_addblk o) ->
  options_ok L o (zlen (package_data new)) -> o_rpmonly o = true -> o_version o = 3 ->
  exists delta d seq, drpm_make L (Some o) (Some (package_file old)) (Some (package_file new)) true = Ok (delta, seq) /\
    read_deltarpm L delta = Ok d /\ d_type d = TYPE_RPMONLY /\ d_head d = HNevr (lb_nevr L (p_hdr new)) /\
    d_src_nevr d = lb_nevr L (p_hdr old) /\ d_seq d = lb_md5 L (package_signed old) /\ d_md5 d = lb_md5 L (package_file new).
Proof.
  intros Hc Hm Ho Hn Ht H1 H2 Hf Hop Hon Hv.
  destruct (made_ok L old new level o Hc Hm Ho Hn Ht H1 H2 Hf Hop Hon Hv) as (r & data & add & off & Ed & _ & Hwf & _).
  destruct (roundtrip_final L _ Hc Hwf) as (file & d & Ew & Erd & RB).
  assert (Hseq : exists hex, write_seqfile (made L old new level o r add off) = Ok hex).
  { apply seqfile_made; cbn [made d_seq]; [apply Hm|rewrite (proj2 (Hm _)); reflexivity]. }
  destruct Hseq as [sq Esq].
  exists file, d, (if o_seqfile o then Some sq else None). split.
  { unfold drpm_make. cbn [negb orb]. rewrite Hon. rewrite Hv. cbn [andb Z.ltb Z.compare Pos.compare Pos.compare_cont].
    rewrite Ed. cbn [bind]. rewrite Ew. cbn [bind]. destruct (o_seqfile o); [rewrite Esq|]; reflexivity. }
  split; [auto|]. destruct RB as [R1 R2 R3 R4 R5 R6 _ _ _ _ _ _ _ _ _ _ R17].
  split; [exact R1|]. split; [exact R17|]. split; [exact R4|]. split; [exact R5|exact R6].
Qed.

Lemma nodiff_reads L p o (first : bool) :
  codec_ok (lb_codec L) -> md5_16 L -> package_ok L p -> zlen (p_hdr p) < 2 ^ 32 - 8 ->
  o_from_rpm o = true \/ ((o_comp o = 0 \/ real_comp (o_comp o)) /\ 0 <= o_level o <= 9) -> o_rpmonly o = true -> o_version o = 3 ->
  exists delta d seq,
    drpm_make L (Some o) (if first then Some (package_file p) else None) (if first then None else Some (package_file p)) true = Ok (delta, seq) /\
    read_deltarpm L delta = Ok d /\ d_type d = TYPE_RPMONLY /\ d_head d = HNevr (lb_nevr L (p_hdr p)) /\
    d_src_nevr d = lb_nevr L (p_hdr p) /\ d_seq d = lb_md5 L (package_signed p) /\ d_md5 d = lb_md5 L (package_file p) /\
    d_int d = [] /\ d_ext d = [].
Proof.
  intros Hc Hm Hp Hh Hcm Hon Hv. destruct (nodiff_readable L p o Hc Hm Hp Hh Hcm Hon Hv first) as (delta & d & seq & Em & Er & RB).
  exists delta, d, seq. split; [auto|]. split; [auto|]. destruct RB as [R1 R2 R3 R4 R5 R6 _ _ _ _ [_ R11] [_ R12] _ _ _ _ R17].
  repeat (split; [assumption|]). assumption.
Qed.

Lemma nodiff_applied L p o installed fs unprelinked clean (first : bool) :
  codec_ok (lb_codec L) -> md5_16 L -> package_ok L p -> zlen (p_hdr p) < 2 ^ 32 - 8 ->
  o_from_rpm o = true \/ ((o_comp o = 0 \/ real_comp (o_comp o)) /\ 0 <= o_level o <= 9) -> o_rpmonly o = true -> o_version o = 3 ->
  package_has_md5 L p -> lb_import L (p_sig p) = Some (p_sig p) -> lb_md5 L (package_file p) <> zeros 16 ->
  exists delta seq,
    drpm_make L (Some o) (if first then Some (package_file p) else None) (if first then None else Some (package_file p)) true = Ok (delta, seq) /\
    let '(out, result) := drpm_apply L installed fs unprelinked clean (Some (package_file p)) delta in
    out = package_front p ++ HEADER_MAGIC ++ p_hdr p ++ p_archive p /\
    (p_comp p = 0 -> out = package_file p /\ result = Ok tt) /\
    (p_archive p <> p_payload p -> out <> package_file p) /\
    (lb_md5 L out <> lb_md5 L (package_file p) -> result = Err EMismatch).
Proof.
  intros Hc Hm Hp Hh Hcm Hon Hv Hs Hi Hz.
  destruct (nodiff_apply L p o Hc Hm Hp Hh Hcm Hon Hv installed fs unprelinked clean Hz Hs Hi first) as (delta & d & seq & Em & _ & _ & Ea).
  exists delta, seq. split; [auto|]. rewrite Ea. split; [reflexivity|]. split; [|split].
  - intros E0. rewrite (nodiff_plain L p Hp E0). split; [reflexivity|]. rewrite list_eqb_refl. reflexivity.
  - intros Hne. apply nodiff_differs; auto.
  - intros Hne. destruct (list_eqb _ _) eqn:E; [|reflexivity]. apply list_eqb_spec in E. contradiction.
Qed.

(** Deltas without a header have no room in the older versions of the format. *)
Lemma only_versions L o old new named :
  o_rpmonly o = true -> o_version o < 3 -> drpm_make L (Some o) old new named = Err EArgs.
Proof.
  intros E V. unfold drpm_make. destruct (_ || _); [reflexivity|]. rewrite E.
  assert (V' : (o_version o <? 3) = true) by (apply Z.ltb_lt; exact V). now rewrite V'.
Qed.
