(** * PackageProofs: reading well-formed RPM files *)
From Verif Require Import Base BaseLemmas SpecCodec SpecStream SpecFormat Utils UtilsProofs Stream StreamProofs DetectProofs Rpm SpecMake.

Lemma sig_pad_padding n : padding (8 + n) 8 = sig_pad n.
Proof. unfold padding, sig_pad. Z.div_mod_to_equations; lia. Qed.
Lemma sig_pad_range n : 0 <= sig_pad n < 8.
Proof. unfold sig_pad. apply Z.mod_pos_bound. lia. Qed.

(** Without asking for colors, the files are the same. *)
Lemma file_info_unwanted L r files colors : rpm_get_file_info L true r = Ok (files, colors) -> rpm_get_file_info L false r = Ok (files, false).
Proof.
  unfold rpm_get_file_info. cbv zeta. cbn [andb]. do 8 (match goal with |- context [match ?x with Some _ => _ | None => _ end] => destruct x; [|intros H; injection H as <- _; reflexivity] end).
  match goal with |- (if ?c then _ else _) = _ -> _ => destruct c eqn:E end; [discriminate|]. intros H. injection H as <- _.
  apply orb_false_elim in E as [-> _]. reflexivity.
Qed.

Lemma leadsig_front p : rpm_fetch_lead_and_signature (rpm_of p) = package_front p.
Proof. unfold rpm_fetch_lead_and_signature, rpm_export_signature, package_front, rpm_of, zeros. cbn [rp_lead rp_sig]. rewrite sig_pad_padding. reflexivity. Qed.

Lemma zlen_front p : zlen (p_lead p) = 96 -> zlen (package_front p) = 96 + 8 + zlen (p_sig p) + sig_pad (zlen (p_sig p)).
Proof.
  intros H. unfold package_front. rewrite !zlen_app, H, zlen_repeat. change (zlen HEADER_MAGIC) with 8.
  pose proof (sig_pad_range (zlen (p_sig p))). lia.
Qed.

Lemma from_app_exact {A} (a b : list A) n : n = zlen a -> from (a ++ b) n = b.
Proof. intros ->. unfold from, zlen. rewrite Nat2Z.id, skipn_app, skipn_all, Nat.sub_diag. reflexivity. Qed.

Section Read.
Variable L : libs.
Lemma read_package p want : package_ok L p ->
  rpm_read L (package_file p) ReadDecomp want =
  Ok (rpm_of p, p_comp p, lb_md5 L (HEADER_MAGIC ++ p_hdr p ++ (if want then p_payload p else [])),
      lb_md5 L (package_front p ++ HEADER_MAGIC ++ p_hdr p ++ (if want then [] else p_payload p))).
Proof.
  intros [[Hlb [Hl Hm]] [[_ Hs] [Hsr Hsz]] [Hh Hhr] [Hpb [Hp Hc]] [Hab Hd] _]. unfold rpm_read.
  pose proof (zlen_front p Hl) as Hf.
  set (F := package_file p).
  assert (E0 : slice F 0 RPMLEAD_SIZE = p_lead p).
  { unfold F, package_file, package_front. rewrite <- app_assoc. unfold RPMLEAD_SIZE. rewrite <- Hl. apply slice_app_exact_l. reflexivity. }
  rewrite E0. unfold RPMLEAD_SIZE. rewrite Hl, Hm. cbn [Z.eqb negb orb Pos.eqb list_eqb MAGIC_RPM_BYTES andb].
  assert (E1 : from F 96 = HEADER_MAGIC ++ p_sig p ++ (repeat 0 (Z.to_nat (sig_pad (zlen (p_sig p)))) ++ HEADER_MAGIC ++ p_hdr p ++ p_payload p)).
  { unfold F, package_file, package_front. rewrite <- !app_assoc. apply from_app_exact. lia. }
  rewrite E1, Hsr.
  replace (padding (96 + (8 + zlen (p_sig p))) 8) with (sig_pad (zlen (p_sig p))) by (unfold padding, sig_pad; Z.div_mod_to_equations; lia).
  assert (E2 : from F (96 + (8 + zlen (p_sig p)) + sig_pad (zlen (p_sig p))) = HEADER_MAGIC ++ p_hdr p ++ p_payload p).
  { unfold F, package_file. apply from_app_exact. lia. }
  rewrite E2, Hhr.
  assert (E3 : from F (96 + (8 + zlen (p_sig p)) + sig_pad (zlen (p_sig p)) + (8 + zlen (p_hdr p))) = p_payload p).
  { unfold F, package_file. replace (package_front p ++ HEADER_MAGIC ++ p_hdr p ++ p_payload p) with ((package_front p ++ HEADER_MAGIC ++ p_hdr p) ++ p_payload p) by (rewrite <- !app_assoc; reflexivity).
    apply from_app_exact. rewrite !zlen_app. change (zlen HEADER_MAGIC) with 8. lia. }
  unfold rpm_read_archive. rewrite E3.
  destruct (detect_exact true (p_payload p) Hpb Hp) as (s & Es & Ec & _). rewrite Es. cbn [bind].
  destruct (init_view (lb_codec L) _ _ _ Es) as [Hv Hpos]. rewrite Ec, Hc in Hv.
  destruct (read_until_eof_spec (lb_codec L) _ _ _ s Hd Hv) as (s' & E4 & Ecs & Em & Ex).
  rewrite E4. cbn [bind]. rewrite Hpos, Z.sub_0_r, slice_all, Ecs, Em, Ec, Hc.
  unfold rpm_of, rpm_export_header, rpm_export_signature, package_front, zeros. cbn [rp_lead rp_sig rp_hdr]. rewrite sig_pad_padding, <- !app_assoc.
  destruct want; reflexivity.
Qed.

(** The index entry is found. *)
Lemma format_loop h count : bytes h -> count < 2 ^ 28 -> 16 + 16 * count <= zlen h -> zlen h < 2 ^ 31 -> forall fuel i k,
  0 <= i <= k -> k < count -> (Z.to_nat (count - i) < fuel)%nat -> be_val (slice h (16 + 16 * k) 4) = 1124 ->
  exists off, payload_format_loop fuel h count i (16 + 16 * i) = Ok off /\ 0 <= off < 2 ^ 32.
Proof.
  intros Hb Hc Hz Hz2. induction fuel as [|f IH]; intros i k Hi Hk Hf Hv; [lia|]. cbn [payload_format_loop].
  rewrite (u32_small (16 + 16 * i + 16)) by lia.
  replace ((i <? count) && (16 + 16 * i + 16 <=? zlen h)) with true by lia.
  rewrite parse_be32_at_val by (auto; lia). cbn [bind].
  unfold RPMTAG_PAYLOADFORMAT. destruct (Z.eqb_spec (be_val (slice h (16 + 16 * i) 4)) 1124) as [E|E].
  - rewrite parse_be32_at_val by (auto; lia). eexists. split; [reflexivity|].
    assert (Hbs : bytes (slice h (16 + 16 * i + 8) 4)) by (apply bytes_slice; auto).
    pose proof (be_val_range _ Hbs) as X. rewrite zlen_slice in X by lia. change (2 ^ (8 * 4)) with (2 ^ 32) in X. lia.
  - rewrite (u32_small (i + 1)) by lia. replace (16 + 16 * i + 16) with (16 + 16 * (i + 1)) by lia.
    apply (IH (i + 1) k); try lia; auto. destruct (Z.eq_dec i k); [subst; contradiction|lia].
Qed.

Lemma find_format r : whole_header (rp_hdr r) -> has_format_entry (rp_hdr r) -> zlen (rp_hdr r) + 8 < 2 ^ 31 ->
  exists off, rpm_find_payload_format_offset r = Ok off /\ 0 <= off < 2 ^ 32.
Proof.
  intros [Hb [H8 Hz]] [k [Hk Hv]] Hlt. unfold rpm_find_payload_format_offset, rpm_export_header.
  set (h := rp_hdr r) in *. set (g := HEADER_MAGIC ++ h).
  assert (Hbg : bytes g) by (unfold g; apply Forall_app; split; [apply bytesb_ok; reflexivity|auto]).
  assert (Hzg : zlen g = 8 + zlen h) by (unfold g; rewrite zlen_app; reflexivity).
  rewrite parse_be32_at_val by (auto; lia). cbn [bind].
  assert (Hsl : forall o n, 0 <= o -> slice g (8 + o) n = slice h o n).
  { intros o n Ho. unfold g. rewrite slice_app_r by (change (zlen HEADER_MAGIC) with 8; lia). f_equal. change (zlen HEADER_MAGIC) with 8. lia. }
  change (slice g 8 4) with (slice g (8 + 0) 4). rewrite Hsl by lia.
  assert (Hr2 : 0 <= be_val (slice h 4 4)).
  { apply be_val_range. apply bytes_slice. auto. }
  apply (format_loop g (be_val (slice h 0 4)) Hbg ltac:(lia) ltac:(lia) ltac:(lia) _ 0 k); try lia.
  - unfold zlen in *. lia.
  - replace (16 + 16 * k) with (8 + (8 + 16 * k)) by lia. rewrite Hsl by lia. auto.
Qed.

(** Replacing lead and signature by those of another well-formed package. *)
Lemma replace_leadsig p r sig : package_ok L p -> lb_import L (p_sig p) = Some sig ->
  rpm_replace_lead_and_signature L r (package_front p) = Ok (mkrpm (p_lead p) sig (rp_hdr r) (rp_archive r) (rp_off r) (rp_csize r)).
Proof.
  intros [[Hlb [Hl Hm]] [[Hsb [Hs8 Hsz]] [Hsr Hs31]] _ _ _ _] Hi. unfold rpm_replace_lead_and_signature.
  pose proof (zlen_front p Hl) as Hf. pose proof (sig_pad_range (zlen (p_sig p))).
  unfold RPM_LEADSIG_MIN_LEN. replace (zlen (package_front p) <? 112) with false by lia.
  assert (Hsl : forall o n, 0 <= o -> 0 <= n -> o + n <= zlen (p_sig p) -> slice (package_front p) (104 + o) n = slice (p_sig p) o n).
  { intros o n Ho Hn Hle. unfold package_front. rewrite slice_app_r by (rewrite Hl; lia). rewrite slice_app_r by (rewrite Hl; change (zlen HEADER_MAGIC) with 8; lia).
    rewrite Hl. change (zlen HEADER_MAGIC) with 8. rewrite slice_app_l by lia. f_equal. lia. }
  assert (E1 : slice (package_front p) RPMLEAD_SIZE 4 = slice HEADER_MAGIC 0 4).
  { unfold package_front, RPMLEAD_SIZE. rewrite slice_app_r by lia. rewrite Hl. rewrite slice_app_l by (change (zlen HEADER_MAGIC) with 8; lia). reflexivity. }
  rewrite E1, list_eqb_refl. cbn [negb].
  assert (Hbf : bytes (package_front p)).
  { unfold package_front. repeat (apply Forall_app; split); auto; [apply bytesb_ok; reflexivity|]. apply Forall_forall. intros x Hx. apply repeat_spec in Hx. subst; unfold byte; lia. }
  rewrite !parse_be32_at_val by (auto; lia). cbn [bind].
  change (slice (package_front p) 104 4) with (slice (package_front p) (104 + 0) 4). change (slice (package_front p) 108 4) with (slice (package_front p) (104 + 4) 4). rewrite !Hsl by lia.
  rewrite rd_range_in by (pose proof (zlen_nonneg (p_sig p)); lia). cbn [bind].
  replace (8 + be_val (slice (p_sig p) 0 4) * 16 + be_val (slice (p_sig p) 4 4)) with (zlen (p_sig p)) by lia.
  change (slice (package_front p) 104 (zlen (p_sig p))) with (slice (package_front p) (104 + 0) (zlen (p_sig p))). rewrite Hsl by lia. rewrite slice_all, Hi.
  f_equal. f_equal. unfold package_front, RPMLEAD_SIZE. rewrite <- Hl. apply slice_app_exact_l. reflexivity.
Qed.
End Read.
