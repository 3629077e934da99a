(** * WireProofs: what is written has the bytes of the format *)
From Coq Require Import String.
From Verif Require Import Base BaseLemmas Utils UtilsProofs DeltaComp SpecCodec SpecDelta SpecStream SpecFormat Stream StreamProofs
  Rpm Delta Diff DeltaWrite DeltaRead CodecFinal FormatProofs FormatFinal PackageProofs TextCases SpecRpm SpecWire.
Unset Lia Cache.

Lemma be4 x : create_be32 x = be 4 x.
Proof. unfold create_be32, u8. cbn [be]. rewrite !Z.shiftr_div_pow2 by lia. change (x / 256 ^ Z.of_nat 0) with (x / 1). rewrite Z.div_1_r. reflexivity. Qed.
Lemma be8 x : create_be64 x = be 8 x.
Proof. unfold create_be64, u8. cbn [be]. rewrite !Z.shiftr_div_pow2 by lia. change (x / 256 ^ Z.of_nat 0) with (x / 1). rewrite Z.div_1_r. reflexivity. Qed.

Lemma list_numbers {A} (g : A -> Z) l : be_list g l = numbers (map g l).
Proof. unfold be_list, numbers. rewrite map_map. f_equal. apply map_ext. intros a. apply be4. Qed.
Lemma list_signeds {A} (g : A -> Z) l : Forall (fun a => is_u32 (g a) /\ g a <> 2 ^ 31) l -> numbers (map (fun a => sm_encode (g a)) l) = signeds (map g l).
Proof.
  intros H. unfold numbers, signeds. rewrite !map_map. f_equal. apply map_ext_in. intros a Ha. rewrite Forall_forall in H. specialize (H a Ha).
  destruct H as [H H']. f_equal. unfold is_u32 in H. rewrite sm_encode_spec by lia. f_equal. unfold s32, signed. rewrite u32_small by lia. reflexivity.
Qed.

Section Wire.
Variable L : libs.
Variable d : deltarpm.
Hypothesis W : wf_delta L d.
Hypothesis Hcd : codec_ok (lb_codec L).

Lemma code_exact : 2 <= d_version d -> encode_comp (d_tcomp d) (d_tlevel d) = Some (method_code (d_tcomp d) + 256 * d_tlevel d).
Proof.
  intros Hv. destruct (wf_target L d W Hv) as (_ & Hc & Hl & _). unfold supported_comp in Hc. cbn [In] in Hc.
  assert (M : forall c, 0 <= c < 256 -> mkcomp c (d_tlevel d) = c + 256 * d_tlevel d).
  { intros c Hcr. unfold mkcomp. rewrite Z.lor_comm. rewrite Z.shiftl_mul_pow2 by lia. rewrite lor_add by lia. rewrite u32_small by lia. lia. }
  unfold encode_comp, method_code. repeat destruct Hc as [<-|Hc]; try contradiction; cbn [Z.eqb COMP_NONE COMP_GZIP COMP_BZIP2 COMP_LZMA COMP_XZ COMP_ZSTD Pos.eqb];
    rewrite M by lia; reflexivity.
Qed.

Lemma payload_wire : payload d (method_code (d_tcomp d) + 256 * d_tlevel d) = wire d.
Proof.
  destruct (wf_int L d W) as [(Hi1 & _ & _) _]. destruct (wf_ext L d W) as ((He1 & _ & He2) & He3 & _).
  unfold payload, wire, w_version, w_nevr, w_seq, w_target, w_hlen, w_off, w_leadsig, w_int, w_ext, w_len, w_add, counted.
  rewrite Hi1, He1, <- (idata_len L d W), !list_numbers.
  rewrite (list_signeds (fun p => fst p) (d_ext d)).
  2:{ apply Forall_forall. intros a Ha. rewrite Forall_forall in He2, He3. split; [apply He2|apply He3]; exact Ha. }
  change (text "DLT") with [68; 76; 84]. change TYPE_STANDARD with 0.
  rewrite !be4, ?be8, !zlen_app. change (zlen [0]) with 1. change (@zlen Z []) with 0.
  destruct (version_cases L d W) as [Hv|[Hv|Hv]]; pose proof (wf_off L d W) as Ho; rewrite Hv in *; cbn [Z.leb Z.eqb Z.compare Pos.compare Pos.compare_cont Pos.eqb].
  - rewrite <- ?app_assoc. destruct (d_type d =? 0); rewrite ?be4, <- ?app_assoc, ?app_nil_r; reflexivity.
  - rewrite <- ?app_assoc. destruct (d_type d =? 0); rewrite ?be4, <- ?app_assoc, ?app_nil_r; reflexivity.
  - destruct (Ho eq_refl) as (_ & (Ho1 & _ & Ho2) & Ho3). rewrite Ho1, (list_signeds (fun p => snd p) (d_off d)).
    2:{ apply Forall_forall. intros a Ha. rewrite Forall_forall in Ho2, Ho3. split; [apply Ho2|apply Ho3]; exact Ha. }
    rewrite <- ?app_assoc. destruct (d_type d =? 0); rewrite ?be4, ?be8, <- ?app_assoc, ?app_nil_r; reflexivity.
Qed.

Lemma pieces_wire ps : delta_pieces d = Ok ps -> concat ps = wire d.
Proof.
  intros Hps. rewrite <- payload_wire. pose proof code_exact as Hc.
  set (c := method_code (d_tcomp d) + 256 * d_tlevel d) in *. clearbody c.
  destruct (wf_src L d W) as [Hs1 Hs2]. destruct (wf_seq L d W) as [Hq1 Hq2].
  destruct (wf_leadsig L d W) as [Hl1 Hl2]. destruct (wf_int L d W) as [Hi1 Hi2].
  destruct (wf_ext L d W) as (He1 & He2 & He3). destruct (wf_add L d W) as [Ha1 Ha2].
  pose proof (zlen_nonneg (d_src_nevr d)). pose proof (zlen_nonneg (d_seq d)).
  pose proof (zlen_nonneg (d_leadsig d)). pose proof (zlen_nonneg (d_add d)).
  assert (Hdata : exists ds, (match d_idata d with
          | IPtrs new offs => ints' <- rd_range (d_int d) 0 (d_intn d) ;; int_pieces new offs ints'
          | IBytes b => p <- rd_range b 0 (d_intlen d) ;; Ok [p]
          end) = Ok ds /\ concat ds = idata_bytes d).
  { pose proof (wf_idata L d W) as Hw. unfold idata_bytes. destruct (d_idata d) as [b|new offs].
    - rewrite rd_range_all by (symmetry; tauto). eexists. split; [reflexivity|]. cbn. apply app_nil_r.
    - destruct Hi1 as (-> & _ & Hu). rewrite rd_range_all by auto. cbn [bind].
      rewrite int_pieces_spec by tauto. eauto. }
  destruct Hdata as (ds & Ed & Cd).
  cut (exists ps', delta_pieces d = Ok ps' /\ concat ps' = payload d c).
  { intros (ps' & Hp & Cp). rewrite Hps in Hp. injection Hp as <-. exact Cp. }
  clear Hps.
  unfold delta_pieces. rewrite (count_half _ _ Hi1), (count_half _ _ He1).
  rewrite (rd_range_all (d_int d)), (rd_range_all (d_ext d)) by auto.
  rewrite Ed. unfold payload, w_version, w_nevr, w_seq, w_target, w_hlen, w_off, w_leadsig, w_int, w_ext, w_len, w_add.
  rewrite (u32_small (zlen (d_seq d))), (u32_small (zlen (d_leadsig d))), (u32_small (zlen (d_add d))) by lia.
  rewrite (u32_small (zlen _ + 1)) by lia.
  assert (Hver : version_str d = [68; 76; 84; 48 + d_version d]).
  { unfold version_str. pose proof (wf_version L d W). rewrite u8_small by lia. reflexivity. }
  rewrite Hver.
  pose proof (wf_extlen L d W) as Hx. pose proof (wf_intlen L d W) as Hn.
  destruct (version_cases L d W) as [Hv|[Hv|Hv]]; rewrite Hv in *; cbn [Z.leb Z.eqb Z.compare Pos.compare Pos.compare_cont Pos.eqb] in *.
  - cbn [bind]. rewrite ?u32_small by lia. eexists. split; [reflexivity|].
    rewrite !concat_app. rewrite Cd. unfold be_list.
    destruct (d_type d =? TYPE_STANDARD); cbn [concat app]; rewrite !app_nil_r, <- ?app_assoc; reflexivity.
  - rewrite (Hc ltac:(lia)). destruct (wf_target L d W ltac:(lia)) as (_ & _ & _ & _ & Hp).
    pose proof (zlen_nonneg (d_param d)).
    cbn [bind]. rewrite ?u32_small by lia. eexists. split; [reflexivity|].
    rewrite !concat_app. rewrite Cd. unfold be_list.
    destruct (d_type d =? TYPE_STANDARD); cbn [concat app]; rewrite !app_nil_r, <- ?app_assoc; reflexivity.
  - rewrite (Hc ltac:(lia)). destruct (wf_target L d W ltac:(lia)) as (_ & _ & _ & _ & Hp).
    destruct (wf_off L d W Hv) as (_ & Ho & _). rewrite (count_half _ _ Ho), (rd_range_all (d_off d)) by auto.
    pose proof (zlen_nonneg (d_param d)).
    cbn [bind]. rewrite ?u32_small by lia. eexists. split; [reflexivity|].
    rewrite !concat_app. rewrite Cd. unfold be_list.
    destruct (d_type d =? TYPE_STANDARD); cbn [concat app]; rewrite !app_nil_r, <- ?app_assoc; reflexivity.
Qed.

Lemma layout : exists file payload, write_deltarpm L d = Ok file /\ file = wire_front d (wire_signature L d payload) ++ payload /\
  decodes (lb_codec L) (d_comp d) payload (wire d) /\ (d_comp d = 0 -> payload = wire d).
Proof.
  destruct (written_stream L d W Hcd) as (c & ps & strm & s0 & s1 & s2 & o & Hc & E1 & E2 & E3 & E4 & E5 & E6 & _).
  rewrite <- E2, (pieces_wire ps E1) in E6.
  assert (E7 : d_comp d = 0 -> strm = wire d) by (intros Hz; rewrite Hz in E6; exact E6).
  pose proof (wf_head L d W) as Hw. unfold wire_front, wire_signature. destruct (d_head d) as [r|nevr] eqn:Hh.
  - destruct Hw as (Ht & _). eexists _, strm. split; [|split; [reflexivity|split; [exact E6|exact E7]]].
    unfold write_deltarpm. rewrite Ht. cbn [Z.eqb TYPE_STANDARD negb andb].
    rewrite E3. cbn [bind]. rewrite E1. cbn [bind]. rewrite E4. cbn [bind]. rewrite E5. cbn [bind].
    rewrite Hh. f_equal. unfold rpm_write, rpm_signature_make. cbn [fst rp_lead].
    unfold SpecRpm.front, rpm_export_signature, zeros, rpm_fetch_header, rpm_export_header. cbn [rp_sig rp_hdr].
    rewrite sig_pad_padding. unfold u32. rewrite <- zlen_app, <- !app_assoc. reflexivity.
  - destruct Hw as (Ht & Hv & _ & _ & Hs & Hl). eexists _, strm. split; [|split; [reflexivity|split; [exact E6|exact E7]]].
    unfold write_deltarpm. rewrite Ht. cbn [Z.eqb TYPE_STANDARD TYPE_RPMONLY negb andb Pos.eqb].
    rewrite E3. cbn [bind]. rewrite E1. cbn [bind]. rewrite E4. cbn [bind]. rewrite E5. cbn [bind].
    rewrite Hh. destruct (wf_add L d W) as [_ Ha]. pose proof (zlen_nonneg nevr). pose proof (zlen_nonneg (d_add d)).
    rewrite !u32_small by lia. unfold version_str. rewrite Hv. change (u8 (48 + 3)) with 51. unfold counted.
    rewrite <- !be4, zlen_app. change (zlen [0]) with 1. change (text "drpmDLT3") with [100; 114; 112; 109; 68; 76; 84; 51].
    rewrite <- !app_assoc. reflexivity.
Qed.

Lemma reader sig strm : readable L sig -> zlen sig + match d_head d with HRpm r => zlen (rp_hdr r) | _ => 0 end < 2 ^ 32 - 200 ->
  decodes (lb_codec L) (d_comp d) strm (wire d) -> bytes strm -> 8 <= zlen strm -> sniff strm = d_comp d ->
  exists d', read_deltarpm L (wire_front d sig ++ strm) = Ok d' /\ reads_back L d d'.
Proof.
  intros Hsig Hsz Hd Hb H8 Hs. rewrite <- payload_wire in Hd.
  set (c := method_code (d_tcomp d) + 256 * d_tlevel d) in *.
  assert (Hc : 2 <= d_version d -> is_u32 c /\ decode_comp c = Some (d_tcomp d, d_tlevel d)).
  { intros Hv. pose proof (code_exact Hv) as E. fold c in E. destruct (enc_comp_ok L d W Hv) as (c' & E' & H).
    rewrite E in E'. injection E' as <-. exact H. }
  unfold wire_front. pose proof (wf_head L d W) as Hw. destruct (d_head d) as [r|nevr] eqn:Hh.
  - destruct Hw as (Ht & Hl & Hm & Hr & [tc Hg] & _).
    set (r' := mkrpm (rp_lead r) sig (rp_hdr r) [] 0 0).
    assert (E : (SpecRpm.front (rp_lead r) sig ++ mark ++ rp_hdr r) ++ strm = std_head r' ++ strm).
    { unfold std_head, SpecRpm.front, rpm_export_signature, zeros, rpm_export_header, r'. cbn [rp_lead rp_sig rp_hdr].
      rewrite sig_pad_padding, <- !app_assoc. reflexivity. }
    rewrite E, (read_std_delta L r' strm tc); [| |exact Hg].
    2:{ unfold r'. split; cbn [rp_lead rp_sig rp_hdr]; auto. }
    rewrite <- Ht. eexists. split; [apply (read_whole L d W c); auto|].
    apply rb_rec_ok; auto.
    + rewrite Hh. eexists. split; [reflexivity|]. auto.
    + rewrite Ht. discriminate.
  - destruct Hw as (Ht & Hv & _ & _ & Hs' & Hl).
    assert (E : (text "drpmDLT3" ++ counted (nevr ++ [0]) ++ counted (d_add d)) ++ strm = only_head d nevr ++ strm).
    { unfold only_head, counted. rewrite !be4, zlen_app. change (zlen [0]) with 1.
      change (text "drpmDLT3") with [100; 114; 112; 109; 68; 76; 84; 51]. rewrite <- !app_assoc. reflexivity. }
    rewrite E, (read_only L d W nevr) by auto. rewrite <- Ht. eexists. split; [apply (read_whole L d W c); auto|].
    apply rb_rec_ok; auto. rewrite Hh. reflexivity.
Qed.
End Wire.
