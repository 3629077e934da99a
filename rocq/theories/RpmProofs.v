(** * RpmProofs: RPM files are cut into their parts, headers are asked for the right tags *)
From Coq Require Import String.
From Verif Require Import Base BaseLemmas SpecCodec Utils UtilsProofs Rpm PackageProofs SpecMake SpecRpm.
Unset Lia Cache.

Lemma firstn_slice {A} (l : list A) n : 0 <= n -> slice l 0 n = firstn (Z.to_nat n) l.
Proof. intros H. unfold slice. reflexivity. Qed.

Section Read.
Variable L : libs.
Hypothesis HL : headers_inside L.

Lemma cut_at (l : list Z) n : 0 <= n <= zlen l -> l = slice l 0 n ++ from l n /\ zlen (slice l 0 n) = n.
Proof.
  intros H. split; [|apply zlen_slice; lia]. unfold slice, from. cbn. rewrite firstn_skipn. reflexivity.
Qed.

Definition kept (mode : archive_mode) (payload : list Z) : list Z := match mode with ReadUncomp => payload | _ => [] end.

Lemma read_split file mode want r comp seq full : mode <> ReadDecomp ->
  rpm_read L file mode want = Ok (r, comp, seq, full) <->
  exists payload, parts L file (rp_lead r) (rp_sig r) (rp_hdr r) payload /\ rp_archive r = kept mode payload /\
    rp_off r = 0 /\ rp_csize r = zlen (kept mode payload) /\ comp = 0 /\
    seq = lb_md5 L (mark ++ rp_hdr r ++ kept mode payload) /\
    full = lb_md5 L (front (rp_lead r) (rp_sig r) ++ mark ++ rp_hdr r ++ kept mode payload).
Proof.
  intros Hmode. assert (Epad : forall n, padding (96 + n) 8 = (- n) mod 8) by (intros n; unfold padding; Z.div_mod_to_equations; lia).
  assert (Efront : forall lead sig, lead ++ rpm_export_signature (mkrpm lead sig [] [] 0 0) = front lead sig).
  { intros lead sig. unfold rpm_export_signature, front, zeros. cbn [rp_sig]. rewrite sig_pad_padding. reflexivity. }
  split.
  - unfold rpm_read, RPMLEAD_SIZE, MAGIC_RPM_BYTES. destruct (_ || _) eqn:Em; [discriminate|].
    apply orb_false_elim in Em as [E1 E2]. apply negb_false_iff in E1, E2. apply Z.eqb_eq in E1. apply list_eqb_spec in E2.
    destruct (lb_read L (from file 96)) as [[sig n]|] eqn:Es; [|discriminate].
    destruct (lb_read L (from file (96 + n + padding (96 + n) 8))) as [[hdr m]|] eqn:Eh; [|discriminate].
    intros H. pose proof (HL _ _ _ Es) as Hn. pose proof (HL _ _ _ Eh) as Hm.
    assert (Hf : 96 <= zlen file). { destruct (Z.leb_spec 96 (zlen file)); [auto|]. exfalso. revert E1. unfold slice. cbn [skipn Z.to_nat]. unfold zlen in *. rewrite firstn_length. lia. }
    assert (Hp : 0 <= padding (96 + n) 8 < 8) by (rewrite Epad; apply Z.mod_pos_bound; lia).
    set (p := padding (96 + n) 8) in *.
    assert (Hfrom : forall k, 0 <= k -> zlen (from file k) = Z.max 0 (zlen file - k)). { intros k Hk. unfold from, zlen. rewrite skipn_length. lia. }
    rewrite Hfrom in Hn, Hm by lia.
    destruct (cut_at file 96 ltac:(lia)) as [F1 Z1]. destruct (cut_at (from file 96) n ltac:(rewrite Hfrom; lia)) as [F2 Z2].
    assert (Ff : forall a b, 0 <= a -> 0 <= b -> from (from file a) b = from file (a + b)).
    { intros a b Ha Hb. unfold from. rewrite skipn_skipn. f_equal. lia. }
    rewrite Ff in F2 by lia. destruct (cut_at (from file (96 + n)) p ltac:(rewrite Hfrom; lia)) as [F3 Z3]. rewrite Ff in F3 by lia.
    destruct (cut_at (from file (96 + n + p)) m ltac:(rewrite Hfrom; lia)) as [F4 Z4]. rewrite Ff in F4 by lia.
    exists (from file (96 + n + p + m)).
    assert (G : r = mkrpm (slice file 0 96) sig hdr (kept mode (from file (96 + n + p + m))) 0 (zlen (kept mode (from file (96 + n + p + m)))) /\ comp = 0 /\
      seq = lb_md5 L (rpm_export_header (mkrpm (slice file 0 96) sig hdr [] 0 0) ++ kept mode (from file (96 + n + p + m))) /\
      full = lb_md5 L (slice file 0 96 ++ rpm_export_signature (mkrpm (slice file 0 96) sig hdr [] 0 0) ++ rpm_export_header (mkrpm (slice file 0 96) sig hdr [] 0 0) ++ kept mode (from file (96 + n + p + m)))).
    { destruct mode; [| |contradiction]; cbn [bind kept] in *; [|cbn [rpm_read_archive bind] in H]; injection H as <- <- <- <-; auto. }
    destruct G as (-> & -> & -> & ->). cbn [rp_lead rp_sig rp_hdr rp_archive rp_off rp_csize].
    split.
    + exists (slice (from file 96) 0 n), (slice (from file (96 + n)) 0 p), (slice (from file (96 + n + p)) 0 m).
      rewrite Z2, Z3, Z4. rewrite <- F4, <- F3, <- F2, <- F1. repeat split; auto; try lia.
      exists ((96 + n + p) / 8). unfold p. unfold padding. Z.div_mod_to_equations; lia.
    + repeat split; auto. f_equal. rewrite app_assoc. f_equal. apply Efront.
  - intros (payload & (s & gap & h & -> & H96 & Hmag & Es & Hgap & [k Hk] & Eh) & Ha & Ho & Hc & -> & -> & ->).
    pose proof (HL _ _ _ Es) as Hn. pose proof (HL _ _ _ Eh) as Hm. pose proof (zlen_nonneg gap) as Hg0.
    unfold rpm_read, RPMLEAD_SIZE, MAGIC_RPM_BYTES.
    set (rest := s ++ gap ++ h ++ payload) in *. rewrite (slice_app_exact_l (rp_lead r) rest 96) by auto.
    rewrite (from_app_exact (rp_lead r) rest 96) by auto. rewrite H96. change (96 =? 96) with true.
    change (slice (rp_lead r) 0 4) with (firstn 4 (rp_lead r)). rewrite Hmag, list_eqb_refl. cbn [negb orb]. rewrite Es.
    replace (padding (96 + zlen s) 8) with (zlen gap) by (unfold padding; Z.div_mod_to_equations; lia).
    replace (from (rp_lead r ++ rest) (96 + zlen s + zlen gap)) with (h ++ payload).
    2: { unfold rest. replace (rp_lead r ++ s ++ gap ++ h ++ payload) with ((rp_lead r ++ s ++ gap) ++ h ++ payload) by (rewrite <- !app_assoc; reflexivity).
         symmetry. apply from_app_exact. rewrite !zlen_app. lia. }
    rewrite Eh. unfold rpm_read_archive.
    replace (from (rp_lead r ++ rest) (96 + zlen s + zlen gap + zlen h)) with payload.
    2: { unfold rest. replace (rp_lead r ++ s ++ gap ++ h ++ payload) with ((rp_lead r ++ s ++ gap ++ h) ++ payload) by (rewrite <- !app_assoc; reflexivity).
         symmetry. apply from_app_exact. rewrite !zlen_app. lia. }
    destruct r as [lead sig hdr archive off csize]. cbn [rp_lead rp_sig rp_hdr rp_archive rp_off rp_csize] in *. subst.
    destruct mode; [| |contradiction]; cbn [bind kept]; unfold rpm_export_header; cbn [rp_hdr]; rewrite <- Efront, <- !app_assoc; reflexivity.
Qed.

Lemma read_or_refuse file mode want : mode <> ReadDecomp ->
  (exists x, rpm_read L file mode want = Ok x) \/ rpm_read L file mode want = Err EFormat.
Proof.
  intros H. unfold rpm_read. destruct (_ || _); [auto|]. destruct (lb_read L _) as [[? ?]|]; [|auto]. destruct (lb_read L (from file (_ + _))) as [[? ?]|]; [|auto].
  destruct mode; [| |contradiction]; left; eexists; reflexivity.
Qed.
End Read.

(** ** Header queries *)
Lemma comp_table L r code : rpm_get_comp L r = Ok code <-> named L (rp_hdr r) 1125 compressors code.
Proof.
  unfold rpm_get_comp, named, RPMTAG_PAYLOADCOMPRESSOR. destruct (lb_string L (rp_hdr r) 1125) as [s|].
  2: { split; [discriminate|]. intros (n & H & _). discriminate. }
  split.
  - intros H. exists s. split; [reflexivity|].
    repeat match type of H with (if list_eqb s ?x then _ else _) = _ => destruct (list_eqb s x) eqn:E; [apply list_eqb_spec in E; injection H as <-; subst s; cbn; auto 10|clear E] end. discriminate.
  - intros (n & [= <-] & H). cbn in H. repeat (destruct H as [[= <- <-]|H]; [reflexivity|]). contradiction.
Qed.
Lemma comp_refused L r : (exists code, rpm_get_comp L r = Ok code) \/ rpm_get_comp L r = Err EFormat.
Proof.
  unfold rpm_get_comp. destruct (lb_string L _ _) as [s|]; [|auto].
  repeat match goal with |- context [list_eqb s ?x] => destruct (list_eqb s x); [left; eexists; reflexivity|] end. auto.
Qed.

Lemma format_table L r code : rpm_get_payload_format L r = Ok code <-> named L (rp_hdr r) 1124 formats code.
Proof.
  unfold rpm_get_payload_format, named, RPMTAG_PAYLOADFORMAT. destruct (lb_string L (rp_hdr r) 1124) as [s|].
  2: { split; [discriminate|]. intros (n & H & _). discriminate. }
  split.
  - intros H. exists s. split; [reflexivity|].
    repeat match type of H with (if list_eqb s ?x then _ else _) = _ => destruct (list_eqb s x) eqn:E; [apply list_eqb_spec in E; injection H as <-; subst s; cbn; auto 10|clear E] end. discriminate.
  - intros (n & [= <-] & H). cbn in H. repeat (destruct H as [[= <- <-]|H]; [reflexivity|]). contradiction.
Qed.

Lemma isdigit_ok c : digit c -> isdigit c = true /\ isspace c = false /\ (c =? 45) = false /\ (c =? 43) = false.
Proof. unfold digit, isdigit, isspace. lia. Qed.
Lemma level_digits L r :
  (forall a, digit a -> lb_string L (rp_hdr r) 1126 = Some [a] -> rpm_get_comp_level L r = Ok (a - 48)) /\
  (forall a b, digit a -> digit b -> lb_string L (rp_hdr r) 1126 = Some [a; b] -> rpm_get_comp_level L r = Ok (10 * (a - 48) + (b - 48))) /\
  (forall s, 2 < zlen s -> lb_string L (rp_hdr r) 1126 = Some s -> rpm_get_comp_level L r = Err EFormat) /\
  (lb_string L (rp_hdr r) 1126 = None -> rpm_get_comp_level L r = Err EFormat).
Proof.
  unfold rpm_get_comp_level, RPMTAG_PAYLOADFLAGS. repeat split.
  - intros a Ha ->. change (2 <? zlen [a]) with false. destruct (isdigit_ok a Ha) as (E1 & E2 & E3 & E4).
    cbn [atoi]. rewrite E2, E3, E4. cbn [atoi_digits]. rewrite E1. unfold u16. rewrite Z.mod_small by (unfold digit in *; lia). f_equal; lia.
  - intros a b Ha Hb ->. change (2 <? zlen [a; b]) with false. destruct (isdigit_ok a Ha) as (E1 & E2 & E3 & E4). destruct (isdigit_ok b Hb) as (B1 & _).
    cbn [atoi]. rewrite E2, E3, E4. cbn [atoi_digits]. rewrite E1, B1. unfold u16. rewrite Z.mod_small by (unfold digit in *; lia). f_equal; lia.
  - intros s Hs ->. replace (2 <? zlen s) with true by lia. reflexivity.
  - intros ->. reflexivity.
Qed.

(** ** The index entry of the payload format *)
Lemma loop_first h count : bytes h -> zlen h < 2 ^ 31 -> 0 <= count -> forall fuel i k,
  0 <= i <= k -> k < count -> 16 + 16 * k + 16 <= zlen h -> (Z.to_nat (k - i) < fuel)%nat ->
  (forall j, i <= j < k -> be_val (slice h (16 + 16 * j) 4) <> 1124) -> be_val (slice h (16 + 16 * k) 4) = 1124 ->
  payload_format_loop fuel h count i (16 + 16 * i) = Ok (be_val (slice h (16 + 16 * k + 8) 4)).
Proof.
  intros Hb Hz Hc. induction fuel as [|f IH]; intros i k Hi Hk Hkz Hf Hno Hv; [lia|]. cbn [payload_format_loop].
  rewrite (u32_small (16 + 16 * i + 16)) by lia. replace ((i <? count) && (16 + 16 * i + 16 <=? zlen h)) with true by lia.
  rewrite parse_be32_at_val by (auto; lia). cbn [bind]. unfold RPMTAG_PAYLOADFORMAT.
  destruct (Z.eq_dec i k) as [->|Hne].
  - rewrite Hv. change (1124 =? 1124) with true. cbv iota. apply parse_be32_at_val; auto; lia.
  - specialize (Hno i) as Hn. replace (be_val (slice h (16 + 16 * i) 4) =? 1124) with false by (specialize (Hn ltac:(lia)); lia).
    rewrite (u32_small (i + 1)) by lia. replace (16 + 16 * i + 16) with (16 + 16 * (i + 1)) by lia. apply IH; auto; try lia. intros j Hj. apply Hno. lia.
Qed.
Lemma loop_none h count : bytes h -> zlen h < 2 ^ 31 -> 0 <= count -> 16 + 16 * count <= zlen h -> forall fuel i,
  0 <= i <= count -> (Z.to_nat (count - i) < fuel)%nat ->
  (forall j, i <= j < count -> be_val (slice h (16 + 16 * j) 4) <> 1124) ->
  payload_format_loop fuel h count i (16 + 16 * i) = Err EFormat.
Proof.
  intros Hb Hz Hc Hcz. induction fuel as [|f IH]; intros i Hi Hf Hno; [lia|]. cbn [payload_format_loop].
  destruct (Z.ltb_spec i count) as [Hlt|Hge]; [|reflexivity].
  rewrite (u32_small (16 + 16 * i + 16)) by lia. replace (true && (16 + 16 * i + 16 <=? zlen h)) with true by lia.
  rewrite parse_be32_at_val by (auto; lia). cbn [bind]. unfold RPMTAG_PAYLOADFORMAT.
  specialize (Hno i) as Hn. replace (be_val (slice h (16 + 16 * i) 4) =? 1124) with false by (specialize (Hn ltac:(lia)); lia).
  rewrite (u32_small (i + 1)) by lia. replace (16 + 16 * i + 16) with (16 + 16 * (i + 1)) by lia. apply IH; auto; try lia. intros j Hj. apply Hno. lia.
Qed.

Lemma format_entry r : whole_header (rp_hdr r) -> zlen (rp_hdr r) < 2 ^ 31 - 8 ->
  (forall k, 0 <= k < entries (rp_hdr r) -> entry_tag (rp_hdr r) k = 1124 -> (forall j, 0 <= j < k -> entry_tag (rp_hdr r) j <> 1124) ->
     rpm_find_payload_format_offset r = Ok (entry_pos (rp_hdr r) k)) /\
  ((forall k, 0 <= k < entries (rp_hdr r) -> entry_tag (rp_hdr r) k <> 1124) -> rpm_find_payload_format_offset r = Err EFormat).
Proof.
  intros [Hb [H8 Hz]] Hlt. unfold rpm_find_payload_format_offset, rpm_export_header, entries, entry_tag, entry_pos.
  set (h := rp_hdr r) in *. set (g := HEADER_MAGIC ++ h).
  assert (Hbg : bytes g) by (unfold g; apply Forall_app; split; [apply bytesb_ok; reflexivity|auto]).
  assert (Hzg : zlen g = 8 + zlen h) by (unfold g; rewrite zlen_app; reflexivity).
  assert (Hsl : forall o n, 0 <= o -> slice g (8 + o) n = slice h o n).
  { intros o n Ho. unfold g. rewrite slice_app_r by (change (zlen HEADER_MAGIC) with 8; lia). f_equal. change (zlen HEADER_MAGIC) with 8. lia. }
  rewrite parse_be32_at_val by (auto; lia). cbn [bind]. change (slice g 8 4) with (slice g (8 + 0) 4). rewrite Hsl by lia.
  assert (Hr1 : 0 <= be_val (slice h 0 4)) by (apply be_val_range, bytes_slice; auto).
  assert (Hr2 : 0 <= be_val (slice h 4 4)) by (apply be_val_range, bytes_slice; auto).
  set (count := be_val (slice h 0 4)) in *.
  assert (Hfuel : (Z.to_nat count < S (length g))%nat) by (unfold zlen in *; lia).
  split.
  - intros k Hk Hv Hno. change 16 with (16 + 16 * 0) at 1. rewrite (loop_first g count Hbg ltac:(lia) ltac:(lia) _ 0 k); try lia.
    + f_equal. f_equal. replace (16 + 16 * k + 8) with (8 + (8 + 16 * k + 8)) by lia. apply Hsl. lia.
    + intros j Hj. replace (16 + 16 * j) with (8 + (8 + 16 * j)) by lia. rewrite Hsl by lia. apply Hno. lia.
    + replace (16 + 16 * k) with (8 + (8 + 16 * k)) by lia. rewrite Hsl by lia. auto.
  - intros Hno. change 16 with (16 + 16 * 0) at 1. apply loop_none; auto; try lia.
    intros j Hj. replace (16 + 16 * j) with (8 + (8 + 16 * j)) by lia. rewrite Hsl by lia. apply Hno. lia.
Qed.

(** ** The table of files *)
Lemma infos_rows : forall names flags md5s rdevs sizes modes verify linktos colors k f,
  length flags = length names -> length md5s = length names -> length rdevs = length names -> length sizes = length names ->
  length modes = length names -> length verify = length names -> length linktos = length names ->
  nth_error (file_infos names flags md5s rdevs sizes modes verify linktos colors) k = Some f <->
  nth_error names k = Some (fi_name f) /\ nth_error flags k = Some (fi_flags f) /\ nth_error md5s k = Some (fi_md5 f) /\ nth_error rdevs k = Some (fi_rdev f) /\
  nth_error sizes k = Some (fi_size f) /\ nth_error modes k = Some (fi_mode f) /\ nth_error verify k = Some (fi_verify f) /\ nth_error linktos k = Some (fi_linkto f) /\
  fi_color f = nth k colors 0.
Proof.
  induction names as [|n names IH]; intros flags md5s rdevs sizes modes verify linktos colors k f H1 H2 H3 H4 H5 H6 H7.
  - cbn [file_infos]. destruct k; cbn; split; try discriminate; intros [H _]; discriminate.
  - destruct flags as [|x1 flags], md5s as [|x2 md5s], rdevs as [|x3 rdevs], sizes as [|x4 sizes], modes as [|x5 modes], verify as [|x6 verify], linktos as [|x7 linktos]; try discriminate.
    cbn [file_infos]. destruct k as [|k].
    + cbn [nth_error]. replace (hd 0 colors) with (nth 0 colors 0) by (destruct colors; reflexivity). destruct f as [g1 g2 g3 g4 g5 g6 g7 g8 g9]; cbn [fi_name fi_flags fi_md5 fi_rdev fi_size fi_mode fi_verify fi_linkto fi_color]. split.
      * intros [= <- <- <- <- <- <- <- <- <-]. auto 10.
      * intros ([= <-] & [= <-] & [= <-] & [= <-] & [= <-] & [= <-] & [= <-] & [= <-] & ->). reflexivity.
    + cbn [nth_error]. cbn [length] in *. rewrite IH by lia. replace (nth k (tl colors) 0) with (nth (S k) colors 0) by (destruct colors; [destruct k|]; reflexivity). reflexivity.
Qed.
Lemma infos_length : forall names flags md5s rdevs sizes modes verify linktos colors,
  length flags = length names -> length md5s = length names -> length rdevs = length names -> length sizes = length names ->
  length modes = length names -> length verify = length names -> length linktos = length names ->
  length (file_infos names flags md5s rdevs sizes modes verify linktos colors) = length names.
Proof.
  induction names as [|n names IH]; intros flags md5s rdevs sizes modes verify linktos colors H1 H2 H3 H4 H5 H6 H7; [reflexivity|].
  destruct flags as [|x1 flags], md5s as [|x2 md5s], rdevs as [|x3 rdevs], sizes as [|x4 sizes], modes as [|x5 modes], verify as [|x6 verify], linktos as [|x7 linktos]; try discriminate.
  cbn [file_infos length] in *. f_equal. apply IH; lia.
Qed.

Lemma files_table L want r : let t := lb_files L (rp_hdr r) in
  (forall n, columns t n -> (want = true -> forall l, ft_colors t = Some l -> zlen l = n) ->
     exists files, rpm_get_file_info L want r = Ok (files, want && match ft_colors t with Some _ => true | None => false end) /\
       zlen files = n /\ forall k f, nth_error files k = Some f <-> same_row t k f) /\
  (complete t -> (~ exists n, columns t n) -> rpm_get_file_info L want r = Err EFormat) /\
  (forall n l, columns t n -> want = true -> ft_colors t = Some l -> zlen l <> n -> rpm_get_file_info L want r = Err EFormat) /\
  (~ complete t -> rpm_get_file_info L want r = Ok ([], false)).
Proof.
  cbv zeta. unfold rpm_get_file_info, columns, complete, has, same_row. destruct (lb_files L (rp_hdr r)) as [names flags md5s rdevs sizes modes verify linktos colors].
  cbn [ft_names ft_flags ft_md5s ft_rdevs ft_sizes ft_modes ft_verify ft_linktos ft_colors].
  assert (Zl : forall A B (a : list A) (b : list B), zlen a = zlen b -> length a = length b) by (intros A B a b H; unfold zlen in H; lia).
  repeat split.
  - intros n ((l1 & -> & Z1) & (l2 & -> & Z2) & (l3 & -> & Z3) & (l4 & -> & Z4) & (l5 & -> & Z5) & (l6 & -> & Z6) & (l7 & -> & Z7) & (l8 & -> & Z8)) Hcol.
    rewrite Z1, Z2, Z3, Z4, Z5, Z6, Z7, Z8, Z.eqb_refl. cbn [negb orb].
    replace (want && (match colors with Some _ => true | None => false end) && negb (n =? zlen (match colors with Some c => c | None => [] end))) with false.
    2: { destruct want; [|reflexivity]. destruct colors as [c|]; [|reflexivity]. rewrite (Hcol eq_refl c eq_refl), Z.eqb_refl. reflexivity. }
    eexists. split; [reflexivity|]. split.
    + unfold zlen. rewrite infos_length; [exact Z1|..]; apply Zl; congruence.
    + intros k f. rewrite infos_rows; [|apply Zl; congruence..]. destruct colors as [c|]; [reflexivity|]. replace (nth k (@nil Z) 0) with 0 by (destruct k; reflexivity). reflexivity.
  - intros (N1 & N2 & N3 & N4 & N5 & N6 & N7 & N8) Hno.
    destruct names as [l1|], flags as [l2|], md5s as [l3|], rdevs as [l4|], sizes as [l5|], modes as [l6|], verify as [l7|], linktos as [l8|]; try congruence.
    match goal with |- (if ?c then _ else _) = _ => destruct c eqn:E end; [reflexivity|exfalso]. apply Hno. exists (zlen l1).
    repeat (apply orb_false_elim in E as [E ?]). rewrite !negb_false_iff, !Z.eqb_eq in *.
    repeat split; eexists; (split; [reflexivity|]); congruence.
  - intros n l ((l1 & -> & Z1) & (l2 & -> & Z2) & (l3 & -> & Z3) & (l4 & -> & Z4) & (l5 & -> & Z5) & (l6 & -> & Z6) & (l7 & -> & Z7) & (l8 & -> & Z8)) -> -> Hne.
    cbn [andb]. replace (zlen l1 =? zlen l) with false by lia. cbn [negb]. rewrite orb_true_r. reflexivity.
  - intros Hno. destruct names as [l1|], flags as [l2|], md5s as [l3|], rdevs as [l4|], sizes as [l5|], modes as [l6|], verify as [l7|], linktos as [l8|]; try reflexivity.
    exfalso. apply Hno. repeat split; discriminate.
Qed.
