(** * ArchiveSafe: the archive parser on arbitrary archives *)
From Verif Require Import Base BaseLemmas Sat Utils SpecCodec UtilsProofs CpioHeader CpioHeaderProofs CodecFinal
     Rpm FormatFinal Seq SeqProofs Expand SeqFinal Archive SpecArchive ArchiveProofs ArchiveMain ArchiveLoop ArchiveFinal.

(** ** Encoding any list of indices *)
Lemma append_bound s ns v : enc s ns -> 0 <= v < 2 ^ 32 ->
  exists s' ns', seq_append s v = Ok s' /\ enc s' ns' /\ zlen ns <= zlen ns' <= zlen ns + 12.
Proof.
  intros He Hv. destruct (seq_append_ok s ns v He Hv) as (s' & E & He' & _). exists s', (ns ++ number_nibs v).
  split; [auto|]. split; [auto|]. rewrite zlen_app. unfold number_nibs. unfold zlen at 3 5. rewrite ?digits_len.
  destruct (number_count v Hv) as [_ Hc]. pose proof (digits_len (digit_count 11 v) v) as Hd. unfold zlen in Hd. lia.
Qed.

Lemma add_bound s ns i : enc s ns -> 0 <= i < 2 ^ 32 ->
  exists s' ns', seq_add s i = Ok s' /\ enc s' ns' /\ zlen ns' <= zlen ns + 36.
Proof.
  intros He Hi. unfold seq_add. destruct (i =? fs_last s + 1).
  - exists (mkfs (fs_data s) (fs_index s) (fs_start s) (fs_last s + 1)), ns. split; [reflexivity|]. split; [|lia].
    destruct He as (A & B & C). split; auto.
  - set (v := u32 (fs_last s - fs_start s + 1)).
    assert (H1 : exists s1 ns1, (if 0 <? v then seq_append s v else Ok s) = Ok s1 /\ enc s1 ns1 /\ zlen ns <= zlen ns1 <= zlen ns + 12).
    { destruct (0 <? v); [apply append_bound; [auto|apply u32_range]|]. exists s, ns. split; [auto|]. split; [auto|lia]. }
    destruct H1 as (s1 & ns1 & -> & He1 & Hz1). cbn [bind].
    assert (H2 : exists s2 ns2, (if (0 <=? fs_last s1) && (fs_last s1 + 1 <? i) then seq_append s1 (u32 (i - (fs_last s1 + 1)))
        else s <- seq_append s1 0 ;; seq_append s i) = Ok s2 /\ enc s2 ns2 /\ zlen ns1 <= zlen ns2 <= zlen ns1 + 24).
    { destruct (_ && _).
      - destruct (append_bound s1 ns1 (u32 (i - (fs_last s1 + 1))) He1 (u32_range _)) as (s2 & ns2 & -> & He2 & Hz2).
        exists s2, ns2. split; [auto|]. split; [auto|lia].
      - destruct (append_bound s1 ns1 0 He1 ltac:(lia)) as (s2 & ns2 & -> & He2 & Hz2). cbn [bind].
        destruct (append_bound s2 ns2 i He2 Hi) as (s3 & ns3 & -> & He3 & Hz3). exists s3, ns3. split; [auto|]. split; [auto|lia]. }
    destruct H2 as (s2 & ns2 & -> & He2 & Hz2). cbn [bind].
    eexists. exists ns2. split; [reflexivity|]. split; [|lia]. destruct He2 as (A & B & C). split; auto.
Qed.

Lemma final_bound s ns : enc s ns -> exists code, seq_final s = Ok code /\ 2 * zlen code <= zlen ns + 13.
Proof.
  intros He. unfold seq_final. set (v := u32 (fs_last s - fs_start s + 1)).
  assert (H1 : exists s1 ns1, (if 0 <? v then seq_append s v else Ok s) = Ok s1 /\ enc s1 ns1 /\ zlen ns <= zlen ns1 <= zlen ns + 12).
  { destruct (0 <? v); [apply append_bound; [auto|apply u32_range]|]. exists s, ns. split; [auto|]. split; [auto|lia]. }
  destruct H1 as (s1 & ns1 & -> & ((rest & Hdat) & Hn1 & Hi1) & Hz1). cbn [bind].
  rewrite Hdat, Hi1. unfold SEQ_BYTE_LEN.
  pose proof (zlen_nonneg rest). pose proof (zlen_nonneg ns1). pose proof (Z.div_pos (zlen ns1 + 1) 2).
  rewrite rd_range_in by (rewrite ?zlen_app, ?zlen_map, ?zlen_pack; lia).
  cbn [bind]. rewrite slice_app_exact_l by (rewrite zlen_map, zlen_pack; reflexivity). rewrite stored_map.
  exists (pack ns1). split; [reflexivity|]. rewrite zlen_pack.
  pose proof (Z.mul_div_le (zlen ns1 + 1) 2 ltac:(lia)). lia.
Qed.

Lemma enc_init : enc SEQ_INIT [].
Proof. split; [exists []; reflexivity|]. split; [constructor|reflexivity]. Qed.

Lemma encode_bound l : Forall (fun i => 0 <= i < 2 ^ 32) l ->
  exists code, seq_encode l = Ok code /\ 2 * zlen code <= 36 * zlen l + 13.
Proof.
  intros Hl. unfold seq_encode.
  assert (H : forall s ns, enc s ns -> exists s' ns', seq_add_all s l = Ok s' /\ enc s' ns' /\ zlen ns' <= zlen ns + 36 * zlen l).
  { induction l as [|i l IH]; intros s ns He; cbn [seq_add_all].
    - exists s, ns. change (@zlen Z []) with 0. split; [auto|]. split; [auto|lia].
    - inversion Hl; subst. destruct (add_bound s ns i He) as (s1 & ns1 & -> & He1 & Hz1); [auto|]. cbn [bind].
      destruct (IH ltac:(auto) s1 ns1 He1) as (s2 & ns2 & -> & He2 & Hz2). exists s2, ns2. split; [auto|]. split; [auto|].
      rewrite zlen_cons. lia. }
  destruct (H _ _ enc_init) as (s & ns & -> & He & Hz). cbn [bind]. change (@zlen Z []) with 0 in Hz.
  destruct (final_bound s ns He) as (code & E & Hc). exists code. split; [auto|lia].
Qed.

(** ** Adjustments depend on the gap modulo 2^32 *)
Lemma offadj_prev len : forall f adj cap p1 p2 pos, u32 (len - p1) = u32 (len - p2) ->
  offadj_loop f adj cap len p1 pos = offadj_loop f adj cap len p2 pos.
Proof.
  induction f as [|f IH]; intros adj cap p1 p2 pos H; [reflexivity|]. cbn [offadj_loop]. rewrite H.
  destruct (_ <=? _); [reflexivity|]. destruct (2 ^ 31 <=? u32 (len - p2)); [|reflexivity].
  apply IH. replace (len - (p1 + INT32_MAX)) with ((len - p1) - INT32_MAX) by lia.
  replace (len - (p2 + INT32_MAX)) with ((len - p2) - INT32_MAX) by lia.
  unfold u32 in *. rewrite (Zminus_mod (len - p1)), (Zminus_mod (len - p2)), H. reflexivity.
Qed.

Lemma offadj_any len adj cap prev pos : cap_inv adj cap ->
  exists new cap', offadj_loop (offadj_fuel len pos) adj cap len prev pos = Ok (adj ++ new, cap') /\
    cap_inv (adj ++ new) cap' /\ Forall adj_range new.
Proof.
  intros Hc. pose proof (u32_range (len - prev)) as Hr.
  rewrite (offadj_prev len _ adj cap prev (len - u32 (len - prev)) pos).
  - destruct (offadj_ok len adj cap (len - u32 (len - prev)) pos Hc ltac:(lia)) as (new & cap' & E & Hc' & [_ _ _ D]). eauto 6.
  - replace (len - (len - u32 (len - prev))) with (u32 (len - prev)) by lia. symmetry. apply u32_small. lia.
Qed.

(** ** Reading past the end *)
Lemma chunk_err r o n : 0 <= o <= zlen (rp_archive r) -> 0 <= n < 2 ^ 40 -> zlen (rp_archive r) < o + n -> zlen (rp_archive r) < 2 ^ 62 ->
  rpm_archive_read_chunk (set_off r o) n = Err EFormat.
Proof.
  intros Ho Hn Hl Hb. unfold rpm_archive_read_chunk. cbn [set_off rp_archive rp_off].
  rewrite u64_small by lia. replace (_ <? _) with true by lia. reflexivity.
Qed.

Lemma data_loop_err r : zlen (rp_archive r) < 2 ^ 62 -> forall fuel o g pos n copy,
  0 <= o <= zlen (rp_archive r) -> 0 <= n < 2 ^ 40 -> zlen (rp_archive r) < o + n -> n <= Z.of_nat fuel * BUFFER_SIZE ->
  gb_inv g -> zlen (gb_data g) + n < 2 ^ 63 ->
  data_loop fuel (set_off r o) g pos n copy = Err EFormat.
Proof.
  intros Hb. induction fuel as [|fuel IH]; intros o g pos n copy Ho Hn Hl Hf Hg Hgl; [lia|].
  cbn [data_loop]. replace (0 <? n) with true by lia.
  assert (Hmin : 0 < Z.min n BUFFER_SIZE <= n) by (change BUFFER_SIZE with 4096; lia).
  set (m := Z.min n BUFFER_SIZE) in *.
  destruct (Z.lt_ge_cases (zlen (rp_archive r)) (o + m)) as [Hlt|Hge].
  - rewrite chunk_err by lia. reflexivity.
  - rewrite chunk_ok by lia. cbn [bind]. change BUFFER_SIZE with 4096 in *.
    assert (Hsl : zlen (slice (rp_archive r) o m) = m) by (apply zlen_slice; lia).
    destruct copy.
    + destruct (extend_ok g (slice (rp_archive r) o m) Hg ltac:(lia)) as (g1 & E1 & D1 & I1). rewrite E1. cbn [bind].
      apply IH; auto; try lia. rewrite D1, zlen_app. lia.
    + cbn [bind]. apply IH; auto; lia.
Qed.

Section Safe.
Variable L : libs.
Variable unpatched : option (list Z -> list Z -> bool).
Variable offadj : bool.
Variable files : list file_info.
Variable colors : bool.
Variable sha : bool.
Variable r : rpm.
Notation archive := (rp_archive r).

Hypothesis Harch : zlen archive < 2 ^ 32.
Hypothesis Hfiles : Forall wf_file files.
Hypothesis Hcount : zlen files < 2 ^ 32.

Lemma copy_data_err s o size (copy : bool) : as_rpm s = set_off r o -> 0 <= o <= zlen archive -> 0 <= size < 2 ^ 32 ->
  zlen archive < o + size + padding size 4 -> 0 <= as_pos s < 2 ^ 63 -> gb_inv (as_cpio s) ->
  zlen (gb_data (as_cpio s)) < 2 ^ 61 ->
  copy_data s size copy = Err EFormat.
Proof.
  intros Hr Ho Hs Hl Hp Hg Hgl. unfold copy_data. rewrite Hr. pose proof (pad4_range size) as Hpad.
  assert (Hfu : size <= Z.of_nat (S (Z.to_nat (size / BUFFER_SIZE))) * BUFFER_SIZE).
  { change BUFFER_SIZE with 4096. pose proof (Z.div_mod size 4096 ltac:(lia)). pose proof (Z.mod_pos_bound size 4096 ltac:(lia)).
    pose proof (Z.div_pos size 4096). lia. }
  destruct (Z.lt_ge_cases (zlen archive) (o + size)) as [Hlt|Hge].
  - rewrite data_loop_err; auto; lia.
  - destruct (data_loop_ok r ltac:(lia) (S (Z.to_nat (size / BUFFER_SIZE))) o (as_cpio s) (as_pos s) size copy) as (g & E & D & I);
      auto; try lia.
    rewrite E. cbn [bind]. replace (0 <? padding size 4) with true by lia. rewrite chunk_err by lia. reflexivity.
Qed.

Definition room (k o : Z) : Z := k * 2 ^ 33 + o.

(** Invariant on arbitrary archives, with the number of entries kept so far. *)
Record sinv (k o : Z) (s : ast) : Prop := {
  sv_rpm : as_rpm s = set_off r o;
  sv_o : 0 <= o <= zlen archive;
  sv_k : 0 <= k /\ 110 * k <= o;
  sv_gb : gb_inv (as_cpio s);
  sv_len : zlen (gb_data (as_cpio s)) <= room k o;
  sv_pos : 0 <= as_pos s <= room k o + o;
  sv_seq : exists ns, enc (as_seq s) ns /\ zlen ns <= 36 * k;
  sv_cap : cap_inv (as_adj s) (as_adjcap s);
  sv_adj : Forall adj_range (as_adj s)
}.

Lemma room_bound k o : 110 * k <= o -> 0 <= k -> o < 2 ^ 32 -> room k o < 2 ^ 60.
Proof. unfold room. lia. Qed.

Lemma keep_safe k o s e i f : sinv k o s -> In f files -> 0 <= i < 2 ^ 32 ->
  en_off e = o -> en_name e = skip_slash (fi_name f) ->
  110 <= en_hlen e < 2 ^ 17 -> o + en_hlen e <= zlen archive ->
  let s0 := mkas (set_off r (o + en_hlen e)) (as_cpio s) (u64 (as_pos s + en_hlen e)) (as_adj s) (as_adjcap s) (as_prev s) (as_md5 s) (as_seq s) in
  match keep_entry offadj sha s0 i f (en_name e) (en_hlen e) (as_pos s) with
  | Ok s1 => digest_ok sha f /\ sinv (k + 1) (o + en_hlen e) s1
  | Err _ => True
  | Ub _ => 65 < zlen (fi_md5 f)
  | NoFuel => False
  end.
Proof.
  intros [Hrpm Ho Hk Hg Hlen Hp Hsq Hcap Hadj] Hin Hi Heo Hen Hhl Hnx s0.
  pose proof (room_bound k o ltac:(lia) ltac:(lia) ltac:(lia)) as Hroom.
  pose proof (zlen_nonneg (gb_data (as_cpio s))) as Hgn.
  assert (Hwf : wf_file f) by (rewrite Forall_forall in Hfiles; apply Hfiles; auto).
  pose proof (zlen_skip_slash (fi_name f)) as Hss. rewrite <- Hen in Hss. pose proof (zlen_nonneg (en_name e)) as Hnn.
  pose proof (entry_size_range f Hwf) as Hes. pose proof (wf_name f Hwf) as Hwn.
  assert (Hadj1 : exists adj cap prev pos,
    (if negb (zlen (gb_data (as_cpio s)) =? as_pos s) then
       '(adj, cap, prev) <-
         (if offadj then
            '(adj, cap) <- offadj_loop (offadj_fuel (zlen (gb_data (as_cpio s))) (as_pos s)) (as_adj s) (as_adjcap s) (zlen (gb_data (as_cpio s))) (as_prev s) (as_pos s) ;;
            Ok (adj, cap, zlen (gb_data (as_cpio s)))
          else Ok (as_adj s, as_adjcap s, as_prev s)) ;;
       Ok (adj, cap, prev, u64 (zlen (gb_data (as_cpio s)) + en_hlen e))
     else Ok (as_adj s, as_adjcap s, as_prev s, u64 (as_pos s + en_hlen e))) = Ok (adj, cap, prev, pos) /\
    0 <= pos <= room (k + 1) (o + en_hlen e) + (o + en_hlen e) /\ cap_inv adj cap /\ Forall adj_range adj).
  { unfold room in *. destruct (zlen (gb_data (as_cpio s)) =? as_pos s) eqn:Eq; cbn [negb].
    - do 4 eexists. split; [reflexivity|]. rewrite u64_small by lia. split; [lia|]. auto.
    - destruct offadj.
      + destruct (offadj_any (zlen (gb_data (as_cpio s))) (as_adj s) (as_adjcap s) (as_prev s) (as_pos s) Hcap) as (new & cap' & E & Hc' & Hr').
        rewrite E. cbn [bind]. do 4 eexists. split; [reflexivity|]. rewrite u64_small by lia. split; [lia|].
        split; [auto|]. apply Forall_app; auto.
      + cbn [bind]. do 4 eexists. split; [reflexivity|]. rewrite u64_small by lia. split; [lia|]. auto. }
  destruct Hadj1 as (adj & cap & prev & pos & Eadj & Hpos & Hcap' & Hadj').
  unfold keep_entry. cbn [s0 as_cpio as_adj as_adjcap as_prev as_pos as_md5 as_seq as_rpm]. rewrite Eadj. cbn [bind]. clear Eadj.
  set (h := new_header f (en_name e)).
  assert (Hh1 : ch_namesize h = zlen (en_name e) + 3).
  { unfold h. rewrite new_header_eq by (auto; lia). reflexivity. }
  assert (Hh2 : ch_filesize h = entry_size f).
  { unfold h. rewrite new_header_eq by (auto; lia). reflexivity. }
  set (parts := [cpio_header_write h; [46; 47]; en_name e ++ [0]; zeros (padding (CPIO_HEADER_SIZE + ch_namesize h) 4)]).
  assert (Hparts : zlen (concat parts) <= 2 ^ 17).
  { unfold parts. cbn [concat]. rewrite app_nil_r, !zlen_app, header_len. change (zlen [46; 47]) with 2. change (zlen [0]) with 1.
    pose proof (pad4_range (CPIO_HEADER_SIZE + ch_namesize h)). rewrite zlen_zeros by lia. lia. }
  destruct (extends_ok parts (as_cpio s) Hg ltac:(lia)) as (g1 & E1 & D1 & I1). rewrite E1. cbn [bind].
  rewrite Hh2.
  destruct Hsq as (ns & Hns & Hnz). destruct (add_bound (as_seq s) ns i Hns Hi) as (sq & ns' & Esq & Hns' & Hnz').
  assert (Hz1 : zlen (gb_data g1) <= room k o + 2 ^ 17) by (rewrite D1, zlen_app; lia).
  assert (Hfin : forall g md5, gb_inv g -> zlen (gb_data g) <= room (k + 1) (o + en_hlen e) ->
            sinv (k + 1) (o + en_hlen e) (mkas (set_off r (o + en_hlen e)) g pos adj cap prev md5 sq)).
  { intros g md5 Ig Hgl. split; cbn [as_rpm as_cpio as_pos as_adj as_adjcap as_prev as_md5 as_seq]; auto; try lia.
    exists ns'. split; [auto|lia]. }
  assert (Hd0 : S_ISREG (fi_mode f) && negb (entry_size f =? 0) = false -> digest_ok sha f).
  { intros Hf Hr Hs0. unfold entry_size in Hf. rewrite Hr in Hf. cbn [andb] in Hf. lia. }
  destruct (S_ISLNK (fi_mode f)) eqn:El.
  - assert (Hsz2 : entry_size f = zlen (fi_linkto f)).
    { unfold entry_size. destruct (lnk_not_dev _ El) as (-> & _ & _). rewrite El. apply u32_small. destruct Hwf. pose proof (zlen_nonneg (fi_linkto f)). lia. }
    pose proof (zlen_nonneg (fi_linkto f)) as Hzl. pose proof (pad4_range (entry_size f)) as Hpe.
    rewrite rd_range_in by lia. cbn [bind].
    destruct (extends_ok [slice (fi_linkto f) 0 (entry_size f); zeros (padding (entry_size f) 4)] g1 I1) as (g2 & E2 & D2 & I2).
    { cbn [concat]. rewrite app_nil_r, zlen_app, zlen_zeros, zlen_slice by lia. lia. }
    rewrite E2. cbn [bind]. rewrite rd_range_in by (rewrite ?zlen_app; change (zlen [0]) with 1; lia). cbn [bind].
    rewrite Esq. cbn [bind]. split; [apply Hd0; destruct (lnk_not_dev _ El) as (-> & _ & _); reflexivity|].
    apply Hfin; [auto|]. rewrite D2. cbn [concat]. rewrite app_nil_r, !zlen_app, zlen_zeros, zlen_slice by lia. unfold room in *. lia.
  - destruct (S_ISREG (fi_mode f) && negb (entry_size f =? 0)) eqn:Er.
    + destruct (file_digest sha (fi_md5 f)) as [d|?|?|] eqn:Ed; cbn [bind].
      * rewrite Esq. cbn [bind]. apply digest_inv in Ed as [Hdg _]. split; [auto|]. apply Hfin; [auto|]. unfold room in *. lia.
      * exact I.
      * destruct (Z.lt_ge_cases 65 (zlen (fi_md5 f))) as [Hlt|Hge]; [auto|]. unfold file_digest in Ed.
        destruct (zlen_parse_hex_safe (fi_md5 f) Hge sha) as (x & Ex). rewrite Ex in Ed. destruct x; discriminate.
      * unfold file_digest in Ed. clear - Ed.
        assert (G : forall n s o cap acc, parse_hex_loop n s o cap acc <> NoFuel).
        { induction n as [|n IH]; intros s o cap acc; cbn [parse_hex_loop]; [discriminate|].
          destruct (parse_hexnum s o 2) as [[b|]|?|?|] eqn:E; cbn [bind]; try discriminate.
          - destruct (_ <? _); [apply IH|discriminate].
          - intros _. unfold parse_hexnum in E. revert E. generalize (Z.to_nat 2) 0 o. clear.
            induction n as [|n IH]; intros x o; cbn [hexnum_loop]; [discriminate|].
            destruct (rd s o) eqn:E; cbn [bind]; try discriminate.
            + destruct (isdigit a); [apply IH|]. destruct (isxdigit a); [apply IH|discriminate].
            + unfold rd in E. destruct (o <? 0); [discriminate|]. destruct (nth_error _ _); discriminate. }
        unfold parse_sha256, parse_md5 in Ed. specialize (G (Z.to_nat (zlen (fi_md5 f) / 2)) (fi_md5 f) 0 32 []). unfold parse_hex in Ed.
        destruct (parse_hex_loop _ _ _ _ _) as [[?|]|?|?|]; destruct sha; cbn [bind] in Ed; try discriminate; try congruence;
          destruct (zlen _ =? _); discriminate.
    + cbn [bind]. rewrite Esq. cbn [bind]. split; [auto|]. apply Hfin; [auto|]. unfold room in *. lia.
Qed.

(** Finishing an entry. *)
Lemma copy_safe k o s size (copy : bool) : sinv k o s -> 0 <= size < 2 ^ 32 ->
  match copy_data s size copy with
  | Ok s1 => o + size + padding size 4 <= zlen archive /\ sinv k (o + size + padding size 4) s1
  | Err _ => zlen archive < o + size + padding size 4
  | _ => False
  end.
Proof.
  intros [Hrpm Ho Hk Hg Hlen Hp Hsq Hcap Hadj] Hsz. pose proof (pad4_range size) as Hpad.
  pose proof (room_bound k o ltac:(lia) ltac:(lia) ltac:(lia)) as Hroom.
  destruct (Z.lt_ge_cases (zlen archive) (o + size + padding size 4)) as [Hlt|Hge].
  - rewrite (copy_data_err s o); auto; lia.
  - destruct (copy_data_ok r ltac:(lia) s o size copy Hrpm) as (g & E & Ig & Dg); auto; try lia.
    rewrite E. split; [lia|].
    assert (Hgz : zlen (gb_data g) <= zlen (gb_data (as_cpio s)) + size + padding size 4).
    { rewrite Dg, zlen_app. destruct copy.
      - rewrite zlen_align4, zlen_slice by lia. lia.
      - change (@zlen Z []) with 0. lia. }
    unfold room in *.
    split; cbn [as_rpm as_cpio as_pos as_adj as_adjcap as_prev as_md5 as_seq]; auto; unfold room in *; lia.
Qed.

Notation kept := (kept unpatched files colors).

Lemma entry_safe k o s : sinv k o s ->
  match parse_entry unpatched offadj files colors sha s with
  | Ok None => exists n size, header_at archive o n size /\ name_at archive o n CPIO_TRAILER
  | Ok (Some s') => exists n size name, header_at archive o n size /\ name_at archive o n name /\ name <> CPIO_TRAILER /\
      let e := mken o (plain_name name) (110 + n + padding (110 + n) 4) size in
      en_next e <= zlen archive /\ Forall (fun k => digest_ok sha (ke_file k)) (kept [e]) /\
      exists k', k <= k' /\ sinv k' (en_next e) s'
  | Err _ => True
  | Ub _ => (exists size, header_at archive o 0 size) \/ Exists (fun f => 65 < zlen (fi_md5 f)) files
  | NoFuel => False
  end.
Proof.
  intros Hs. pose proof Hs as [Hrpm Ho Hk Hg Hlen Hp Hsq Hcap Hadj].
  pose proof (room_bound k o ltac:(lia) ltac:(lia) ltac:(lia)) as Hroom.
  unfold parse_entry. rewrite Hrpm. change CPIO_HEADER_SIZE with 110.
  destruct (Z.lt_ge_cases (zlen archive) (o + 110)) as [Hlt|Hge]; [rewrite chunk_err by lia; exact I|].
  rewrite chunk_ok by lia. cbn [bind].
  pose proof (header_read_cases (slice archive o 110)) as Hcs. rewrite zlen_slice in Hcs by lia. specialize (Hcs ltac:(lia)).
  destruct (cpio_header_read (slice archive o 110)) as [h|?|?|] eqn:Eh; cbn [bind]; [|exact I|contradiction|contradiction].
  clear Hcs. pose proof (header_read_iff archive o ltac:(lia) ltac:(lia) h Eh) as Hh.
  destruct (header_size_range _ _ _ _ Hh) as [Hsz Hns].
  destruct (Z.lt_ge_cases (zlen archive) (o + 110 + ch_namesize h)) as [Hlt2|Hge2]; [rewrite chunk_err by lia; exact I|].
  rewrite chunk_ok by lia. cbn [bind].
  destruct (ch_namesize h =? 0) eqn:E0.
  { left. exists (ch_filesize h). replace 0 with (ch_namesize h) by lia. auto. }
  rewrite name_slice by lia. set (name := cstring (slice archive (o + 110) (ch_namesize h - 1))).
  assert (Hname : name_at archive o (ch_namesize h) name) by (split; [lia|reflexivity]).
  destruct (list_eqb name CPIO_TRAILER) eqn:Et.
  { apply list_eqb_spec in Et. exists (ch_namesize h), (ch_filesize h). rewrite <- Et. auto. }
  assert (Hne : name <> CPIO_TRAILER) by (intros X; rewrite X in Et; discriminate).
  pose proof (pad4_range (110 + ch_namesize h)) as Hpd. pose proof (pad4_range (ch_filesize h)) as Hpd2.
  destruct (Z.lt_ge_cases (zlen archive) (o + 110 + ch_namesize h + padding (110 + ch_namesize h) 4)) as [Hlt3|Hge3]; [rewrite chunk_err by lia; exact I|].
  rewrite chunk_ok by lia. cbn [bind]. rewrite plain_name_prefix, find_file_of.
  set (e := mken o (plain_name name) (110 + ch_namesize h + padding (110 + ch_namesize h) 4) (ch_filesize h)).
  replace (o + 110 + ch_namesize h + padding (110 + ch_namesize h) 4) with (o + en_hlen e) by (cbn [e en_hlen]; lia).
  change (110 + ch_namesize h + padding (110 + ch_namesize h) 4) with (en_hlen e). change (plain_name name) with (en_name e).
  assert (Hhl : 110 <= en_hlen e < 2 ^ 17) by (cbn [e en_hlen]; lia).
  assert (Hhl2 : o + en_hlen e <= zlen archive) by (cbn [e en_hlen]; lia).
  assert (Hnx : en_next e = o + en_hlen e + ch_filesize h + padding (ch_filesize h) 4) by reflexivity.
  set (s0 := mkas (set_off r (o + en_hlen e)) _ _ _ _ _ _ _).
  assert (Hs0 : sinv k (o + en_hlen e) s0).
  { unfold room in *. split; cbn [s0 as_rpm as_cpio as_pos as_adj as_adjcap as_prev as_md5 as_seq]; auto; unfold room in *; try lia.
    rewrite u64_small by lia. lia. }
  assert (Hskip : keep unpatched files colors e = [] ->
    match (s1 <- copy_data s0 (ch_filesize h) false ;; Ok (Some s1)) with
    | Ok None => exists n size, header_at archive o n size /\ name_at archive o n CPIO_TRAILER
    | Ok (Some s') => exists n size name, header_at archive o n size /\ name_at archive o n name /\ name <> CPIO_TRAILER /\
        let e := mken o (plain_name name) (110 + n + padding (110 + n) 4) size in
        en_next e <= zlen archive /\ Forall (fun k => digest_ok sha (ke_file k)) (kept [e]) /\
        exists k', k <= k' /\ sinv k' (en_next e) s'
    | Err _ => True
    | Ub _ => (exists size, header_at archive o 0 size) \/ Exists (fun f => 65 < zlen (fi_md5 f)) files
    | NoFuel => False
    end).
  { intros Hnil. pose proof (copy_safe k (o + en_hlen e) s0 (ch_filesize h) false Hs0 Hsz) as Hc.
    destruct (copy_data s0 (ch_filesize h) false) as [s1|?|?|]; cbn [bind]; [|exact I|contradiction|contradiction].
    destruct Hc as [Hc1 Hc2]. exists (ch_namesize h), (ch_filesize h), name. split; [auto|]. split; [auto|]. split; [auto|].
    fold e. cbn zeta. split; [lia|]. split.
    - unfold SpecArchive.kept. cbn [flat_map]. rewrite Hnil. constructor.
    - exists k. split; [lia|]. rewrite Hnx. auto. }
  destruct (file_of files (en_name e)) as [[i f]|] eqn:Ef.
  2:{ apply Hskip. unfold keep. rewrite Ef. reflexivity. }
  rewrite skip_wanted. destruct (wanted unpatched colors f (en_name e) (ch_filesize h)) eqn:Ew; cbn [negb].
  2:{ apply Hskip. unfold keep. rewrite Ef. change (en_size e) with (ch_filesize h). rewrite Ew. reflexivity. }
  clear Hskip. destruct (file_of_some _ _ _ _ Ef) as (Hi0 & Hi1 & Hi2). apply nth_error_In in Hi1.
  pose proof (keep_safe k o s e i f Hs Hi1 ltac:(lia) eq_refl Hi2 Hhl Hhl2) as Hkp. cbn zeta in Hkp. fold s0 in Hkp.
  destruct (keep_entry offadj sha s0 i f (en_name e) (en_hlen e) (as_pos s)) as [s1|?|?|]; cbn [bind]; [|exact I| |contradiction].
  2:{ right. apply Exists_exists. exists f. auto. }
  destruct Hkp as [Hdg Hs1].
  pose proof (copy_safe (k + 1) (o + en_hlen e) s1 (ch_filesize h) (negb (S_ISLNK (fi_mode f))) Hs1 Hsz) as Hc.
  destruct (copy_data s1 (ch_filesize h) _) as [s2|?|?|]; cbn [bind]; [|exact I|contradiction|contradiction].
  destruct Hc as [Hc1 Hc2]. exists (ch_namesize h), (ch_filesize h), name. split; [auto|]. split; [auto|]. split; [auto|].
  fold e. cbn zeta. split; [lia|]. split.
  - unfold SpecArchive.kept. cbn [flat_map]. unfold keep. rewrite Ef. change (en_size e) with (ch_filesize h). rewrite Ew.
    constructor; [exact Hdg|constructor].
  - exists (k + 1). split; [lia|]. rewrite Hnx. auto.
Qed.

Lemma loop_safe : forall fuel k o s, sinv k o s -> zlen archive < o + Z.of_nat fuel ->
  match parse_loop unpatched offadj files colors sha fuel s with
  | Ok s' => exists es, listing archive o es /\ Forall (fun k => digest_ok sha (ke_file k)) (kept es) /\ exists k' o', sinv k' o' s'
  | Err _ => True
  | Ub _ => (exists o' size, header_at archive o' 0 size) \/ Exists (fun f => 65 < zlen (fi_md5 f)) files
  | NoFuel => False
  end.
Proof.
  induction fuel as [|fuel IH]; intros k o s Hs Hf; [pose proof (sv_o _ _ _ Hs); lia|].
  cbn [parse_loop]. pose proof (entry_safe k o s Hs) as He.
  destruct (parse_entry unpatched offadj files colors sha s) as [[s'|]|?|?|]; cbn [bind].
  - destruct He as (n & size & name & Hh & Hn & Hne & He). cbn zeta in He. destruct He as (Hnx & Hdg & k' & Hk' & Hs').
    set (e := mken o (plain_name name) (110 + n + padding (110 + n) 4) size) in *.
    destruct (header_size_range _ _ _ _ Hh) as [Hsz Hns].
    assert (Hgt : o + 110 <= en_next e).
    { unfold en_next, en_body. cbn [e en_off en_hlen en_size]. pose proof (pad4_range (110 + n)). pose proof (pad4_range size). lia. }
    specialize (IH k' (en_next e) s' Hs' ltac:(lia)).
    destruct (parse_loop unpatched offadj files colors sha fuel s') as [s2|?|?|]; auto.
    destruct IH as (es & Hl & Hd & Hx). exists (e :: es). split; [|split; [|auto]].
    + eapply l_entry; eauto.
    + change (kept (e :: es)) with (keep unpatched files colors e ++ kept es). apply Forall_app. split; [|auto].
      unfold SpecArchive.kept in Hdg. cbn [flat_map] in Hdg. rewrite app_nil_r in Hdg. exact Hdg.
  - destruct He as (n & size & Hh & Hn). exists []. split; [eapply l_trailer; eauto|]. split; [constructor|]. exists k, o. auto.
  - exact I.
  - destruct He as [[size He]|He]; [left; eauto|auto].
  - contradiction.
Qed.

Lemma sinv_init : sinv 0 0 (mkas (rpm_archive_rewind r) (mkgb [] 0) 0 [] 0 0 [] SEQ_INIT).
Proof.
  pose proof (zlen_nonneg archive).
  split; cbn [as_rpm as_cpio as_pos as_adj as_adjcap as_prev as_md5 as_seq]; try reflexivity; unfold room; try lia.
  - exists []. split; [apply enc_init|]. change (@zlen Z []) with 0. lia.
  - left. reflexivity.
  - constructor.
Qed.

(** What the parser does with any archive below 4 GiB. *)
Lemma parse_safe :
  match parse_cpio_files L unpatched offadj files colors sha r with
  | Ok (cpio, sequence, adjs) => (exists es, listing archive 0 es /\ Forall (fun k => digest_ok sha (ke_file k)) (kept es)) /\ Forall adj_range adjs /\
      zlen cpio < 2 ^ 61 /\ exists x sq, sequence = lb_md5 L x ++ sq /\ 16 + zlen sq < 2 ^ 31
  | Err _ => True
  | Ub _ => (exists o size, header_at archive o 0 size) \/ Exists (fun f => 65 < zlen (fi_md5 f)) files
  | NoFuel => False
  end.
Proof.
  unfold parse_cpio_files. pose proof (loop_safe (S (length archive)) 0 0 _ sinv_init) as H.
  assert (Hf : zlen archive < 0 + Z.of_nat (S (length archive))) by (unfold zlen; lia). specialize (H Hf).
  destruct (parse_loop unpatched offadj files colors sha (S (length archive)) _) as [s|?|?|]; cbn [bind]; auto.
  destruct H as (es & Hl & Hd & k & o & [Hrpm Ho Hk Hg Hlen Hp (ns & Hns & Hnz) Hcap Hadj]).
  pose proof (room_bound k o ltac:(lia) ltac:(lia) ltac:(lia)) as Hroom.
  unfold add_trailer.
  set (parts := [cpio_header_write trailer_header; CPIO_TRAILER ++ [0]; zeros (padding (CPIO_HEADER_SIZE + ch_namesize trailer_header) 4)]).
  assert (Htr : zlen (concat parts) = 124) by (vm_compute; reflexivity).
  destruct (extends_ok parts (as_cpio s) Hg ltac:(lia)) as (g & Eg & Dg & Ig).
  rewrite Eg. cbn [bind]. destruct (final_bound _ _ Hns) as (code & Ec & Hcz). rewrite Ec. cbn [bind].
  replace (2 ^ 32 <=? 16 + zlen code) with false by lia. split; [exists es; auto|]. split; [auto|].
  split; [rewrite Dg, zlen_app, Htr; lia|]. do 2 eexists. split; [reflexivity|]. lia.
Qed.
End Safe.
