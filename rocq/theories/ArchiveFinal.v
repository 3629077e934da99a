(** * ArchiveFinal: results about the archive parser *)
From Verif Require Import Base BaseLemmas Sat Utils SpecCodec UtilsProofs CpioHeader CpioHeaderProofs CodecFinal
     Rpm FormatFinal Seq SeqProofs Expand Archive SpecArchive ArchiveProofs ArchiveMain ArchiveLoop.

Section Final.
Variable L : libs.
Variable unpatched : option (list Z -> list Z -> bool).
Variable offadj : bool.
Variable files : list file_info.
Variable colors : bool.
Variable sha : bool.
Variable r : rpm.
Notation archive := (rp_archive r).

Hypothesis Harch : zlen archive < 2 ^ 62.
Hypothesis Hfiles : Forall wf_file files.

Notation cat := (cat r).
Notation ainv := (ainv offadj r).
Notation kept := (kept unpatched files colors).

Lemma skip_step ks o s e : ainv ks o s -> en_off e = o ->
  0 < en_hlen e -> 0 <= en_size e < 2 ^ 32 -> en_next e <= zlen archive -> zlen (cat ks) < 2 ^ 62 ->
  exists s', copy_data
               (mkas (set_off r (o + en_hlen e)) (as_cpio s) (u64 (as_pos s + en_hlen e)) (as_adj s) (as_adjcap s) (as_prev s) (as_md5 s) (as_seq s))
               (en_size e) false = Ok s' /\
    ainv ks (en_next e) s' /\ as_prev s' = as_prev s /\ en_next e - as_pos s' = o - as_pos s.
Proof.
  intros [Hrpm Ho Hg Hd Hp Hm Hs Hna Ha] Heo Hhl Hsz Hnx Hbound.
  unfold en_next, en_body in *. rewrite Heo in *. pose proof (pad4_range (en_size e)) as Hpd.
  rewrite u64_small by lia.
  set (s1 := mkas _ _ _ _ _ _ _ _).
  destruct (copy_data_ok r Harch s1 (o + en_hlen e) (en_size e) false) as (g3 & E3 & I3 & D3).
  { reflexivity. } { lia. } { lia. } { lia. } { cbn [as_pos s1]. lia. } { exact Hg. }
  { cbn [as_cpio s1]. rewrite Hd. lia. }
  rewrite E3. eexists. split; [reflexivity|]. cbn [as_pos as_prev s1]. split; [|split; [reflexivity|lia]].
  rewrite app_nil_r in D3. cbn [as_cpio s1] in D3.
  split; cbn [as_rpm as_cpio as_pos as_adj as_adjcap as_prev as_md5 as_seq s1]; auto.
  - lia.
  - rewrite D3. auto.
  - lia.
  - intros Ht. destruct (Ha Ht) as [A1 A2 A3 A4 A5 A6]. split; auto. intros a Hpa. rewrite A5 by auto. lia.
Qed.

Lemma listing_range o es : listing archive o es -> 0 <= o /\ o + 110 * (zlen es + 1) <= zlen archive.
Proof.
  induction 1 as [o n s Hh Hn|o n s name es e Hh Hn Hne He Hx Hl IH].
  - destruct Hh as [[A B] _ _ _ _]. change (@zlen entry []) with 0. lia.
  - destruct (header_size_range _ _ _ _ Hh) as [Hs Hns]. destruct Hh as [[A B] _ _ _ _]. rewrite zlen_cons.
    destruct Hn as [[Hn0 _] _].
    subst e. unfold en_next, en_body in IH. cbn [en_off en_hlen en_size] in IH.
    pose proof (pad4_range (110 + n)). pose proof (pad4_range s). lia.
Qed.

(** One round. *)
Lemma parse_trailer ks o s n size : ainv ks o s -> header_at archive o n size -> name_at archive o n CPIO_TRAILER ->
  parse_entry unpatched offadj files colors sha s = Ok None.
Proof.
  intros [Hrpm Ho Hg Hd Hp Hm Hs Hna Ha] Hh Hn. unfold parse_entry. rewrite Hrpm.
  pose proof (header_size_range _ _ _ _ Hh) as [Hsz Hns]. destruct (header_read_at _ _ _ _ Hh) as (h & Eh & <- & <-).
  destruct Hh as [[_ Hl] _ _ _ _]. destruct Hn as [[Hn0 Hnl] Hname].
  change CPIO_HEADER_SIZE with 110. rewrite chunk_ok by lia. cbn [bind]. rewrite Eh. cbn [bind].
  rewrite chunk_ok by lia. cbn [bind]. replace (ch_namesize h =? 0) with false by lia.
  rewrite name_slice by lia. rewrite <- Hname. reflexivity.
Qed.

Lemma parse_member ks o s n size name : ainv ks o s -> header_at archive o n size -> name_at archive o n name ->
  name <> CPIO_TRAILER ->
  let e := mken o (plain_name name) (110 + n + padding (110 + n) 4) size in en_next e <= zlen archive ->
  let s0 := mkas (set_off r (o + en_hlen e)) (as_cpio s) (u64 (as_pos s + en_hlen e)) (as_adj s) (as_adjcap s) (as_prev s) (as_md5 s) (as_seq s) in
  parse_entry unpatched offadj files colors sha s =
    match file_of files (en_name e) with
    | Some (i, f) =>
        if wanted unpatched colors f (en_name e) size then
          s <- (s1 <- keep_entry offadj sha s0 i f (en_name e) (en_hlen e) (as_pos s) ;;
                copy_data s1 size (negb (S_ISLNK (fi_mode f)))) ;; Ok (Some s)
        else s <- copy_data s0 size false ;; Ok (Some s)
    | None => s <- copy_data s0 size false ;; Ok (Some s)
    end.
Proof.
  intros [Hrpm Ho Hg Hd Hp Hm Hs Hna Ha] Hh Hn Hne e Hnx s0. unfold parse_entry. rewrite Hrpm.
  pose proof (header_size_range _ _ _ _ Hh) as [Hsz Hns]. destruct (header_read_at _ _ _ _ Hh) as (h & Eh & <- & <-).
  destruct Hh as [[_ Hl] _ _ _ _]. destruct Hn as [[Hn0 Hnl] Hname].
  unfold en_next, en_body in Hnx. cbn [e en_off en_hlen en_size] in Hnx.
  pose proof (pad4_range (110 + ch_namesize h)) as Hpd. pose proof (pad4_range (ch_filesize h)) as Hpd2.
  change CPIO_HEADER_SIZE with 110. rewrite chunk_ok by lia. cbn [bind]. rewrite Eh. cbn [bind].
  rewrite chunk_ok by lia. cbn [bind]. replace (ch_namesize h =? 0) with false by lia.
  rewrite name_slice by lia. rewrite <- Hname.
  replace (list_eqb name CPIO_TRAILER) with false by (symmetry; apply not_true_is_false; intros Ht; apply list_eqb_spec in Ht; auto).
  rewrite chunk_ok by lia. cbn [bind]. rewrite plain_name_prefix, find_file_of.
  replace (o + 110 + ch_namesize h + padding (110 + ch_namesize h) 4) with (o + en_hlen e) by (cbn [e en_hlen]; lia).
  change (110 + ch_namesize h + padding (110 + ch_namesize h) 4) with (en_hlen e). fold s0. change (plain_name name) with (en_name e).
  destruct (file_of files (en_name e)) as [[i f]|]; [|reflexivity].
  rewrite skip_wanted. destruct (wanted unpatched colors f (en_name e) (ch_filesize h)); cbn [negb]; [|reflexivity].
  destruct (keep_entry offadj sha s0 i f (en_name e) (en_hlen e) (as_pos s)); cbn [bind]; reflexivity.
Qed.

(** The loop. *)
Lemma loop_ok o es : listing archive o es -> forall fuel ks s code, ainv ks o s -> zlen es < Z.of_nat fuel ->
  zlen (cat (ks ++ kept es)) < 2 ^ 62 ->
  seq_add_all SEQ_INIT (map ke_index (ks ++ kept es)) = Ok code ->
  Forall (fun k => digest_ok sha (ke_file k)) (kept es) ->
  (offadj = true -> close (as_prev s) (o - as_pos s) (offsets archive (zlen (cat ks)) (kept es))) ->
  exists s' o', parse_loop unpatched offadj files colors sha fuel s = Ok s' /\ ainv (ks ++ kept es) o' s'.
Proof.
  induction 1 as [o n size Hh Hn|o n size name es e Hh Hn Hne He Hx Hl IH]; intros fuel ks s code Hi Hf Hb Hc Hdg Hcl.
  - destruct fuel as [|fuel]; [change (@zlen entry []) with 0 in Hf; lia|]. cbn [parse_loop].
    rewrite (parse_trailer ks o s n size) by auto. cbn [bind]. exists s, o. split; [reflexivity|].
    change (kept []) with (@nil kept_entry). rewrite app_nil_r. auto.
  - destruct fuel as [|fuel]; [pose proof (zlen_nonneg (e :: es)); lia|]. rewrite zlen_cons in Hf. cbn [parse_loop].
    pose proof (header_size_range _ _ _ _ Hh) as [Hsz Hns]. pose proof (na_range _ _ _ _ Hn) as [Hn0 _].
    pose proof (pad4_range (110 + n)) as Hpd.
    rewrite (parse_member ks o s n size name) by (rewrite ?He in Hx; auto). rewrite <- He.
    assert (Heo : en_off e = o) by (rewrite He; reflexivity).
    assert (Hes : en_size e = size) by (rewrite He; reflexivity).
    assert (Hhl : 0 < en_hlen e) by (rewrite He; cbn [en_hlen]; lia).
    assert (Hk : kept (e :: es) = keep unpatched files colors e ++ kept es) by reflexivity.
    assert (Hskip : keep unpatched files colors e = [] -> exists s' o',
      (r0 <- (s <- copy_data (mkas (set_off r (o + en_hlen e)) (as_cpio s) (u64 (as_pos s + en_hlen e)) (as_adj s) (as_adjcap s) (as_prev s) (as_md5 s) (as_seq s)) size false ;; Ok (Some s)) ;;
       match r0 with None => Ok s | Some s => parse_loop unpatched offadj files colors sha fuel s end) = Ok s' /\ ainv (ks ++ kept (e :: es)) o' s').
    { intros Hnil. rewrite Hk, Hnil in *. cbn [app] in *.
      destruct (skip_step ks o s e) as (s1 & E1 & I1 & P1 & P2); auto; try lia.
      { rewrite cat_app, zlen_app in Hb. pose proof (zlen_nonneg (cat (kept es))). lia. }
      rewrite Hes in E1. rewrite E1. cbn [bind].
      eapply IH; eauto; try lia. intros Ht. rewrite P1, P2. auto. }
    unfold keep in Hskip, Hk. destruct (file_of files (en_name e)) as [[i f]|] eqn:Ef; [|apply Hskip; reflexivity].
    rewrite Hes in Hskip, Hk. destruct (wanted unpatched colors f (en_name e) size) eqn:Ew; [|apply Hskip; reflexivity].
    clear Hskip. rewrite Hk in *. change ([(e, i, f)] ++ kept es) with ((e, i, f) :: kept es) in *.
    destruct (file_of_some _ _ _ _ Ef) as (Hi0 & Hi1 & Hi2). apply nth_error_In in Hi1.
    apply Forall_inv in Hdg as Hd0. apply Forall_inv_tail in Hdg as Hd1. cbn [ke_file snd] in Hd0.
    replace (ks ++ (e, i, f) :: kept es) with ((ks ++ [(e, i, f)]) ++ kept es) in * by (rewrite <- app_assoc; reflexivity).
    assert (Hc1 : exists code1, seq_add_all SEQ_INIT (map ke_index (ks ++ [(e, i, f)])) = Ok code1).
    { rewrite map_app, seq_add_all_app in Hc. destruct (seq_add_all SEQ_INIT (map ke_index (ks ++ [(e, i, f)]))); try discriminate. eauto. }
    destruct Hc1 as (code1 & Hc1).
    assert (Hb1 : zlen (cat (ks ++ [(e, i, f)])) < 2 ^ 62).
    { rewrite cat_app, zlen_app in Hb. pose proof (zlen_nonneg (cat (kept es))). lia. }
    destruct (keep_step offadj files sha r Harch Hfiles ks o s e i f (offsets archive (zlen (cat (ks ++ [(e, i, f)]))) (kept es)) code1)
      as (s1 & E1 & I1 & C1); auto.
    { lia. }
    { intros Ht. specialize (Hcl Ht). cbn [offsets] in Hcl. change (ke_entry (e, i, f)) with e in Hcl. rewrite Heo in Hcl.
      rewrite cat_app, cat_one, zlen_app. exact Hcl. }
    rewrite Hes in E1. rewrite E1. cbn [bind]. eapply IH; eauto. lia.
Qed.

Lemma ainv_init : ainv [] 0 (mkas (rpm_archive_rewind r) (mkgb [] 0) 0 [] 0 0 [] SEQ_INIT).
Proof.
  split; cbn [as_rpm as_cpio as_pos as_adj as_adjcap as_prev as_md5 as_seq]; auto; try reflexivity;
    change (zlen (cat [])) with 0; try lia.
  - intros _. split; try reflexivity; try (constructor; reflexivity); try constructor; try lia.
Qed.

Lemma parse_ok es code : listing archive 0 es ->
  let ks := kept es in
  Forall (fun k => digest_ok sha (ke_file k)) ks ->
  zlen (altered archive ks) < 2 ^ 62 ->
  seq_encode (map ke_index ks) = Ok code -> 16 + zlen code < 2 ^ 32 ->
  (offadj = true -> close 0 0 (offsets archive 0 ks)) ->
  exists adjs, parse_cpio_files L unpatched offadj files colors sha r = Ok (altered archive ks, lb_md5 L (metas ks) ++ code, adjs) /\
    (offadj = false -> adjs = []) /\
    (offadj = true -> Forall adj_range adjs /\ Forall (fun p => fst p = snd p + adj_sum 0 adjs (snd p)) (offsets archive 0 ks)).
Proof.
  intros Hl ks Hdg Hb He H32 Hcl. unfold parse_cpio_files.
  pose proof (listing_range _ _ Hl) as [_ Hr].
  assert (Halt : zlen (altered archive ks) = zlen (cat ks) + zlen trailer) by (unfold altered; rewrite zlen_app; reflexivity).
  pose proof (zlen_nonneg trailer) as Ht0.
  unfold seq_encode in He. destruct (seq_add_all SEQ_INIT (map ke_index ks)) as [sq|?|?|] eqn:Es; cbn [bind] in He; try discriminate.
  destruct (loop_ok 0 es Hl (S (length archive)) [] _ sq ainv_init) as (s & o & E & I); cbn [app]; auto.
  { unfold zlen in *. lia. }
  { fold ks. lia. }
  rewrite E. cbn [bind]. cbn [app] in I. fold ks in I. destruct I as [Hrpm Ho Hg Hd Hp Hm Hs Hna Ha].
  unfold add_trailer.
  assert (Htr : concat [cpio_header_write trailer_header; CPIO_TRAILER ++ [0];
                  zeros (padding (CPIO_HEADER_SIZE + ch_namesize trailer_header) 4)] = trailer) by (vm_compute; reflexivity).
  destruct (extends_ok [cpio_header_write trailer_header; CPIO_TRAILER ++ [0];
                  zeros (padding (CPIO_HEADER_SIZE + ch_namesize trailer_header) 4)] (as_cpio s) Hg) as (g & Eg & Dg & Ig).
  { rewrite Htr, Hd. lia. }
  rewrite Eg. cbn [bind]. rewrite Htr, Hd in Dg.
  assert (Hsq : as_seq s = sq) by congruence. rewrite Hsq, He. cbn [bind].
  replace (2 ^ 32 <=? 16 + zlen code) with false by lia.
  exists (as_adj s). split; [|split; [auto|]].
  - rewrite Dg, Hm. reflexivity.
  - intros Ht. destruct (Ha Ht) as [A1 A2 A3 A4 A5 A6]. auto.
Qed.
End Final.
