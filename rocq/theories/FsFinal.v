(** * FsFinal: what reading installed files yields for an accepted sequence *)
From Verif Require Import Base BaseLemmas Utils SpecCodec UtilsProofs CpioHeader CpioHeaderProofs CodecFinal
     Rpm FormatFinal ReadSim Seq SeqProofs Expand Archive SpecArchive ArchiveProofs ArchiveMain ArchiveLoop ArchiveFinal ArchiveSeq
     SpecDelta SpecBlocks Blocks BlocksProofs Fill FillProofs FillStd FillSafe FileSys Prelink FsFill SpecFs DirectProofs FsProofs.

Section Index.
Variable fs : fsys.
Variable unprelinked : list Z -> res (list Z).
Variable files : list file_info.
Hypothesis Hfiles : Forall wf_file files.

(** The index of some files. *)
Fixpoint flay (a : Z) (ps : list (Z * file_info)) : list cpio_file :=
  match ps with
  | [] => [mkcf (-1) (zlen trailer) 0 a]
  | (i, f) :: ps => mkcf i (zlen (fs_head f)) (zlen (fs_body fs unprelinked f)) a :: flay (a + (zlen (fs_head f) + zlen (fs_body fs unprelinked f))) ps
  end.
Definition fbytes (ps : list (Z * file_info)) : list Z := concat (map (fun p => fs_head (snd p) ++ fs_body fs unprelinked (snd p)) ps).

Lemma flay_len a ps : zlen (flay a ps) = zlen ps + 1.
Proof. revert a. induction ps as [|[i f] ps IH]; intros a; cbn [flay]; [reflexivity|]. unfold zlen in *. cbn [length]. specialize (IH (a + (Z.of_nat (length (fs_head f)) + Z.of_nat (length (fs_body fs unprelinked f))))). lia. Qed.

Lemma flay_first a ps : exists c, rd (flay a ps) 0 = Ok c /\ cf_off c = a.
Proof. destruct ps as [|[i f] ps]; cbn [flay]; eexists; split; reflexivity. Qed.

Lemma rd_next {A} (x : A) l j : 0 <= j -> rd (x :: l) (j + 1) = rd l j.
Proof. intros H. unfold rd. replace (j + 1 <? 0) with false by lia. replace (j <? 0) with false by lia. replace (Z.to_nat (j + 1)) with (S (Z.to_nat j)) by lia. reflexivity. Qed.

Lemma entry_aligned f : wf_file f -> (zlen (fs_head f) + zlen (fs_body fs unprelinked f)) mod 4 = 0.
Proof.
  intros Hw. assert (H1 : zlen (fs_head f) mod 4 = 0) by (unfold fs_head; rewrite head_len by auto; apply pad4_aligned).
  assert (H2 : zlen (fs_body fs unprelinked f) mod 4 = 0).
  { unfold fs_body, new_body. rewrite zlen_align4. apply pad4_aligned. }
  rewrite Z.add_mod, H1, H2 by lia. reflexivity.
Qed.

Lemma flay_nth : forall ps a j c, rd (flay a ps) j = Ok c -> 0 <= cf_index c ->
  exists before f later, ps = before ++ (cf_index c, f) :: later /\ cf_off c = a + zlen (fbytes before) /\ cf_hlen c = zlen (fs_head f).
Proof.
  induction ps as [|[i f] ps IH]; intros a j c Hc Hi; cbn [flay] in Hc.
  - destruct (rd_In _ _ _ Hc) as [[<-|[]] _]. cbn [cf_index] in Hi. lia.
  - destruct (Z.eq_dec j 0) as [->|Hj0].
    + change (Ok (mkcf i (zlen (fs_head f)) (zlen (fs_body fs unprelinked f)) a) = Ok c) in Hc. apply ok_inj in Hc. subst c.
      exists [], f, ps. split; [reflexivity|]. split; [cbn; lia|reflexivity].
    + destruct (rd_In _ _ _ Hc) as [_ Hjr]. replace j with (j - 1 + 1) in Hc by lia. rewrite rd_next in Hc by lia.
      destruct (IH _ _ _ Hc Hi) as (before & g & later & A & B & C). exists ((i, f) :: before), g, later. split; [rewrite A; reflexivity|]. split; [|auto].
      unfold fbytes in *. cbn [map concat snd]. rewrite !zlen_app in *. lia.
Qed.

Lemma flay_entry regs cpio : forall ps a pre, zlen pre = a -> a mod 4 = 0 ->
  Forall (fun p => 0 <= fst p /\ rd files (fst p) = Ok (snd p) /\ fits (snd p) /\
    (has_data (snd p) -> readable_file fs unprelinked (snd p) /\ (looks_prelinked fs (snd p) = false -> In (fst p) regs) /\ exists ci, rd cpio (fst p) = Ok ci /\ cf_index ci = fst p)) ps ->
  forall j c, rd (flay a ps) j = Ok c -> forall d, (forall i x, rd (flay a ps) i = Ok x -> rd cpio (d + i) = Ok x) -> zlen cpio = d + zlen (flay a ps) ->
  entry_at fs unprelinked files cpio (pre ++ fbytes ps ++ trailer) regs (d + j) c.
Proof.
  induction ps as [|[i f] ps IH]; intros a pre Hpre Hal Hps j c Hc d Hd Hzc; cbn [flay] in Hc.
  - assert (Hj : j = 0) by (destruct (rd_In _ _ _ Hc) as [_ Hj]; change (zlen [mkcf (-1) (zlen trailer) 0 a]) with 1 in Hj; lia). subst j.
    change (Ok (mkcf (-1) (zlen trailer) 0 a) = Ok c) in Hc. apply ok_inj in Hc. subst c. pose proof (zlen_nonneg pre). constructor; cbn [cf_off cf_index cf_hlen cf_clen]; [lia|exact Hal|]. left.
    split; [lia|]. split; [reflexivity|]. split; [reflexivity|]. cbn [fbytes map concat app]. split.
    + rewrite slice_app_r by lia. rewrite Hpre, Z.sub_diag. apply slice_all.
    + rewrite zlen_app. cbn [flay] in Hzc. change (zlen [mkcf (-1) (zlen trailer) 0 a]) with 1 in Hzc. lia.
  - apply Forall_cons_iff in Hps. destruct Hps as [(H1 & H2 & H3 & H4) Hps]. cbn [fst snd] in H1, H2, H3, H4.
    assert (Hw : wf_file f) by (rewrite Forall_forall in Hfiles; apply Hfiles; apply (rd_In _ _ _ H2)).
    set (h := fs_head f) in *. set (b := fs_body fs unprelinked f) in *.
    assert (Eb : fbytes ((i, f) :: ps) = h ++ b ++ fbytes ps) by (unfold fbytes; cbn [map concat snd]; rewrite <- app_assoc; reflexivity).
    pose proof (zlen_nonneg h). pose proof (zlen_nonneg b). pose proof (zlen_nonneg pre).
    destruct (Z.eq_dec j 0) as [->|Hj0].
    + change (Ok (mkcf i (zlen h) (zlen b) a) = Ok c) in Hc. apply ok_inj in Hc. subst c. constructor; cbn [cf_off cf_index cf_hlen cf_clen]; [lia|exact Hal|]. right.
      destruct (flay_first (a + (zlen h + zlen b)) ps) as (c' & Hc' & Ho').
      exists f, c'. fold h b. split; [auto|]. split; [auto|]. split; [auto|]. split; [auto|]. split; [reflexivity|]. split; [reflexivity|].
      rewrite Eb. rewrite <- !app_assoc. split.
      { rewrite slice_app_r by lia. rewrite Hpre, Z.sub_diag. apply slice_app_exact_l. reflexivity. }
      split.
      { rewrite slice_app_r by lia. rewrite slice_app_r by lia. replace (a + zlen h - zlen pre - zlen h) with 0 by lia. apply slice_app_exact_l. reflexivity. }
      split.
      { rewrite !zlen_app. pose proof (zlen_nonneg (fbytes ps)). pose proof (zlen_nonneg trailer). lia. }
      split.
      { rewrite <- Z.add_assoc. apply Hd. cbn [flay]. fold h b. rewrite rd_next by lia. exact Hc'. }
      split; [lia|]. exact H4.
    + destruct (rd_In _ _ _ Hc) as [_ Hjr]. assert (Hj1 : 0 <= j - 1) by lia.
      replace j with (j - 1 + 1) in Hc by lia. rewrite rd_next in Hc by lia.
      replace (pre ++ fbytes ((i, f) :: ps) ++ trailer) with ((pre ++ h ++ b) ++ fbytes ps ++ trailer) by (rewrite Eb, <- !app_assoc; reflexivity).
      replace (d + j) with (d + 1 + (j - 1)) by lia.
      apply (IH (a + (zlen h + zlen b)) (pre ++ h ++ b)); auto.
      * rewrite !zlen_app. lia.
      * rewrite Z.add_mod, Hal by lia. unfold h, b. rewrite (entry_aligned f Hw). reflexivity.
      * intros q x Hx. replace (d + 1 + q) with (d + (q + 1)) by lia. apply Hd. cbn [flay]. fold h b. destruct (rd_In _ _ _ Hx) as [_ ?].
        rewrite rd_next by lia. exact Hx.
      * cbn [flay] in Hzc. fold h b in Hzc. rewrite zlen_cons in Hzc. lia.
Qed.

Lemma body_len f : wf_file f -> fits f -> (has_data f -> readable_file fs unprelinked f) -> u32 (entry_size f + padding (entry_size f) 4) = zlen (fs_body fs unprelinked f).
Proof.
  intros Hw Hf Hr. unfold fs_body, new_body, entry_size, fits in *. rewrite zlen_align4. destruct (S_ISREG (fi_mode f)) eqn:E.
  - destruct (reg_not_lnk _ E) as (-> & _).
    assert (Hz : zlen (installed_data fs unprelinked f) = fi_size f).
    { destruct (Z.eq_dec (fi_size f) 0) as [Ez|Hn].
      - unfold installed_data. rewrite Ez. destruct (looks_prelinked fs f); [destruct (unprelinked (fi_name f))|destruct (fs_open fs (fi_name f))]; reflexivity.
      - apply zlen_installed; auto. apply Hr. split; auto. }
    rewrite Hz. pose proof (pad4_range (fi_size f)). destruct Hw. apply u32_small. split; [lia|].
    destruct (Z.eq_dec (fi_size f) (2 ^ 32 - 4)) as [->|]; [reflexivity|lia].
  - destruct (S_ISLNK (fi_mode f)).
    + pose proof (zlen_nonneg (fi_linkto f)). rewrite (u32_small (zlen (fi_linkto f))) by lia. pose proof (pad4_range (zlen (fi_linkto f))).
      apply u32_small. split; [lia|]. destruct (Z.eq_dec (zlen (fi_linkto f)) (2 ^ 32 - 4)) as [->|]; [reflexivity|lia].
    + reflexivity.
Qed.

Lemma loop_flay check sha : forall pos fl off md5 l off' md5', Forall2 (fun i f => rd files i = Ok f) pos fl ->
  Forall fits fl -> (forall f, In f fl -> has_data f -> readable_file fs unprelinked f) -> 0 <= off -> off + zlen (fbytes (combine pos fl)) < 2 ^ 63 ->
  expand_loop check sha files pos off md5 = Ok (l, off', md5') ->
  l ++ [mkcf (-1) (zlen trailer) 0 off'] = flay off (combine pos fl).
Proof.
  induction pos as [|i pos IH]; intros fl off md5 l off' md5' H2 Hf Hr Ho Hz H; inversion H2; subst; cbn [expand_loop] in H.
  - injection H as <- <- <-. reflexivity.
  - rewrite H3 in H. cbn [bind] in H. apply Forall_cons_iff in Hf. destruct Hf as [Hf1 Hf2].
    destruct (expand_file check sha y) as [m|?|?|] eqn:Em; cbn [bind] in H; try discriminate.
    assert (Hw : wf_file y) by (rewrite Forall_forall in Hfiles; apply Hfiles; apply (rd_In _ _ _ H3)).
    cbn [combine] in *.
    assert (Ee : expand_entry i off y = mkcf i (zlen (fs_head y)) (zlen (fs_body fs unprelinked y)) off).
    { unfold expand_entry. rewrite body_len by (auto; apply Hr; left; auto). unfold fs_head. rewrite head_len by auto. reflexivity. }
    rewrite Ee in H. cbn [cf_hlen cf_clen] in H.
    change (fbytes ((i, y) :: combine pos l')) with ((fs_head y ++ fs_body fs unprelinked y) ++ fbytes (combine pos l')) in Hz. rewrite !zlen_app in Hz.
    pose proof (zlen_nonneg (fs_head y)). pose proof (zlen_nonneg (fs_body fs unprelinked y)). pose proof (zlen_nonneg (fbytes (combine pos l'))).
    rewrite u64_small in H by lia.
    destruct (expand_loop check sha files pos _ _) as [[[l1 o1] m1]|?|?|] eqn:El; cbn [bind] in H; try discriminate.
    injection H as <- <- <-. cbn [app flay]. f_equal. eapply (IH l'); eauto; [intros f Hin; apply Hr; right; auto|lia|lia].
Qed.
End Index.

Lemma combine_snd {A B} (l : list A) (m : list B) : length l = length m -> map snd (combine l m) = m.
Proof. revert m. induction l as [|x l IH]; intros [|y m] H; cbn in *; try discriminate; [auto|]. f_equal. apply IH. lia. Qed.

Lemma rd_flay_index fs unprelinked : forall ps a j i f, nth_error ps j = Some (i, f) -> exists c, rd (flay fs unprelinked a ps) (Z.of_nat j) = Ok c /\ cf_index c = i.
Proof.
  induction ps as [|[i0 f0] ps IH]; intros a j i f H; [destruct j; discriminate|]. destruct j as [|j].
  - cbn in H. injection H as <- <-. eexists. split; reflexivity.
  - cbn [nth_error] in H. cbn [flay]. replace (Z.of_nat (S j)) with (Z.of_nat j + 1) by lia. rewrite rd_next by lia. eapply IH; eauto.
Qed.

Lemma installed_external L check sequence files sha idx positions fl fs unprelinked capacity len copies clean :
  expand_sequence L check (Some sequence) files sha = Ok idx -> seq_positions sequence (zlen files) = Ok positions ->
  Forall wf_file files -> Forall2 (fun i f => rd files i = Ok f) positions fl -> Forall fits fl ->
  (forall f, In f fl -> has_data f -> readable_file fs unprelinked f) ->
  (forall i f, In i positions -> rd files i = Ok f -> has_data f -> rd positions i = Ok i) ->
  (exists regs, zlen regs <= 50 /\ forall i f, In i positions -> rd files i = Ok f -> has_data f -> looks_prelinked fs f = false -> In i regs) ->
  ((exists f, In f fl /\ has_data f /\ looks_prelinked fs f = true) ->
   whole_links fs unprelinked fl /\ block_count len = block_count (zlen (fs_archive fs unprelinked fl))) ->
  1 <= capacity -> 0 < len <= zlen (fs_archive fs unprelinked fl) -> zlen (fs_archive fs unprelinked fl) < 2 ^ 63 -> block_count len < 2 ^ 32 - 1 ->
  Forall (in_data len) (extents 0 copies) ->
  exists b b', blocks_create fsrc len copies (fs_source idx) clean = Ok b /\
  read_copies fsrc capacity (fill_filesystem fs unprelinked files idx capacity) b copies 0 0 =
    Ok (b', map (fun '(o, l) => slice (fs_archive fs unprelinked fl) o l) (extents 0 copies)).
Proof.
  intros He Hp Hw H2 Hf Hr Hplace (regs & Hn & Hregs) Hpre Hcap Hlen Hext Hbc Hin.
  unfold expand_sequence in He. destruct (zlen sequence <? 16); [discriminate|]. rewrite Hp in He. cbn [bind] in He.
  destruct (expand_loop check sha files positions 0 []) as [[[l off] md5]|?|?|] eqn:El; cbn [bind] in He; try discriminate.
  destruct (negb _); [discriminate|]. apply ok_inj in He. cbv zeta in He.
  set (ps := combine positions fl).
  assert (Hlen2 : length positions = length fl) by (clear - H2; induction H2; cbn; congruence).
  assert (Eb : fbytes fs unprelinked ps = concat (map (fun f => fs_head f ++ fs_body fs unprelinked f) fl)).
  { unfold fbytes, ps. rewrite <- (combine_snd positions fl Hlen2) at 2. rewrite map_map. reflexivity. }
  assert (Ea : fs_archive fs unprelinked fl = fbytes fs unprelinked ps ++ trailer) by (unfold fs_archive; rewrite Eb; reflexivity).
  assert (Hidx : idx = flay fs unprelinked 0 ps).
  { subst idx. unfold ps in *. eapply (loop_flay fs unprelinked files Hw); eauto; [lia|]. rewrite Ea, zlen_app in Hext. pose proof (zlen_nonneg trailer). lia. }
  assert (Hps : forall j i f, nth_error ps j = Some (i, f) -> nth_error positions j = Some i /\ rd files i = Ok f /\ In i positions /\ In f fl).
  { intros j i f Hj. assert (Hin' : In (i, f) ps) by (eapply nth_error_In; eauto).
    split.
    - unfold ps in Hj. clear - Hj. revert positions fl Hj. induction j as [|j IH]; intros [|x p] [|y q] H; cbn in *; try discriminate; [congruence|eauto].
    - split; [|split; [eapply in_combine_l; eauto|eapply in_combine_r; eauto]].
      unfold ps in Hin'. clear - H2 Hin'. induction H2; cbn in Hin'; [destruct Hin'|]. destruct Hin' as [E|?]; [congruence|auto]. }
  assert (Hent : forall j c, rd idx j = Ok c -> entry_at fs unprelinked files idx (fs_archive fs unprelinked fl) regs j c).
  { intros j c Hc. rewrite Hidx in Hc. rewrite Ea. change (fbytes fs unprelinked ps ++ trailer) with ([] ++ fbytes fs unprelinked ps ++ trailer).
    apply (flay_entry fs unprelinked files Hw regs idx ps 0 [] eq_refl) with (d := 0) (j := j); auto.
    + apply Forall_forall. intros [i f] Hif. apply In_nth_error in Hif. destruct Hif as [k Hk]. destruct (Hps _ _ _ Hk) as (A1 & A2 & A3 & A4).
      cbn [fst snd]. split; [apply (rd_In _ _ _ A2)|]. split; [auto|]. split; [rewrite Forall_forall in Hf; auto|]. intros Hd. split; [auto|].
      split; [eauto|]. pose proof (Hplace i f A3 A2 Hd) as Hpl. destruct (rd_In _ _ _ Hpl) as [_ Hir].
      unfold rd in Hpl. replace (i <? 0) with false in Hpl by lia. destruct (nth_error positions (Z.to_nat i)) as [x|] eqn:Ex; [|discriminate]. injection Hpl as ->.
      assert (Hne : exists g, nth_error ps (Z.to_nat i) = Some (i, g)).
      { destruct (nth_error ps (Z.to_nat i)) as [[x g]|] eqn:Eg.
        - destruct (Hps _ _ _ Eg) as (B1 & _). assert (x = i) by congruence. subst x. eauto.
        - apply nth_error_None in Eg. unfold ps in Eg. rewrite combine_length in Eg. assert (nth_error positions (Z.to_nat i) <> None) by congruence.
          apply nth_error_Some in H. lia. }
      destruct Hne as [g Hg]. destruct (rd_flay_index fs unprelinked ps 0 _ _ _ Hg) as (ci & C1 & C2). rewrite Z2Nat.id in C1 by lia. exists ci. rewrite Hidx. auto.
    + intros i x Hx. rewrite Hidx. exact Hx.
    + rewrite Hidx. lia. }
  assert (Hfirst : exists c, rd idx 0 = Ok c /\ cf_off c = 0) by (rewrite Hidx; apply flay_first).
  apply (fs_reads fs unprelinked files idx (fs_archive fs unprelinked fl) Hext regs Hn); auto.
  intros j c f Hc (Hi & Hff & Hd & Hp2).
  assert (Hnth : forall j c, rd idx j = Ok c -> 0 <= cf_index c -> exists before g later, ps = before ++ (cf_index c, g) :: later /\
            cf_off c = 0 + zlen (fbytes fs unprelinked before) /\ cf_hlen c = zlen (fs_head g)).
  { intros j' c' Hc'. rewrite Hidx in Hc'. apply (flay_nth fs unprelinked ps 0 j' c' Hc'). }
  assert (Hmid : forall before i g later, ps = before ++ (i, g) :: later -> rd files i = Ok g /\ In g fl /\ fl = map snd before ++ g :: map snd later).
  { intros before i g later E. destruct (Hps (length before) i g) as (_ & A & _ & B).
    - rewrite E, nth_error_app2, Nat.sub_diag by lia. reflexivity.
    - split; [auto|]. split; [auto|]. rewrite <- (combine_snd positions fl Hlen2). fold ps. rewrite E, map_app. reflexivity. }
  destruct Hpre as [Hwl Hcount].
  { destruct (Hnth j c Hc Hi) as (before & g & later & A & _). destruct (Hmid _ _ _ _ A) as (B & C & _). exists f. assert (g = f) by congruence. subst g. auto. }
  split; [exact Hcount|]. intros q. apply (nolink_aligned fs unprelinked files idx _ regs Hent).
  { replace (q * 8192) with (q * 2048 * 4) by lia. apply Z.mod_mul. lia. }
  intros j' c' f' Hc' [Hi' Hf'] Hl'. destruct (Hnth j' c' Hc' Hi') as (before & g & later & A & B & C). destruct (Hmid _ _ _ _ A) as (D & _ & F).
  assert (g = f') by congruence. subst g. specialize (Hwl _ _ _ F Hl' q). cbv zeta in Hwl. unfold BS in Hwl.
  assert (Es : zlen (fs_entries fs unprelinked (map snd before) ++ fs_head f') = hend c').
  { rewrite zlen_app. unfold hend. rewrite B, C. unfold fs_entries, fbytes. rewrite map_map. reflexivity. }
  rewrite Es in Hwl. exact Hwl.
Qed.
