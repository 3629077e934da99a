(** * FillSafe: reading an old RPM for a standard delta, whatever its archive *)
From Verif Require Import Base BaseLemmas Utils SpecCodec UtilsProofs CpioHeader CpioHeaderProofs CodecFinal
     Rpm FormatFinal FormatSafe Seq SeqProofs Expand SeqFinal Archive SpecArchive ArchiveProofs ArchiveMain ArchiveLoop ArchiveFinal
     ArchiveSafe ArchiveSeq SpecDelta SpecBlocks Blocks BlocksProofs Fill FillProofs FillStd.

Section Safe.
Variable files : list file_info.
Variable cpio : list cpio_file.
Variable r : rpm.
Notation archive := (rp_archive r).
Hypothesis Harch : zlen archive < 2 ^ 62.
Hypothesis Hfiles : Forall wf_file files.

Definition nameless_header : Prop := exists o size, header_at archive o 0 size.
Notation P := nameless_header.

Definition positioned (x : rpm) : Prop := exists o, x = set_off r o /\ 0 <= o <= zlen archive.

Lemma chunk_any o n : 0 <= o <= zlen archive -> 0 <= n < 2 ^ 40 ->
  rpm_archive_read_chunk (set_off r o) n = Err EFormat \/
  (o + n <= zlen archive /\ rpm_archive_read_chunk (set_off r o) n = Ok (set_off r (o + n), slice archive o n)).
Proof.
  intros Ho Hn. destruct (Z.lt_ge_cases (zlen archive) (o + n)); [left; apply chunk_err; lia|right; split; [lia|apply chunk_ok; lia]].
Qed.

Lemma scan_safe wanted : forall fuel o, 0 <= o <= zlen archive -> zlen archive < o + Z.of_nat fuel ->
  usafe P (fun p => positioned (fst p) /\ 0 <= snd p < 2 ^ 40) (scan fuel (set_off r o) wanted).
Proof.
  induction fuel as [|fuel IH]; intros o Ho Hf; [lia|]. cbn [scan]. change CPIO_HEADER_SIZE with 110.
  destruct (chunk_any o 110) as [E|[Hl E]]; [lia|lia|rewrite E; exact I|rewrite E; cbn [bind]].
  pose proof (header_read_cases (slice archive o 110)) as Hcs. rewrite zlen_slice in Hcs by lia. specialize (Hcs ltac:(lia)).
  destruct (cpio_header_read (slice archive o 110)) as [h|?|?|] eqn:Eh; cbn [bind]; [|exact I|contradiction|contradiction].
  clear Hcs. pose proof (header_read_iff archive o ltac:(lia) ltac:(lia) h Eh) as Hh.
  destruct (header_size_range _ _ _ _ Hh) as [Hsz Hns].
  destruct (chunk_any (o + 110) (ch_namesize h)) as [E1|[Hl1 E1]]; [lia|lia|rewrite E1; exact I|rewrite E1; cbn [bind]].
  destruct (ch_namesize h =? 0) eqn:E0.
  { split; [reflexivity|]. exists o, (ch_filesize h). replace 0 with (ch_namesize h) by lia. auto. }
  destruct (list_eqb _ CPIO_TRAILER); [exact I|].
  pose proof (pad4_range (110 + ch_namesize h)) as Hpd. pose proof (pad4_range (ch_filesize h)) as Hpd2.
  destruct (chunk_any (o + 110 + ch_namesize h) (padding (110 + ch_namesize h) 4)) as [E2|[Hl2 E2]]; [lia|lia|rewrite E2; exact I|rewrite E2; cbn [bind]].
  destruct (list_eqb _ wanted).
  - cbn [usafe fst snd]. split; [eexists; split; [reflexivity|lia]|lia].
  - destruct (chunk_any (o + 110 + ch_namesize h + padding (110 + ch_namesize h) 4) (ch_filesize h + padding (ch_filesize h) 4)) as [E3|[Hl3 E3]];
      [lia|lia|rewrite E3; exact I|rewrite E3; cbn [bind]]. apply IH; lia.
Qed.

(** An index as [expand_sequence] makes it. *)
Definition entry_ok (c : cpio_file) : Prop :=
  if cf_index c <? 0 then cf_hlen c = zlen trailer /\ cf_clen c = 0
  else exists f, rd files (cf_index c) = Ok f /\ cf_hlen c = zlen (new_head f (skip_slash (fi_name f))) /\ 0 <= cf_clen c < 2 ^ 32.
Definition index_ok : Prop :=
  (exists c, rd cpio 0 = Ok c) /\
  forall i c, rd cpio i = Ok c -> entry_ok c /\ (0 <= cf_index c -> exists c', rd cpio (i + 1) = Ok c').
Hypothesis Hidx : index_ok.

Record sane (s : ssrc) : Prop := {
  sn_rpm : positioned (ss_rpm s);
  sn_buf : zlen (ss_buf s) = max_header cpio;
  sn_cur : (ss_idx s = -1 /\ ss_left s = 0) \/
    exists c head, rd cpio (ss_idx s) = Ok c /\ 0 <= ss_left s <= cf_hlen c + cf_clen c /\
      zlen head = cf_hlen c /\ slice (ss_buf s) 0 (cf_hlen c) = map Some head /\
      forall f, rd files (cf_index c) = Ok f -> S_ISLNK (fi_mode f) = true -> ss_link s <> None
}.

Lemma rd_In {A} (l : list A) i x : rd l i = Ok x -> In x l /\ 0 <= i < zlen l.
Proof.
  unfold rd. destruct (i <? 0) eqn:E; [discriminate|]. destruct (nth_error l (Z.to_nat i)) as [y|] eqn:En; [|discriminate].
  intros H. injection H as <-. split; [eapply nth_error_In; eauto|]. apply nth_error_Some_length in En || (assert (nth_error l (Z.to_nat i) <> None) by congruence; apply nth_error_Some in H; unfold zlen; lia).
Qed.

Lemma entry_hlen c i : rd cpio i = Ok c -> 0 <= cf_hlen c <= max_header cpio /\ 0 <= cf_clen c.
Proof.
  intros H. destruct (rd_In _ _ _ H) as [Hin _]. split; [split; [|apply max_header_ge; auto]|]; destruct Hidx as [_ Hi]; apply Hi in H; destruct H as [H _];
    unfold entry_ok in H; destruct (cf_index c <? 0).
  - destruct H as [-> _]. apply zlen_nonneg.
  - destruct H as (f & _ & -> & _). apply zlen_nonneg.
  - destruct H as [_ ->]. lia.
  - destruct H as (f & _ & _ & H). lia.
Qed.

Lemma drain_safe s len : sane s -> 0 < len < 2 ^ 40 ->
  usafe P (fun p => sane (fst p) /\ ss_idx (fst p) = ss_idx s /\ 0 <= zlen (snd p) <= len /\ (zlen (snd p) < len -> ss_left (fst p) = 0))
    (drain files cpio s len).
Proof.
  intros Hs Hlen. pose proof Hs as [(o & Hr & Ho) Hb Hc]. unfold drain.
  destruct (0 <? ss_left s) eqn:El.
  2:{ assert (Hl0 : ss_left s = 0) by (destruct Hc as [[_ H]|(c & head & H)]; lia).
      cbn [usafe fst snd]. change (@zlen Z []) with 0. split; [exact Hs|]. split; [reflexivity|]. split; [lia|auto]. }
  destruct Hc as [[_ H]|(c & head & Hc & Hl & Hz & Hsl & Hlink)]; [lia|].
  destruct (entry_hlen c _ Hc) as [Hh1 Hh2].
  rewrite Hc. cbn [bind].
  set (h1 := if cf_clen c <? ss_left s then Z.min (ss_left s - cf_clen c) len else 0).
  set (s1 := mkss (ss_rpm s) (ss_left s - h1) (ss_idx s) (ss_buf s) (ss_link s)).
  set (d1 := slice head (cf_hlen c + cf_clen c - ss_left s) h1).
  assert (Hh : 0 <= h1 <= len /\ h1 <= ss_left s) by (unfold h1; destruct (cf_clen c <? ss_left s) eqn:E; lia).
  assert (E1 : (if cf_clen c <? ss_left s
       then d <- peek (ss_buf s) (cf_hlen c + cf_clen c - ss_left s) (Z.min (ss_left s - cf_clen c) len) ;;
            Ok (mkss (ss_rpm s) (ss_left s - Z.min (ss_left s - cf_clen c) len) (ss_idx s) (ss_buf s) (ss_link s), d)
       else Ok (s, [])) = Ok (s1, d1)).
  { unfold s1, d1, h1. destruct (cf_clen c <? ss_left s) eqn:E.
    - rewrite (peek_ok _ head (cf_hlen c)) by (auto; lia). reflexivity.
    - rewrite slice_nil_len by lia. rewrite Z.sub_0_r. destruct s; reflexivity. }
  rewrite E1. cbn [bind].
  assert (Hzd : zlen d1 = h1) by (unfold d1, h1; destruct (cf_clen c <? ss_left s) eqn:E; [apply zlen_slice; lia|rewrite slice_nil_len by lia; reflexivity]).
  rewrite Hzd. cbn [ss_left s1].
  assert (Hs1 : sane s1).
  { constructor; cbn [s1 ss_rpm ss_buf ss_idx ss_left ss_link]; auto; [exists o; auto|]. right. exists c, head. repeat (split; [auto; lia|]). auto. }
  destruct ((0 <? len - h1) && (0 <? ss_left s - h1)) eqn:E2.
  2:{ cbn [usafe fst snd]. split; [exact Hs1|]. split; [reflexivity|]. rewrite Hzd. split; [lia|]. cbn [s1 ss_left]. lia. }
  set (m := Z.min (len - h1) (ss_left s - h1)).
  assert (Hlc : ss_left s - h1 <= cf_clen c) by (unfold h1 in *; destruct (cf_clen c <? ss_left s) eqn:E; lia).
  destruct Hidx as [_ Hi]. destruct (Hi _ _ Hc) as [He _]. unfold entry_ok in He. destruct (cf_index c <? 0) eqn:Eix; [destruct He as [_ He]; lia|].
  destruct He as (f & Hf & _). rewrite Hf. cbn [bind].
  destruct (S_ISLNK (fi_mode f)) eqn:Elk.
  - unfold s1. cbn [ss_link ss_rpm ss_idx ss_buf]. specialize (Hlink f Hf Elk). destruct (ss_link s) as [l|]; [|congruence].
    cbn [usafe fst snd ss_idx ss_left]. split.
    + constructor; cbn [ss_rpm ss_buf ss_idx ss_left ss_link]; auto; [exists o; auto|]. right. exists c, head. repeat (split; [auto; lia|]). discriminate.
    + split; [reflexivity|]. assert (Hzs : zlen (strncpy l m) = m).
      { unfold strncpy. rewrite zlen_app, zlen_zeros; [lia|]. pose proof (zlen_slice_le l 0 m). lia. }
      rewrite zlen_app, Hzd, Hzs. lia.
  - unfold s1. cbn [ss_link ss_rpm ss_idx ss_buf]. rewrite Hr.
    destruct (chunk_any o m) as [E3|[Hl3 E3]]; [lia|lia|rewrite E3; exact I|rewrite E3; cbn [bind]].
    cbn [usafe fst snd ss_idx ss_left]. split.
    + constructor; cbn [ss_rpm ss_buf ss_idx ss_left ss_link]; auto; [eexists; split; [reflexivity|lia]|]. right. exists c, head. repeat (split; [auto; lia|]). auto.
    + split; [reflexivity|]. rewrite zlen_app, Hzd. rewrite zlen_slice by lia. lia.
Qed.

Lemma advance_safe s : sane s -> ss_left s = 0 -> (forall c, rd cpio (ss_idx s) = Ok c -> 0 <= cf_index c) ->
  usafe P (fun s' => sane s' /\ ss_idx s' = ss_idx s + 1) (advance files cpio s).
Proof.
  intros [(o & Hr & Ho) Hb Hc] Hl Hnt. unfold advance.
  assert (Hn : exists c, rd cpio (ss_idx s + 1) = Ok c).
  { destruct Hidx as [H0 Hi]. destruct Hc as [[-> _]|(c & head & Hc & _)]; [exact H0|]. apply (Hi _ _ Hc). auto. }
  destruct Hn as [c En]. rewrite En. cbn [bind]. destruct (entry_hlen c _ En) as [Hh1 Hh2].
  destruct Hidx as [_ Hi]. destruct (Hi _ _ En) as [He _]. unfold entry_ok in He. 
  destruct (cf_index c <? 0) eqn:Eix.
  - destruct He as [He1 He2]. destruct (fill_trailer files (ss_buf s) (ss_link s) (cf_index c)) as (b' & E & Lb & Sb); [lia|lia|].
    rewrite E. cbn [bind usafe]. split; [|reflexivity]. constructor; cbn [ss_rpm ss_buf ss_idx ss_left ss_link]; [exists o; auto|lia|].
    right. exists c, trailer. rewrite He1. repeat (split; [auto; lia|]). intros f Hf. unfold rd in Hf. rewrite Eix in Hf. discriminate.
  - destruct He as (f & Hf & He1 & He2). rewrite Hf. cbn [bind].
    assert (Hw : wf_file f) by (destruct (rd_In _ _ _ Hf) as [Hin _]; rewrite Forall_forall in Hfiles; auto).
    rewrite Hr. pose proof (scan_safe (skip_slash (fi_name f)) (Datatypes.S (length (rp_archive (set_off r o)))) o Ho) as Hsc.
    cbn [set_off rp_archive] in Hsc |- *. change (mkrpm (rp_lead r) (rp_sig r) (rp_hdr r) archive o (rp_csize r)) with (set_off r o) in *.
    specialize (Hsc ltac:(unfold zlen in *; lia)).
    eapply usafe_bind; [exact Hsc|]. intros [x size] [(o1 & Hx & Ho1) Hsize]. cbn [fst snd] in *.
    destruct (fill_entry files (ss_buf s) (ss_link s) (cf_index c) f) as (b' & E & Lb & Sb); [lia|auto|auto|lia|].
    rewrite E. cbn [bind].
    assert (Hin : forall y, positioned y -> sane (mkss y (cf_hlen c + cf_clen c) (ss_idx s + 1) b' (if S_ISLNK (fi_mode f) then Some (fi_linkto f) else ss_link s))).
    { intros y Hy. constructor; cbn [ss_rpm ss_buf ss_idx ss_left ss_link]; [auto|lia|]. right.
      exists c, (new_head f (skip_slash (fi_name f))). rewrite He1. repeat (split; [auto; lia|]).
      intros f' Hf' Hlk. rewrite Hf in Hf'. injection Hf' as <-. rewrite Hlk. discriminate. }
    destruct (S_ISREG (fi_mode f)); cbn [negb].
    + destruct (size =? cf_clen c); cbn [negb bind usafe]; [|exact I]. split; [apply Hin; exists o1; auto|reflexivity].
    + rewrite Hx. destruct (chunk_any o1 size) as [E3|[Hl3 E3]]; [lia|lia|rewrite E3; exact I|rewrite E3; cbn [bind usafe]].
      split; [apply Hin; eexists; split; [reflexivity|lia]|reflexivity].
Qed.

Lemma rounds_safe : forall fuel s len, sane s -> 0 < len < 2 ^ 40 -> zlen cpio < ss_idx s + 1 + Z.of_nat fuel -> 
  usafe P (fun p => sane (fst p) /\ zlen (snd p) = len) (standard_rounds files cpio fuel s len).
Proof.
  induction fuel as [|fuel IH]; intros s len Hs Hlen Hf.
  { exfalso. destruct Hs as [_ _ [[? _]|(c & head & Hc & _)]]; [pose proof (zlen_nonneg cpio); lia|]. apply rd_In in Hc. lia. }
  cbn [standard_rounds]. eapply usafe_bind; [apply drain_safe; auto|]. intros [s1 d] (Hs1 & Hi1 & Hd & Hleft). cbn [fst snd] in *.
  destruct ((0 <? len - zlen d) && (0 <=? ss_idx s1)) eqn:E.
  - destruct (sn_cur _ Hs1) as [[? _]|(c & head & Hc & _)]; [lia|]. rewrite Hc. cbn [bind].
    destruct (cf_index c <? 0) eqn:Eix.
    + cbn [usafe fst snd]. split; [auto|]. rewrite zlen_app, zlen_zeros; lia.
    + replace (len - zlen d =? 0) with false by lia.
      eapply usafe_bind; [apply advance_safe; [auto|lia|intros c' Hc'; rewrite Hc in Hc'; injection Hc' as <-; lia]|].
      intros s2 [Hs2 Hi2]. eapply usafe_bind; [apply IH; [auto|lia|lia]|]. intros [s3 x] [Hs3 Hx]. cbn [usafe fst snd] in *.
      split; [auto|]. rewrite zlen_app. lia.
  - cbn [bind]. destruct (len - zlen d =? 0) eqn:E0.
    + cbn [usafe fst snd]. split; [auto|lia].
    + eapply usafe_bind; [apply advance_safe; [auto|lia|]|].
      { intros c Hc. apply rd_In in Hc. lia. }
      intros s2 [Hs2 Hi2]. eapply usafe_bind; [apply IH; [auto|lia|lia]|]. intros [s3 x] [Hs3 Hx]. cbn [usafe fst snd] in *.
      split; [auto|]. rewrite zlen_app. lia.
Qed.

Lemma next_safe s : sane s -> usafe P (fun p => sane (fst p) /\ zlen (snd p) = BLOCK_SIZE) (next_standard files cpio s).
Proof.
  intros Hs. apply rounds_safe; auto; [unfold BLOCK_SIZE; lia|].
  assert (-1 <= ss_idx s) by (destruct Hs as [_ _ [[? _]|(c & head & Hc & _)]]; [lia|apply rd_In in Hc; lia]). unfold zlen. lia.
Qed.

Lemma source_sane : rp_off r = 0 -> sane (standard_source r cpio).
Proof.
  intros Ho. constructor; cbn [standard_source ss_rpm ss_buf ss_idx ss_left].
  - exists 0. split; [unfold set_off; destruct r; cbn in *; subst; reflexivity|]. pose proof (zlen_nonneg archive). lia.
  - destruct (max_header_ge cpio) as [? _]. unfold zlen. rewrite repeat_length. lia.
  - left. auto.
Qed.
End Safe.

(** States reached after some blocks. *)
Inductive reached {S} (next : S -> res (S * list Z)) (s : S) : S -> Prop :=
| rc_start : reached next s s
| rc_next t t' x : reached next s t -> next t = Ok (t', x) -> reached next s t'.

Lemma head_len f : wf_file f -> let n := CPIO_HEADER_SIZE + zlen (skip_slash (fi_name f)) + 3 in
  zlen (new_head f (skip_slash (fi_name f))) = n + padding n 4.
Proof.
  intros Hw. cbn zeta. unfold new_head. rewrite zlen_align4. rewrite !zlen_app, header_len. change CPIO_HEADER_SIZE with 110.
  change (zlen [46; 47]) with 2. change (zlen [0]) with 1.
  replace (110 + (2 + (zlen (skip_slash (fi_name f)) + 1))) with (110 + zlen (skip_slash (fi_name f)) + 3) by lia. reflexivity.
Qed.

Lemma expand_loop_entries check sha files : Forall wf_file files -> forall pos off md5 l off' md5',
  expand_loop check sha files pos off md5 = Ok (l, off', md5') ->
  Forall (fun c => 0 <= cf_index c /\ entry_ok files c) l.
Proof.
  intros Hf. induction pos as [|i pos IH]; intros off md5 l off' md5' H; cbn [expand_loop] in H.
  - injection H as <- <- <-. constructor.
  - destruct (rd files i) as [f|?|?|] eqn:Er; cbn [bind] in H; try discriminate.
    destruct (expand_file check sha f) as [m|?|?|] eqn:Em; cbn [bind] in H; try discriminate.
    destruct (expand_loop check sha files pos _ _) as [[[l1 o1] m1]|?|?|] eqn:El; cbn [bind] in H; try discriminate.
    apply ok_inj in H. assert (Hl : expand_entry i off f :: l1 = l) by congruence. subst l. constructor; [|eapply IH; eauto].
    destruct (rd_In _ _ _ Er) as [Hin Hi]. unfold expand_entry, entry_ok. cbn [cf_index cf_hlen cf_clen]. split; [lia|].
    replace (i <? 0) with false by lia. exists f. split; [auto|]. split; [|pose proof (u32_range (entry_size f + padding (entry_size f) 4)); lia].
    symmetry. apply head_len. rewrite Forall_forall in Hf. auto.
Qed.

Lemma accepted_index L check sequence files sha idx : Forall wf_file files ->
  expand_sequence L check sequence files sha = Ok idx -> index_ok files idx.
Proof.
  intros Hf H. unfold expand_sequence in H. destruct sequence as [sequence|]; [|discriminate]. destruct (zlen sequence <? 16); [discriminate|].
  destruct (seq_positions sequence (zlen files)) as [pos|?|?|]; cbn [bind] in H; try discriminate.
  destruct (expand_loop check sha files pos 0 []) as [[[l off] md5]|?|?|] eqn:El; cbn [bind] in H; try discriminate.
  destruct (negb _); [discriminate|]. apply ok_inj in H. subst idx. apply expand_loop_entries in El; auto.
  set (t := mkcf (-1) _ 0 off).
  assert (Hrd : forall i, 0 <= i <= zlen l -> exists c, rd (l ++ [t]) i = Ok c).
  { intros i Hi. unfold rd. replace (i <? 0) with false by lia. destruct (nth_error (l ++ [t]) (Z.to_nat i)) eqn:E; [eauto|].
    exfalso. apply nth_error_None in E. rewrite app_length in E. cbn [length] in E. unfold zlen in Hi. lia. }
  split; [apply Hrd; pose proof (zlen_nonneg l); lia|].
  intros i c Hc. destruct (rd_In _ _ _ Hc) as [Hin Hi]. rewrite zlen_app in Hi. change (zlen [t]) with 1 in Hi.
  rewrite Forall_forall in El. apply in_app_or in Hin.
  destruct Hin as [Hin|[<-|[]]].
  - split; [apply El; auto|]. intros _.
    destruct (Z.lt_ge_cases i (zlen l)); [apply Hrd; lia|]. exfalso. assert (i = zlen l) by lia. subst i.
    unfold rd in Hc. replace (zlen l <? 0) with false in Hc by lia. unfold zlen in Hc. rewrite Nat2Z.id in Hc.
    rewrite nth_error_app2, Nat.sub_diag in Hc by lia. cbn in Hc. injection Hc as <-. destruct (El t Hin) as [Hx _]. cbn in Hx. lia.
  - split; [split; reflexivity|]. cbn [t cf_index]. lia.
Qed.

(** Nothing undefined while the blocks are made, as long as no header has an empty name. *)
Lemma standard_defined L check sequence files sha idx r s :
  zlen (rp_archive r) < 2 ^ 62 -> Forall wf_file files -> rp_off r = 0 ->
  expand_sequence L check sequence files sha = Ok idx ->
  (forall o size, ~ header_at (rp_archive r) o 0 size) ->
  reached (next_standard files idx) (standard_source r idx) s ->
  defined (next_standard files idx s).
Proof.
  intros Ha Hf Ho He Hn Hr. pose proof (accepted_index _ _ _ _ _ _ Hf He) as Hi.
  assert (Hs : sane files idx r s).
  { induction Hr as [|t t' x Ht IH Hx]; [apply source_sane; auto|].
    pose proof (next_safe files idx r Ha Hf Hi t IH) as H. rewrite Hx in H. apply H. }
  pose proof (next_safe files idx r Ha Hf Hi s Hs) as H.
  destruct (next_standard files idx s); cbn [usafe defined] in *; auto. destruct H as [_ (o & size & H)]. eapply Hn; eauto.
Qed.
