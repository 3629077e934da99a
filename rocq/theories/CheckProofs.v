(** * CheckProofs: what the checks of installed files decide *)
From Verif Require FormatSafe.
From Verif Require Import Base BaseLemmas SpecCodec SpecArchive Utils Stream Rpm Seq Delta DeltaRead Expand Apply ArchiveSeq ArchiveMain FileSys Prelink SpecPrelink PrelinkProofs Check SpecCheck.

Lemma read_loop_exact fuel : forall data pos filesize, 0 <= pos -> zlen data - pos < Z.of_nat fuel -> 0 < Z.of_nat fuel ->
  read_loop fuel data pos filesize = Ok (slice data pos filesize).
Proof.
  induction fuel as [|fuel IH]; intros data pos filesize Hp Hf Hf0; [lia|]. cbn [read_loop].
  destruct (filesize <=? 0) eqn:E1; [rewrite slice_nil_len by lia; reflexivity|].
  destruct (Z.le_gt_cases (zlen data) pos) as [Hd|Hd].
  { assert (Hs : forall k, slice data pos k = []). { intros k. unfold slice. rewrite skipn_all2 by (unfold zlen in *; lia). apply firstn_nil. }
    rewrite !Hs. reflexivity. }
  set (buf := slice data pos BUFFER_SIZE).
  assert (Hb : zlen buf = Z.min BUFFER_SIZE (zlen data - pos)).
  { subst buf. destruct (Z.le_gt_cases (pos + BUFFER_SIZE) (zlen data)); unfold BUFFER_SIZE in *; [rewrite zlen_slice by lia; lia|].
    unfold zlen, slice in *. rewrite firstn_length, skipn_length. lia. }
  unfold BUFFER_SIZE in Hb. assert (E2 : (zlen buf <=? 0) = false) by lia. rewrite E2.
  assert (Hbuf : buf = slice data pos (zlen buf)).
  { subst buf. destruct (Z.le_gt_cases (pos + BUFFER_SIZE) (zlen data)); unfold BUFFER_SIZE in *; [f_equal; lia|].
    unfold slice. rewrite !firstn_all2; [reflexivity|unfold zlen in *; rewrite skipn_length; lia|unfold zlen in *; rewrite skipn_length; lia]. }
  destruct (filesize <? zlen buf) eqn:E3.
  - assert (Hs : slice buf 0 filesize = slice data pos filesize) by (rewrite Hbuf, slice_slice by lia; f_equal; lia).
    rewrite Hs, zlen_slice by lia. destruct fuel as [|fuel]; [lia|]. cbn [read_loop]. assert (E4 : (filesize - filesize <=? 0) = true) by lia. rewrite E4.
    cbn [bind]. rewrite app_nil_r. reflexivity.
  - destruct fuel as [|fuel]; [lia|]. rewrite IH by lia. cbn [bind]. f_equal. rewrite Hbuf at 1. rewrite <- slice_split by lia. f_equal. lia.
Qed.

Lemma read_file_exact data pos filesize : 0 <= pos -> read_file data pos filesize = Ok (slice data pos filesize).
Proof. intros. unfold read_file. apply read_loop_exact; auto; unfold zlen; lia. Qed.

Section Files.
Variable L : libs.
Variable fs : fsys.
Variable unprelinked : list Z -> res (list Z).

Lemma plain_prelinked data n : bytes data -> plain data -> 64 <= n -> is_prelinked data (slice data 0 n) = Ok false.
Proof.
  intros Hb Hp Hn. destruct (is_prelinked_exact data n Hb Hn) as [(A & B & _)|[_ (b & -> & H)]]; [exfalso; apply Hp; tauto|].
  destruct b; [exfalso; apply Hp; tauto|reflexivity].
Qed.

Lemma same_exact (sha : bool) a b : zlen a = digest_len sha -> zlen b = digest_len sha -> same_digest sha a b = Ok (list_eqb a b).
Proof.
  intros Ha Hb. unfold same_digest, digest_len in *. rewrite !rd_range_in by (destruct sha; lia). cbn [bind].
  rewrite <- Ha at 1. rewrite <- Hb at 1. rewrite !slice_all. reflexivity.
Qed.

Lemma filesize_exact name sha digest filesize : plain_files fs -> check_filesize L fs unprelinked name sha digest filesize =
  match fs_stat fs name with
  | None => Err ENoInstall
  | Some size => if size =? filesize then Ok tt
                 else if (filesize <? size) && negb (readable fs name) then Err EIo else Err EMismatch
  end.
Proof.
  intros Hp. unfold check_filesize, readable. destruct (fs_stat fs name) as [size|]; [|reflexivity].
  destruct (size =? filesize); [reflexivity|]. destruct (filesize <? size); [|reflexivity].
  destruct (fs_open fs name) as [data|] eqn:E; [|reflexivity]. destruct (Hp _ _ E) as [Hb Hpl].
  rewrite plain_prelinked by (auto; lia). destruct (0 <? zlen (slice data 0 128)); reflexivity.
Qed.

Lemma check_prelink_exact name sha digest filesize : hashes_ok L -> zlen digest = digest_len sha -> 0 < filesize ->
  check_prelink L unprelinked name sha digest filesize = (u <- unprelinked name ;; right_digest L sha digest u filesize).
Proof.
  intros Hh Hd Hf. unfold check_prelink. assert (Ef : (filesize <=? 0) = false) by lia. rewrite Ef. destruct (unprelinked name) as [u| | |]; cbn [bind]; try reflexivity.
  rewrite read_file_exact by lia. cbn [bind]. rewrite same_exact; [reflexivity| |auto].
  unfold checksum, digest_len. destruct (Hh (slice u 0 filesize)) as [H16 H32]. destruct sha; auto.
Qed.

(** What the checks do with a file; [b]: they take it as prelinked. *)
Lemma full_file name sha digest filesize data (b : bool) : hashes_ok L -> zlen digest = digest_len sha -> 0 <= filesize ->
  fs_open fs name = Some data ->
  (filesize < match fs_stat fs name with Some size => size | None => zlen data end -> 0 < zlen data -> is_prelinked data (slice data 0 BUFFER_SIZE) = Ok b) ->
  (b = true -> 0 < filesize < match fs_stat fs name with Some size => size | None => zlen data end /\ 0 < zlen data) ->
  check_full L fs unprelinked name sha digest filesize =
  if b then (u <- unprelinked name ;; right_digest L sha digest u filesize) else right_digest L sha digest data filesize.
Proof.
  intros Hh Hd Hf E Hp Hb. unfold check_full. rewrite E.
  set (size := match fs_stat fs name with Some _ => _ | None => _ end) in *. set (buf := slice data 0 BUFFER_SIZE).
  assert (Hbuf : slice data 0 BUFFER_SIZE = slice data 0 (zlen (slice data 0 BUFFER_SIZE)) /\ zlen (slice data 0 BUFFER_SIZE) = Z.min BUFFER_SIZE (zlen data)).
  { destruct (Z.le_gt_cases BUFFER_SIZE (zlen data)); unfold BUFFER_SIZE in *; [rewrite zlen_slice by lia; split; [reflexivity|lia]|].
    rewrite (slice_all_ge data 4096) by lia. rewrite slice_all. split; [reflexivity|lia]. }
  destruct Hbuf as [Hbuf Hbl]. fold buf in Hbuf, Hbl, Hp.
  assert (G : forall part pos, 0 <= pos -> part ++ slice data pos (filesize - zlen part) = slice data 0 filesize ->
    (rest <- read_file data pos (filesize - zlen part) ;; same <- same_digest sha (checksum L sha (part ++ rest)) digest ;; if same then Ok tt else Err EMismatch) =
    right_digest L sha digest data filesize).
  { intros part pos H0 H1. rewrite read_file_exact by auto. cbn [bind]. rewrite H1. rewrite same_exact; [reflexivity| |auto].
    unfold checksum, digest_len. destruct (Hh (slice data 0 filesize)) as [H16 H32]. destruct sha; auto. }
  unfold BUFFER_SIZE in Hbl. clearbody buf.
  destruct ((filesize <? size) && (0 <? zlen buf)) eqn:E1.
  - apply andb_true_iff in E1 as [E1 E2]. rewrite Hp by lia. cbn [bind]. destruct b; [apply check_prelink_exact; auto; destruct Hb as [B1 B2]; [reflexivity|lia]|].
    pose proof (zlen_nonneg buf).
    apply G; [lia|]. destruct (filesize <? zlen buf) eqn:E3.
    + assert (Hs : slice buf 0 filesize = slice data 0 filesize) by (rewrite Hbuf, slice_slice by lia; f_equal; lia).
      rewrite Hs, zlen_slice by lia. rewrite (slice_nil_len data (zlen buf)) by lia. apply app_nil_r.
    + rewrite Hbuf at 1. rewrite <- slice_split by lia. f_equal. lia.
  - cbn [bind]. destruct b.
    { destruct Hb as [B1 B2]; [reflexivity|]. apply andb_false_iff in E1. lia. }
    apply G; [lia|]. cbn [app]. change (@zlen Z []) with 0. rewrite Z.sub_0_r. reflexivity.
Qed.

Lemma full_exact name sha digest filesize : plain_files fs -> hashes_ok L -> zlen digest = digest_len sha -> 0 <= filesize ->
  check_full L fs unprelinked name sha digest filesize =
  match fs_open fs name with
  | None => Err EIo
  | Some data => if list_eqb (hash L sha (slice data 0 filesize)) digest then Ok tt else Err EMismatch
  end.
Proof.
  intros Hp Hh Hd Hf. destruct (fs_open fs name) as [data|] eqn:E; [|unfold check_full; rewrite E; reflexivity]. destruct (Hp _ _ E) as [Hb Hpl].
  rewrite (full_file name sha digest filesize data false); auto; [|discriminate]. intros _ _. apply plain_prelinked; auto. unfold BUFFER_SIZE; lia.
Qed.

Lemma elf_long data : has_table data -> 0 < zlen data.
Proof. intros [(H & _) _]. lia. Qed.

(** Files that are not taken as prelinked: smaller ones too. *)
Lemma full_plain name sha digest filesize data size : hashes_ok L -> zlen digest = digest_len sha -> 0 <= filesize ->
  fs_open fs name = Some data -> fs_stat fs name = Some size -> bytes data -> (filesize < size -> plain data) ->
  check_full L fs unprelinked name sha digest filesize = right_digest L sha digest data filesize.
Proof.
  intros Hh Hd Hf E Es Hb Hp. apply (full_file name sha digest filesize data false); auto; [|discriminate].
  rewrite Es. intros Hl _. apply plain_prelinked; auto. unfold BUFFER_SIZE; lia.
Qed.

Lemma prelinked_detected data n : bytes data -> has_table data -> has_undo data -> ~ bad_names data -> 64 <= n -> is_prelinked data (slice data 0 n) = Ok true.
Proof.
  intros Hb Ht Hu Hn H. destruct (is_prelinked_exact data n Hb H) as [(A & B & _)|[_ (b & -> & G)]]; [contradiction|].
  destruct b; [reflexivity|]. discriminate (proj2 G (conj Ht Hu)).
Qed.

Lemma prelinked_checks name sha digest filesize data size : hashes_ok L -> zlen digest = digest_len sha -> 0 < filesize ->
  fs_open fs name = Some data -> fs_stat fs name = Some size -> bytes data -> has_table data -> has_undo data -> ~ bad_names data -> filesize < size ->
  let verdict := u <- unprelinked name ;; right_digest L sha digest u filesize in
  check_full L fs unprelinked name sha digest filesize = verdict /\ check_filesize L fs unprelinked name sha digest filesize = verdict.
Proof.
  intros Hh Hd Hf E Es Hb Ht Hu Hn Hl verdict. pose proof (elf_long data Ht) as Hz. split.
  - apply (full_file name sha digest filesize data true); auto; [lia| |rewrite Es; auto]. intros _ _. apply prelinked_detected; auto. unfold BUFFER_SIZE; lia.
  - unfold check_filesize. rewrite Es. assert (E1 : (size =? filesize) = false) by lia. assert (E2 : (filesize <? size) = true) by lia. rewrite E1, E2, E.
    assert (E3 : (0 <? zlen (slice data 0 128)) = true).
    { destruct (Z.le_gt_cases 128 (zlen data)); [rewrite zlen_slice by lia; reflexivity|rewrite slice_all_ge by lia; lia]. }
    rewrite E3, prelinked_detected by (auto; lia). cbn [bind]. apply check_prelink_exact; auto.
Qed.

End Files.

(** Every file that counts was checked. *)
Lemma expand_loop_checked c sha files : forall positions off md5 r, expand_loop (Some c) sha files positions off md5 = Ok r ->
  forall i f, In i positions -> rd files i = Ok f -> S_ISREG (fi_mode f) = true -> 0 < fi_size f ->
  exists d, file_digest sha (fi_md5 f) = Ok d /\ c (fi_name f) sha d (fi_size f) = Ok tt.
Proof.
  induction positions as [|p positions IH]; intros off md5 r H i f Hi Hf Hr Hs; [destruct Hi|].
  cbn [expand_loop] in H. apply bind_ok in H as (g & Eg & H). apply bind_ok in H as (m & Em & H). cbn zeta in H.
  apply bind_ok in H as (x & Ex & _). destruct Hi as [->|Hi]; [|eapply IH; eauto].
  rewrite Hf in Eg. apply ok_inj in Eg. subst g. unfold expand_file in Em.
  assert (Hl : S_ISLNK (fi_mode f) = false) by (unfold S_ISREG, S_ISLNK in *; lia).
  assert (Hes : entry_size f = fi_size f) by (unfold entry_size; rewrite Hr; reflexivity).
  rewrite Hl, Hr, Hes in Em. assert (E0 : (0 <? fi_size f) = true) by lia. rewrite E0 in Em. cbn [andb] in Em.
  apply bind_ok in Em as (d & Ed & Em). apply bind_ok in Em as ([] & Ec & _). exists d. auto.
Qed.

Lemma expand_checked L c seq files sha idx : expand_sequence L (Some c) (Some seq) files sha = Ok idx ->
  exists positions, seq_positions seq (zlen files) = Ok positions /\
  forall i f, In i positions -> rd files i = Ok f -> S_ISREG (fi_mode f) = true -> 0 < fi_size f ->
  exists d, file_digest sha (fi_md5 f) = Ok d /\ c (fi_name f) sha d (fi_size f) = Ok tt.
Proof.
  unfold expand_sequence. destruct (zlen seq <? 16); [discriminate|]. intros H. apply bind_ok in H as (positions & Ep & H).
  apply bind_ok in H as (x & Ex & _). exists positions. split; [auto|]. eapply expand_loop_checked; eauto.
Qed.

Lemma digest_exact sha m d : file_digest sha m = Ok d -> hex_bytes (even_part m) = Some d /\ zlen d = digest_len sha.
Proof.
  unfold file_digest, parse_sha256, parse_md5. intros H. apply bind_ok in H as ([x|] & E & H); [|discriminate]. apply ok_inj in H. subst x.
  destruct sha; apply bind_ok in E as ([x|] & E & H); try discriminate;
    (destruct (zlen x =? _) eqn:El in H; [|discriminate]); apply ok_inj in H; injection H as ->; apply parse_hex_inv in E; try lia; (split; [auto|unfold digest_len; lia]).
Qed.

Section Whole.
Variable L : libs.
Variable installed : list Z -> res rpm.
Variable fs : fsys.
Variable unprelinked : list Z -> res (list Z).

Lemma check_inv delta d c : drpm_check L installed delta (Some c) = Ok tt -> read_deltarpm L delta = Ok d -> d_type d = TYPE_STANDARD ->
  exists r files colors sha positions, installed (d_src_nevr d) = Ok r /\ d_src_nevr d = lb_nevr L (rp_hdr r) /\
    rpm_get_file_info L false r = Ok (files, colors) /\ rpm_get_digest_algo L r = Ok sha /\
    seq_positions (d_seq d) (zlen files) = Ok positions /\
    forall i f, In i positions -> rd files i = Ok f -> S_ISREG (fi_mode f) = true -> 0 < fi_size f ->
    exists d, file_digest sha (fi_md5 f) = Ok d /\ c (fi_name f) sha d (fi_size f) = Ok tt.
Proof.
  intros H Hd T. unfold drpm_check in H. rewrite Hd in H. cbn [bind] in H. apply bind_ok in H as (r & Er & H).
  unfold rpm_get_nevr in H. destruct (list_eqb (d_src_nevr d) (lb_nevr L (rp_hdr r))) eqn:En; [|discriminate]. cbn [negb] in H.
  rewrite T, Z.eqb_refl in H. apply bind_ok in H as ([files colors] & Ef & H). apply bind_ok in H as (sha & Es & H). apply bind_ok in H as (idx & Ex & _).
  apply expand_checked in Ex as (positions & Ep & G). apply list_eqb_spec in En. exists r, files, colors, sha, positions. auto 10.
Qed.

Lemma check_full_whole delta d : drpm_check L installed delta (Some (check_full L fs unprelinked)) = Ok tt -> read_deltarpm L delta = Ok d -> d_type d = TYPE_STANDARD ->
  plain_files fs -> hashes_ok L ->
  exists r files colors sha positions, installed (d_src_nevr d) = Ok r /\ d_src_nevr d = lb_nevr L (rp_hdr r) /\
    rpm_get_file_info L false r = Ok (files, colors) /\ rpm_get_digest_algo L r = Ok sha /\
    seq_positions (d_seq d) (zlen files) = Ok positions /\
    forall i f, In i positions -> rd files i = Ok f -> S_ISREG (fi_mode f) = true -> 0 < fi_size f ->
    exists data, fs_open fs (fi_name f) = Some data /\ hex_bytes (even_part (fi_md5 f)) = Some (hash L sha (slice data 0 (fi_size f))).
Proof.
  intros H Hd T Hp Hh. destruct (check_inv _ _ _ H Hd T) as (r & files & colors & sha & positions & A & B & C & D & E & G).
  exists r, files, colors, sha, positions. repeat (split; [assumption|]). intros i f H1 H2 H3 H4. destruct (G i f H1 H2 H3 H4) as (x & Ex & Ec).
  apply digest_exact in Ex as [Ex Hl]. rewrite full_exact in Ec by (auto; lia). destruct (fs_open fs (fi_name f)) as [data|]; [|discriminate].
  destruct (list_eqb (hash L sha (slice data 0 (fi_size f))) x) eqn:El; [|discriminate]. apply list_eqb_spec in El. exists data. split; [reflexivity|]. congruence.
Qed.

Lemma check_full_sound delta d : drpm_check L installed delta (Some (check_full L fs unprelinked)) = Ok tt -> read_deltarpm L delta = Ok d -> d_type d = TYPE_STANDARD ->
  sound_files fs -> hashes_ok L ->
  exists r files colors sha positions, installed (d_src_nevr d) = Ok r /\ d_src_nevr d = lb_nevr L (rp_hdr r) /\
    rpm_get_file_info L false r = Ok (files, colors) /\ rpm_get_digest_algo L r = Ok sha /\
    seq_positions (d_seq d) (zlen files) = Ok positions /\
    forall i f, In i positions -> rd files i = Ok f -> S_ISREG (fi_mode f) = true -> 0 < fi_size f ->
    exists contents, stands_for fs unprelinked (fi_name f) (fi_size f) contents /\
      hex_bytes (even_part (fi_md5 f)) = Some (hash L sha (slice contents 0 (fi_size f))).
Proof.
  intros H Hd T Hp Hh. destruct (check_inv _ _ _ H Hd T) as (r & files & colors & sha & positions & A & B & C & D & E & G).
  exists r, files, colors, sha, positions. repeat (split; [assumption|]). intros i f H1 H2 H3 H4. destruct (G i f H1 H2 H3 H4) as (x & Ex & Ec).
  apply digest_exact in Ex as [Ex Hl]. destruct (fs_open fs (fi_name f)) as [data|] eqn:Eo; [|unfold check_full in Ec; rewrite Eo in Ec; discriminate].
  destruct (Hp _ _ Eo) as (Hb & Es & Hn).
  destruct (is_prelinked_exact data 64 Hb ltac:(lia)) as [(P1 & P2 & _)|[_ (b & Eb & P)]]; [exfalso; auto|].
  destruct (Z.ltb_spec (fi_size f) (zlen data)) as [Hz|Hz]; [destruct b|].
  - destruct (proj1 P eq_refl) as [P1 P2].
    destruct (prelinked_checks L fs unprelinked (fi_name f) sha x (fi_size f) data (zlen data)) as [Q _]; auto. rewrite Q in Ec.
    apply bind_ok in Ec as (u & Eu & Ec). unfold right_digest in Ec. destruct (list_eqb _ x) eqn:El in Ec; [|discriminate]. apply list_eqb_spec in El.
    exists u. split; [exists data; split; [auto|left; auto]|congruence].
  - assert (Hpl : plain data).
    { intros [P1 [P2|P2]]; [auto|]. discriminate (proj2 P (conj P1 P2)). }
    rewrite (full_plain L fs unprelinked (fi_name f) sha x (fi_size f) data (zlen data)) in Ec; auto; [|lia].
    unfold right_digest in Ec. destruct (list_eqb _ x) eqn:El in Ec; [|discriminate]. apply list_eqb_spec in El.
    exists data. split; [exists data; split; [auto|right]|congruence]. split; [|reflexivity]. intros (_ & P1 & P2). apply Hpl. auto.
  - rewrite (full_plain L fs unprelinked (fi_name f) sha x (fi_size f) data (zlen data)) in Ec; auto; [|lia|lia].
    unfold right_digest in Ec. destruct (list_eqb _ x) eqn:El in Ec; [|discriminate]. apply list_eqb_spec in El.
    exists data. split; [exists data; split; [auto|right]|congruence]. split; [|reflexivity]. intros (P1 & _). lia.
Qed.

Lemma check_sizes_whole delta d : drpm_check L installed delta (Some (check_filesize L fs unprelinked)) = Ok tt -> read_deltarpm L delta = Ok d -> d_type d = TYPE_STANDARD ->
  plain_files fs ->
  exists r files colors positions, installed (d_src_nevr d) = Ok r /\ d_src_nevr d = lb_nevr L (rp_hdr r) /\
    rpm_get_file_info L false r = Ok (files, colors) /\ seq_positions (d_seq d) (zlen files) = Ok positions /\
    forall i f, In i positions -> rd files i = Ok f -> S_ISREG (fi_mode f) = true -> 0 < fi_size f -> fs_stat fs (fi_name f) = Some (fi_size f).
Proof.
  intros H Hd T Hp. destruct (check_inv _ _ _ H Hd T) as (r & files & colors & sha & positions & A & B & C & D & E & G).
  exists r, files, colors, positions. repeat (split; [assumption|]). intros i f H1 H2 H3 H4. destruct (G i f H1 H2 H3 H4) as (x & _ & Ec).
  rewrite filesize_exact in Ec by auto. destruct (fs_stat fs (fi_name f)) as [size|]; [|discriminate].
  destruct (size =? fi_size f) eqn:Ez; [apply Z.eqb_eq in Ez; congruence|]. destruct (_ && _) in Ec; discriminate.
Qed.

Lemma check_sizes_sound delta d : drpm_check L installed delta (Some (check_filesize L fs unprelinked)) = Ok tt -> read_deltarpm L delta = Ok d -> d_type d = TYPE_STANDARD ->
  sound_files fs -> hashes_ok L ->
  exists r files colors sha positions, installed (d_src_nevr d) = Ok r /\ d_src_nevr d = lb_nevr L (rp_hdr r) /\
    rpm_get_file_info L false r = Ok (files, colors) /\ rpm_get_digest_algo L r = Ok sha /\
    seq_positions (d_seq d) (zlen files) = Ok positions /\
    forall i f, In i positions -> rd files i = Ok f -> S_ISREG (fi_mode f) = true -> 0 < fi_size f ->
    fs_stat fs (fi_name f) = Some (fi_size f) \/
    exists data contents, fs_open fs (fi_name f) = Some data /\ fi_size f < zlen data /\ has_table data /\ has_undo data /\
      unprelinked (fi_name f) = Ok contents /\ hex_bytes (even_part (fi_md5 f)) = Some (hash L sha (slice contents 0 (fi_size f))).
Proof.
  intros H Hd T Hp Hh. destruct (check_inv _ _ _ H Hd T) as (r & files & colors & sha & positions & A & B & C & D & E & G).
  exists r, files, colors, sha, positions. repeat (split; [assumption|]). intros i f H1 H2 H3 H4. destruct (G i f H1 H2 H3 H4) as (x & Ex & Ec).
  apply digest_exact in Ex as [Ex Hl]. pose proof Ec as Ec'. unfold check_filesize in Ec. destruct (fs_stat fs (fi_name f)) as [size|] eqn:Est; [|discriminate].
  destruct (Z.eqb_spec size (fi_size f)) as [->|Hne]; [left; reflexivity|right].
  destruct (Z.ltb_spec (fi_size f) size) as [Hlt|]; [|discriminate]. destruct (fs_open fs (fi_name f)) as [data|] eqn:Eo; [|discriminate].
  destruct (Hp _ _ Eo) as (Hb & Es & Hn). rewrite Est in Es. injection Es as ->.
  destruct (is_prelinked_exact data 128 Hb ltac:(lia)) as [(P1 & P2 & _)|[_ (b & Eb & P)]]; [exfalso; auto|].
  rewrite Eb in Ec. destruct b; [|destruct (0 <? zlen (slice data 0 128)); discriminate]. destruct (proj1 P eq_refl) as [P1 P2].
  destruct (prelinked_checks L fs unprelinked (fi_name f) sha x (fi_size f) data (zlen data)) as [_ Q]; auto. rewrite Q in Ec'.
  apply bind_ok in Ec' as (u & Eu & Ec'). unfold right_digest in Ec'. destruct (list_eqb _ x) eqn:El in Ec'; [|discriminate]. apply list_eqb_spec in El.
  exists data, u. split; [reflexivity|]. repeat (split; [assumption|]). congruence.
Qed.
End Whole.
