(** * FillStd: the source for standard deltas produces the altered archive *)
From Verif Require Import Base BaseLemmas Utils SpecCodec UtilsProofs CpioHeader CpioHeaderProofs CodecFinal
     Rpm FormatFinal Seq SeqProofs Expand Archive SpecArchive ArchiveProofs ArchiveMain ArchiveLoop ArchiveFinal ArchiveSeq
     SpecDelta SpecBlocks Blocks BlocksProofs Fill FillProofs.

Lemma slice_zeros t a m : 0 <= a -> 0 <= m -> a + m <= t -> slice (zeros t) a m = zeros m.
Proof.
  intros Ha Hm Ht. unfold slice, zeros.
  replace (Z.to_nat t) with (Z.to_nat a + (Z.to_nat m + Z.to_nat (t - a - m)))%nat by lia. rewrite !repeat_app.
  rewrite skipn_app, skipn_all2 by (rewrite repeat_length; lia). rewrite repeat_length, Nat.sub_diag. cbn [skipn app].
  rewrite firstn_app, repeat_length, Nat.sub_diag, firstn_O, app_nil_r, firstn_all2 by (rewrite repeat_length; lia). reflexivity.
Qed.

(** ** The header buffer *)
Lemma poke_ok buf off p l : slice buf 0 off = map Some p -> zlen p = off -> off + zlen l <= zlen buf ->
  exists buf', poke buf off l = Ok buf' /\ zlen buf' = zlen buf /\ slice buf' 0 (off + zlen l) = map Some (p ++ l).
Proof.
  intros Hp Hz Hl. pose proof (zlen_nonneg p). pose proof (zlen_nonneg l).
  unfold poke. replace ((0 <=? off) && _) with true by lia. eexists. split; [reflexivity|].
  assert (Hzs : zlen (slice buf 0 off) = off) by (rewrite zlen_slice by lia; lia).
  split.
  - rewrite !zlen_app, Hzs, zlen_map. unfold from, zlen in *. rewrite skipn_length. lia.
  - rewrite app_assoc. rewrite slice_app_exact_l; [rewrite Hp, map_app; reflexivity|]. rewrite zlen_app, Hzs, zlen_map. lia.
Qed.

Lemma prefix_shorter (buf : list (option Z)) n m p : slice buf 0 n = map Some p -> 0 <= m <= n -> slice buf 0 m = map Some (slice p 0 m).
Proof.
  intros Hp Hm. rewrite <- (slice_of_first buf n) by lia. rewrite Hp. unfold slice. rewrite skipn_map, firstn_map. reflexivity.
Qed.

Lemma peek_ok buf p n o m : slice buf 0 n = map Some p -> 0 <= o -> 0 <= m -> o + m <= n -> n <= zlen buf ->
  peek buf o m = Ok (slice p o m).
Proof.
  intros Hp Ho Hm Hn Hl. unfold peek. rewrite rd_range_in by lia. cbn [bind].
  rewrite <- (slice_of_first buf n) by lia. rewrite Hp.
  replace (slice (map Some p) o m) with (map Some (slice p o m)) by (unfold slice; rewrite skipn_map, firstn_map; reflexivity).
  induction (slice p o m) as [|x l IH]; [reflexivity|]. cbn [map all_set]. rewrite IH. reflexivity.
Qed.

(** Pieces put one after the other, each overwriting the NUL of the one before. *)
Lemma fill_trailer files buf link i : i < 0 -> zlen trailer <= zlen buf ->
  exists buf', fill_header files buf link i = Ok (buf', link) /\ zlen buf' = zlen buf /\ slice buf' 0 (zlen trailer) = map Some trailer.
Proof.
  intros Hi Hb. unfold fill_header. replace (i <? 0) with true by lia.
  change (zlen CPIO_TRAILER + 1) with 11. change (CPIO_HEADER_SIZE) with 110. change (zlen trailer) with 124 in *.
  set (h := cpio_header_write _). assert (Hh : zlen h = 110) by reflexivity.
  destruct (poke_ok buf 0 [] (h ++ [0])) as (b1 & E1 & L1 & S1); [reflexivity|reflexivity|rewrite zlen_app, Hh; change (zlen [0]) with 1; lia|].
  rewrite E1. cbn [bind]. rewrite zlen_app, Hh in S1. change (zlen [0]) with 1 in S1.
  apply (prefix_shorter _ _ 110) in S1; [|lia]. cbn [app] in S1. rewrite slice_app_exact_l in S1 by auto.
  destruct (poke_ok b1 110 h (CPIO_TRAILER ++ [0])) as (b2 & E2 & L2 & S2); [auto|auto|change (zlen (CPIO_TRAILER ++ [0])) with 11; lia|].
  rewrite E2. cbn [bind]. change (110 + zlen (CPIO_TRAILER ++ [0])) with 121 in S2. change (110 + 11) with 121.
  change (padding 121 4) with 3.
  destruct (poke_ok b2 121 (h ++ CPIO_TRAILER ++ [0]) (zeros 3)) as (b3 & E3 & L3 & S3); [auto|rewrite zlen_app, Hh; reflexivity|change (zlen (zeros 3)) with 3; lia|].
  rewrite E3. cbn [bind]. exists b3. split; [reflexivity|]. split; [lia|]. exact S3.
Qed.

Lemma fill_entry files buf link i f : 0 <= i -> rd files i = Ok f -> wf_file f ->
  let head := new_head f (skip_slash (fi_name f)) in zlen head <= zlen buf ->
  exists buf', fill_header files buf link i = Ok (buf', if S_ISLNK (fi_mode f) then Some (fi_linkto f) else link) /\
  zlen buf' = zlen buf /\ slice buf' 0 (zlen head) = map Some head.
Proof.
  intros Hi Hf Hw head Hb. unfold fill_header. replace (i <? 0) with false by lia. rewrite Hf. cbn [bind].
  pose proof (zlen_skip_slash (fi_name f)) as Hss. set (name := skip_slash (fi_name f)) in *. pose proof (zlen_nonneg name).
  pose proof (wf_name _ Hw) as Hn. rewrite u16_small by lia.
  pose proof (new_header_eq f name Hw ltac:(lia)) as Hh. unfold new_header in Hh.
  assert (Hdev : negb (S_ISREG (fi_mode f)) && negb (S_ISLNK (fi_mode f)) && (S_ISBLK (fi_mode f) || S_ISCHR (fi_mode f)) = S_ISBLK (fi_mode f) || S_ISCHR (fi_mode f)).
  { destruct (S_ISREG (fi_mode f)) eqn:E1; cbn [negb andb].
    - destruct (reg_not_lnk _ E1) as (_ & -> & ->). reflexivity.
    - destruct (S_ISLNK (fi_mode f)) eqn:E2; cbn [negb andb]; [|reflexivity]. destruct (lnk_not_dev _ E2) as (_ & -> & ->). reflexivity. }
  rewrite Hdev in Hh. rewrite u16_small in Hh by lia. replace (zlen name + 1 + 2) with (zlen name + 3) in Hh by lia. rewrite Hh. clear Hh Hdev.
  assert (Hlk : (if negb (S_ISREG (fi_mode f)) && S_ISLNK (fi_mode f) then Some (fi_linkto f) else link) = if S_ISLNK (fi_mode f) then Some (fi_linkto f) else link).
  { destruct (S_ISLNK (fi_mode f)) eqn:E; [destruct (lnk_not_dev _ E) as (-> & _ & _); reflexivity|rewrite andb_false_r; reflexivity]. }
  rewrite Hlk. clear Hlk. unfold head, new_head in *.
  set (h := cpio_header_write _) in *. assert (Hh : zlen h = 110) by apply header_len.
  rewrite zlen_align4 in *. rewrite !zlen_app in *. rewrite Hh in *. change (zlen [46; 47]) with 2 in *. change (zlen [0]) with 1 in *.
  replace (110 + (2 + (zlen name + 1))) with (110 + (zlen name + 3)) in * by lia. change CPIO_HEADER_SIZE with 110.
  pose proof (pad4_range (110 + (zlen name + 3))) as Hp.
  destruct (poke_ok buf 0 [] (h ++ [0])) as (b1 & E1 & L1 & S1); [reflexivity|reflexivity|rewrite zlen_app, Hh; change (zlen [0]) with 1; lia|].
  rewrite E1. cbn [bind]. rewrite zlen_app, Hh in S1. change (zlen [0]) with 1 in S1.
  apply (prefix_shorter _ _ 110) in S1; [|lia]. cbn [app] in S1. rewrite slice_app_exact_l in S1 by auto.
  destruct (poke_ok b1 110 h ([46; 47] ++ [0])) as (b2 & E2 & L2 & S2); [auto|auto|change (zlen ([46; 47] ++ [0])) with 3; lia|].
  rewrite E2. cbn [bind]. change (110 + zlen ([46; 47] ++ [0])) with 113 in S2.
  apply (prefix_shorter _ _ 112) in S2; [|lia]. rewrite (app_assoc h [46; 47]) in S2. rewrite slice_app_exact_l in S2 by (rewrite zlen_app, Hh; reflexivity).
  change (110 + 2) with 112.
  destruct (poke_ok b2 112 (h ++ [46; 47]) (name ++ [0])) as (b3 & E3 & L3 & S3); [auto|rewrite zlen_app, Hh; reflexivity|rewrite zlen_app; change (zlen [0]) with 1; lia|].
  rewrite E3. cbn [bind]. rewrite zlen_app in S3. change (zlen [0]) with 1 in S3.
  replace (112 + (zlen name + 1)) with (110 + (zlen name + 3)) in S3 by lia.
  destruct (poke_ok b3 (110 + (zlen name + 3)) ((h ++ [46; 47]) ++ name ++ [0]) (zeros (padding (110 + (zlen name + 3)) 4))) as (b4 & E4 & L4 & S4).
  { exact S3. }
  { rewrite !zlen_app, Hh. change (zlen [46; 47]) with 2. change (zlen [0]) with 1. lia. }
  { rewrite zlen_zeros by lia. lia. }
  rewrite E4. cbn [bind]. exists b4. split; [reflexivity|]. split; [lia|]. rewrite zlen_zeros in S4 by lia. rewrite S4.
  f_equal. unfold align4. rewrite !zlen_app, Hh. change (zlen [46; 47]) with 2. change (zlen [0]) with 1.
  replace (110 + (2 + (zlen name + 1))) with (110 + (zlen name + 3)) by lia. rewrite <- !app_assoc. reflexivity.
Qed.

Lemma strncpy_padded l total a m : zlen l <= total -> 0 <= a -> 0 <= m -> a + m <= total ->
  strncpy (from l (Z.min (zlen l) a)) m = slice (l ++ zeros (total - zlen l)) a m /\
  from (from l (Z.min (zlen l) a)) (Z.min (zlen (from l (Z.min (zlen l) a))) m) = from l (Z.min (zlen l) (a + m)).
Proof.
  intros Ht Ha Hm Ham. pose proof (zlen_nonneg l). 
  assert (Hzf : zlen (from l (Z.min (zlen l) a)) = zlen l - Z.min (zlen l) a) by (unfold from, zlen in *; rewrite skipn_length; lia).
  split.
  - unfold strncpy. destruct (Z.le_gt_cases (zlen l) a).
    + rewrite Z.min_l in * by lia. assert (E : from l (zlen l) = []) by (apply zlen_zero_nil; lia). rewrite E.
      replace (slice [] 0 m) with (@nil Z) by (unfold slice; destruct (Z.to_nat m); reflexivity). cbn [app]. change (@zlen Z []) with 0. rewrite Z.sub_0_r.
      rewrite slice_app_r by lia. rewrite slice_zeros by lia. f_equal; lia.
    + rewrite (Z.min_r (zlen l) a) in * by lia.
      assert (Es : slice (from l a) 0 m = slice l a (Z.min m (zlen l - a))).
      { unfold from, slice. cbn [Z.to_nat skipn]. destruct (Z.le_gt_cases m (zlen l - a)); [rewrite Z.min_l by lia; reflexivity|].
        rewrite Z.min_r by lia. rewrite !firstn_all2; [reflexivity| |]; rewrite skipn_length; unfold zlen in *; lia. }
      rewrite Es. rewrite zlen_slice by lia.
      replace (slice (l ++ zeros (total - zlen l)) a m) with (slice (l ++ zeros (total - zlen l)) a (Z.min m (zlen l - a) + (m - Z.min m (zlen l - a)))) by (f_equal; lia).
      rewrite slice_split by lia. rewrite slice_app_l by lia. f_equal.
      destruct (Z.le_gt_cases m (zlen l - a)).
      * rewrite Z.min_l by lia. replace (m - m) with 0 by lia. rewrite slice_nil_len by lia. reflexivity.
      * rewrite Z.min_r by lia. rewrite slice_app_r by lia. rewrite slice_zeros by lia. f_equal; lia.
  - rewrite Hzf. unfold from. rewrite skipn_skipn. f_equal. lia.
Qed.

Section Std.
Variable files : list file_info.
Variable cpio : list cpio_file.
Variable r : rpm.
Notation archive := (rp_archive r).
Hypothesis Harch : zlen archive < 2 ^ 62.
Hypothesis Hfiles : Forall wf_file files.

(** ** Draining the current entry *)
Record cur (s : ssrc) (c : cpio_file) (head body : list Z) (n oend : Z) : Prop := {
  c_idx : rd cpio (ss_idx s) = Ok c;
  c_hlen : cf_hlen c = zlen head;
  c_clen : cf_clen c = zlen body;
  c_left : ss_left s = n;
  c_range : 0 <= n <= zlen head + zlen body;
  c_buf : slice (ss_buf s) 0 (zlen head) = map Some head /\ zlen head <= zlen (ss_buf s);
  c_body : (body = [] /\ ss_rpm s = set_off r oend) \/
    exists f, rd files (cf_index c) = Ok f /\
    if S_ISLNK (fi_mode f)
    then exists l, body = l ++ zeros (zlen body - zlen l) /\ zlen l <= zlen body /\ ss_rpm s = set_off r oend /\
         ss_link s = Some (from l (Z.min (zlen l) (zlen body - Z.min n (zlen body))))
    else ss_rpm s = set_off r (oend - Z.min n (zlen body)) /\ 0 <= oend - zlen body /\ oend <= zlen archive /\
         body = slice archive (oend - zlen body) (zlen body)
}.

Lemma drain_cur s c head body n oend len : cur s c head body n oend -> 0 < len ->
  exists s', drain files cpio s len = Ok (s', slice (head ++ body) (zlen head + zlen body - n) (Z.min n len)) /\
  cur s' c head body (n - Z.min n len) oend /\ ss_idx s' = ss_idx s /\ ss_buf s' = ss_buf s.
Proof.
  intros I Hlen. pose proof I as [Hidx Hh Hc Hl Hr [Hb Hbl] Hbody]. pose proof (zlen_nonneg head). pose proof (zlen_nonneg body).
  unfold drain. rewrite Hl. destruct (0 <? n) eqn:En.
  2:{ assert (n = 0) by lia. subst n. rewrite Z.min_l by lia. rewrite H1. exists s. rewrite slice_nil_len by lia. split; [reflexivity|].
      rewrite H1 in I. split; [exact I|auto]. }
  rewrite Hidx. cbn [bind]. rewrite Hc, Hh.
  set (t := zlen head + zlen body - n).
  set (h1 := if zlen body <? n then Z.min (n - zlen body) len else 0).
  assert (Hh1 : 0 <= h1 /\ h1 <= len /\ h1 <= n) by (unfold h1; destruct (zlen body <? n) eqn:?; lia).
  set (s1 := mkss (ss_rpm s) (n - h1) (ss_idx s) (ss_buf s) (ss_link s)).
  set (d1 := slice (head ++ body) t h1).
  assert (E1 : (if zlen body <? n
       then d <- peek (ss_buf s) (zlen head + zlen body - n) (Z.min (n - zlen body) len) ;;
            Ok (mkss (ss_rpm s) (n - Z.min (n - zlen body) len) (ss_idx s) (ss_buf s) (ss_link s), d)
       else Ok (s, [])) = Ok (s1, d1)).
  { unfold s1, d1, h1. destruct (zlen body <? n) eqn:E.
    - fold t. rewrite (peek_ok _ head (zlen head)) by (auto; lia). cbn [bind]. f_equal. f_equal. symmetry. apply slice_app_l; lia.
    - rewrite slice_nil_len by lia. rewrite Z.sub_0_r. rewrite <- Hl. destruct s; reflexivity. }
  fold t in E1. rewrite E1. cbn [bind].
  assert (Hd1 : zlen d1 = h1).
  { unfold d1. apply zlen_slice; [lia|lia|]. rewrite zlen_app. lia. }
  rewrite Hd1. cbn [ss_left s1].
  assert (I1 : cur s1 c head body (n - h1) oend).
  { constructor; cbn [ss_idx ss_left ss_buf ss_rpm ss_link s1]; auto; [lia|].
    assert (Em : Z.min (n - h1) (zlen body) = Z.min n (zlen body)) by (unfold h1; destruct (zlen body <? n) eqn:?; lia).
    rewrite Em. exact Hbody. }
  destruct ((0 <? len - h1) && (0 <? n - h1)) eqn:E2.
  2:{ exists s1. assert (Em : h1 = Z.min n len) by (unfold h1 in *; destruct (zlen body <? n) eqn:?; lia).
      rewrite <- Em. split; [reflexivity|]. split; [exact I1|auto]. }
  assert (Hm : n - h1 = Z.min n (zlen body)) by (unfold h1 in *; destruct (zlen body <? n) eqn:?; lia).
  set (m := Z.min (len - h1) (n - h1)). assert (Hmm : h1 + m = Z.min n len) by lia.
  destruct Hbody as [[Hnil _]|(f & Hf & Hbody)]; [exfalso; rewrite Hnil in *; change (@zlen Z []) with 0 in *; lia|].
  rewrite Hf. cbn [bind].
  assert (Hsl : forall x, x = slice body (t + h1 - zlen head) m -> d1 ++ x = slice (head ++ body) t (Z.min n len)).
  { intros x ->. rewrite <- Hmm. rewrite slice_split by lia. f_equal. symmetry. apply slice_app_r; lia. }
  destruct (S_ISLNK (fi_mode f)) eqn:El.
  - destruct Hbody as (l & B1 & B2 & B3 & B4). unfold s1. cbn [ss_link ss_rpm ss_idx ss_buf]. rewrite B4. rewrite <- Hm.
    set (a := zlen body - (n - h1)).
    destruct (strncpy_padded l (zlen body) a m) as [P1 P2]; [lia|lia|lia|lia|]. 
    eexists. split; [f_equal; f_equal; apply Hsl; rewrite P1; rewrite <- B1; f_equal; lia|].
    split; [|cbn; auto]. constructor; cbn [ss_idx ss_left ss_buf ss_rpm ss_link]; auto; try lia.
    right. exists f. split; [auto|]. rewrite El. exists l. split; [auto|]. split; [auto|]. split; [auto|]. rewrite P2. do 3 f_equal. lia.
  - destruct Hbody as (B1 & B2 & B3 & B4). unfold s1. cbn [ss_rpm ss_idx ss_buf ss_link]. rewrite B1.
    rewrite chunk_ok by lia. cbn [bind].
    assert (Hq : forall q, 0 <= q -> q + m <= zlen body -> slice body q m = slice archive (oend - zlen body + q) m).
    { intros q Hq1 Hq2. transitivity (slice (slice archive (oend - zlen body) (zlen body)) q m); [f_equal; exact B4|]. apply slice_slice; lia. }
    eexists. split; [f_equal; f_equal; apply Hsl; rewrite Hq by lia; f_equal; lia|].
    split; [|cbn; auto]. constructor; cbn [ss_idx ss_left ss_buf ss_rpm ss_link]; auto; try lia.
    right. exists f. split; [auto|]. rewrite El. split; [f_equal; lia|]. auto.
Qed.

(** ** Finding the next entry *)
Lemma scan_skip o n size name fuel wanted : header_at archive o n size -> name_at archive o n name -> name <> CPIO_TRAILER ->
  let e := mken o (plain_name name) (110 + n + padding (110 + n) 4) size in en_next e <= zlen archive ->
  scan (Datatypes.S fuel) (set_off r o) wanted =
  if list_eqb (en_name e) wanted then Ok (set_off r (en_body e), size + padding size 4) else scan fuel (set_off r (en_next e)) wanted.
Proof.
  intros Hh Hn Hne e Hx. cbn [scan].
  pose proof (header_size_range _ _ _ _ Hh) as [Hsz Hns]. destruct (header_read_at _ _ _ _ Hh) as (h & Eh & <- & <-).
  destruct Hh as [[Ho Hl] _ _ _ _]. destruct Hn as [[Hn0 Hnl] Hname].
  unfold en_next, en_body in Hx. cbn [e en_off en_hlen en_size] in Hx.
  pose proof (pad4_range (110 + ch_namesize h)) as Hpd. pose proof (pad4_range (ch_filesize h)) as Hpd2.
  change CPIO_HEADER_SIZE with 110. rewrite chunk_ok by lia. cbn [bind]. rewrite Eh. cbn [bind].
  rewrite chunk_ok by lia. cbn [bind]. replace (ch_namesize h =? 0) with false by lia.
  rewrite name_slice by lia. rewrite <- Hname.
  replace (list_eqb name CPIO_TRAILER) with false by (symmetry; apply not_true_is_false; intros Ht; apply list_eqb_spec in Ht; auto).
  rewrite chunk_ok by lia. cbn [bind]. rewrite plain_name_prefix. change (plain_name name) with (en_name e).
  replace (o + 110 + ch_namesize h + padding (110 + ch_namesize h) 4) with (en_body e) by (unfold en_body; cbn [e en_off en_hlen]; lia).
  destruct (list_eqb (en_name e) wanted); [reflexivity|].
  rewrite chunk_ok; [|unfold en_body; cbn [e en_off en_hlen]; lia|lia|unfold en_body; cbn [e en_off en_hlen]; lia|lia].
  cbn [bind]. f_equal. f_equal. unfold en_next. cbn [e en_size]. lia.
Qed.

(** What the rest of the archive has to offer. *)
Inductive follows : Z -> list kept_entry -> Prop :=
| f_nil o : follows o []
| f_cons o k ks :
    (forall fuel, zlen archive < o + Z.of_nat fuel ->
       scan fuel (set_off r o) (en_name (ke_entry k)) =
       Ok (set_off r (en_body (ke_entry k)), en_size (ke_entry k) + padding (en_size (ke_entry k)) 4)) ->
    0 <= o -> follows (en_next (ke_entry k)) ks -> follows o (k :: ks).

Lemma follows_listing unpatched colors o es : listing archive o es -> NoDup (map en_name es) ->
  follows o (kept unpatched files colors es).
Proof.
  induction 1 as [o n size Hh Hn|o n size name es e Hh Hn Hne He Hx Hl IH]; intros Hnd; [constructor|].
  cbn [map] in Hnd. apply NoDup_cons_iff in Hnd. destruct Hnd as [Hni Hnd]. specialize (IH Hnd).
  change (kept unpatched files colors (e :: es)) with (keep unpatched files colors e ++ kept unpatched files colors es).
  assert (Ho : 0 <= o) by (destruct Hh as [[? ?] _ _ _ _]; auto).
  assert (Hnext : o + 110 < en_next e).
  { rewrite He. unfold en_next, en_body. cbn [en_off en_hlen en_size]. destruct (header_size_range _ _ _ _ Hh). destruct Hn as [[? _] _].
    pose proof (pad4_range (110 + n)). pose proof (pad4_range size). lia. }
  assert (Hlt : o < zlen archive) by (destruct Hh as [[? ?] _ _ _ _]; lia).
  unfold keep. destruct (file_of files (en_name e)) as [[i f]|] eqn:Ef.
  - destruct (wanted unpatched colors f (en_name e) (en_size e)) eqn:Ew.
    + cbn [app]. constructor; [|auto|exact IH]. intros fuel Hfu. destruct fuel as [|fuel]; [lia|]. cbn [ke_entry fst].
      rewrite (scan_skip o n size name) by (rewrite ?He in Hx; auto). rewrite <- He. rewrite list_eqb_refl.
      replace (en_size e) with size by (rewrite He; reflexivity). reflexivity.
    + cbn [app]. inversion IH as [|o' k ks Hscan Ho' Hf' Eo Ek]; [constructor|]. constructor; [|auto|exact Hf'].
      intros fuel Hfu. destruct fuel as [|fuel]; [lia|]. rewrite (scan_skip o n size name) by (rewrite ?He in Hx; auto). rewrite <- He.
      replace (list_eqb (en_name e) (en_name (ke_entry k))) with false; [apply Hscan; lia|].
      symmetry. apply not_true_is_false. intros Ht. apply list_eqb_spec in Ht. apply Hni. rewrite Ht.
      assert (Hin : In k (kept unpatched files colors es)) by (rewrite <- Ek; left; reflexivity).
      apply in_flat_map in Hin. destruct Hin as (e' & He' & Hk'). unfold keep in Hk'.
      destruct (file_of files (en_name e')) as [[i' f']|]; [|destruct Hk']. destruct (wanted unpatched colors f' _ _); [|destruct Hk'].
      destruct Hk' as [<-|[]]. cbn [ke_entry fst]. apply in_map. exact He'.
  - cbn [app]. inversion IH as [|o' k ks Hscan Ho' Hf' Eo Ek]; [constructor|]. constructor; [|auto|exact Hf'].
    intros fuel Hfu. destruct fuel as [|fuel]; [lia|]. rewrite (scan_skip o n size name) by (rewrite ?He in Hx; auto). rewrite <- He.
    replace (list_eqb (en_name e) (en_name (ke_entry k))) with false; [apply Hscan; lia|].
    symmetry. apply not_true_is_false. intros Ht. apply list_eqb_spec in Ht. apply Hni. rewrite Ht.
    assert (Hin : In k (kept unpatched files colors es)) by (rewrite <- Ek; left; reflexivity).
    apply in_flat_map in Hin. destruct Hin as (e' & He' & Hk'). unfold keep in Hk'.
    destruct (file_of files (en_name e')) as [[i' f']|]; [|destruct Hk']. destruct (wanted unpatched colors f' _ _); [|destruct Hk'].
    destruct Hk' as [<-|[]]. cbn [ke_entry fst]. apply in_map. exact He'.
Qed.

(** ** Going on to the next entry *)
Hypothesis Hbuf : forall c, In c cpio -> 0 <= cf_hlen c <= max_header cpio.

Definition good (k : kept_entry) : Prop :=
  0 <= ke_index k /\ rd files (ke_index k) = Ok (ke_file k) /\ wf_file (ke_file k) /\
  en_name (ke_entry k) = skip_slash (fi_name (ke_file k)) /\
  (S_ISREG (fi_mode (ke_file k)) = true -> en_size (ke_entry k) = fi_size (ke_file k)) /\
  0 <= en_size (ke_entry k) /\ 0 <= en_body (ke_entry k) /\ en_next (ke_entry k) <= zlen archive /\
  plain_entry k /\ zero_padded archive k.

Definition khead (k : kept_entry) : list Z := new_head (ke_file k) (en_name (ke_entry k)).
Definition kbody (k : kept_entry) : list Z := new_body (ke_file k) (en_data archive (ke_entry k)).

Lemma rd_layout a (k : kept_entry) ks idx : from cpio idx = layout archive a (k :: ks) -> 0 <= idx ->
  rd cpio idx = Ok (mkcf (ke_index k) (zlen (khead k)) (zlen (kbody k)) a) /\
  from cpio (idx + 1) = layout archive (a + zlen (new_bytes archive k)) ks.
Proof.
  intros H Hi. cbn [layout] in H. unfold from, rd in *. replace (idx <? 0) with false by lia.
  replace (Z.to_nat (idx + 1)) with (1 + Z.to_nat idx)%nat by lia.
  split.
  - rewrite <- (firstn_skipn (Z.to_nat idx) cpio) at 1. rewrite H.
    assert (Hlt : (Z.to_nat idx < length cpio)%nat).
    { assert (length (skipn (Z.to_nat idx) cpio) <> 0%nat) by (rewrite H; discriminate). rewrite skipn_length in *. lia. }
    rewrite nth_error_app2 by (rewrite firstn_length; lia). rewrite firstn_length.
    replace (Z.to_nat idx - _)%nat with 0%nat by lia. reflexivity.
  - rewrite <- skipn_skipn. rewrite H. reflexivity.
Qed.

Lemma rd_layout_end a idx : from cpio idx = layout archive a [] -> 0 <= idx ->
  rd cpio idx = Ok (mkcf (-1) (zlen trailer) 0 a).
Proof.
  intros H Hi. cbn [layout] in H. unfold from, rd in *. replace (idx <? 0) with false by lia.
  rewrite <- (firstn_skipn (Z.to_nat idx) cpio) at 1. rewrite H.
  assert (Hlt : (Z.to_nat idx < length cpio)%nat).
  { assert (length (skipn (Z.to_nat idx) cpio) <> 0%nat) by (rewrite H; discriminate). rewrite skipn_length in *. lia. }
  rewrite nth_error_app2 by (rewrite firstn_length; lia). rewrite firstn_length.
  replace (Z.to_nat idx - _)%nat with 0%nat by lia. reflexivity.
Qed.

Lemma advance_trailer s a o : ss_rpm s = set_off r o -> from cpio (ss_idx s + 1) = layout archive a [] -> -1 <= ss_idx s ->
  zlen (ss_buf s) = max_header cpio ->
  exists s' c, advance files cpio s = Ok s' /\ cur s' c trailer [] (zlen trailer) o /\ cf_index c = -1 /\
  ss_idx s' = ss_idx s + 1 /\ zlen (ss_buf s') = zlen (ss_buf s).
Proof.
  intros Hr Hl Hi Hb. pose proof (rd_layout_end _ _ Hl ltac:(lia)) as Hc. unfold advance. rewrite Hc. cbn [bind cf_index cf_hlen cf_clen].
  replace (-1 <? 0) with true by reflexivity. change (zlen trailer + 0) with (zlen trailer).
  destruct (fill_trailer files (ss_buf s) (ss_link s) (-1)) as (b' & E & L & Sl); [lia| |].
  { rewrite Hb. unfold rd in Hc. replace (ss_idx s + 1 <? 0) with false in Hc by lia.
    destruct (nth_error cpio (Z.to_nat (ss_idx s + 1))) as [x|] eqn:En; [|discriminate]. injection Hc as ->.
    apply nth_error_In, Hbuf in En. cbn [cf_hlen] in En. lia. }
  rewrite E. cbn [bind]. exists (mkss (ss_rpm s) (zlen trailer) (ss_idx s + 1) b' (ss_link s)), (mkcf (-1) (zlen trailer) 0 a).
  split; [reflexivity|]. split; [|split; [reflexivity|split; [reflexivity|cbn [ss_buf]; lia]]].
  constructor; cbn [ss_idx ss_left ss_buf ss_rpm ss_link]; eauto; [cbn; lia|split; [exact Sl|]].
  assert (zlen (slice b' 0 (zlen trailer)) = zlen trailer) by (rewrite Sl, zlen_map; reflexivity).
  assert (zlen (slice b' 0 (zlen trailer)) <= zlen b'); [|lia]. unfold slice, zlen. rewrite firstn_length, skipn_length. lia.
Qed.

Lemma advance_entry s a o k ks : ss_rpm s = set_off r o -> from cpio (ss_idx s + 1) = layout archive a (k :: ks) -> -1 <= ss_idx s ->
  zlen (ss_buf s) = max_header cpio -> good k -> follows o (k :: ks) ->
  exists s' c, advance files cpio s = Ok s' /\ cur s' c (khead k) (kbody k) (zlen (khead k) + zlen (kbody k)) (en_next (ke_entry k)) /\
  0 <= cf_index c /\ ss_idx s' = ss_idx s + 1 /\ zlen (ss_buf s') = zlen (ss_buf s) /\
  from cpio (ss_idx s' + 1) = layout archive (a + zlen (new_bytes archive k)) ks /\ follows (en_next (ke_entry k)) ks.
Proof.
  intros Hr Hl Hi Hb (G1 & G2 & G3 & G4 & G5 & G6 & G7 & G8 & G9 & G10) Hfo.
  destruct (rd_layout _ _ _ _ Hl ltac:(lia)) as [Hc Hl']. unfold advance. rewrite Hc. cbn [bind cf_index cf_hlen cf_clen].
  replace (ke_index k <? 0) with false by lia. rewrite G2. cbn [bind]. rewrite Hr. rewrite <- G4.
  inversion Hfo as [|o' k' ks' Hscan Ho Hf']; subst o' k' ks'.
  rewrite Hscan by (cbn [set_off rp_archive]; unfold zlen in *; lia). cbn [bind].
  set (e := ke_entry k) in *. set (f := ke_file k) in *.
  assert (Hhb : zlen (khead k) <= max_header cpio).
  { unfold rd in Hc. replace (ss_idx s + 1 <? 0) with false in Hc by lia.
    destruct (nth_error cpio (Z.to_nat (ss_idx s + 1))) as [x|] eqn:En; [|discriminate]. injection Hc as ->.
    apply nth_error_In, Hbuf in En. cbn [cf_hlen] in En. lia. }
  destruct (fill_entry files (ss_buf s) (ss_link s) (ke_index k) f) as (b' & E & L & Sl); [auto|auto|auto|rewrite <- G4; fold e; unfold khead in Hhb; fold e f in Hhb; lia|].
  rewrite E. cbn [bind]. rewrite <- G4 in Sl. fold (khead k) in Sl.
  pose proof (pad4_range (en_size e)) as Hpd.
  unfold en_next in G8.
  assert (Hz : zlen (en_data archive e) = en_size e) by (apply zlen_slice; lia).
  assert (Hbody : S_ISREG (fi_mode f) = true -> zlen (kbody k) = en_size e + padding (en_size e) 4 /\ kbody k = slice archive (en_body e) (zlen (kbody k))).
  { intros Hreg. unfold kbody, new_body. fold e f. destruct (reg_not_lnk _ Hreg) as (-> & _ & _). rewrite zlen_align4, Hz. split; [reflexivity|].
    rewrite slice_split by lia. unfold align4. rewrite Hz. fold (en_data archive e). f_equal. symmetry. apply G10. exact Hreg. }
  assert (Hother : S_ISREG (fi_mode f) = false -> S_ISLNK (fi_mode f) = false -> kbody k = []).
  { intros Hreg Hlnk. apply zlen_zero_nil. unfold kbody, new_body. fold e f. rewrite Hlnk, zlen_align4, Hz. unfold plain_entry in G9. fold e f in G9.
    rewrite Hreg, Hlnk in G9. rewrite G9. reflexivity. }
  assert (Hchk : (if negb (S_ISREG (fi_mode f))
       then '(r0, _) <- rpm_archive_read_chunk (set_off r (en_body e)) (en_size e + padding (en_size e) 4) ;; Ok r0
       else if negb (en_size e + padding (en_size e) 4 =? zlen (kbody k)) then Err EMismatch else Ok (set_off r (en_body e))) =
     Ok (if S_ISREG (fi_mode f) then set_off r (en_body e) else set_off r (en_next e))).
  { destruct (S_ISREG (fi_mode f)) eqn:Hreg; cbn [negb].
    - destruct (Hbody eq_refl) as [-> _]. rewrite Z.eqb_refl. reflexivity.
    - rewrite chunk_ok by lia. cbn [bind]. f_equal. f_equal. unfold en_next. lia. }
  rewrite Hchk. cbn [bind]. eexists _, (mkcf (ke_index k) (zlen (khead k)) (zlen (kbody k)) a). split; [reflexivity|]. split; [|cbn [ss_idx ss_buf cf_index]; repeat (split; [auto|]); auto].
  pose proof (zlen_nonneg (khead k)). pose proof (zlen_nonneg (kbody k)).
  constructor; cbn [ss_idx ss_left ss_buf ss_rpm ss_link]; try reflexivity; [exact Hc|lia|split; [exact Sl|lia]|].
  rewrite (Z.min_r _ (zlen (kbody k))) by lia. cbn [cf_index].
  destruct (S_ISLNK (fi_mode f)) eqn:Hlnk.
  - right. exists f. split; [auto|]. rewrite Hlnk. destruct (lnk_not_dev _ Hlnk) as (Hreg & _ & _). rewrite Hreg.
    exists (fi_linkto f). pose proof (pad4_range (zlen (fi_linkto f))). 
    assert (Hk : kbody k = align4 (fi_linkto f)) by (unfold kbody, new_body; fold f; rewrite Hlnk; reflexivity).
    rewrite Hk. rewrite zlen_align4. split; [unfold align4; f_equal; f_equal; lia|]. split; [lia|]. split; [reflexivity|].
    rewrite Z.sub_diag. rewrite Z.min_r by apply zlen_nonneg. reflexivity.
  - destruct (S_ISREG (fi_mode f)) eqn:Hreg.
    + right. exists f. split; [auto|]. rewrite Hlnk. destruct (Hbody eq_refl) as [Hb1 Hb2].
      assert (Hen : en_next e = en_body e + zlen (kbody k)) by (rewrite Hb1; unfold en_next; lia). rewrite Hen.
      replace (en_body e + zlen (kbody k) - zlen (kbody k)) with (en_body e) by lia.
      split; [reflexivity|]. split; [auto|]. split; [rewrite Hb1; lia|exact Hb2].
    + left. split; [apply Hother; auto|reflexivity].
Qed.

(** ** Blocks *)

(** The bytes still to come, apart from zeros. *)
Inductive remain (s : ssrc) : list Z -> Prop :=
| r_between ks o a :
    ss_left s = 0 -> -1 <= ss_idx s -> ss_rpm s = set_off r o -> follows o ks -> Forall good ks ->
    from cpio (ss_idx s + 1) = layout archive a ks -> zlen (ss_buf s) = max_header cpio ->
    (0 <= ss_idx s -> exists c, rd cpio (ss_idx s) = Ok c /\ 0 <= cf_index c) ->
    remain s (altered archive ks)
| r_entry ks a c head body n oend :
    cur s c head body n oend -> 0 <= ss_idx s -> 0 <= cf_index c -> follows oend ks -> Forall good ks ->
    from cpio (ss_idx s + 1) = layout archive a ks -> zlen (ss_buf s) = max_header cpio ->
    remain s (slice (head ++ body) (zlen head + zlen body - n) n ++ altered archive ks)
| r_trailer c n oend :
    cur s c trailer [] n oend -> 0 <= ss_idx s -> cf_index c = -1 -> zlen (ss_buf s) = max_header cpio ->
    remain s (slice trailer (zlen trailer - n) n).

Definition padded (out : list Z) (len : Z) : list Z := slice out 0 len ++ zeros (len - zlen (slice out 0 len)).

Lemma cur_done s c head body oend : cur s c head body 0 oend -> ss_rpm s = set_off r oend.
Proof.
  intros [H1 H2 H3 H4 H5 H6 [[_ H7]|(f & Hf & H7)]]; [auto|]. destruct (S_ISLNK (fi_mode f)).
  - destruct H7 as (l & _ & _ & H7 & _). auto.
  - destruct H7 as [H7 _]. rewrite Z.min_l in H7 by apply zlen_nonneg. rewrite Z.sub_0_r in H7. auto.
Qed.

Lemma padded_app x y len : zlen x <= len -> padded (x ++ y) len = x ++ padded y (len - zlen x).
Proof.
  intros H. pose proof (zlen_nonneg x). unfold padded.
  replace (slice (x ++ y) 0 len) with (x ++ slice y 0 (len - zlen x)).
  - rewrite zlen_app, <- app_assoc. do 2 f_equal. f_equal. lia.
  - replace len with (zlen x + (len - zlen x)) at 2 by lia. rewrite slice_split by lia. rewrite slice_app_exact_l by reflexivity.
    f_equal. rewrite Z.add_0_l, slice_app_r by lia. rewrite Z.sub_diag. reflexivity.
Qed.

Lemma from_app_exact {A} (x y : list A) len : zlen x <= len -> from (x ++ y) len = from y (len - zlen x).
Proof.
  intros H. unfold from. rewrite skipn_app, skipn_all2 by (unfold zlen in *; lia). cbn [app]. f_equal. unfold zlen in *. lia.
Qed.

Lemma trailer_round fuel s c n oend len : cur s c trailer [] n oend -> 0 <= ss_idx s -> cf_index c = -1 ->
  zlen (ss_buf s) = max_header cpio -> 0 < len ->
  exists s', standard_rounds files cpio (Datatypes.S fuel) s len = Ok (s', padded (slice trailer (zlen trailer - n) n) len) /\
  remain s' (from (slice trailer (zlen trailer - n) n) len).
Proof.
  intros Hc Hi Hx Hb Hlen. cbn [standard_rounds].
  destruct (drain_cur s c trailer [] n oend len Hc Hlen) as (s' & E & Hc' & Ei & Eb).
  pose proof (c_range _ _ _ _ _ _ Hc) as Hr. change (@zlen Z []) with 0 in *. rewrite Z.add_0_r in *. rewrite app_nil_r in E.
  rewrite E. cbn [bind]. rewrite zlen_slice by lia. rewrite Ei.
  assert (Hrem : remain s' (from (slice trailer (zlen trailer - n) n) len)).
  { replace (from (slice trailer (zlen trailer - n) n) len) with (slice trailer (zlen trailer - (n - Z.min n len)) (n - Z.min n len)).
    - eapply r_trailer; eauto; [rewrite Ei; auto|rewrite Eb; auto].
    - unfold from. destruct (Z.le_gt_cases n len).
      + rewrite Z.min_l by lia. rewrite slice_nil_len by lia. symmetry. apply skipn_all2. pose proof (zlen_slice trailer (zlen trailer - n) n). unfold zlen in *. lia.
      + rewrite Z.min_r by lia. unfold slice. rewrite skipn_firstn_comm, skipn_skipn. f_equal; [lia|f_equal; lia]. }
  destruct (Z.le_gt_cases len n) as [Hle|Hgt].
  - rewrite (Z.min_r n len) in * by lia. rewrite Z.sub_diag. cbn [andb Z.ltb Z.compare bind Z.eqb].
    exists s'. split; [|exact Hrem]. f_equal. f_equal. unfold padded.
    rewrite (slice_slice trailer) by lia. rewrite Z.add_0_r. rewrite zlen_slice by lia. rewrite Z.sub_diag. symmetry. apply app_nil_r.
  - rewrite (Z.min_l n len) in * by lia. replace ((0 <? len - n) && (0 <=? ss_idx s)) with true by lia.
    rewrite <- Ei, (c_idx _ _ _ _ _ _ Hc'). cbn [bind]. rewrite Hx. change (-1 <? 0) with true. cbn match.
    exists s'. split; [|exact Hrem]. f_equal. f_equal. unfold padded.
    rewrite (slice_all_ge (slice trailer (zlen trailer - n) n)) by (rewrite zlen_slice by lia; lia). rewrite zlen_slice by lia. reflexivity.
Qed.

Definition between_ok (ks : list kept_entry) : Prop := forall fuel s o a len,
  (length ks + 2 <= fuel)%nat -> 0 < len ->
  ss_left s = 0 -> -1 <= ss_idx s -> ss_rpm s = set_off r o -> follows o ks -> Forall good ks ->
  from cpio (ss_idx s + 1) = layout archive a ks -> zlen (ss_buf s) = max_header cpio ->
  (0 <= ss_idx s -> exists c, rd cpio (ss_idx s) = Ok c /\ 0 <= cf_index c) ->
  exists s', standard_rounds files cpio fuel s len = Ok (s', padded (altered archive ks) len) /\ remain s' (from (altered archive ks) len).

Lemma entry_round ks (IH : between_ok ks) fuel s c head body n oend a len :
  (length ks + 2 <= fuel)%nat -> 0 < len -> cur s c head body n oend -> 0 <= ss_idx s -> 0 <= cf_index c -> follows oend ks ->
  Forall good ks -> from cpio (ss_idx s + 1) = layout archive a ks -> zlen (ss_buf s) = max_header cpio ->
  let out := slice (head ++ body) (zlen head + zlen body - n) n ++ altered archive ks in
  exists s', standard_rounds files cpio fuel s len = Ok (s', padded out len) /\ remain s' (from out len).
Proof.
  intros Hfu Hlen Hc Hi Hx Hfo Hg Hl Hb out. destruct fuel as [|fuel]; [lia|].
  destruct (drain_cur s c head body n oend len Hc Hlen) as (s1 & E & Hc1 & Ei & Eb).
  pose proof (c_range _ _ _ _ _ _ Hc) as Hr.
  set (t := zlen head + zlen body - n) in *.
  assert (Hz : zlen (head ++ body) = t + n) by (rewrite zlen_app; lia).
  destruct (Z.lt_ge_cases n len) as [Hlt|Hge].
  - assert (E0 : standard_rounds files cpio (Datatypes.S fuel) s len =
      match standard_rounds files cpio (Datatypes.S fuel) s1 (len - n) with
      | Ok (s', x) => Ok (s', slice (head ++ body) t n ++ x) | Err e => Err e | Ub u => Ub u | NoFuel => NoFuel end).
    { cbn [standard_rounds]. rewrite E. cbn [bind]. rewrite Z.min_l in * by lia. rewrite zlen_slice by lia.
      rewrite Z.sub_diag in Hc1.
      assert (Ed : drain files cpio s1 (len - n) = Ok (s1, [])) by (unfold drain; rewrite (c_left _ _ _ _ _ _ Hc1); reflexivity).
      rewrite Ed. cbn [bind]. change (@zlen Z []) with 0. rewrite Z.sub_0_r.
      replace ((0 <? len - n) && (0 <=? ss_idx s1)) with true by lia. rewrite (c_idx _ _ _ _ _ _ Hc1). cbn [bind].
      replace (cf_index c <? 0) with false by lia. replace (len - n =? 0) with false by lia.
      destruct (advance files cpio s1); cbn [bind]; try reflexivity.
      destruct (standard_rounds files cpio fuel a0 (len - n)) as [[? ?]| | |]; reflexivity. }
    rewrite Z.min_l, Z.sub_diag in Hc1 by lia.
    destruct (IH (Datatypes.S fuel) s1 oend a (len - n)) as (s2 & E2 & R2); auto; try lia; try congruence.
    + exact (c_left _ _ _ _ _ _ Hc1).
    + apply (cur_done _ _ _ _ _ Hc1).
    + intros _. exists c. split; [exact (c_idx _ _ _ _ _ _ Hc1)|auto].
    + rewrite E0, E2. exists s2. assert (Hzs : zlen (slice (head ++ body) t n) = n) by (apply zlen_slice; lia).
      unfold out. rewrite padded_app by lia. rewrite from_app_exact by lia. rewrite Hzs. split; [reflexivity|exact R2].
  - cbn [standard_rounds]. rewrite E. cbn [bind]. rewrite Z.min_r in * by lia. rewrite zlen_slice by lia. rewrite Z.sub_diag.
    cbn [andb Z.ltb Z.compare bind Z.eqb]. exists s1.
    assert (Hzs : zlen (slice (head ++ body) t n) = n) by (apply zlen_slice; lia). split.
    + f_equal. f_equal. unfold padded, out. rewrite (slice_app_l (slice (head ++ body) t n)) by lia. rewrite slice_slice by lia. rewrite Z.add_0_r.
      rewrite zlen_slice by lia. rewrite Z.sub_diag. symmetry. apply app_nil_r.
    + replace (from out len) with (slice (head ++ body) (zlen head + zlen body - (n - len)) (n - len) ++ altered archive ks).
      * eapply r_entry; eauto; [rewrite Ei; auto|rewrite Ei; exact Hl|rewrite Eb; auto].
      * unfold out, from. rewrite skipn_app. f_equal.
        -- unfold slice. rewrite skipn_firstn_comm, skipn_skipn. f_equal; [lia|f_equal; lia].
        -- replace (Z.to_nat len - _)%nat with 0%nat by (unfold zlen in *; lia). reflexivity.
Qed.

Lemma between_all ks : between_ok ks.
Proof.
  induction ks as [|k ks IH]; intros fuel s o a len Hfu Hlen Hleft Hi Hr Hfo Hg Hl Hb Hx; cbn [length] in Hfu;
    (destruct fuel as [|fuel]; [lia|]); cbn [standard_rounds];
    (assert (Ed : drain files cpio s len = Ok (s, [])) by (unfold drain; rewrite Hleft; reflexivity)); rewrite Ed; cbn [bind];
    change (@zlen Z []) with 0; rewrite Z.sub_0_r;
    (assert (Ef : (if (0 <? len) && (0 <=? ss_idx s) then c <- rd cpio (ss_idx s) ;; Ok (cf_index c <? 0) else Ok false) = Ok false)
      by (destruct ((0 <? len) && (0 <=? ss_idx s)) eqn:E; [|reflexivity]; destruct Hx as (c & Ec & Hc); [lia|]; rewrite Ec; cbn [bind];
          replace (cf_index c <? 0) with false by lia; reflexivity));
    rewrite Ef; cbn [bind]; replace (len =? 0) with false by lia.
  - destruct (advance_trailer s a o Hr Hl Hi Hb) as (s1 & c & E1 & C1 & X1 & I1 & B1). rewrite E1. cbn [bind].
    destruct fuel as [|fuel]; [lia|].
    destruct (trailer_round fuel s1 c (zlen trailer) o len C1) as (s2 & E2 & R2); [lia|auto|congruence|auto|].
    rewrite E2. cbn [bind app]. rewrite Z.sub_diag, slice_all in *.
    exists s2. split; [reflexivity|exact R2].
  - apply Forall_cons_iff in Hg. destruct Hg as [Hk Hg].
    destruct (advance_entry s a o k ks Hr Hl Hi Hb Hk Hfo) as (s1 & c & E1 & C1 & X1 & I1 & B1 & L1 & F1). rewrite E1. cbn [bind].
    destruct (entry_round ks IH fuel s1 c (khead k) (kbody k) (zlen (khead k) + zlen (kbody k)) (en_next (ke_entry k))
                (a + zlen (new_bytes archive k)) len) as (s2 & E2 & R2); auto; try lia; try congruence.
    rewrite E2. cbn [bind app]. rewrite Z.sub_diag in *. rewrite <- zlen_app, slice_all in *.
    replace (altered archive (k :: ks)) with ((khead k ++ kbody k) ++ altered archive ks) by (unfold altered, khead, kbody; cbn [map concat]; change (new_bytes archive k) with (khead k ++ kbody k); unfold khead, kbody; rewrite <- !app_assoc; reflexivity).
    exists s2. split; [reflexivity|exact R2].
Qed.

Lemma layout_len a ks : length (layout archive a ks) = (length ks + 1)%nat.
Proof. revert a. induction ks as [|k ks IH]; intros a; cbn [layout length]; [reflexivity|]. rewrite IH. lia. Qed.

Lemma from_length {A} (l : list A) i : (length (from l i) <= length l)%nat.
Proof. unfold from. rewrite skipn_length. lia. Qed.

Lemma next_remain s out : remain s out ->
  exists s', next_standard files cpio s = Ok (s', padded out BLOCK_SIZE) /\ remain s' (from out BLOCK_SIZE).
Proof.
  assert (Hlen : forall ks a i, from cpio i = layout archive a ks -> (length ks + 2 <= Datatypes.S (Datatypes.S (length cpio)))%nat).
  { intros ks a i H. pose proof (from_length cpio i) as Hl. rewrite H, layout_len in Hl. lia. }
  intros H. unfold next_standard. destruct H as [ks o a|ks a c head body n oend|c n oend].
  - eapply between_all; eauto; reflexivity.
  - eapply entry_round; eauto; [apply between_all|reflexivity].
  - eapply trailer_round; eauto; reflexivity.
Qed.

End Std.

(** ** All blocks *)
Lemma padded_block out i : 0 <= i -> padded (from out (i * BS)) BS = block out i.
Proof.
  intros Hi. unfold padded, block. replace (slice (from out (i * BS)) 0 BS) with (slice out (i * BS) BS).
  - reflexivity.
  - unfold slice, from. reflexivity.
Qed.

Lemma max_header_ge cpio : 124 <= max_header cpio /\ forall c, In c cpio -> cf_hlen c <= max_header cpio.
Proof.
  unfold max_header. change (111 + zlen CPIO_TRAILER + padding (111 + zlen CPIO_TRAILER) 4) with 124.
  assert (G : forall m, m <= fold_left (fun m c => Z.max m (cf_hlen c)) cpio m /\
                        forall c, In c cpio -> cf_hlen c <= fold_left (fun m c => Z.max m (cf_hlen c)) cpio m); [|apply G].
  induction cpio as [|c l IH]; intros m; cbn [fold_left]; [split; [lia|intros ? []]|].
  destruct (IH (Z.max m (cf_hlen c))) as [H1 H2]. split; [lia|]. intros x [<-|Hx]; [lia|auto].
Qed.

Lemma layout_hlen archive ks : forall a c, In c (layout archive a ks) -> 0 <= cf_hlen c.
Proof.
  induction ks as [|k ks IH]; intros a c; cbn [layout].
  - intros [<-|[]]. apply zlen_nonneg.
  - intros [<-|H]; [apply zlen_nonneg|eauto].
Qed.

Lemma kept_good unpatched files colors r es : Forall wf_file files ->
  listing (rp_archive r) 0 es -> Forall plain_entry (kept unpatched files colors es) ->
  Forall (zero_padded (rp_archive r)) (kept unpatched files colors es) ->
  Forall (good files r) (kept unpatched files colors es).
Proof.
  intros Hf Hl Hp Hz. pose proof (kept_all unpatched files colors _ _ _ Hl) as Hk.
  rewrite Forall_forall in *. intros k Hin. specialize (Hk k Hin). specialize (Hp k Hin). specialize (Hz k Hin).
  destruct Hk as [K1 K2 K3 K4 K5 K6]. unfold good.
  split; [lia|]. split; [unfold rd; replace (ke_index k <? 0) with false by lia; rewrite K2; reflexivity|].
  split; [apply Hf; eapply nth_error_In; eauto|]. split; [auto|].
  split; [|repeat (split; [tauto || lia|]); auto].
  intros Hreg. unfold wanted in K5. rewrite Hreg in K5. rewrite !andb_true_iff in K5. lia.
Qed.

Lemma standard_yields unpatched files colors r es len :
  zlen (rp_archive r) < 2 ^ 62 -> Forall wf_file files -> listing (rp_archive r) 0 es -> NoDup (map en_name es) ->
  let ks := kept unpatched files colors es in
  Forall plain_entry ks -> Forall (zero_padded (rp_archive r)) ks -> rp_off r = 0 ->
  let idx := layout (rp_archive r) 0 ks in
  yields (next_standard files idx) (standard_source r idx) (first_blocks (altered (rp_archive r) ks) len).
Proof.
  intros Ha Hf Hl Hnd ks Hp Hz Ho idx.
  destruct (max_header_ge idx) as [Hm1 Hm2].
  assert (Hbuf : forall c, In c idx -> 0 <= cf_hlen c <= max_header idx).
  { intros c Hc. split; [eapply layout_hlen; exact Hc|auto]. }
  set (out := altered (rp_archive r) ks).
  assert (G : forall k i s, remain files idx r s (from out (Z.of_nat i * BS)) ->
    yields (next_standard files idx) s (map (fun j => block out (Z.of_nat j)) (seq i k))).
  { induction k as [|k IH]; intros i s Hs; cbn [seq map]; [constructor|].
    destruct (next_remain files idx r Ha Hbuf s _ Hs) as (s' & E & Hs').
    change BLOCK_SIZE with BS in E. rewrite padded_block in E by lia. econstructor; [exact E|]. apply IH.
    replace (from out (Z.of_nat (Datatypes.S i) * BS)) with (from (from out (Z.of_nat i * BS)) BLOCK_SIZE); [exact Hs'|].
    unfold from. rewrite skipn_skipn. f_equal. unfold BS, BLOCK_SIZE. lia. }
  apply G. change (from out (Z.of_nat 0 * BS)) with out. apply (r_between files idx r _ ks 0 0).
  - reflexivity.
  - reflexivity.
  - cbn [ss_rpm standard_source]. unfold set_off. destruct r; cbn in *; subst; reflexivity.
  - apply follows_listing; auto.
  - apply kept_good; auto.
  - reflexivity.
  - cbn [ss_buf standard_source]. unfold zlen. rewrite repeat_length. lia.
  - cbn. lia.
Qed.

(** ** At most as many entries as files *)
Lemma kept_names unpatched files colors es : NoDup (map en_name es) ->
  NoDup (map (fun k => en_name (ke_entry k)) (kept unpatched files colors es)) /\
  forall k, In k (kept unpatched files colors es) -> In (ke_entry k) es.
Proof.
  induction es as [|e es IH]; intros Hnd; [split; [constructor|intros ? []]|].
  cbn [map] in Hnd. apply NoDup_cons_iff in Hnd. destruct Hnd as [Hni Hnd]. destruct (IH Hnd) as [IH1 IH2].
  change (kept unpatched files colors (e :: es)) with (keep unpatched files colors e ++ kept unpatched files colors es).
  unfold keep. destruct (file_of files (en_name e)) as [[i f]|]; [|cbn [app]; split; [auto|intros k Hk; right; auto]].
  destruct (wanted unpatched colors f _ _); [|cbn [app]; split; [auto|intros k Hk; right; auto]].
  cbn [app map]. split.
  - constructor; [|auto]. intros Hin. apply in_map_iff in Hin. destruct Hin as (k & Ek & Hk). apply Hni.
    cbn [ke_entry fst] in Ek. rewrite <- Ek. apply in_map. auto.
  - intros k [<-|Hk]; [left; reflexivity|right; auto].
Qed.

Lemma kept_fewer unpatched files colors archive es : listing archive 0 es -> NoDup (map en_name es) ->
  zlen (kept unpatched files colors es) <= zlen files.
Proof.
  intros Hl Hnd. destruct (kept_names unpatched files colors es Hnd) as [H1 _].
  pose proof (kept_all unpatched files colors _ _ _ Hl) as Hk. rewrite Forall_forall in Hk.
  set (ks := kept unpatched files colors es) in *.
  assert (Hndi : NoDup (map (fun k => Z.to_nat (ke_index k)) ks)).
  { clear - H1 Hk. induction ks as [|k ks IH]; cbn [map] in *; [constructor|]. apply NoDup_cons_iff in H1. destruct H1 as [H1 H2].
    constructor; [|apply IH; auto; intros; apply Hk; right; auto].
    intros Hin. apply in_map_iff in Hin. destruct Hin as (k' & Ek & Hin). apply H1.
    destruct (Hk k (or_introl eq_refl)) as [A1 A2 A3 _ _ _]. destruct (Hk k' (or_intror Hin)) as [B1 B2 B3 _ _ _].
    rewrite Ek, A2 in B2. injection B2 as E. apply in_map_iff. exists k'. split; [congruence|auto]. }
  assert (Hle : (length (map (fun k => Z.to_nat (ke_index k)) ks) <= length (seq 0 (length files)))%nat).
  { apply NoDup_incl_length; auto. intros x Hx. apply in_map_iff in Hx. destruct Hx as (k & <- & Hin). apply in_seq.
    destruct (Hk k Hin) as [A1 _ _ _ _ _]. unfold zlen in A1. lia. }
  rewrite map_length, seq_length in Hle. unfold zlen. lia.
Qed.

(** ** External copies of a standard delta *)
Lemma standard_external L unpatched offadj files colors sha r es :
  zlen (rp_archive r) < 2 ^ 32 -> zlen files < 2 ^ 32 -> Forall wf_file files -> (forall l, zlen (lb_md5 L l) = 16) ->
  rp_off r = 0 -> listing (rp_archive r) 0 es -> NoDup (map en_name es) ->
  let ks := kept unpatched files colors es in
  Forall (fun k => digest_ok sha (ke_file k)) ks ->
  (offadj = true -> close 0 0 (offsets (rp_archive r) 0 ks)) ->
  Forall plain_entry ks -> Forall (zero_padded (rp_archive r)) ks ->
  exists cpio sequence adjs idx,
    parse_cpio_files L unpatched offadj files colors sha r = Ok (cpio, sequence, adjs) /\
    expand_sequence L None (Some sequence) files sha = Ok idx /\
    forall capacity len clean copies, 1 <= capacity -> 0 < len <= zlen cpio -> block_count len < 2 ^ 32 - 1 ->
      Forall (in_data len) (extents 0 copies) ->
      exists b b', blocks_create ssrc len copies (standard_source r idx) clean = Ok b /\
      read_copies ssrc capacity (in_order ssrc capacity (next_standard files idx)) b copies 0 0 =
        Ok (b', map (fun '(o, l) => slice cpio o l) (extents 0 copies)).
Proof.
  intros Ha Hc Hf Hmd Ho Hl Hnd ks Hd Hcl Hp Hz.
  destruct (parse_small L unpatched offadj files colors sha r es Ha Hc Hf Hl Hd Hcl) as (code & adjs & _ & E & _).
  destruct (make_accepted L unpatched offadj files colors sha r es Ha Hc Hf Hmd Hl Hd Hcl) as (cpio & sequence & adjs' & E' & Ex); auto.
  { eapply kept_fewer; eauto. }
  fold ks in E, Ex. exists cpio, sequence, adjs', (layout (rp_archive r) 0 ks). split; [auto|]. split; [auto|].
  rewrite E in E'. apply ok_inj in E'. 
  assert (Ecp : altered (rp_archive r) ks = cpio) by congruence. rewrite <- Ecp.
  intros capacity len clean copies Hcap Hlen Hbc Hin.
  apply cache_transparent; auto. apply standard_yields; auto. lia.
Qed.
