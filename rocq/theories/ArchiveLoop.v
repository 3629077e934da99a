(** * ArchiveLoop: the archive parser computes the altered archive *)
From Verif Require Import Base BaseLemmas Utils SpecCodec UtilsProofs CpioHeader CpioHeaderProofs CodecFinal
     Rpm FormatFinal Seq SeqProofs Expand Archive SpecArchive ArchiveProofs ArchiveMain.

Lemma seq_add_all_app : forall x y s, seq_add_all s (x ++ y) = (s <- seq_add_all s x ;; seq_add_all s y).
Proof.
  induction x as [|i x IH]; intros y s; cbn [app seq_add_all bind]; [reflexivity|].
  destruct (seq_add s i); cbn [bind]; auto.
Qed.

Lemma pad4_range n : 0 <= padding n 4 < 4.
Proof. apply padding_range. lia. Qed.

Lemma zlen_align4 l : zlen (align4 l) = zlen l + padding (zlen l) 4.
Proof. unfold align4. rewrite zlen_app, zlen_zeros; [reflexivity|apply pad4_range]. Qed.

Lemma zlen_skip_slash n : zlen (skip_slash n) <= zlen n.
Proof.
  unfold skip_slash. destruct n as [|x r]; [lia|]. rewrite zlen_cons.
  destruct x as [|p|p]; rewrite ?zlen_cons; try lia. do 6 (try (destruct p as [p|p|]; rewrite ?zlen_cons; try lia)).
Qed.

Section Loop.
Variable L : libs.
Variable unpatched : option (list Z -> list Z -> bool).
Variable offadj : bool.
Variable files : list file_info.
Variable colors : bool.
Variable sha : bool.
Variable r : rpm.
Notation archive := (rp_archive r).

Hypothesis Harch : zlen archive < 2 ^ 62.
Hypothesis Hfiles : Forall wf_file files.

Notation nb := (new_bytes archive).
Definition cat (ks : list kept_entry) : list Z := concat (map nb ks).
Definition metas (ks : list kept_entry) : list Z := concat (map (fun k => meta (ke_file k)) ks).

Lemma cat_app x y : cat (x ++ y) = cat x ++ cat y.
Proof. unfold cat. rewrite map_app, concat_app. reflexivity. Qed.
Lemma metas_app x y : metas (x ++ y) = metas x ++ metas y.
Proof. unfold metas. rewrite map_app, concat_app. reflexivity. Qed.
Lemma offsets_app : forall x y a, offsets archive a (x ++ y) = offsets archive a x ++ offsets archive (a + zlen (cat x)) y.
Proof.
  induction x as [|k x IH]; intros y a; cbn [app offsets].
  - change (cat []) with (@nil Z). change (@zlen Z []) with 0. rewrite Z.add_0_r. reflexivity.
  - rewrite IH. f_equal. f_equal. f_equal. unfold cat. cbn [map concat]. rewrite zlen_app. lia.
Qed.

(** A kept entry has a header. *)
Lemma zlen_nb k : 110 < zlen (nb k).
Proof.
  unfold new_bytes, new_head, new_body. rewrite zlen_app, !zlen_align4. rewrite !zlen_app, header_len, zlen_cons.
  pose proof (zlen_nonneg (en_name (ke_entry k))).
  pose proof (pad4_range (zlen (if S_ISLNK (fi_mode (ke_file k)) then fi_linkto (ke_file k) else en_data archive (ke_entry k)))).
  pose proof (zlen_nonneg (if S_ISLNK (fi_mode (ke_file k)) then fi_linkto (ke_file k) else en_data archive (ke_entry k))).
  match goal with |- context [padding ?x 4] => pose proof (pad4_range x) end.
  rewrite !zlen_cons in *. change (@zlen Z []) with 0 in *. lia.
Qed.

Lemma offsets_lt : forall ks a, Forall (fun p => snd p < a + zlen (cat ks)) (offsets archive a ks).
Proof.
  induction ks as [|k ks IH]; intros a; cbn [offsets]; constructor.
  - cbn [snd]. unfold cat. cbn [map concat]. rewrite zlen_app. pose proof (zlen_nb k). pose proof (zlen_nonneg (concat (map nb ks))). lia.
  - eapply Forall_impl; [|apply IH]. intros p Hp. cbn beta in Hp. unfold cat in *. cbn [map concat]. rewrite zlen_app. lia.
Qed.

(** ** Invariant *)
Record adj_inv (ks : list kept_entry) (len o pos : Z) (adj : list (Z * Z)) (cap prev : Z) : Prop := {
  av_cap : cap_inv adj cap;
  av_len : adj_len adj = prev;
  av_prev : 0 <= prev <= len;
  av_range : Forall adj_range adj;
  av_sum : forall a, prev <= a -> adj_sum 0 adj a = o - pos;
  av_offs : Forall (fun p => fst p = snd p + adj_sum 0 adj (snd p)) (offsets archive 0 ks)
}.

Record ainv (ks : list kept_entry) (o : Z) (s : ast) : Prop := {
  iv_rpm : as_rpm s = set_off r o;
  iv_o : 0 <= o;
  iv_gb : gb_inv (as_cpio s);
  iv_data : gb_data (as_cpio s) = cat ks;
  iv_pos : 0 <= as_pos s <= zlen (cat ks) + o;
  iv_md5 : as_md5 s = metas ks;
  iv_seq : seq_add_all SEQ_INIT (map ke_index ks) = Ok (as_seq s);
  iv_noadj : offadj = false -> as_adj s = [];
  iv_adj : offadj = true -> adj_inv ks (zlen (cat ks)) o (as_pos s) (as_adj s) (as_adjcap s) (as_prev s)
}.

(** ** Copying *)
Lemma copy_data_ok s o size (copy : bool) : as_rpm s = set_off r o -> 0 <= o -> 0 <= size ->
  o + size + padding size 4 <= zlen archive -> 0 <= as_pos s < 2 ^ 63 -> gb_inv (as_cpio s) ->
  zlen (gb_data (as_cpio s)) < 2 ^ 62 ->
  exists g, copy_data s size copy =
    Ok (mkas (set_off r (o + size + padding size 4)) g (as_pos s + (size + padding size 4))
          (as_adj s) (as_adjcap s) (as_prev s) (as_md5 s) (as_seq s)) /\
    gb_inv g /\ gb_data g = gb_data (as_cpio s) ++ (if copy then align4 (slice archive o size) else []).
Proof.
  intros Hr Ho Hs Hl Hp Hg Hgl. unfold copy_data. rewrite Hr. pose proof (pad4_range size) as Hpad.
  destruct (data_loop_ok r Harch (S (Z.to_nat (size / BUFFER_SIZE))) o (as_cpio s) (as_pos s) size copy) as (g & E & D & I);
    auto; try lia.
  { change BUFFER_SIZE with 4096. pose proof (Z.div_mod size 4096 ltac:(lia)). pose proof (Z.mod_pos_bound size 4096 ltac:(lia)).
    pose proof (Z.div_pos size 4096). lia. }
  rewrite E. cbn [bind]. assert (Hz : zlen (slice archive o size) = size) by (apply zlen_slice; lia).
  destruct (0 <? padding size 4) eqn:Ep.
  - rewrite chunk_ok by lia. cbn [bind]. destruct copy.
    + destruct (extend_ok g (zeros (padding size 4)) I) as (g1 & E1 & D1 & I1).
      { rewrite D, zlen_app, zlen_zeros; lia. }
      rewrite E1. cbn [bind]. rewrite u64_small by lia. exists g1. split; [do 2 f_equal; lia|]. split; [auto|].
      rewrite D1, D, <- app_assoc. unfold align4. rewrite Hz. reflexivity.
    + cbn [bind]. rewrite u64_small by lia. exists g. split; [do 2 f_equal; lia|]. auto.
  - cbn [bind]. assert (Hp0 : padding size 4 = 0) by lia. rewrite Hp0. exists g. split; [do 2 f_equal; [f_equal; lia|lia]|]. split; [auto|].
    rewrite D. destruct copy; [|auto]. unfold align4. rewrite Hz, Hp0. change (zeros 0) with (@nil Z). rewrite app_nil_r. reflexivity.
Qed.

Lemma reg_not_lnk m : S_ISREG m = true -> S_ISLNK m = false /\ S_ISBLK m = false /\ S_ISCHR m = false.
Proof. unfold S_ISREG, S_ISLNK, S_ISBLK, S_ISCHR. intros. lia. Qed.
Lemma lnk_not_dev m : S_ISLNK m = true -> S_ISREG m = false /\ S_ISBLK m = false /\ S_ISCHR m = false.
Proof. unfold S_ISREG, S_ISLNK, S_ISBLK, S_ISCHR. intros. lia. Qed.

Lemma entry_size_range f : wf_file f -> 0 <= entry_size f < 2 ^ 32.
Proof.
  intros [_ Hs _ _ Hl]. unfold entry_size. destruct (S_ISREG _); [lia|]. destruct (S_ISLNK _); [|lia]. apply u32_range.
Qed.

Lemma new_header_eq f name : wf_file f -> zlen name <= zlen (fi_name f) ->
  new_header f name = mkch 0 (fi_mode f) 0 0 1 0 (entry_size f) 0 0
     (if is_device f then fi_rdev f / 256 else 0) (if is_device f then fi_rdev f mod 256 else 0) (zlen name + 3).
Proof.
  intros [Hm Hs Hd Hn Hl] Hz. unfold new_header, entry_size. pose proof (zlen_nonneg name).
  assert (Hdev : negb (S_ISREG (fi_mode f)) && negb (S_ISLNK (fi_mode f)) && (S_ISBLK (fi_mode f) || S_ISCHR (fi_mode f)) = is_device f).
  { unfold is_device. destruct (S_ISREG (fi_mode f)) eqn:E1; cbn [negb andb].
    - destruct (reg_not_lnk _ E1) as (_ & -> & ->). reflexivity.
    - destruct (S_ISLNK (fi_mode f)) eqn:E2; cbn [negb andb]; [|reflexivity]. destruct (lnk_not_dev _ E2) as (_ & -> & ->). reflexivity. }
  rewrite Hdev. rewrite major_rdev, minor_rdev by auto.
  rewrite (u8_small (fi_rdev f / 256)) by (split; [apply Z.div_pos; lia|apply Z.div_lt_upper_bound; lia]).
  rewrite (u8_small (fi_rdev f mod 256)) by (apply Z.mod_pos_bound; lia).
  rewrite u16_small by lia. f_equal. lia.
Qed.

Lemma dev_number f : wf_file f ->
  makedev (if is_device f then fi_rdev f / 256 else 0) (if is_device f then fi_rdev f mod 256 else 0) = entry_rdev f.
Proof.
  intros [Hm Hs Hd Hn Hl]. unfold entry_rdev. fold (is_device f). destruct (is_device f); [|reflexivity].
  rewrite makedev_small.
  - pose proof (Z.div_mod (fi_rdev f) 256). lia.
  - split; [apply Z.div_pos; lia|apply Z.div_lt_upper_bound; lia].
  - apply Z.mod_pos_bound; lia.
Qed.

(** ** A kept entry *)
Lemma adj_keep ks len o pos adj cap prev rest : len = zlen (cat ks) ->
  adj_inv ks len o pos adj cap prev -> close prev (o - pos) ((o, len) :: rest) -> len <> pos ->
  exists new cap', offadj_loop (offadj_fuel len pos) adj cap len prev pos = Ok (adj ++ new, cap') /\
    cap_inv (adj ++ new) cap' /\ adj_len (adj ++ new) = len /\ Forall adj_range (adj ++ new) /\
    (forall a, len <= a -> adj_sum 0 (adj ++ new) a = o - len) /\
    Forall (fun p => fst p = snd p + adj_sum 0 (adj ++ new) (snd p)) (offsets archive 0 ks) /\
    close len (o - len) rest.
Proof.
  intros Hlen [Hc Hl Hp Hr Hs Hoff] Hclose Hne. cbn [close] in Hclose.
  replace (o - len =? o - pos) with false in Hclose by lia. destruct Hclose as [Hgap Hclose].
  destruct (offadj_ok len adj cap prev pos Hc ltac:(lia)) as (new & cap' & E & Hc' & [A B C D]).
  exists new, cap'. split; [auto|]. split; [auto|]. split; [rewrite adj_len_app; lia|].
  split; [apply Forall_app; auto|]. split; [|split; [|auto]].
  - intros a Ha. rewrite adj_sum_app, Hl, Z.add_0_l, C by lia. rewrite Hs by lia. lia.
  - pose proof (offsets_lt ks 0) as Hlt. rewrite <- Hlen in Hlt. rewrite Forall_forall in *. intros p Hin.
    rewrite adj_sum_app, Hl, Z.add_0_l. specialize (Hlt p Hin). cbn beta in Hlt. rewrite B by lia. rewrite Z.add_0_r. apply Hoff. auto.
Qed.

Lemma metas_one k : metas [k] = meta (ke_file k).
Proof. unfold metas. cbn [map concat]. rewrite app_nil_r. reflexivity. Qed.
Lemma cat_one k : cat [k] = nb k.
Proof. unfold cat. cbn [map concat]. rewrite app_nil_r. reflexivity. Qed.

Lemma keep_step ks o s e i f rest code : ainv ks o s ->
  let k := (e, i, f) in
  In f files -> digest_ok sha f -> en_off e = o -> en_name e = skip_slash (fi_name f) ->
  0 < en_hlen e -> 0 <= en_size e < 2 ^ 32 -> en_next e <= zlen archive ->
  zlen (cat (ks ++ [k])) < 2 ^ 62 ->
  seq_add_all SEQ_INIT (map ke_index (ks ++ [k])) = Ok code ->
  (offadj = true -> close (as_prev s) (o - as_pos s) ((o, zlen (cat ks)) :: rest)) ->
  exists s', (s1 <- keep_entry offadj sha
                     (mkas (set_off r (o + en_hlen e)) (as_cpio s) (u64 (as_pos s + en_hlen e)) (as_adj s) (as_adjcap s) (as_prev s) (as_md5 s) (as_seq s))
                     i f (en_name e) (en_hlen e) (as_pos s) ;;
             copy_data s1 (en_size e) (negb (S_ISLNK (fi_mode f)))) = Ok s' /\
    ainv (ks ++ [k]) (en_next e) s' /\
    (offadj = true -> close (as_prev s') (en_next e - as_pos s') rest).
Proof.
  intros [Hrpm Ho Hg Hd Hp Hm Hs Hna Ha] k Hin Hdig Heo Hen Hhl Hsz Hnx Hbound Hcode Hclose.
  assert (Hwf : wf_file f) by (rewrite Forall_forall in Hfiles; apply Hfiles; auto).
  pose proof (zlen_skip_slash (fi_name f)) as Hss. rewrite <- Hen in Hss.
  pose proof (entry_size_range f Hwf) as Hes.
  assert (Hcat : cat (ks ++ [k]) = cat ks ++ nb k) by (rewrite cat_app, cat_one; reflexivity).
  rewrite Hcat, zlen_app in Hbound. unfold new_bytes in Hbound. cbn [k ke_file ke_entry fst snd] in Hbound.
  rewrite zlen_app in Hbound. pose proof (zlen_nonneg (cat ks)) as Hck.
  pose proof (zlen_nonneg (new_head f (en_name e))). pose proof (zlen_nonneg (new_body f (en_data archive e))).
  unfold en_next, en_body in Hnx. rewrite Heo in Hnx. pose proof (pad4_range (en_size e)) as Hpd.
  (* adjustments *)
  assert (Hadj : exists adj cap prev pos,
    (if negb (zlen (cat ks) =? as_pos s) then
       '(adj, cap, prev) <-
         (if offadj then
            '(adj, cap) <- offadj_loop (offadj_fuel (zlen (cat ks)) (as_pos s)) (as_adj s) (as_adjcap s) (zlen (cat ks)) (as_prev s) (as_pos s) ;;
            Ok (adj, cap, zlen (cat ks))
          else Ok (as_adj s, as_adjcap s, as_prev s)) ;;
       Ok (adj, cap, prev, u64 (zlen (cat ks) + en_hlen e))
     else Ok (as_adj s, as_adjcap s, as_prev s, u64 (as_pos s + en_hlen e))) = Ok (adj, cap, prev, pos) /\
    pos = zlen (cat ks) + en_hlen e /\
    (offadj = false -> adj = []) /\
    (offadj = true -> cap_inv adj cap /\ adj_len adj = prev /\ 0 <= prev <= zlen (cat ks) /\ Forall adj_range adj /\
       (forall a, prev <= a -> adj_sum 0 adj a = o - zlen (cat ks)) /\
       Forall (fun p => fst p = snd p + adj_sum 0 adj (snd p)) (offsets archive 0 ks) /\
       close prev (o - zlen (cat ks)) rest)).
  { destruct (zlen (cat ks) =? as_pos s) eqn:Eq; cbn [negb].
    - exists (as_adj s), (as_adjcap s), (as_prev s), (u64 (as_pos s + en_hlen e)).
      split; [reflexivity|]. split; [rewrite u64_small by lia; lia|]. split; [auto|]. intros Ht.
      destruct (Ha Ht) as [A1 A2 A3 A4 A5 A6]. specialize (Hclose Ht). cbn [close] in Hclose.
      replace (o - zlen (cat ks) =? o - as_pos s) with true in Hclose by lia.
      replace (zlen (cat ks)) with (as_pos s) by lia. split; [auto|]. split; [auto|]. split; [lia|]. split; [auto|].
      split; [auto|]. split; auto.
    - destruct offadj eqn:Eo.
      + destruct (adj_keep ks (zlen (cat ks)) o (as_pos s) (as_adj s) (as_adjcap s) (as_prev s) rest eq_refl (Ha eq_refl) (Hclose eq_refl) ltac:(lia))
          as (new & cap' & E & B1 & B2 & B3 & B4 & B5 & B6).
        rewrite E. cbn [bind]. do 4 eexists. split; [reflexivity|]. split; [apply u64_small; lia|]. split; [discriminate|].
        intros _. split; [exact B1|]. split; [exact B2|]. split; [lia|]. split; [exact B3|]. split; [exact B4|]. split; [exact B5|exact B6].
      + cbn [bind]. do 4 eexists. split; [reflexivity|]. split; [apply u64_small; lia|]. split; [intros _; auto|discriminate]. }
  destruct Hadj as (adj & cap & prev & pos & Eadj & Hpos & Hna' & Ha').
  unfold keep_entry. cbn [as_cpio as_adj as_adjcap as_prev as_pos as_md5 as_seq as_rpm].
  rewrite Hd. rewrite Eadj. cbn [bind].
  rewrite new_header_eq by (auto; lia). set (h := mkch _ _ _ _ _ _ _ _ _ _ _ _).
  cbn [ch_namesize ch_mode ch_filesize ch_rdevmajor ch_rdevminor h].
  fold h.
  assert (Hhead : concat [cpio_header_write h; [46; 47]; en_name e ++ [0]; zeros (padding (CPIO_HEADER_SIZE + (zlen (en_name e) + 3)) 4)] = new_head f (en_name e)).
  { cbn [concat]. rewrite app_nil_r. unfold new_head. fold h. unfold align4. rewrite <- !app_assoc. do 4 f_equal. f_equal.
    rewrite !zlen_app, header_len. change (zlen [46; 47]) with 2. change (zlen [0]) with 1. change CPIO_HEADER_SIZE with 110. f_equal. f_equal. lia. }
  destruct (extends_ok [cpio_header_write h; [46; 47]; en_name e ++ [0]; zeros (padding (CPIO_HEADER_SIZE + (zlen (en_name e) + 3)) 4)] (as_cpio s) Hg)
    as (g1 & E1 & D1 & I1).
  { rewrite Hhead, Hd. lia. }
  rewrite E1. cbn [bind]. rewrite Hhead, Hd in D1.
  rewrite dev_number by auto.
  assert (Hrd : 0 <= entry_rdev f < 2 ^ 32) by (destruct Hwf; unfold entry_rdev; destruct (S_ISBLK _ || S_ISCHR _); lia).
  assert (Hmo : 0 <= fi_mode f < 2 ^ 32) by (destruct Hwf; lia).
  rewrite (create_be4 (fi_mode f) Hmo), (create_be4 (entry_size f) Hes), (create_be4 (entry_rdev f) Hrd).
  (* sequence *)
  rewrite map_app, seq_add_all_app, Hs in Hcode. cbn [bind map seq_add_all] in Hcode.
  change (ke_index k) with i in Hcode.
  destruct (seq_add (as_seq s) i) as [sq|e0|u0|] eqn:Esq; cbn [bind] in Hcode; try discriminate.
  (* the two kinds *)
  assert (Hbody : exists g2 link : list Z, True) by (exists [], []; auto). clear Hbody.
  assert (Hmid : exists g2 md5,
    (if S_ISLNK (fi_mode f) then
       link <- rd_range (fi_linkto f) 0 (entry_size f) ;;
       g <- cpio_extends g1 [link; zeros (padding (entry_size f) 4)] ;;
       link0 <- rd_range (fi_linkto f ++ [0]) 0 (entry_size f + 1) ;;
       Ok (g, (as_md5 s ++ (en_name e ++ [0]) ++ be4 (fi_mode f) ++ be4 (entry_size f) ++ be4 (entry_rdev f)) ++ link0)
     else if S_ISREG (fi_mode f) && negb (entry_size f =? 0) then
       d <- file_digest sha (fi_md5 f) ;;
       Ok (g1, (as_md5 s ++ (en_name e ++ [0]) ++ be4 (fi_mode f) ++ be4 (entry_size f) ++ be4 (entry_rdev f)) ++ d)
     else Ok (g1, as_md5 s ++ (en_name e ++ [0]) ++ be4 (fi_mode f) ++ be4 (entry_size f) ++ be4 (entry_rdev f))) = Ok (g2, md5) /\
    gb_inv g2 /\ gb_data g2 = cat ks ++ new_head f (en_name e) ++ (if S_ISLNK (fi_mode f) then new_body f (en_data archive e) else []) /\
    md5 = metas (ks ++ [k])).
  { rewrite metas_app, metas_one, Hm. change (ke_file k) with f. unfold meta. rewrite <- Hen.
    destruct (S_ISLNK (fi_mode f)) eqn:El.
    - assert (Hsz2 : entry_size f = zlen (fi_linkto f)).
      { unfold entry_size. destruct (lnk_not_dev _ El) as (-> & _ & _). rewrite El. apply u32_small. destruct Hwf. pose proof (zlen_nonneg (fi_linkto f)). lia. }
      pose proof (zlen_nonneg (fi_linkto f)) as Hzl.
      rewrite rd_range_in by lia. cbn [bind]. rewrite Hsz2, slice_all.
      assert (Hb2 : new_body f (en_data archive e) = fi_linkto f ++ zeros (padding (zlen (fi_linkto f)) 4)).
      { unfold new_body. rewrite El. reflexivity. }
      destruct (extends_ok [fi_linkto f; zeros (padding (zlen (fi_linkto f)) 4)] g1 I1) as (g2 & E2 & D2 & I2).
      { cbn [concat]. rewrite app_nil_r, <- Hb2, D1, zlen_app. lia. }
      rewrite E2. cbn [bind]. rewrite rd_range_in by (rewrite ?zlen_app; change (zlen [0]) with 1; lia). cbn [bind].
      do 2 eexists. split; [reflexivity|]. split; [auto|]. split.
      + rewrite D2, D1. cbn [concat]. rewrite app_nil_r, <- Hb2, <- app_assoc. reflexivity.
      + rewrite slice_all_ge by (rewrite zlen_app; change (zlen [0]) with 1; lia). rewrite <- !app_assoc. reflexivity.
    - destruct (S_ISREG (fi_mode f)) eqn:Er; cbn [andb].
      + assert (Hes2 : entry_size f = fi_size f) by (unfold entry_size; rewrite Er; reflexivity). rewrite Hes2.
        destruct (fi_size f =? 0) eqn:Ez; cbn [negb].
        * replace (0 <? fi_size f) with false by lia. do 2 eexists. split; [reflexivity|]. split; [auto|].
          rewrite !app_nil_r. split; [auto|]. rewrite <- !app_assoc. reflexivity.
        * rewrite (digest_recorded sha f Er ltac:(lia) Hdig). cbn [bind].
          replace (0 <? fi_size f) with true by (destruct Hwf; lia). do 2 eexists. split; [reflexivity|]. split; [auto|].
          rewrite app_nil_r. split; [auto|]. rewrite <- !app_assoc. reflexivity.
      + do 2 eexists. split; [reflexivity|]. split; [auto|]. rewrite !app_nil_r. split; [auto|]. rewrite <- !app_assoc. reflexivity. }
  destruct Hmid as (g2 & md5 & Emid & I2 & D2 & Hmd). rewrite Emid. cbn [bind].
  pose (s1 := mkas (set_off r (o + en_hlen e)) g2 pos adj cap prev md5 sq). fold s1.
  destruct (copy_data_ok s1 (o + en_hlen e) (en_size e) (negb (S_ISLNK (fi_mode f)))) as (g3 & E3 & I3 & D3).
  { reflexivity. } { lia. } { lia. } { lia. } { cbn [as_pos s1]. lia. } { exact I2. }
  { cbn [as_cpio s1]. rewrite D2, !zlen_app. destruct (S_ISLNK _); [|change (@zlen Z []) with 0]; lia. }
  rewrite E3. eexists. split; [reflexivity|].
  assert (Hfin : gb_data g3 = cat (ks ++ [k])).
  { rewrite D3. cbn [as_cpio s1]. rewrite D2, Hcat. unfold new_bytes. cbn [k ke_file ke_entry fst snd]. rewrite <- !app_assoc. do 2 f_equal.
    unfold new_body, en_data, en_body. rewrite Heo. destruct (S_ISLNK (fi_mode f)); cbn [negb]; [rewrite app_nil_r; reflexivity|reflexivity]. }
  assert (Hlen2 : zlen (cat ks) <= zlen (cat (ks ++ [k]))) by (rewrite Hcat, zlen_app; pose proof (zlen_nonneg (nb k)); lia).
  split; [|].
  - split; cbn [as_rpm as_cpio as_pos as_adj as_adjcap as_prev as_md5 as_seq s1].
    + unfold en_next, en_body. rewrite Heo. reflexivity.
    + unfold en_next, en_body. lia.
    + auto.
    + auto.
    + unfold en_next, en_body. rewrite Heo. lia.
    + auto.
    + rewrite map_app, seq_add_all_app, Hs. cbn [bind map seq_add_all]. change (ke_index k) with i. rewrite Esq. reflexivity.
    + auto.
    + intros Ht. destruct (Ha' Ht) as (A1 & A2 & A3 & A4 & A5 & A6 & _). split; auto.
      * lia.
      * intros a Hpa. rewrite A5 by lia. unfold en_next, en_body. rewrite Heo. lia.
      * rewrite offsets_app. apply Forall_app. split; [auto|]. cbn [offsets]. constructor; [|constructor].
        cbn [fst snd]. change (ke_entry k) with e. rewrite Heo, Z.add_0_l. rewrite A5 by lia. lia.
  - intros Ht. destruct (Ha' Ht) as (_ & _ & _ & _ & _ & _ & Hcl). cbn [as_prev as_pos s1]. unfold en_next, en_body. rewrite Heo, Hpos.
    match goal with |- close _ ?x _ => replace x with (o - zlen (cat ks)) by lia end. exact Hcl.
Qed.
End Loop.
