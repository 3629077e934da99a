(** * ArchiveSeq: sequences made from archives, and their expansion *)
From Verif Require Import Base BaseLemmas Sat Utils SpecCodec UtilsProofs CpioHeader CpioHeaderProofs CodecFinal
     Rpm FormatFinal Seq SeqProofs Expand SeqFinal Archive SpecArchive ArchiveProofs ArchiveMain ArchiveLoop ArchiveFinal ArchiveSafe.

Record kept_ok (unpatched : option (list Z -> list Z -> bool)) (files : list file_info) (colors : bool) (archive : list Z) (k : kept_entry) : Prop := {
  ko_index : 0 <= ke_index k < zlen files;
  ko_file : nth_error files (Z.to_nat (ke_index k)) = Some (ke_file k);
  ko_name : en_name (ke_entry k) = skip_slash (fi_name (ke_file k));
  ko_size : 0 <= en_size (ke_entry k) < 2 ^ 32;
  ko_wanted : wanted unpatched colors (ke_file k) (en_name (ke_entry k)) (en_size (ke_entry k)) = true;
  ko_next : 0 <= en_body (ke_entry k) /\ en_next (ke_entry k) <= zlen archive
}.

Lemma kept_all unpatched files colors archive o es : listing archive o es ->
  Forall (kept_ok unpatched files colors archive) (kept unpatched files colors es).
Proof.
  induction 1 as [o n s Hh Hn|o n s name es e Hh Hn Hne He Hx Hl IH]; [constructor|].
  change (kept unpatched files colors (e :: es)) with (keep unpatched files colors e ++ kept unpatched files colors es).
  apply Forall_app. split; [|auto]. unfold keep. destruct (file_of files (en_name e)) as [[i f]|] eqn:Ef; [|constructor].
  destruct (wanted unpatched colors f (en_name e) (en_size e)) eqn:Ew; [|constructor]. constructor; [|constructor].
  destruct (file_of_some _ _ _ _ Ef) as (Hi0 & Hi1 & Hi2). destruct (header_size_range _ _ _ _ Hh) as [Hsz Hns].
  assert (Hb : 0 <= en_body e).
  { rewrite He. unfold en_body. cbn [en_off en_hlen]. destruct Hh as [[? _] _ _ _ _]. pose proof (pad4_range (110 + n)). lia. }
  split; cbn [ke_index ke_file ke_entry fst snd]; auto. rewrite He. exact Hsz.
Qed.

Lemma zlen_kept unpatched files colors es : zlen (kept unpatched files colors es) <= zlen es.
Proof.
  induction es as [|e es IH]; [reflexivity|].
  change (kept unpatched files colors (e :: es)) with (keep unpatched files colors e ++ kept unpatched files colors es).
  rewrite zlen_app, zlen_cons. assert (zlen (keep unpatched files colors e) <= 1); [|lia].
  unfold keep. destruct (file_of files (en_name e)) as [[i f]|]; [destruct (wanted _ _ _ _ _)|]; change (@zlen kept_entry []) with 0; try lia.
  reflexivity.
Qed.

Lemma zlen_slice_le {A} (l : list A) o n : 0 <= n -> zlen (slice l o n) <= n.
Proof. intros H. unfold slice, zlen. rewrite firstn_length. lia. Qed.

Lemma nb_bound r unpatched files colors k : Forall wf_file files -> kept_ok unpatched files colors (rp_archive r) k ->
  zlen (new_bytes (rp_archive r) k) < 2 ^ 33.
Proof.
  intros Hf [Hi Hn Hnm Hs _ _]. apply nth_error_In in Hn. rewrite Forall_forall in Hf. destruct (Hf _ Hn) as [_ _ _ Hw Hlk].
  unfold new_bytes, new_head, new_body. rewrite zlen_app, !zlen_align4, !zlen_app, header_len.
  change (zlen [46; 47]) with 2. change (zlen [0]) with 1. rewrite Hnm.
  pose proof (zlen_skip_slash (fi_name (ke_file k))). pose proof (zlen_slice_le (rp_archive r) (en_body (ke_entry k)) (en_size (ke_entry k))).
  assert (Hd : zlen (if S_ISLNK (fi_mode (ke_file k)) then fi_linkto (ke_file k) else en_data (rp_archive r) (ke_entry k)) < 2 ^ 32).
  { destruct (S_ISLNK _); [auto|]. unfold en_data. lia. }
  match goal with |- _ + padding ?x 4 + (_ + padding ?y 4) < _ => pose proof (pad4_range x); pose proof (pad4_range y) end. lia.
Qed.

Lemma cat_bound r unpatched files colors ks : Forall wf_file files -> Forall (kept_ok unpatched files colors (rp_archive r)) ks ->
  zlen (cat r ks) <= zlen ks * 2 ^ 33.
Proof.
  intros Hf. induction 1 as [|k ks Hk _ IH]; [reflexivity|]. change (cat r (k :: ks)) with (new_bytes (rp_archive r) k ++ cat r ks).
  rewrite zlen_app, zlen_cons. pose proof (nb_bound r unpatched files colors k Hf Hk). lia.
Qed.

(** Archives below 4 GiB. *)
Lemma parse_small L unpatched offadj files colors sha r es :
  zlen (rp_archive r) < 2 ^ 32 -> zlen files < 2 ^ 32 -> Forall wf_file files ->
  listing (rp_archive r) 0 es ->
  let ks := kept unpatched files colors es in
  Forall (fun k => digest_ok sha (ke_file k)) ks ->
  (offadj = true -> close 0 0 (offsets (rp_archive r) 0 ks)) ->
  exists code adjs, seq_encode (map ke_index ks) = Ok code /\
    parse_cpio_files L unpatched offadj files colors sha r =
      Ok (altered (rp_archive r) ks, lb_md5 L (concat (map (fun k => meta (ke_file k)) ks)) ++ code, adjs) /\
    (offadj = false -> adjs = []) /\
    (offadj = true -> Forall (fun p => fst p = snd p + adj_sum 0 adjs (snd p)) (offsets (rp_archive r) 0 ks)).
Proof.
  intros Ha Hc Hf Hl ks Hd Hcl. pose proof (listing_range _ _ _ Hl) as [_ Hr].
  pose proof (kept_all unpatched files colors _ _ _ Hl) as Hk. fold ks in Hk.
  pose proof (zlen_kept unpatched files colors es) as Hz. fold ks in Hz. pose proof (zlen_nonneg ks) as Hz0.
  destruct (encode_bound (map ke_index ks)) as (code & Ec & Hcz).
  { rewrite Forall_map. eapply Forall_impl; [|exact Hk]. intros k [Hi _ _ _ _ _]. lia. }
  rewrite zlen_map in Hcz.
  pose proof (cat_bound r unpatched files colors ks Hf Hk) as Hcat.
  assert (Halt : zlen (altered (rp_archive r) ks) < 2 ^ 62).
  { unfold altered. rewrite zlen_app. change (zlen trailer) with 124. unfold cat in Hcat. lia. }
  destruct (parse_ok L unpatched offadj files colors sha r ltac:(lia) Hf es code Hl Hd Halt Ec ltac:(lia) Hcl) as (adjs & E & H0 & H1).
  exists code, adjs. split; [auto|]. split; [exact E|]. split; [auto|]. intros Ht. apply H1. auto.
Qed.

(** ** Expansion *)
Lemma ok_inj {A} (a b : A) : Ok a = Ok b -> a = b.
Proof. congruence. Qed.

Lemma expand_file_ok (check : option (list Z -> bool -> list Z -> Z -> res unit)) sha f m : wf_file f -> expand_file check sha f = Ok m ->
  m = meta f /\ (forall c, check = Some c -> S_ISREG (fi_mode f) = true -> fi_size f <> 0 -> c (fi_name f) sha (recorded f) (fi_size f) = Ok tt).
Proof.
  intros Hwf H. unfold expand_file in H.
  assert (Hrd : 0 <= entry_rdev f < 2 ^ 32) by (destruct Hwf; unfold entry_rdev; destruct (S_ISBLK _ || S_ISCHR _); lia).
  assert (Hmo : 0 <= fi_mode f < 2 ^ 32) by (destruct Hwf; lia).
  rewrite (create_be4 (fi_mode f) Hmo), (create_be4 (entry_size f) (entry_size_range f Hwf)), (create_be4 (entry_rdev f) Hrd) in H.
  unfold meta. rewrite <- ?app_assoc in H. destruct (S_ISLNK (fi_mode f)) eqn:El.
  - apply ok_inj in H; subst m. split; [rewrite <- ?app_assoc; reflexivity|]. intros c _ Hr. destruct (lnk_not_dev _ El) as (X & _). congruence.
  - destruct (S_ISREG (fi_mode f)) eqn:Er; cbn [andb] in *.
    + assert (Hes2 : entry_size f = fi_size f) by (unfold entry_size; rewrite Er; reflexivity). rewrite Hes2 in *.
      destruct (0 <? fi_size f) eqn:Ez.
      * destruct (file_digest sha (fi_md5 f)) as [d|?|?|] eqn:Ed; cbn [bind] in H; try discriminate.
        apply digest_inv in Ed as [_ ->].
        destruct check as [c|].
        -- destruct (c (fi_name f) sha (recorded f) (fi_size f)) as [[]|?|?|] eqn:Ec; cbn [bind] in H; try discriminate.
           apply ok_inj in H; subst m. split; [rewrite <- ?app_assoc; reflexivity|]. intros c' Hc' _ _. congruence.
        -- cbn [bind] in H. apply ok_inj in H; subst m. split; [rewrite <- ?app_assoc; reflexivity|]. intros c' Hc'. discriminate.
      * apply ok_inj in H; subst m. split; [rewrite ?app_nil_r, <- ?app_assoc; reflexivity|]. intros c _ _ Hn. destruct Hwf. lia.
    + apply ok_inj in H; subst m. split; [rewrite ?app_nil_r, <- ?app_assoc; reflexivity|]. intros c _ X. discriminate.
Qed.

(** What acceptance means. *)
Definition verified (check : option (list Z -> bool -> list Z -> Z -> res unit)) (sha : bool) (f : file_info) : Prop :=
  forall c, check = Some c -> S_ISREG (fi_mode f) = true -> fi_size f <> 0 -> c (fi_name f) sha (recorded f) (fi_size f) = Ok tt.

Lemma expand_loop_inv check sha files : Forall wf_file files -> forall pos off md5 l off' md5',
  expand_loop check sha files pos off md5 = Ok (l, off', md5') ->
  exists fs, Forall2 (fun i f => 0 <= i /\ nth_error files (Z.to_nat i) = Some f) pos fs /\
    map cf_index l = pos /\ md5' = md5 ++ concat (map meta fs) /\ Forall (verified check sha) fs.
Proof.
  intros Hf. induction pos as [|i pos IH]; intros off md5 l off' md5' H; cbn [expand_loop] in H.
  - injection H as <- <- <-. exists []. split; [constructor|]. split; [auto|]. split; [cbn; rewrite app_nil_r; auto|constructor].
  - unfold rd in H. destruct (i <? 0) eqn:Ei; cbn [bind] in H; [discriminate|].
    destruct (nth_error files (Z.to_nat i)) as [f|] eqn:En; cbn [bind] in H; [|discriminate].
    destruct (expand_file check sha f) as [m|?|?|] eqn:Em; cbn [bind] in H; try discriminate.
    destruct (expand_loop check sha files pos _ _) as [[[l1 o1] m1]|?|?|] eqn:El; cbn [bind] in H; try discriminate.
    injection H as <- <- <-. apply IH in El as (fs & A & B & C & D).
    assert (Hw : wf_file f) by (apply nth_error_In in En; rewrite Forall_forall in Hf; auto).
    destruct (expand_file_ok check sha f m Hw Em) as [-> Hv].
    exists (f :: fs). split; [constructor; [split; [lia|auto]|auto]|]. split; [cbn [map cf_index expand_entry]; congruence|].
    split; [cbn [map concat]; rewrite C, <- app_assoc; reflexivity|constructor; auto].
Qed.

Lemma accepted_inv L check sequence files sha idx : Forall wf_file files ->
  expand_sequence L check (Some sequence) files sha = Ok idx ->
  exists fs, Forall2 (fun i f => 0 <= i /\ nth_error files (Z.to_nat i) = Some f) (removelast (map cf_index idx)) fs /\
    seq_positions sequence (zlen files) = Ok (removelast (map cf_index idx)) /\
    lb_md5 L (concat (map meta fs)) = slice sequence 0 16 /\ Forall (verified check sha) fs.
Proof.
  intros Hf H. unfold expand_sequence in H. destruct (zlen sequence <? 16); [discriminate|].
  destruct (seq_positions sequence (zlen files)) as [pos|?|?|]; cbn [bind] in H; try discriminate.
  destruct (expand_loop check sha files pos 0 []) as [[[l off] md5]|?|?|] eqn:El; cbn [bind] in H; try discriminate.
  destruct (list_eqb (slice sequence 0 16) (lb_md5 L md5)) eqn:Em; cbn [negb] in H; [|discriminate].
  apply list_eqb_spec in Em. injection H as <-. rewrite map_app. cbn [map]. rewrite removelast_last.
  apply expand_loop_inv in El as (fs & A & B & C & D); auto. exists fs. rewrite B. cbn [app] in C. subst md5.
  split; [auto|]. split; [auto|]. split; [congruence|auto].
Qed.

(** ** Expansion of a sequence made from an archive *)
Lemma expand_kept r unpatched files colors sha : Forall wf_file files -> forall ks off md5,
  Forall (kept_ok unpatched files colors (rp_archive r)) ks -> Forall (fun k => digest_ok sha (ke_file k)) ks -> Forall plain_entry ks ->
  0 <= off -> off + zlen (cat r ks) < 2 ^ 63 ->
  exists l, expand_loop None sha files (map ke_index ks) off md5 =
    Ok (l, off + zlen (cat r ks), md5 ++ concat (map (fun k => meta (ke_file k)) ks)) /\
  l ++ [mkcf (-1) (zlen trailer) 0 (off + zlen (cat r ks))] = layout (rp_archive r) off ks.
Proof.
  intros Hf. induction ks as [|k ks IH]; intros off md5 Hk Hd Hp Ho Hb; cbn [map expand_loop layout concat].
  - change (cat r []) with (@nil Z) in *. change (@zlen Z []) with 0 in *. rewrite Z.add_0_r, app_nil_r. exists []. split; reflexivity.
  - apply Forall_inv in Hk as Hk0. apply Forall_inv_tail in Hk. apply Forall_inv in Hd as Hd0. apply Forall_inv_tail in Hd.
    apply Forall_inv in Hp as Hp0. apply Forall_inv_tail in Hp.
    pose proof Hk0 as [Hi Hn Hnm Hs Hw Hnx].
    unfold rd. replace (ke_index k <? 0) with false by lia. rewrite Hn. cbn [bind].
    assert (Hwf : wf_file (ke_file k)) by (apply nth_error_In in Hn; rewrite Forall_forall in Hf; auto).
    set (f := ke_file k) in *.
    assert (Ef : exists m, expand_file None sha f = Ok m).
    { unfold expand_file. destruct (S_ISLNK _); [eauto|]. destruct (S_ISREG (fi_mode f) && (0 <? entry_size f)) eqn:E; [|eauto].
      apply andb_true_iff in E as [E1 E2]. unfold entry_size in E2. rewrite E1 in E2.
      rewrite (digest_recorded sha f E1 ltac:(lia) Hd0). cbn [bind]. eauto. }
    destruct Ef as [m Ef]. rewrite Ef. cbn [bind]. destruct (expand_file_ok None sha f m Hwf Ef) as [-> _].
    assert (Hcat : cat r (k :: ks) = new_bytes (rp_archive r) k ++ cat r ks) by reflexivity.
    rewrite Hcat, zlen_app in Hb.
    assert (Hh : CPIO_HEADER_SIZE + zlen (skip_slash (fi_name f)) + 3 + padding (CPIO_HEADER_SIZE + zlen (skip_slash (fi_name f)) + 3) 4
                 = zlen (new_head f (en_name (ke_entry k)))).
    { unfold new_head. rewrite zlen_align4, !zlen_app, header_len, Hnm. change (zlen [46; 47]) with 2. change (zlen [0]) with 1.
      change CPIO_HEADER_SIZE with 110. fold f.
      replace (110 + (2 + (zlen (skip_slash (fi_name f)) + 1))) with (110 + zlen (skip_slash (fi_name f)) + 3) by lia. reflexivity. }
    assert (Hb2 : u32 (entry_size f + padding (entry_size f) 4) = zlen (new_body f (en_data (rp_archive r) (ke_entry k)))).
    { unfold new_body. rewrite zlen_align4.
      assert (Hdl : zlen (en_data (rp_archive r) (ke_entry k)) = en_size (ke_entry k)).
      { unfold en_data. destruct Hnx as [N1 N2]. unfold en_next in N2. pose proof (pad4_range (en_size (ke_entry k))). apply zlen_slice; lia. }
      unfold plain_entry in Hp0. fold f in Hp0. unfold entry_size, wanted in *. fold f in Hw.
      destruct (S_ISREG (fi_mode f)) eqn:Er.
      - destruct (reg_not_lnk _ Er) as (-> & _). rewrite !andb_true_iff in Hw. destruct Hw as [[[[Hw _] _] _] _].
        rewrite Hdl. replace (en_size (ke_entry k)) with (fi_size f) by lia. pose proof (pad4_range (fi_size f)). destruct Hwf. 
        apply u32_small. split; [lia|]. destruct (Z.eq_dec (fi_size f) (2 ^ 32 - 4)) as [->|]; [reflexivity|lia].
      - destruct (S_ISLNK (fi_mode f)) eqn:El.
        + pose proof (zlen_nonneg (fi_linkto f)). rewrite (u32_small (zlen (fi_linkto f))) by lia. pose proof (pad4_range (zlen (fi_linkto f))).
          apply u32_small. split; [lia|]. destruct (Z.eq_dec (zlen (fi_linkto f)) (2 ^ 32 - 4)) as [->|]; [reflexivity|lia].
        + rewrite Hdl, Hp0. reflexivity. }
    unfold expand_entry. cbn [cf_hlen cf_clen]. rewrite Hh, Hb2.
    assert (Hnb : zlen (new_head f (en_name (ke_entry k))) + zlen (new_body f (en_data (rp_archive r) (ke_entry k))) = zlen (new_bytes (rp_archive r) k)).
    { unfold new_bytes. rewrite zlen_app. reflexivity. }
    rewrite Hnb. pose proof (zlen_nonneg (new_bytes (rp_archive r) k)). pose proof (zlen_nonneg (cat r ks)).
    rewrite u64_small by lia.
    destruct (IH (off + zlen (new_bytes (rp_archive r) k)) (md5 ++ meta f) Hk Hd Hp ltac:(lia) ltac:(lia)) as (l & E & El).
    rewrite E. cbn [bind].
    eexists. split.
    + rewrite Hcat, zlen_app. rewrite <- app_assoc. fold f. do 3 f_equal. lia.
    + cbn [app]. rewrite <- El, Hcat, zlen_app. do 3 f_equal. f_equal. lia.
Qed.

Lemma make_accepted L unpatched offadj files colors sha r es :
  zlen (rp_archive r) < 2 ^ 32 -> zlen files < 2 ^ 32 -> Forall wf_file files ->
  (forall l, zlen (lb_md5 L l) = 16) ->
  listing (rp_archive r) 0 es ->
  let ks := kept unpatched files colors es in
  Forall (fun k => digest_ok sha (ke_file k)) ks ->
  (offadj = true -> close 0 0 (offsets (rp_archive r) 0 ks)) ->
  zlen ks <= zlen files -> Forall plain_entry ks ->
  exists cpio sequence adjs, parse_cpio_files L unpatched offadj files colors sha r = Ok (cpio, sequence, adjs) /\
    expand_sequence L None (Some sequence) files sha = Ok (layout (rp_archive r) 0 ks).
Proof.
  intros Ha Hc Hf H16 Hl ks Hd Hcl Hz Hp.
  destruct (parse_small L unpatched offadj files colors sha r es Ha Hc Hf Hl Hd Hcl) as (code & adjs & Ec & E & _).
  fold ks in Ec, E. do 3 eexists. split; [exact E|].
  pose proof (listing_range _ _ _ Hl) as [_ Hr].
  pose proof (kept_all unpatched files colors _ _ _ Hl) as Hk. fold ks in Hk.
  pose proof (cat_bound r unpatched files colors ks Hf Hk) as Hcat. pose proof (zlen_nonneg files).
  destruct (roundtrip_seq (zlen files) (map ke_index ks) ltac:(lia)) as (c & Ec2 & _ & Hpos).
  { rewrite Forall_map. eapply Forall_impl; [|exact Hk]. intros k [Hi _ _ _ _ _]. lia. }
  { rewrite zlen_map. lia. }
  assert (c = code) by congruence. subst c.
  unfold expand_sequence. rewrite zlen_app, H16. pose proof (zlen_nonneg code). replace (16 + zlen code <? 16) with false by lia.
  rewrite Hpos by apply H16. cbn [bind].
  pose proof (zlen_kept unpatched files colors es) as Hz1. fold ks in Hz1. pose proof (zlen_nonneg ks) as Hz0.
  destruct (expand_kept r unpatched files colors sha Hf ks 0 [] Hk Hd Hp ltac:(lia) ltac:(lia)) as (l & El & Hlay).
  rewrite El. cbn [bind app]. rewrite slice_app_exact_l by (symmetry; apply H16). rewrite list_eqb_refl. cbn [negb].
  change (CPIO_HEADER_SIZE + zlen CPIO_TRAILER + 1 + padding (CPIO_HEADER_SIZE + zlen CPIO_TRAILER + 1) 4) with (zlen trailer).
  rewrite Hlay. reflexivity.
Qed.
