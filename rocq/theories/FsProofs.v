(** * FsProofs: reading installed files makes the blocks of the archive they stand for *)
From Verif Require Import Base BaseLemmas Utils SpecCodec UtilsProofs CpioHeader CpioHeaderProofs CodecFinal
     Rpm FormatFinal ReadSim Seq SeqProofs Expand Archive SpecArchive ArchiveProofs ArchiveMain ArchiveLoop ArchiveFinal ArchiveSeq
     SpecDelta SpecBlocks Blocks BlocksProofs Fill FillProofs FillStd FillSafe FileSys Prelink FsFill SpecFs DirectProofs.

(** ** Windows of the data *)
Lemma from_slice {A} (l : list A) o m : 0 <= o -> 0 <= m -> o + m <= zlen l -> from l o = slice l o m ++ from l (o + m).
Proof.
  intros Ho Hm H. unfold slice, from. replace (Z.to_nat (o + m)) with (Z.to_nat m + Z.to_nat o)%nat by lia. rewrite <- skipn_skipn.
  symmetry. apply firstn_skipn.
Qed.

Lemma padded_split ext off m len : 0 <= off -> 0 <= m <= len -> off + m <= zlen ext ->
  padded (from ext off) len = slice ext off m ++ padded (from ext (off + m)) (len - m).
Proof.
  intros Ho Hm H. rewrite (from_slice ext off m) by lia. rewrite padded_app; rewrite zlen_slice by lia; [reflexivity|lia].
Qed.

Lemma padded_end ext off len : zlen ext <= off -> 0 <= len -> padded (from ext off) len = zeros len.
Proof.
  intros H Hl. unfold from. rewrite skipn_all2 by (unfold zlen in H; lia). unfold padded.
  replace (slice [] 0 len) with (@nil Z) by (unfold slice; destruct (Z.to_nat len); reflexivity). change (@zlen Z []) with 0. rewrite Z.sub_0_r. reflexivity.
Qed.

Lemma zlen_installed fs unprelinked f : readable_file fs unprelinked f -> wf_file f -> zlen (installed_data fs unprelinked f) = fi_size f.
Proof.
  intros (d & H1 & H2) Hw. destruct Hw. unfold installed_data. destruct (looks_prelinked fs f).
  - destruct H2 as (u & -> & H2). apply zlen_slice; lia.
  - rewrite H1. apply zlen_slice; lia.
Qed.

Lemma link_part (l : list Z) total a m : zlen l <= total -> 0 <= a -> 0 <= m -> a + m <= total ->
  (if zlen l <? a then zeros m else strncpy (from l a) m) = slice (l ++ zeros (total - zlen l)) a m.
Proof.
  intros Ht Ha Hm Ham. destruct (strncpy_padded l total a m Ht Ha Hm Ham) as [P _]. rewrite <- P. destruct (zlen l <? a) eqn:E.
  - rewrite Z.min_l by lia. unfold from. rewrite skipn_all2 by (unfold zlen in *; lia). unfold strncpy.
    replace (slice [] 0 m) with (@nil Z) by (unfold slice; destruct (Z.to_nat m); reflexivity). change (@zlen Z []) with 0. rewrite Z.sub_0_r. reflexivity.
  - rewrite Z.min_r by lia. reflexivity.
Qed.

Lemma align4_eq l : align4 l = l ++ zeros (zlen (align4 l) - zlen l).
Proof. rewrite zlen_align4. unfold align4 at 1. do 2 f_equal. lia. Qed.

Lemma pad4_aligned n : (n + padding n 4) mod 4 = 0.
Proof.
  unfold padding. pose proof (Z.div_mod n 4 ltac:(lia)). pose proof (Z.mod_pos_bound n 4 ltac:(lia)).
  destruct (Z.eq_dec (n mod 4) 0) as [E|E].
  - rewrite E. change ((4 - 0) mod 4) with 0. rewrite Z.add_0_r. exact E.
  - rewrite (Z.mod_small (4 - n mod 4)) by lia. replace (n + (4 - n mod 4)) with ((n / 4 + 1) * 4) by lia. apply Z.mod_mul. lia.
Qed.

Lemma head_pos f : wf_file f -> 110 < zlen (fs_head f) < 2 ^ 20.
Proof.
  intros Hw. unfold fs_head. rewrite head_len by auto. cbv zeta. change CPIO_HEADER_SIZE with 110. pose proof (zlen_nonneg (skip_slash (fi_name f))).
  pose proof (wf_name _ Hw). pose proof (zlen_skip_slash (fi_name f)). pose proof (pad4_range (110 + zlen (skip_slash (fi_name f)) + 3)). lia.
Qed.

Lemma zlen_incl (l m : list Z) : NoDup l -> incl l m -> zlen l <= zlen m.
Proof. intros H1 H2. unfold zlen. pose proof (NoDup_incl_length H1 H2). lia. Qed.

Section Fs.
Variable fs : fsys.
Variable unprelinked : list Z -> res (list Z).
Variable files : list file_info.
Variable cpio : list cpio_file.
Variable ext : list Z.
Hypothesis Hext : zlen ext < 2 ^ 63.
(** Indices of files with contents. *)
Variable regs : list Z.
Hypothesis Hregs : zlen regs <= 50.

Record entry_at (j : Z) (c : cpio_file) : Prop := {
  ea_off : 0 <= cf_off c;
  ea_al : cf_off c mod 4 = 0;
  ea_case : (cf_index c < 0 /\ cf_hlen c = zlen trailer /\ cf_clen c = 0 /\ slice ext (cf_off c) (zlen trailer) = trailer /\ cf_off c + zlen trailer = zlen ext /\ j = zlen cpio - 1)
    \/ (exists f c', 0 <= cf_index c /\ rd files (cf_index c) = Ok f /\ wf_file f /\ fits f /\
         cf_hlen c = zlen (fs_head f) /\ cf_clen c = zlen (fs_body fs unprelinked f) /\
         slice ext (cf_off c) (zlen (fs_head f)) = fs_head f /\
         slice ext (cf_off c + zlen (fs_head f)) (zlen (fs_body fs unprelinked f)) = fs_body fs unprelinked f /\
         cf_off c + zlen (fs_head f) + zlen (fs_body fs unprelinked f) <= zlen ext /\
         rd cpio (j + 1) = Ok c' /\ cf_off c' = cf_off c + zlen (fs_head f) + zlen (fs_body fs unprelinked f) /\
         (has_data f -> readable_file fs unprelinked f /\ (looks_prelinked fs f = false -> In (cf_index c) regs) /\ exists ci, rd cpio (cf_index c) = Ok ci /\ cf_index ci = cf_index c))
}.
Hypothesis Hcpio : forall j c, rd cpio j = Ok c -> entry_at j c.
Hypothesis Hfirst : exists c, rd cpio 0 = Ok c /\ cf_off c = 0.

(** The handle table. *)
Definition handle_ok (s : fsrc) (i : Z) (k : nat) : Prop :=
  exists f n, rd files i = Ok f /\ rd (fx_nodes s) (Z.of_nat k) = Ok n /\ of_pos n = of_off n /\ fs_open fs (fi_name f) = Some (of_data n) /\
    looks_prelinked fs f = false.

Record good (s : fsrc) : Prop := {
  g_buf : zlen (fx_buf s) = max_header cpio;
  g_open : zlen (fx_open s) = zlen cpio;
  g_idx : -1 <= fx_idx s < zlen cpio;
  g_head : forall c, rd cpio (fx_idx s) = Ok c ->
    slice (fx_buf s) 0 (cf_hlen c) = map Some (slice ext (cf_off c) (cf_hlen c)) /\
    (forall f, 0 <= cf_index c -> rd files (cf_index c) = Ok f -> S_ISLNK (fi_mode f) = true -> fx_link s = Some (fi_linkto f));
  g_handles : forall i k, rd (fx_open s) i = Ok (Some k) -> handle_ok s i k;
  g_count : exists os, NoDup os /\ zlen os = zlen (fx_nodes s) /\ incl os regs /\ forall i, In i os <-> exists k, rd (fx_open s) i = Ok (Some k)
}.


Lemma hlen_ok j c : rd cpio j = Ok c -> 0 < cf_hlen c <= max_header cpio /\ 0 <= cf_clen c /\ cf_off c + cf_hlen c + cf_clen c <= zlen ext.
Proof.
  intros H. destruct (rd_In _ _ _ H) as [Hin _]. pose proof (proj2 (max_header_ge cpio) c Hin).
  destruct (Hcpio _ _ H) as [Ho _ [(H1 & H2 & H3 & H4 & H5)|(f & c' & H1 & H2 & H3 & H4 & H5 & H6 & H7 & H8 & H9 & _)]].
  - change (zlen trailer) with 124 in *. lia.
  - pose proof (head_pos f H3). pose proof (zlen_nonneg (fs_body fs unprelinked f)). lia.
Qed.

Lemma ends j c : rd cpio j = Ok c -> head_end c = cf_off c + cf_hlen c /\ body_end c = cf_off c + cf_hlen c + cf_clen c.
Proof.
  intros H. pose proof (hlen_ok _ _ H). pose proof (ea_off _ _ (Hcpio _ _ H)). unfold head_end, body_end. rewrite !u64_small; lia.
Qed.

(** ** Going to an entry *)
Lemma header_ok buf link i c : zlen buf = max_header cpio -> rd cpio i = Ok c ->
  exists buf' link', fill_header files buf link (cf_index c) = Ok (buf', link') /\ zlen buf' = zlen buf /\
  slice buf' 0 (cf_hlen c) = map Some (slice ext (cf_off c) (cf_hlen c)) /\
  (forall f, 0 <= cf_index c -> rd files (cf_index c) = Ok f -> S_ISLNK (fi_mode f) = true -> link' = Some (fi_linkto f)).
Proof.
  intros Hb Hc. pose proof (hlen_ok _ _ Hc) as Hh.
  destruct (Hcpio _ _ Hc) as [Ho _ [(H1 & H2 & H3 & H4 & H5)|(f & c' & H1 & H2 & H3 & H4 & H5 & H6 & H7 & H8 & H9 & _)]].
  - destruct (fill_trailer files buf link (cf_index c) H1) as (b' & E & Lb & Sb); [lia|].
    exists b', link. split; [exact E|]. split; [auto|]. rewrite H2, H4. split; [auto|]. lia.
  - destruct (fill_entry files buf link (cf_index c) f H1 H2 H3) as (b' & E & Lb & Sb); [unfold fs_head in *; lia|].
    exists b'. eexists. split; [exact E|]. split; [auto|]. rewrite H5, H7. split; [exact Sb|].
    intros f0 _ Hf0 Hl. assert (f0 = f) by congruence. subst f0. rewrite Hl. reflexivity.
Qed.

Lemma enter_ok s i c : good s -> rd cpio i = Ok c -> exists s', enter files cpio s i = Ok s' /\ good s' /\ fx_idx s' = i.
Proof.
  intros [] Hc. unfold enter. rewrite Hc. cbn [bind]. destruct (rd_In _ _ _ Hc) as [_ Hir].
  destruct (header_ok (fx_buf s) (fx_link s) i c g_buf0 Hc) as (buf & link & E & Lb & Sb & Hl).
  rewrite E. cbn [bind]. eexists. split; [reflexivity|]. split; [|reflexivity].
  constructor; cbn [fx_buf fx_open fx_idx fx_link fx_nodes]; auto; try lia.
  intros c0 Hc0. assert (c0 = c) by congruence. subst c0. split; auto.
Qed.

(** ** Opening files *)
Lemma table_lookup s i : good s -> 0 <= i < zlen cpio -> exists p, rd (fx_open s) i = Ok p.
Proof. intros [] Hi. apply rd_some. lia. Qed.

Lemma get_open_ok s i k : good s -> rd (fx_open s) i = Ok (Some k) ->
  exists s', get_open_file s i = Ok (s', Some k) /\ good s' /\ fx_nodes s' = fx_nodes s /\ fx_open s' = fx_open s /\ fx_idx s' = fx_idx s.
Proof.
  intros G E. unfold get_open_file. rewrite E. cbn [bind]. eexists. split; [reflexivity|].
  split; [destruct G; constructor; auto|auto].
Qed.

Lemma not_prelinked f d : fs_open fs (fi_name f) = Some d ->
  fs_stat fs (fi_name f) = Some (fi_size f) \/ is_prelinked d (slice d 0 128) = Ok false ->
  (if other_size fs f then is_prelinked d (slice d 0 128) else Ok false) = Ok false.
Proof.
  intros Ho [H|H]; [|destruct (other_size fs f); auto]. unfold other_size. rewrite H, Z.eqb_refl. reflexivity.
Qed.


Lemma prelinked_check f d : fs_open fs (fi_name f) = Some d -> looks_prelinked fs f = true ->
  other_size fs f = true /\ is_prelinked d (slice d 0 128) = Ok true.
Proof.
  intros Ho H. unfold looks_prelinked in H. unfold other_size. rewrite Ho in H. destruct (fs_stat fs (fi_name f)) as [n|]; [|discriminate].
  apply andb_true_iff in H. destruct H as [H1 H2]. split; [exact H1|].
  destruct (is_prelinked d (slice d 0 128)) as [p|?|?|]; [|discriminate..]. congruence.
Qed.

Lemma open_ok s i c f : good s -> rd cpio i = Ok c -> cf_index c = i -> rd files i = Ok f -> readable_file fs unprelinked f -> looks_prelinked fs f = false -> In i regs ->
  rd (fx_open s) i = Ok None ->
  exists s' k, open_new_file fs files cpio s i = Ok (Some s') /\ good s' /\ rd (fx_open s') i = Ok (Some k) /\ fx_idx s' = fx_idx s.
Proof.
  intros G Hc Hi Hf (d & Hd1 & Hd) Hnp Hr Hn. rewrite Hnp in Hd. destruct Hd as [Hd2 Hd3]. pose proof G as []. unfold open_new_file. rewrite Hc. cbn [bind]. rewrite Hi, Hf. cbn [bind]. rewrite Hd1.
  rewrite (not_prelinked f d) by auto. cbn [bind]. destruct g_count0 as (os & O1 & O2 & O3 & O4).
  assert (Hni : ~ In i os) by (intros Hin; apply O4 in Hin; destruct Hin as [k Hk]; congruence).
  assert (Hlt : zlen (fx_nodes s) < 50).
  { assert (zlen (i :: os) <= zlen regs) by (apply zlen_incl; [constructor; auto|intros x [<-|Hx]; auto]). unfold zlen in *. cbn [length] in *. lia. }
  unfold MAX_OPEN_FILES. replace (zlen (fx_nodes s) <? 50) with true by lia. cbn [bind].
  destruct (rd_In _ _ _ Hc) as [_ Hir].
  destruct (store_ok (fx_open s) i (Some (length (fx_nodes s)))) as (o & Eo & Lo & Ho); [lia|]. rewrite Eo. cbn [bind].
  eexists _, (length (fx_nodes s)). split; [reflexivity|]. cbn [fx_open fx_idx]. rewrite Ho, Z.eqb_refl. split; [|auto].
  constructor; cbn [fx_buf fx_open fx_idx fx_link fx_nodes]; auto; try lia.
  - intros j k Hj. rewrite Ho in Hj. destruct (j =? i) eqn:Ej.
    + assert (j = i) by lia. subst j. assert (k = length (fx_nodes s)) by congruence. subst k. exists f. eexists. split; [auto|].
      cbn [fx_nodes]. rewrite rd_app. unfold zlen. rewrite Z.eqb_refl. split; [reflexivity|]. cbn [of_pos of_off of_data]. auto.
    + destruct (g_handles0 j k Hj) as (f' & n & A & B & C & D & D'). exists f', n. split; [auto|]. split; [|auto]. cbn [fx_nodes]. rewrite rd_app.
      pose proof (rd_in_bounds _ _ _ B). replace (Z.of_nat k =? zlen (fx_nodes s)) with false by lia. auto.
  - exists (i :: os). split; [constructor; auto|]. split; [rewrite zlen_app; unfold zlen in *; cbn [length]; lia|].
    split; [intros x [<-|Hx]; auto|]. intros j. rewrite Ho. destruct (j =? i) eqn:Ej.
    + assert (j = i) by lia. subst j. split; [eauto|]. left. auto.
    + rewrite <- O4. split; [intros [<-|Hx]; [lia|auto]|right; auto].
Qed.

Lemma installed_ok s i c f file_off len : good s -> rd cpio i = Ok c -> cf_index c = i -> rd files i = Ok f -> readable_file fs unprelinked f -> looks_prelinked fs f = false -> In i regs ->
  0 <= file_off -> 0 <= len -> file_off + len <= fi_size f ->
  exists s', read_installed fs files cpio s i file_off len = Ok (Some (s', slice (installed_data fs unprelinked f) file_off len)) /\ good s' /\ fx_idx s' = fx_idx s.
Proof.
  intros G Hc Hi Hf Hr Hnp Hin Ho Hl Hs.
  assert (Hmain : forall s1 k, good s1 -> rd (fx_open s1) i = Ok (Some k) -> fx_idx s1 = fx_idx s ->
    exists s', (file <- rd (fx_nodes s1) (Z.of_nat k) ;;
      let pos := if of_off file =? file_off then of_pos file else file_off in
      match pread (of_data file) len pos with
      | None => Err EFormat
      | Some x =>
          nodes <- store (fx_nodes s1) (Z.of_nat k) (mkof (of_data file) (pos + len) (file_off + len)) ;;
          Ok (Some (mkfx nodes (fx_list s1) (fx_open s1) (fx_idx s1) (fx_buf s1) (fx_link s1), x))
      end) = Ok (Some (s', slice (installed_data fs unprelinked f) file_off len)) /\ good s' /\ fx_idx s' = fx_idx s).
  { intros s1 k G1 Ek Ex. pose proof G1 as []. destruct (g_handles0 i k Ek) as (f' & n & A & B & C & D & D'). assert (f' = f) by congruence. subst f'.
    rewrite B. cbn [bind]. replace (if of_off n =? file_off then of_pos n else file_off) with file_off by (destruct (of_off n =? file_off) eqn:?; lia).
    cbv zeta. destruct Hr as (d & R1 & R2). rewrite Hnp in R2. destruct R2 as [R2 R3]. assert (Ed : of_data n = d) by congruence. rewrite Ed.
    unfold pread. replace ((file_off <? 0) || _) with false by lia.
    pose proof (rd_in_bounds _ _ _ B) as Hk.
    destruct (store_ok (fx_nodes s1) (Z.of_nat k) (mkof d (file_off + len) (file_off + len))) as (nodes & E & Ln & Hn); [lia|].
    rewrite E. cbn [bind]. eexists. split; [unfold installed_data; rewrite Hnp, R1, slice_of_first by lia; reflexivity|]. split; [|exact Ex].
    constructor; cbn [fx_buf fx_open fx_idx fx_link fx_nodes]; auto.
    - intros j k' Hj. destruct (g_handles0 j k' Hj) as (f1 & n1 & A1 & B1 & C1 & D1 & D1'). unfold handle_ok. cbn [fx_nodes].
      rewrite Hn. destruct (Z.of_nat k' =? Z.of_nat k) eqn:Ekk.
      + assert (k' = k) by lia. subst k'. assert (n1 = n) by congruence. subst n1. exists f1. eexists. split; [auto|]. split; [reflexivity|].
        cbn [of_pos of_off of_data]. split; [auto|]. split; [congruence|auto].
      + exists f1, n1. auto.
    - destruct g_count0 as (os & O1 & O2 & O3 & O4). exists os. split; [auto|]. split; [lia|]. auto. }
  unfold read_installed. destruct (rd_In _ _ _ Hc) as [_ Hir]. destruct (table_lookup s i G Hir) as [p Ep]. destruct p as [k|].
  - destruct (get_open_ok s i k G Ep) as (s1 & E1 & G1 & N1 & O1 & X1). rewrite E1. cbn [bind]. apply Hmain; auto. congruence.
  - unfold get_open_file at 1. rewrite Ep. cbn [bind].
    destruct (open_ok s i c f) as (s1 & k & E1 & G1 & O1 & X1); auto. rewrite E1. cbn [bind].
    destruct (get_open_ok s1 i k G1 O1) as (s2 & E2 & G2 & N2 & O2 & X2). rewrite E2. cbn [bind]. apply Hmain; auto; congruence.
Qed.

(** ** Rounds *)

(** A prelinked file, and one whose contents are met between two offsets. *)
Definition pfile (c : cpio_file) (f : file_info) : Prop :=
  0 <= cf_index c /\ rd files (cf_index c) = Ok f /\ has_data f /\ looks_prelinked fs f = true.
Definition meets (lo hi i : Z) : Prop :=
  exists c f o, rd cpio i = Ok c /\ pfile c f /\ lo <= o < hi /\ cf_off c + cf_hlen c <= o < cf_off c + cf_hlen c + fi_size f.

Lemma prelinked_ok s i c f file_off len : good s -> rd cpio i = Ok c -> cf_index c = i -> rd files i = Ok f -> readable_file fs unprelinked f ->
  looks_prelinked fs f = true -> read_installed fs files cpio s i file_off len = Ok None.
Proof.
  intros G Hc Hi Hf (d & R1 & _) Hp. unfold read_installed. destruct (rd_In _ _ _ Hc) as [_ Hir]. destruct (table_lookup s i G Hir) as [p Ep].
  destruct p as [k|].
  - destruct (g_handles _ G i k Ep) as (f' & n & A & B & C & D & D'). congruence.
  - unfold get_open_file at 1. rewrite Ep. cbn [bind]. unfold open_new_file. rewrite Hc. cbn [bind]. rewrite Hi, Hf. cbn [bind]. rewrite R1.
    destruct (prelinked_check f d R1 Hp) as [-> ->]. reflexivity.
Qed.

Lemma body_size f : wf_file f -> (has_data f -> readable_file fs unprelinked f) -> S_ISREG (fi_mode f) = true ->
  zlen (installed_data fs unprelinked f) = fi_size f.
Proof.
  intros Hw Hr Hreg. destruct (Z.eq_dec (fi_size f) 0) as [Ez|Hnz].
  - unfold installed_data. rewrite Ez. destruct (looks_prelinked fs f); [destruct (unprelinked (fi_name f))|destruct (fs_open fs (fi_name f))]; reflexivity.
  - apply zlen_installed; auto. apply Hr. split; auto.
Qed.

Definition answer (off len : Z) (r : filled) : Prop :=
  match r with Contents x => x = padded (from ext off) len | Prelinked i => meets off (off + len) i end.

Lemma answer_after off len x m r : x = slice ext off m -> 0 <= off -> 0 <= m <= len -> off + m <= zlen ext ->
  answer (off + m) (len - m) r -> answer off len (after x r).
Proof.
  intros -> Ho Hm H. destruct r as [y|i]; cbn [answer after].
  - intros ->. symmetry. apply padded_split; lia.
  - intros (c & f & o & A & B & C & D). exists c, f, o. split; [auto|]. split; [auto|]. split; [lia|auto].
Qed.

Lemma rounds_ok : forall fuel s off len c, good s -> 0 <= fx_idx s -> rd cpio (fx_idx s) = Ok c -> cf_off c <= off -> 0 <= len -> off + len < 2 ^ 63 + 2 ^ 20 ->
  len + zlen cpio - fx_idx s <= Z.of_nat fuel ->
  exists s' r, fs_rounds fs files cpio fuel s off len = Ok (s', r) /\ good s' /\ answer off len r.
Proof.
  induction fuel as [|fuel IH]; intros s off len c G Hi Hc Hoff Hlen Hsum Hfuel.
  { destruct (rd_In _ _ _ Hc) as [_ Hir]. lia. }
  destruct (rd_In _ _ _ Hc) as [_ Hir]. pose proof (hlen_ok _ _ Hc) as (Hh & Hcl & Hin). destruct (ends _ _ Hc) as [He1 He2].
  pose proof (ea_off _ _ (Hcpio _ _ Hc)) as Ho0.
  cbn [fs_rounds]. destruct (len =? 0) eqn:El0.
  { assert (len = 0) by lia. subst len. exists s, (Contents []). split; [reflexivity|]. split; [auto|]. reflexivity. }
  rewrite Hc. cbn [bind]. rewrite He1, He2.
  destruct (off <? cf_off c + cf_hlen c) eqn:E1.
  { (* header *)
    destruct (g_head _ G c Hc) as [Hb _]. rewrite (u64_small (off - cf_off c)) by lia. rewrite (u64_small (cf_hlen c - _)) by lia.
    set (m := Z.min len (cf_hlen c - (off - cf_off c))).
    rewrite (peek_ok (fx_buf s) (slice ext (cf_off c) (cf_hlen c)) (cf_hlen c)) by (auto; rewrite ?(g_buf _ G); lia). cbn [bind].
    rewrite slice_slice by lia. replace (cf_off c + (off - cf_off c)) with off by lia.
    rewrite u64_small by lia.
    destruct (IH s (off + m) (len - m) c) as (s' & r & E & G' & Hr); auto; try lia.
    rewrite E. cbn [bind]. exists s'. eexists. split; [reflexivity|]. split; [auto|]. eapply answer_after; [reflexivity|..|exact Hr]; lia. }
  destruct (Hcpio _ _ Hc) as [_ _ [(H1 & H2 & H3 & H4 & H5)|(f & c' & H1 & H2 & H3 & H4 & H5 & H6 & H7 & H8 & H9 & H10 & H11 & H12)]].
  { replace (cf_index c <? 0) with true by lia. exists s. eexists. split; [reflexivity|]. split; [auto|]. cbn [answer]. rewrite padded_end by lia. reflexivity. }
  replace (cf_index c <? 0) with false by lia.
  destruct (off <? cf_off c + cf_hlen c + cf_clen c) eqn:E2.
  2:{ (* next entry *)
    destruct (enter_ok s (fx_idx s + 1) c' G H10) as (s1 & Es & G1 & X1). rewrite Es. cbn [bind].
    apply (IH s1 off len c'); auto; try lia. rewrite X1. auto. }
  rewrite (u64_small (off - _)) by lia. set (a := off - (cf_off c + cf_hlen c)). rewrite H2. cbn [bind].
  assert (Hgo : forall s1 x m, good s1 -> fx_idx s1 = fx_idx s -> 0 < m <= len -> a + m <= zlen (fs_body fs unprelinked f) -> x = slice (fs_body fs unprelinked f) a m ->
    exists s' r', ('(s2, r) <- fs_rounds fs files cpio fuel s1 (u64 (off + zlen x)) (len - zlen x) ;; Ok (s2, after x r)) =
      Ok (s', r') /\ good s' /\ answer off len r').
  { intros s1 x m G1 X1 Hm Ha ->. assert (Hz : zlen (slice (fs_body fs unprelinked f) a m) = m) by (apply zlen_slice; unfold a in *; lia). rewrite Hz.
    rewrite u64_small by (unfold a in *; lia).
    destruct (IH s1 (off + m) (len - m) c) as (s' & r & E & G' & Hr); auto; try lia; try (rewrite X1; auto).
    rewrite E. cbn [bind]. exists s'. eexists. split; [reflexivity|]. split; [auto|]. eapply answer_after; [|..|exact Hr]; [|unfold a in *; lia..].
    rewrite <- H8. rewrite slice_slice by (unfold a in *; lia). f_equal. unfold a. lia. }
  assert (Ha0 : 0 <= a < zlen (fs_body fs unprelinked f)) by (unfold a; lia).
  destruct (S_ISLNK (fi_mode f)) eqn:Elnk.
  { rewrite (proj2 (g_head _ G c Hc) f) by auto. cbn [bind].
    assert (Hb : fs_body fs unprelinked f = align4 (fi_linkto f)) by (unfold fs_body, new_body; rewrite Elnk; reflexivity).
    rewrite (u64_small (cf_clen c - a)) by lia.
    apply (Hgo s _ (Z.min len (cf_clen c - a))); auto; try lia.
    assert (Hza : zlen (fs_body fs unprelinked f) = zlen (fi_linkto f) + padding (zlen (fi_linkto f)) 4) by (rewrite Hb; apply zlen_align4).
    pose proof (pad4_range (zlen (fi_linkto f))).
    rewrite (link_part (fi_linkto f) (zlen (fs_body fs unprelinked f)) a) by lia. f_equal. rewrite Hb. symmetry. apply align4_eq. }
  assert (Hb : fs_body fs unprelinked f = align4 (if S_ISREG (fi_mode f) then installed_data fs unprelinked f else [])) by (unfold fs_body, new_body; rewrite Elnk; reflexivity).
  destruct (S_ISREG (fi_mode f)) eqn:Ereg.
  2:{ exfalso. rewrite Hb in Ha0. change (zlen (align4 [])) with 0 in Ha0. lia. }
  assert (Hzi : zlen (installed_data fs unprelinked f) = fi_size f) by (apply body_size; auto; intros Hd; apply H12; auto).
  pose proof (pad4_range (fi_size f)) as Hpad.
  assert (Hzb : zlen (fs_body fs unprelinked f) = fi_size f + padding (fi_size f) 4) by (rewrite Hb, zlen_align4, Hzi; reflexivity).
  destruct (Z.eq_dec (fi_size f) 0) as [Ez|Hnz].
  { exfalso. rewrite Ez in Hzb. change (padding 0 4) with 0 in Hzb. lia. }
  assert (Hd : has_data f) by (split; auto).
  destruct (H12 Hd) as (Hr & Hir2 & ci & Hci1 & Hci2).
  destruct (a <? fi_size f) eqn:E3.
  - destruct (looks_prelinked fs f) eqn:Ep.
    + rewrite (prelinked_ok s (cf_index c) ci f) by auto. cbn [bind]. exists s. eexists. split; [reflexivity|]. split; [auto|].
      cbn [answer]. exists c, f, off. split; [auto|]. split; [split; auto|]. unfold a in *. lia.
    + destruct (installed_ok s (cf_index c) ci f a (Z.min len (fi_size f - a))) as (s1 & Es & G1 & X1); auto; try lia.
      rewrite Es. cbn [bind]. apply (Hgo s1 _ (Z.min len (fi_size f - a))); auto; try lia.
      rewrite Hb. unfold align4. symmetry. apply slice_app_l; lia.
  - cbn [bind]. rewrite (u64_small (cf_clen c - a)) by lia. apply (Hgo s _ (Z.min len (cf_clen c - a))); auto; try lia.
    rewrite Hb. unfold align4. rewrite slice_app_r by lia. rewrite Hzi. rewrite slice_zeros by lia. reflexivity.
Qed.

(** ** Finding the entry of a block *)
Lemma back_ok off : 0 <= off -> forall i, Z.of_nat i < zlen cpio ->
  exists j c, back cpio i off = Ok j /\ rd cpio (Z.of_nat j) = Ok c /\ cf_off c <= off.
Proof.
  intros Hoff. induction i as [|i IH]; intros Hi; cbn [back].
  - destruct Hfirst as (c & H1 & H2). exists O, c. split; [reflexivity|]. split; [exact H1|lia].
  - destruct (rd_some cpio (Z.of_nat (S i))) as [c Hc]; [lia|]. rewrite Hc. cbn [bind].
    destruct (off <? cf_off c) eqn:E; [apply IH; lia|]. exists (S i), c. split; [reflexivity|]. split; [auto|lia].
Qed.

Lemma from_cons (j : Z) c : rd cpio j = Ok c -> from cpio j = c :: from cpio (j + 1).
Proof.
  intros H. destruct (rd_In _ _ _ H) as [_ Hj]. unfold rd in H. replace (j <? 0) with false in H by lia.
  destruct (nth_error cpio (Z.to_nat j)) as [x|] eqn:E; [|discriminate]. injection H as ->.
  unfold from. replace (Z.to_nat (j + 1)) with (S (Z.to_nat j)) by lia. revert E. generalize (Z.to_nat j). clear. intros n.
  revert n. induction cpio as [|y l IH]; intros [|n] H; cbn in *; try discriminate.
  - injection H as ->. reflexivity.
  - apply IH. exact H.
Qed.

Lemma ahead_ok off : off < zlen ext -> forall fuel j c, (length cpio <= fuel + Z.to_nat j)%nat -> rd cpio j = Ok c -> cf_off c <= off ->
  exists i c', ahead (from cpio j) j off = Some i /\ rd cpio i = Ok c' /\ cf_off c' <= off.
Proof.
  intros Hoff. induction fuel as [|fuel IH]; intros j c Hf Hc Hle; destruct (rd_In _ _ _ Hc) as [_ Hj]; [unfold zlen in Hj; lia|].
  rewrite (from_cons j c Hc). cbn [ahead]. destruct (ends _ _ Hc) as [He1 He2]. rewrite He2.
  replace (cf_off c <=? off) with true by lia. cbn [andb].
  destruct (off <? cf_off c + cf_hlen c + cf_clen c) eqn:E; [eauto|].
  destruct (Hcpio _ _ Hc) as [_ _ [(H1 & H2 & H3 & H4 & H5)|(f & c' & H1 & H2 & H3 & H4 & H5 & H6 & H7 & H8 & H9 & H10 & H11 & H12)]]; [lia|].
  apply (IH (j + 1) c'); auto; lia.
Qed.

(** ** Prelinked files *)

(** Entries follow each other. *)
Definition hend (c : cpio_file) : Z := cf_off c + cf_hlen c.
Definition bend (c : cpio_file) : Z := hend c + cf_clen c.

Lemma apart_by : forall d j c c2, rd cpio j = Ok c -> rd cpio (j + 1 + Z.of_nat d) = Ok c2 -> bend c <= cf_off c2.
Proof.
  induction d as [|d IH]; intros j c c2 Hc H2;
    (destruct (Hcpio _ _ Hc) as [_ _ [(H1 & _ & _ & _ & _ & H6)|(f & c' & H1 & Hf & Hw & Hfit & Hh & Hb & _ & _ & _ & Hn & Ho & _)]];
     [destruct (rd_In _ _ _ H2) as [_ ?]; lia|]).
  - replace (j + 1 + Z.of_nat 0) with (j + 1) in H2 by lia. assert (c2 = c') by congruence. subst c2. unfold bend, hend. lia.
  - replace (j + 1 + Z.of_nat (S d)) with (j + 1 + 1 + Z.of_nat d) in H2 by lia.
    pose proof (IH _ _ _ Hn H2). pose proof (hlen_ok _ _ Hn). unfold bend, hend in *. lia.
Qed.

Lemma apart j c k c2 : rd cpio j = Ok c -> rd cpio k = Ok c2 -> j < k -> bend c <= cf_off c2.
Proof.
  intros H1 H2 H. apply (apart_by (Z.to_nat (k - j - 1)) j c c2 H1). replace (j + 1 + Z.of_nat (Z.to_nat (k - j - 1))) with k by lia. exact H2.
Qed.

Lemma only_at j c k c2 o : rd cpio j = Ok c -> rd cpio k = Ok c2 -> cf_off c < o <= bend c -> cf_off c2 < o < bend c2 -> k = j.
Proof.
  intros H1 H2 A B. destruct (Z.lt_trichotomy j k) as [H|[H|H]]; [|auto|].
  - pose proof (apart _ _ _ _ H1 H2 H). lia.
  - pose proof (apart _ _ _ _ H2 H1 H). lia.
Qed.

Lemma found_at j c k c2 o : rd cpio j = Ok c -> rd cpio k = Ok c2 -> cf_off c <= o < bend c -> cf_off c2 <= o < bend c2 -> k = j.
Proof.
  intros H1 H2 A B. destruct (Z.lt_trichotomy j k) as [H|[H|H]]; [|auto|].
  - pose proof (apart _ _ _ _ H1 H2 H). lia.
  - pose proof (apart _ _ _ _ H2 H1 H). lia.
Qed.

Definition isfile (c : cpio_file) (f : file_info) : Prop := 0 <= cf_index c /\ rd files (cf_index c) = Ok f.

(** What is known of the entry of a file. *)
Lemma file_at j c f : rd cpio j = Ok c -> isfile c f ->
  wf_file f /\ cf_clen c = zlen (fs_body fs unprelinked f) /\ slice ext (hend c) (cf_clen c) = fs_body fs unprelinked f /\
  (has_data f -> readable_file fs unprelinked f) /\ bend c <= zlen ext /\ 0 < cf_hlen c /\ 0 <= cf_clen c /\ 0 <= cf_off c /\ hend c mod 4 = 0 /\ bend c < zlen ext.
Proof.
  intros Hc [Hi Hf]. pose proof (hlen_ok _ _ Hc) as Hh.
  destruct (Hcpio _ _ Hc) as [Ho Hal [(H1 & H2 & H3 & H4 & H5)|(g & c' & H1 & H2 & H3 & H4 & H5 & H6 & H7 & H8 & H9 & H10 & H11 & H12)]]; [lia|].
  assert (g = f) by congruence. subst g. pose proof (hlen_ok _ _ H10) as Hh'. unfold bend, hend. rewrite H5, H6.
  split; [auto|]. split; [auto|]. split; [auto|]. split; [intros Hd; apply H12; auto|]. split; [lia|]. split; [lia|]. split; [lia|].
  split; [lia|]. split; [|lia].
  assert (zlen (fs_head f) mod 4 = 0); [|rewrite Z.add_mod, Hal, H by lia; reflexivity].
  unfold fs_head. rewrite head_len by auto. cbv zeta. generalize (CPIO_HEADER_SIZE + zlen (skip_slash (fi_name f)) + 3). intros n. apply pad4_aligned.
Qed.

Lemma reg_size j c f : rd cpio j = Ok c -> isfile c f -> has_data f ->
  zlen (installed_data fs unprelinked f) = fi_size f /\ fs_body fs unprelinked f = installed_data fs unprelinked f ++ zeros (cf_clen c - fi_size f) /\
  fi_size f <= cf_clen c < fi_size f + 4 /\ cf_clen c mod 4 = 0 /\ 0 < fi_size f.
Proof.
  intros Hc Hf Hd. destruct (file_at _ _ _ Hc Hf) as (Hw & Hl & _ & Hr & _). pose proof Hd as [Hreg Hn].
  pose proof (body_size f Hw Hr Hreg) as Hz. split; [auto|].
  assert (Hb : fs_body fs unprelinked f = align4 (installed_data fs unprelinked f)).
  { unfold fs_body, new_body. destruct (reg_not_lnk _ Hreg) as (-> & _). rewrite Hreg. reflexivity. }
  assert (El : cf_clen c = fi_size f + padding (fi_size f) 4) by (rewrite Hl, Hb, zlen_align4, Hz; reflexivity).
  pose proof (pad4_range (fi_size f)). pose proof (pad4_aligned (fi_size f)) as Hal. rewrite <- El in Hal.
  split; [rewrite Hb, align4_eq, <- Hb, <- Hl, Hz; reflexivity|]. split; [lia|]. split; [auto|]. destruct Hw. lia.
Qed.

(** State of the loop at an offset; [lo] is where the block started. *)
Record pgood (s : pstate) (off lo : Z) : Prop := {
  pg_buf : zlen (ps_buf s) = max_header cpio;
  pg_at : exists c, rd cpio (Z.of_nat (ps_i s)) = Ok c /\ cf_off c <= off /\
    match ps_fd s with
    | Some (data, pos) => exists f, isfile c f /\ has_data f /\ hend c < off < hend c + fi_size f /\ pos = off - hend c /\
         fi_size f <= zlen data /\ slice data 0 (fi_size f) = installed_data fs unprelinked f /\
         (looks_prelinked fs f = true -> ps_flag s = Some true) /\ (ps_flag s = None -> hend c < lo)
    | None => forall j c f, rd cpio j = Ok c -> isfile c f -> has_data f -> ~ (hend c < off < hend c + fi_size f)
    end
}.

Definition nolink (off : Z) : Prop :=
  forall j c f, rd cpio j = Ok c -> isfile c f -> S_ISLNK (fi_mode f) = true -> ~ (hend c < off < bend c).

Lemma none_inside j c o : rd cpio j = Ok c -> cf_off c < o <= bend c -> (forall f, isfile c f -> has_data f -> ~ (hend c < o < hend c + fi_size f)) ->
  forall k c2 f, rd cpio k = Ok c2 -> isfile c2 f -> has_data f -> ~ (hend c2 < o < hend c2 + fi_size f).
Proof.
  intros Hc Ho Hn k c2 f H2 Hf Hd Hin. destruct (reg_size _ _ _ H2 Hf Hd) as (_ & _ & Hs & _). destruct (file_at _ _ _ H2 Hf) as (_ & _ & _ & _ & _ & Hh & _).
  assert (k = j) by (eapply only_at; eauto; unfold bend, hend in *; lia). subst k. assert (c2 = c) by congruence. subst c2. eapply Hn; eauto.
Qed.

Lemma nolink_end j c : rd cpio j = Ok c -> nolink (bend c).
Proof.
  intros Hc k c2 f H2 Hf _ Hin. destruct (file_at _ _ _ H2 Hf) as (_ & _ & _ & _ & _ & Hh & _). pose proof (hlen_ok _ _ Hc).
  assert (k = j) by (apply (only_at j c k c2 (bend c) Hc H2); unfold bend, hend in *; lia).
  subst k. assert (c2 = c) by congruence. subst c2. lia.
Qed.

(** Data of an opened file. *)
Lemma opened_data f : has_data f -> readable_file fs unprelinked f -> looks_prelinked fs f = false -> forall d, fs_open fs (fi_name f) = Some d ->
  fi_size f <= zlen d /\ slice d 0 (fi_size f) = installed_data fs unprelinked f /\
  (if other_size fs f then is_prelinked d (slice d 0 128) else Ok false) = Ok false.
Proof.
  intros Hd (d0 & R1 & R2) Hp d Ed. assert (d0 = d) by congruence. subst d0. rewrite Hp in R2. destruct R2 as [R2 R3]. split; [auto|].
  split; [unfold installed_data; rewrite Hp, R1; reflexivity|]. apply not_prelinked; auto.
Qed.

Lemma body_ok s c f off len lo : rd cpio (Z.of_nat (ps_i s)) = Ok c -> isfile c f -> S_ISLNK (fi_mode f) = false -> zlen (ps_buf s) = max_header cpio ->
  hend c <= off < bend c -> 0 < len -> off + len < 2 ^ 63 + 2 ^ 20 ->
  match ps_fd s with
  | Some (data, pos) => hend c < off < hend c + fi_size f /\ pos = off - hend c /\
       fi_size f <= zlen data /\ slice data 0 (fi_size f) = installed_data fs unprelinked f /\
       (looks_prelinked fs f = true -> ps_flag s = Some true) /\ (ps_flag s = None -> hend c < lo)
  | None => off = hend c \/ hend c + fi_size f <= off
  end ->
  exists s' x, prelink_body fs unprelinked s c f off len = Ok (s', x) /\ x = slice ext off (Z.min len (bend c - off)) /\
  pgood s' (off + zlen x) lo /\ ps_i s' = ps_i s /\ (ps_flag s <> None -> ps_flag s' <> None).
Proof.
  intros Hc Hf Hl Hbuf Hoff Hlen Hsum Hfd. destruct (ends _ _ Hc) as [He1 He2]. destruct (file_at _ _ _ Hc Hf) as (Hw & Hcl & Hbody & Hr & Hend & Hh & Hc0 & Ho0 & _ & Hend2).
  assert (Hreg : S_ISREG (fi_mode f) = true).
  { destruct (S_ISREG (fi_mode f)) eqn:E; [auto|]. exfalso. unfold fs_body, new_body in Hcl. rewrite Hl, E in Hcl. change (zlen (align4 [])) with 0 in Hcl. unfold bend, hend in *. lia. }
  assert (Hd : has_data f).
  { split; [auto|]. intros Ez. pose proof (body_size f Hw Hr Hreg) as Hz. unfold fs_body, new_body in Hcl. rewrite Hl, Hreg, zlen_align4, Hz, Ez in Hcl. change (padding 0 4) with 0 in Hcl. unfold bend, hend in *. lia. }
  destruct (reg_size _ _ _ Hc Hf Hd) as (Hz & Hb & Hs & _ & Hpos). rewrite Hb in Hbody. specialize (Hr Hd).
  unfold prelink_body. rewrite He1. change (cf_off c + cf_hlen c) with (hend c) in *. rewrite (u64_small (off - hend c)) by (unfold hend in *; lia).
  set (a := off - hend c) in *.
  assert (Hslice : forall m, 0 <= m <= cf_clen c - a -> slice ext off m = slice (installed_data fs unprelinked f ++ zeros (cf_clen c - fi_size f)) a m).
  { intros m Hm. rewrite <- Hbody. rewrite slice_slice by (unfold a, bend, hend in *; lia). f_equal. unfold a. lia. }
  assert (Hclosed : forall o, hend c + fi_size f <= o <= bend c -> forall j c f, rd cpio j = Ok c -> isfile c f -> has_data f -> ~ (hend c < o < hend c + fi_size f)).
  { intros o Ho. eapply none_inside; [exact Hc|unfold bend, hend in *; lia|]. intros g [Hg1 Hg2] _. destruct Hf as [_ Hf2]. assert (g = f) by congruence. subst g. lia. }
  destruct (a <? fi_size f) eqn:Ea.
  - set (rl := Z.min len (fi_size f - a)).
    assert (Hopen : exists data flag, match ps_fd s with
         | Some fd => Ok (fd, ps_flag s)
         | None =>
             match fs_open fs (fi_name f) with
             | None => Err EIo
             | Some data =>
                 p <- (if other_size fs f then is_prelinked data (slice data 0 128) else Ok false) ;;
                 if p : bool then data <- unprelinked (fi_name f) ;; Ok ((data, 0), Some true)
                 else Ok ((data, 0), Some false)
             end
         end = Ok ((data, a), flag) /\ fi_size f <= zlen data /\ slice data 0 (fi_size f) = installed_data fs unprelinked f /\
         (looks_prelinked fs f = true -> flag = Some true) /\ (flag = None -> hend c < lo) /\ (ps_flag s <> None -> flag <> None)).
    { destruct (ps_fd s) as [[data pos]|].
      - destruct Hfd as (F1 & F2 & F3 & F4 & F5 & F6). exists data, (ps_flag s). split; [rewrite F2; reflexivity|]. auto.
      - assert (Ea0 : a = 0) by (unfold a; lia). pose proof Hr as (d & R1 & R2). rewrite R1.
        destruct (looks_prelinked fs f) eqn:Ep.
        + destruct (prelinked_check f d R1 Ep) as [-> ->]. cbn [bind]. destruct R2 as (u & R2 & R3). rewrite R2. cbn [bind].
          exists u, (Some true). split; [rewrite Ea0; reflexivity|]. split; [auto|].
          split; [unfold installed_data; rewrite Ep, R2; reflexivity|]. split; [auto|]. split; [discriminate|discriminate].
        + destruct (opened_data f Hd Hr Ep d R1) as (O1 & O2 & O3). rewrite O3. cbn [bind].
          exists d, (Some false). split; [rewrite Ea0; reflexivity|]. split; [auto|]. split; [auto|]. split; [discriminate|]. split; discriminate. }
    destruct Hopen as (data & flag & Eo & O1 & O2 & O3 & O4 & O5). rewrite Eo. cbn [bind].
    unfold pread. replace ((a <? 0) || (zlen data <? a + rl)) with false by (unfold a, rl in *; lia). cbn [bind].
    assert (Hx : slice data a rl = slice (installed_data fs unprelinked f) a rl).
    { rewrite <- O2. symmetry. apply slice_of_first; unfold a, rl in *; lia. }
    rewrite Hx. assert (Hzx : zlen (slice (installed_data fs unprelinked f) a rl) = rl) by (apply zlen_slice; unfold a, rl in *; lia).
    rewrite Hzx. rewrite (u64_small (a + rl)) by (unfold a, rl, bend, hend in *; lia). cbn [ps_i ps_buf ps_link ps_fd ps_flag].
    destruct (fi_size f <=? a + rl) eqn:Ee.
    + assert (Erl : rl = fi_size f - a) by (unfold rl in *; lia).
      rewrite (u64_small (cf_clen c - (a + rl))) by (unfold a, bend, hend in *; lia).
      set (z := Z.min (len - rl) (cf_clen c - (a + rl))).
      assert (Em : Z.min len (bend c - off) = rl + z) by (unfold z, a, bend in *; lia).
      assert (Ex : slice (installed_data fs unprelinked f) a rl ++ zeros z = slice ext off (Z.min len (bend c - off))).
      { rewrite Em, Hslice by (unfold z in *; lia). rewrite slice_split by (unfold z, a in *; lia). f_equal.
        - symmetry. apply slice_app_l; unfold a in *; lia.
        - rewrite slice_app_r by lia. rewrite Hz. replace (a + rl - fi_size f) with 0 by lia. symmetry. apply slice_zeros; unfold z; lia. }
      eexists _, _. split; [reflexivity|]. split; [exact Ex|]. rewrite Ex.
      assert (Hzl : zlen (slice ext off (Z.min len (bend c - off))) = rl + z) by (rewrite zlen_slice; unfold a, bend, hend in *; lia). rewrite Hzl.
      split; [|split; [reflexivity|exact O5]]. constructor; cbn [ps_i ps_buf ps_link ps_fd ps_flag]; [auto|]. exists c. split; [auto|]. split; [unfold hend in *; lia|].
      apply Hclosed. unfold a, bend in *. lia.
    + assert (Erl : rl = len) by (unfold rl in *; lia).
      assert (Em : Z.min len (bend c - off) = len) by (unfold a, bend in *; lia).
      assert (Ex : slice (installed_data fs unprelinked f) a rl = slice ext off (Z.min len (bend c - off))).
      { rewrite Em, Hslice by lia. rewrite Erl. symmetry. apply slice_app_l; unfold a in *; lia. }
      eexists _, _. split; [reflexivity|]. split; [exact Ex|]. rewrite Hzx.
      split; [|split; [reflexivity|exact O5]]. constructor; cbn [ps_i ps_buf ps_link ps_fd ps_flag]; [auto|]. exists c. split; [auto|]. split; [unfold hend in *; lia|].
      exists f. split; [auto|]. split; [auto|]. split; [unfold a in *; lia|]. split; [unfold a; lia|]. auto.
  - cbn [bind]. change (@zlen Z []) with 0. rewrite Z.add_0_r, Z.sub_0_r. rewrite (u64_small a) by (unfold a, hend in *; lia).
    replace (fi_size f <=? a) with true by lia. rewrite (u64_small (cf_clen c - a)) by (unfold a, bend, hend in *; lia). cbn [app].
    set (z := Z.min len (cf_clen c - a)). assert (Em : Z.min len (bend c - off) = z) by (unfold z, a, bend in *; lia).
    assert (Ex : zeros z = slice ext off (Z.min len (bend c - off))).
    { rewrite Em, Hslice by (unfold z, a, bend in *; lia). rewrite slice_app_r by lia. rewrite Hz. symmetry. apply slice_zeros; unfold z, a, bend in *; lia. }
    eexists _, _. split; [reflexivity|]. split; [exact Ex|]. rewrite zlen_zeros by (unfold z, a, bend in *; lia).
    split; [|split; [reflexivity|auto]]. constructor; cbn [ps_i ps_buf ps_link ps_fd ps_flag]; [auto|]. exists c. split; [auto|]. split; [unfold z, a, bend, hend in *; lia|].
    apply Hclosed. unfold z, a, bend in *. lia.
Qed.

Lemma skip_ok off : off < zlen ext -> forall fuel i c, (length cpio <= fuel + i)%nat -> rd cpio (Z.of_nat i) = Ok c -> cf_off c <= off ->
  exists c' i', skip_entries (from cpio (Z.of_nat i)) i off = Ok (c', i') /\ rd cpio (Z.of_nat i') = Ok c' /\ cf_off c' <= off < bend c' /\ (off < bend c -> i' = i).
Proof.
  intros Hoff. induction fuel as [|fuel IH]; intros i c Hf Hc Hle; destruct (rd_In _ _ _ Hc) as [_ Hj]; [unfold zlen in Hj; lia|].
  rewrite (from_cons _ c Hc). cbn [skip_entries]. destruct (ends _ _ Hc) as [He1 He2]. rewrite He2. change (cf_off c + cf_hlen c + cf_clen c) with (bend c).
  destruct (bend c <=? off) eqn:E.
  - destruct (Hcpio _ _ Hc) as [_ _ [(H1 & H2 & H3 & H4 & H5)|(f & c' & H1 & H2 & H3 & H4 & H5 & H6 & H7 & H8 & H9 & H10 & H11 & H12)]].
    { unfold bend, hend in *. lia. }
    replace (Z.of_nat i + 1) with (Z.of_nat (S i)) in * by lia.
    destruct (IH (S i) c') as (c2 & i2 & A & B & C & D); [lia|auto|unfold bend, hend in *; lia|].
    exists c2, i2. split; [auto|]. split; [auto|]. split; [auto|]. lia.
  - exists c, i. split; [reflexivity|]. split; [auto|]. split; [lia|auto].
Qed.

Lemma prounds_ok : forall fuel s off len lo, pgood s off lo -> 0 <= off -> 0 <= len < Z.of_nat fuel -> (0 < len -> off < zlen ext /\ nolink off) ->
  off + len < 2 ^ 63 + 2 ^ 20 ->
  exists s', prelink_rounds fs unprelinked files cpio fuel s off len = Ok (s', padded (from ext off) len) /\ pgood s' (off + len) lo /\
  (ps_flag s <> None -> ps_flag s' <> None).
Proof.
  induction fuel as [|fuel IH]; intros s off len lo G Hoff Hlen Hin Hsum; [lia|].
  cbn [prelink_rounds]. destruct (len =? 0) eqn:El0.
  { assert (len = 0) by lia. subst len. exists s. split; [reflexivity|]. rewrite Z.add_0_r. auto. }
  destruct Hin as [Hlt Hno]; [lia|]. destruct G as [Hbuf (c0 & Hc0 & Ho0 & Hfd0)].
  destruct (skip_ok off Hlt (length cpio) (ps_i s) c0 ltac:(lia) Hc0 Ho0) as (c & i & Ei & Hc & Hco & Hsame). rewrite Ei. cbn [bind].
  set (fd := if Nat.eqb i (ps_i s) then ps_fd s else None).
  pose proof (hlen_ok _ _ Hc) as (Hh & Hcl & Hend). destruct (ends _ _ Hc) as [He1 He2]. rewrite He1. change (cf_off c + cf_hlen c) with (hend c) in *.
  pose proof (ea_off _ _ (Hcpio _ _ Hc)) as Hoc.
  (* the descriptor *)
  assert (Hfd : match fd with
    | Some (data, pos) => exists f, isfile c f /\ has_data f /\ hend c < off < hend c + fi_size f /\ pos = off - hend c /\
         fi_size f <= zlen data /\ slice data 0 (fi_size f) = installed_data fs unprelinked f /\
         (looks_prelinked fs f = true -> ps_flag s = Some true) /\ (ps_flag s = None -> hend c < lo)
    | None => forall j c f, rd cpio j = Ok c -> isfile c f -> has_data f -> ~ (hend c < off < hend c + fi_size f)
    end).
  { unfold fd. destruct (Nat.eqb i (ps_i s)) eqn:Eq.
    - apply Nat.eqb_eq in Eq. subst i. assert (c0 = c) by congruence. subst c0. exact Hfd0.
    - apply Nat.eqb_neq in Eq. destruct (ps_fd s) as [[data pos]|]; [|exact Hfd0]. exfalso.
      destruct Hfd0 as (f & F1 & F2 & F3 & _). destruct (reg_size _ _ _ Hc0 F1 F2) as (_ & _ & Hs & _). apply Eq, Hsame. unfold bend. lia. }
  clearbody fd. clear Hfd0 Hsame c0 Hc0 Ho0.
  (* the header *)
  set (m := if off <? hend c then Z.min len (hend c - off) else 0).
  assert (Hm : 0 <= m <= len /\ off + m <= zlen ext) by (unfold m; destruct (off <? hend c) eqn:E; unfold hend in *; lia).
  assert (Hhead : exists buf link, (if off <? hend c then
             let file_off := u64 (off - cf_off c) in
             '(buf, link) <- fill_header files (ps_buf s) (ps_link s) (cf_index c) ;;
             x <- peek buf file_off (Z.min len (u64 (cf_hlen c - file_off))) ;;
             Ok (mkps i buf link fd (ps_flag s), x)
           else Ok (mkps i (ps_buf s) (ps_link s) fd (ps_flag s), [])) = Ok (mkps i buf link fd (ps_flag s), slice ext off m) /\ zlen buf = max_header cpio).
  { unfold m. destruct (off <? hend c) eqn:E.
    - destruct (header_ok (ps_buf s) (ps_link s) _ c Hbuf Hc) as (buf & link & Ef & Lb & Sb & _). cbv zeta. rewrite Ef. cbn [bind].
      rewrite (u64_small (off - cf_off c)) by lia. rewrite (u64_small (cf_hlen c - _)) by (unfold hend in *; lia).
      rewrite (peek_ok buf (slice ext (cf_off c) (cf_hlen c)) (cf_hlen c)) by (auto; unfold hend in *; lia). cbn [bind].
      rewrite slice_slice by (unfold hend in *; lia). replace (cf_off c + (off - cf_off c)) with off by lia.
      replace (cf_hlen c - (off - cf_off c)) with (hend c - off) by (unfold hend; lia). exists buf, link. split; [reflexivity|]. lia.
    - exists (ps_buf s), (ps_link s). split; [|auto]. do 2 f_equal. }
  destruct Hhead as (buf & link & Eh & Lb). cbn [ps_i ps_buf ps_link ps_fd ps_flag]. cbv zeta in Eh |- *. rewrite Eh. cbn [bind].
  assert (Hzm : zlen (slice ext off m) = m) by (apply zlen_slice; lia). rewrite Hzm. rewrite (u64_small (off + m)) by lia.
  set (s1 := mkps i buf link fd (ps_flag s)).
  assert (Hfd1 : off < hend c -> fd = None).
  { intros H. destruct fd as [[data pos]|]; [|auto]. destruct Hfd as (f & _ & _ & F & _). lia. }
  destruct (len - m =? 0) eqn:El1.
  { assert (Em : m = len) by lia. assert (Hoh : off < hend c) by (unfold m in Em; destruct (off <? hend c) eqn:E; lia).
    exists s1. split; [rewrite Em, (padded_split ext off len len) by lia; rewrite Z.sub_diag; change (padded (from ext (off + len)) 0) with (@nil Z); rewrite app_nil_r; reflexivity|].
    split; [|auto]. constructor; [auto|]. exists c. cbn [ps_i s1]. split; [auto|]. split; [lia|]. cbn [ps_fd s1]. rewrite (Hfd1 Hoh).
    assert (Hole : off + len <= hend c) by (unfold m in Em; destruct (off <? hend c) eqn:E; lia).
    eapply none_inside; [exact Hc|unfold bend, hend in *; lia|]. intros g _ _. lia. }
  assert (Hoh : hend c <= off + m /\ (m <> 0 -> off + m = hend c)) by (unfold m in *; destruct (off <? hend c) eqn:E; lia).
  assert (Hgo : forall s2 x, pgood s2 (off + m + zlen x) lo -> zlen x <= len - m -> (ps_flag s <> None -> ps_flag s2 <> None) ->
    (0 < len - m - zlen x -> off + m + zlen x < zlen ext /\ nolink (off + m + zlen x)) -> (0 < m \/ 0 < zlen x) ->
    x ++ padded (from ext (off + m + zlen x)) (len - m - zlen x) = padded (from ext (off + m)) (len - m) ->
    exists s', ('(s3, y) <- prelink_rounds fs unprelinked files cpio fuel s2 (u64 (off + m + zlen x)) (len - m - zlen x) ;; Ok (s3, slice ext off m ++ x ++ y)) =
      Ok (s', padded (from ext off) len) /\ pgood s' (off + len) lo /\ (ps_flag s <> None -> ps_flag s' <> None)).
  { intros s2 x G2 Hx Hfl Hn2 Hprog Ex. pose proof (zlen_nonneg x). rewrite u64_small by lia.
    destruct (IH s2 (off + m + zlen x) (len - m - zlen x) lo G2) as (s3 & E3 & G3 & F3); [lia|lia|auto|lia|].
    rewrite E3. cbn [bind]. exists s3. split; [rewrite Ex, (padded_split ext off m len) by lia; reflexivity|].
    split; [replace (off + len) with (off + m + zlen x + (len - m - zlen x)) by lia; exact G3|auto]. }
  destruct (Hcpio _ _ Hc) as [_ _ [(H1 & H2 & H3 & H4 & H5)|(f & c' & H1 & H2 & H3 & H4 & H5 & H6 & H7 & H8 & H9 & H10 & H11 & H12)]].
  { (* the trailer *)
    replace (cf_index c <? 0) with true by lia. cbn [bind].
    assert (Hn : fd = None) by (destruct fd as [[? ?]|]; [|auto]; destruct Hfd as (f & [F _] & _); lia).
    assert (Eend : hend c = zlen ext) by (unfold hend; lia).
    apply (Hgo s1 (zeros (len - m))); rewrite ?zlen_zeros by lia; try lia; try (intros; lia); auto.
    - constructor; [auto|]. exists c. cbn [s1 ps_i ps_fd]. rewrite Hn. split; [auto|]. split; [lia|].
      intros k c2 g K1 K2 K3 K4. destruct (reg_size _ _ _ K1 K2 K3) as (_ & _ & Hs & _). destruct (file_at _ _ _ K1 K2) as (_ & _ & _ & _ & Hz & _). unfold bend in *. lia.
    - replace (len - m - (len - m)) with 0 by lia. change (padded (from ext (off + m + (len - m))) 0) with (@nil Z). rewrite app_nil_r.
      rewrite (padded_end ext (off + m)) by lia. reflexivity. }
  assert (Hf : isfile c f) by (split; auto). destruct (file_at _ _ _ Hc Hf) as (Hw & Hcl2 & Hbody & Hr & Hbe & _ & _ & _ & _ & Hbe2).
  replace (cf_index c <? 0) with false by lia. rewrite H2. cbn [bind].
  destruct (S_ISLNK (fi_mode f)) eqn:Elnk.
  { (* a link *)
    assert (Hoh2 : off + m = hend c).
    { destruct (Z.eq_dec m 0) as [E0|]; [|apply Hoh; auto]. specialize (Hno _ _ _ Hc Hf Elnk). lia. }
    assert (Hn : fd = None).
    { destruct fd as [[? ?]|]; [|auto]. destruct Hfd as (g & [_ F1] & [F2 _] & _). assert (g = f) by congruence. subst g. destruct (reg_not_lnk _ F2). congruence. }
    assert (Hb : fs_body fs unprelinked f = align4 (fi_linkto f)) by (unfold fs_body, new_body; rewrite Elnk; reflexivity).
    pose proof (pad4_range (zlen (fi_linkto f))) as Hpad. pose proof (zlen_nonneg (fi_linkto f)) as Hl0.
    assert (Hza : cf_clen c = zlen (fi_linkto f) + padding (zlen (fi_linkto f)) 4) by (rewrite Hcl2, Hb; apply zlen_align4).
    assert (Hlink : prelink_link c f (off + m) (len - m) = Ok (slice ext (off + m) (Z.min (len - m) (cf_clen c)))).
    { unfold prelink_link. rewrite He1. change (cf_off c + cf_hlen c) with (hend c). rewrite Hoh2, Z.sub_diag. change (u64 0) with 0.
      replace (zlen (fi_linkto f) <? 0) with false by lia. set (rl := Z.min (len - m) (zlen (fi_linkto f))).
      assert (Er : (if rl =? 0 then Ok [] else rd_range (fi_linkto f ++ [0]) 0 rl) = Ok (slice (fi_linkto f) 0 rl)).
      { destruct (rl =? 0) eqn:E0; [replace rl with 0 by lia; reflexivity|]. rewrite rd_range_in by (rewrite ?zlen_app; change (zlen [0]) with 1; unfold rl in *; lia).
        rewrite slice_app_l by (unfold rl in *; lia). reflexivity. }
      rewrite Er. cbn [bind]. rewrite zlen_slice by (unfold rl; lia). rewrite Z.add_0_l, (u64_small rl) by (unfold rl, hend in *; lia). f_equal.
      assert (Eb : slice ext (hend c) (Z.min (len - m) (cf_clen c)) = slice (fi_linkto f ++ zeros (cf_clen c - zlen (fi_linkto f))) 0 (Z.min (len - m) (cf_clen c))).
      { transitivity (slice (fs_body fs unprelinked f) 0 (Z.min (len - m) (cf_clen c))).
        - rewrite <- Hbody, slice_slice by (unfold hend; lia). f_equal; lia.
        - rewrite Hb at 1. rewrite align4_eq, <- Hb, <- Hcl2. reflexivity. }
      rewrite Eb. destruct (rl <? cf_clen c) eqn:E1.
      - set (z := Z.min (len - m - rl) (cf_clen c - rl)). replace (Z.min (len - m) (cf_clen c)) with (rl + z) by (unfold z, rl in *; lia).
        rewrite slice_split by (unfold z, rl; lia). f_equal; [symmetry; apply slice_app_l; unfold rl; lia|].
        destruct (Z.eq_dec z 0) as [->|Hz0]; [reflexivity|].
        rewrite slice_app_r by (unfold z, rl in *; lia). symmetry. apply slice_zeros; unfold z, rl in *; lia.
      - rewrite app_nil_r. replace (Z.min (len - m) (cf_clen c)) with rl by (unfold rl in *; lia). symmetry. apply slice_app_l; unfold rl; lia. }
    rewrite Hlink. cbn [bind].
    assert (Hzx : zlen (slice ext (off + m) (Z.min (len - m) (cf_clen c))) = Z.min (len - m) (cf_clen c)) by (apply zlen_slice; unfold bend, hend in *; lia).
    apply (Hgo s1); rewrite ?Hzx; try lia; auto.
    - constructor; [auto|]. exists c. cbn [s1 ps_i ps_fd]. rewrite Hn. split; [auto|]. split; [unfold hend in *; lia|].
      eapply none_inside; [exact Hc|unfold bend, hend in *; lia|]. intros g [_ K1] [K2 _]. assert (g = f) by congruence. subst g. destruct (reg_not_lnk _ K2). congruence.
    - intros Hrest. replace (off + m + Z.min (len - m) (cf_clen c)) with (bend c) by (unfold bend in *; lia). split; [auto|]. eapply nolink_end; eauto.
    - unfold bend in *. lia.
    - symmetry. apply padded_split; unfold bend, hend in *; lia. }
  destruct (0 <? cf_clen c) eqn:Ecl.
  - (* a file with contents *)
    destruct (Z_lt_le_dec (off + m) (bend c)) as [Hob|Hob]; [|unfold bend in *; lia].
    destruct (body_ok s1 c f (off + m) (len - m) lo) as (s2 & x & E2 & Ex & G2 & X2 & F2); auto; try lia.
    { cbn [s1 ps_fd ps_flag]. destruct fd as [[data pos]|].
      - assert (Em : m = 0) by (unfold m; destruct (off <? hend c) eqn:E; [discriminate (Hfd1 ltac:(lia))|auto]). rewrite Em, Z.add_0_r in *.
        destruct Hfd as (g & [_ F1] & F2 & F3). assert (g = f) by congruence. subst g. exact F3.
      - destruct (Z.eq_dec m 0) as [Em|Hm0]; [|left; apply Hoh; auto]. rewrite Em, Z.add_0_r in *.
        destruct (Z.eq_dec off (hend c)); [left; auto|]. destruct (Z_lt_le_dec off (hend c + fi_size f)) as [Hls|]; [|right; auto]. exfalso.
        destruct (S_ISREG (fi_mode f)) eqn:Ereg.
        + apply (Hfd _ _ f Hc Hf); [|lia]. split; [auto|]. intros Ez. destruct Hw. lia.
        + unfold fs_body, new_body in Hcl2. rewrite Elnk, Ereg in Hcl2. change (zlen (align4 [])) with 0 in Hcl2. lia. }
    rewrite E2. cbn [bind].
    assert (Hzx : zlen x = Z.min (len - m) (bend c - (off + m))) by (rewrite Ex; apply zlen_slice; unfold bend, hend in *; lia).
    apply (Hgo s2 x); auto; try lia.
    + intros Hrest. replace (off + m + zlen x) with (bend c) by lia. split; [auto|]. eapply nolink_end; eauto.
    + rewrite Hzx, Ex. symmetry. apply padded_split; lia.
  - (* an empty entry *)
    cbn [bind]. assert (Ec0 : cf_clen c = 0) by lia.
    assert (Hm0 : m <> 0) by (intros E; rewrite E in *; unfold bend in *; lia).
    assert (Em : off + m = hend c) by (apply Hoh; auto).
    apply (Hgo s1 []); change (@zlen Z []) with 0; rewrite ?Z.add_0_r, ?Z.sub_0_r; try lia; auto.
    + constructor; [auto|]. exists c. cbn [s1 ps_i ps_fd]. rewrite Hfd1 by lia. split; [auto|]. split; [unfold hend in *; lia|].
      eapply none_inside; [exact Hc|unfold bend, hend in *; lia|]. intros g _ _. lia.
    + intros _. replace (off + m) with (bend c) by (unfold bend; lia). split; [auto|]. eapply nolink_end; eauto.
Qed.

(** ** The block to start with *)
Lemma none_in j c o : rd cpio j = Ok c -> cf_off c <= o < bend c -> (forall f, isfile c f -> has_data f -> ~ (hend c < o < hend c + fi_size f)) ->
  forall k c2 f, rd cpio k = Ok c2 -> isfile c2 f -> has_data f -> ~ (hend c2 < o < hend c2 + fi_size f).
Proof.
  intros Hc Ho Hn k c2 f H2 Hf Hd Hin. destruct (reg_size _ _ _ H2 Hf Hd) as (_ & _ & Hs & _). destruct (file_at _ _ _ H2 Hf) as (_ & _ & _ & _ & _ & Hh & _).
  assert (k = j) by (apply (found_at j c k c2 o Hc H2); unfold bend, hend in *; lia). subst k. assert (c2 = c) by congruence. subst c2. eapply Hn; eauto.
Qed.

Lemma data_of j c f : rd cpio j = Ok c -> isfile c f -> S_ISLNK (fi_mode f) = false -> 0 < cf_clen c -> has_data f.
Proof.
  intros Hc Hf Hl Hpos. destruct (file_at _ _ _ Hc Hf) as (Hw & Hcl & Hbody & Hr & _).
  assert (Hreg : S_ISREG (fi_mode f) = true).
  { destruct (S_ISREG (fi_mode f)) eqn:E; [auto|]. exfalso. unfold fs_body, new_body in Hcl. rewrite Hl, E in Hcl. change (zlen (align4 [])) with 0 in Hcl. lia. }
  split; [auto|]. intros Ez. pose proof (body_size f Hw Hr Hreg) as Hz. unfold fs_body, new_body in Hcl. rewrite Hl, Hreg, zlen_align4, Hz, Ez in Hcl. change (padding 0 4) with 0 in Hcl. lia.
Qed.

Lemma back_all_ok off : 0 <= off -> forall i c, rd cpio (Z.of_nat i) = Ok c -> off < bend c ->
  exists j cj, back_all cpio i off = Ok j /\ rd cpio (Z.of_nat j) = Ok cj /\ cf_off cj <= off < bend cj.
Proof.
  intros Hoff. induction i as [|i IH]; intros c Hc Hlt; cbn [back_all]; rewrite Hc; cbn [bind]; destruct (off <? cf_off c) eqn:E.
  - destruct Hfirst as (c1 & H1 & H2). change (Z.of_nat 0) with 0 in Hc. assert (c1 = c) by congruence. subst c1. lia.
  - exists O, c. split; [reflexivity|]. split; [auto|]. lia.
  - destruct (rd_In _ _ _ Hc) as [_ Hr]. destruct (rd_some cpio (Z.of_nat i)) as [c1 Hc1]; [lia|].
    apply (IH c1 Hc1). destruct (Hcpio _ _ Hc1) as [_ _ [(H1 & H2 & H3 & H4 & H5)|(f & c' & H1 & H2 & H3 & H4 & H5 & H6 & H7 & H8 & H9 & H10 & H11 & H12)]]; [lia|].
    replace (Z.of_nat i + 1) with (Z.of_nat (S i)) in H10 by lia. assert (c' = c) by congruence. subst c'. unfold bend, hend in *. lia.
  - exists (S i), c. split; [reflexivity|]. split; [auto|]. lia.
Qed.

Lemma before_ok start : 0 <= start -> forall id, (0 < id)%nat ->
  exists first, block_before id start = Ok first /\ (first < id)%nat /\ Z.of_nat first * 8192 <= start /\
  forall q, (first < q < id)%nat -> start < Z.of_nat q * 8192.
Proof.
  intros Hs. induction id as [|id IH]; intros H; [lia|]. cbn [block_before]. unfold BLOCK_SIZE. destruct (start <? Z.of_nat id * 8192) eqn:E.
  - destruct IH as (first & A & B & C & D); [destruct id; lia|]. exists first. split; [auto|]. split; [lia|]. split; [auto|].
    intros q Hq. destruct (Nat.eq_dec q id) as [->|]; [lia|]. apply D. lia.
  - exists id. split; [reflexivity|]. split; [lia|]. split; [lia|]. intros q Hq. lia.
Qed.

Definition covered (q : Z) : Prop := exists j c f, rd cpio j = Ok c /\ pfile c f /\ hend c < q * 8192 < hend c + fi_size f.

Lemma start_ok : forall fuel id i c flag, (id < fuel)%nat -> rd cpio (Z.of_nat i) = Ok c -> Z.of_nat id * 8192 < bend c ->
  exists i' first fd flag' c', start_block fs files cpio fuel i id flag = Ok (i', first, fd, flag') /\ (first <= id)%nat /\
  rd cpio (Z.of_nat i') = Ok c' /\ cf_off c' <= Z.of_nat first * 8192 /\ (forall q, Z.of_nat first < q <= Z.of_nat id -> covered q) /\
  (flag <> None -> flag' <> None) /\ ((first < id)%nat -> flag' <> None) /\
  match fd with
  | Some (data, pos) => exists f, isfile c' f /\ has_data f /\ hend c' < Z.of_nat first * 8192 < hend c' + fi_size f /\ pos = 0 /\
       fi_size f <= zlen data /\ slice data 0 (fi_size f) = installed_data fs unprelinked f /\ looks_prelinked fs f = false
  | None => forall j c f, rd cpio j = Ok c -> isfile c f -> has_data f -> ~ (hend c < Z.of_nat first * 8192 < hend c + fi_size f)
  end.
Proof.
  induction fuel as [|fuel IH]; intros id i c flag Hfuel Hc Hlt; [lia|].
  cbn [start_block]. unfold BLOCK_SIZE. set (off := Z.of_nat id * 8192) in *.
  destruct (back_all_ok off ltac:(unfold off; lia) i c Hc Hlt) as (j & cj & Ej & Hj & Hjo). rewrite Ej. cbn [bind]. rewrite Hj. cbn [bind].
  destruct (ends _ _ Hj) as [He1 _]. rewrite He1. change (cf_off cj + cf_hlen cj) with (hend cj). pose proof (hlen_ok _ _ Hj) as Hh.
  assert (Hstay : forall (fd : option fdesc) (flag' : option bool), (flag <> None -> flag' <> None) ->
    match fd with
    | Some (data, pos) => exists f, isfile cj f /\ has_data f /\ hend cj < off < hend cj + fi_size f /\ pos = 0 /\
         fi_size f <= zlen data /\ slice data 0 (fi_size f) = installed_data fs unprelinked f /\ looks_prelinked fs f = false
    | None => forall j c f, rd cpio j = Ok c -> isfile c f -> has_data f -> ~ (hend c < off < hend c + fi_size f)
    end ->
    exists i' first fd0 flag0 c', Ok (j, id, fd, flag') = Ok (i', first, fd0, flag0) /\ (first <= id)%nat /\
    rd cpio (Z.of_nat i') = Ok c' /\ cf_off c' <= Z.of_nat first * 8192 /\ (forall q, Z.of_nat first < q <= Z.of_nat id -> covered q) /\
    (flag <> None -> flag0 <> None) /\ ((first < id)%nat -> flag0 <> None) /\
    match fd0 with
    | Some (data, pos) => exists f, isfile c' f /\ has_data f /\ hend c' < Z.of_nat first * 8192 < hend c' + fi_size f /\ pos = 0 /\
         fi_size f <= zlen data /\ slice data 0 (fi_size f) = installed_data fs unprelinked f /\ looks_prelinked fs f = false
    | None => forall j c f, rd cpio j = Ok c -> isfile c f -> has_data f -> ~ (hend c < Z.of_nat first * 8192 < hend c + fi_size f)
    end).
  { intros fd flag' Hfl Hfd. exists j, id, fd, flag', cj. split; [reflexivity|]. split; [lia|]. split; [auto|]. split; [lia|]. split; [intros; lia|].
    split; [auto|]. split; [lia|]. exact Hfd. }
  assert (Hnone : (forall f, isfile cj f -> has_data f -> ~ (hend cj < off < hend cj + fi_size f)) ->
    forall j c f, rd cpio j = Ok c -> isfile c f -> has_data f -> ~ (hend c < off < hend c + fi_size f)) by (intros H; eapply none_in; eauto).
  destruct ((cf_index cj <? 0) || (cf_clen cj =? 0) || (off <=? hend cj)) eqn:E1.
  { apply Hstay; [auto|]. apply Hnone. intros f Hf Hd Hin. destruct Hf as [Hf1 Hf2]. unfold bend in *. lia. }
  destruct (Hcpio _ _ Hj) as [_ _ [(H1 & H2 & H3 & H4 & H5)|(f & c' & H1 & H2 & H3 & H4 & H5 & H6 & H7 & H8 & H9 & H10 & H11 & H12)]]; [lia|].
  rewrite H2. cbn [bind]. assert (Hf : isfile cj f) by (split; auto).
  destruct (S_ISLNK (fi_mode f)) eqn:El.
  { apply Hstay; [auto|]. apply Hnone. intros g [_ Hg] [Hr _] _. assert (g = f) by congruence. subst g. destruct (reg_not_lnk _ Hr). congruence. }
  assert (Hd : has_data f) by (apply (data_of _ cj f Hj Hf El); lia).
  destruct (file_at _ _ _ Hj Hf) as (_ & _ & _ & Hr & _ & _ & _ & _ & Hal & _). specialize (Hr Hd).
  destruct (reg_size _ _ _ Hj Hf Hd) as (_ & _ & Hsz & Halc & _).
  assert (Hin : hend cj < off < hend cj + fi_size f).
  { split; [lia|]. pose proof (Z.div_mod (hend cj) 4 ltac:(lia)). pose proof (Z.div_mod (cf_clen cj) 4 ltac:(lia)). unfold bend, off in *. lia. }
  pose proof Hr as (d & R1 & R2). rewrite R1. destruct (looks_prelinked fs f) eqn:Ep.
  - destruct (prelinked_check f d R1 Ep) as [Eo Ei]. rewrite Eo, Ei. cbn [negb bind].
    assert (Hid : (0 < id)%nat) by (destruct id; [exfalso; pose proof (ea_off _ _ (Hcpio _ _ Hj)); unfold off, hend in *; lia|lia]).
    pose proof (ea_off _ _ (Hcpio _ _ Hj)) as Ho0.
    destruct (before_ok (hend cj) ltac:(unfold hend; lia) id Hid) as (first & Eb & B1 & B2 & B3). rewrite Eb. cbn [bind].
    destruct (IH first j cj (Some true)) as (i' & first' & fd & flag' & c2 & E & I1 & I2 & I3 & I4 & I5 & I6 & I7); [lia|auto|unfold bend; lia|].
    rewrite E. exists i', first', fd, flag', c2. split; [reflexivity|]. split; [lia|]. split; [auto|]. split; [auto|]. split.
    { intros q Hq. destruct (Z_le_gt_dec q (Z.of_nat first)) as [Hle|Hgt]; [apply I4; lia|].
      exists (Z.of_nat j), cj, f. split; [auto|]. split; [split; [auto|split; auto]|].
      assert (hend cj < q * 8192).
      { destruct (Z.eq_dec q (Z.of_nat id)) as [->|]; [unfold off in Hin; lia|]. specialize (B3 (Z.to_nat q) ltac:(lia)). lia. }
      unfold off in Hin. lia. }
    split; [intros _; apply I5; discriminate|]. split; [intros _; apply I5; discriminate|]. exact I7.
  - destruct (opened_data f Hd Hr Ep d R1) as (O1 & O2 & O3). destruct (other_size fs f); cbn [negb].
    + rewrite O3. cbn [bind negb]. apply Hstay; [discriminate|]. exists f. auto 8.
    + apply Hstay; [auto|]. exists f. auto 8.
Qed.

(** ** The blocks *)
Section Making.
Variable capacity : Z.
Variable n : Z.
Hypothesis Hn : 0 <= n < 2 ^ 32.
Variable max : list Z.
Hypothesis Hmax : zlen max = n.
Hypothesis Hcover : zlen ext <= n * 8192.
Hypothesis Hlinks : forall q, nolink (q * 8192).
Notation inv := (finv fsrc (block ext) n max good).
Notation holds := (sholds fsrc (block ext) n).
Let fill : blocks fsrc -> nat -> Z -> Z -> res (blocks fsrc) := fun b _ _ _ => Ok b.

Lemma head_good b s skip cc k : inv b (fun j => j = k) skip cc -> zlen (ps_buf s) = max_header cpio -> inv (set_head b s) (fun j => j = k) skip cc.
Proof.
  intros [] Hb. constructor; auto. cbn. destruct f_src. constructor; cbn [fx_buf fx_open fx_idx fx_link fx_nodes]; auto; try lia.
  intros c Hc. unfold rd in Hc. cbn in Hc. discriminate.
Qed.

Lemma pblocks_ok k wanted cc : 0 <= wanted < n -> forall fuel b s id saved,
  inv b (fun j => j = k) (fun y => y = wanted) cc -> In k (bk_core b) -> (k < length (bk_slots b))%nat -> rd (bk_table b) wanted = Ok (Some (PCore k)) ->
  pgood s (id * 8192) (id * 8192) -> 0 <= id -> id * 8192 < zlen ext -> n - id < Z.of_nat fuel ->
  (forall q, id < q <= wanted -> covered q) -> (ps_flag s = None -> exists i, meets (id * 8192) (id * 8192 + 8192) i) ->
  (wanted < id -> saved = Some (block ext wanted)) ->
  exists b', prelink_blocks fs unprelinked files cpio capacity fuel b k s id wanted cc saved = Ok b' /\
  inv b' (fun _ => False) (fun _ => False) cc /\ In k (bk_core b') /\ holds b' k wanted.
Proof.
  intros Hw. induction fuel as [|fuel IH]; intros b s id saved I Hk Hlt Ht G Hid Hext1 Hfuel Hcov Hmeet Hsaved; [lia|].
  cbn [prelink_blocks]. unfold BLOCK_SIZE.
  destruct (prounds_ok (fs_fuel cpio) s (id * 8192) 8192 (id * 8192) G) as (s' & E & G' & Hfl); [lia|unfold fs_fuel, BLOCK_SIZE; lia|split; [lia|apply Hlinks]|lia|].
  rewrite E. cbn [bind]. rewrite u32_small by lia.
  replace (padded (from ext (id * 8192)) 8192) with (block ext id) by (symmetry; apply (padded_block ext id Hid)).
  pose proof (head_good b s' _ _ k I (pg_buf _ _ _ G')) as I0.
  destruct (keep_slot fsrc capacity fill (block ext) n Hn max good (set_head b s') _ _ k id BCore I0) as (b1 & E1 & I1 & S1 & T1 & C1 & L1 & R1 & _); [exact Hlt|lia|discriminate|].
  rewrite E1. cbn [bind].
  assert (Hpush : exists b2 saved', (if id =? wanted then Ok (b1, Some (block ext id))
         else
           m <- rd (bk_max b1) id ;;
           b <- (if (cc <? m) || ((m =? cc) && (wanted <? id)) then push_block fsrc capacity b1 k cc else Ok b1) ;;
           Ok (b, saved)) = Ok (b2, saved') /\ inv b2 (fun j => j = k) (fun y => y = wanted) cc /\ In k (bk_core b2) /\ (k < length (bk_slots b2))%nat /\
           rd (bk_table b2) wanted = Ok (Some (PCore k)) /\ (wanted <= id -> saved' = Some (block ext wanted))).
  { assert (Hk1 : In k (bk_core b1)) by (rewrite C1; exact Hk).
    assert (Ht1 : rd (bk_table b1) wanted = Ok (Some (PCore k))) by (rewrite T1; exact Ht).
    assert (Hl1 : (k < length (bk_slots b1))%nat) by (rewrite L1; exact Hlt).
    destruct (id =? wanted) eqn:Ew.
    - exists b1, (Some (block ext id)). split; [reflexivity|]. split; [auto|]. split; [auto|]. split; [auto|]. split; [auto|]. intros _. do 2 f_equal. lia.
    - rewrite (f_max _ _ _ _ _ _ _ _ _ I1). destruct (rd_some max id) as [m Em]; [lia|]. rewrite Em. cbn [bind].
      destruct ((cc <? m) || ((m =? cc) && (wanted <? id))).
      + destruct (push_any fsrc capacity fill (block ext) n Hn max Hmax good b1 cc k id _ I1 Hk1 S1) as (b2 & E2 & I2 & K2 & L2 & R2 & T2).
        rewrite E2. cbn [bind]. exists b2, saved. split; [reflexivity|]. split; [eapply finv_iff; [| |exact I2]; [tauto|cbn beta; intros; lia]|].
        split; [auto|]. split; [lia|]. split; [rewrite T2 by lia; auto|]. intros. apply Hsaved. lia.
      + cbn [bind]. exists b1, saved. split; [reflexivity|]. split; [auto|]. split; [auto|]. split; [auto|]. split; [auto|]. intros. apply Hsaved. lia. }
  destruct Hpush as (b2 & saved' & E2 & I2 & K2 & L2 & T2 & Hs2). rewrite E2. cbn [bind].
  destruct (pg_at _ _ _ G') as (c & Hc & Hco & Hfd).
  assert (Hdone : (wanted <= id) -> exists b', (if id <? wanted then Err EProg
      else x <- match saved' with Some x => Ok x | None => Ub Uninit end ;; put_slot fsrc b2 k (mksl BCore (Some (u32 wanted)) (Some x))) = Ok b' /\
    inv b' (fun _ => False) (fun _ => False) cc /\ In k (bk_core b') /\ holds b' k wanted).
  { intros Hle. replace (id <? wanted) with false by lia. rewrite (Hs2 Hle). cbn [bind]. rewrite u32_small by lia.
    apply (final_fill fsrc capacity fill (block ext) n Hn max good); auto. discriminate. }
  assert (Hcov1 : id < wanted -> ps_fd s' <> None /\ ps_flag s' = Some true).
  { intros Hlt1. destruct (Hcov (id + 1) ltac:(lia)) as (j & cj & fj & J1 & (J2 & J3 & J4 & J5) & J6).
    replace ((id + 1) * 8192) with (id * 8192 + 8192) in J6 by lia. destruct (ps_fd s') as [[data pos]|].
    - split; [discriminate|]. destruct Hfd as (f & F1 & F2 & F3 & F4 & F5 & F6 & F7 & F8). apply F7.
      destruct (reg_size _ _ _ J1 (conj J2 J3) J4) as (_ & _ & Hs & _). destruct (reg_size _ _ _ Hc F1 F2) as (_ & _ & Hs' & _).
      pose proof (hlen_ok _ _ J1). pose proof (hlen_ok _ _ Hc).
      assert (Z.of_nat (ps_i s') = j) by (apply (found_at j cj _ c (id * 8192 + 8192) J1 Hc); unfold bend, hend in *; lia).
      subst j. assert (cj = c) by congruence. subst cj. destruct F1 as [_ F1]. assert (fj = f) by congruence. subst fj. auto.
    - exfalso. eapply Hfd; eauto. split; auto. }
  destruct (ps_fd s') as [[data pos]|] eqn:Efd.
  2:{ cbn [bind]. apply Hdone. destruct (Z_lt_le_dec id wanted) as [Hlt1|]; [|auto]. destruct (Hcov1 Hlt1). congruence. }
  destruct Hfd as (f & F1 & F2 & F3 & F4 & F5 & F6 & F7 & F8).
  destruct (file_at _ _ _ Hc F1) as (_ & _ & _ & _ & Hbe & Hhl & _). destruct (reg_size _ _ _ Hc F1 F2) as (_ & _ & Hsz & _).
  destruct (ps_flag s') as [p|] eqn:Efl.
  - cbn [bind]. destruct p.
    + apply (IH b2 s' (id + 1) saved'); auto; try lia.
      * constructor; [apply (pg_buf _ _ _ G')|]. exists c. split; [auto|]. replace ((id + 1) * 8192) with (id * 8192 + 8192) by lia. split; [auto|].
        rewrite Efd. exists f. split; [auto|]. split; [auto|]. split; [auto|]. split; [auto|]. split; [auto|]. split; [auto|]. split; [intros; congruence|intros; congruence].
      * unfold bend in Hbe. lia.
      * intros q Hq. apply Hcov. lia.
      * congruence.
      * intros. apply Hs2. lia.
    + apply Hdone. destruct (Z_lt_le_dec id wanted) as [Hlt1|]; [|auto]. destruct (Hcov1 Hlt1). congruence.
  - exfalso. specialize (F8 eq_refl).
    assert (Hn0 : ps_flag s = None) by (destruct (ps_flag s); [exfalso; apply Hfl; [discriminate|auto]|auto]).
    destruct (Hmeet Hn0) as (i & cm & fm & o & M1 & (M2 & M3 & M4 & M5) & M6 & M7). change (cf_off cm + cf_hlen cm) with (hend cm) in M7.
    destruct (reg_size _ _ _ M1 (conj M2 M3) M4) as (_ & _ & Hs & _). pose proof (hlen_ok _ _ M1).
    assert (Z.of_nat (ps_i s') = i) by (apply (found_at i cm _ c o M1 Hc); unfold bend, hend in *; lia).
    subst i. assert (cm = c) by congruence. subst cm. destruct F1 as [_ F1]. assert (fm = f) by congruence. subst fm. specialize (F7 M5). discriminate.
Qed.

Lemma prelink_fill b k id cc i : inv b (fun j => j = k) (fun y => y = id) cc -> In k (bk_core b) -> (k < length (bk_slots b))%nat ->
  rd (bk_table b) id = Ok (Some (PCore k)) -> 0 <= id < n -> id * 8192 < zlen ext -> meets (id * 8192) (id * 8192 + 8192) i ->
  exists b', fill_prelink fs unprelinked files cpio capacity b k id cc i = Ok b' /\
  inv b' (fun _ => False) (fun _ => False) cc /\ In k (bk_core b') /\ holds b' k id.
Proof.
  intros I Hk Hlt Ht Hid Hext1 Hm. pose proof Hm as (c & f & o & M1 & (M2 & M3 & M4 & M5) & M6 & M7). change (cf_off c + cf_hlen c) with (hend c) in M7.
  destruct (reg_size _ _ _ M1 (conj M2 M3) M4) as (_ & _ & Hs & _). destruct (rd_In _ _ _ M1) as [_ Hi].
  unfold fill_prelink.
  destruct (start_ok (S (Z.to_nat id)) (Z.to_nat id) (Z.to_nat i) c None) as (i' & first & fd & flag & c' & E & S1 & S2 & S3 & S4 & _ & S6 & S7);
    [lia|rewrite Z2Nat.id by lia; auto|unfold bend; lia|].
  rewrite E. cbn [bind]. rewrite S2. cbn [bind]. destruct (ends _ _ S2) as [He1 _]. rewrite He1. change (cf_off c' + cf_hlen c') with (hend c').
  assert (Hfd : exists fd', match fd with
        | None => Ok None
        | Some (data, pos) =>
            f <- rd files (cf_index c') ;;
            let file_off := u64 (Z.of_nat first * BLOCK_SIZE - hend c') in
            Ok (Some (data, if (0 <? file_off) && (file_off <? fi_size f) then file_off else pos))
        end = Ok fd' /\ pgood (mkps i' (fx_buf (bk_src b)) (fx_link (bk_src b)) fd' flag) (Z.of_nat first * 8192) (Z.of_nat first * 8192)).
  { pose proof (g_buf _ (f_src _ _ _ _ _ _ _ _ _ I)) as Hbuf. destruct fd as [[data pos]|].
    - destruct S7 as (g & G1 & G2 & G3 & G4 & G5 & G6 & G7). pose proof G1 as [G1a G1b]. rewrite G1b. cbn [bind]. unfold BLOCK_SIZE.
      destruct (file_at _ _ _ S2 G1) as (_ & _ & _ & _ & _ & Hh & _ & Ho & _). rewrite u64_small by (unfold hend in *; lia). cbv zeta.
      replace (0 <? Z.of_nat first * 8192 - hend c') with true by lia. replace (Z.of_nat first * 8192 - hend c' <? fi_size g) with true by lia. cbn [andb].
      eexists. split; [reflexivity|]. constructor; [exact Hbuf|]. exists c'. split; [exact S2|]. split; [auto|]. cbn [ps_fd ps_flag].
      exists g. split; [auto|]. split; [auto|]. split; [auto|]. split; [auto|]. split; [auto|]. split; [auto|]. split; [intros; congruence|]. intros. lia.
    - exists None. split; [reflexivity|]. constructor; [exact Hbuf|]. exists c'. split; [exact S2|]. split; [auto|]. exact S7. }
  destruct Hfd as (fd' & Ef & G). cbv zeta in Ef |- *. rewrite Ef. cbn [bind].
  apply (pblocks_ok k id cc Hid); auto; try lia.
  - rewrite (f_max _ _ _ _ _ _ _ _ _ I). unfold zlen in Hmax. lia.
  - intros q Hq. apply S4. lia.
  - intros Hn0. cbn [ps_flag] in Hn0. destruct (Nat.eq_dec first (Z.to_nat id)) as [Ef1|]; [|exfalso; apply S6; [lia|auto]].
    rewrite Ef1, Z2Nat.id by lia. eauto.
Qed.
End Making.

(** ** One block *)
Lemma fill_fs_ok capacity b k id cc : good (bk_src b) -> 0 <= id -> id * 8192 < zlen ext -> id < 2 ^ 32 ->
  exists s', good s' /\
  (fill_filesystem fs unprelinked files cpio capacity b k id cc =
   put_slot fsrc (set_src fsrc b (bk_rid b) s') k (mksl BNopage (Some id) (Some (block ext id))) \/
   exists i, meets (id * 8192) (id * 8192 + 8192) i /\
   fill_filesystem fs unprelinked files cpio capacity b k id cc = fill_prelink fs unprelinked files cpio capacity (set_src fsrc b (bk_rid b) s') k id cc i).
Proof.
  intros G Hid Hlt H32. unfold fill_filesystem. unfold BLOCK_SIZE. rewrite u64_small by lia.
  set (s := bk_src b) in *. destruct Hfirst as (c0 & Hc0 & _). destruct (rd_In _ _ _ Hc0) as [_ Hlen0].
  destruct (back_ok (id * 8192) ltac:(lia) (if 0 <=? fx_idx s then Z.to_nat (fx_idx s) else O)) as (j & c & Ej & Hj & Hjo).
  { pose proof (g_idx _ G). destruct (0 <=? fx_idx s) eqn:E; lia. }
  rewrite Ej. cbn [bind].
  destruct (ahead_ok (id * 8192) Hlt (length cpio) (Z.of_nat j) c ltac:(lia) Hj Hjo) as (i & ci & Ei & Hi & Hio). rewrite Ei.
  assert (Hs : exists s1, (if i =? fx_idx s then Ok s else enter files cpio s i) = Ok s1 /\ good s1 /\ fx_idx s1 = i).
  { destruct (i =? fx_idx s) eqn:E; [exists s; split; [auto|split; [auto|lia]]|]. eapply enter_ok; eauto. }
  destruct Hs as (s1 & Es & G1 & X1). rewrite Es. cbn [bind]. destruct (rd_In _ _ _ Hi) as [_ Hir].
  destruct (rounds_ok (fs_fuel cpio) s1 (id * 8192) 8192 ci) as (s' & r & E' & G' & Hr); auto; try lia; try (rewrite X1; auto; lia).
  { unfold fs_fuel, BLOCK_SIZE. unfold zlen. lia. }
  rewrite E'. cbn [bind]. destruct r as [x|p]; cbn [answer] in Hr.
  - exists s'. split; [exact G'|]. left. rewrite u32_small by lia. rewrite Hr.
    replace (padded (from ext (id * 8192)) 8192) with (block ext id); [reflexivity|]. symmetry. apply (padded_block ext id Hid).
  - eexists. split; [|right; exists p; split; [exact Hr|reflexivity]].
    destruct G'. constructor; cbn [fx_buf fx_open fx_idx fx_link fx_nodes]; auto; try lia.
    intros x Hx. unfold rd in Hx. cbn in Hx. discriminate.
Qed.

Lemma source_good : good (fs_source cpio).
Proof.
  destruct Hfirst as (c0 & Hc0 & _). destruct (rd_In _ _ _ Hc0) as [_ Hlen0].
  constructor; cbn [fs_source fx_buf fx_open fx_idx fx_link fx_nodes].
  - rewrite zlen_repeat. pose proof (max_header_ge cpio). lia.
  - rewrite zlen_repeat. unfold zlen. lia.
  - lia.
  - intros c Hc. unfold rd in Hc. cbn in Hc. discriminate.
  - intros i k H. pose proof (rd_in_bounds _ _ _ H) as Hb. rewrite zlen_repeat in Hb. rewrite rd_repeat in H by lia. congruence.
  - exists []. split; [constructor|]. split; [reflexivity|]. split; [intros x []|]. intros i. split; [intros []|]. intros [k H].
    pose proof (rd_in_bounds _ _ _ H) as Hb. rewrite zlen_repeat in Hb. rewrite rd_repeat in H by lia. congruence.
Qed.

Lemma nolink_aligned o : o mod 4 = 0 ->
  (forall j c f, rd cpio j = Ok c -> isfile c f -> S_ISLNK (fi_mode f) = true -> ~ (hend c < o < hend c + zlen (fi_linkto f))) -> nolink o.
Proof.
  intros Ho H j c f Hc Hf Hl Hin. destruct (file_at _ _ _ Hc Hf) as (_ & Hcl & _ & _ & _ & _ & _ & _ & Hal & _). apply (H j c f Hc Hf Hl).
  assert (Hb : fs_body fs unprelinked f = align4 (fi_linkto f)) by (unfold fs_body, new_body; rewrite Hl; reflexivity).
  rewrite Hb, zlen_align4 in Hcl. pose proof (pad4_aligned (zlen (fi_linkto f))) as Ha. rewrite <- Hcl in Ha. pose proof (pad4_range (zlen (fi_linkto f))).
  pose proof (Z.div_mod (hend c) 4 ltac:(lia)). pose proof (Z.div_mod (cf_clen c) 4 ltac:(lia)). pose proof (Z.div_mod o 4 ltac:(lia)). unfold bend in Hin. lia.
Qed.

Lemma fs_reads capacity len copies clean :
  1 <= capacity -> 0 < len <= zlen ext -> block_count len < 2 ^ 32 - 1 -> Forall (in_data len) (extents 0 copies) ->
  (forall j c f, rd cpio j = Ok c -> pfile c f -> block_count len = block_count (zlen ext) /\ forall q, nolink (q * 8192)) ->
  exists b b', blocks_create fsrc len copies (fs_source cpio) clean = Ok b /\
  read_copies fsrc capacity (fill_filesystem fs unprelinked files cpio capacity) b copies 0 0 = Ok (b', map (fun '(o, l) => slice ext o l) (extents 0 copies)).
Proof.
  intros Hcap Hz Hbc Hin Hpre. apply (direct_reads fsrc capacity _ good); auto; [apply source_good|].
  intros max Hmax b k id cc I Hk Hlt Ht Hid Hlive. pose proof (count_bounds len) as Hnb.
  destruct (fill_fs_ok capacity b k id cc) as (s' & G' & [E|(i & Hm & E)]); try lia; [apply (f_src _ _ _ _ _ _ _ _ _ I)|..].
  - rewrite E. eapply plain_fill; eauto; try lia. exact (fill_filesystem fs unprelinked files cpio capacity).
  - rewrite E. pose proof Hm as (c & f & o & M1 & M2 & _). destruct (Hpre _ _ _ M1 M2) as [Hcount Hnl].
    apply (prelink_fill capacity (block_count len) ltac:(lia) max Hmax); auto; try lia.
    + rewrite Hcount. apply count_bounds.
    + destruct I. constructor; auto.
Qed.
End Fs.
