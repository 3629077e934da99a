(** * FsSafe: reading installed files that are missing, short or changed *)
From Verif Require Import Base BaseLemmas Utils SpecCodec UtilsProofs CpioHeader CpioHeaderProofs CodecFinal
     Rpm FormatFinal FormatSafe Seq SeqProofs Expand SeqFinal Archive SpecArchive ArchiveProofs ArchiveMain ArchiveLoop ArchiveFinal ArchiveSeq
     SpecDelta SpecBlocks Blocks BlocksProofs Fill FillProofs FillStd FillSafe FileSys Prelink FsFill SpecFs FsProofs FsFinal DirectSafe ApplySafe.

Lemma zlen_strncpy l m : 0 <= m -> zlen (strncpy l m) = m.
Proof. intros H. unfold strncpy. pose proof (zlen_slice_le l 0 m). rewrite zlen_app, zlen_zeros by lia. lia. Qed.

Lemma nth_skip {A} : forall j (l : list A) m, nth_error (skipn j l) m = nth_error l (j + m).
Proof. induction j as [|j IH]; intros [|x l] m; cbn [skipn plus]; auto; [destruct m; reflexivity|cbn [nth_error]; apply IH]. Qed.

Section Fs.
Variable fs : fsys.
Variable unprelinked : list Z -> res (list Z).
Variable files : list file_info.
Variable cpio : list cpio_file.
Hypothesis Hplain : forall f d, In f files -> fs_open fs (fi_name f) = Some d ->
  (if other_size fs f then is_prelinked d (slice d 0 128) else Ok false) = Ok false.

(** What is known of an entry, whatever is installed. *)
Record entry_any (j : Z) (c : cpio_file) : Prop := {
  ea_pos : 0 <= cf_off c /\ 0 < cf_hlen c /\ 0 <= cf_clen c /\ cf_off c + cf_hlen c + cf_clen c < 2 ^ 63;
  ea_kind : (cf_index c < 0 /\ cf_hlen c = zlen trailer /\ cf_clen c = 0)
    \/ (exists f c', 0 <= cf_index c /\ rd files (cf_index c) = Ok f /\ wf_file f /\ cf_hlen c = zlen (fs_head f) /\
         cf_clen c = u32 (entry_size f + padding (entry_size f) 4) /\
         rd cpio (j + 1) = Ok c' /\ cf_off c' = cf_off c + cf_hlen c + cf_clen c /\
         (has_data f -> exists ci, rd cpio (cf_index c) = Ok ci /\ 0 <= cf_index ci))
}.
Hypothesis Hcpio : forall j c, rd cpio j = Ok c -> entry_any j c.
Hypothesis Hfirst : exists c, rd cpio 0 = Ok c.

Record sound (s : fsrc) : Prop := {
  w_buf : zlen (fx_buf s) = max_header cpio;
  w_open : zlen (fx_open s) = zlen cpio;
  w_idx : -1 <= fx_idx s < zlen cpio;
  w_head : forall c, rd cpio (fx_idx s) = Ok c ->
    (exists head, zlen head = cf_hlen c /\ slice (fx_buf s) 0 (cf_hlen c) = map Some head) /\
    (forall f, rd files (cf_index c) = Ok f -> S_ISLNK (fi_mode f) = true -> fx_link s <> None);
  w_handles : forall i k, rd (fx_open s) i = Ok (Some k) -> (k < length (fx_nodes s))%nat;
  w_list : forall k, In k (fx_list s) -> (k < length (fx_nodes s))%nat;
  w_some : fx_nodes s <> [] -> fx_list s <> []
}.

Lemma ends_any j c : rd cpio j = Ok c -> head_end c = cf_off c + cf_hlen c /\ body_end c = cf_off c + cf_hlen c + cf_clen c.
Proof. intros H. destruct (ea_pos _ _ (Hcpio _ _ H)) as (A & B & C & D). unfold head_end, body_end. rewrite !u64_small; lia. Qed.

Lemma enter_any s i c : sound s -> rd cpio i = Ok c -> exists s', enter files cpio s i = Ok s' /\ sound s' /\ fx_idx s' = i.
Proof.
  intros [] Hc. unfold enter. rewrite Hc. cbn [bind]. destruct (rd_In _ _ _ Hc) as [Hin Hir]. pose proof (proj2 (max_header_ge cpio) c Hin) as Hm.
  assert (exists buf link head, fill_header files (fx_buf s) (fx_link s) (cf_index c) = Ok (buf, link) /\ zlen buf = zlen (fx_buf s) /\
    zlen head = cf_hlen c /\ slice buf 0 (cf_hlen c) = map Some head /\
    (forall f, rd files (cf_index c) = Ok f -> S_ISLNK (fi_mode f) = true -> link <> None)) as (buf & link & head & E & Lb & Hz & Sb & Hl).
  { destruct (ea_kind _ _ (Hcpio _ _ Hc)) as [(H1 & H2 & H3)|(f & c' & H1 & H2 & H3 & H4 & _)].
    - destruct (fill_trailer files (fx_buf s) (fx_link s) (cf_index c) H1) as (b' & E & Lb & Sb); [lia|].
      exists b', (fx_link s), trailer. rewrite H2. split; [exact E|]. split; [auto|]. split; [auto|]. split; [auto|].
      intros f Hf. apply rd_In in Hf. lia.
    - destruct (fill_entry files (fx_buf s) (fx_link s) (cf_index c) f H1 H2 H3) as (b' & E & Lb & Sb); [unfold fs_head in *; lia|].
      exists b'. eexists. exists (fs_head f). split; [exact E|]. split; [auto|]. split; [auto|]. rewrite H4. split; [exact Sb|].
      intros f0 Hf0 Hl. assert (f0 = f) by congruence. subst f0. rewrite Hl. discriminate. }
  rewrite E. cbn [bind]. eexists. split; [reflexivity|]. split; [|reflexivity].
  constructor; cbn [fx_buf fx_open fx_idx fx_link fx_nodes fx_list]; auto; try lia.
  intros c0 Hc0. assert (c0 = c) by congruence. subst c0. eauto.
Qed.

Lemma get_open_any s i k : sound s -> rd (fx_open s) i = Ok (Some k) ->
  exists s', get_open_file s i = Ok (s', Some k) /\ sound s' /\ fx_nodes s' = fx_nodes s /\ fx_open s' = fx_open s /\ fx_idx s' = fx_idx s.
Proof.
  intros G E. unfold get_open_file. rewrite E. cbn [bind]. eexists. split; [reflexivity|].
  split; [|auto]. destruct G. constructor; cbn [fx_buf fx_open fx_idx fx_link fx_nodes fx_list]; auto.
  - intros j Hj. apply in_app_or in Hj. destruct Hj as [Hj|[<-|[]]]; [apply filter_In in Hj; apply w_list0; apply Hj|eauto].
  - intros _ Hn. apply app_eq_nil in Hn. destruct Hn as [_ Hn]. discriminate.
Qed.

Lemma open_any s i c : sound s -> rd cpio i = Ok c -> 0 <= cf_index c ->
  match open_new_file fs files cpio s i with
  | Ok (Some s') => sound s' /\ (exists k, rd (fx_open s') i = Ok (Some k)) /\ fx_idx s' = fx_idx s
  | Err _ => True | _ => False
  end.
Proof.
  intros G Hc Hi. pose proof G as []. unfold open_new_file. rewrite Hc. cbn [bind].
  destruct (ea_kind _ _ (Hcpio _ _ Hc)) as [(H1 & _)|(f & c' & _ & Hf & _)]; [lia|]. rewrite Hf. cbn [bind].
  destruct (fs_open fs (fi_name f)) as [d|] eqn:Ed; [|exact I]. rewrite (Hplain f d) by (auto; apply (rd_In _ _ _ Hf)). cbn [bind].
  destruct (rd_In _ _ _ Hc) as [_ Hir]. unfold MAX_OPEN_FILES. destruct (zlen (fx_nodes s) <? 50) eqn:E50.
  - cbn [bind]. destruct (store_ok (fx_open s) i (Some (length (fx_nodes s)))) as (o & Eo & Lo & Ho); [lia|]. rewrite Eo. cbn [bind].
    cbn [fx_open fx_idx]. split; [|split; [exists (length (fx_nodes s)); rewrite Ho, Z.eqb_refl; reflexivity|reflexivity]].
    constructor; cbn [fx_buf fx_open fx_idx fx_link fx_nodes fx_list]; auto; try lia.
    + intros j k Hj. rewrite app_length. cbn [length]. rewrite Ho in Hj. destruct (j =? i); [assert (k = length (fx_nodes s)) by congruence; lia|].
      apply w_handles0 in Hj. lia.
    + intros k Hk. rewrite app_length. cbn [length]. apply in_app_or in Hk. destruct Hk as [Hk|[<-|[]]]; [apply w_list0 in Hk|]; lia.
    + intros _ Hn. apply app_eq_nil in Hn. destruct Hn as [_ Hn]. discriminate.
  - destruct (fx_list s) as [|k l] eqn:El.
    { exfalso. apply w_some0; [|reflexivity]. intros Hn. rewrite Hn in E50. discriminate. }
    assert (Hk : (k < length (fx_nodes s))%nat) by (apply w_list0; left; auto).
    destruct (store_ok (fx_nodes s) (Z.of_nat k) (mkof d 0 0)) as (nodes & En & Ln & Hn); [unfold zlen; lia|]. rewrite En. cbn [bind].
    destruct (store_ok (fx_open s) i (Some k)) as (o & Eo & Lo & Ho); [lia|]. rewrite Eo. cbn [bind].
    cbn [fx_open fx_idx]. split; [|split; [exists k; rewrite Ho, Z.eqb_refl; reflexivity|reflexivity]].
    assert (Ll : length nodes = length (fx_nodes s)) by (unfold zlen in Ln; lia).
    constructor; cbn [fx_buf fx_open fx_idx fx_link fx_nodes fx_list]; auto; try lia.
    + intros j k' Hj. rewrite Ho in Hj. destruct (j =? i); [assert (k' = k) by congruence; lia|]. apply w_handles0 in Hj. lia.
    + intros k' Hk'. apply in_app_or in Hk'. rewrite Ll. apply w_list0. destruct Hk' as [Hk'|[<-|[]]]; [right|left]; auto.
    + intros _ Hz. apply app_eq_nil in Hz. destruct Hz as [_ Hz]. discriminate.
Qed.

Lemma installed_any s i c file_off len : sound s -> rd cpio i = Ok c -> 0 <= cf_index c -> 0 <= len ->
  match read_installed fs files cpio s i file_off len with
  | Ok (Some (s', x)) => sound s' /\ fx_idx s' = fx_idx s /\ zlen x = len
  | Err _ => True | _ => False
  end.
Proof.
  intros G Hc Hi Hl.
  assert (Hmain : forall s1 k, sound s1 -> rd (fx_open s1) i = Ok (Some k) -> fx_idx s1 = fx_idx s ->
    match (file <- rd (fx_nodes s1) (Z.of_nat k) ;;
      let pos := if of_off file =? file_off then of_pos file else file_off in
      match pread (of_data file) len pos with
      | None => Err EFormat
      | Some x =>
          nodes <- store (fx_nodes s1) (Z.of_nat k) (mkof (of_data file) (pos + len) (file_off + len)) ;;
          Ok (Some (mkfx nodes (fx_list s1) (fx_open s1) (fx_idx s1) (fx_buf s1) (fx_link s1), x))
      end) with
    | Ok (Some (s', x)) => sound s' /\ fx_idx s' = fx_idx s /\ zlen x = len
    | Err _ => True | _ => False
    end).
  { intros s1 k G1 Ek Ex. pose proof G1 as []. pose proof (w_handles0 i k Ek) as Hk.
    destruct (rd_some (fx_nodes s1) (Z.of_nat k)) as [n En]; [unfold zlen; lia|]. rewrite En. cbn [bind]. cbv zeta.
    set (pos := if of_off n =? file_off then of_pos n else file_off). unfold pread.
    destruct ((pos <? 0) || (zlen (of_data n) <? pos + len)) eqn:Ep; [exact I|].
    destruct (store_ok (fx_nodes s1) (Z.of_nat k) (mkof (of_data n) (pos + len) (file_off + len))) as (nodes & E & Ln & Hn); [unfold zlen; lia|].
    rewrite E. cbn [bind]. assert (Ll : length nodes = length (fx_nodes s1)) by (unfold zlen in Ln; lia).
    split; [|split; [exact Ex|apply zlen_slice; lia]].
    constructor; cbn [fx_buf fx_open fx_idx fx_link fx_nodes fx_list]; auto; rewrite ?Ll; auto.
    intros Hne. apply w_some0. intros Hz. rewrite Hz in Ll. destruct nodes; [tauto|discriminate]. }
  unfold read_installed. destruct (rd_In _ _ _ Hc) as [_ Hir].
  destruct (rd_some (fx_open s) i) as [p Ep]; [rewrite (w_open _ G); lia|]. destruct p as [k|].
  - destruct (get_open_any s i k G Ep) as (s1 & E1 & G1 & N1 & O1 & X1). rewrite E1. cbn [bind]. apply Hmain; auto. congruence.
  - unfold get_open_file at 1. rewrite Ep. cbn [bind]. pose proof (open_any s i c G Hc Hi) as Ho.
    destruct (open_new_file fs files cpio s i) as [[s1|]|?|?|]; cbn [bind]; try contradiction; [|exact I].
    destruct Ho as (G1 & (k & O1) & X1).
    destruct (get_open_any s1 i k G1 O1) as (s2 & E2 & G2 & N2 & O2 & X2). rewrite E2. cbn [bind]. apply Hmain; auto; congruence.
Qed.

(** Contents of the right length, or an error. *)
Definition some_block (len : Z) (r : res (fsrc * filled)) : Prop :=
  match r with Ok (s, Contents x) => sound s /\ zlen x = len | Err _ => True | _ => False end.

Lemma some_after len m x (r : res (fsrc * filled)) : zlen x = m -> some_block (len - m) r ->
  some_block len ('(s, f) <- r ;; Ok (s, after x f)).
Proof.
  intros Hx H. destruct r as [[s [y|i]]|?|?|]; cbn [bind some_block after] in *; auto. rewrite zlen_app. destruct H. split; [auto|lia].
Qed.

Lemma exact_size f : wf_file f -> S_ISREG (fi_mode f) = true -> 0 < u32 (entry_size f + padding (entry_size f) 4) -> 0 < fi_size f.
Proof.
  intros Hw Hr H. destruct Hw. unfold entry_size in H. rewrite Hr in H. destruct (Z.eq_dec (fi_size f) 0) as [E|]; [|lia].
  rewrite E in H. vm_compute in H. discriminate.
Qed.

Lemma rounds_any : forall fuel s off len c, sound s -> 0 <= fx_idx s -> rd cpio (fx_idx s) = Ok c -> cf_off c <= off -> 0 <= len -> off + len < 2 ^ 63 + 2 ^ 20 ->
  len + zlen cpio - fx_idx s <= Z.of_nat fuel -> some_block len (fs_rounds fs files cpio fuel s off len).
Proof.
  induction fuel as [|fuel IH]; intros s off len c G Hi Hc Hoff Hlen Hsum Hfuel.
  { destruct (rd_In _ _ _ Hc) as [_ Hir]. lia. }
  destruct (rd_In _ _ _ Hc) as [Hin Hir]. destruct (Hcpio _ _ Hc) as [(Ho0 & Hh & Hcl & Hend) Hkind]. destruct (ends_any _ _ Hc) as [He1 He2].
  pose proof (proj2 (max_header_ge cpio) c Hin) as Hm.
  cbn [fs_rounds]. destruct (len =? 0) eqn:El0.
  { cbn [some_block]. split; [auto|]. change (zlen (@nil Z)) with 0. lia. }
  rewrite Hc. cbn [bind]. rewrite He1, He2.
  destruct (off <? cf_off c + cf_hlen c) eqn:E1.
  { (* header *)
    destruct (w_head _ G c Hc) as [(head & Hz & Hb) _]. rewrite (u64_small (off - cf_off c)) by lia. rewrite (u64_small (cf_hlen c - _)) by lia.
    set (m := Z.min len (cf_hlen c - (off - cf_off c))).
    rewrite (peek_ok (fx_buf s) head (cf_hlen c)) by (auto; rewrite ?(w_buf _ G); lia). cbn [bind].
    rewrite u64_small by lia. apply (some_after len m); [apply zlen_slice; lia|]. apply (IH s (off + m) (len - m) c); auto; lia. }
  destruct Hkind as [(H1 & H2 & H3)|(f & c' & H1 & H2 & H3 & H4 & H5 & H6 & H7 & H8)].
  { replace (cf_index c <? 0) with true by lia. cbn [some_block]. split; [auto|]. apply zlen_zeros. lia. }
  replace (cf_index c <? 0) with false by lia.
  destruct (off <? cf_off c + cf_hlen c + cf_clen c) eqn:E2.
  2:{ (* next entry *)
    destruct (enter_any s (fx_idx s + 1) c' G H6) as (s1 & Es & G1 & X1). rewrite Es. cbn [bind].
    apply (IH s1 off len c'); auto; try lia. rewrite X1. auto. }
  rewrite (u64_small (off - _)) by lia. set (a := off - (cf_off c + cf_hlen c)). rewrite H2. cbn [bind].
  assert (Hgo : forall s1 x m, sound s1 -> fx_idx s1 = fx_idx s -> 0 < m <= len -> zlen x = m ->
    some_block len ('(s2, r) <- fs_rounds fs files cpio fuel s1 (u64 (off + zlen x)) (len - zlen x) ;; Ok (s2, after x r))).
  { intros s1 x m G1 X1 Hm' Hz. rewrite Hz. rewrite u64_small by lia. apply (some_after len m); [auto|].
    apply (IH s1 (off + m) (len - m) c); auto; try lia. rewrite X1. auto. }
  destruct (S_ISLNK (fi_mode f)) eqn:Elnk.
  { pose proof (proj2 (w_head _ G c Hc) f H2 Elnk) as Hl. destruct (fx_link s) as [l|]; [|congruence]. cbn [bind].
    rewrite (u64_small (cf_clen c - a)) by lia.
    apply (Hgo s _ (Z.min len (cf_clen c - a))); auto; try lia.
    destruct (zlen l <? a); [apply zlen_zeros|apply zlen_strncpy]; lia. }
  assert (Ereg : S_ISREG (fi_mode f) = true).
  { destruct (S_ISREG (fi_mode f)) eqn:E; [auto|]. unfold entry_size in H5. rewrite E, Elnk in H5. change (u32 (0 + padding 0 4)) with 0 in H5. lia. }
  assert (Hsz : 0 < fi_size f) by (apply exact_size; auto; lia).
  assert (Hd : has_data f) by (split; [auto|lia]). destruct (H8 Hd) as (ci & Hci1 & Hci2).
  destruct (a <? fi_size f) eqn:E3.
  - pose proof (installed_any s (cf_index c) ci a (Z.min len (fi_size f - a)) G Hci1 Hci2 ltac:(lia)) as Hin2.
    destruct (read_installed fs files cpio s (cf_index c) a (Z.min len (fi_size f - a))) as [[[s1 x]|]|?|?|]; cbn [bind]; try contradiction; [|exact I].
    destruct Hin2 as (G1 & X1 & Hx). apply (Hgo s1 x (Z.min len (fi_size f - a))); auto; lia.
  - cbn [bind]. rewrite (u64_small (cf_clen c - a)) by lia. apply (Hgo s _ (Z.min len (cf_clen c - a))); auto; try lia.
    apply zlen_zeros. lia.
Qed.

Lemma back_any off : forall i, Z.of_nat i < zlen cpio -> exists j, back cpio i off = Ok j /\ Z.of_nat j < zlen cpio.
Proof.
  induction i as [|i IH]; intros Hi; cbn [back]; [eauto|].
  destruct (rd_some cpio (Z.of_nat (S i))) as [c Hc]; [lia|]. rewrite Hc. cbn [bind]. destruct (off <? cf_off c); [apply IH; lia|eauto].
Qed.

Lemma ahead_any off : forall l j i, (forall m c, nth_error l m = Some c -> rd cpio (j + Z.of_nat m) = Ok c) -> ahead l j off = Some i ->
  exists c, rd cpio i = Ok c /\ cf_off c <= off.
Proof.
  induction l as [|c l IH]; intros j i Hl H; cbn [ahead] in H; [discriminate|].
  destruct ((cf_off c <=? off) && (off <? body_end c)) eqn:E.
  - injection H as <-. exists c. split; [|lia]. rewrite <- (Hl O c eq_refl). f_equal. lia.
  - apply (IH (j + 1) i); auto. intros m c' Hm. rewrite <- (Hl (S m) c' Hm). f_equal. lia.
Qed.

(** The same, with a block of zeros instead of an error. *)
Definition fill_total (capacity : Z) (b : blocks fsrc) (k : nat) (id cc : Z) : res (blocks fsrc) :=
  match fill_filesystem fs unprelinked files cpio capacity b k id cc with
  | Err _ => put_slot fsrc (set_src fsrc b (bk_rid b) (bk_src b)) k (mksl BNopage (Some id) (Some (zeros BLOCK_SIZE)))
  | r => r
  end.

Lemma fill_total_refines capacity b k id cc : refines (fill_filesystem fs unprelinked files cpio capacity b k id cc) (fill_total capacity b k id cc).
Proof. unfold fill_total. destruct (fill_filesystem fs unprelinked files cpio capacity b k id cc) as [p|e|u|]; try apply refines_refl. right. eauto. Qed.

Lemma fill_total_any capacity n max b k id cc : 0 <= n < 2 ^ 32 ->
  finv fsrc n max sound b (fun j => j = k) (fun y => y = id) -> In k (bk_core b) -> (k < length (bk_slots b))%nat ->
  rd (bk_table b) id = Ok (Some (PCore k)) -> 0 <= id < n ->
  exists b', fill_total capacity b k id cc = Ok b' /\ finv fsrc n max sound b' (fun _ => False) (fun _ => False) /\ In k (bk_core b') /\ sholds fsrc n b' k id.
Proof.
  intros Hn I Hk Hlt Ht Hid. pose proof (f_src _ _ _ _ _ _ _ I) as G.
  assert (Hfill : exists e s' d, sound s' /\ zlen d = BLOCK_SIZE /\
     (fill_filesystem fs unprelinked files cpio capacity b k id cc = Err e \/
      fill_filesystem fs unprelinked files cpio capacity b k id cc = put_slot fsrc (set_src fsrc b (bk_rid b) s') k (mksl BNopage (Some id) (Some d)))).
  { assert (Herr : forall e x, x = Err e -> exists e s' d, sound s' /\ zlen d = BLOCK_SIZE /\ (x = Err e \/ x = put_slot fsrc (set_src fsrc b (bk_rid b) s') k (mksl BNopage (Some id) (Some d)))).
    { intros e x ->. exists e, (bk_src b), (zeros BLOCK_SIZE). split; [auto|]. split; [apply zlen_zeros; unfold BLOCK_SIZE; lia|auto]. }
    unfold fill_filesystem. cbv zeta. unfold BLOCK_SIZE in *. rewrite (u64_small (id * 8192)) by lia.
    set (i0 := if 0 <=? fx_idx (bk_src b) then _ else _).
    assert (Hi0 : Z.of_nat i0 < zlen cpio).
    { destruct Hfirst as [c Hc]. apply rd_In in Hc. pose proof (w_idx _ G). unfold i0. destruct (0 <=? fx_idx (bk_src b)); lia. }
    destruct (back_any (id * 8192) i0 Hi0) as (j & Ej & Hj). rewrite Ej. cbn [bind].
    destruct (ahead (from cpio (Z.of_nat j)) (Z.of_nat j) (id * 8192)) as [i|] eqn:Ea; [|eapply Herr; reflexivity].
    assert (Hnth : forall m c, nth_error (from cpio (Z.of_nat j)) m = Some c -> rd cpio (Z.of_nat j + Z.of_nat m) = Ok c).
    { intros m c Hm. unfold from in Hm. rewrite Nat2Z.id, nth_skip in Hm. unfold rd.
      replace (Z.of_nat j + Z.of_nat m <? 0) with false by lia. replace (Z.to_nat (Z.of_nat j + Z.of_nat m)) with (j + m)%nat by lia. rewrite Hm. reflexivity. }
    destruct (ahead_any (id * 8192) _ _ _ Hnth Ea) as (c & Hc & Hle).
    assert (exists s1, (if i =? fx_idx (bk_src b) then Ok (bk_src b) else enter files cpio (bk_src b) i) = Ok s1 /\ sound s1 /\ fx_idx s1 = i) as (s1 & E1 & G1 & X1).
    { destruct (i =? fx_idx (bk_src b)) eqn:Ei; [exists (bk_src b); split; [auto|split; [auto|lia]]|]. eapply enter_any; eauto. }
    rewrite E1. cbn [bind]. destruct (rd_In _ _ _ Hc) as [_ Hir].
    pose proof (rounds_any (fs_fuel cpio) s1 (id * 8192) 8192 c G1) as Hr. rewrite X1 in Hr.
    specialize (Hr ltac:(lia) Hc Hle ltac:(lia) ltac:(lia) ltac:(unfold fs_fuel, BLOCK_SIZE, zlen in *; lia)).
    destruct (fs_rounds fs files cpio (fs_fuel cpio) s1 (id * 8192) 8192) as [[s2 [x|q]]|e|?|]; cbn [bind some_block] in *; try contradiction; [|eapply Herr; reflexivity].
    destruct Hr as [G2 Hx]. rewrite (u32_small id) by lia. exists EProg, s2, x. auto. }
  destruct Hfill as (e & s' & d & Hs & Hd & [E|E]); unfold fill_total; rewrite E.
  - apply (plain_fill fsrc 1 (fun b _ _ _ => Ok b) n Hn max sound b k id (bk_src b)); auto.
  - destruct (plain_fill fsrc 1 (fun b _ _ _ => Ok b) n Hn max sound b k id s' d I Hk Hlt Ht Hid Hs Hd) as (b' & E' & H'). rewrite E'. eauto.
Qed.

Lemma source_sound : sound (fs_source cpio).
Proof.
  constructor; cbn [fs_source fx_buf fx_open fx_idx fx_link fx_nodes fx_list].
  - destruct (max_header_ge cpio) as [? _]. unfold zlen. rewrite repeat_length. lia.
  - unfold zlen. rewrite repeat_length. reflexivity.
  - pose proof (zlen_nonneg cpio). lia.
  - intros c Hc. apply rd_In in Hc. lia.
  - intros i k Hk. apply rd_In in Hk. destruct Hk as [Hk _]. apply repeat_spec in Hk. discriminate.
  - intros k [].
  - auto.
Qed.

Lemma fs_reads_any capacity len copies clean : 1 <= capacity -> 0 < len < 2 ^ 63 -> block_count len < 2 ^ 32 - 1 -> Forall (in_data len) (extents 0 copies) ->
  exists b b' l, blocks_create fsrc len copies (fs_source cpio) clean = Ok b /\ read_copies fsrc capacity (fill_total capacity) b copies 0 0 = Ok (b', l).
Proof.
  intros Hcap Hlen Hbc Hin. pose proof (count_pos len ltac:(lia)).
  apply (direct_any fsrc capacity (fill_total capacity) sound (fs_source cpio)); auto; [exact source_sound|].
  intros max _ b k id cc. intros. eapply fill_total_any; eauto. lia.
Qed.
End Fs.

(** The index made for a list of files. *)
Section Index.
Variable files : list file_info.
Hypothesis Hfiles : Forall wf_file files.

Lemma loop_any check sha : forall pos off md5 l off' md5', expand_loop check sha files pos off md5 = Ok (l, off', md5') ->
  0 <= off -> off + zlen pos * (2 ^ 32 + 2 ^ 20) + 124 < 2 ^ 63 ->
  zlen l = zlen pos /\ off <= off' <= off + zlen pos * (2 ^ 32 + 2 ^ 20) /\
  forall t, cf_off t = off' -> (exists c, rd (l ++ [t]) 0 = Ok c /\ cf_off c = off) /\
  forall j c, 0 <= j < zlen l -> rd (l ++ [t]) j = Ok c ->
    off <= cf_off c /\ 0 < cf_hlen c /\ 0 <= cf_clen c /\ cf_off c + cf_hlen c + cf_clen c <= off' /\ In (cf_index c) pos /\
    exists f c', rd files (cf_index c) = Ok f /\ cf_hlen c = zlen (fs_head f) /\ cf_clen c = u32 (entry_size f + padding (entry_size f) 4) /\
      rd (l ++ [t]) (j + 1) = Ok c' /\ cf_off c' = cf_off c + cf_hlen c + cf_clen c.
Proof.
  induction pos as [|i pos IH]; intros off md5 l off' md5' H Ho Hb; cbn [expand_loop] in H.
  - injection H as <- <- <-. change (zlen (@nil Z)) with 0 in *. change (zlen (@nil cpio_file)) with 0.
    split; [reflexivity|]. split; [lia|]. intros t Ht. split; [exists t; split; [reflexivity|auto]|]. intros j c Hj. lia.
  - destruct (rd files i) as [f|?|?|] eqn:Er; cbn [bind] in H; try discriminate.
    destruct (expand_file check sha f) as [m|?|?|] eqn:Em; cbn [bind] in H; try discriminate.
    assert (Hw : wf_file f) by (rewrite Forall_forall in Hfiles; apply Hfiles; apply (rd_In _ _ _ Er)).
    set (e := expand_entry i off f) in *.
    assert (He : cf_hlen e = zlen (fs_head f)) by (unfold e, expand_entry, fs_head; rewrite head_len by auto; reflexivity).
    pose proof (head_pos f Hw) as Hh. pose proof (u32_range (entry_size f + padding (entry_size f) 4)) as Hu.
    assert (Hcl : cf_clen e = u32 (entry_size f + padding (entry_size f) 4)) by reflexivity.
    assert (Hoe : cf_off e = off) by reflexivity. assert (Hie : cf_index e = i) by reflexivity. clearbody e.
    rewrite zlen_cons in *. pose proof (zlen_nonneg pos). rewrite u64_small in H by lia.
    destruct (expand_loop check sha files pos _ _) as [[[l1 o1] m1]|?|?|] eqn:El; cbn [bind] in H; try discriminate.
    apply ok_inj in H. assert (Hl : e :: l1 = l) by congruence. assert (Ho1 : o1 = off') by congruence. clear H. subst l o1.
    destruct (IH _ _ _ _ _ El) as (A & B & C); [lia|lia|]. rewrite !zlen_cons.
    split; [lia|]. split; [lia|]. intros t Ht. destruct (C t Ht) as [(c1 & C1 & C2) D]. cbn [app].
    split; [exists e; split; [reflexivity|auto]|]. intros j c Hj Hc. destruct (Z.eq_dec j 0) as [->|Hj0].
    + change (Ok e = Ok c) in Hc. apply ok_inj in Hc. subst c. split; [lia|]. split; [lia|]. split; [lia|]. split; [lia|]. split; [left; auto|].
      exists f, c1. rewrite Hie. split; [auto|]. split; [auto|]. split; [auto|]. rewrite FsFinal.rd_next by lia. split; [auto|lia].
    + replace j with (j - 1 + 1) in Hc by lia. rewrite FsFinal.rd_next in Hc by lia.
      destruct (D (j - 1) c ltac:(lia) Hc) as (D1 & D2 & D3 & D4 & D5 & f' & c' & D6 & D7 & D8 & D9 & D10).
      split; [lia|]. split; [lia|]. split; [lia|]. split; [lia|]. split; [right; auto|]. exists f', c'.
      split; [auto|]. split; [auto|]. split; [auto|]. rewrite FsFinal.rd_next by lia. split; [|auto].
      replace j with (j - 1 + 1) by lia. exact D9.
Qed.

Lemma index_any L check sequence sha idx positions :
  expand_sequence L check (Some sequence) files sha = Ok idx -> seq_positions sequence (zlen files) = Ok positions ->
  zlen positions < 2 ^ 30 -> (forall i f, In i positions -> rd files i = Ok f -> has_data f -> i < zlen positions) ->
  (forall j c, rd idx j = Ok c -> entry_any files idx j c) /\ exists c, rd idx 0 = Ok c.
Proof.
  intros He Hp Hz Hd. unfold expand_sequence in He. destruct (zlen sequence <? 16); [discriminate|]. rewrite Hp in He. cbn [bind] in He.
  destruct (expand_loop check sha files positions 0 []) as [[[l off] md5]|?|?|] eqn:El; cbn [bind] in He; try discriminate.
  destruct (negb _); [discriminate|]. apply ok_inj in He. cbv zeta in He. set (t := mkcf (-1) _ 0 off) in *.
  pose proof (zlen_nonneg positions).
  destruct (loop_any check sha positions 0 [] l off md5 El) as (A & B & C); [lia|lia|].
  destruct (C t eq_refl) as [(c0 & C1 & C2) D]. subst idx. split; [|eauto].
  assert (Ht : cf_hlen t = 124 /\ cf_clen t = 0 /\ cf_index t = -1 /\ cf_off t = off) by (repeat split; reflexivity).
  intros j c Hc. destruct (rd_In _ _ _ Hc) as [_ Hj]. rewrite zlen_app in Hj. change (zlen [t]) with 1 in Hj.
  destruct (Z.eq_dec j (zlen l)) as [->|Hn].
  - rewrite rd_app in Hc. rewrite Z.eqb_refl in Hc. apply ok_inj in Hc. subst c. destruct Ht as (T1 & T2 & T3 & T4).
    constructor; [lia|]. left. change (zlen trailer) with 124. lia.
  - destruct (D j c ltac:(lia) Hc) as (D1 & D2 & D3 & D4 & D5 & f & c' & D6 & D7 & D8 & D9 & D10). constructor; [lia|]. right.
    destruct (rd_In _ _ _ D6) as [Hin Hir]. exists f, c'. split; [lia|]. split; [auto|]. split; [rewrite Forall_forall in Hfiles; auto|].
    split; [auto|]. split; [auto|]. split; [auto|]. split; [auto|]. intros Hdf. pose proof (Hd _ _ D5 D6 Hdf) as Hlt.
    destruct (rd_some (l ++ [t]) (cf_index c)) as [ci Hci]; [rewrite zlen_app; change (zlen [t]) with 1; lia|].
    exists ci. split; [auto|]. destruct (D (cf_index c) ci ltac:(lia) Hci) as (_ & _ & _ & _ & _ & f2 & _ & E6 & _). apply rd_In in E6. lia.
Qed.
End Index.
