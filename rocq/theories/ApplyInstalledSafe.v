(** * ApplyInstalledSafe: applying an accepted delta to an installed package is defined *)
From Verif Require Import Base BaseLemmas Utils UtilsProofs DeltaComp SpecCodec Stream SpecStream StreamProofs SpecDelta Rpm FormatFinal Seq SeqProofs Delta DeltaRead Expand SeqFinal
     SpecFormat FormatSafe SpecBlocks SpecApply FileSys Prelink SpecPrelink PrelinkProofs Check SpecCheck CheckProofs Blocks BlocksProofs Archive SpecArchive ArchiveProofs
     Fill FillSafe FsFill SpecFs SpecApplySafe DirectSafe FsSafe Apply ApplyProofs ApplyRun ArchiveSeq ApplySafe.

Section Installed.
Variable L : libs.
Variable clean : Z.
Variable installed : list Z -> res rpm.
Variable fs : fsys.
Variable unprelinked : list Z -> res (list Z).

Lemma installed_diff_def files idx d :
  (forall f x, In f files -> fs_open fs (fi_name f) = Some x -> (if other_size fs f then is_prelinked x (slice x 0 128) else Ok false) = Ok false) ->
  (forall j c, rd idx j = Ok c -> entry_any files idx j c) -> (exists c, rd idx 0 = Ok c) ->
  consistent d -> d_intn d < 2 ^ 31 -> d_extn d < 2 ^ 31 -> d_hlen d <= output_length d ->
  wdef (fun _ => True) (apply_diff L clean fsrc (fill_filesystem fs unprelinked files idx MAX_CORE_BLOCKS) (fs_source idx) d).
Proof.
  intros Hpl Hent Hfirst Hc Hi He Hh. unfold apply_diff.
  destruct (UINT32_MAX <=? BLOCKS (d_extlen d)) eqn:Eb; [unfold blocks_create; rewrite Eb; exact I|].
  destruct (BLOCKS_small (d_extlen d) (co_extlen _ Hc)) as [Hx Hbc]; [unfold UINT32_MAX in Eb; lia|].
  pose proof (co_ext _ Hc ltac:(lia)) as Hin.
  destruct (fs_reads_any fs unprelinked files idx Hpl Hent Hfirst MAX_CORE_BLOCKS (d_extlen d) (d_ext d) clean) as (b & b' & l & E1 & E2); auto;
    [unfold MAX_CORE_BLOCKS; lia|].
  rewrite E1, calc_bind. destruct (co_extn _ Hc) as [Hn1 Hn2]. rewrite Z.mod_small in Hn2 by lia. rewrite rd_range_in by lia. rewrite calc_bind.
  eapply (wdef_bind addok).
  { apply wdef_calc. unfold open_add. destruct (0 <? zlen (d_add d)); [|exact I]. pose proof (init_def false (d_add d)) as H.
    destruct (decompstrm_init false (d_add d)) as [s|?|?|]; cbn [bind addok]; auto. lia. }
  intros add Hadd. eapply (wdef_bind (fun _ => True)); [exact I|]. intros _ _.
  eapply (wdef_bind (fun _ => True)).
  { unfold target_header. destruct (d_type d =? TYPE_RPMONLY); [exact I|]. destruct (d_head d); [|exact I].
    unfold rpm_patch_payload_format. destruct (lb_setfmt L _ _); exact I. }
  intros header _. eapply wdef_bind; [|intros data _; exact I].
  eapply wrefines_wdef; [apply (rebuild_refines _ fsrc _ (fill_total fs unprelinked files idx MAX_CORE_BLOCKS))|].
  { intros b0 k id cc. apply fill_total_refines. }
  eapply rebuild_def; eauto; try lia.
  + eapply Forall_impl; [|exact Hin]. unfold sane_ext. cbn. intros a Ha. lia.
  + apply (extents_snd (fun x => 0 <= x < 2 ^ 32) _ 0). eapply Forall_impl; [|exact Hin]. cbn. intros a Ha. lia.
  + apply (co_intn _ Hc).
Qed.

Lemma apply_installed_defined delta d : read_deltarpm L delta = Ok d ->
  d_intn d < 2 ^ 31 -> d_extn d < 2 ^ 31 -> d_hlen d <= output_length d -> bytes (d_leadsig d) -> signature_inside (d_leadsig d) ->
  plain_files fs -> defined (installed (d_src_nevr d)) ->
  (forall r files colors, installed (d_src_nevr d) = Ok r -> rpm_get_file_info L false r = Ok (files, colors) ->
     sound_table files /\ lists_placed files (d_seq d)) ->
  defined (snd (drpm_apply L installed fs unprelinked clean None delta)).
Proof.
  intros Hd Hi He Hh Hb Hsg Hpl Hins Hold. pose proof (FormatSafe.accepted_consistent _ _ _ Hd) as Hc. unfold drpm_apply. rewrite Hd, calc_bind.
  enough (G : wdef (fun _ => True) ('(patched, files, idx) <~ calc (apply_prepare L installed None d) ;;
    md5 <~ (if is_nodiff d then let '(out, md5) := rpm_write L patched true (negb (no_full_md5 d)) in (out, Ok md5)
          else apply_from L fs unprelinked clean None d patched files idx) ;;
    calc (final_check L d patched md5))%wres).
  { revert G. unfold wdef, defined. destruct (snd _); auto. }
  eapply (wdef_bind (fun '(p, files, idx) => (forall j c, rd idx j = Ok c -> entry_any files idx j c) /\ exists c, rd idx 0 = Ok c)).
  { apply wdef_calc. unfold apply_prepare, read_old. destruct (d_type d =? TYPE_RPMONLY) eqn:Et; [exact I|].
    destruct (d_head d) as [t|?]; [|exact I]. destruct (rpm_is_sourcerpm L t); [exact I|].
    destruct (installed (d_src_nevr d)) as [r|?|?|] eqn:Er; cbn [bind defined] in *; auto.
    destruct (negb (list_eqb _ _)); [exact I|].
    assert (Hx : match expand_old L d r with
      | Ok (files, idx) => (forall j c, rd idx j = Ok c -> entry_any files idx j c) /\ exists c, rd idx 0 = Ok c
      | Err _ => True | _ => False end).
    { unfold expand_old. rewrite Et.
      pose proof (file_info_def L false r) as H. destruct (rpm_get_file_info L false r) as [[files colors]|?|?|] eqn:Ef; cbn [bind]; auto.
      destruct (Hold _ _ _ eq_refl Ef) as [[W M C] (l & digest & code & Hl & Hz & Hdg & Hen & Hs & Hp)].
      assert (Hal : defined (rpm_get_digest_algo L r)).
      { unfold rpm_get_digest_algo. destruct (lb_algo L _) as [a|]; [|exact I]. destruct (a =? 1); [exact I|]. destruct (a =? 8); exact I. }
      destruct (rpm_get_digest_algo L r) as [sha|?|?|]; cbn [bind]; auto.
      pose proof (generated_safe L None ltac:(discriminate) l digest code files sha Hl Hz ltac:(lia) M Hdg Hen) as Hg. rewrite <- Hs in Hg.
      destruct (expand_sequence L None (Some (d_seq d)) files sha) as [idx|?|?|] eqn:Ee; cbn [bind]; auto.
      pose proof (zlen_nonneg files). destruct (roundtrip_seq (zlen files) l ltac:(lia) Hl Hz) as (c & Ec & _ & Hq).
      assert (c = code) by congruence. subst c.
      apply (index_any files W L None (d_seq d) sha idx l Ee); [rewrite Hs; apply Hq; auto|lia|auto]. }
    destruct (expand_old L d r) as [[files idx]|?|?|]; cbn [bind]; auto.
    pose proof (replace_def L r _ Hb Hsg) as Hrep. destruct (rpm_replace_lead_and_signature L r (d_leadsig d)) as [p|?|?|]; cbn [bind]; auto. }
  intros [[p files] idx] (Hent & Hfirst). eapply (wdef_bind (fun _ => True)).
  - destruct (is_nodiff d); [destruct (rpm_write _ _ _ _); exact I|]. unfold apply_from. apply installed_diff_def; auto.
    intros f x _ Hx. destruct (Hpl _ _ Hx) as [Hb1 Hp1]. destruct (other_size fs f); [|reflexivity]. apply plain_prelinked; auto; lia.
  - intros md5 _. unfold final_check. destruct (no_full_md5 d).
    + unfold rpm_signature_get_md5. destruct (lb_sig_md5 L _) as [m|]; [|exact I]. destruct (zlen m =? 16); [|exact I]. cbn [bind]. destruct (negb _); exact I.
    + destruct (negb _); exact I.
Qed.
End Installed.
