(** * ApplyFaults: applying an accepted delta with an arbitrary sequence *)
From Verif Require Import Base BaseLemmas Utils UtilsProofs DeltaComp SpecCodec Stream SpecStream StreamProofs SpecDelta Rpm FormatFinal Seq Delta DeltaRead Expand SeqFinal
     SpecFormat FormatSafe SpecBlocks SpecApply FileSys Blocks BlocksProofs Archive SpecArchive ArchiveProofs ArchiveSafe Fill FillSafe FsFill Apply ApplyProofs ApplyRun ArchiveSeq SpecFaults ApplySafe CheckSafe.

(** As [wdef], with the faults of sequences. *)
Definition wfault {A} (Q : A -> Prop) (x : wres A) : Prop :=
  match snd x with Ok a => Q a | Err _ => True | Ub u => In u sequence_faults | NoFuel => False end.
Lemma wfault_bind {A B} (Q : A -> Prop) (Q' : B -> Prop) x k : wfault Q x -> (forall a, Q a -> wdef Q' (k a)) -> wfault Q' (wbind x k).
Proof.
  destruct x as [o [a|?|?|]]; unfold wfault, wdef, wbind; cbn [snd]; auto. intros Ha H. specialize (H a Ha). destruct (k a) as [o' [?|?|?|]]; cbn [snd] in *; auto. contradiction.
Qed.
Lemma wfault_calc {A} (Q : A -> Prop) (r : res A) :
  match r with Ok a => Q a | Err _ => True | Ub u => In u sequence_faults | NoFuel => False end -> wfault Q (calc r).
Proof. destruct r; exact (fun H => H). Qed.

Section Faults.
Variable L : libs.
Variable clean : Z.
Variable installed : list Z -> res rpm.
Variable fs : fsys.
Variable unprelinked : list Z -> res (list Z).

Lemma apply_faults old delta d : read_deltarpm L delta = Ok d -> bytes (d_seq d) ->
  d_intn d < 2 ^ 31 -> d_extn d < 2 ^ 31 -> d_hlen d <= output_length d -> bytes (d_leadsig d) -> signature_inside (d_leadsig d) ->
  (forall r comp m1 m2, rpm_read L old ReadDecomp false = Ok (r, comp, m1, m2) -> zlen (rp_archive r) < 2 ^ 62 /\
     (d_type d <> TYPE_RPMONLY -> forall files colors, rpm_get_file_info L false r = Ok (files, colors) ->
        SpecApply.sound_files (rp_archive r) files)) ->
  only_faults sequence_faults (snd (drpm_apply L installed fs unprelinked clean (Some old) delta)).
Proof.
  intros Hd Hq Hi He Hh Hb Hsg Hold. pose proof (FormatSafe.accepted_consistent _ _ _ Hd) as Hc. unfold drpm_apply. rewrite Hd, calc_bind.
  enough (G : wfault (fun _ => True) ('(patched, files, idx) <~ calc (apply_prepare L installed (Some old) d) ;;
    md5 <~ (if is_nodiff d then let '(out, md5) := rpm_write L patched true (negb (no_full_md5 d)) in (out, Ok md5)
          else apply_from L fs unprelinked clean (Some old) d patched files idx) ;;
    calc (final_check L d patched md5))%wres).
  { revert G. unfold wfault, only_faults. destruct (snd _); auto. }
  eapply (wfault_bind (fun '(p, files, idx) => zlen (rp_archive p) < 2 ^ 62 /\ rp_off p = 0 /\
     (d_type d <> TYPE_RPMONLY -> Forall wf_file files /\ (forall o size, ~ header_at (rp_archive p) o 0 size) /\
        exists sha, expand_sequence L None (Some (d_seq d)) files sha = Ok idx))).
  { apply wfault_calc. unfold apply_prepare, read_old. pose proof (rpm_read_def L old) as Hr.
    destruct (rpm_read L old ReadDecomp false) as [[[[r comp] m1] m2]|?|?|] eqn:Er; cbn [bind]; try exact I; try contradiction.
    destruct (Hold _ _ _ _ eq_refl) as [Ha Hf]. clear Hold.
    assert (Hold : match (if d_type d =? TYPE_RPMONLY then
         m <- rpm_signature_get_md5 L r ;;
         match m with
         | None => Err EFormat
         | Some m =>
             seq <- rd_range (d_seq d) 0 16 ;;
             if negb (list_eqb seq m) then Err EMismatch else Ok r
         end
       else Ok r) with Ok r' => r' = r | Err _ => True | _ => False end).
    { destruct (d_type d =? TYPE_RPMONLY); [|reflexivity]. unfold rpm_signature_get_md5. destruct (lb_sig_md5 L (rp_sig r)) as [m|]; [|exact I].
      destruct (zlen m =? 16); [|exact I]. cbn [bind]. pose proof (co_seq _ Hc). rewrite rd_range_in by lia. cbn [bind].
      destruct (negb _); [exact I|reflexivity]. }
    match goal with |- context [bind ?x _] => destruct x as [r'|?|?|]; cbn [bind]; try exact I; try contradiction end. subst r'.
    destruct (negb (list_eqb _ _)); [exact I|].
    assert (Hx : match expand_old L d r with
      | Ok (files, idx) => d_type d <> TYPE_RPMONLY -> Forall wf_file files /\ (forall o size, ~ header_at (rp_archive r) o 0 size) /\
          exists sha, expand_sequence L None (Some (d_seq d)) files sha = Ok idx
      | Err _ => True | Ub u => In u sequence_faults | NoFuel => False end).
    { unfold expand_old. destruct (d_type d =? TYPE_RPMONLY) eqn:Et; [intros H; lia|].
      pose proof (file_info_def L false r) as H. destruct (rpm_get_file_info L false r) as [[files colors]|?|?|] eqn:Ef; cbn [bind]; try exact I; try contradiction.
      destruct (Hf ltac:(lia) _ _ eq_refl) as [W M C N].
      assert (Hal : defined (rpm_get_digest_algo L r)).
      { unfold rpm_get_digest_algo. destruct (lb_algo L _) as [a|]; [|exact I]. destruct (a =? 1); [exact I|]. destruct (a =? 8); exact I. }
      destruct (rpm_get_digest_algo L r) as [sha|?|?|]; cbn [bind]; try exact I; try contradiction.
      pose proof (expand_faults L None sha files (d_seq d) ltac:(discriminate) M ltac:(lia) Hq) as Hg.
      destruct (expand_sequence L None (Some (d_seq d)) files sha) as [idx|?|?|] eqn:Ee; cbn [bind]; auto. eauto. }
    destruct (expand_old L d r) as [[files idx]|?|?|]; cbn [bind]; auto.
    pose proof (replace_def L r _ Hb Hsg) as Hrep. destruct (rpm_replace_lead_and_signature L r (d_leadsig d)) as [p|?|?|]; cbn [bind]; try exact I; try contradiction.
    destruct Hrep as [Hra Hro]. rewrite Hra, Hro. auto. }
  intros [[p files] idx] (Ha & Ho & Hstd). eapply (wdef_bind (fun _ => True)).
  - destruct (is_nodiff d); [destruct (rpm_write _ _ _ _); exact I|]. unfold apply_from. destruct (d_type d =? TYPE_RPMONLY) eqn:Et.
    + apply (apply_diff_def L clean rsrc next_rpmonly (only_ok p)); auto; [apply next_only_safe; auto|].
      unfold only_ok, rpmonly_source. cbn [rs_rpm rs_hoff rs_header rs_left]. pose proof (zlen_nonneg (rp_archive p)). pose proof (co_extlen _ Hc).
      split; [exists 0; split; [unfold set_off; destruct p; cbn in *; subst; reflexivity|lia]|]. split; [pose proof (zlen_nonneg (rpm_export_header p)); lia|lia].
    + destruct (Hstd ltac:(lia)) as (W & N & sha & Ee). pose proof (accepted_index _ _ _ _ _ _ W Ee) as Hix.
      apply (apply_diff_def L clean ssrc (next_standard files idx) (sane files idx p)); auto; [|apply source_sane; auto].
      intros s Hs. pose proof (next_safe files idx p Ha W Hix s Hs) as H. destruct (next_standard files idx s) as [[s' x]|?|?|]; cbn [usafe] in H; auto.
      destruct H as [_ (o & size & H)]. exact (N o size H).
  - intros md5 _. unfold final_check. destruct (no_full_md5 d).
    + unfold rpm_signature_get_md5. destruct (lb_sig_md5 L _) as [m|]; [|exact I]. destruct (zlen m =? 16); [|exact I]. cbn [bind]. destruct (negb _); exact I.
    + destruct (negb _); exact I.
Qed.
End Faults.
