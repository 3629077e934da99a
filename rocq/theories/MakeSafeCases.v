(** * MakeSafeCases: concrete packages for C44 *)
From Verif Require Import Base FileSys BaseLemmas Utils SpecCodec Stream ToyCodec DeltaComp Rpm Delta DeltaWrite CpioHeader Archive SpecArchive SpecApply Apply ToyLibs FormatCases ArchiveCases ApplyCases ApplySafeCases
  Make SpecMake SpecMakeSafe MakeCases.

(** A file with a digest of 70 digits. *)
Definition long_files : list file_info := map (fun f => mkfi (fi_name f) (fi_flags f) (repeat 49 70) (fi_rdev f) (fi_size f) (fi_mode f) (fi_verify f) (fi_linkto f) (fi_color f)) ex_files.

(** [mlibs] with limits on the sizes of headers. *)
Definition slibs : libs := mklibs (lb_codec mlibs) (lb_md5 mlibs) (lb_sha256 mlibs)
  (fun l => match lb_read mlibs l with Some (h, n) => if (8 <=? zlen h) && (zlen h <? 2 ^ 31) then Some (h, n) else None | None => None end)
  (lb_import mlibs) (lb_string mlibs) (lb_nevr mlibs) (lb_algo mlibs) (lb_sig_md5 mlibs) (lb_mksig mlibs)
  (fun h f => match lb_setfmt mlibs h f with Some h' => if (8 <=? zlen h') && (zlen h' <? 2 ^ 31) then Some h' else None | None => None end)
  (fun h => if list_eqb (slice h 29 1) [4] then ex_tags long_files else lb_files mlibs h).

Lemma slibs_sane : librpm_sane slibs.
Proof.
  constructor.
  - intros input h n. cbn [slibs lb_read]. destruct (lb_read mlibs input) as [[h' n']|]; [|discriminate]. destruct (_ && _) eqn:E; [|discriminate].
    intros H. injection H as <- <-. lia.
  - intros h f h'. cbn [slibs lb_setfmt]. destruct (lb_setfmt mlibs h f) as [h''|]; [|discriminate]. destruct (_ && _) eqn:E; [|discriminate].
    intros H. injection H as <-. lia.
Qed.

Definition s_make (o : make_options) (old new : package) := drpm_make slibs (Some o) (Some (package_file old)) (Some (package_file new)) true.

Lemma read_m_old whole : match rpm_read slibs (package_file m_old) ReadDecomp whole with
  | Ok (r, _, _, _) => rp_archive r = ex_archive /\ rpm_get_file_info slibs true r = Ok (ex_files, false) | _ => False end.
Proof. destruct whole; vm_compute; split; reflexivity. Qed.
Lemma read_m_new whole : match rpm_read slibs (package_file m_new) ReadDecomp whole with Ok (r, _, _, _) => rp_archive r = m_new_archive | _ => False end.
Proof. destruct whole; vm_compute; reflexivity. Qed.

Lemma m_old_sound : of_package slibs (package_file m_old) sound_source.
Proof.
  intros r comp seq full whole H. pose proof (read_m_old whole) as E. rewrite H in E. destruct E as [-> Ef]. pose proof ex_sound as S.
  assert (Hz : zlen ex_archive < 2 ^ 32) by (vm_compute; reflexivity). split.
  - split; [exact Hz|]. destruct S as [_ _ _ S]. split; [constructor|constructor|reflexivity|exact S].
  - intros files colors Hf. rewrite Ef in Hf. injection Hf as <- <-. split; [exact Hz|exact S].
Qed.
Lemma m_new_sound : of_package slibs (package_file m_new) sound_target.
Proof.
  intros r comp seq full whole H. pose proof (read_m_new whole) as E. rewrite H in E. subst.
  assert (S : forall files, sound_target (rp_archive r) files).
  { intros files. rewrite E. split; [vm_compute; reflexivity|right; vm_compute; discriminate]. }
  split; [apply S|]. intros files colors _. apply S.
Qed.

Definition short_new : package := Eval vm_compute in m_package 0 (m_header 1 2 [1; 2; 4; 5]) (repeat 7 15).
Definition nameless_old : package := Eval vm_compute in m_package 0 (m_header 1 1 [1; 2; 3]) nameless.
Definition digests_old : package := Eval vm_compute in m_package 1 (m_header 1 4 [1; 2; 3]) ex_archive.

Definition std_options : make_options := m_options false 3 true true.

Lemma nameless_header : header_at (p_archive nameless_old) 0 0 0.
Proof.
  constructor.
  - vm_compute. split; discriminate.
  - vm_compute. reflexivity.
  - intros k Hk. assert (H : k = 0 \/ k = 1 \/ k = 2 \/ k = 3 \/ k = 4 \/ k = 5 \/ k = 6 \/ k = 7 \/ k = 8 \/ k = 9 \/ k = 10 \/ k = 11) by lia.
    repeat (destruct H as [->|H]; [vm_compute; discriminate|]). subst k. vm_compute. discriminate.
  - vm_compute. reflexivity.
  - exists 0. split; vm_compute; reflexivity.
Qed.
