(** * InstalledCases: concrete installed packages *)
From Verif Require Import SpecPrelink SpecCheck Check CheckProofs Base BaseLemmas Utils UtilsProofs CpioHeader FileSys Prelink CheckCases Rpm Seq Expand Archive SpecArchive ArchiveCases ArchiveSeq SpecFs FillCases FsCases
  SpecCodec Diff Delta Stream Make SpecMake ToyLibs MakeCases Apply SpecInstalled.

(** The database has the header of a package. *)
Definition has_header (p : package) (name : list Z) : res rpm :=
  if list_eqb name (lb_nevr mlibs (p_hdr p)) then Ok (mkrpm [] [] (p_hdr p) [] 0 0) else Err ENoInstall.
(** The file "/a" as it is in the package, or prelinked. *)
Definition a_data : list Z := [10; 20; 30; 40; 50].
Definition i_disk : fsys := disk [([47; 97], a_data)].
Definition i_prelinked : fsys := disk [([47; 97], elf_case 3 UNDO_NAME)].
Definition i_undo (name : list Z) : res (list Z) := if list_eqb name [47; 97] then Ok a_data else Err EIo.
(** What comes of applying a delta to what is installed: is it the new package? *)
Definition i_apply_delta (L : libs) (fs : fsys) (undo : list Z -> res (list Z)) (delta : list Z) (old new : package) : res bool :=
  match drpm_apply L (has_header old) fs undo 0 None delta with
  | (out, Ok tt) => Ok (list_eqb out (package_file new))
  | (_, Err e) => Err e | (_, Ub u) => Ub u | (_, NoFuel) => NoFuel
  end.
Definition i_apply (L : libs) (fs : fsys) (undo : list Z -> res (list Z)) (o : make_options) (old new : package) : res bool :=
  i_apply_delta L fs undo (made_with L o (package_file old) (package_file new)) old new.
(** A package whose first file is a configuration file. *)
Definition m_conf : package := Eval vm_compute in m_package 1 (m_header 1 3 [1; 2; 3]) ex_archive.

(** The entries that deltas from [m_old] and [m_conf] can use: one file with contents. *)
Definition i_kept : list kept_entry := kept None ex_files false ex_entries.
Definition c_kept : list kept_entry := kept None conf_files false ex_entries.
Lemma i_kept_data k : In k i_kept -> has_data (ke_file k) -> k = nth 0 i_kept k.
Proof.
  assert (E : map (fun k => S_ISREG (fi_mode (ke_file k))) i_kept = [true; false; false]) by (vm_compute; reflexivity).
  destruct i_kept as [|k0 [|k1 [|k2 [|]]]]; try discriminate E. cbn [map] in E.
  intros [<-|[<-|[<-|[]]]] [H _]; [reflexivity|congruence|congruence].
Qed.
Lemma c_kept_data k : In k c_kept -> has_data (ke_file k) -> k = nth 0 c_kept k.
Proof.
  assert (E : map (fun k => S_ISREG (fi_mode (ke_file k))) c_kept = [true; false; false]) by (vm_compute; reflexivity).
  destruct c_kept as [|k0 [|k1 [|k2 [|]]]]; try discriminate E. cbn [map] in E.
  intros [<-|[<-|[<-|[]]]] [H _]; [reflexivity|congruence|congruence].
Qed.

Lemma i_header_ok : header_installed mlibs (has_header m_old) m_old ex_files false.
Proof. constructor. do 2 eexists. split; [vm_compute; reflexivity|]. split; [vm_compute; reflexivity|]. split; vm_compute; reflexivity. Qed.
Lemma c_header_ok : header_installed mlibs (has_header m_conf) m_conf conf_files false.
Proof. constructor. do 2 eexists. split; [vm_compute; reflexivity|]. split; [vm_compute; reflexivity|]. split; vm_compute; reflexivity. Qed.

Lemma i_disk_ok : files_installed i_disk no_prelink ex_archive i_kept.
Proof.
  constructor.
  - intros k Hk Hd. rewrite (i_kept_data k Hk Hd). split.
    + eexists. split; [vm_compute; reflexivity|]. vm_compute looks_prelinked. cbv iota. split; [vm_compute; congruence|]. left. vm_compute. reflexivity.
    + vm_compute. reflexivity.
  - intros k Hk Hd. rewrite (i_kept_data k Hk Hd). vm_compute. reflexivity.
  - exists [0]. split; [vm_compute; discriminate|]. intros k Hk Hd _. rewrite (i_kept_data k Hk Hd). left. vm_compute. reflexivity.
  - intros (k & Hk & Hd & H). rewrite (i_kept_data k Hk Hd) in H. assert (E : looks_prelinked i_disk (ke_file (nth 0 i_kept k)) = false) by (vm_compute; reflexivity). rewrite E in H. discriminate H.
Qed.
Lemma i_prelinked_ok : files_installed i_prelinked i_undo ex_archive i_kept.
Proof.
  constructor.
  - intros k Hk Hd. rewrite (i_kept_data k Hk Hd). split.
    + eexists. split; [vm_compute; reflexivity|]. vm_compute looks_prelinked. cbv iota. eexists. split; [vm_compute; reflexivity|]. vm_compute. congruence.
    + vm_compute. reflexivity.
  - intros k Hk Hd. rewrite (i_kept_data k Hk Hd). vm_compute. reflexivity.
  - exists [0]. split; [vm_compute; discriminate|]. intros k Hk Hd _. rewrite (i_kept_data k Hk Hd). left. vm_compute. reflexivity.
  - intros _ before f later E Hl. cbv zeta. intros q [H1 H2]. unfold SpecBlocks.BS in *.
    assert (Hz : zlen (fs_entries i_prelinked i_undo (map ke_file i_kept)) = 360) by (vm_compute; reflexivity).
    rewrite E in Hz. unfold fs_entries in *. rewrite map_app, concat_app in Hz. cbn [map concat] in Hz. rewrite !zlen_app in *.
    assert (Hb : zlen (fi_linkto f) <= zlen (fs_body i_prelinked i_undo f)).
    { unfold fs_body, new_body. rewrite Hl. unfold align4. rewrite zlen_app. pose proof (zlen_nonneg (zeros (padding (zlen (fi_linkto f)) 4))). lia. }
    pose proof (zlen_nonneg (concat (map (fun f0 => fs_head f0 ++ fs_body i_prelinked i_undo f0) before))).
    pose proof (zlen_nonneg (concat (map (fun f0 => fs_head f0 ++ fs_body i_prelinked i_undo f0) later))). pose proof (zlen_nonneg (fs_head f)).
    lia.
Qed.

Lemma i_one_prelinked : let k := nth 0 i_kept (mken 0 [] 0 0, 0, mkfi [] 0 [] 0 0 0 0 [] 0) in
  In k i_kept /\ has_data (ke_file k) /\ looks_prelinked i_prelinked (ke_file k) = true.
Proof. cbv zeta. split; [vm_compute; left; reflexivity|]. split; [split; [vm_compute; reflexivity|vm_compute; discriminate]|vm_compute; reflexivity]. Qed.

(** The libraries, where the digest recorded for "/a" is that of its contents. *)
Definition j_md5 (l : list Z) : list Z := if list_eqb l a_data then k_digest else toy_md5 l.
Definition jlibs : libs := mklibs (lb_codec mlibs) j_md5 (lb_sha256 mlibs) (lb_read mlibs) (lb_import mlibs) (lb_string mlibs)
  (lb_nevr mlibs) (lb_algo mlibs) (lb_sig_md5 mlibs) (lb_mksig mlibs) (lb_setfmt mlibs) (lb_files mlibs).

Lemma j_hashes : hashes_ok jlibs.
Proof.
  intros x. cbn [jlibs lb_md5 lb_sha256 mlibs]. split; [|apply (proj2 (toy_hashes x))].
  unfold j_md5. destruct (list_eqb x a_data); [reflexivity|]. apply (proj1 (toy_hashes x)).
Qed.
Lemma j_md5_16 : md5_16 jlibs.
Proof.
  intros x. cbn [jlibs lb_md5]. unfold j_md5. destruct (list_eqb x a_data).
  - split; [apply bytesb_ok; vm_compute; reflexivity|vm_compute; reflexivity].
  - apply (toy_md5_16 mlibs eq_refl x).
Qed.
Lemma j_package p : package_ok mlibs p -> package_ok jlibs p.
Proof. intros [A B C D E F]. constructor; assumption. Qed.
Lemma j_source : standard_source_ok jlibs m_old ex_files false false ex_entries.
Proof. destruct m_source as [A B C D E F]. constructor; assumption. Qed.
Lemma j_target : standard_target_ok jlibs m_new (slice (p_hdr m_new) 0 24 ++ str_drpm ++ from (p_hdr m_new) 28).
Proof. destruct m_new_target as [A B C D E]. constructor; assumption. Qed.
Lemma j_header : header_installed jlibs (has_header m_old) m_old ex_files false.
Proof. destruct i_header_ok as [A]. constructor. exact A. Qed.
Lemma j_adjustments : few_adjustments jlibs m_old.
Proof.
  intros cpio sequence adjs H.
  assert (E : match parse_cpio jlibs None true (rpm_of m_old) with Ok (_, _, a) => zlen a <? 2 ^ 29 | _ => false end = true) by (vm_compute; reflexivity).
  rewrite H in E. lia.
Qed.

Lemma j_digests : digests_right jlibs false ex_archive i_kept.
Proof. intros k Hk Hd. rewrite (i_kept_data k Hk Hd). vm_compute. reflexivity. Qed.
Lemma j_unchanged : unchanged i_disk no_prelink ex_archive i_kept.
Proof.
  intros k Hk Hd. rewrite (i_kept_data k Hk Hd). do 2 eexists. split; [vm_compute; reflexivity|]. split; [vm_compute; reflexivity|].
  left. split; vm_compute; reflexivity.
Qed.
Lemma j_unchanged_prelinked : unchanged i_prelinked i_undo ex_archive i_kept.
Proof.
  destruct elf_prelinked as (A & B & C & D).
  intros k Hk Hd. rewrite (i_kept_data k Hk Hd). exists (elf_case 3 UNDO_NAME). eexists. split; [vm_compute; reflexivity|]. split; [vm_compute; reflexivity|].
  right. split; [vm_compute; reflexivity|]. repeat (split; [assumption|]). vm_compute. reflexivity.
Qed.
Lemma j_plain : plain_files i_disk.
Proof.
  intros name data H. unfold i_disk, disk in H. cbn [fs_open lookup] in H. destruct (list_eqb _ name); [|discriminate]. injection H as <-.
  split; [apply bytesb_ok; reflexivity|]. intros [[(H & _) _] _]. vm_compute in H. apply H. reflexivity.
Qed.
Lemma j_sound : sound_files i_disk.
Proof.
  intros name data H. unfold i_disk, disk in *. cbn [fs_open fs_stat lookup] in *. destruct (list_eqb _ name); [|discriminate]. injection H as <-.
  split; [apply bytesb_ok; reflexivity|]. split; [reflexivity|]. intros [[(H & _) _] _]. vm_compute in H. apply H. reflexivity.
Qed.
Lemma j_sound_prelinked : sound_files i_prelinked.
Proof.
  destruct elf_prelinked as (A & B & C & D).
  intros name data H. unfold i_prelinked, disk in *. cbn [fs_open fs_stat lookup] in *. destruct (list_eqb _ name); [|discriminate]. injection H as <-.
  split; [assumption|]. split; [reflexivity|]. intros [_ H]. exact (D H).
Qed.
(** No contents of the files have the digest of others in the package. *)
Lemma j_twins : no_twins jlibs false i_disk no_prelink ex_archive i_kept.
Proof.
  assert (E : forallb (fun k => match fs_open i_disk (fi_name (ke_file k)) with
                                | Some data => list_eqb (slice data 0 (fi_size (ke_file k))) (en_data ex_archive (ke_entry k)) | None => true end) i_kept = true)
    by (vm_compute; reflexivity).
  intros k data Hk (x & Ho & [(_ & _ & _ & H)|[_ ->]]) part _; [discriminate H|].
  rewrite forallb_forall in E. specialize (E k Hk). rewrite Ho in E. apply list_eqb_spec. exact E.
Qed.
Lemma j_twins_prelinked : no_twins jlibs false i_prelinked i_undo ex_archive i_kept.
Proof.
  assert (E : forallb (fun k => match fs_open i_prelinked (fi_name (ke_file k)) with
                                | Some _ => (fi_size (ke_file k) <? 210) && list_eqb (fi_name (ke_file k)) [47; 97] &&
                                    list_eqb (slice a_data 0 (fi_size (ke_file k))) (en_data ex_archive (ke_entry k)) | None => true end) i_kept = true)
    by (vm_compute; reflexivity).
  destruct elf_prelinked as (A & B & C & D). assert (Ez : zlen (elf_case 3 UNDO_NAME) = 210) by (vm_compute; reflexivity).
  intros k data Hk (x & Ho & H) part _. rewrite forallb_forall in E. specialize (E k Hk). rewrite Ho in E. apply andb_true_iff in E as [E E3]. apply andb_true_iff in E as [E1 E2].
  assert (Ex : x = elf_case 3 UNDO_NAME).
  { unfold i_prelinked, disk in Ho. cbn [fs_open lookup] in Ho. destruct (list_eqb _ (fi_name (ke_file k))); [|discriminate]. injection Ho as <-. reflexivity. }
  subst x. destruct H as [(_ & _ & _ & H)|[H _]].
  - unfold i_undo in H. rewrite E2 in H. apply ok_inj in H. subst data. apply list_eqb_spec. exact E3.
  - exfalso. apply H. split; [|split; [exact B|exact C]]. rewrite Ez. apply Z.ltb_lt. exact E1.
Qed.

Lemma m_conf_ok : package_ok mlibs m_conf.
Proof. change m_conf with (m_package 1 (m_header 1 3 [1; 2; 3]) ex_archive). apply m_package_ok; auto; try (unfold byte; lia); [apply bytesb_ok; reflexivity|reflexivity|apply bytesb_ok; vm_compute; reflexivity]. Qed.
Lemma m_conf_source : standard_source_ok mlibs m_conf conf_files false false ex_entries.
Proof.
  pose proof ex_wf as Hwf. unfold ex_files in Hwf. pose proof (Forall_inv Hwf) as W1. apply Forall_inv_tail in Hwf. pose proof (Forall_inv Hwf) as W2. apply Forall_inv_tail in Hwf.
  assert (Ek : map (fun k => (ke_entry k, ke_file k)) c_kept = map (fun k => (ke_entry k, ke_file k)) i_kept) by (vm_compute; reflexivity).
  assert (T : forall P : entry -> file_info -> Prop, Forall (fun k => P (ke_entry k) (ke_file k)) i_kept -> Forall (fun k => P (ke_entry k) (ke_file k)) c_kept).
  { intros P H. rewrite <- (Forall_map (fun k => (ke_entry k, ke_file k)) (fun p => P (fst p) (snd p))) in *. rewrite Ek. exact H. }
  destruct m_source as [A B C D E [F G]]. constructor.
  - vm_compute. reflexivity.
  - vm_compute. reflexivity.
  - split; [reflexivity|]. repeat constructor; try apply W1; try apply W2; try exact Hwf; auto.
  - exact D.
  - apply (T (fun _ f => digest_ok false f)). exact E.
  - split; [apply (T (fun e f => plain_entry (e, 0, f)))|apply (T (fun e f => zero_padded ex_archive (e, 0, f)))]; assumption.
Qed.
