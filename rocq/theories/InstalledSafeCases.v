(** * InstalledSafeCases: installed packages with missing, short and misplaced files *)
From Verif Require Import SpecPrelink SpecCheck Check CheckProofs Base BaseLemmas Utils UtilsProofs CpioHeader FileSys Prelink CheckCases Rpm Seq Expand Archive SpecArchive ArchiveCases ArchiveSeq SpecFs FillCases FsCases
  SpecCodec Diff Delta Stream Make SpecMake ToyLibs ApplyCases MakeCases Apply SpecInstalled InstalledCases SpecApplySafe.

(** Nothing on disk; a file that is too short; one that is too long. *)
Definition s_none : fsys := disk [].
Definition s_short : fsys := disk [([47; 97], [10; 20; 30])].
Definition s_long : fsys := disk [([47; 97], a_data ++ a_data)].

Lemma disk_plain l : Forall (fun p => bytesb (snd p) = true /\ zlen (snd p) < 52) l -> plain_files (disk l).
Proof.
  intros H name data Hd. unfold disk in Hd. cbn [fs_open] in Hd. induction l as [|[n d] l IH]; cbn [lookup] in Hd; [discriminate|].
  apply Forall_cons_iff in H. destruct H as [[H1 H2] H]. cbn [snd] in *. destruct (list_eqb n name); [|auto]. injection Hd as <-.
  split; [apply bytesb_ok; auto|]. intros [[(H3 & _) _] _]. lia.
Qed.

(** The files of [ex_files], but the file with contents that deltas use comes last. *)
Definition last_files : list file_info := match ex_files with a :: l => l ++ [a] | l => l end.
Definition llibs : libs := mklibs (lb_codec mlibs) (lb_md5 mlibs) (lb_sha256 mlibs) (lb_read mlibs) (lb_import mlibs) (lb_string mlibs)
  (lb_nevr mlibs) (lb_algo mlibs) (lb_sig_md5 mlibs) (lb_mksig mlibs) (lb_setfmt mlibs)
  (fun h => if list_eqb (slice h 29 1) [4] then ex_tags last_files else lb_files mlibs h).
Definition m_last : package := Eval vm_compute in m_package 1 (m_header 1 4 [1; 2; 3]) ex_archive.
Definition l_kept : list kept_entry := kept None last_files false ex_entries.

Lemma l_kept_data k : In k l_kept -> has_data (ke_file k) -> k = nth 0 l_kept k.
Proof.
  assert (E : map (fun k => S_ISREG (fi_mode (ke_file k))) l_kept = [true; false; false]) by (vm_compute; reflexivity).
  destruct l_kept as [|k0 [|k1 [|k2 [|]]]]; try discriminate E. cbn [map] in E.
  intros [<-|[<-|[<-|[]]]] [H _]; [reflexivity|congruence|congruence].
Qed.
Lemma l_header_ok : header_installed llibs (has_header m_last) m_last last_files false.
Proof. constructor. do 2 eexists. split; [vm_compute; reflexivity|]. split; [vm_compute; reflexivity|]. split; vm_compute; reflexivity. Qed.
Lemma m_last_ok : package_ok llibs m_last.
Proof.
  assert (H : package_ok mlibs m_last).
  { change m_last with (m_package 1 (m_header 1 4 [1; 2; 3]) ex_archive). apply m_package_ok; auto; try (unfold byte; lia); [apply bytesb_ok; reflexivity|reflexivity|apply bytesb_ok; vm_compute; reflexivity]. }
  destruct H. constructor; assumption.
Qed.
Lemma l_new_ok : package_ok llibs m_new.
Proof. destruct m_new_ok. constructor; assumption. Qed.
Lemma l_options_ok : options_ok llibs (m_options false 3 true true) (zlen (p_archive m_new)).
Proof. destruct (m_options_ok false 3 true true (zlen (p_archive m_new))); [lia|vm_compute; reflexivity|]. constructor; assumption. Qed.
Lemma m_last_source : standard_source_ok llibs m_last last_files false false ex_entries.
Proof.
  pose proof ex_wf as Hwf. unfold ex_files in Hwf. pose proof (Forall_inv Hwf) as W1. apply Forall_inv_tail in Hwf.
  assert (Ek : map (fun k => (ke_entry k, ke_file k)) l_kept = map (fun k => (ke_entry k, ke_file k)) i_kept) by (vm_compute; reflexivity).
  assert (T : forall P : entry -> file_info -> Prop, Forall (fun k => P (ke_entry k) (ke_file k)) i_kept -> Forall (fun k => P (ke_entry k) (ke_file k)) l_kept).
  { intros P H. rewrite <- (Forall_map (fun k => (ke_entry k, ke_file k)) (fun p => P (fst p) (snd p))) in *. rewrite Ek. exact H. }
  destruct m_source as [A B C D E [F G]]. constructor.
  - vm_compute. reflexivity.
  - vm_compute. reflexivity.
  - split; [reflexivity|]. unfold last_files, ex_files. apply Forall_app. split; [exact Hwf|constructor; [exact W1|constructor]].
  - exact D.
  - apply (T (fun _ f => digest_ok false f)). exact E.
  - split; [apply (T (fun e f => plain_entry (e, 0, f)))|apply (T (fun e f => zero_padded ex_archive (e, 0, f)))]; assumption.
Qed.
