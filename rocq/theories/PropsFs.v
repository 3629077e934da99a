(** * Property C16: external data from installed files

    Specification vocabulary: [SpecFs], [SpecArchive], [SpecBlocks], and [extents] of [SpecDelta]. *)
From Verif Require Import Base Utils CpioHeader Rpm Seq Expand Archive SpecArchive ArchiveLoop ArchiveCases SpecDelta SpecBlocks Blocks BaseLemmas
     BlocksProofs ToyLibs Fill FillCases FileSys Prelink CheckCases FsFill SpecFs DirectProofs FsProofs FsFinal FsCases Apply.

(** C16: copies read from installed files denote parts of the archive of the files that the sequence names, in this
    order, where the prelinking of prelinked files is undone.  Missing: the named files with contents must have the
    places in the sequence that they have in the package, at most 50 of them may be others than prelinked ones, and if
    there is a prelinked one, then no block may start inside the target of a link, and the recorded length must give the
    number of blocks that the archive has. *)
Theorem C16_installed_external_data_partial :
  forall L check sequence files sha idx positions fl fs unprelinked capacity len copies clean,
  expand_sequence L check (Some sequence) files sha = Ok idx -> seq_positions sequence (zlen files) = Ok positions ->
  Forall wf_file files -> Forall2 (fun i f => rd files i = Ok f) positions fl -> Forall fits fl ->
  (forall f, In f fl -> has_data f -> readable_file fs unprelinked f) ->
  (forall i f, In i positions -> rd files i = Ok f -> has_data f -> rd positions i = Ok i) ->
  (exists regs, zlen regs <= 50 /\ forall i f, In i positions -> rd files i = Ok f -> has_data f -> looks_prelinked fs f = false -> In i regs) ->
  ((exists f, In f fl /\ has_data f /\ looks_prelinked fs f = true) ->
   whole_links fs unprelinked fl /\ block_count len = block_count (zlen (fs_archive fs unprelinked fl))) ->
  1 <= capacity -> 0 < len <= zlen (fs_archive fs unprelinked fl) -> zlen (fs_archive fs unprelinked fl) < 2 ^ 63 ->
  block_count len < 2 ^ 32 - 1 ->
  Forall (in_data len) (extents 0 copies) ->
  exists b b', blocks_create fsrc len copies (fs_source idx) clean = Ok b /\
  read_copies fsrc capacity (fill_filesystem fs unprelinked files idx capacity) b copies 0 0 =
    Ok (b', map (fun '(o, l) => slice (fs_archive fs unprelinked fl) o l) (extents 0 copies)).
Proof. exact installed_external. Qed.
Print Assumptions C16_installed_external_data_partial.

(** Hypotheses and conclusion for a package with a configuration file that the sequence does not name. *)
Example C16_case :
  let sequence := sequence_of inst_files inst_positions in
  is_ok (expand_sequence toylibs None (Some sequence) inst_files false) /\
  seq_positions sequence (zlen inst_files) = Ok inst_positions /\
  Forall wf_file inst_files /\ Forall2 (fun i f => rd inst_files i = Ok f) inst_positions inst_named /\ Forall fits inst_named /\
  (forall f, In f inst_named -> has_data f -> readable_file inst_disk no_prelink f) /\
  (forall i f, In i inst_positions -> rd inst_files i = Ok f -> has_data f -> rd inst_positions i = Ok i) /\
  (exists regs, zlen regs <= 50 /\
     forall i f, In i inst_positions -> rd inst_files i = Ok f -> has_data f -> looks_prelinked inst_disk f = false -> In i regs) /\
  ~ (exists f, In f inst_named /\ has_data f /\ looks_prelinked inst_disk f = true) /\
  zlen (fs_archive inst_disk no_prelink inst_named) = 9604 /\ extents 0 inst_copies = [(8000, 1400); (100, 9000); (9110, 20)] /\
  match installed_copies inst_disk inst_files sequence 1 9604 inst_copies with
  | Ok l => list_eqb (concat l) (concat (map (fun '(o, l) => slice (fs_archive inst_disk no_prelink inst_named) o l) (extents 0 inst_copies)))
            && (zlen l =? 3)
  | _ => false
  end = true.
Proof.
  cbn zeta.
  split; [vm_compute; eexists; reflexivity|]. split; [vm_compute; reflexivity|].
  split; [repeat constructor; cbn [fi_mode fi_size fi_rdev fi_name fi_linkto]; try lia; vm_compute; reflexivity|].
  split; [repeat constructor; vm_compute; reflexivity|].
  split; [repeat constructor; vm_compute; congruence|].
  split.
  - intros f [<-|[<-|[<-|[<-|[]]]]] [H1 H2].
    + eexists. split; [vm_compute; reflexivity|]. vm_compute looks_prelinked. cbv iota. split; [vm_compute; congruence|]. left. vm_compute. reflexivity.
    + vm_compute in H1. discriminate.
    + eexists. split; [vm_compute; reflexivity|]. vm_compute looks_prelinked. cbv iota. split; [vm_compute; congruence|]. left. vm_compute. reflexivity.
    + vm_compute in H1. discriminate.
  - split.
    + intros i f [<-|[<-|[<-|[<-|[]]]]] Hf [H1 H2]; try reflexivity.
      vm_compute in Hf. injection Hf as <-. vm_compute in H1. discriminate.
    + split.
      * exists inst_positions. split; [vm_compute; discriminate|]. intros i f Hi _ _ _. exact Hi.
      * split; [intros (f & [<-|[<-|[<-|[<-|[]]]]] & _ & H); vm_compute in H; discriminate|].
        split; [vm_compute; reflexivity|]. split; [vm_compute; reflexivity|]. vm_compute. reflexivity.
Qed.

(** Hypotheses and conclusion for a package with a prelinked file, which is shorter on disk than what is restored. *)
Example C16_prelinked_case :
  let positions := [0; 1; 2; 3] in let sequence := sequence_of pre_files positions in
  is_ok (expand_sequence toylibs None (Some sequence) pre_files false) /\
  seq_positions sequence (zlen pre_files) = Ok positions /\
  Forall wf_file pre_files /\ Forall2 (fun i f => rd pre_files i = Ok f) positions pre_files /\ Forall fits pre_files /\
  (forall f, In f pre_files -> has_data f -> readable_file pre_disk pre_undo f) /\
  (forall i f, In i positions -> rd pre_files i = Ok f -> has_data f -> rd positions i = Ok i) /\
  map (looks_prelinked pre_disk) pre_files = [false; true; false; false] /\
  whole_links pre_disk pre_undo pre_files /\
  zlen (fs_archive pre_disk pre_undo pre_files) = 12604 /\ extents 0 pre_copies = [(3100, 9000); (200, 40); (12440, 20)] /\
  match prelinked_copies pre_undo pre_disk pre_files sequence 1 12604 pre_copies with
  | Ok l => list_eqb (concat l) (concat (map (fun '(o, l) => slice (fs_archive pre_disk pre_undo pre_files) o l) (extents 0 pre_copies)))
            && (zlen l =? 3)
  | _ => false
  end = true.
Proof.
  cbn zeta.
  split; [vm_compute; eexists; reflexivity|]. split; [vm_compute; reflexivity|].
  split; [repeat constructor; cbn [fi_mode fi_size fi_rdev fi_name fi_linkto]; try lia; vm_compute; reflexivity|].
  split; [repeat constructor; vm_compute; reflexivity|].
  split; [repeat constructor; vm_compute; congruence|].
  split.
  { intros f [<-|[<-|[<-|[<-|[]]]]] [H1 H2]; [..|vm_compute in H1; discriminate|];
      (eexists; split; [vm_compute; reflexivity|]); vm_compute looks_prelinked; cbv iota;
      first [split; [vm_compute; congruence|]; left; vm_compute; reflexivity
            |eexists; split; [vm_compute; reflexivity|]; vm_compute; congruence]. }
  split; [intros i f [<-|[<-|[<-|[<-|[]]]]] _ _; reflexivity|].
  split; [vm_compute; reflexivity|].
  split; [|split; [vm_compute; reflexivity|]; split; vm_compute; reflexivity].
  intros before f later E Hl. cbv zeta.
  assert (Hb : before = firstn (length before) pre_files) by (rewrite E; rewrite firstn_app, Nat.sub_diag, firstn_all; cbn [firstn]; rewrite app_nil_r; reflexivity).
  assert (Hk : (length before < 4)%nat) by (assert (Hn : length pre_files = 4%nat) by reflexivity; rewrite E, app_length in Hn; cbn [length] in Hn; lia).
  assert (Hf : nth_error pre_files (length before) = Some f) by (rewrite E, nth_error_app2, Nat.sub_diag by lia; reflexivity).
  rewrite Hb. clear E Hb. destruct (length before) as [|[|[|[|k]]]]; [..|lia]; injection Hf as <-; try (vm_compute in Hl; discriminate).
  intros q. change (firstn 2 pre_files) with (firstn 2 pre_files).
  assert (E1 : zlen (fs_entries pre_disk pre_undo (firstn 2 pre_files) ++ fs_head (mkfi [47; 108] 0 [] 0 0 41471 3 [97; 98; 99] 0)) = 12348) by (vm_compute; reflexivity).
  rewrite E1. change (zlen (fi_linkto (mkfi [47; 108] 0 [] 0 0 41471 3 [97; 98; 99] 0))) with 3. unfold BS. lia.
Qed.

(** C16 is false for a sequence that changes the order of two files: what is read are the contents of the other file. *)
Theorem C16_order_refuted : exists files positions fl fs len copies l,
  Forall wf_file files /\ Forall2 (fun i f => rd files i = Ok f) positions fl /\ Forall fits fl /\
  (forall f, In f fl -> has_data f -> readable_file fs no_prelink f) /\ seq_positions (sequence_of files positions) (zlen files) = Ok positions /\
  zlen (fs_archive fs no_prelink fl) = len /\ Forall (in_data len) (extents 0 copies) /\
  installed_copies fs files (sequence_of files positions) 1 len copies = Ok l /\
  l <> map (fun '(o, l) => slice (fs_archive fs no_prelink fl) o l) (extents 0 copies).
Proof.
  exists two_files, [1; 0], (rev two_files), two_disk, 364, [(116, 4)], [[1; 2; 3; 4]].
  split; [repeat constructor; cbn [fi_mode fi_size fi_rdev fi_name fi_linkto]; try lia; vm_compute; reflexivity|].
  split; [repeat constructor; vm_compute; reflexivity|]. split; [repeat constructor; vm_compute; congruence|].
  split.
  - intros f [<-|[<-|[]]] _; (eexists; split; [vm_compute; reflexivity|]; split; [vm_compute; congruence|]; left; vm_compute; reflexivity).
  - split; [vm_compute; reflexivity|]. split; [vm_compute; reflexivity|]. split.
    + change (extents 0 [(116, 4)]) with [(116, 4)]. unfold in_data. repeat constructor; cbn [fst snd]; lia.
    + split; [vm_compute; reflexivity|]. vm_compute. discriminate.
Qed.
Print Assumptions C16_order_refuted.

(** C16 is false for a sequence that leaves out the first file: a table is read before its start. *)
Theorem C16_skipped_refuted : exists files positions fl fs len copies,
  Forall wf_file files /\ Forall2 (fun i f => rd files i = Ok f) positions fl /\ Forall fits fl /\
  (forall f, In f fl -> has_data f -> readable_file fs no_prelink f) /\ seq_positions (sequence_of files positions) (zlen files) = Ok positions /\
  zlen (fs_archive fs no_prelink fl) = len /\ Forall (in_data len) (extents 0 copies) /\
  installed_copies fs files (sequence_of files positions) 1 len copies = Ub OobRead.
Proof.
  exists two_files, [1], (skipn 1 two_files), two_disk, 244, [(116, 4)].
  split; [repeat constructor; cbn [fi_mode fi_size fi_rdev fi_name fi_linkto]; try lia; vm_compute; reflexivity|].
  split; [repeat constructor; vm_compute; reflexivity|]. split; [repeat constructor; vm_compute; congruence|].
  split.
  - intros f [<-|[]] _; (eexists; split; [vm_compute; reflexivity|]; split; [vm_compute; congruence|]; left; vm_compute; reflexivity).
  - split; [vm_compute; reflexivity|]. split; [vm_compute; reflexivity|]. split.
    + change (extents 0 [(116, 4)]) with [(116, 4)]. unfold in_data. repeat constructor; cbn [fst snd]; lia.
    + vm_compute. reflexivity.
Qed.
Print Assumptions C16_skipped_refuted.

(** C16 is false for 51 files with contents, all in place: the handle of the first file was taken for the last one. *)
Theorem C16_handles_refuted : exists files positions fs capacity len copies l,
  Forall wf_file files /\ Forall2 (fun i f => rd files i = Ok f) positions files /\ Forall fits files /\
  Forall (readable_file fs no_prelink) files /\ seq_positions (sequence_of files positions) (zlen files) = Ok positions /\
  zlen files = 51 /\ capacity = MAX_CORE_BLOCKS /\ zlen (fs_archive fs no_prelink files) = len /\ Forall (in_data len) (extents 0 copies) /\
  installed_copies fs files (sequence_of files positions) capacity len copies = Ok l /\
  l <> map (fun '(o, l) => slice (fs_archive fs no_prelink files) o l) (extents 0 copies).
Proof.
  destruct many_differs as (l & E & Hne).
  exists many_files, many_positions, many_disk, MAX_CORE_BLOCKS, 46236, many_copies, l.
  split.
  { unfold many_files. repeat constructor; cbn [fi_mode fi_size fi_rdev fi_name fi_linkto]; try lia; vm_compute; reflexivity. }
  split; [unfold many_files, many_positions; cbn [seq map app]; repeat constructor; vm_compute; reflexivity|].
  split; [unfold many_files; cbn [seq map app]; repeat constructor; vm_compute; congruence|].
  split; [exact many_readable|].
  split; [vm_compute; reflexivity|]. split; [vm_compute; reflexivity|]. split; [reflexivity|]. split; [vm_compute; reflexivity|].
  split.
  { assert (Ee : extents 0 many_copies = [(100, 10); (20500, 10); (27010, 20); (9030, 10)]) by (vm_compute; reflexivity). rewrite Ee.
    unfold in_data. repeat constructor; cbn [fst snd]; lia. }
  split; [exact E|]. exact Hne.
Qed.
Print Assumptions C16_handles_refuted.

(** C16 is false where a block starts inside the target of a link and a prelinked file follows: memory after the target is
    read. *)
Theorem C16_link_refuted : exists files positions fs unprelinked len copies,
  Forall wf_file files /\ Forall2 (fun i f => rd files i = Ok f) positions files /\ Forall fits files /\
  (forall f, In f files -> has_data f -> readable_file fs unprelinked f) /\
  seq_positions (sequence_of files positions) (zlen files) = Ok positions /\
  zlen (fs_archive fs unprelinked files) = len /\ Forall (in_data len) (extents 0 copies) /\
  prelinked_copies unprelinked fs files (sequence_of files positions) 1 len copies = Ub OobRead.
Proof.
  exists cross_files, [0; 1; 2], cross_disk, cross_undo, 9272, [(8900, 10)].
  split; [repeat constructor; cbn [fi_mode fi_size fi_rdev fi_name fi_linkto]; try lia; vm_compute; reflexivity|].
  split; [repeat constructor; vm_compute; reflexivity|]. split; [repeat constructor; vm_compute; congruence|].
  split.
  { intros f [<-|[<-|[<-|[]]]] [H1 H2]; [|vm_compute in H1; discriminate|];
      (eexists; split; [vm_compute; reflexivity|]); vm_compute looks_prelinked; cbv iota;
      first [split; [vm_compute; congruence|]; left; vm_compute; reflexivity
            |eexists; split; [vm_compute; reflexivity|]; vm_compute; congruence]. }
  split; [vm_compute; reflexivity|]. split; [vm_compute; reflexivity|]. split.
  - change (extents 0 [(8900, 10)]) with [(8900, 10)]. unfold in_data. repeat constructor; cbn [fst snd]; lia.
  - vm_compute. reflexivity.
Qed.
Print Assumptions C16_link_refuted.

(** C16 is false where the recorded length gives fewer blocks than the archive and a prelinked file goes on after them: the
    table of blocks is read after its end. *)
Theorem C16_short_refuted : exists files positions fs unprelinked len copies,
  Forall wf_file files /\ Forall2 (fun i f => rd files i = Ok f) positions files /\ Forall fits files /\
  (forall f, In f files -> has_data f -> readable_file fs unprelinked f) /\
  seq_positions (sequence_of files positions) (zlen files) = Ok positions /\
  0 < len <= zlen (fs_archive fs unprelinked files) /\ Forall (in_data len) (extents 0 copies) /\
  prelinked_copies unprelinked fs files (sequence_of files positions) 1 len copies = Ub OobRead.
Proof.
  exists long_files, [0], cross_disk, long_undo, 8000, [(200, 10)].
  split; [repeat constructor; cbn [fi_mode fi_size fi_rdev fi_name fi_linkto]; try lia; vm_compute; reflexivity|].
  split; [repeat constructor; vm_compute; reflexivity|]. split; [repeat constructor; vm_compute; congruence|].
  split.
  { intros f [<-|[]] [H1 H2]; (eexists; split; [vm_compute; reflexivity|]); vm_compute looks_prelinked; cbv iota.
    eexists; split; [vm_compute; reflexivity|]; vm_compute; congruence. }
  split; [vm_compute; reflexivity|]. split.
  { assert (E : zlen (fs_archive cross_disk long_undo long_files) = 20240) by (vm_compute; reflexivity). rewrite E. lia. }
  split.
  - change (extents 0 [(200, 10)]) with [(200, 10)]. unfold in_data. repeat constructor; cbn [fst snd]; lia.
  - vm_compute. reflexivity.
Qed.
Print Assumptions C16_short_refuted.
