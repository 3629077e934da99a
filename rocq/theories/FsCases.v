(** * FsCases: concrete installed files *)
From Verif Require Import Base BaseLemmas Utils CpioHeader Rpm Seq Expand Archive SpecArchive ArchiveCases SpecDelta SpecBlocks Blocks
     ToyLibs Fill FillCases FileSys Prelink CheckCases FsFill SpecFs Apply.

(** The sequence that names the files at [positions]. *)
Definition sequence_of (files : list file_info) (positions : list Z) : list Z :=
  match expand_loop None false files positions 0 [], seq_encode positions with
  | Ok (_, _, m), Ok l => lb_md5 toylibs m ++ l
  | _, _ => []
  end.

(** Bytes of the copies read from the files installed through a sequence, of an archive of [len] bytes, where
    [unprelinked] tells what "prelink -u" puts out. *)
Definition prelinked_copies (unprelinked : list Z -> res (list Z)) (fs : fsys) (files : list file_info) (sequence : list Z) (capacity len : Z) (copies : list (Z * Z))
  : res (list (list Z)) :=
  idx <- expand_sequence toylibs None (Some sequence) files false ;;
  b <- blocks_create fsrc len copies (fs_source idx) 0 ;;
  '(_, l) <- read_copies fsrc capacity (fill_filesystem fs unprelinked files idx capacity) b copies 0 0 ;;
  Ok l.
(** There is no "prelink". *)
Definition no_prelink (name : list Z) : res (list Z) := Err EIo.
Definition installed_copies := prelinked_copies no_prelink.

(** Installed files given by a list of names and contents. *)
Fixpoint lookup (l : list (list Z * list Z)) (name : list Z) : option (list Z) :=
  match l with [] => None | (n, d) :: l => if list_eqb n name then Some d else lookup l name end.
Definition disk (l : list (list Z * list Z)) : fsys :=
  FileSys.mkfs (fun n => match lookup l n with Some d => Some (zlen d) | None => None end) (lookup l).

(** Two files with contents, a link, a configuration file, and a directory; all but the configuration file are named. *)
Definition inst_files : list file_info :=
  [ mkfi [47; 97] 0 ex_md5 0 9000 33188 3 [] 0
  ; mkfi [47; 108] 0 [] 0 0 41471 3 [97; 98; 99] 0
  ; mkfi [47; 98] 0 ex_md5 0 10 33188 3 [] 0
  ; mkfi [47; 99; 102] 1 ex_md5 0 3 33188 3 [] 0
  ; mkfi [47; 100] 0 [] 0 4096 16877 3 [] 0 ].
Definition inst_positions : list Z := [0; 1; 2; 4].
Definition inst_named : list file_info :=
  [ mkfi [47; 97] 0 ex_md5 0 9000 33188 3 [] 0
  ; mkfi [47; 108] 0 [] 0 0 41471 3 [97; 98; 99] 0
  ; mkfi [47; 98] 0 ex_md5 0 10 33188 3 [] 0
  ; mkfi [47; 100] 0 [] 0 4096 16877 3 [] 0 ].
Definition inst_disk : fsys := disk [([47; 97], count (Z.to_nat 9000) 7); ([47; 98], count 10 40)].
Definition inst_copies : list (Z * Z) := [(8000, 1400); (u32 (-9300), 9000); (10, 20)].

(** Two files, named in the other order. *)
Definition two_files : list file_info :=
  [ mkfi [47; 97] 0 ex_md5 0 4 33188 3 [] 0; mkfi [47; 98] 0 ex_md5 0 4 33188 3 [] 0 ].
Definition two_disk : fsys := disk [([47; 97], [1; 2; 3; 4]); ([47; 98], [5; 6; 7; 8])].

(** 51 files: the first has three blocks. *)
Definition small_name (k : nat) : list Z := [47; 48 + Z.of_nat k / 10; 48 + Z.of_nat k mod 10].
Definition many_files : list file_info :=
  mkfi (small_name 0) 0 ex_md5 0 20000 33188 3 [] 0
  :: map (fun k => mkfi (small_name k) 0 ex_md5 0 4 33188 3 [] 0) (seq 1 49)
  ++ [mkfi (small_name 50) 0 ex_md5 0 20000 33188 3 [] 0].
Definition many_positions : list Z := map Z.of_nat (seq 0 51).
Definition many_disk : fsys :=
  disk ((small_name 0, count (Z.to_nat 20000) 0)
        :: map (fun k => (small_name k, [Z.of_nat k; 0; 0; 0])) (seq 1 49)
        ++ [(small_name 50, count (Z.to_nat 20000) 100)]).
(** From the first block, from among the small files, from the last file, and from the second block. *)
Definition many_copies : list (Z * Z) := [(100, 10); (20390, 10); (6500, 20); (u32 (-18000), 10)].

Lemma differs (r : res (list (list Z))) l' :
  match r with Ok l => negb (list_eqb (concat l) (concat l')) | _ => false end = true -> exists l, r = Ok l /\ l <> l'.
Proof.
  destruct r as [l|?|?|]; intros H; [|discriminate H..]. exists l. split; [reflexivity|].
  intros ->. rewrite (proj2 (list_eqb_spec _ _) eq_refl) in H. discriminate H.
Qed.

Lemma many_differs : exists l,
  installed_copies many_disk many_files (sequence_of many_files many_positions) MAX_CORE_BLOCKS 46236 many_copies = Ok l /\
  l <> map (fun '(o, l) => slice (fs_archive many_disk no_prelink many_files) o l) (extents 0 many_copies).
Proof.
  apply (differs (installed_copies many_disk many_files (sequence_of many_files many_positions) MAX_CORE_BLOCKS 46236 many_copies)
                 (map (fun '(o, l) => slice (fs_archive many_disk no_prelink many_files) o l) (extents 0 many_copies))).
  vm_compute. reflexivity.
Qed.

Lemma readable_all (fs : fsys) (fl : list file_info) :
  forallb (fun f => match fs_open fs (fi_name f), fs_stat fs (fi_name f) with
                    | Some d, Some n => (fi_size f <=? zlen d) && (n =? fi_size f) | _, _ => false end) fl = true ->
  Forall (readable_file fs no_prelink) fl.
Proof.
  intros H. apply Forall_forall. intros f Hf. rewrite forallb_forall in H. specialize (H f Hf).
  destruct (fs_open fs (fi_name f)) as [d|] eqn:Ed; [|discriminate].
  destruct (fs_stat fs (fi_name f)) as [n|] eqn:En; [|discriminate].
  apply andb_true_iff in H as [Ha Hb]. exists d. split; [exact Ed|].
  unfold looks_prelinked. rewrite Ed, En, Hb. cbn [negb andb]. split; [lia|]. left. f_equal; lia.
Qed.

Lemma many_readable : Forall (readable_file many_disk no_prelink) many_files.
Proof. apply readable_all. vm_compute. reflexivity. Qed.

(** A file, one that is prelinked and has two blocks, a link, and a file. *)
Definition pre_files : list file_info :=
  [ mkfi [47; 97] 0 ex_md5 0 3000 33188 3 [] 0
  ; mkfi [47; 112] 0 ex_md5 0 9000 33261 3 [] 0
  ; mkfi [47; 108] 0 [] 0 0 41471 3 [97; 98; 99] 0
  ; mkfi [47; 98] 0 ex_md5 0 10 33188 3 [] 0 ].
Definition pre_disk : fsys :=
  disk [([47; 97], count (Z.to_nat 3000) 7); ([47; 112], elf_case 3 UNDO_NAME); ([47; 98], count 10 40)].
Definition undone (d : list Z) (name : list Z) : res (list Z) := if list_eqb name [47; 112] then Ok d else Err EIo.
Definition pre_undo : list Z -> res (list Z) := undone (count (Z.to_nat 9000) 11).
Definition pre_copies : list (Z * Z) := [(3100, 9000); (u32 (-11900), 40); (12200, 20)].

(** A file, a link whose target begins in the first block and ends in the second, and a prelinked file. *)
Definition cross_files : list file_info :=
  [ mkfi [47; 97] 0 ex_md5 0 7800 33188 3 [] 0
  ; mkfi [47; 108] 0 [] 0 0 41471 3 (count 600 0) 0
  ; mkfi [47; 112] 0 ex_md5 0 400 33261 3 [] 0 ].
Definition cross_disk : fsys := disk [([47; 97], count (Z.to_nat 7800) 7); ([47; 112], elf_case 3 UNDO_NAME)].
Definition cross_undo : list Z -> res (list Z) := undone (count 400 11).
(** A prelinked file with three blocks. *)
Definition long_files : list file_info := [ mkfi [47; 112] 0 ex_md5 0 20000 33261 3 [] 0 ].
Definition long_undo : list Z -> res (list Z) := undone (count (Z.to_nat 20000) 11).
