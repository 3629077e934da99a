(** * FillCases: concrete archives for the block sources *)
From Verif Require Import Base BaseLemmas Utils CpioHeader Rpm Expand Archive SpecArchive ArchiveCases SpecDelta SpecBlocks Blocks
     ToyLibs Fill.

(** Bytes of the copies read from an old RPM through the sequence made from it, and what the copies denote
    in the altered archive made. *)
Definition standard_case (files : list file_info) (r : rpm) (copies : list (Z * Z)) : option (res (list (list Z)) * list (list Z)) :=
  match parse_cpio_files toylibs None false files false false r with
  | Ok (cpio, sequence, _) =>
      match expand_sequence toylibs None (Some sequence) files false with
      | Ok idx =>
          Some ('(_, l) <- (b <- blocks_create ssrc (zlen cpio) copies (standard_source r idx) 0 ;;
                            read_copies ssrc 1 (in_order ssrc 1 (next_standard files idx)) b copies 0 0) ;;
                Ok l,
                map (fun '(o, l) => slice cpio o l) (extents 0 copies))
      | _ => None
      end
  | _ => None
  end.

(** A file whose padding is not zero. *)
Definition dirty_archive : list Z :=
  firstn 121 (member 33188 [97] [10; 20; 30; 40; 50]) ++ [7; 8; 9] ++ trailer.
Definition dirty_rpm : rpm := mkrpm [] [] [] dirty_archive 0 0.

(** Two members with one name, the first with a size other than that of the file. *)
Definition twice_archive : list Z := member 33188 [97] [1; 2; 3] ++ member 33188 [97] [10; 20; 30; 40; 50] ++ trailer.
Definition twice_rpm : rpm := mkrpm [] [] [] twice_archive 0 0.

(** A header without a name after one with the wrong name. *)
Definition gap_archive : list Z := member 33188 [122] [1; 2; 3] ++ nameless.
Definition gap_rpm : rpm := mkrpm [] [] [] gap_archive 0 0.

(** A header of 20 bytes and 20000 bytes of archive. *)
Fixpoint count (n : nat) (i : Z) : list Z := match n with O => [] | S n => i mod 251 :: count n (i + 1) end.
Definition old_rpm : rpm := mkrpm [] [] (count 20 100) (count (Z.to_nat 20000) 0) 0 0.
Definition old_copies : list (Z * Z) := [(12000, 8000); (u32 (-20000), 10000); (1, 5)].

Definition ex_index : list cpio_file := [mkcf 0 116 8 0; mkcf 3 116 4 124; mkcf 2 116 0 244; mkcf (-1) 124 0 360].
Definition second_block : res (list Z * list Z) :=
  '(s, x) <- next_standard ex_files ex_index (standard_source ex_rpm ex_index) ;;
  '(_, y) <- next_standard ex_files ex_index s ;; Ok (x, y).
