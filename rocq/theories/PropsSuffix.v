(** * PropsSuffix: C47 and C48, the suffix sort *)
From Verif Require Import Base Seq Search Suffix SpecSuffix SuffixSearch.

(** C47: the array and the table of a text of at least one byte. *)
Theorem C47_create : forall old, bytes old -> 0 < zlen old < 2 ^ 62 ->
  exists Ix F, sfxsrt_create old = Ok (Ix, F) /\ suffix_index old Ix F.
Proof. exact create_index. Qed.
Print Assumptions C47_create.

(** C47: the places between two entries of the table are those of the suffixes that start
    with a byte. *)
Theorem C47_buckets : forall old Ix F, bytes old -> 0 < zlen old < 2 ^ 62 -> sfxsrt_create old = Ok (Ix, F) ->
  forall k c, 0 <= c < 256 -> padding old < k <= zlen old + padding old ->
  (getz old (getz Ix k) = c <-> getz F c < k <= getz F (c + 1)).
Proof. exact bucket_of. Qed.
Print Assumptions C47_buckets.

Definition made (r : res (list Z * list Z)) (P : list Z -> list Z -> Prop) : Prop :=
  match r with Ok (Ix, F) => P Ix F | _ => False end.

(** "banana": the suffixes "a", "ana", "anana", "banana", "na", "nana" in places 2 to 7. *)
Definition banana : list Z := [98; 97; 110; 97; 110; 97].
Example C47_banana : bytes banana /\ 0 < zlen banana < 2 ^ 62 /\
  made (sfxsrt_create banana) (fun Ix F => Ix = [7; 6; 5; 3; 1; 0; 4; 2; 0] /\ map (getz F) [97; 98; 99; 110; 111] = [1; 4; 5; 5; 7]).
Proof. split; [repeat constructor; intro; discriminate|]. split; [split; reflexivity|]. vm_compute. split; reflexivity. Qed.

(** C47: the first byte of an empty text is read. *)
Theorem C47_empty_refuted : exists old, bytes old /\ sfxsrt_create old = Ub OobRead.
Proof. exists []. split; [constructor|]. vm_compute. reflexivity. Qed.
Print Assumptions C47_empty_refuted.

(** C48: the search keeps inside of both texts, ends, and what it reports is there. *)
Theorem C48_search : forall old Ix F new delta scan, bytes old -> 0 < zlen old < 2 ^ 62 -> sfxsrt_create old = Ok (Ix, F) ->
  bytes new -> zlen new < 2 ^ 62 -> 0 <= scan <= zlen new -> - scan <= delta <= zlen old ->
  exists scan' pos len, sfxsrt_search Ix F old new (u64 delta) scan = Ok (scan', pos, len) /\
    scan <= scan' <= zlen new /\ (scan' < zlen new -> fits_at old new scan' pos len).
Proof. exact search_safe. Qed.
Print Assumptions C48_search.

(** C48: no other position has more, if [new] does not have the last byte of [old]. *)
Theorem C48_longest_partial : forall old Ix F new delta scan, bytes old -> 0 < zlen old < 2 ^ 62 -> sfxsrt_create old = Ok (Ix, F) ->
  bytes new -> zlen new < 2 ^ 62 -> 0 <= scan <= zlen new -> - scan <= delta <= zlen old -> last_absent old new scan ->
  exists scan' pos len, sfxsrt_search Ix F old new (u64 delta) scan = Ok (scan', pos, len) /\
    scan <= scan' <= zlen new /\ (scan' < zlen new -> fits_at old new scan' pos len /\ at_most old new scan' len).
Proof. exact search_longest. Qed.
Print Assumptions C48_longest_partial.

(** C48: then, with no place to compare with, the result is the first position of [new] of
    which [old] has more than 32 bytes. *)
Theorem C48_first_partial : forall old Ix F new scan, bytes old -> 0 < zlen old < 2 ^ 62 -> sfxsrt_create old = Ok (Ix, F) ->
  bytes new -> zlen new < 2 ^ 62 -> 0 <= scan <= zlen new -> last_absent old new scan ->
  exists scan' pos len, sfxsrt_search Ix F old new (zlen old) scan = Ok (scan', pos, len) /\
    scan <= scan' <= zlen new /\ (forall q, scan <= q < scan' -> at_most old new q 32) /\
    (scan' < zlen new -> 32 < len /\ fits_at old new scan' pos len /\ at_most old new scan' len).
Proof. exact search_long. Qed.
Print Assumptions C48_first_partial.

(** C48: in a text of one byte repeated, the search does not find that text itself. *)
Theorem C48_longest_refuted : exists old new Ix F pos len, bytes old /\ 0 < zlen old < 2 ^ 62 /\
  sfxsrt_create old = Ok (Ix, F) /\ sfxsrt_search Ix F old new (zlen old) 0 = Ok (zlen new, pos, len) /\
  fits_at old new 0 0 33.
Proof.
  assert (H : made (sfxsrt_create (repeat 97 33)) (fun Ix F =>
      sfxsrt_search Ix F (repeat 97 33) (repeat 97 33) 33 0 = Ok (33, 31, 1))) by (vm_compute; reflexivity).
  exists (repeat 97 33), (repeat 97 33). destruct (sfxsrt_create (repeat 97 33)) as [[Ix F]| | |]; [|destruct H..].
  exists Ix, F, 31, 1. split; [repeat constructor; intro; discriminate|]. split; [split; reflexivity|]. split; [reflexivity|].
  split; [exact H|]. split; [split; [intro; discriminate|reflexivity]|reflexivity].
Qed.
Print Assumptions C48_longest_refuted.

(** A text whose last byte the new one does not have: the match of 40 bytes at position 1 is
    found at position 2 of the new text; compared with that place, nothing else is. *)
Definition forty : list Z := [1; 2; 3; 4; 5; 6; 7; 8; 9; 10; 11; 12; 13; 14; 15; 16; 17; 18; 19; 20;
  21; 22; 23; 24; 25; 26; 27; 28; 29; 30; 31; 32; 33; 34; 35; 36; 37; 38; 39; 40].
Example C48_forty : bytes (9 :: forty ++ [50]) /\ bytes ([8; 7] ++ forty ++ [60]) /\
  0 < zlen (9 :: forty ++ [50]) < 2 ^ 62 /\ last_absent (9 :: forty ++ [50]) ([8; 7] ++ forty ++ [60]) 0 /\
  made (sfxsrt_create (9 :: forty ++ [50])) (fun Ix F =>
      sfxsrt_search Ix F (9 :: forty ++ [50]) ([8; 7] ++ forty ++ [60]) 42 0 = Ok (2, 1, 40) /\
      sfxsrt_search Ix F (9 :: forty ++ [50]) ([8; 7] ++ forty ++ [60]) (u64 (-1)) 1 = Ok (43, 1, 0)).
Proof.
  split; [repeat constructor; intro; discriminate|]. split; [repeat constructor; intro; discriminate|]. split; [split; reflexivity|].
  split; [|vm_compute; split; reflexivity].
  intros i Hi E. assert (H : forall k, (k < 43)%nat -> nth k ([8; 7] ++ forty ++ [60]) 0 <> 50).
  { intros k Hk. do 43 (destruct k as [|k]; [cbn; discriminate|]). exfalso. lia. }
  apply (H (Z.to_nat i)); [change (zlen ([8; 7] ++ forty ++ [60])) with 43 in Hi; lia|exact E].
Qed.
