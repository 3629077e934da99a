(** * Property C13: the block cache is transparent

    Specification vocabulary: [SpecBlocks], and [extents] of [SpecDelta]. *)
From Verif Require Import Base SpecDelta SpecBlocks Blocks BlocksProofs.

(** C13: whatever the number of blocks the cache may keep, the counter that decides when it is cleaned,
    and the order of the copies, reading the copies gives the data they denote. *)
Theorem C13_cache_transparent : forall S capacity next (src : S) clean ext len copies,
  1 <= capacity -> 0 < len <= zlen ext -> block_count len < 2 ^ 32 - 1 -> Forall (in_data len) (extents 0 copies) ->
  yields next src (first_blocks ext len) ->
  exists b b', blocks_create S len copies src clean = Ok b /\
  read_copies S capacity (in_order S capacity next) b copies 0 0 = Ok (b', map (fun '(o, l) => slice ext o l) (extents 0 copies)).
Proof. exact cache_transparent. Qed.
Print Assumptions C13_cache_transparent.

(** A source whose state is the list of blocks to come. *)
Definition pop (l : list (list Z)) : res (list (list Z) * list Z) :=
  match l with [] => Err EIo | x :: l => Ok (l, x) end.
Lemma pop_yields l : yields pop l l.
Proof. induction l; econstructor; [reflexivity|auto]. Qed.

(** Five blocks, the last one not full; copies going forth and back over them. *)
Fixpoint sample (n : nat) (i : Z) : list Z := match n with O => [] | S n => (i * 7 + i / 256) mod 251 :: sample n (i + 1) end.
Definition ex_ext : list Z := sample (Z.to_nat 34000) 0.
Definition ex_copies : list (Z * Z) :=
  [(0, 20000); (8000, 5000); (u32 (-33000), 33000); (u32 (-16500), 8300); (0, 0); (8100, 100); (u32 (-30000), 1); (3, 17000)].

Example C13_case :
  Forall (in_data 33001) (extents 0 ex_copies) /\ yields pop (first_blocks ex_ext 33001) (first_blocks ex_ext 33001) /\
  block_count 33001 = 5 /\
  forallb (fun c =>
    match blocks_create _ 33001 ex_copies (first_blocks ex_ext 33001) 7 with
    | Ok b => match read_copies _ c (in_order _ c pop) b ex_copies 0 0 with
              | Ok (b', l) => (zlen l =? zlen ex_copies) &&
                              forallb (fun '(x, (o, l)) => list_eqb x (slice ex_ext o l)) (combine l (extents 0 ex_copies)) &&
                              (zlen (bk_slots b') <=? c)
              | _ => false
              end
    | _ => false
    end) [1; 2; 3; 5; 100] = true /\
  (* with two blocks in memory, pages are written *)
  match blocks_create _ 33001 ex_copies (first_blocks ex_ext 33001) 7 with
  | Ok b => match read_copies _ 2 (in_order _ 2 pop) b ex_copies 0 0 with Ok (b', _) => 1 <? zlen (bk_file b') | _ => false end
  | _ => false
  end = true.
Proof.
  split; [|split; [apply pop_yields|split; [vm_compute; reflexivity|split; vm_compute; reflexivity]]].
  assert (H : forallb (fun e => (0 <=? fst e) && (0 <=? snd e) && (snd e <? 2 ^ 32) && (0 <? fst e + snd e) && (fst e + snd e <=? 33001))
                (extents 0 ex_copies) = true) by (vm_compute; reflexivity).
  rewrite forallb_forall in H. apply Forall_forall. intros e He. apply H in He. unfold in_data. lia.
Qed.

(** Without external data there are 2^51 blocks: the cache cannot be set up. *)
Example C13_no_data : forall S copies (src : S) clean, blocks_create S 0 copies src clean = Err EOverflow.
Proof. reflexivity. Qed.
