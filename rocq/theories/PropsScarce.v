(** * PropsScarce: options of [drpm_make] when memory runs out (C51) *)
From Verif Require Import Base Utils DeltaComp Stream Rpm Delta Make Options SpecOptions OptionsScarce SpecScarce ScarceProofs.

(** C51: whichever allocations fail in a history of calls, nothing undefined happens; every call returns success, the argument
    error exactly for arguments that are refused, or the memory error, and that only if an allocation failed; a call that
    fails changes nothing, and the options say what the calls that succeeded have made of them.  Except for the calls that
    [spared] excludes: copies of options with strings while an allocation fails, and patches given for the first time
    while memory is there for the first string only. *)
Theorem C51_history_partial : forall cs,
  Forall strings_ok (map fst cs) -> Forall proper_copy (map fst cs) ->
  let '(w, rs) := scarce_calls no_vars cs in
  all_spared no_plains cs rs ->
  exists p, after_all no_plains cs rs = Some p /\ forall x, says_var (w x) (p x).
Proof. exact scarce_history. Qed.
Print Assumptions C51_history_partial.

(** C51: if all allocations of a call succeed, it does what it does in the model without failing allocations (C21). *)
Theorem C51_plenty : forall w c ms, forallb (fun m : bool => m) ms = true ->
  snd (scarce_call w c ms) = snd (do_call w c) /\
  (snd (do_call w c) = Ok tt -> forall x, fst (scarce_call w c ms) x = fst (do_call w c) x).
Proof. exact plenty_same. Qed.
Print Assumptions C51_plenty.

(** C51: copying options never reports that memory ran out, and each string of the copy is that of the source or missing. *)
Theorem C51_copy : forall w dst src d s q ms, dst <> src -> w dst = Some d -> w src = Some s -> says s q ->
  exists o, snd (scarce_call w (Copy dst src) ms) = Ok tt /\ fst (scarce_call w (Copy dst src) ms) dst = Some o /\
  (holds (mo_seqfile o) (q_seqfile q) \/ holds (mo_seqfile o) None) /\
  (holds (mo_print o) (option_map fst (q_patches q)) \/ holds (mo_print o) None) /\
  (holds (mo_patch o) (option_map snd (q_patches q)) \/ holds (mo_patch o) None).
Proof. exact copy_silent. Qed.
Print Assumptions C51_copy.

(** Options copied while memory runs out: success is returned, but strings are missing. *)
Theorem C51_copy_refuted : exists cs o p,
  Forall strings_ok (map fst cs) /\ Forall proper_copy (map fst cs) /\
  snd (scarce_calls no_vars cs) = [Ok tt; Ok tt; Ok tt; Ok tt; Ok tt] /\
  fst (scarce_calls no_vars cs) 2 = Some o /\ fst (plain_calls no_plains (map fst cs)) 2 = Some p /\
  q_seqfile p = Some [115] /\ mo_seqfile o <> None /\ q_patches p = Some ([112], [113]) /\ mo_print o = None /\ mo_patch o = None.
Proof.
  exists [(Init (Some 1), []); (SetSeqfile 1 (Some [115]), []); (AddPatches 1 (Some [112]) (Some [113]), []); (Init (Some 2), []);
          (Copy 2 1, [true; false])].
  eexists. eexists.
  split; [repeat constructor; cbn; intuition congruence|]. split; [repeat constructor; cbn; congruence|].
  split; [vm_compute; reflexivity|]. split; [vm_compute; reflexivity|]. split; [vm_compute; reflexivity|].
  repeat split; try reflexivity. discriminate.
Qed.
Print Assumptions C51_copy_refuted.

(** Patches given for the first time, with memory for the first string only: the memory error is returned, and the next time
    patches are given, the end of a string is looked for in memory that was never written. *)
Theorem C51_patches_refuted : exists cs,
  Forall strings_ok (map fst cs) /\ Forall proper_copy (map fst cs) /\
  snd (scarce_calls no_vars cs) = [Ok tt; Err EMemory; Ub OobRead].
Proof.
  exists [(Init (Some 1), []); (AddPatches 1 (Some [112]) (Some [113]), [true; false]); (AddPatches 1 (Some [112]) (Some [113]), [])].
  split; [repeat constructor; cbn; intuition congruence|]. split; [repeat constructor; cbn; congruence|]. vm_compute. reflexivity.
Qed.
Print Assumptions C51_patches_refuted.

(** Failures at every place where they do no harm: no options, a longer name, the first and the second string of patches that
    replace others; and a copy without strings. *)
Example C51_case :
  let cs := [(Init (Some 1), [false]); (SetVersion 1 2, []); (Init (Some 1), []); (Init (Some 2), []);
             (Copy 2 1, [false; false]); (SetSeqfile 1 (Some [115]), [false]); (SetSeqfile 1 (Some [115; 116]), []);
             (SetSeqfile 1 (Some [97; 98; 99]), [false]); (SetSeqfile 1 (Some [97]), [false]);
             (AddPatches 1 (Some [112]) (Some [113]), [false]); (AddPatches 1 (Some [112]) (Some [113; 114]), []);
             (AddPatches 1 (Some [112; 112]) (Some [113; 114; 115]), [true; false]);
             (AddPatches 1 (Some [112; 112]) None, [true; false]); (Copy 2 1, [true; true; true]); (Destroy (Some 1), [])] in
  Forall strings_ok (map fst cs) /\ Forall proper_copy (map fst cs) /\
  let '(w, rs) := scarce_calls no_vars cs in
  all_spared no_plains cs rs /\
  rs = [Err EMemory; Err EArgs; Ok tt; Ok tt; Ok tt; Err EMemory; Ok tt; Err EMemory; Ok tt; Err EMemory; Ok tt; Err EMemory;
        Err EArgs; Ok tt; Ok tt] /\
  option_map (fun p => p 2) (after_all no_plains cs rs) =
    Some (Some (mkplain false 3 None (Some (2, 0)) (Some [97]) (Some ([112], [113; 114])) 0)).
Proof.
  cbv zeta. split; [repeat constructor; cbn; intuition congruence|]. split; [repeat constructor; cbn; congruence|].
  cbn. repeat split; try discriminate; intros; try discriminate; try congruence.
  - exfalso. vm_compute in H. injection H as <-. destruct H0 as [H0|H0]; apply H0; reflexivity.
  - exfalso. vm_compute in H. injection H as <-. discriminate H0.
Qed.
