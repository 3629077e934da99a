(** * PropsOptions: options of [drpm_make] (C21) *)
From Verif Require Import Base Utils DeltaComp Stream Rpm Delta Make Options SpecOptions OptionsProofs ToyLibs.

(** C21: after any history of calls on any number of options, each call has returned what the plain record says (success or the
    argument error), nothing undefined has happened, and the options say what the plain records say. *)
Theorem C21_history_partial : forall cs,
  Forall strings_ok cs -> Forall proper_copy cs -> destroys_ok no_plains cs ->
  let '(w, rs) := do_calls no_vars cs in
  let '(p, ps) := plain_calls no_plains cs in
  rs = map (fun accepted : bool => if accepted then Ok tt else Err EArgs) ps /\ forall x, says_var (w x) (p x).
Proof. exact history. Qed.
Print Assumptions C21_history_partial.

(** C21: a call that fails returns the argument error and changes nothing, whatever the state. *)
Theorem C21_refused : forall w c w' e, do_call w c = (w', Err e) -> e = EArgs /\ w' = w.
Proof. exact refused. Qed.
Print Assumptions C21_refused.

(** C21: values are always in range. *)
Theorem C21_range : forall cs x p, fst (plain_calls no_plains cs) x = Some p -> in_range p.
Proof. exact range. Qed.
Print Assumptions C21_range.

(** C21: the plain record is all that matters to [drpm_make]. *)
Theorem C21_make : forall L o p old new named, says o p ->
  drpm_make L (Some (given o)) old new named = drpm_make L (Some (asked p)) old new named.
Proof. exact make_says. Qed.
Print Assumptions C21_make.

(** C21: fresh options are as good as none. *)
Theorem C21_fresh : forall L w x old new named, exists o,
  do_call w (Init (Some x)) = (assign w x (Some o), Ok tt) /\
  drpm_make L (Some (given o)) old new named = drpm_make L None old new named.
Proof. intros. exists defaults. split; [reflexivity|apply make_fresh]. Qed.
Print Assumptions C21_fresh.

(** Options copied to themselves lose their strings. *)
Theorem C21_self_copy_refuted : exists cs o p,
  Forall strings_ok cs /\ destroys_ok no_plains cs /\
  fst (do_calls no_vars cs) 1 = Some o /\ fst (plain_calls no_plains cs) 1 = Some p /\
  q_seqfile p = Some [115] /\ mo_seqfile o = None.
Proof.
  exists [Init (Some 1); SetSeqfile 1 (Some [115]); Copy 1 1]. eexists. eexists.
  split; [repeat constructor; cbn; intuition congruence|]. split; [cbn; auto|].
  split; [vm_compute; reflexivity|]. split; [vm_compute; reflexivity|]. split; vm_compute; reflexivity.
Qed.
Print Assumptions C21_self_copy_refuted.

(** Options destroyed twice: the null pointer is dereferenced the second time. *)
Theorem C21_destroy_twice_refuted : exists cs, Forall strings_ok cs /\ Forall proper_copy cs /\
  snd (do_calls no_vars cs) = [Ok tt; Ok tt; Ub NullDeref].
Proof.
  exists [Init (Some 1); Destroy (Some 1); Destroy (Some 1)].
  split; [repeat constructor|]. split; [repeat constructor|]. vm_compute. reflexivity.
Qed.
Print Assumptions C21_destroy_twice_refuted.

(** Names of growing and shrinking length, a copy, refused calls. *)
Example C21_case :
  let cs := [SetType 1 0; Init (Some 1); SetSeqfile 1 (Some [115; 101; 113]); SetSeqfile 1 (Some [115]);
             SetSeqfile 1 (Some [97; 98]); SetVersion 1 4; SetVersion 1 2; SetDeltaComp 1 3 9; SetDeltaComp 1 7 9; SetAddblkComp 1 1 10;
             ForbidAddblk 1; Init (Some 2); AddPatches 1 (Some [112]) (Some [113; 114]); AddPatches 1 (Some [112; 112]) None; Copy 2 1;
             AddPatches 1 (Some [112; 112; 112]) (Some []); Destroy (Some 1); SetSeqfile 2 (Some [1; 2; 3; 4; 5]); Init None] in
  Forall strings_ok cs /\ Forall proper_copy cs /\ destroys_ok no_plains cs /\
  snd (plain_calls no_plains cs) = [false; true; true; true; true; false; true; true; false; false; true; true; true; false; true;
                                    true; true; true; false] /\
  fst (plain_calls no_plains cs) 2 = Some (mkplain false 2 (Some (3, 9)) None (Some [1; 2; 3; 4; 5]) (Some ([112], [113; 114])) 0) /\
  fst (do_calls no_vars cs) 1 = None.
Proof.
  cbv zeta. split; [repeat constructor; cbn; intuition congruence|]. split; [repeat constructor; cbn; congruence|].
  split; [cbn; repeat split; try discriminate|]. split; [reflexivity|]. split; reflexivity.
Qed.
