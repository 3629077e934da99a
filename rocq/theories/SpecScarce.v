(** * SpecScarce: what a program can rely on when memory runs out *)
From Verif Require Import Base Options SpecOptions OptionsScarce.

(** A call that failed for lack of memory changes nothing; options that could not be created do not exist. *)
Definition without_memory (p : plains) (c : call) : plains :=
  match c with Init (Some x) => set_plain p x None | _ => p end.

(** The plain records after a call, given what the call has returned; [None] if it may not return that. *)
Definition after (p : plains) (c : call) (ms : answers) (r : res unit) : option plains :=
  match r, plain_call p c with
  | Ok _, Some q => Some q
  | Err EArgs, None => Some p
  | Err EMemory, Some _ => if forallb (fun m => m) ms then None else Some (without_memory p c)
  | _, _ => None
  end.
Fixpoint after_all (p : plains) (cs : list (call * answers)) (rs : list (res unit)) : option plains :=
  match cs, rs with
  | [], [] => Some p
  | (c, ms) :: cs, r :: rs => match after p c ms r with Some p => after_all p cs rs | None => None end
  | _, _ => None
  end.

(** What the code gets wrong: copies for which memory runs out, and patches given for the first time if memory is there for
    the first string only. *)
Definition spared (p : plains) (c : call) (ms : answers) : Prop :=
  match c with
  | Copy _ src => forall q, p src = Some q -> q_seqfile q <> None \/ q_patches q <> None -> forallb (fun m => m) ms = true
  | AddPatches x (Some _) (Some _) => forall q, p x = Some q -> q_patches q = None -> firstn 2 ms <> [true; false]
  | Destroy (Some x) => p x <> None
  | _ => True
  end.
Fixpoint all_spared (p : plains) (cs : list (call * answers)) (rs : list (res unit)) : Prop :=
  match cs, rs with
  | (c, ms) :: cs, r :: rs => spared p c ms /\ match after p c ms r with Some p => all_spared p cs rs | None => True end
  | _, _ => True
  end.
