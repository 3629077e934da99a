(** * SpecOptions: the options of [drpm_make] as a user sees them *)
From Verif Require Import Base Utils Stream Delta Make Options.

(** No compression given: as in the new RPM.  No add block compression given: no add block. *)
Record plain := mkplain {
  q_only : bool; q_version : Z; q_comp : option (Z * Z); q_add : option (Z * Z);
  q_seqfile : option (list Z); q_patches : option (list Z * list Z); q_limit : Z
}.

Definition plain_defaults : plain := mkplain false 3 None (Some (2, 0)) None None 0.

(** Variables of the program. *)
Definition plains := Z -> option plain.
Definition set_plain (w : plains) (x : Z) (p : option plain) : plains := fun y => if y =? x then p else w y.
Definition no_plains : plains := fun _ => None.

(** The arguments that are allowed. *)
Definition compression (comp level : Z) : bool := (0 <=? comp) && (comp <=? 6) && (0 <=? level) && (level <=? 9).

(** What a call changes; [None]: the arguments are refused. *)
Definition changed (c : call) (p : plain) : option plain :=
  let '(mkplain only version comp add seqfile patches limit) := p in
  match c with
  | SetType _ t => if (t =? 0) || (t =? 1) then Some (mkplain (t =? 1) version comp add seqfile patches limit) else None
  | SetVersion _ v => if (1 <=? v) && (v <=? 3) then Some (mkplain only v comp add seqfile patches limit) else None
  | SetDeltaComp _ a b => if compression a b then Some (mkplain only version (Some (a, b)) add seqfile patches limit) else None
  | CompFromRpm _ => Some (mkplain only version None add seqfile patches limit)
  | ForbidAddblk _ => Some (mkplain only version comp None seqfile patches limit)
  | SetAddblkComp _ a b => if compression a b then Some (mkplain only version comp (Some (a, b)) seqfile patches limit) else None
  | SetSeqfile _ name => Some (mkplain only version comp add name patches limit)
  | AddPatches _ (Some a) (Some b) => Some (mkplain only version comp add seqfile (Some (a, b)) limit)
  | SetMemlimit _ n => Some (mkplain only version comp add seqfile patches n)
  | Defaults _ => Some plain_defaults
  | _ => None
  end.

(** The variable a call is about. *)
Definition variable (c : call) : Z :=
  match c with
  | Init _ | Destroy _ => 0
  | Defaults x | Copy x _ | SetType x _ | SetVersion x _ | SetDeltaComp x _ _ | CompFromRpm x | ForbidAddblk x
  | SetAddblkComp x _ _ | SetSeqfile x _ | AddPatches x _ _ | SetMemlimit x _ => x
  end.

(** One call on plain records; [None]: refused. *)
Definition plain_call (w : plains) (c : call) : option plains :=
  match c with
  | Init None | Destroy None => None
  | Init (Some x) => Some (set_plain w x (Some plain_defaults))
  | Destroy (Some x) => Some (set_plain w x None)
  | Copy dst src => match w dst, w src with Some _, Some p => Some (set_plain w dst (Some p)) | _, _ => None end
  | _ => match w (variable c) with
         | None => None
         | Some p => match changed c p with Some p => Some (set_plain w (variable c) (Some p)) | None => None end
         end
  end.

(** A history: variables at the end, and which calls were accepted. *)
Fixpoint plain_calls (w : plains) (cs : list call) : plains * list bool :=
  match cs with
  | [] => (w, [])
  | c :: cs =>
      match plain_call w c with
      | Some w => let '(w, rs) := plain_calls w cs in (w, true :: rs)
      | None => let '(w, rs) := plain_calls w cs in (w, false :: rs)
      end
  end.

(** Strings given by the program have no NUL inside. *)
Definition nul_free (s : option (list Z)) : Prop := match s with None => True | Some s => ~ In 0 s end.
Definition strings_ok (c : call) : Prop :=
  match c with
  | SetSeqfile _ s => nul_free s
  | AddPatches _ s t => nul_free s /\ nul_free t
  | _ => True
  end.

(** Options are not copied to themselves. *)
Definition proper_copy (c : call) : Prop := match c with Copy x y => x <> y | _ => True end.

(** Only what exists is destroyed. *)
Fixpoint destroys_ok (w : plains) (cs : list call) : Prop :=
  match cs with
  | [] => True
  | c :: cs => match c with Destroy (Some x) => w x <> None | _ => True end /\
               destroys_ok (match plain_call w c with Some w => w | None => w end) cs
  end.

(** The record in memory says what the plain record says. *)
Definition holds (b : buffer) (s : option (list Z)) : Prop :=
  match b, s with
  | None, None => True
  | Some b, Some s => ~ In 0 s /\ exists rest, b = s ++ 0 :: rest
  | _, _ => False
  end.
Record says (o : options) (p : plain) : Prop := {
  sa_only : mo_rpmonly o = q_only p;
  sa_version : mo_version o = q_version p;
  sa_comp : q_comp p = if mo_from_rpm o then None else Some (mo_comp o, mo_level o);
  sa_add : q_add p = if mo_addblk o then Some (mo_acomp o, mo_alevel o) else None;
  sa_seqfile : holds (mo_seqfile o) (q_seqfile p);
  sa_print : holds (mo_print o) (option_map fst (q_patches p));
  sa_patch : holds (mo_patch o) (option_map snd (q_patches p));
  sa_limit : mo_mbytes o = q_limit p
}.
Definition says_var (o : option options) (p : option plain) : Prop :=
  match o, p with None, None => True | Some o, Some p => says o p | _, _ => False end.

(** Options that [drpm_make] accepts or refuses for reasons of its own, never because of a value out of range. *)
Record in_range (p : plain) : Prop := {
  ir_version : 1 <= q_version p <= 3;
  ir_comp : match q_comp p with Some (c, l) => 0 <= c <= 6 /\ 0 <= l <= 9 | None => True end;
  ir_add : match q_add p with Some (c, l) => 0 <= c <= 6 /\ 0 <= l <= 9 | None => True end
}.

(** The plain record as arguments of [drpm_make]. *)
Definition asked (p : plain) : make_options :=
  mkopts (q_only p) (q_version p)
    (match q_comp p with None => true | Some _ => false end)
    (match q_comp p with None => 0 | Some (c, _) => c end) (match q_comp p with None => 0 | Some (_, l) => l end)
    (match q_add p with None => false | Some _ => true end)
    (match q_add p with None => 0 | Some (c, _) => c end) (match q_add p with None => 0 | Some (_, l) => l end)
    (match q_seqfile p with None => false | Some _ => true end).
