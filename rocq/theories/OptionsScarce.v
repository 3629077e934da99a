(** * OptionsScarce: drpm_options.c when memory can run out

    The functions of Options.v once more, with the outcome of every [malloc] and [realloc].  Freed memory is not
    represented here (see OwnRead.v and OwnClient.v for that). *)
From Verif Require Import Base Utils DeltaComp Stream Rpm Delta Make Options.

(** The outcomes of the allocations in a call, in order; those that are not listed succeed. *)
Definition answers := list bool.
Definition answer (ms : answers) : bool * answers := match ms with [] => (true, []) | m :: ms => (m, ms) end.

(** Making room for a string, drpm_options.c lines 241-245, 259-263 and 264-268; [None] if there is no memory. *)
Definition room (b : buffer) (s : list Z) (ms : answers) : res (option (list Z) * answers) :=
  grow <- match b with None => Ok true | Some old => n <- strlen old ;; Ok (n <? zlen s) end ;;
  if grow : bool then
    let '(m, ms) := answer ms in Ok (if m then Some (realloc b (zlen s + 1)) else None, ms)
  else Ok (b, ms).

Definition with_seqfile (o : options) (b : buffer) : options :=
  mkoptions (mo_rpmonly o) (mo_version o) (mo_from_rpm o) (mo_comp o) (mo_level o) (mo_addblk o) (mo_acomp o) (mo_alevel o)
    b (mo_print o) (mo_patch o) (mo_mbytes o).
Definition with_print (o : options) (b : buffer) : options :=
  mkoptions (mo_rpmonly o) (mo_version o) (mo_from_rpm o) (mo_comp o) (mo_level o) (mo_addblk o) (mo_acomp o) (mo_alevel o)
    (mo_seqfile o) b (mo_patch o) (mo_mbytes o).
Definition with_patch (o : options) (b : buffer) : options :=
  mkoptions (mo_rpmonly o) (mo_version o) (mo_from_rpm o) (mo_comp o) (mo_level o) (mo_addblk o) (mo_acomp o) (mo_alevel o)
    (mo_seqfile o) (mo_print o) b (mo_mbytes o).

(** The outcome of something that failed or was undefined, with the options as they are then. *)
Definition stop {A} (o : options) (r : res A) : options * res unit :=
  (o, match r with Ok _ => Ok tt | Err e => Err e | Ub u => Ub u | NoFuel => NoFuel end).

(** [drpm_make_options_set_seqfile], drpm_options.c lines 230-250. *)
Definition scarce_seqfile (o : options) (name : option (list Z)) (ms : answers) : options * res unit :=
  match name with
  | None => (with_seqfile o None, Ok tt)
  | Some s =>
      match room (mo_seqfile o) s ms with
      | Ok (Some b, _) =>
          match strcpy b s with
          | Ok b => (with_seqfile o (Some b), Ok tt)
          | r => stop o r
          end
      | Ok (None, _) => (o, Err EMemory)
      | r => stop o r
      end
  end.

(** [drpm_make_options_add_patches], drpm_options.c lines 252-274.  The first buffer is in its place, not yet filled, when
    the second one is asked for. *)
Definition scarce_patches (o : options) (print patch : option (list Z)) (ms : answers) : options * res unit :=
  match print, patch with
  | Some s, Some t =>
      match room (mo_print o) s ms with
      | Ok (Some b, ms) =>
          let o := with_print o (Some b) in
          match room (mo_patch o) t ms with
          | Ok (Some c, _) =>
              let o := with_patch o (Some c) in
              match (b <- strcpy b s ;; c <- strcpy c t ;; Ok (b, c)) with
              | Ok (b, c) => (with_patch (with_print o (Some b)) (Some c), Ok tt)
              | r => stop o r
              end
          | Ok (None, _) => (o, Err EMemory)
          | r => stop o r
          end
      | Ok (None, _) => (o, Err EMemory)
      | r => stop o r
      end
  | _, _ => (o, Err EArgs)
  end.

(** A string copied, drpm_options.c lines 106-110, 112-116 and 118-122; [None] if there is no memory. *)
Definition scarce_string (b : buffer) (ms : answers) : res (option buffer * answers) :=
  match b with
  | None => Ok (Some None, ms)
  | Some _ => let '(m, ms) := answer ms in if m then b <- copy_string b ;; Ok (Some b, ms) else Ok (None, ms)
  end.

(** [drpm_make_options_copy], drpm_options.c lines 84-125: when memory runs out, the rest of the strings is left out and
    success is returned (lines 108, 114 and 120). *)
Definition scarce_strings (d s : options) (ms : answers) : options * res unit :=
  match scarce_string (mo_seqfile s) ms with
  | Ok (Some a, ms) =>
      let d := with_seqfile d a in
      match scarce_string (mo_print s) ms with
      | Ok (Some b, ms) =>
          let d := with_print d b in
          match scarce_string (mo_patch s) ms with
          | Ok (Some c, _) => (with_patch d c, Ok tt)
          | Ok (None, _) => (d, Ok tt)
          | r => stop d r
          end
      | Ok (None, _) => (d, Ok tt)
      | r => stop d r
      end
  | Ok (None, _) => (d, Ok tt)
  | r => stop d r
  end.
Definition scarce_copy (w : vars) (dst src : Z) (ms : answers) : vars * res unit :=
  match w dst, w src with
  | Some _, Some s =>
      let d := copy_numbers s in
      let w := assign w dst (Some d) in
      match w src with
      | None => (w, Err EProg)
      | Some s => let '(d, r) := scarce_strings d s ms in (assign w dst (Some d), r)
      end
  | _, _ => (w, Err EArgs)
  end.

(** A function on the options that a variable points to, as [on] in Options.v. *)
Definition scarce_on (w : vars) (x : Z) (f : options -> options * res unit) : vars * res unit :=
  match w x with
  | None => (w, Err EArgs)
  | Some o => let '(o, r) := f o in (assign w x (Some o), r)
  end.

(** A call.  If [drpm_make_options_init] gets no memory, the variable is NULL (drpm_options.c lines 35-36). *)
Definition scarce_call (w : vars) (c : call) (ms : answers) : vars * res unit :=
  match c with
  | Init (Some x) => if fst (answer ms) then do_call w c else (assign w x None, Err EMemory)
  | Copy dst src => scarce_copy w dst src ms
  | SetSeqfile x name => scarce_on w x (fun o => scarce_seqfile o name ms)
  | AddPatches x print patch => scarce_on w x (fun o => scarce_patches o print patch ms)
  | _ => do_call w c
  end.

(** A history of calls, as [do_calls] in Options.v. *)
Fixpoint scarce_calls (w : vars) (cs : list (call * answers)) : vars * list (res unit) :=
  match cs with
  | [] => (w, [])
  | (c, ms) :: cs =>
      let '(w, r) := scarce_call w c ms in
      match r with
      | Ub _ | NoFuel => (w, [r])
      | _ => let '(w, rs) := scarce_calls w cs in (w, r :: rs)
      end
  end.
