(** * Specification: the meaning of the copy instructions of a delta

    Written from the description of the deltarpm format, independently of the
    model of drpm: external copies are (signed offset change, length) pairs
    relative to the end of the previous copy; internal copies are (number of
    external copies to do first, number of bytes of internal data) pairs. *)
From Verif Require Import Base.

(** Absolute extents (offset, length) in the old data denoted by external copies,
    starting from running offset [off]. *)
Fixpoint extents (off : Z) (exts : list (Z * Z)) : list (Z * Z) :=
  match exts with
  | [] => []
  | (d, l) :: r => (off + s32 d, l) :: extents (off + s32 d + l) r
  end.

(** Byte-wise addition modulo 256. *)
Fixpoint add_bytes (xs ds : list Z) : list Z :=
  match xs, ds with
  | x :: xs', d :: ds' => (x + d) mod 256 :: add_bytes xs' ds'
  | _, _ => []
  end.

(** Take [n] items off a list, if there are that many. *)
Definition take {A} (n : Z) (l : list A) : option (list A * list A) :=
  if (0 <=? n) && (n <=? zlen l) then Some (firstn (Z.to_nat n) l, skipn (Z.to_nat n) l)
  else None.

(** Copy extents out of [old], adding the next bytes of the add data if the delta
    has an add block.  [None] if an extent is outside of [old] or the add data is
    too short. Returns the output and the rest of the add data. *)
Fixpoint copy_extents (old : list Z) (add : option (list Z)) (es : list (Z * Z))
  : option (list Z * option (list Z)) :=
  match es with
  | [] => Some ([], add)
  | (o, l) :: r =>
      if (0 <=? o) && (0 <=? l) && (o + l <=? zlen old) then
        match add with
        | None =>
            match copy_extents old None r with
            | Some (out, a) => Some (slice old o l ++ out, a)
            | None => None
            end
        | Some ds =>
            match take l ds with
            | Some (d, ds') =>
                match copy_extents old (Some ds') r with
                | Some (out, a) => Some (add_bytes (slice old o l) d ++ out, a)
                | None => None
                end
            | None => None
            end
        end
      else None
  end.

(** The output denoted by the instructions; everything must be used up. *)
Fixpoint patch (old : list Z) (add : option (list Z)) (ints es : list (Z * Z)) (data : list Z)
  : option (list Z) :=
  match ints with
  | [] =>
      match es, data, add with
      | [], [], (None | Some []) => Some []
      | _, _, _ => None
      end
  | (n, l) :: r =>
      match take n es with
      | None => None
      | Some (es1, es2) =>
          match copy_extents old add es1, take l data with
          | Some (out, add'), Some (d, data') =>
              match patch old add' r es2 data' with
              | Some rest => Some (out ++ d ++ rest)
              | None => None
              end
          | _, _ => None
          end
      end
  end.

(** What a delta with these external copies, internal copies, internal data and
    add data reconstructs from [old]. *)
Definition patch_delta (old : list Z) (exts ints : list (Z * Z)) (data : list Z)
           (add : option (list Z)) : option (list Z) :=
  patch old add ints (extents 0 exts) data.

(** ** Where each output byte comes from

    A second, data-free reading of the instructions, used to state that
    instructions denote given extents also for sizes beyond memory. *)
Inductive op : Type :=
| OCopy (off len : Z)     (** [len] bytes of the old data from [off] *)
| OData (len : Z).        (** the next [len] bytes of internal data *)

Inductive src : Type :=
| FromOld (pos : Z)       (** byte [pos] of the old data *)
| FromData (idx : Z).     (** byte [idx] of the internal data *)

(** Source of output byte [k]; [i] bytes of internal data are used up already. *)
Fixpoint byte_src (ops : list op) (i k : Z) : option src :=
  match ops with
  | [] => None
  | OCopy o l :: r => if k <? l then Some (FromOld (o + k)) else byte_src r i (k - l)
  | OData l :: r => if k <? l then Some (FromData (i + k)) else byte_src r (i + l) (k - l)
  end.

(** The operations encoded by internal copies over absolute extents. *)
Fixpoint delta_ops (ints es : list (Z * Z)) : list op :=
  match ints with
  | [] => map (fun e => OCopy (fst e) (snd e)) es
  | (n, l) :: r =>
      map (fun e => OCopy (fst e) (snd e)) (firstn (Z.to_nat n) es)
      ++ OData l :: delta_ops r (skipn (Z.to_nat n) es)
  end.
