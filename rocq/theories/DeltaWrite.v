(** * DeltaWrite: model of [write_deltarpm] and [write_seqfile], /repo/src/drpm_write.c *)
From Verif Require Import Base Utils DeltaComp Stream Rpm Delta Diff.

(** Pointers: the pieces written by the loop of drpm_write.c lines 202-206. *)
Fixpoint int_pieces (new : list Z) (offs : list Z) (ints : list (Z * Z)) : res (list (list Z)) :=
  match ints with
  | [] => Ok []
  | (_, len) :: r =>
      match offs with
      | [] => Ub OobRead
      | o :: offs =>
          p <- (if len =? 0 then Ok [] else rd_range new o len) ;;
          ps <- int_pieces new offs r ;;
          Ok (p :: ps)
      end
  end.

(** "DLT" and the version character, drpm_write.c lines 88-92. *)
Definition version_str (d : deltarpm) : list Z := [68; 76; 84; u8 (48 + d_version d)].

(** The pieces written to the compressed stream, drpm_write.c lines 94-211, in order.
    An array whose count exceeds the array is read out of bounds. *)
Definition delta_pieces (d : deltarpm) : res (list (list Z)) :=
  let intro :=
    [version_str d; create_be32 (u32 (zlen (d_src_nevr d) + 1)); d_src_nevr d ++ [0];
     create_be32 (u32 (zlen (d_seq d))); d_seq d; d_md5 d] in
  v2 <- (if 2 <=? d_version d then
           match encode_comp (d_tcomp d) (d_tlevel d) with
           | None => Err EProg
           | Some c =>
               v3 <- (if 3 <=? d_version d then
                        o <- rd_range (d_off d) 0 (u32 (d_offn d * 2) / 2) ;;
                        Ok ([create_be32 (d_hlen d); create_be32 (d_offn d)]
                            ++ map (fun p => create_be32 (fst p)) o
                            ++ map (fun p => create_be32 (sm_encode (snd p))) o)
                      else Ok []) ;;
               Ok ([create_be32 (d_size d); create_be32 c; create_be32 (u32 (zlen (d_param d)));
                    d_param d] ++ v3)
           end
         else Ok []) ;;
  ints <- rd_range (d_int d) 0 (u32 (d_intn d * 2) / 2) ;;
  exts <- rd_range (d_ext d) 0 (u32 (d_extn d * 2) / 2) ;;
  let copies :=
    [create_be32 (u32 (zlen (d_leadsig d))); d_leadsig d; create_be32 (d_fmtoff d);
     create_be32 (d_intn d); create_be32 (d_extn d)]
    ++ map (fun p => create_be32 (fst p)) ints
    ++ map (fun p => create_be32 (snd p)) ints
    ++ map (fun p => create_be32 (sm_encode (fst p))) exts
    ++ map (fun p => create_be32 (snd p)) exts in
  let be_len n := if 3 <=? d_version d then create_be64 n else create_be32 (u32 n) in
  let add := if d_type d =? TYPE_STANDARD
             then [create_be32 (u32 (zlen (d_add d))); d_add d]
             else [create_be32 0] in
  data <- match d_idata d with
          | IPtrs new offs => ints' <- rd_range (d_int d) 0 (d_intn d) ;; int_pieces new offs ints'
          | IBytes b => p <- rd_range b 0 (d_intlen d) ;; Ok [p]
          end ;;
  Ok (intro ++ v2 ++ copies ++ [be_len (d_extlen d)] ++ add ++ [be_len (d_intlen d)] ++ data).

Section Write.
Variable L : libs.

(** The calls of [compstrm_write] one after the other. *)
Fixpoint write_pieces (s : cstrm) (ps : list (list Z)) : res cstrm :=
  match ps with
  | [] => Ok s
  | p :: r => '(s, _) <- compstrm_write (lb_codec L) s p ;; write_pieces s r
  end.

(** [write_deltarpm], drpm_write.c lines 67-272: the content of the file. *)
Definition write_deltarpm (d : deltarpm) : res (list Z) :=
  if negb (d_type d =? TYPE_STANDARD) && negb (d_type d =? TYPE_RPMONLY) then Err EProg
  else
    s <- compstrm_init (lb_codec L) false (d_comp d) (d_level d) ;;
    ps <- delta_pieces d ;;
    s <- write_pieces s ps ;;
    '(_, _, strm) <- compstrm_finish (lb_codec L) s ;;
    match d_head d with
    | HRpm r =>
        if d_type d =? TYPE_STANDARD then
          let header := rpm_fetch_header r in
          let r := rpm_signature_make L r (zlen header + zlen strm) (lb_md5 L (header ++ strm)) in
          Ok (fst (rpm_write L r false false) ++ strm)
        else Err EProg (* the union member is determined by the type *)
    | HNevr nevr =>
        if d_type d =? TYPE_RPMONLY then
          Ok ([100; 114; 112; 109] ++ version_str d
              ++ create_be32 (u32 (zlen nevr + 1)) ++ nevr ++ [0]
              ++ create_be32 (u32 (zlen (d_add d))) ++ d_add d ++ strm)
        else Err EProg
    end.

(** [write_seqfile], drpm_write.c lines 274-297: "%s-%s\n" with the source NEVR and the
    sequence in hexadecimal.  The size of the buffer of line 283 is computed in 32 bits. *)
Definition write_seqfile (d : deltarpm) : res (list Z) :=
  let len := zlen (d_seq d) in
  hex <- (if u32 (len * 2 + 1) <? len * 2 + 1 then Ub OobWrite else dump_hex (d_seq d) len) ;;
  Ok (d_src_nevr d ++ [45] ++ hex ++ [10]).
End Write.
