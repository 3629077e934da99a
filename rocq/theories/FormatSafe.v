(** * FormatSafe: consistency and memory safety of the delta reader on arbitrary files *)
From Verif Require Import Base BaseLemmas Utils UtilsProofs DeltaComp SpecCodec SpecDelta SpecStream SpecFormat
  Stream StreamProofs Rpm Delta DeltaRead ReadSim.

(** ** Consistency of accepted files *)
Section Cons.
Variable S : Type.
Variable rdS : S -> Z -> res (S * list Z).
Hypothesis Hlen : forall s n s' o, rdS s n = Ok (s', o) -> zlen o = n.

Lemma r_elems_inv f cap : forall n i s s' l, r_elems S rdS n f cap i s = Ok (s', l) ->
  length l = n /\ exists vs, l = map f vs /\ Forall is_u32 vs.
Proof.
  induction n as [|n IH]; intros i s s' l H; cbn [r_elems] in H.
  - injection H as _ <-. split; [reflexivity|]. exists []. auto.
  - apply bind_ok in H as ([s1 v] & E & H). apply be32_val in E.
    destruct (_ <? _); [discriminate|]. apply bind_ok in H as ([s2 r] & E2 & H). injection H as _ <-.
    destruct (IH _ _ _ _ E2) as [Hl (vs & -> & Hv)]. cbn [length map]. split; [lia|].
    exists (v :: vs). split; [reflexivity|]. constructor; auto.
Qed.

Lemma r_pairs_inv f n s s' l : r_pairs S rdS f (fun x => x) n s = Ok (s', l) ->
  zlen l = n mod 2 ^ 31 /\ Forall (fun p => is_u32 (snd p)) l /\ Forall (fun p => exists v, is_u32 v /\ fst p = f v) l.
Proof.
  unfold r_pairs. intros H. apply bind_ok in H as ([s1 a] & E1 & H). apply bind_ok in H as ([s2 b] & E2 & H).
  injection H as _ <-. apply r_elems_inv in E1 as [La (us & -> & Hw)]. apply r_elems_inv in E2 as [Lb (vs & -> & Hv)].
  rewrite map_id in *. split; [|split].
  - unfold zlen. rewrite combine_length, La, Lb, Nat.min_id. unfold u32.
    change (2 ^ 32) with (2 ^ 31 * 2). rewrite Z.mul_mod_distr_r, Z.div_mul by lia. pose proof (Z.mod_pos_bound n (2 ^ 31)). lia.
  - apply Forall_forall. intros [p q] Hin. apply in_combine_r in Hin. rewrite Forall_forall in Hv. cbn. auto.
  - apply Forall_forall. intros [p q] Hin. apply in_combine_l in Hin. apply in_map_iff in Hin as (v & <- & Hin).
    rewrite Forall_forall in Hw. cbn. eauto.
Qed.

Lemma check_int_inv intlen : intlen < 2 ^ 64 -> forall ints off, 0 <= off ->
  Forall (fun p : Z * Z => is_u32 (snd p)) ints -> off <= intlen ->
  check_int ints off intlen = true -> off + zsum (map snd ints) < 2 ^ 64 -> off + zsum (map snd ints) <= intlen.
Proof.
  intros Hi. induction ints as [|[n l] ints IH]; intros off Ho Hu Hle Hc Hs; cbn [map zsum fold_right snd] in *; [lia|].
  inversion Hu as [|? ? Hl Hu']; subst. unfold is_u32 in Hl. cbn [snd] in Hl.
  fold (zsum (map snd ints)) in *.
  assert (0 <= zsum (map snd ints)).
  { clear - Hu'. induction Hu' as [|[? ?] ? ?]; cbn; [lia|]. unfold is_u32 in *. cbn in *. unfold zsum in *. lia. }
  cbn [check_int] in Hc. rewrite u64_small in Hc by lia. destruct (intlen <? off + l) eqn:E; [discriminate|].
  specialize (IH (off + l) ltac:(lia) Hu' ltac:(lia) Hc ltac:(lia)). lia.
Qed.

Lemma zsum_bound (ints : list (Z * Z)) : Forall (fun p => is_u32 (snd p)) ints ->
  0 <= zsum (map snd ints) <= zlen ints * 2 ^ 32.
Proof.
  intros H. induction H as [|[a b] l Hb Hl IH]; [cbn; unfold zlen; cbn; lia|].
  cbn [map zsum fold_right snd] in *. unfold is_u32 in Hb. cbn in Hb. rewrite zlen_cons. unfold zsum in *. lia.
Qed.

Lemma s32_range x : - 2 ^ 31 <= s32 x < 2 ^ 31.
Proof. unfold s32. pose proof (u32_range x). destruct (_ <? _) eqn:E; lia. Qed.

Lemma check_ext_inv extlen : 0 <= extlen < 2 ^ 63 -> forall exts off, 0 <= off <= extlen ->
  Forall (fun p : Z * Z => is_u32 (snd p)) exts -> check_ext exts off extlen = true ->
  Forall (fun e => 0 <= fst e /\ 0 <= snd e < 2 ^ 32 /\ 0 < fst e + snd e <= extlen) (extents off exts).
Proof.
  intros Hx. induction exts as [|[o l] exts IH]; intros off Ho Hu Hc; cbn [extents]; [constructor|].
  inversion Hu as [|? ? Hl Hu']; subst. unfold is_u32 in Hl. cbn [snd] in Hl. cbn [check_ext] in Hc.
  pose proof (s32_range o). destruct (extlen <? u64 (off + s32 o)) eqn:E1; [discriminate|].
  assert (Hp : 0 <= off + s32 o).
  { destruct (Z_lt_le_dec (off + s32 o) 0); [|auto]. unfold u64 in E1.
    rewrite <- (Z.mod_add _ 1), Z.mod_small in E1 by lia. lia. }
  rewrite (u64_small (off + s32 o)) in * by lia.
  destruct ((u64 (off + s32 o + l) =? 0) || (extlen <? u64 (off + s32 o + l))) eqn:E2; [discriminate|].
  apply orb_false_elim in E2 as [E0 E2]. rewrite u64_small in * by lia. constructor.
  - cbn. lia.
  - apply IH; auto. lia.
Qed.

Lemma rest_consistent type comp tc head add s s' d :
  type = TYPE_STANDARD \/ type = TYPE_RPMONLY ->
  readdelta_rest S rdS type comp tc head add s = Ok (s', d) -> d_type d = type /\ consistent d.
Proof.
  intros Hty. unfold readdelta_rest. intros H.
  apply bind_ok in H as ([s1 version] & Ev & H).
  apply bind_ok in H as ([s2 len] & _ & H). apply bind_ok in H as ([s3 nevr] & _ & H).
  apply bind_ok in H as ([s4 [seq md5]] & Eq & H).
  apply bind_ok in H as ([s5 [[[size tc2] tl] param]] & _ & H).
  apply bind_ok in H as ([s6 [hlen offn]] & Eh & H).
  apply bind_ok in H as ([s7 offadj] & _ & H).
  destruct ((hlen =? 0) && (type =? TYPE_RPMONLY)) eqn:Ez; [discriminate|].
  apply bind_ok in H as ([s8 [[[leadsig fmtoff] intn] extn]] & El & H).
  apply bind_ok in H as ([s9 ints] & Ei & H). apply bind_ok in H as ([s10 exts] & Ee & H).
  apply bind_ok in H as ([s11 extlen] & Ex & H). apply bind_ok in H as ([s12 add2] & _ & H).
  apply bind_ok in H as ([s13 intlen] & En & H). apply bind_ok in H as ([s14 data] & Ed & H).
  destruct (negb (check_int ints 0 intlen)) eqn:Ci; [discriminate|].
  destruct (negb (check_ext exts 0 extlen)) eqn:Ce; [discriminate|].
  apply negb_false_iff in Ci, Ce. injection H as _ <-.
  assert (Hil : 0 <= intlen < 2 ^ 64).
  { unfold r_len in En. destruct (version =? 3); [eapply be64_val; eauto|]. apply be32_val in En. lia. }
  assert (Hxl : 0 <= extlen < 2 ^ 64).
  { unfold r_len in Ex. destruct (version =? 3); [apply be64_val in Ex|apply be32_val in Ex]; lia. }
  assert (Hhl : 0 <= hlen).
  { destruct (version =? 3); [|injection Eh as _ <- _; lia]. unfold r_hlen in Eh. apply bind_ok in Eh as ([t v] & E & Eh).
    apply bind_ok in Eh as ([t' v'] & _ & Eh). injection Eh as _ <- _. apply be32_val in E. lia. }
  unfold r_seq in Eq. apply bind_ok in Eq as ([t1 sl] & _ & Eq).
  destruct ((sl <? 16) || (negb (sl =? 16) && (type =? TYPE_RPMONLY))) eqn:Es; [discriminate|].
  apply bind_ok in Eq as ([t2 sq] & E1 & Eq). apply bind_ok in Eq as ([t3 m5] & E2 & Eq). injection Eq as _ <- <-.
  apply Hlen in E1, E2.
  unfold r_leadsig in El. apply bind_ok in El as ([t4 ll] & _ & El).
  destruct (ll <? RPM_LEADSIG_MIN_LEN) eqn:Ell; [discriminate|]. unfold RPM_LEADSIG_MIN_LEN in Ell.
  apply bind_ok in El as ([t5 ls] & E3 & El). apply Hlen in E3.
  apply bind_ok in El as ([t6 fo] & _ & El). apply bind_ok in El as ([t7 z0] & E4 & El). apply bind_ok in El as ([t8 z1] & E5 & El).
  apply be32_val in E4, E5. injection El as _ <- _ <- <-.
  apply r_pairs_inv in Ei as (Li & Ui & Ti). apply r_pairs_inv in Ee as (Le & Ue & _).
  split; [reflexivity|].
  split; cbn [d_type d_comp d_version d_src_nevr d_seq d_md5 d_hlen d_leadsig d_int d_ext d_intn d_extn d_extlen d_intlen d_idata].
  - lia.
  - auto.
  - intros ->. change (TYPE_RPMONLY =? TYPE_RPMONLY) with true in *. rewrite !andb_true_r in *.
    split; [lia|].
    unfold r_version in Ev. apply bind_ok in Ev as ([t9 v] & _ & Ev). destruct (negb _); [discriminate|].
    change (TYPE_RPMONLY =? TYPE_RPMONLY) with true in *. rewrite andb_true_r in Ev.
    destruct (version =? 3) eqn:Ev3.
    + destruct (_ <? 3); [discriminate|]. lia.
    + injection Eh as _ <- _. discriminate.
  - lia.
  - exists data. split; [reflexivity|]. unfold r_data in Ed. destruct (0 <? intlen) eqn:E0; [apply Hlen in Ed; auto|].
    injection Ed as _ <-. change (@zlen Z []) with 0. lia.
  - pose proof (zsum_bound ints Ui). pose proof (Z.mod_pos_bound z0 (2 ^ 31)). pose proof (check_int_inv intlen ltac:(lia) ints 0 ltac:(lia) Ui ltac:(lia) Ci). lia.
  - rewrite Forall_forall in *. intros [a b] Hin. destruct (Ti _ Hin) as (v & Hv & Ha). specialize (Ui _ Hin). cbn [fst snd] in *. subst a. auto.
  - auto.
  - auto.
  - split; [exact E4|exact Li].
  - split; [exact E5|exact Le].
  - intros Hx. apply check_ext_inv; auto; lia.
Qed.
End Cons.

Lemma stream_len cd s n s' o : decompstrm_read cd s n = Ok (s', o) -> zlen o = n.
Proof.
  unfold decompstrm_read. destruct (_ <? n); [discriminate|]. intros H.
  apply bind_ok in H as (s1 & _ & H). apply bind_ok in H as (o' & E & H). injection H as _ <-.
  apply rd_range_ok in E as (A & B & C & ->). apply zlen_slice; auto.
Qed.

Lemma payload_consistent L type tc head add p d : type = TYPE_STANDARD \/ type = TYPE_RPMONLY ->
  read_payload L type tc head add p = Ok d -> consistent d.
Proof.
  unfold read_payload. intros Ht H. apply bind_ok in H as (s & _ & H). apply bind_ok in H as ([s' d'] & E & H).
  injection H as <-. eapply rest_consistent in E; [apply E| |auto]. apply stream_len.
Qed.

Lemma accepted_consistent L file d : read_deltarpm L file = Ok d -> consistent d.
Proof.
  unfold read_deltarpm. intros H. apply bind_ok in H as ([magic f] & _ & H).
  destruct (magic =? 1685221485).
  - apply bind_ok in H as ([[nevr add] f'] & _ & H). eapply payload_consistent; [|exact H]; auto.
  - destruct (magic =? 3987467995); [|discriminate].
    apply bind_ok in H as ([[r tc] f'] & _ & H). eapply payload_consistent; [|exact H]; auto.
Qed.

(** ** Memory safety: the only undefined behaviour is due to huge declared counts *)
Definition usafe {A} (P : Prop) (Q : A -> Prop) (r : res A) : Prop :=
  match r with Ok a => Q a | Err _ => True | Ub u => u = OobWrite /\ P | NoFuel => False end.

Lemma usafe_bind {A B} P (Q : A -> Prop) (Q' : B -> Prop) r k :
  usafe P Q r -> (forall a, Q a -> usafe P Q' (k a)) -> usafe P Q' (bind r k).
Proof. destruct r; cbn; auto; tauto. Qed.
Lemma usafe_mono {A} P (Q Q' : A -> Prop) r : usafe P Q r -> (forall a, Q a -> Q' a) -> usafe P Q' r.
Proof. destruct r; cbn; auto. Qed.
Lemma usafe_ub {A} (P P' : Prop) (Q : A -> Prop) r : usafe P Q r -> (P -> P') -> usafe P' Q r.
Proof. destruct r; cbn; tauto. Qed.

Section Plain.
Variable x : list Z.
Hypothesis Hb : bytes x.

(** At offset [p] of the data. *)
Definition at_pos {A} (p : Z) (Q : A -> Prop) (sa : list Z * A) : Prop :=
  let '(l, a) := sa in l = from x p /\ 0 <= p <= zlen x /\ Q a.

Lemma u_rdl P p n : 0 <= p <= zlen x -> 0 <= n ->
  usafe P (at_pos (p + n) (fun b => b = slice x p n)) (rdl (from x p) n).
Proof.
  intros Hp Hn. unfold rdl. rewrite zlen_from by auto. destruct (n <=? zlen x - p) eqn:E; [|exact I].
  split; cbn [fst snd]; [apply from_from; lia|]. split; [lia|]. reflexivity.
Qed.

Lemma u_be32 P p : 0 <= p <= zlen x ->
  usafe P (at_pos (p + 4) (fun v => v = be32_at x p /\ is_u32 v)) (r_be32 _ rdl (from x p)).
Proof.
  intros Hp. unfold r_be32. eapply usafe_bind; [apply u_rdl; [auto|lia]|].
  intros [l b] (-> & H2 & ->). cbn [fst snd] in *.
  rewrite parse_be32_at_val; [|apply bytes_slice; auto|lia|rewrite zlen_slice; lia]. cbn [bind].
  rewrite slice_slice by lia. rewrite Z.add_0_r. split; cbn [fst snd]; [reflexivity|]. split; [auto|].
  split; [reflexivity|]. unfold is_u32. pose proof (be_val_range (slice x p 4) (bytes_slice _ _ _ Hb)) as Hr.
  rewrite zlen_slice in Hr by lia. exact Hr.
Qed.
Lemma u_be64 P p : 0 <= p <= zlen x ->
  usafe P (at_pos (p + 8) (fun v => 0 <= v)) (r_be64 _ rdl (from x p)).
Proof.
  intros Hp. unfold r_be64. eapply usafe_bind; [apply u_rdl; [auto|lia]|].
  intros [l b] (-> & H2 & ->). cbn [fst snd] in *.
  rewrite parse_be64_at_val; [|apply bytes_slice; auto|lia|rewrite zlen_slice; lia]. cbn [bind].
  split; cbn [fst snd]; [reflexivity|]. split; [auto|].
  rewrite slice_slice by lia. apply be_val_range. apply bytes_slice; auto.
Qed.

Lemma u_elems P f cap : forall n i p, 0 <= p <= zlen x -> 0 <= i -> (4 * (i + 2 * Z.of_nat n - 1) <= cap \/ P) ->
  usafe P (at_pos (p + 4 * Z.of_nat n) (fun _ => True)) (r_elems _ rdl n f cap i (from x p)).
Proof.
  induction n as [|n IH]; intros i p Hp Hi Hc; cbn [r_elems].
  - split; cbn [fst snd]; [f_equal; lia|]. split; [lia|auto].
  - eapply usafe_bind; [apply u_be32; auto|]. intros [l v] (-> & H2 & _). cbn [fst snd] in *.
    destruct (cap <? 4 * (i + 1)) eqn:E.
    + split; [reflexivity|]. destruct Hc; [lia|auto].
    + eapply usafe_bind; [apply (IH (i + 2)); [auto|lia|destruct Hc; [left; lia|auto]]|].
      intros [l r] (-> & H3 & _). cbn [fst snd] in *. split; cbn [fst snd]; [f_equal; lia|]. split; [lia|auto].
Qed.

Lemma u_pairs P f g n p : 0 <= p <= zlen x -> 0 <= n < 2 ^ 29 ->
  usafe P (at_pos (p + 8 * n) (fun _ => True)) (r_pairs _ rdl f g n (from x p)).
Proof.
  intros Hp Hn. unfold r_pairs. rewrite (u32_small (n * 2)) by lia. rewrite Z.div_mul by lia.
  rewrite u32_small by lia.
  eapply usafe_bind; [apply (u_elems P f _ _ 0); [auto|lia|lia]|].
  intros [l a] (-> & H2 & _). cbn [fst snd] in *.
  eapply usafe_bind; [apply (u_elems P g _ _ 1); [auto|lia|lia]|].
  intros [l b] (-> & H3 & _). cbn [fst snd] in *.
  split; cbn [fst snd]; [f_equal; lia|]. split; [lia|auto].
Qed.

Lemma getz3 : 4 <= zlen x -> be32_at x 0 mod 256 = getz x 3.
Proof.
  intros H. destruct x as [|a [|b [|c [|e l]]]]; try (unfold zlen in H; cbn [length] in H; lia).
  change (be32_at (a :: b :: c :: e :: l) 0) with (be_val [a; b; c; e]).
  unfold be_val. cbn [fold_left]. change (getz (a :: b :: c :: e :: l) 3) with e.
  inversion Hb as [|? ? _ Hb1]; subst. inversion Hb1 as [|? ? _ Hb2]; subst. inversion Hb2 as [|? ? _ Hb3]; subst.
  inversion Hb3 as [|? ? He _]; subst. unfold byte in He.
  rewrite Z.add_comm, Z.mod_add by lia. apply Z.mod_small. lia.
Qed.


Lemma u_data P p (b : bool) n : 0 <= p <= zlen x -> (b = true -> 0 <= n) ->
  usafe P (fun sa => exists q, at_pos q (fun _ => True) sa) (if b then rdl (from x p) n else Ok (from x p, [])).
Proof.
  intros Hp Hn. destruct b.
  - eapply usafe_mono; [apply u_rdl; auto|]. intros [l b] (E & H & _). exists (p + n). split; auto.
  - exists p. split; auto.
Qed.

Lemma u_len P p v : 0 <= p <= zlen x ->
  usafe P (fun sa => exists q, at_pos q (fun n => 0 <= n) sa) (r_len _ rdl v (from x p)).
Proof.
  intros Hp. unfold r_len. destruct (_ =? 3).
  - eapply usafe_mono; [apply u_be64; auto|]. intros [l b] H. eauto.
  - eapply usafe_mono; [apply u_be32; auto|]. intros [l b] (E & H & _ & U). unfold is_u32 in U.
    exists (p + 4). split; auto. split; [auto|]. cbn [fst snd] in *. lia.
Qed.

Lemma u_rest type comp tc head add : ~ huge_counts x ->
  usafe False (fun _ => True) (readdelta_rest (list Z) rdl type comp tc head add x).
Proof.
  intros HP. unfold huge_counts in HP.
  set (ver := (getz x 3 - 48) mod 2 ^ 16) in HP.
  set (o1 := 8 + be32_at x 4) in HP. set (o2 := o1 + 4 + be32_at x o1 + 16) in HP.
  set (o3 := if 2 <=? ver then o2 + 12 + be32_at x (o2 + 8) else o2) in HP.
  set (adjs := if ver =? 3 then be32_at x (o3 + 4) else 0) in HP.
  set (o4 := if ver =? 3 then o3 + 8 + 8 * adjs else o3) in HP.
  set (o5 := o4 + 4 + be32_at x o4) in HP.
  pose proof (zlen_nonneg x) as H0.
  unfold readdelta_rest.
  (* version *)
  eapply (usafe_bind False (at_pos 4 (fun v => v = ver))).
  { unfold r_version. change x with (from x 0) at 1. eapply usafe_bind; [apply u_be32; lia|].
    intros [l v] (-> & H2 & -> & _). cbn [fst snd] in *.
    destruct (negb _); [exact I|].
    assert (Hv : u16 (be32_at x 0 mod 256 - 48) = ver) by (rewrite getz3 by lia; reflexivity).
    rewrite Hv. destruct (_ && _); [exact I|]. split; cbn [fst snd]; [reflexivity|]. split; [lia|auto]. }
  intros [l v] (-> & H2 & ->). cbn [fst snd] in *.
  (* source NEVR *)
  unfold r_nevr_len.
  eapply usafe_bind; [apply u_be32; auto|]. intros [l nl] (-> & H3 & Hnl & Unl). cbn [fst snd] in *. change (4 + 4) with 8 in *.
  unfold is_u32 in Unl.
  eapply (usafe_bind False (at_pos o1 (fun _ => True))).
  { unfold r_nevr. eapply usafe_bind; [apply u_rdl; [auto|lia]|]. intros [l b] (-> & H4 & _). cbn [fst snd] in *.
    rewrite u32_small by lia. rewrite (proj2 (Z.ltb_ge (nl + 1) (nl + 1))) by lia.
    unfold o1. rewrite <- Hnl. split; cbn [fst snd]; auto. }
  intros [l nv] (-> & H4 & _). cbn [fst snd] in *.
  (* sequence *)
  eapply (usafe_bind False (at_pos o2 (fun _ => True))).
  { unfold r_seq. eapply usafe_bind; [apply u_be32; auto|]. intros [l sl] (-> & H5 & Hsl & Usl). cbn [fst snd] in *.
    unfold is_u32 in Usl. destruct (_ || _); [exact I|].
    eapply usafe_bind; [apply u_rdl; [auto|lia]|]. intros [l b] (-> & H6 & _). cbn [fst snd] in *.
    eapply usafe_bind; [apply u_rdl; [auto|lia]|]. intros [l c] (-> & H7 & _). cbn [fst snd bind] in *.
    unfold o2. rewrite <- Hsl. split; cbn [fst snd]; auto. }
  intros [l [sq md]] (-> & H5 & _). cbn [fst snd] in *.
  (* target *)
  eapply (usafe_bind False (at_pos o3 (fun _ => True))).
  { unfold o3. destruct (2 <=? ver); [|split; cbn [fst snd]; auto].
    unfold r_target. eapply usafe_bind; [apply u_be32; auto|]. intros [l a1] (-> & H6 & _). cbn [fst snd] in *.
    eapply usafe_bind; [apply u_be32; auto|]. intros [l a2] (-> & H7 & _). cbn [fst snd] in *.
    destruct (decode_comp a2) as [[c1 c2]|]; [|exact I].
    eapply usafe_bind; [apply u_be32; auto|]. intros [l a3] (-> & H8 & Ha3 & Ua3). cbn [fst snd] in *.
    unfold is_u32 in Ua3. replace (o2 + 4 + 4) with (o2 + 8) in * by lia.
    eapply (usafe_bind False (at_pos (o2 + 12 + a3) (fun _ => True))).
    { destruct (0 <? a3) eqn:E.
      - eapply usafe_mono; [apply u_rdl; [auto|lia]|]. intros [l b] (-> & H9 & _).
        split; cbn [fst snd] in *; [f_equal; lia|]. split; [lia|auto].
      - split; cbn [fst snd]; [f_equal; lia|]. split; [lia|auto]. }
    intros [l pr] (-> & H9 & _). cbn [fst snd] in *. rewrite <- Ha3. split; cbn [fst snd]; auto. }
  intros [l [[[sz tc2] tl] pr]] (-> & H6 & _). cbn [fst snd] in *.
  (* header length and number of adjustments *)
  eapply (usafe_bind False (at_pos (if ver =? 3 then o3 + 8 else o3) (fun ha => snd ha = adjs /\ 0 <= snd ha))).
  { unfold adjs. destruct (ver =? 3); [|split; cbn [fst snd]; auto; split; [auto|]; split; [auto|lia]].
    unfold r_hlen. eapply usafe_bind; [apply u_be32; auto|]. intros [l a1] (-> & H7 & _). cbn [fst snd] in *.
    eapply usafe_bind; [apply u_be32; auto|]. intros [l a2] (-> & H8 & Ha2 & Ua2). cbn [fst snd bind] in *.
    unfold is_u32 in Ua2. split; cbn [fst snd]; [f_equal; lia|]. split; [lia|]. split; [auto|lia]. }
  intros [l [hl an]] (-> & H7 & Ean & Pan). cbn [fst snd] in *. subst an.
  (* adjustments *)
  eapply (usafe_bind False (at_pos o4 (fun _ => True))).
  { assert (E4 : o4 = (if ver =? 3 then o3 + 8 else o3) + 8 * adjs).
    { unfold o4, adjs. destruct (ver =? 3); lia. }
    unfold r_offadj. rewrite E4. destruct (0 <? adjs) eqn:E; [apply u_pairs; lia|].
    split; cbn [fst snd]; [f_equal; lia|]. split; [lia|auto]. }
  intros [l off] (-> & H8 & _). cbn [fst snd] in *.
  destruct (_ && _); [exact I|].
  (* leadsig *)
  eapply (usafe_bind False (at_pos (o5 + 12) (fun r => 0 <= snd (fst r) < 2 ^ 29 /\ 0 <= snd r < 2 ^ 29))).
  { unfold r_leadsig. eapply usafe_bind; [apply u_be32; auto|]. intros [l ll] (-> & H9 & Hll & Ull). cbn [fst snd] in *.
    unfold is_u32 in Ull. destruct (_ <? _); [exact I|].
    eapply usafe_bind; [apply u_rdl; [auto|lia]|]. intros [l ls] (-> & H10 & _). cbn [fst snd] in *.
    assert (E5 : o4 + 4 + ll = o5) by (unfold o5; lia). rewrite E5 in *. clearbody o5.
    eapply usafe_bind; [apply u_be32; auto|]. intros [l fo] (-> & H11 & _). cbn [fst snd] in *.
    eapply usafe_bind; [apply u_be32; auto|]. intros [l n1] (-> & H12 & Hn1 & Un1). cbn [fst snd] in *.
    eapply usafe_bind; [apply u_be32; auto|]. intros [l n2] (-> & H13 & Hn2 & Un2). cbn [fst snd bind] in *.
    unfold is_u32 in *. replace (o5 + 4 + 4) with (o5 + 8) in * by lia.
    split; cbn [fst snd]; [f_equal; lia|]. split; [lia|]. lia. }
  intros [l [[[ls fo] n1] n2]] (-> & H9 & Hn1 & Hn2). cbn [fst snd] in *.
  eapply usafe_bind; [apply u_pairs; auto|]. intros [l ints] (-> & H10 & _). cbn [fst snd] in *.
  eapply usafe_bind; [apply u_pairs; auto|]. intros [l exts] (-> & H11 & _). cbn [fst snd] in *.
  eapply usafe_bind; [apply u_len; auto|]. intros [l xl] (q1 & -> & H12 & Hxl). cbn [fst snd] in *.
  eapply (usafe_bind False (fun sa => exists q, at_pos q (fun _ => True) sa)).
  { unfold r_add. eapply usafe_bind; [apply u_be32; auto|]. intros [l al] (-> & H13 & _ & Ual). cbn [fst snd] in *.
    unfold is_u32 in Ual.
    destruct (0 <? al) eqn:E; [destruct (type =? TYPE_RPMONLY); [exact I|]|].
    - apply (u_data False _ true); auto. lia.
    - apply (u_data False _ false al); auto. lia. }
  intros [l ad] (q2 & -> & H13 & _). cbn [fst snd] in *.
  eapply usafe_bind; [apply u_len; auto|]. intros [l il] (q3 & -> & H14 & Hil). cbn [fst snd] in *.
  eapply (usafe_bind False (fun sa => exists q, at_pos q (fun _ => True) sa)).
  { unfold r_data. apply u_data; auto. }
  intros [l da] _. cbn beta iota. destruct (negb _); [exact I|]. destruct (negb _); exact I.
Qed.
End Plain.

(** With huge counts, still nothing but stores outside of a buffer. *)
Lemma rdl_len l n l' b : rdl l n = Ok (l', b) -> 0 <= n -> zlen b = n.
Proof. unfold rdl. destruct (n <=? zlen l) eqn:E; [|discriminate]. intros H Hn. injection H as _ <-. apply zlen_slice; lia. Qed.
Lemma parse32_ok b : zlen b = 4 -> is_ok (parse_be32_at b 0).
Proof.
  intros H. unfold parse_be32_at. rewrite !rd_getz by lia. eexists. reflexivity.
Qed.
Lemma parse64_ok b : zlen b = 8 -> is_ok (parse_be64_at b 0).
Proof.
  intros H. unfold parse_be64_at. rewrite !rd_getz by lia. eexists. reflexivity.
Qed.
Lemma w_rdl l n : 0 <= n -> usafe True (fun sa => zlen (snd sa) = n) (rdl l n).
Proof. intros Hn. destruct (rdl l n) as [[l' b]| | |] eqn:E; cbn; auto; [eapply rdl_len; eauto| |]; unfold rdl in E; destruct (_ <=? _); discriminate. Qed.
Lemma w_be32 l : usafe True (fun sa => is_u32 (snd sa)) (r_be32 _ rdl l).
Proof.
  unfold r_be32. eapply usafe_bind; [apply w_rdl; lia|]. intros [l' b] W. cbn [snd] in W.
  destruct (parse32_ok b W) as [v Ev]. rewrite Ev. cbn. eapply be32_range; eauto.
Qed.
Lemma w_be64 l : usafe True (fun sa => 0 <= snd sa) (r_be64 _ rdl l).
Proof.
  unfold r_be64. eapply usafe_bind; [apply w_rdl; lia|]. intros [l' b] W. cbn [snd] in W.
  destruct (parse64_ok b W) as [v Ev]. rewrite Ev. cbn. apply be64_range in Ev. lia.
Qed.
Lemma w_elems f cap : forall n i l, usafe True (fun _ => True) (r_elems _ rdl n f cap i l).
Proof.
  induction n as [|n IH]; intros i l; cbn [r_elems]; [exact I|].
  eapply usafe_bind; [apply w_be32|]. intros [l1 v] _. destruct (_ <? _); [split; auto|].
  eapply usafe_bind; [apply IH|]. intros [l2 r] _. exact I.
Qed.
Lemma w_pairs f g n l : usafe True (fun _ => True) (r_pairs _ rdl f g n l).
Proof.
  unfold r_pairs. eapply usafe_bind; [apply w_elems|]. intros [l1 a] _.
  eapply usafe_bind; [apply w_elems|]. intros [l2 b] _. exact I.
Qed.
Lemma w_len l v : usafe True (fun sa => 0 <= snd sa) (r_len _ rdl v l).
Proof.
  unfold r_len. destruct (_ =? 3); [apply w_be64|]. eapply usafe_mono; [apply w_be32|].
  intros [? ?] H. unfold is_u32 in H. lia.
Qed.

Ltac wstep :=
  match goal with
  | |- usafe _ _ (bind (if _ then _ else _) _) => eapply (usafe_bind True (fun _ => True)); [|intros [? ?] ?]
  | |- usafe _ _ (bind _ _) => eapply usafe_bind; [first [apply w_be32|apply w_len|apply w_pairs|apply w_rdl; cbn [fst snd] in *; unfold is_u32 in *; lia]|intros [? ?] ?; cbn [fst snd] in *]
  | |- usafe _ _ (if ?b then _ else _) => destruct b eqn:?
  | |- usafe _ _ (match ?b with _ => _ end) => destruct b eqn:?
  | |- usafe _ _ (Err _) => exact I
  | |- usafe _ _ (Ok _) => exact I
  | |- usafe _ _ (Ub OobWrite) => split; auto
  | |- usafe _ _ (rdl _ _) => eapply usafe_mono; [apply w_rdl; cbn [fst snd] in *; unfold is_u32 in *; lia|auto]
  end.

Lemma w_rest type comp tc head add x :
  usafe True (fun _ => True) (readdelta_rest (list Z) rdl type comp tc head add x).
Proof.
  unfold readdelta_rest.
  eapply (usafe_bind True (fun _ => True)); [unfold r_version; repeat wstep|]. intros [? ver] _.
  unfold r_nevr_len. wstep.
  eapply (usafe_bind True (fun _ => True)); [unfold r_nevr; repeat wstep|]. intros [? nv] _.
  eapply (usafe_bind True (fun _ => True)); [unfold r_seq; repeat wstep|]. intros [? [sq md]] _.
  eapply (usafe_bind True (fun _ => True)); [unfold r_target; repeat wstep|]. intros [? [[[sz tc2] tl] pr]] _.
  eapply (usafe_bind True (fun _ => True)); [unfold r_hlen; repeat wstep|]. intros [? [hl an]] _.
  eapply (usafe_bind True (fun _ => True)).
  { unfold r_offadj. destruct (0 <? an); [|exact I]. eapply usafe_mono; [apply w_pairs|auto]. }
  intros [? off] _. destruct (_ && _); [exact I|].
  eapply (usafe_bind True (fun _ => True)); [unfold r_leadsig; repeat wstep|]. intros [? [[[ls fo] n1] n2]] _.
  unfold r_int, r_ext. do 3 wstep.
  eapply (usafe_bind True (fun _ => True)); [unfold r_add; repeat wstep|]. intros [? ad] _.
  wstep.
  eapply (usafe_bind True (fun _ => True)); [unfold r_data; repeat wstep|]. intros [? da] _.
  repeat wstep.
Qed.

(** ** An arbitrary payload: what the decoder would put out in total *)
Section Drain.
Variable cd : Stream.codec.

Fixpoint drain (fuel : nat) (s : dstrm) : dstrm :=
  match fuel with
  | O => s
  | S f => match read_chunk cd s with (s', None) => drain f s' | _ => s end
  end.
Definition total (s : dstrm) : list Z := ds_data (drain (fill_fuel s) s).

(** What a state has been fed and put out. *)
Definition fedby (b : list Z) (s : dstrm) : Prop :=
  concat (ds_fed s) ++ ds_in s = b /\ emitted cd (ds_comp s) (ds_fed s) (ds_data s).

Lemma chunk_step b s s' : fedby b s -> read_chunk cd s = (s', None) ->
  fedby b s' /\ ds_pos s' = ds_pos s /\ ds_comp s' = ds_comp s /\ (length (ds_in s') < length (ds_in s))%nat /\
  exists y, ds_data s' = ds_data s ++ y.
Proof.
  intros [Hb He] H. unfold read_chunk in H. set (n := Z.min CHUNK_SIZE (zlen (ds_in s))) in *.
  pose proof (chunk_len s) as Hl. cbn zeta in Hl. fold n in Hl. rewrite Hl in H.
  destruct (n =? 0) eqn:E0; [discriminate|].
  assert (Hn : 0 < n <= zlen (ds_in s)) by (pose proof (zlen_nonneg (ds_in s)); unfold n, CHUNK_SIZE in *; lia).
  pose proof (slice_cut (ds_in s) n ltac:(lia)) as Hc.
  set (chunk := slice (ds_in s) 0 n) in *. set (rest := slice (ds_in s) n (zlen (ds_in s) - n)) in *.
  assert (Hr : (length rest < length (ds_in s))%nat).
  { rewrite <- Hc, app_length. unfold zlen in Hl. lia. }
  assert (Hb' : concat (ds_fed s ++ [chunk]) ++ rest = b).
  { rewrite concat_app. cbn [concat]. rewrite app_nil_r, <- app_assoc, Hc. exact Hb. }
  unfold fedby, emitted in *. destruct (ds_comp s =? COMP_NONE) eqn:Ec.
  - injection H as <-. cbn [ds_comp ds_in ds_fed ds_data ds_pos]. rewrite Ec. split; [split; [auto|]|].
    { rewrite concat_app. cbn [concat]. rewrite app_nil_r, He. reflexivity. }
    split; [solve [auto]|]. split; [solve [auto]|]. split; [solve [auto]|]. eexists. reflexivity.
  - destruct (d_step cd (ds_comp s) (ds_fed s) chunk) as [out e] eqn:Ed.
    destruct e; [discriminate|]. injection H as <-. cbn [ds_comp ds_in ds_fed ds_data ds_pos]. rewrite Ec.
    split; [split; [auto|]|].
    { pose proof (dec_run_snoc cd (ds_comp s) chunk _ _ _ He) as Hs. cbn [app] in Hs.
      rewrite Ed in Hs. exact Hs. }
    split; [solve [auto]|]. split; [solve [auto]|]. split; [solve [auto]|]. eexists. reflexivity.
Qed.

Lemma drain_fuel b : forall f1 f2 s, fedby b s -> (length (ds_in s) < f1)%nat -> (length (ds_in s) < f2)%nat ->
  drain f1 s = drain f2 s.
Proof.
  induction f1 as [|f1 IH]; intros f2 s Hf H1 H2; [lia|]. destruct f2 as [|f2]; [lia|]. cbn [drain].
  destruct (read_chunk cd s) as [s' [e|]] eqn:E; [reflexivity|].
  destruct (chunk_step _ _ _ Hf E) as (Hf' & _ & _ & Hl & _). apply IH; auto; lia.
Qed.

Lemma total_step b s s' : fedby b s -> read_chunk cd s = (s', None) -> total s' = total s.
Proof.
  intros Hf E. destruct (chunk_step _ _ _ Hf E) as (Hf' & _ & _ & Hl & _).
  unfold total at 2. unfold fill_fuel. cbn [drain]. rewrite E. unfold total. f_equal.
  apply (drain_fuel b); auto.
Qed.

Lemma drain_data b : forall f s, fedby b s -> fedby b (drain f s) /\ ds_comp (drain f s) = ds_comp s /\ exists y, ds_data (drain f s) = ds_data s ++ y.
Proof.
  induction f as [|f IH]; intros s Hf; cbn [drain]; [split; auto; split; auto; exists []; rewrite app_nil_r; auto|].
  destruct (read_chunk cd s) as [s' [e|]] eqn:E; [split; auto; split; auto; exists []; rewrite app_nil_r; auto|].
  destruct (chunk_step _ _ _ Hf E) as (Hf' & _ & Hc & _ & y & Hy).
  destruct (IH s' Hf') as (A & C & z & Hz). split; [auto|]. split; [congruence|]. exists (y ++ z). rewrite Hz, Hy, app_assoc. reflexivity.
Qed.

Lemma total_yields b s : fedby b s -> yields cd (ds_comp s) b (total s).
Proof.
  intros Hf. destruct (drain_data b (fill_fuel s) s Hf) as ([Hb He] & Hc & _).
  unfold yields, total. exists (ds_fed (drain (fill_fuel s) s)), (ds_in (drain (fill_fuel s) s)).
  split; [exact Hb|]. unfold emitted in He. rewrite Hc in He. exact He.
Qed.

Definition at_ (p : Z) (s : dstrm) : dstrm :=
  mkds (ds_comp s) (ds_in s) (ds_fed s) (ds_data s) p (ds_csize s) (ds_md5 s).
Lemma chunk_at p s : read_chunk cd (at_ p s) = (at_ p (fst (read_chunk cd s)), snd (read_chunk cd s)).
Proof.
  unfold read_chunk. cbn [at_ ds_comp ds_in ds_fed ds_data ds_pos ds_csize ds_md5].
  destruct (_ =? 0); [reflexivity|]. destruct (ds_comp s =? COMP_NONE); [reflexivity|].
  destruct (d_step cd _ _ _) as [o [e|]]; reflexivity.
Qed.
Lemma drain_at p : forall f s, drain f (at_ p s) = at_ p (drain f s).
Proof.
  induction f as [|f IH]; intros s; cbn [drain]; [reflexivity|]. rewrite chunk_at.
  destruct (read_chunk cd s) as [s' [e|]]; cbn [fst snd]; [reflexivity|]. apply IH.
Qed.
Lemma total_at p s : total (at_ p s) = total s.
Proof. unfold total. change (fill_fuel (at_ p s)) with (fill_fuel s). rewrite drain_at. reflexivity. Qed.

Variable b x : list Z.
Definition Rtot (s : dstrm) (l : list Z) : Prop :=
  fedby b s /\ total s = x /\ l = from x (ds_pos s) /\ 0 <= ds_pos s <= zlen (ds_data s).

Lemma fill_total n : forall fuel s, fedby b s -> (length (ds_in s) < fuel)%nat ->
  match fill_loop cd fuel s n with
  | Ok s' => fedby b s' /\ total s' = total s /\ ds_pos s' = ds_pos s /\ ds_pos s + n <= zlen (ds_data s') /\
             exists y, ds_data s' = ds_data s ++ y
  | Err _ => True
  | _ => False
  end.
Proof.
  induction fuel as [|fuel IH]; intros s Hf Hl; [lia|]. cbn [fill_loop].
  destruct (ds_pos s + n <=? zlen (ds_data s)) eqn:E.
  - split; [auto|]. split; [auto|]. split; [auto|]. split; [lia|]. exists []. rewrite app_nil_r. auto.
  - destruct (read_chunk cd s) as [s' [e|]] eqn:Er; [exact I|].
    destruct (chunk_step _ _ _ Hf Er) as (Hf' & Hp & _ & Hlt & y & Hy).
    specialize (IH s' Hf' ltac:(lia)). rewrite (total_step _ _ _ Hf Er), Hp, Hy in IH.
    destruct (fill_loop cd fuel s' n); auto. destruct IH as (A & B & C & D & z & Hz).
    split; [auto|]. split; [auto|]. split; [auto|]. split; [auto|]. exists (y ++ z). rewrite app_assoc. auto.
Qed.

Lemma total_sim s l n : Rtot s l -> 0 <= n < 2 ^ 64 -> rsim Rtot True (decompstrm_read cd s n) (rdl l n).
Proof.
  intros (Hf & Ht & -> & Hp) Hn. unfold decompstrm_read. destruct (_ <? n); [left; exact I|].
  pose proof (fill_total n (fill_fuel s) s Hf ltac:(unfold fill_fuel; lia)) as H.
  destruct (fill_loop cd (fill_fuel s) s n) as [s1|e|u|]; cbn [bind]; [|left; exact I|tauto|tauto].
  destruct H as (Hf1 & Ht1 & Hp1 & Hle & y & Hy).
  destruct (drain_data b (fill_fuel s1) s1 Hf1) as (_ & _ & z & Hz). fold (total s1) in Hz.
  rewrite rd_range_in by lia. cbn [bind].
  assert (Hx : x = ds_data s1 ++ z) by congruence.
  assert (Hxl : zlen x = zlen (ds_data s1) + zlen z) by (rewrite Hx; apply zlen_app).
  pose proof (zlen_nonneg z).
  cbn. eexists. split.
  - unfold rdl. rewrite zlen_from by lia. replace (n <=? zlen x - ds_pos s) with true by lia.
    rewrite slice_from, Hp1. rewrite Hx at 2. rewrite slice_app_l by lia. reflexivity.
  - split; [exact Hf1|]. split; [|cbn [ds_pos ds_data]; split; [rewrite Hp1; apply from_from; lia|lia]].
    change (total (at_ (ds_pos s1 + n) s1) = x). rewrite total_at. congruence.
Qed.
End Drain.

(** ** The whole reader *)
Lemma dec_run_bytes cd comp : decodes_bytes cd -> forall cs hist y e,
  bytes (concat cs) -> dec_run cd comp hist cs = (y, e) -> bytes y.
Proof.
  intros Hd. induction cs as [|c cs IH]; intros hist y e Hb H; cbn [dec_run] in H; [injection H as <- _; constructor|].
  cbn [concat] in Hb. apply bytes_app in Hb as [Hb1 Hb2].
  pose proof (Hd comp hist c Hb1) as Hc. destruct (d_step cd comp hist c) as [o [er|]]; cbn [fst] in Hc.
  - injection H as <- _. auto.
  - destruct (dec_run cd comp (hist ++ [c]) cs) as [o' e'] eqn:E. injection H as <- _.
    apply bytes_app. split; [auto|]. eapply IH; eauto.
Qed.

Lemma yields_bytes cd comp b x : decodes_bytes cd -> bytes b -> yields cd comp b x -> bytes x.
Proof.
  intros Hd Hb (cs & rest & Hc & Hx). rewrite <- Hc in Hb. apply bytes_app in Hb as [Hb _].
  destruct (comp =? 0).
  - subst x. auto.
  - eapply dec_run_bytes; eauto.
Qed.

Lemma huge_dec x : huge_counts x \/ ~ huge_counts x.
Proof.
  unfold huge_counts. cbv zeta.
  repeat match goal with |- context [if ?b then _ else _] => destruct b end; lia.
Qed.

Lemma payload_safe L type tc head add p : bytes p -> decodes_bytes (lb_codec L) ->
  usafe (exists comp x, yields (lb_codec L) comp p x /\ huge_counts x) (fun _ => True)
        (read_payload L type tc head add p).
Proof.
  intros Hb Hd. unfold read_payload.
  destruct (decompstrm_init true p) as [s|e|u|] eqn:Ei; cbn [bind]; [|exact I| |].
  2-3: unfold decompstrm_init in Ei; destruct (zlen p <? 8) eqn:E8; [discriminate|];
    rewrite (parse_be64_at_val p 0) in Ei by (auto; lia); discriminate.
  destruct (init_view (lb_codec L) true p s Ei) as [(_ & Hf & _ & He & _ & _ & Hp) H0].
  rewrite app_nil_r in Hf.
  assert (Hfed : fedby (lb_codec L) p s) by (split; auto).
  set (x := total (lb_codec L) s).
  assert (Hy : yields (lb_codec L) (ds_comp s) p x) by (apply total_yields; auto).
  assert (Hx : bytes x) by (eapply yields_bytes; eauto).
  assert (HR : Rtot (lb_codec L) p x s x).
  { split; [auto|]. split; [reflexivity|]. split; [rewrite H0; reflexivity|auto]. }
  pose proof (rest_sim _ _ _ _ _ _ (total_sim (lb_codec L) p x) type (ds_comp s) tc head add s x HR) as Hs.
  assert (Hu : usafe (huge_counts x) (fun _ => True)
                 (readdelta_rest (list Z) rdl type (ds_comp s) tc head add x)).
  { destruct (huge_dec x) as [Hh|Hh].
    - eapply usafe_ub; [apply w_rest|auto].
    - eapply usafe_ub; [apply u_rest; auto|tauto]. }
  destruct (readdelta_rest dstrm (decompstrm_read (lb_codec L)) type (ds_comp s) tc head add s)
    as [[s1 d]|e|u|]; cbn [bind rsim] in *; [exact I|exact I| |].
  - rewrite Hs in Hu. destruct Hu as [-> Hh]. split; eauto.
  - rewrite Hs in Hu. exact Hu.
Qed.

Lemma bytes_from l n : bytes l -> bytes (from l n).
Proof.
  intros H. unfold from. rewrite <- (firstn_skipn (Z.to_nat n) l) in H. apply bytes_app in H. tauto.
Qed.
Lemma from_suffix {A} (l : list A) n : exists pre, l = pre ++ from l n.
Proof. exists (firstn (Z.to_nat n) l). symmetry. apply firstn_skipn. Qed.

Lemma read_be32_inv f : bytes f ->
  match read_be32 f with
  | Ok (v, f') => v = be32_at f 0 /\ f' = from f 4 /\ 4 <= zlen f
  | Err _ => True | _ => False end.
Proof.
  intros Hb. unfold read_be32. destruct (zlen f <? 4) eqn:E; [exact I|].
  rewrite parse_be32_at_val by (auto; lia). cbn. split; [reflexivity|]. split; [reflexivity|lia].
Qed.

Lemma be32_from f n o : 0 <= n -> 0 <= o -> be32_at (from f n) o = be32_at f (n + o).
Proof.
  intros Hn Ho. unfold be32_at, slice, from. rewrite skipn_skipn. do 3 f_equal. lia.
Qed.

Lemma be32_magic f : bytes f -> 4 <= zlen f -> be32_at f 0 = 1685221485 -> slice f 0 4 = [100; 114; 112; 109].
Proof.
  intros Hb Hl H. unfold be32_at in H. set (s := slice f 0 4) in *.
  assert (Hs : zlen s = 4) by (apply zlen_slice; lia). assert (Hbs : bytes s) by (apply bytes_slice; auto).
  pose proof (create_parse_be32 s Hbs Hs) as Hc. rewrite parse_be32_at_val in Hc by (auto; lia).
  pose proof (slice_all s) as Hsl. rewrite Hs in Hsl. rewrite Hsl, H in Hc. destruct Hc as (v & Hv & Hc). injection Hv as <-.
  rewrite <- Hc. reflexivity.
Qed.

Lemma read_buf_inv f n cap : 0 <= n ->
  match read_buf f n cap with
  | Ok (b, f') => b = slice f 0 n /\ f' = from f n /\ n <= zlen f
  | Err _ => True
  | Ub u => u = OobWrite /\ cap < n
  | NoFuel => False
  end.
Proof.
  intros Hn. unfold read_buf. pose proof (zlen_nonneg f). destruct (cap <? Z.min n (zlen f)) eqn:E; [split; [auto|lia]|].
  destruct (Z.min n (zlen f) <? n) eqn:E2; [exact I|]. split; [auto|]. split; [auto|lia].
Qed.

Lemma be32_u32 f o : bytes f -> is_u32 (be32_at f o).
Proof.
  intros Hb. unfold is_u32, be32_at. pose proof (be_val_range (slice f o 4) (bytes_slice _ _ _ Hb)) as Hr.
  pose proof (zlen_slice_le f o 4 ltac:(lia)). pose proof (zlen_nonneg (slice f o 4)).
  assert (2 ^ (8 * zlen (slice f o 4)) <= 2 ^ 32) by (apply Z.pow_le_mono_r; lia). lia.
Qed.

Lemma reader_safe L file : bytes file -> decodes_bytes (lb_codec L) ->
  match read_deltarpm L file with
  | Ok _ | Err _ => True
  | Ub u => u = OobWrite /\ huge_file (lb_codec L) file
  | NoFuel => False
  end.
Proof.
  intros Hb Hd. unfold read_deltarpm.
  assert (Hpay : forall n type tc head add,
    match read_payload L type tc head add (from file n) with
    | Ok _ | Err _ => True | Ub u => u = OobWrite /\ huge_file (lb_codec L) file | NoFuel => False end).
  { intros n type tc head add. pose proof (payload_safe L type tc head add (from file n) (bytes_from _ _ Hb) Hd) as H.
    destruct (read_payload L type tc head add (from file n)); cbn in H; auto.
    destruct H as [-> (comp & x & Hy & Hh)]. split; [auto|]. right.
    destruct (from_suffix file n) as [pre Hpre]. exists pre, (from file n), comp, x. auto. }
  pose proof (read_be32_inv file Hb) as H. destruct (read_be32 file) as [[magic f]|e|u|]; cbn [bind]; auto; [|tauto].
  destruct H as (-> & -> & H4). destruct (be32_at file 0 =? 1685221485) eqn:Em.
  - assert (Hmag : slice file 0 4 = [100; 114; 112; 109]) by (apply be32_magic; auto; lia).
    unfold readdelta_rpmonly.
    pose proof (read_be32_inv (from file 4) (bytes_from _ _ Hb)) as H.
    destruct (read_be32 (from file 4)) as [[v f]|e|u|]; cbn [bind]; auto; [|tauto].
    destruct H as (_ & -> & Hl8). rewrite from_from by lia. change (4 + 4) with 8.
    destruct (negb _); [exact I|].
    pose proof (read_be32_inv (from file 8) (bytes_from _ _ Hb)) as H.
    destruct (read_be32 (from file 8)) as [[len f]|e|u|]; cbn [bind]; auto; [|tauto].
    destruct H as (Hlen & -> & Hl12). rewrite be32_from in Hlen by lia. change (8 + 0) with 8 in Hlen.
    rewrite from_from by lia. change (8 + 4) with 12.
    pose proof (be32_u32 file 8 Hb) as Hu. rewrite <- Hlen in Hu. unfold is_u32 in Hu.
    destruct (Z.eq_dec len (2 ^ 32 - 1)) as [Hbig|Hsmall].
    { (* excused *)
      assert (Hhf : huge_file (lb_codec L) file) by (left; split; congruence).
      pose proof (read_buf_inv (from file 12) len (u32 (len + 1)) ltac:(lia)) as H.
      destruct (read_buf (from file 12) len (u32 (len + 1))) as [[nv f]|e|u|]; cbn [bind]; auto; [|tauto].
      replace (u32 (len + 1) <? len + 1) with true by (rewrite Hbig; reflexivity). cbn [bind]. auto. }
    rewrite (u32_small (len + 1)) by lia.
    pose proof (read_buf_inv (from file 12) len (len + 1) ltac:(lia)) as H.
    destruct (read_buf (from file 12) len (len + 1)) as [[nv f]|e|u|]; cbn [bind]; auto; [|lia].
    destruct H as (_ & -> & _). rewrite from_from by lia.
    rewrite (proj2 (Z.ltb_ge (len + 1) (len + 1))) by lia.
    pose proof (read_be32_inv (from file (12 + len)) (bytes_from _ _ Hb)) as H.
    destruct (read_be32 (from file (12 + len))) as [[al f]|e|u|]; cbn [bind]; auto; [|tauto].
    destruct H as (Hal & -> & _). rewrite from_from by lia.
    pose proof (be32_u32 (from file (12 + len)) 0 (bytes_from _ _ Hb)) as Hua. rewrite <- Hal in Hua. unfold is_u32 in Hua.
    pose proof (read_buf_inv (from file (12 + len + 4)) al al ltac:(lia)) as H.
    destruct (read_buf (from file (12 + len + 4)) al al) as [[ad f]|e|u|]; cbn [bind]; auto; [|lia].
    destruct H as (_ & -> & _). rewrite from_from by lia. apply Hpay.
  - destruct (be32_at file 0 =? 3987467995); [|exact I].
    unfold readdelta_standard, rpm_read.
    destruct (_ || _); [exact I|]. destruct (lb_read L _) as [[sig n]|]; [|exact I].
    destruct (lb_read L _) as [[hdr m]|]; [|exact I]. cbn [bind].
    match goal with |- context [rpm_get_comp L ?r] => generalize r; intros rr end.
    destruct (rpm_get_comp L rr) as [tc|e|u|] eqn:Ec; cbn [bind]; auto; [apply Hpay| |];
      unfold rpm_get_comp in Ec; destruct (lb_string L _ _); [|discriminate| |discriminate];
      repeat match type of Ec with context [if ?b then _ else _] => destruct b end; discriminate.
Qed.
