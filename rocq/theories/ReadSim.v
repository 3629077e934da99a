(** * ReadSim: the delta reader over a decompression stream behaves as over the decoded bytes *)
From Verif Require Import Base BaseLemmas Utils UtilsProofs SpecCodec DeltaComp Stream SpecStream StreamProofs Rpm Delta DeltaRead.

(** Plain source of bytes: the bytes that are left. *)
Definition rdl (l : list Z) (n : Z) : res (list Z * list Z) :=
  if n <=? zlen l then Ok (from l n, slice l 0 n) else Err EFormat.

(** [r1] over the first source against [r2] over the second: the same result, except that
    where the first fails the second may continue ([weak]) or fail with another error. *)
Definition rsim {S1 S2 A : Type} (R : S1 -> S2 -> Prop) (weak : Prop)
           (r1 : res (S1 * A)) (r2 : res (S2 * A)) : Prop :=
  match r1 with
  | Ok (s1, a) => exists s2, r2 = Ok (s2, a) /\ R s1 s2
  | Err _ => weak \/ exists e, r2 = Err e
  | Ub u => r2 = Ub u
  | NoFuel => r2 = NoFuel
  end.

(** Numbers are in range whatever the bytes. *)
Lemma land_mod b : Z.land 255 b = Z.land 255 (b mod 256).
Proof.
  rewrite !(Z.land_comm 255). change 255 with (Z.ones 8). rewrite !Z.land_ones by lia.
  change (2 ^ 8) with 256. rewrite Z.mod_mod by lia. reflexivity.
Qed.
Lemma land_shift_mod b k : Z.land (Z.shiftl 255 k) (Z.shiftl b k) = Z.land (Z.shiftl 255 k) (Z.shiftl (b mod 256) k).
Proof. rewrite <- !Z.shiftl_land, land_mod. reflexivity. Qed.
Lemma mod_byte b : byte (b mod 256).
Proof. unfold byte. pose proof (Z.mod_pos_bound b 256). lia. Qed.

Lemma be32_range l o v : parse_be32_at l o = Ok v -> 0 <= v < 2 ^ 32.
Proof.
  unfold parse_be32_at. intros H. repeat (apply bind_ok in H as (? & _ & H)). injection H as <-.
  unfold parse_be32.
  change 65280 with (Z.shiftl 255 8). change 16711680 with (Z.shiftl 255 16).
  change 4278190080 with (Z.shiftl 255 24).
  rewrite (land_shift_mod x1 8), (land_shift_mod x0 16), (land_shift_mod x 24), (land_mod x2).
  match goal with |- 0 <= ?t < _ => change t with (parse_be32 (x mod 256) (x0 mod 256) (x1 mod 256) (x2 mod 256)) end.
  rewrite parse_be32_val by apply mod_byte.
  apply (be_val_range [x mod 256; x0 mod 256; x1 mod 256; x2 mod 256]).
  repeat constructor; apply mod_byte.
Qed.
Lemma be64_range l o v : parse_be64_at l o = Ok v -> 0 <= v < 2 ^ 64.
Proof.
  unfold parse_be64_at. intros H. repeat (apply bind_ok in H as (? & _ & H)). injection H as <-.
  unfold parse_be64.
  change 65280 with (Z.shiftl 255 8). change 16711680 with (Z.shiftl 255 16).
  change 4278190080 with (Z.shiftl 255 24). change 1095216660480 with (Z.shiftl 255 32).
  change 280375465082880 with (Z.shiftl 255 40). change 71776119061217280 with (Z.shiftl 255 48).
  change 18374686479671623680 with (Z.shiftl 255 56).
  rewrite (land_shift_mod x5 8), (land_shift_mod x4 16), (land_shift_mod x3 24), (land_shift_mod x2 32),
    (land_shift_mod x1 40), (land_shift_mod x0 48), (land_shift_mod x 56), (land_mod x6).
  match goal with |- 0 <= ?t < _ => change t with (parse_be64 (x mod 256) (x0 mod 256) (x1 mod 256) (x2 mod 256)
     (x3 mod 256) (x4 mod 256) (x5 mod 256) (x6 mod 256)) end.
  rewrite parse_be64_val by apply mod_byte.
  apply (be_val_range [x mod 256; x0 mod 256; x1 mod 256; x2 mod 256; x3 mod 256; x4 mod 256; x5 mod 256; x6 mod 256]).
  repeat constructor; apply mod_byte.
Qed.

Lemma be32_val {S} (rd : S -> Z -> res (S * list Z)) s s' v : r_be32 S rd s = Ok (s', v) -> 0 <= v < 2 ^ 32.
Proof.
  unfold r_be32. intros H. apply bind_ok in H as ([t b] & E & H). apply bind_ok in H as (w & E2 & H).
  injection H as <- <-. eapply be32_range; eauto.
Qed.
Lemma be64_val {S} (rd : S -> Z -> res (S * list Z)) s s' v : r_be64 S rd s = Ok (s', v) -> 0 <= v < 2 ^ 64.
Proof.
  unfold r_be64. intros H. apply bind_ok in H as ([t b] & E & H). apply bind_ok in H as (w & E2 & H).
  injection H as <- <-. eapply be64_range; eauto.
Qed.

Section Sim.
Variables S1 S2 : Type.
Variable rd1 : S1 -> Z -> res (S1 * list Z).
Variable rd2 : S2 -> Z -> res (S2 * list Z).
Variable R : S1 -> S2 -> Prop.
Variable weak : Prop.

Hypothesis rd_sim : forall s1 s2 n, R s1 s2 -> 0 <= n < 2 ^ 64 -> rsim R weak (rd1 s1 n) (rd2 s2 n).
Lemma rsim_ok {A} s1 s2 (a : A) : R s1 s2 -> rsim R weak (Ok (s1, a)) (Ok (s2, a)).
Proof. intros H. exists s2. auto. Qed.

Lemma rsim_err {A} e e' : @rsim S1 S2 A R weak (Err e) (Err e').
Proof. right. eauto. Qed.

Lemma rsim_bind {A B} r1 r2 (k1 : S1 * A -> res (S1 * B)) (k2 : S2 * A -> res (S2 * B)) :
  rsim R weak r1 r2 ->
  (forall s1 s2 a, r1 = Ok (s1, a) -> R s1 s2 -> rsim R weak (k1 (s1, a)) (k2 (s2, a))) ->
  rsim R weak (bind r1 k1) (bind r2 k2).
Proof.
  intros H1 H2. destruct r1 as [[s1 a]|e|u|]; cbn in *.
  - destruct H1 as (s2 & -> & HR). cbn. auto.
  - destruct H1 as [Hw|[e' ->]]; [auto|]. cbn. right. eauto.
  - rewrite H1. reflexivity.
  - rewrite H1. reflexivity.
Qed.

Lemma be32_sim s1 s2 : R s1 s2 -> rsim R weak (r_be32 S1 rd1 s1) (r_be32 S2 rd2 s2).
Proof.
  intros HR. apply rsim_bind; [apply rd_sim; auto; lia|]. intros t1 t2 b E HR'. cbn beta iota.
  destruct (parse_be32_at b 0) eqn:Ep; cbn; auto. eauto. right. eauto.
Qed.
Lemma be64_sim s1 s2 : R s1 s2 -> rsim R weak (r_be64 S1 rd1 s1) (r_be64 S2 rd2 s2).
Proof.
  intros HR. apply rsim_bind; [apply rd_sim; auto; lia|]. intros t1 t2 b E HR'. cbn beta iota.
  destruct (parse_be64_at b 0) eqn:Ep; cbn; auto. eauto. right. eauto.
Qed.

Lemma elems_sim f cap : forall n i s1 s2, R s1 s2 ->
  rsim R weak (r_elems S1 rd1 n f cap i s1) (r_elems S2 rd2 n f cap i s2).
Proof.
  induction n as [|n IH]; intros i s1 s2 HR; cbn [r_elems]; [apply rsim_ok; auto|].
  apply rsim_bind; [apply be32_sim; auto|]. intros t1 t2 v _ HR1. cbn beta iota.
  destruct (cap <? 4 * (i + 1)); [reflexivity|].
  apply rsim_bind; [apply IH; auto|]. intros u1 u2 r _ HR2. apply rsim_ok; auto.
Qed.

Lemma pairs_sim f g count s1 s2 : R s1 s2 ->
  rsim R weak (r_pairs S1 rd1 f g count s1) (r_pairs S2 rd2 f g count s2).
Proof.
  intros HR. unfold r_pairs. apply rsim_bind; [apply elems_sim; auto|]. intros t1 t2 a _ HR1.
  apply rsim_bind; [apply elems_sim; auto|]. intros u1 u2 b _ HR2. apply rsim_ok; auto.
Qed.

Ltac sim :=
  repeat match goal with
  | |- rsim _ _ (bind _ _) (bind _ _) => apply rsim_bind; [|intros ? ? ? ? ?; cbn beta iota]
  | |- rsim _ _ (Ok _) (Ok _) => apply rsim_ok; auto
  | |- rsim _ _ (Err _) (Err _) => apply rsim_err
  | |- rsim _ _ (Ub _) (Ub _) => reflexivity
  | |- rsim _ _ (r_be32 _ _ _) _ => apply be32_sim; auto
  | |- rsim _ _ (r_be64 _ _ _) _ => apply be64_sim; auto
  | |- rsim _ _ (r_pairs _ _ _ _ _ _) _ => apply pairs_sim; auto
  | |- rsim _ _ (if ?b then _ else _) _ => destruct b eqn:?
  | |- rsim _ _ (match ?b with _ => _ end) _ => destruct b eqn:?
  | H : r_be32 _ _ _ = Ok _ |- _ => apply be32_val in H
  | H : r_be64 _ _ _ = Ok _ |- _ => apply be64_val in H
  | |- rsim _ _ (rd1 _ _) _ => apply rd_sim; [auto|lia]
  end.

Lemma rest_sim type comp tcomp head add s1 s2 : R s1 s2 ->
  rsim R weak (readdelta_rest S1 rd1 type comp tcomp head add s1)
              (readdelta_rest S2 rd2 type comp tcomp head add s2).
Proof.
  intros HR. unfold readdelta_rest.
  apply rsim_bind. { unfold r_version. sim. }
  intros a1 a2 version _ Ra. cbn beta iota.
  apply rsim_bind. { unfold r_nevr_len. sim. }
  intros b1 b2 len Hlen Rb. cbn beta iota. apply be32_val in Hlen.
  apply rsim_bind. { unfold r_nevr. sim. }
  intros c1 c2 nevr _ Rc. cbn beta iota.
  apply rsim_bind. { unfold r_seq. sim. }
  intros d1 d2 [seq md5] _ Rd. cbn beta iota.
  apply rsim_bind. { destruct (2 <=? version); [unfold r_target|]; sim. }
  intros e1 e2 [[[size tc] tl] param] _ Re. cbn beta iota.
  apply rsim_bind. { destruct (version =? 3); [unfold r_hlen|]; sim. }
  intros f1 f2 [hlen offn] _ Rf. cbn beta iota.
  apply rsim_bind. { unfold r_offadj. sim. }
  intros g1 g2 offadj _ Rg. cbn beta iota.
  destruct ((hlen =? 0) && (type =? TYPE_RPMONLY)); [apply rsim_err|].
  apply rsim_bind. { unfold r_leadsig. sim. }
  intros h1 h2 [[[leadsig fmtoff] intn] extn] _ Rh. cbn beta iota.
  apply rsim_bind. { unfold r_int. sim. }
  intros i1 i2 ints _ Ri. cbn beta iota.
  apply rsim_bind. { unfold r_ext. sim. }
  intros j1 j2 exts _ Rj. cbn beta iota.
  apply rsim_bind. { unfold r_len. sim. }
  intros k1 k2 extlen _ Rk. cbn beta iota.
  apply rsim_bind. { unfold r_add. sim. }
  intros l1 l2 add2 _ Rl. cbn beta iota.
  apply rsim_bind. { unfold r_len. sim. }
  intros m1 m2 intlen Hil Rm. cbn beta iota.
  assert (0 <= intlen < 2 ^ 64).
  { unfold r_len in Hil. destruct (version =? 3); [apply be64_val in Hil; auto|].
    apply be32_val in Hil. lia. }
  apply rsim_bind. { unfold r_data. sim. }
  intros n1 n2 data _ Rn. cbn beta iota.
  destruct (negb (check_int ints 0 intlen)); [apply rsim_err|].
  destruct (negb (check_ext exts 0 extlen)); [apply rsim_err|]. apply rsim_ok; auto.
Qed.
End Sim.

Lemma zlen_from {A} (l : list A) o : 0 <= o <= zlen l -> zlen (from l o) = zlen l - o.
Proof. intros. unfold from, zlen in *. rewrite skipn_length. lia. Qed.
Lemma slice_from {A} (l : list A) o n : slice (from l o) 0 n = slice l o n.
Proof. reflexivity. Qed.
Lemma from_from {A} (l : list A) o n : 0 <= o -> 0 <= n -> from (from l o) n = from l (o + n).
Proof. intros. unfold from. rewrite skipn_skipn. f_equal. lia. Qed.

(** ** Stream against decoded bytes *)
Section Stream.
Variable cd : codec.
Variables (comp : Z) (b x cut : list Z).
Hypothesis Hd : decodes cd comp b x.
Hypothesis Hx : zlen x < 2 ^ 63.

Definition Rel (s : dstrm) (l : list Z) : Prop := dview cd comp b cut s /\ l = from x (ds_pos s).

Lemma view_pos s : dview cd comp b cut s -> 0 <= ds_pos s <= zlen (ds_data s) /\ zlen (ds_data s) <= zlen x.
Proof.
  intros Hv. destruct (view_prefix _ _ _ _ _ _ Hd Hv) as (z & Hz & _).
  pose proof Hv as (_ & _ & _ & _ & _ & _ & Hp). split; auto.
  rewrite <- Hz, zlen_app. pose proof (zlen_nonneg z). lia.
Qed.

Lemma stream_sim s l n : Rel s l -> 0 <= n < 2 ^ 64 ->
  rsim Rel (cut <> []) (decompstrm_read cd s n) (rdl l n).
Proof.
  intros [Hv ->] Hn. destruct (view_pos s Hv) as [Hp Hl]. unfold rdl. rewrite zlen_from by lia.
  destruct (Z_lt_le_dec (zlen x + n) (2 ^ 64)) as [Hs|Hs].
  - destruct (decompstrm_read_spec cd comp b x cut n s Hd Hv ltac:(lia) Hs)
      as [(s' & E & V & P & Le)|(e & E & C)].
    + rewrite E. cbn. replace (n <=? zlen x - ds_pos s) with true by lia.
      eexists. split; [reflexivity|]. split; auto. rewrite P. apply from_from; lia.
    + rewrite E. cbn. destruct cut as [|c0 cr]; [|left; discriminate]. right.
      destruct (C eq_refl) as [_ Lt]. replace (n <=? zlen x - ds_pos s) with false by lia. eauto.
  - replace (n <=? zlen x - ds_pos s) with false by lia.
    unfold decompstrm_read. destruct (u64 (zlen (ds_data s) + n) <? n); [right; eauto|].
    destruct (fill_loop_spec cd comp b x cut n Hd (fill_fuel s) s Hv) as [(s1 & E1 & Hv1 & Hp1 & Hle)|(e & E1 & Hc)].
    { unfold fill_fuel. lia. }
    + destruct (view_pos s1 Hv1). rewrite Hp1 in *. lia.
    + rewrite E1. cbn. right. eauto.
Qed.

Lemma payload_sim type c tcomp head add s l : Rel s l ->
  rsim Rel (cut <> []) (readdelta_rest dstrm (decompstrm_read cd) type c tcomp head add s)
                       (readdelta_rest (list Z) rdl type c tcomp head add l).
Proof.
  apply rest_sim. exact stream_sim.
Qed.
End Stream.
