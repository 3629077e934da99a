(** * LoopProofs: the loops over the codec libraries *)
From Verif Require Import Base BaseLemmas Stream CodecLoop SpecLoop.

Lemma invoke_ok {St} (f : call St) s input room ret n out s' :
  f s input room = (ret, n, out, s') -> 0 <= n <= zlen input -> zlen out <= room ->
  invoke f s input room = Ok (ret, slice input n (zlen input - n), out, s').
Proof.
  intros E Hn Ho. unfold invoke. rewrite E.
  replace (room <? zlen out) with false by (symmetry; apply Z.ltb_ge; lia).
  replace (n <? 0) with false by (symmetry; apply Z.ltb_ge; lia).
  replace (zlen input <? n) with false by (symmetry; apply Z.ltb_ge; lia). reflexivity.
Qed.

Lemma chunk_pos : 0 < CHUNK_SIZE. Proof. reflexivity. Qed.
Lemma zout_pos : 0 < ZSTD_OUT. Proof. reflexivity. Qed.
Lemma zdout_pos : 0 < ZSTD_DOUT. Proof. reflexivity. Qed.

Lemma nil_or {A} (l : list A) : l = [] \/ 0 < zlen l.
Proof. destruct l; [left; reflexivity|right]. rewrite zlen_cons. pose proof (zlen_nonneg l). lia. Qed.

Lemma rest_split {A} (l : list A) n : 0 <= n <= zlen l -> l = slice l 0 n ++ slice l n (zlen l - n).
Proof.
  intros H. pose proof (slice_split l 0 n (zlen l - n) ltac:(lia) ltac:(lia) ltac:(lia)) as E.
  cbn [Z.add] in E. rewrite <- E. replace (n + (zlen l - n)) with (zlen l) by lia. symmetry. apply slice_all.
Qed.

(** ** Writing *)
Section Enc.
Context {St : Type}.
Variables (valid : list Z -> list Z -> Prop) (fine fine_end : Z -> Prop) (ended : Z -> bool).
Variables (run finish : call St) (v : enc_view St).
Hypothesis Hen : encodes valid fine fine_end ended run finish v.

Lemma write_loop_ok (bad : Z -> option err) (Hbad : forall ret, fine ret -> bad ret = None) :
  forall (k : nat) s c p data input,
  ev_live v s c p -> ev_left v s input < Z.of_nat k ->
  (input <> [] \/ ~ ev_stuck v s) ->
  exists s' out, ev_live v s' (c ++ input) (p ++ out) /\
    ev_left v s' [] + zlen out <= ev_left v s input /\ 0 <= ev_left v s' [] /\
    forall fuel, (k <= fuel)%nat -> write_loop fuel run bad s input data = Ok (s', data ++ out).
Proof.
  induction k as [|k IH]; intros s c p data input Hl Hk Hst.
  - destruct (run s input CHUNK_SIZE) as [[[ret n] out] s'] eqn:E.
    destruct (en_run _ _ _ _ _ _ _ Hen s c p input CHUNK_SIZE ret n out s' Hl chunk_pos E) as (H1 & H2 & _ & _ & H5 & H6 & _).
    pose proof (zlen_nonneg out). exfalso. cbn in Hk. lia.
  - destruct (run s input CHUNK_SIZE) as [[[ret n] out] s1] eqn:E.
    destruct (en_run _ _ _ _ _ _ _ Hen s c p input CHUNK_SIZE ret n out s1 Hl chunk_pos E)
      as (H1 & H2 & H3 & H4 & H5 & H6 & H7 & H8).
    assert (Hf : fine ret).
    { destruct H8 as [H8|(Hs & Hn & Ho)]; [exact H8|exfalso].
      destruct Hst as [Hi|Hi]; [|exact (Hi Hs)]. subst out n.
      assert (0 = zlen input) by (apply H4; reflexivity). apply Hi, zlen_zero_nil. lia. }
    destruct (Z.eq_dec (zlen out) CHUNK_SIZE) as [Hfull|Hfull].
    + assert (Hns : ~ ev_stuck v s1).
      { destruct H7 as [[_ ->]|H7]; [discriminate Hfull|exact H7]. }
      destruct (IH s1 _ _ (data ++ out) (slice input n (zlen input - n)) H3) as (s' & out' & A & B & B' & C).
      { unfold CHUNK_SIZE in Hfull. lia. }
      { right; exact Hns. }
      exists s', (out ++ out'). split; [|split; [|split]].
      * rewrite !app_assoc. rewrite <- app_assoc in A. rewrite <- rest_split in A by lia.
        rewrite <- app_assoc in A. rewrite <- app_assoc. exact A.
      * rewrite zlen_app. lia.
      * exact B'.
      * intros fuel Hfu. destruct fuel as [|fuel]; [lia|]. cbn [write_loop].
        rewrite (invoke_ok _ _ _ _ _ _ _ _ E) by lia. cbn [bind]. rewrite (Hbad _ Hf), Hfull, Z.sub_diag.
        change (0 =? 0) with true. cbv iota. rewrite C by lia. rewrite app_assoc. reflexivity.
    + assert (Hn : n = zlen input) by (apply H4; lia). subst n.
      rewrite (slice_all input) in H3. rewrite Z.sub_diag in H5, H6.
      rewrite (slice_nil_len input _ 0) in H5, H6 by lia.
      exists s1, out. split; [exact H3|]. split; [lia|]. split; [exact H5|].
      intros fuel Hfu. destruct fuel as [|fuel]; [lia|]. cbn [write_loop].
      rewrite (invoke_ok _ _ _ _ _ _ _ _ E) by lia. cbn [bind]. rewrite (Hbad _ Hf).
      replace (CHUNK_SIZE - zlen out =? 0) with false by (symmetry; apply Z.eqb_neq; lia). reflexivity.
Qed.

Lemma zwrite_loop_ok (Hbad : forall ret, fine ret -> zstd_error ret = false) :
  forall (k : nat) s c p data input,
  ev_live v s c p -> ev_left v s input + zlen input < Z.of_nat k -> input <> [] ->
  exists s' out, ev_live v s' (c ++ input) (p ++ out) /\
    ev_left v s' [] + zlen out <= ev_left v s input /\ 0 <= ev_left v s' [] /\
    forall fuel, (k <= fuel)%nat -> zwrite_loop fuel run s input data = Ok (s', data ++ out).
Proof.
  induction k as [|k IH]; intros s c p data input Hl Hk Hi.
  - destruct (run s input ZSTD_OUT) as [[[ret n] out] s'] eqn:E.
    destruct (en_run _ _ _ _ _ _ _ Hen s c p input ZSTD_OUT ret n out s' Hl zout_pos E) as (H1 & H2 & _ & _ & H5 & H6 & _).
    pose proof (zlen_nonneg out). pose proof (zlen_nonneg input). exfalso. cbn in Hk. lia.
  - destruct (run s input ZSTD_OUT) as [[[ret n] out] s1] eqn:E.
    destruct (en_run _ _ _ _ _ _ _ Hen s c p input ZSTD_OUT ret n out s1 Hl zout_pos E)
      as (H1 & H2 & H3 & H4 & H5 & H6 & H7 & H8).
    assert (Hpi : 0 < zlen input) by (destruct (nil_or input); [contradiction|assumption]).
    assert (Hprog : 0 < n + zlen out).
    { pose proof (zlen_nonneg out). destruct (Z.eq_dec (zlen out) 0) as [Z0|]; [|lia].
      assert (n = zlen input); [apply H4; rewrite Z0; reflexivity|]. lia. }
    assert (Hf : fine ret).
    { destruct H8 as [H8|(Hs & Hn & Ho)]; [exact H8|exfalso]. subst n out. cbn in Hprog. lia. }
    assert (Hlen : zlen (slice input n (zlen input - n)) = zlen input - n) by (apply zlen_slice; lia).
    destruct (nil_or (slice input n (zlen input - n))) as [He|He].
    + rewrite He in H5, H6. exists s1, out. assert (n = zlen input) by (rewrite He in Hlen; cbn in Hlen; lia). subst n.
      rewrite (slice_all input) in H3. split; [exact H3|]. split; [lia|]. split; [exact H5|].
      intros fuel Hfu. destruct fuel as [|fuel]; [lia|]. cbn [zwrite_loop].
      rewrite (invoke_ok _ _ _ _ _ _ _ _ E) by lia. cbn [bind]. rewrite (Hbad _ Hf), He. reflexivity.
    + destruct (IH s1 _ _ (data ++ out) (slice input n (zlen input - n)) H3) as (s' & out' & A & B & B' & C).
      { lia. }
      { intros Hc. rewrite Hc in He. cbn in He. lia. }
      exists s', (out ++ out'). split; [|split; [|split]].
      * rewrite !app_assoc. rewrite <- app_assoc in A. rewrite <- rest_split in A by lia.
        rewrite <- app_assoc in A. rewrite <- app_assoc. exact A.
      * rewrite zlen_app. lia.
      * exact B'.
      * intros fuel Hfu. destruct fuel as [|fuel]; [lia|]. cbn [zwrite_loop].
        rewrite (invoke_ok _ _ _ _ _ _ _ _ E) by lia. cbn [bind]. rewrite (Hbad _ Hf).
        replace (zlen (slice input n (zlen input - n)) =? 0) with false by (symmetry; apply Z.eqb_neq; lia).
        cbn [negb]. rewrite C by lia. rewrite app_assoc. reflexivity.
Qed.

(** The loop of a finish function: it must go on while finishing is not over, and stop once the
    output buffer is not filled. *)
Lemma finish_loop_ok (size : Z) (bad : Z -> option err) (more : Z -> list Z -> bool)
  (Hsize : 0 < size)
  (Hbad : forall ret, fine_end ret -> bad ret = None)
  (Hgo : forall ret out, ended ret = false -> zlen out = size -> more ret out = true)
  (Hstop : forall ret out, ended ret = true -> zlen out < size -> more ret out = false) :
  forall (k : nat) s c p data,
  (ev_live v s c p \/ ev_closing v s c p /\ ~ ev_stuck v s) -> ev_left v s [] < Z.of_nat k ->
  exists out, valid (p ++ out) c /\
    forall fuel, (k <= fuel)%nat -> finish_loop fuel finish size bad more s data = Ok (data ++ out).
Proof.
  induction k as [|k IH]; intros s c p data Hl Hk.
  - assert (Hl' : ev_live v s c p \/ ev_closing v s c p) by tauto.
    destruct (finish s [] size) as [[[ret n] out] s'] eqn:E.
    destruct (en_finish _ _ _ _ _ _ _ Hen s c p size ret n out s' Hl' Hsize E) as (H1 & H2 & _ & _ & _ & H5 & H6 & _).
    pose proof (zlen_nonneg out). exfalso. cbn in Hk. lia.
  - assert (Hl' : ev_live v s c p \/ ev_closing v s c p) by tauto.
    destruct (finish s [] size) as [[[ret n] out] s1] eqn:E.
    destruct (en_finish _ _ _ _ _ _ _ Hen s c p size ret n out s1 Hl' Hsize E)
      as (-> & H2 & H3 & H4 & H4' & H5 & H6 & H7 & H8).
    assert (Hf : fine_end ret).
    { destruct H8 as [H8|(Hc & Hs & Ho)]; [exact H8|exfalso].
      destruct Hl as [Hl|[_ Hl]]; [exact (Hc Hl)|exact (Hl Hs)]. }
    destruct (more ret out) eqn:Em.
    + assert (Hfull : zlen out = size).
      { destruct (Z.eq_dec (zlen out) size) as [|Hne]; [assumption|exfalso].
        assert (Hend : ended ret = true) by (apply H4; lia).
        rewrite (Hstop _ _ Hend) in Em by lia. discriminate Em. }
      destruct (IH s1 c (p ++ out) (data ++ out)) as (out' & A & C).
      { right. split; [exact H3|]. destruct H7 as [->|H7]; [cbn in Hfull; lia|exact H7]. }
      { lia. }
      exists (out ++ out'). split; [rewrite app_assoc; exact A|].
      intros fuel Hfu. destruct fuel as [|fuel]; [lia|]. cbn [finish_loop].
      rewrite (invoke_ok _ _ _ _ _ _ _ _ E) by (cbn; lia). cbn [bind]. rewrite (Hbad _ Hf), Em.
      rewrite C by lia. rewrite app_assoc. reflexivity.
    + exists out. split.
      * apply H4'. destruct (ended ret) eqn:Hend; [reflexivity|exfalso].
        destruct (Z.eq_dec (zlen out) size) as [Hfull|Hne]; [rewrite (Hgo _ _ Hend Hfull) in Em; discriminate Em|].
        assert (true = false -> False) by discriminate. assert (false = true) by (apply H4; lia). discriminate.
      * intros fuel Hfu. destruct fuel as [|fuel]; [lia|]. cbn [finish_loop].
        rewrite (invoke_ok _ _ _ _ _ _ _ _ E) by (cbn; lia). cbn [bind]. rewrite (Hbad _ Hf), Em. reflexivity.
Qed.

(** Writing pieces one after the other and finishing. *)
Lemma compress_ok (write : nat -> option St -> list Z -> list Z -> res (option St * list Z))
  (fin : nat -> option St -> list Z -> res (list Z)) (fits : list Z -> Prop)
  (Hw : forall s c p data input, ev_live v s c p -> input <> [] -> fits input ->
     exists s' out, ev_live v s' (c ++ input) (p ++ out) /\
       exists k, forall fuel, (k <= fuel)%nat -> write fuel (Some s) data input = Ok (Some s', data ++ out))
  (Hf : forall s c p data, ev_live v s c p ->
     exists out, valid (p ++ out) c /\ exists k, forall fuel, (k <= fuel)%nat -> fin fuel (Some s) data = Ok (data ++ out)) :
  forall pieces s c p data, ev_live v s c p -> pieces_ok pieces -> Forall fits pieces ->
  exists out, valid (p ++ out) (c ++ concat pieces) /\
    exists k, forall fuel, (k <= fuel)%nat -> compress (write fuel) (fin fuel) (Some s) data pieces = Ok (data ++ out).
Proof.
  induction pieces as [|a r IH]; intros s c p data Hl Hp Hfi; cbn [compress concat].
  - rewrite app_nil_r. destruct (Hf s c p data Hl) as (out & A & B). exists out. split; assumption.
  - inversion Hp as [|? ? Ha Hr]; subst. inversion Hfi as [|? ? Fa Fr]; subst.
    destruct (Hw s c p data a Hl Ha Fa) as (s' & out & L & k & W).
    destruct (IH s' _ _ (data ++ out) L Hr Fr) as (out' & V & k' & C).
    exists (out ++ out'). split; [rewrite !app_assoc; exact V|].
    exists (Nat.max k k'). intros fuel Hfu. rewrite W by lia. cbn [bind]. rewrite C by lia. rewrite app_assoc. reflexivity.
Qed.

Lemma write_ok (bad : Z -> option err) (Hbad : forall ret, fine ret -> bad ret = None) s c p data input :
  ev_live v s c p -> input <> [] ->
  exists s' out, ev_live v s' (c ++ input) (p ++ out) /\
    exists k, forall fuel, (k <= fuel)%nat -> write_loop fuel run bad s input data = Ok (s', data ++ out).
Proof.
  intros Hl Hi.
  destruct (write_loop_ok bad Hbad (Z.to_nat (ev_left v s input + 1)) s c p data input Hl) as (s' & out & A & _ & _ & B).
  - destruct (run s input CHUNK_SIZE) as [[[ret n] out] s'] eqn:E.
    destruct (en_run _ _ _ _ _ _ _ Hen s c p input CHUNK_SIZE ret n out s' Hl chunk_pos E) as (H1 & H2 & _ & _ & H5 & H6 & _).
    pose proof (zlen_nonneg out). lia.
  - left; exact Hi.
  - exists s', out. split; [exact A|]. eexists. exact B.
Qed.

Lemma zwrite_ok (Hbad : forall ret, fine ret -> zstd_error ret = false) s c p data input :
  ev_live v s c p -> input <> [] ->
  exists s' out, ev_live v s' (c ++ input) (p ++ out) /\
    exists k, forall fuel, (k <= fuel)%nat -> zwrite_loop fuel run s input data = Ok (s', data ++ out).
Proof.
  intros Hl Hi.
  destruct (zwrite_loop_ok Hbad (Z.to_nat (ev_left v s input + zlen input + 1)) s c p data input Hl) as (s' & out & A & _ & _ & B).
  - destruct (run s input CHUNK_SIZE) as [[[ret n] out] s'] eqn:E.
    destruct (en_run _ _ _ _ _ _ _ Hen s c p input CHUNK_SIZE ret n out s' Hl chunk_pos E) as (H1 & H2 & _ & _ & H5 & H6 & _).
    pose proof (zlen_nonneg out). pose proof (zlen_nonneg input). lia.
  - exact Hi.
  - exists s', out. split; [exact A|]. eexists. exact B.
Qed.

Lemma fin_ok (size : Z) (bad : Z -> option err) (more : Z -> list Z -> bool)
  (Hsize : 0 < size)
  (Hbad : forall ret, fine_end ret -> bad ret = None)
  (Hgo : forall ret out, ended ret = false -> zlen out = size -> more ret out = true)
  (Hstop : forall ret out, ended ret = true -> zlen out < size -> more ret out = false) s c p data :
  ev_live v s c p ->
  exists out, valid (p ++ out) c /\
    exists k, forall fuel, (k <= fuel)%nat -> finish_loop fuel finish size bad more s data = Ok (data ++ out).
Proof.
  intros Hl.
  destruct (finish_loop_ok size bad more Hsize Hbad Hgo Hstop (Z.to_nat (ev_left v s [] + 1)) s c p data) as (out & A & B).
  - left; exact Hl.
  - destruct (finish s [] size) as [[[ret n] out] s'] eqn:E.
    destruct (en_finish _ _ _ _ _ _ _ Hen s c p size ret n out s' (or_introl Hl) Hsize E) as (H1 & H2 & _ & _ & _ & H5 & H6 & _).
    pose proof (zlen_nonneg out). lia.
  - exists out. split; [exact A|]. eexists. exact B.
Qed.
End Enc.

(** ** Reading *)
Section Dec.
Variables (valid : list Z -> list Z -> Prop) (fine : Z -> Prop) (d : decoder) (v : dec_view (d_state d)).
Hypothesis Hde : decodes_stream valid fine d v.
Variables (b x : list Z).
Hypothesis Hbx : valid b x.

Lemma read_loop_ok (bad : Z -> option err) (Hbad : forall ret, fine ret -> bad ret = None) :
  forall (k : nat) s c p data input rest,
  dv_live v s c p -> c ++ input ++ rest = b -> dv_left v s input < Z.of_nat k ->
  (input <> [] \/ ~ dv_stuck v s) ->
  exists s' out, dv_live v s' (c ++ input) (p ++ out) /\ (exists z, p ++ out ++ z = x) /\
    (rest = [] -> p ++ out = x) /\
    forall fuel, (k <= fuel)%nat -> read_loop fuel (d_run d) bad s input data = Ok (s', data ++ out, None).
Proof.
  induction k as [|k IH]; intros s c p data input rest Hl Hb Hk Hst;
    destruct (d_run d s input CHUNK_SIZE) as [[[ret n] out] s1] eqn:E;
    destruct (de_run _ _ _ _ Hde b x s c p input rest CHUNK_SIZE ret n out s1 Hbx Hl Hb chunk_pos E)
      as (H1 & H2 & H3 & H3' & H4 & H5 & H6 & H7 & H8).
  - pose proof (zlen_nonneg out). exfalso. cbn in Hk. lia.
  - assert (Hf : fine ret).
    { destruct H8 as [H8|(Hs & Hn & Ho)]; [exact H8|exfalso].
      destruct Hst as [Hi|Hi]; [|exact (Hi Hs)]. subst out n.
      assert (0 = zlen input) by (apply H4; reflexivity). apply Hi, zlen_zero_nil. lia. }
    destruct (Z.eq_dec (zlen out) CHUNK_SIZE) as [Hfull|Hfull].
    + assert (Hns : ~ dv_stuck v s1).
      { destruct H7 as [[_ ->]|H7]; [discriminate Hfull|exact H7]. }
      destruct (IH s1 _ _ (data ++ out) (slice input n (zlen input - n)) rest H3) as (s' & out' & A & (z & B) & B' & C).
      { rewrite <- app_assoc, (app_assoc (slice input 0 n)), <- rest_split by lia. exact Hb. }
      { unfold CHUNK_SIZE in Hfull. lia. }
      { right; exact Hns. }
      exists s', (out ++ out'). split; [|split; [|split]].
      * rewrite !app_assoc. rewrite <- app_assoc in A. rewrite <- rest_split in A by lia.
        rewrite <- app_assoc in A. rewrite <- app_assoc. exact A.
      * exists z. rewrite <- app_assoc. rewrite <- app_assoc in B. exact B.
      * intros Hr. rewrite app_assoc. exact (B' Hr).
      * intros fuel Hfu. destruct fuel as [|fuel]; [lia|]. cbn [read_loop].
        rewrite (invoke_ok _ _ _ _ _ _ _ _ E) by lia. cbn [bind]. rewrite (Hbad _ Hf), Hfull, Z.sub_diag.
        change (0 =? 0) with true. cbv iota. rewrite C by lia. rewrite app_assoc. reflexivity.
    + assert (Hlt : zlen out < CHUNK_SIZE) by lia. destruct (H4 Hlt) as [Hn Hd]. subst n.
      rewrite (slice_all input) in H3.
      exists s1, out. split; [exact H3|]. split; [exact H3'|]. split; [exact Hd|].
      intros fuel Hfu. destruct fuel as [|fuel]; [lia|]. cbn [read_loop].
      rewrite (invoke_ok _ _ _ _ _ _ _ _ E) by lia. cbn [bind]. rewrite (Hbad _ Hf).
      replace (CHUNK_SIZE - zlen out =? 0) with false by (symmetry; apply Z.eqb_neq; lia). reflexivity.
Qed.

(** With the loop of zstd, the last call may leave output behind if it filled the buffer. *)
Lemma zread_loop_ok (Hbad : forall ret, fine ret -> zstd_error ret = false) :
  forall (k : nat) s c p data input rest,
  dv_live v s c p -> c ++ input ++ rest = b -> dv_left v s input + zlen input < Z.of_nat k -> input <> [] ->
  exists s' out, dv_live v s' (c ++ input) (p ++ out) /\ (exists z, p ++ out ++ z = x) /\
    (rest = [] -> zlen out < ZSTD_DOUT -> p ++ out = x) /\
    forall fuel, (k <= fuel)%nat -> zread_loop fuel (d_run d) s input data = Ok (s', data ++ out, None).
Proof.
  induction k as [|k IH]; intros s c p data input rest Hl Hb Hk Hi;
    destruct (d_run d s input ZSTD_DOUT) as [[[ret n] out] s1] eqn:E;
    destruct (de_run _ _ _ _ Hde b x s c p input rest ZSTD_DOUT ret n out s1 Hbx Hl Hb zdout_pos E)
      as (H1 & H2 & H3 & H3' & H4 & H5 & H6 & H7 & H8);
    assert (Hpi : 0 < zlen input) by (destruct (nil_or input); [contradiction|assumption]).
  - pose proof (zlen_nonneg out). exfalso. cbn in Hk. lia.
  - assert (Hprog : 0 < n + zlen out).
    { pose proof (zlen_nonneg out). destruct (Z.eq_dec (zlen out) 0) as [Z0|]; [|lia].
      assert (n = zlen input); [apply H4; rewrite Z0; reflexivity|]. lia. }
    assert (Hf : fine ret).
    { destruct H8 as [H8|(Hs & Hn & Ho)]; [exact H8|exfalso]. subst n out. cbn in Hprog. lia. }
    assert (Hlen : zlen (slice input n (zlen input - n)) = zlen input - n) by (apply zlen_slice; lia).
    assert (Hstep : forall fuel, (S k <= fuel)%nat -> exists f, fuel = S f /\ (k <= f)%nat /\
      zread_loop fuel (d_run d) s input data = zread_loop f (d_run d) s1 (slice input n (zlen input - n)) (data ++ out)).
    { intros fuel Hfu. destruct fuel as [|fuel]; [lia|]. exists fuel. split; [reflexivity|]. split; [lia|]. cbn [zread_loop].
      replace (zlen input =? 0) with false by (symmetry; apply Z.eqb_neq; lia).
      rewrite (invoke_ok _ _ _ _ _ _ _ _ E) by lia. cbn [bind]. rewrite (Hbad _ Hf). reflexivity. }
    destruct (nil_or (slice input n (zlen input - n))) as [He|He].
    + exists s1, out. assert (n = zlen input) by (rewrite He in Hlen; cbn in Hlen; lia). subst n.
      rewrite (slice_all input) in H3. split; [exact H3|]. split; [exact H3'|]. split.
      { intros Hr Hlt. apply H4; assumption. }
      intros fuel Hfu. destruct (Hstep fuel Hfu) as (f & _ & _ & ->). rewrite He. destruct f; reflexivity.
    + destruct (IH s1 _ _ (data ++ out) (slice input n (zlen input - n)) rest H3) as (s' & out' & A & (z & B) & B' & C).
      { rewrite <- app_assoc, (app_assoc (slice input 0 n)), <- rest_split by lia. exact Hb. }
      { lia. }
      { intros Hc. rewrite Hc in He. cbn in He. lia. }
      exists s', (out ++ out'). split; [|split; [|split]].
      * rewrite !app_assoc. rewrite <- app_assoc in A. rewrite <- rest_split in A by lia.
        rewrite <- app_assoc in A. rewrite <- app_assoc. exact A.
      * exists z. rewrite <- app_assoc. rewrite <- app_assoc in B. exact B.
      * intros Hr Hlt. rewrite app_assoc. apply (B' Hr). rewrite zlen_app in Hlt. pose proof (zlen_nonneg out). lia.
      * intros fuel Hfu. destruct (Hstep fuel Hfu) as (f & _ & Hf' & ->). rewrite C by lia. rewrite app_assoc. reflexivity.
Qed.

(** Reading chunks one after the other. *)
Lemma decompress_ok (read : nat -> d_state d -> list Z -> list Z -> res (d_state d * list Z * option err)) (small : list Z -> Prop)
  (Hread : forall s c p data input rest, dv_live v s c p -> c ++ input ++ rest = b -> input <> [] ->
    exists s' out, dv_live v s' (c ++ input) (p ++ out) /\ (exists z, p ++ out ++ z = x) /\
      (rest = [] -> small x -> p ++ out = x) /\
      exists k, forall fuel, (k <= fuel)%nat -> read fuel s data input = Ok (s', data ++ out, None)) :
  forall chunks s c p data rest, dv_live v s c p -> c ++ concat chunks ++ rest = b -> pieces_ok chunks ->
  (exists z, p ++ z = x) ->
  exists out, (exists z, p ++ out ++ z = x) /\
    (rest = [] -> small x -> chunks <> [] -> p ++ out = x) /\
    exists k, forall fuel, (k <= fuel)%nat -> decompress (read fuel) s data chunks = Ok (data ++ out, None).
Proof.
  induction chunks as [|a r IH]; intros s c p data rest Hl Hb Hp Hz.
  - exists []. split; [exact Hz|]. split; [intros _ _ Hc; contradiction|]. exists 0%nat. intros fuel _. cbn. rewrite app_nil_r. reflexivity.
  - assert (Ha : a <> []) by (inversion Hp; assumption). assert (Hr : pieces_ok r) by (inversion Hp; assumption).
    cbn [concat] in Hb. rewrite <- app_assoc in Hb.
    destruct (Hread s c p data a (concat r ++ rest) Hl Hb Ha) as (s' & out & L & Z1 & D1 & k & R).
    destruct (IH s' _ (p ++ out) (data ++ out) rest L) as (out' & (z & Z2) & D2 & k' & R').
    { rewrite <- app_assoc. exact Hb. }
    { exact Hr. }
    { destruct Z1 as [z Z1]. exists z. rewrite <- app_assoc. exact Z1. }
    exists (out ++ out'). split; [exists z; rewrite <- app_assoc; rewrite <- app_assoc in Z2; exact Z2|]. split.
    + intros Hrest Hs _. destruct r as [|a' r'].
      * assert (E : p ++ out = x) by (apply D1; [rewrite Hrest; reflexivity|exact Hs]).
        assert (out' = []).
        { rewrite <- E in Z2. rewrite <- (app_nil_r (p ++ out)) in Z2 at 2. apply app_inv_head in Z2.
          apply app_eq_nil in Z2. apply Z2. }
        subst out'. rewrite app_nil_r. exact E.
      * rewrite app_assoc. apply D2; [exact Hrest|exact Hs|discriminate].
    + exists (Nat.max k k'). intros fuel Hfu. cbn [decompress]. rewrite R by lia. cbn [bind]. rewrite R' by lia.
      rewrite app_assoc. reflexivity.
Qed.

Lemma read_ok (bad : Z -> option err) (Hbad : forall ret, fine ret -> bad ret = None) s c p data input rest :
  dv_live v s c p -> c ++ input ++ rest = b -> input <> [] ->
  exists s' out, dv_live v s' (c ++ input) (p ++ out) /\ (exists z, p ++ out ++ z = x) /\
    (rest = [] -> True -> p ++ out = x) /\
    exists k, forall fuel, (k <= fuel)%nat -> read_loop fuel (d_run d) bad s input data = Ok (s', data ++ out, None).
Proof.
  intros Hl Hb Hi.
  destruct (read_loop_ok bad Hbad (Z.to_nat (dv_left v s input + 1)) s c p data input rest Hl Hb) as (s' & out & A & B & C & D).
  - destruct (d_run d s input CHUNK_SIZE) as [[[ret n] out] s1] eqn:E.
    destruct (de_run _ _ _ _ Hde b x s c p input rest CHUNK_SIZE ret n out s1 Hbx Hl Hb chunk_pos E)
      as (H1 & H2 & H3 & H3' & H4 & H5 & H6 & _).
    pose proof (zlen_nonneg out). lia.
  - left; exact Hi.
  - exists s', out. split; [exact A|]. split; [exact B|]. split; [intros Hr _; exact (C Hr)|]. eexists. exact D.
Qed.

Lemma zread_ok (Hbad : forall ret, fine ret -> zstd_error ret = false) s c p data input rest :
  dv_live v s c p -> c ++ input ++ rest = b -> input <> [] ->
  exists s' out, dv_live v s' (c ++ input) (p ++ out) /\ (exists z, p ++ out ++ z = x) /\
    (rest = [] -> zlen x < ZSTD_DOUT -> p ++ out = x) /\
    exists k, forall fuel, (k <= fuel)%nat -> zread_loop fuel (d_run d) s input data = Ok (s', data ++ out, None).
Proof.
  intros Hl Hb Hi.
  destruct (zread_loop_ok Hbad (Z.to_nat (dv_left v s input + zlen input + 1)) s c p data input rest Hl Hb) as (s' & out & A & B & C & D).
  - destruct (d_run d s input CHUNK_SIZE) as [[[ret n] out] s1] eqn:E.
    destruct (de_run _ _ _ _ Hde b x s c p input rest CHUNK_SIZE ret n out s1 Hbx Hl Hb chunk_pos E)
      as (H1 & H2 & H3 & H3' & H4 & H5 & H6 & _).
    pose proof (zlen_nonneg out). pose proof (zlen_nonneg input). lia.
  - exact Hi.
  - exists s', out. split; [exact A|]. split; [exact B|]. split.
    + intros Hr Hs. apply (C Hr). destruct B as [z <-]. rewrite !zlen_app in Hs.
      pose proof (zlen_nonneg p). pose proof (zlen_nonneg z). lia.
    + eexists. exact D.
Qed.
End Dec.
