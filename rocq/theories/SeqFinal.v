(** * SeqFinal: bounds of the expansion *)
From Verif Require Import Base BaseLemmas Sat Utils UtilsProofs CodecFinal Rpm Seq SeqProofs Expand.

(** ** Arbitrary sequences *)
(** No outcome but success, an error, a store one past the table, or an oversized shift; and what success means. *)
Definition mild {A} (P : A -> Prop) (r : res A) : Prop :=
  match r with
  | Ok a => P a
  | Err _ => True
  | Ub u => u = OobWrite \/ u = BadShift
  | NoFuel => False
  end.

Definition pos_ok (count : Z) (out : list Z) : Prop :=
  zlen out <= count /\ Forall (fun p => 0 <= p <= count) out.

Lemma run_loop_mild count : 0 <= count < 2 ^ 64 - 1 -> forall f number pos out,
  0 <= pos < 2 ^ 64 -> pos_ok count out -> count - zlen out < Z.of_nat f ->
  mild (fun r => 0 <= fst r < 2 ^ 64 /\ pos_ok count (snd r)) (run_loop f count number pos out).
Proof.
  intros Hc. induction f as [|f IH]; intros number pos out Hp [Ho Hf] Hfu.
  - lia.
  - cbn [run_loop]. destruct (0 <? number); [|cbn; split; [lia|split; auto]].
    destruct ((count <? zlen out) || (count <? pos)) eqn:E; [cbn; auto|].
    destruct (count <=? zlen out) eqn:E2; [cbn; auto|].
    rewrite u64_small by lia.
    apply IH; [lia| |rewrite zlen_app; change (zlen [pos]) with 1; lia].
    split; [rewrite zlen_app; change (zlen [pos]) with 1; lia|].
    apply Forall_app. split; [auto|]. constructor; [lia|constructor].
Qed.

Definition st_ok (count : Z) (s : dseq) : Prop :=
  0 <= dq_num s < 2 ^ 64 /\ 0 <= dq_pos s < 2 ^ 64 /\ pos_ok count (dq_out s).

Lemma seq_number_mild count number s : 0 <= count < 2 ^ 64 - 1 -> 0 <= number < 2 ^ 64 -> st_ok count s ->
  mild (st_ok count) (seq_number count number s).
Proof.
  intros Hc Hn (H0 & H1 & H2). unfold seq_number. destruct (dq_jump s).
  { cbn. split; [cbn; lia|]. split; [cbn; lia|auto]. }
  destruct (number =? 0).
  { cbn. split; [cbn; lia|]. split; [cbn; lia|auto]. }
  destruct (dq_toggle s); cbn [negb].
  - pose proof (run_loop_mild count Hc (S (Z.to_nat count)) number (dq_pos s) (dq_out s) H1 H2) as Hr.
    pose proof (zlen_nonneg (dq_out s)). specialize (Hr ltac:(lia)).
    destruct (run_loop _ _ _ _ _) as [[p o]|e|u|]; cbn in *; auto. destruct Hr as [A B].
    split; [cbn; lia|]. split; [cbn; lia|auto].
  - cbn. split; [cbn; lia|]. split; [cbn; apply u64_range|auto].
Qed.

Lemma lor_64 a b : 0 <= a < 2 ^ 64 -> 0 <= b < 2 ^ 64 -> 0 <= Z.lor a b < 2 ^ 64.
Proof.
  intros Ha Hb. split; [apply Z.lor_nonneg; lia|].
  destruct (Z.eq_dec (Z.lor a b) 0) as [->|Hz]; [lia|].
  apply Z.log2_lt_pow2; [pose proof (proj2 (Z.lor_nonneg a b)); lia|].
  rewrite Z.log2_lor by lia. apply Z.max_lub_lt.
  - destruct (Z.eq_dec a 0) as [->|]; [cbn; lia|]. apply Z.log2_lt_pow2; lia.
  - destruct (Z.eq_dec b 0) as [->|]; [cbn; lia|]. apply Z.log2_lt_pow2; lia.
Qed.

Lemma shl64_mild x k : 0 <= x < 2 ^ 64 -> mild (fun y => 0 <= y < 2 ^ 64) (shl64 x k).
Proof.
  intros H. unfold shl64. destruct (k =? 0); [cbn; lia|]. destruct (64 <=? k); [cbn; auto|].
  cbn. apply u64_range.
Qed.

Lemma seq_nibble_mild count x s : 0 <= count < 2 ^ 64 - 1 -> nib x -> st_ok count s ->
  mild (st_ok count) (seq_nibble count x s).
Proof.
  intros Hc Hx Hs. pose proof Hs as (H0 & H1 & H2). unfold seq_nibble, nib in *. destruct (negb _) eqn:E.
  - assert (Hxor : 0 <= Z.lxor x 8 < 2 ^ 64).
    { destruct (Z.lt_ge_cases x 8) as [Hlt|Hge].
      - rewrite land8 in E by (unfold nib; lia). replace (x <? 8) with true in E by lia. discriminate.
      - replace x with (x - 8 + 8) by lia. rewrite lxor8 by lia. lia. }
    pose proof (shl64_mild _ (dq_shift s) Hxor) as Hm.
    destruct (shl64 _ _) as [b|e|u|]; cbn in *; auto. split; [cbn; apply lor_64; auto|]. auto.
  - assert (Hx64 : 0 <= x < 2 ^ 64) by lia. pose proof (shl64_mild x (dq_shift s) Hx64) as Hm.
    destruct (shl64 _ _) as [b|e|u|]; cbn [bind mild] in *; auto. apply seq_number_mild; auto. apply lor_64; auto.
Qed.

Lemma seq_loop_mild count : 0 <= count < 2 ^ 64 - 1 -> forall l s, bytes l -> st_ok count s ->
  mild (st_ok count) (seq_loop count l s).
Proof.
  intros Hc. induction l as [|b l IH]; intros s Hb Hs; cbn [seq_loop]; [exact Hs|].
  inversion Hb as [|? ? Hb0 Hb1]; subst. unfold byte in Hb0.
  assert (Hhi : nib (Z.shiftr b 4)).
  { unfold nib. rewrite Z.shiftr_div_pow2 by lia. split; [apply Z.div_pos; lia|apply Z.div_lt_upper_bound; lia]. }
  assert (Hlo : nib (Z.land b 15)).
  { unfold nib. change 15 with (Z.ones 4). rewrite Z.land_ones by lia. apply Z.mod_pos_bound. lia. }
  pose proof (seq_nibble_mild count _ s Hc Hhi Hs) as H1.
  destruct (seq_nibble count (Z.shiftr b 4) s) as [s1|e|u|]; cbn [bind mild] in *; auto.
  pose proof (seq_nibble_mild count _ s1 Hc Hlo H1) as H2.
  destruct (seq_nibble count (Z.land b 15) s1) as [s2|e|u|]; cbn [bind mild] in *; auto.
Qed.

Lemma positions_bounds sequence count : bytes sequence -> 0 <= count < 2 ^ 64 - 1 ->
  match seq_positions sequence count with
  | Ok out => zlen out <= count /\ Forall (fun p => 0 <= p <= count) out
  | Err e => e = EFormat
  | Ub u => u = OobWrite \/ u = BadShift
  | NoFuel => False
  end.
Proof.
  intros Hb Hc. unfold seq_positions.
  assert (Hs : bytes (skipn 16 sequence)).
  { unfold bytes in *. rewrite <- (firstn_skipn 16 sequence) in Hb. apply Forall_app in Hb. tauto. }
  assert (Hi : st_ok count DSEQ_INIT).
  { split; [cbn; lia|]. split; [cbn; lia|]. split; [cbn; lia|constructor]. }
  pose proof (seq_loop_mild count Hc (skipn 16 sequence) DSEQ_INIT Hs Hi) as H.
  assert (He : forall l s e, seq_loop count l s = Err e -> e = EFormat).
  { assert (Hr : forall f n p o e, run_loop f count n p o = Err e -> e = EFormat).
    { induction f as [|f IH]; intros n p o e; cbn [run_loop]; destruct (0 <? n); try discriminate.
      destruct (_ || _); [intros X; congruence|]. destruct (count <=? zlen o); [discriminate|]. apply IH. }
    assert (Hn : forall x s e, seq_number count x s = Err e -> e = EFormat).
    { intros x s e. unfold seq_number. destruct (dq_jump s); [discriminate|]. destruct (x =? 0); [discriminate|].
      destruct (negb _); [discriminate|]. destruct (run_loop _ _ _ _ _) as [[? ?]|e'|u|] eqn:E; cbn [bind]; try discriminate.
      intros X. apply Hr in E. congruence. }
    assert (Hh : forall x k e, shl64 x k = Err e -> e = EFormat).
    { intros x k e. unfold shl64. destruct (k =? 0); [discriminate|]. destruct (64 <=? k); discriminate. }
    assert (Hb' : forall x s e, seq_nibble count x s = Err e -> e = EFormat).
    { intros x s e. unfold seq_nibble. destruct (negb _); destruct (shl64 _ _) eqn:E; cbn [bind]; try discriminate; intros X.
      - apply Hh in E. congruence.
      - eapply Hn; eauto.
      - apply Hh in E. congruence. }
    induction l as [|b l IH]; intros s e; cbn [seq_loop]; [discriminate|].
    destruct (seq_nibble _ _ s) eqn:E; cbn [bind]; try discriminate; [|intros X; apply Hb' in E; congruence].
    destruct (seq_nibble _ _ a) eqn:E2; cbn [bind]; try discriminate; [|intros X; apply Hb' in E2; congruence].
    apply IH. }
  destruct (seq_loop count (skipn 16 sequence) DSEQ_INIT) as [s|e|u|] eqn:E; cbn [bind mild] in *; auto.
  - destruct (negb _); [auto|]. exact (proj2 (proj2 H)).
  - eapply He; eauto.
Qed.

(** ** Sequences made by the encoder *)
Lemma zlen_parse_hex_safe str : zlen str <= 65 -> forall sha, exists r, (if sha : bool then parse_sha256 str 32 else parse_md5 str 32) = Ok r.
Proof.
  intros Hs sha.
  assert (He : exists r, parse_hex str 32 = Ok r).
  { destruct (Z.even (zlen str)) eqn:Ev.
    - rewrite parse_hex_spec; eauto. apply Z.div_le_upper_bound; [lia|].
      apply Zeven_bool_iff, Zeven_ex in Ev as [k Hk]. lia.
    - destruct (odd_snoc str Ev) as (s & c & -> & Es). rewrite zlen_app in Hs. change (zlen [c]) with 1 in Hs.
      rewrite hex_odd; eauto. lia. }
  destruct He as [r Hr]. unfold parse_sha256, parse_md5. rewrite Hr. destruct sha; cbn [bind]; eauto.
Qed.

Definition defined {A} (r : res A) : Prop := match r with Ok _ | Err _ => True | _ => False end.

Lemma defined_bind {A B} (x : res A) (k : A -> res B) :
  defined x -> (forall a, x = Ok a -> defined (k a)) -> defined (x <- x ;; k x).
Proof. destruct x; cbn; auto. Qed.

Section Safe.
Variable L : libs.
Variable check : option (list Z -> bool -> list Z -> Z -> res unit).
Hypothesis check_safe : forall c, check = Some c -> forall n a d z, defined (c n a d z).

Lemma expand_file_defined sha f : zlen (fi_md5 f) <= 65 -> defined (expand_file check sha f).
Proof.
  intros H. unfold expand_file. destruct (S_ISLNK _); [exact I|]. destruct (_ && _); [|exact I].
  apply defined_bind.
  - unfold file_digest. destruct (zlen_parse_hex_safe (fi_md5 f) H sha) as [r ->]. cbn [bind]. destruct r; exact I.
  - intros d _. apply defined_bind; [|intros; exact I]. destruct check as [c|] eqn:E; [eapply check_safe; eauto|exact I].
Qed.

Lemma expand_loop_defined sha files : Forall (fun f => zlen (fi_md5 f) <= 65) files -> forall l off md5,
  Forall (fun i => 0 <= i < zlen files) l -> defined (expand_loop check sha files l off md5).
Proof.
  intros Hf. induction l as [|i l IH]; intros off md5 Hl; cbn [expand_loop]; [exact I|].
  inversion Hl as [|? ? Hi Hl']; subst. apply defined_bind.
  - unfold rd. replace (i <? 0) with false by lia. destruct (nth_error files (Z.to_nat i)) eqn:E; [exact I|].
    apply nth_error_None in E. unfold zlen in Hi. lia.
  - intros f Hr. apply rd_ok in Hr as (Hr & Hn). apply defined_bind.
    + apply expand_file_defined. rewrite Forall_forall in Hf. apply Hf.
      eapply nth_error_In; eauto.
    + intros m _. apply defined_bind; [apply IH; auto|]. intros [[? ?] ?] _. exact I.
Qed.

Lemma generated_safe l digest code files sha : Forall (fun i => 0 <= i < zlen files) l ->
  zlen l <= zlen files -> zlen files < 2 ^ 32 -> Forall (fun f => zlen (fi_md5 f) <= 65) files ->
  zlen digest = 16 -> seq_encode l = Ok code ->
  defined (expand_sequence L check (Some (digest ++ code)) files sha).
Proof.
  intros Hl Hz Hn Hf Hd He. pose proof (zlen_nonneg files).
  destruct (roundtrip_seq (zlen files) l ltac:(lia) Hl Hz) as (c & Ec & _ & Hp).
  assert (c = code) by congruence. subst c. unfold expand_sequence. rewrite zlen_app. pose proof (zlen_nonneg code).
  replace (zlen digest + zlen code <? 16) with false by lia. rewrite (Hp digest Hd). cbn [bind].
  apply defined_bind; [apply expand_loop_defined; auto|]. intros [[a b] c] _. destruct (negb _); exact I.
Qed.
End Safe.
