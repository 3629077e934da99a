(** * Soundness, memory safety and termination of the match search *)
From Verif Require Import Base BaseLemmas Sat Search.

Lemma buz_step_nonneg x b : 0 <= buz_step x b.
Proof. unfold buz_step. apply u32_range. Qed.

Lemma fold_buz_nonneg l x : 0 <= x -> 0 <= fold_left buz_step l x.
Proof.
  revert x; induction l as [|b l IH]; intros x Hx; cbn [fold_left]; auto.
  apply IH. apply buz_step_nonneg.
Qed.

Lemma buzhash_sat buf off :
  0 <= off -> off + HSIZE <= zlen buf -> sat (fun x => 0 <= x) (buzhash buf off).
Proof.
  intros. unfold buzhash. rewrite rd_range_in by (unfold HSIZE in *; lia).
  cbn [bind sat]. apply fold_buz_nonneg. lia.
Qed.

Lemma memcmp16_sat x a y b :
  0 <= a -> a + HSIZE <= zlen x -> 0 <= b -> b + HSIZE <= zlen y ->
  sat (fun r => r = true -> slice x a HSIZE = slice y b HSIZE) (memcmp16 x a y b).
Proof.
  intros. unfold memcmp16, HSIZE in *. rewrite !rd_range_in by lia.
  cbn [bind sat]. apply list_eqb_spec.
Qed.

(** A genuine match: both ranges are in bounds and byte-for-byte equal. *)
Definition match_at (old new : list Z) (scan pos len : Z) : Prop :=
  0 <= scan /\ 0 <= pos /\ 0 <= len /\ scan + len <= zlen new /\ pos + len <= zlen old /\
  forall k, 0 <= k < len -> getz old (pos + k) = getz new (scan + k).

Lemma match_len_loop_sat n old a new b :
  0 <= a -> 0 <= b -> a + Z.of_nat n <= zlen old -> b + Z.of_nat n <= zlen new ->
  sat (fun r => 0 <= r <= Z.of_nat n /\
                (forall k, 0 <= k < r -> getz old (a + k) = getz new (b + k)) /\
                (r < Z.of_nat n -> getz old (a + r) <> getz new (b + r)))
      (match_len_loop n old a new b).
Proof.
  revert a b; induction n as [|n IH]; intros a b Ha Hb Hao Hbo; cbn [match_len_loop].
  - cbn. split; [lia|]. split; intros; lia.
  - rewrite !rd_getz by lia. cbn [bind].
    destruct (Z.eqb_spec (getz old a) (getz new b)) as [E|E].
    + eapply sat_bind; [apply IH; lia|]. cbn [sat]. intros r (Hr & Heq & Hne).
      split; [lia|]. split.
      * intros k Hk. destruct (Z.eq_dec k 0) as [->|Hk0]; [now rewrite !Z.add_0_r|].
        specialize (Heq (k - 1)). replace (a + k) with (a + 1 + (k - 1)) by lia.
        replace (b + k) with (b + 1 + (k - 1)) by lia. apply Heq. lia.
      * intros Hlt. replace (a + (1 + r)) with (a + 1 + r) by lia.
        replace (b + (1 + r)) with (b + 1 + r) by lia. apply Hne. lia.
    + cbn [sat]. split; [lia|]. split; [intros; lia|]. intros _.
      now rewrite !Z.add_0_r.
Qed.

Lemma match_len_sat old a la new b lb :
  0 <= a -> 0 <= b -> 0 <= la -> 0 <= lb -> a + la <= zlen old -> b + lb <= zlen new ->
  sat (fun r => match_at old new b a r) (match_len old a la new b lb).
Proof.
  intros. unfold match_len. eapply sat_mono; [apply match_len_loop_sat; lia|].
  cbv beta. intros r (Hr & Heq & _). unfold match_at. repeat split; try lia. auto.
Qed.

(** ** The hash table *)
Definition ht_wf (old_len : Z) (h : htab) : Prop :=
  0 < ht_len h /\
  forall k, let v := assoc_get (ht_assoc h) k in
            v = 0 \/ (1 <= v /\ v - 1 + HSIZE <= old_len).

Lemma ht_get_sat old_len h k :
  ht_wf old_len h -> 0 <= k < ht_len h ->
  sat (fun v => v = 0 \/ (1 <= v /\ v - 1 + HSIZE <= old_len)) (ht_get h k).
Proof.
  intros [_ H] Hk. unfold ht_get. destruct (_ && _) eqn:E; [|lia]. cbn. apply H.
Qed.

Lemma next_key_range h key : 0 < ht_len h -> 0 <= key < ht_len h -> 0 <= next_key h key < ht_len h.
Proof. unfold next_key. destruct (Z.eqb_spec key (ht_len h - 1)); lia. Qed.

Lemma pick_prime_pos w : 0 < pick_prime w.
Proof.
  unfold pick_prime. destruct (find _ primes) eqn:E; [|reflexivity].
  apply find_some in E as [Hin _].
  assert (Forall (fun p => 0 < p) primes) as Hall
    by (unfold primes; repeat constructor).
  rewrite Forall_forall in Hall. auto.
Qed.

Lemma ht_set_sat old_len h k v :
  ht_wf old_len h -> 0 <= k < ht_len h -> 1 <= v -> v - 1 + HSIZE <= old_len ->
  sat (fun h' => ht_wf old_len h' /\ ht_len h' = ht_len h) (ht_set h k v).
Proof.
  intros [Hl H] Hk Hv1 Hv2. unfold ht_set. destruct (_ && _) eqn:E; [|lia].
  cbn. split; [|reflexivity]. split; [exact Hl|].
  intros k'. cbn. destruct (k' =? k); [right; lia|apply H].
Qed.

(** Everything stored so far denotes blocks before [off]. *)
Definition ht_below (off : Z) (h : htab) : Prop :=
  forall k, assoc_get (ht_assoc h) k <= off.

Lemma hash_create_loop_sat old n h off :
  ht_wf (zlen old) h -> 0 <= off -> off + Z.of_nat n * HSIZE <= zlen old -> ht_below off h ->
  sat (ht_wf (zlen old)) (hash_create_loop n old h off).
Proof.
  revert h off; induction n as [|n IH]; intros h off Hwf Hoff Hle Hb; cbn [hash_create_loop].
  - exact Hwf.
  - unfold HSIZE in Hle.
    eapply (sat_bind (fun h' => ht_wf (zlen old) h' /\ ht_below (off + HSIZE) h')).
    2:{ intros h' [Hw Hb']. apply IH; auto; unfold HSIZE in *; lia. }
    unfold hash_create_step.
    eapply sat_bind; [apply buzhash_sat; unfold HSIZE; lia|].
    cbv beta. intros k Hk. destruct Hwf as [Hl Hv].
    assert (Hkey : 0 <= k mod ht_len h < ht_len h) by (apply Z.mod_pos_bound; auto).
    assert (Hset : forall key, 0 <= key < ht_len h ->
              sat (fun h' => ht_wf (zlen old) h' /\ ht_below (off + HSIZE) h')
                  (ht_set h key (off + 1))).
    { intros key Hkey'. unfold ht_set. destruct (_ && _) eqn:E; [|lia]. cbn [sat].
      split.
      - split; [exact Hl|]. intros k'. cbn [ht_assoc assoc_get].
        destruct (k' =? key); [right; unfold HSIZE; lia|apply Hv].
      - intros k'. cbn [ht_assoc assoc_get]. unfold HSIZE.
        specialize (Hb k'). destruct (k' =? key); lia. }
    assert (Hsame : ht_wf (zlen old) h /\ ht_below (off + HSIZE) h).
    { split; [split; auto|]. intros k'. specialize (Hb k'). unfold HSIZE. lia. }
    unfold ht_get at 1. destruct ((0 <=? k mod ht_len h) && _) eqn:E; [|lia].
    cbn [bind]. pose proof (Hv (k mod ht_len h)) as Hvk. pose proof (Hb (k mod ht_len h)) as Hbk.
    cbv zeta in Hvk.
    destruct (Z.eqb_spec (assoc_get (ht_assoc h) (k mod ht_len h)) 0) as [E0|E0].
    + apply Hset; auto.
    + destruct Hvk as [?|Hvk]; [contradiction|].
      eapply sat_bind; [apply (ht_get_sat (zlen old)); [split; auto|apply next_key_range; auto]|].
      cbv beta. intros v2 _. destruct (negb (v2 =? 0)); [exact Hsame|].
      eapply sat_bind; [apply memcmp16_sat; unfold HSIZE in *; lia|].
      cbv beta. intros [] _; [exact Hsame|]. apply Hset. apply next_key_range; auto.
Qed.

Lemma hash_create_sat old : sat (ht_wf (zlen old)) (hash_create old).
Proof.
  unfold hash_create. pose proof (zlen_nonneg old).
  apply hash_create_loop_sat.
  - split; [apply pick_prime_pos|]. intros k. left. reflexivity.
  - lia.
  - unfold HSIZE. rewrite Z2Nat.id by (apply Z.div_pos; lia).
    pose proof (Z.mul_div_le (zlen old) 16). lia.
  - intros k. cbn. lia.
Qed.

(** ** The search *)
Section SearchProofs.
  Context (h : htab) (old new : list Z) (last_offset start : Z).
  Context (Hht : ht_wf (zlen old) h).
  Context (Hold : zlen old < 2 ^ 63) (Hnew : zlen new < 2 ^ 63).
  Context (Hn16 : HSIZE <= zlen new) (Hstart : 0 <= start <= zlen new).

  Local Notation ol := (zlen old).
  Local Notation nl := (zlen new).

  Definition hs_inv (s : hs) : Prop :=
    start <= h_scan_start s <= h_scan s /\ h_scan s <= nl /\
    0 <= h_prekey s /\
    0 <= h_last_len s /\
    (0 < h_last_len s -> h_scan_start s <= h_last_scan s <= h_scan s /\
                         match_at old new (h_last_scan s) (h_last_pos s) (h_last_len s)) /\
    0 <= h_old_score_start s /\ 0 <= h_old_score_num s /\
    h_old_score_start s + h_old_score_num s <= nl.

  (** Strictly decreasing bound on the remaining rounds. *)
  Definition hs_mu (s : hs) : Z :=
    (nl - h_scan_start s) * (nl + 2) + (nl - h_scan s).

  Definition hs_post (s : hs) (r : hs_next) : Prop :=
    match r with
    | HsGo s' => hs_inv s' /\ hs_mu s' < hs_mu s
    | HsBreak scan pos len =>
        (nl - HSIZE <= scan) \/
        (start <= scan /\ 1 <= len /\ match_at old new scan pos len)
    end.

  Lemma new_sub_hsize : u64 (nl - HSIZE) = nl - HSIZE.
  Proof. apply u64_small. unfold HSIZE in *. lia. Qed.

  Lemma hs_back_sat n scan pos len lo :
    match_at old new scan pos len -> scan - Z.of_nat n = lo -> 0 <= lo ->
    sat (fun '(scan', pos', len') =>
           match_at old new scan' pos' len' /\ lo <= scan' <= scan /\
           scan' + len' = scan + len /\ len <= len')
        (hs_back old new n scan pos len).
  Proof.
    revert scan pos len; induction n as [|n IH]; intros scan pos len Hm Hlo Hlo0.
    - cbn. split; auto. lia.
    - cbn [hs_back]. destruct ((0 <? pos) && (0 <? scan)) eqn:E.
      + destruct Hm as (H1 & H2 & H3 & H4 & H5 & H6).
        rewrite !rd_getz by lia. cbn [bind].
        destruct (Z.eqb_spec (getz old (pos - 1)) (getz new (scan - 1))) as [Eq|Ne].
        * eapply sat_mono.
          { apply IH; [|lia|lia]. repeat split; try lia.
            intros k Hk. destruct (Z.eq_dec k 0) as [->|Hk0].
            - now rewrite !Z.add_0_r.
            - replace (pos - 1 + k) with (pos + (k - 1)) by lia.
              replace (scan - 1 + k) with (scan + (k - 1)) by lia. apply H6. lia. }
          intros [[scan' pos'] len'] (Hm & Hl & Hs & Hln). split; auto. lia.
        * cbn. split; [repeat split; auto|]. lia.
      + cbn. split; auto. lia.
  Qed.

  Lemma score_at_sat m : 0 <= m < nl -> sat (fun _ => True) (score_at old new last_offset m).
  Proof.
    intros Hm. unfold score_at. pose proof (u64_range (m + last_offset)) as Hr.
    destruct (Z.ltb_spec (u64 (m + last_offset)) ol); [|exact I].
    rewrite !rd_getz by lia. exact I.
  Qed.

  Lemma score_loop_sat n m sc :
    0 <= m -> m + Z.of_nat n <= nl -> sat (fun _ => True) (score_loop old new last_offset n m sc).
  Proof.
    revert m sc; induction n as [|n IH]; intros m sc Hm Hn; cbn [score_loop]; [exact I|].
    eapply sat_bind; [apply score_at_sat; lia|]. intros b _. apply IH; lia.
  Qed.

  Lemma hs_score_sat s scan len :
    0 <= h_old_score_start s -> 0 <= h_old_score_num s ->
    h_old_score_start s + h_old_score_num s <= nl ->
    0 <= scan -> 0 <= len -> scan + len <= nl ->
    sat (fun '(_, num, st) => 0 <= st /\ 0 <= num /\ st + num <= nl)
        (hs_score old new last_offset s scan len).
  Proof.
    intros. unfold hs_score. destruct (_ || _) eqn:E.
    - eapply sat_bind; [apply score_loop_sat; lia|]. intros sc _. cbn. lia.
    - eapply sat_bind; [apply score_at_sat; lia|]. cbv beta zeta. intros b _.
      eapply sat_bind; [apply score_loop_sat; lia|]. intros sc _. cbn. lia.
  Qed.

  Lemma hs_rehash_sat scan pk : 0 <= scan -> 0 <= pk -> sat (fun x => 0 <= x) (hs_rehash new scan pk).
  Proof.
    intros. unfold hs_rehash. destruct (Z.ltb_spec (scan + HSIZE) nl); [|exact H0].
    apply buzhash_sat; lia.
  Qed.

  Lemma hs_inv_intro s :
    start <= h_scan_start s <= h_scan s -> h_scan s <= nl -> 0 <= h_prekey s ->
    0 <= h_last_len s ->
    (0 < h_last_len s -> h_scan_start s <= h_last_scan s <= h_scan s /\
                         match_at old new (h_last_scan s) (h_last_pos s) (h_last_len s)) ->
    0 <= h_old_score_start s -> 0 <= h_old_score_num s ->
    h_old_score_start s + h_old_score_num s <= nl -> hs_inv s.
  Proof. unfold hs_inv. auto 10. Qed.

  Lemma mu_restart s scan ls lp sc num st pk :
    hs_inv s -> h_scan_start s < scan <= nl ->
    hs_mu (mkhs scan scan ls lp 0 sc num st pk) < hs_mu s.
  Proof.
    intros (H1 & H2 & _) H. unfold hs_mu. cbn. nia.
  Qed.

  Lemma hs_gotit_sat s : hs_inv s -> 32 <= h_last_len s ->
    sat (hs_post s) (hs_gotit old new last_offset s).
  Proof.
    intros Hinv Hll. pose proof Hinv as (H1 & H2 & H3 & H4 & H5 & H6 & H7 & H8).
    destruct (H5 ltac:(lia)) as [H9 Hm]. pose proof Hm as (M1 & M2 & M3 & M4 & M5 & M6).
    unfold hs_gotit. destruct (_ =? _).
    - eapply sat_bind; [apply hs_rehash_sat; lia|]. cbv beta. intros pk Hpk.
      cbn [sat hs_post]. split; [|apply mu_restart; auto; lia].
      apply hs_inv_intro; cbn; lia.
    - eapply sat_bind.
      { apply (hs_back_sat _ _ _ _ (h_scan_start s)); [exact Hm| |lia].
        rewrite u64_small by lia. lia. }
      intros [[scan pos] len] (Hm' & Hlo & Hsum & Hlen). pose proof Hm' as (N1 & N2 & N3 & N4 & N5 & _).
      eapply sat_bind; [apply hs_score_sat; try lia|].
      intros [[sc num] st] Hsc. destruct (32 <=? u64 (len - sc)).
      + cbn. right. split; [lia|]. split; [lia|]. apply Hm'.
      + set (scan1 := if 3 * HSIZE + 32 <? len then scan + (len - (3 * HSIZE + 32)) else scan).
        set (scan2 := if scan1 <=? h_last_scan s then h_last_scan s + 1 else scan1).
        assert (scan <= scan1 <= scan + len)
          by (unfold scan1, HSIZE; destruct (Z.ltb_spec (3 * 16 + 32) len); lia).
        assert (h_last_scan s < scan2 <= nl)
          by (unfold scan2; destruct (Z.leb_spec scan1 (h_last_scan s)); lia).
        eapply sat_bind; [apply hs_rehash_sat; lia|]. cbv beta. intros pk Hpk.
        cbn [sat hs_post]. split; [|apply mu_restart; auto; lia].
        apply hs_inv_intro; cbn; lia.
  Qed.

  Lemma hs_scannext_sat s : hs_inv s -> h_scan s < nl - HSIZE ->
    sat (hs_post s) (hs_scannext old new last_offset s).
  Proof.
    intros Hinv Hs. unfold hs_scannext. destruct (_ && _) eqn:E.
    - apply hs_gotit_sat; auto. lia.
    - pose proof Hinv as (H1 & H2 & H3 & H4 & H5 & H6 & H7 & H8). unfold HSIZE in *.
      rewrite !rd_getz by lia. cbn [bind sat hs_post]. split.
      + apply hs_inv_intro; cbn [h_scan h_scan_start h_last_scan h_last_pos h_last_len
          h_old_score h_old_score_num h_old_score_start h_prekey]; try lia.
        * apply u32_range.
        * intros Hx. destruct (H5 Hx) as [? ?]. split; [lia|auto].
      + unfold hs_mu. cbn. lia.
  Qed.

  Lemma hs_lookahead_sat scan pos len :
    match_at old new scan pos len -> 1 <= len ->
    sat (fun '(pos', len') => match_at old new scan pos' len' /\ 1 <= len')
        (hs_lookahead h old new scan pos len).
  Proof.
    intros Hm Hl. pose proof Hm as (M1 & M2 & M3 & M4 & M5 & M6).
    unfold hs_lookahead. destruct (Z.leb_spec (scan + HSIZE * 4) nl); [|cbn; auto].
    unfold HSIZE in *.
    eapply sat_bind; [apply buzhash_sat; unfold HSIZE in *; lia|]. cbv beta. intros k2 Hk2.
    pose proof Hht as [Hl0 Hv].
    assert (Hkey : 0 <= k2 mod ht_len h < ht_len h) by (apply Z.mod_pos_bound; auto).
    eapply sat_bind; [apply (ht_get_sat ol); auto|]. cbv beta zeta. intros p2 Hp2.
    eapply (sat_bind (fun v => v = 0 \/ (1 <= v /\ v - 1 + HSIZE <= ol))).
    { destruct (Z.eqb_spec p2 0); [cbn; auto|].
      destruct Hp2 as [?|Hp2]; [contradiction|]. unfold HSIZE in *.
      eapply sat_bind; [apply memcmp16_sat; unfold HSIZE; lia|]. cbv beta.
      intros [] _; [cbn; unfold HSIZE; auto|].
      apply (ht_get_sat ol); auto. apply next_key_range; auto. }
    cbv beta. intros p3 Hp3. unfold HSIZE in Hp3.
    destruct (Z.ltb_spec (1 + 3 * 16) p3); [|cbn; auto].
    destruct (negb _); [|cbn; auto].
    eapply sat_bind.
    { apply match_len_sat; rewrite ?u64_small; lia. }
    cbv beta. intros len2 Hm2. destruct (Z.ltb_spec len len2); cbn; split; auto; lia.
  Qed.

  Lemma hs_match_sat s pos : hs_inv s -> h_scan s < nl - HSIZE ->
    0 <= pos -> pos + HSIZE <= ol ->
    slice old pos HSIZE = slice new (h_scan s) HSIZE ->
    sat (hs_post s) (hs_match h old new last_offset s pos).
  Proof.
    intros Hinv Hs Hp1 Hp2 Heq.
    pose proof Hinv as (H1 & H2 & H3 & H4 & H5 & H6 & H7 & H8).
    unfold hs_match, HSIZE in *.
    eapply sat_bind; [apply match_len_sat; rewrite ?u64_small; lia|].
    cbv beta. intros l (M1 & M2 & M3 & M4 & M5 & M6).
    eapply sat_bind.
    { apply hs_lookahead_sat; [|lia].
      unfold match_at. do 5 (split; [lia|]). intros k Hk.
      destruct (Z.lt_ge_cases k 16) as [Hlt|Hge].
      - apply (slice_eq_getz _ _ _ _ 16); auto; lia.
      - replace (pos + k) with (pos + 16 + (k - 16)) by lia.
        replace (h_scan s + k) with (h_scan s + 16 + (k - 16)) by lia. apply M6. lia. }
    intros [pos' len'] (Hm & Hl). destruct (h_last_len s <? len').
    - eapply sat_mono.
      + apply hs_scannext_sat; unfold HSIZE in *.
        * apply hs_inv_intro; cbn [h_scan h_scan_start h_last_scan h_last_pos h_last_len
          h_old_score h_old_score_num h_old_score_start h_prekey]; try lia.
          intros _. split; [lia|auto].
        * cbn. lia.
      + intros [s'|]; cbn [hs_post]; auto.
    - apply hs_scannext_sat; unfold HSIZE in *; auto.
  Qed.

  Lemma hs_step_sat s : hs_inv s -> sat (hs_post s) (hs_step h old new last_offset s).
  Proof.
    intros Hinv. unfold hs_step. rewrite new_sub_hsize.
    destruct (Z.leb_spec (nl - HSIZE) (h_scan s)).
    - destruct (Z.leb_spec 32 (h_last_len s)); [apply hs_gotit_sat; auto|].
      cbn. left. auto.
    - pose proof Hht as [Hl0 Hv].
      pose proof Hinv as (H1 & H2 & H3 & H4 & H5 & H6 & H7 & H8).
      set (key := h_prekey s mod ht_len h).
      assert (Hkey : 0 <= key < ht_len h) by (apply Z.mod_pos_bound; auto).
      cbv zeta. eapply sat_bind; [apply (ht_get_sat ol); auto|]. cbv beta. intros p Hp.
      destruct (Z.eqb_spec p 0); [apply hs_scannext_sat; auto|].
      destruct Hp as [?|Hp]; [contradiction|]. unfold HSIZE in *.
      eapply sat_bind; [apply memcmp16_sat; unfold HSIZE; lia|]. cbv beta.
      intros [] Hc.
      { apply hs_match_sat; unfold HSIZE in *; auto; lia. }
      eapply sat_bind; [apply (ht_get_sat ol); auto; apply next_key_range; auto|].
      cbv beta. intros p' Hp'. unfold HSIZE in *.
      destruct (Z.eqb_spec p' 0); [apply hs_scannext_sat; auto|].
      destruct Hp' as [?|Hp']; [contradiction|].
      eapply sat_bind; [apply memcmp16_sat; unfold HSIZE; lia|]. cbv beta.
      intros [] Hc'.
      { apply hs_match_sat; unfold HSIZE in *; auto; lia. }
      apply hs_scannext_sat; auto.
  Qed.

  Lemma hs_mu_nonneg s : hs_inv s -> 0 <= hs_mu s.
  Proof. intros (H1 & H2 & _). unfold hs_mu. nia. Qed.

  Lemma hs_loop_sat fuel s : hs_inv s -> hs_mu s < Z.of_nat fuel ->
    sat (fun '(scan, pos, len) => (nl - HSIZE <= scan) \/
          (start <= scan /\ 1 <= len /\ match_at old new scan pos len))
        (hs_loop h old new last_offset fuel s).
  Proof.
    revert s; induction fuel as [|f IH]; intros s Hinv Hmu.
    - pose proof (hs_mu_nonneg s Hinv). lia.
    - cbn [hs_loop]. eapply sat_bind; [apply hs_step_sat; auto|].
      intros [s'|scan pos len]; cbn [hs_post].
      + intros [Hi Hd]. apply IH; auto. lia.
      + intros H. exact H.
  Qed.

  (** Result of the search: no more matches, or a genuine non-empty match at or
      after the starting point. *)
  Definition search_ok (r : Z * Z * Z) : Prop :=
    let '(scan, pos, len) := r in
    (scan = nl /\ pos = 0 /\ len = 0) \/
    (start <= scan < nl /\ 1 <= len /\ match_at old new scan pos len).

  Lemma hash_search_sat : sat search_ok (hash_search h old new last_offset start).
  Proof.
    unfold hash_search. rewrite new_sub_hsize.
    eapply (sat_bind (fun x => 0 <= x)).
    { destruct (Z.leb_spec start (nl - HSIZE)); [apply buzhash_sat; lia|cbn; lia]. }
    intros pk Hpk. eapply sat_bind.
    { apply hs_loop_sat.
      - apply hs_inv_intro; cbn; lia.
      - unfold hs_mu, hs_fuel. cbn [h_scan h_scan_start].
        pose proof (zlen_nonneg new). nia. }
    intros [[scan pos] len] H.
    destruct (Z.leb_spec (nl - HSIZE) scan); cbn.
    - left. auto.
    - right. destruct H as [H|(H1 & H2 & H3)]; [lia|]. unfold HSIZE in *.
      split; [lia|]. split; auto.
  Qed.
End SearchProofs.
