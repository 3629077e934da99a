(** * IdentProofs: identifiers are taken apart as their syntax says *)
From Verif Require Import Base BaseLemmas SpecCodec SpecArchive Utils UtilsProofs Stream Rpm Seq Delta DeltaWrite Expand CodecFinal ArchiveMain Ident SpecIdent FormatProofs.

Lemma strrchr_none s c : strrchr s c = None <-> ~ In c s.
Proof.
  induction s as [|x s IH]; cbn [strrchr In]; [tauto|].
  destruct (strrchr s c) as [i|].
  - split; [discriminate|]. intros H. exfalso. assert (~ In c s) by tauto. apply IH in H0. discriminate.
  - assert (Hn : ~ In c s) by (apply IH; reflexivity).
    destruct (Z.eqb_spec x c).
    + split; [discriminate|]. intros H. exfalso. apply H. auto.
    + split; [|reflexivity]. intros _ [E|E]; auto.
Qed.

Lemma strrchr_app a c b : ~ In c b -> strrchr (a ++ [c] ++ b) c = Some (zlen a).
Proof.
  intros Hb. induction a as [|x a IH].
  - cbn [app strrchr]. destruct (strrchr b c) eqn:E; [|rewrite Z.eqb_refl; reflexivity].
    apply strrchr_none in Hb. congruence.
  - cbn [app strrchr] in *. rewrite IH. rewrite zlen_cons. f_equal. lia.
Qed.

Lemma strrchr_some s c i : strrchr s c = Some i -> exists a b, s = a ++ [c] ++ b /\ i = zlen a /\ ~ In c b.
Proof.
  revert i. induction s as [|x s IH]; intros i H; cbn [strrchr] in H; [discriminate|].
  destruct (strrchr s c) as [j|] eqn:E.
  - injection H as <-. destruct (IH j eq_refl) as (a & b & -> & -> & Hb). exists (x :: a), b. rewrite zlen_cons. repeat split; auto. lia.
  - destruct (Z.eqb_spec x c); [|discriminate]. injection H as <-. subst. exists [], s. repeat split; auto. apply strrchr_none. auto.
Qed.

Lemma cut_before {A} (a b : list A) c : slice (a ++ [c] ++ b) 0 (zlen a) = a.
Proof. apply slice_app_exact_l. reflexivity. Qed.
Lemma cut_after {A} (a b : list A) c : from (a ++ [c] ++ b) (zlen a + 1) = b.
Proof. rewrite app_assoc. apply from_app_exact. rewrite zlen_app. change (zlen [c]) with 1. lia. Qed.
Lemma zlen_nonempty {A} (a : list A) : a <> [] -> (zlen a =? 0) = false.
Proof. intros H. destruct a; [congruence|]. rewrite zlen_cons. pose proof (zlen_nonneg a0). lia. Qed.

Lemma split_nevr_text p s : nevr_text p s -> split_nevr s = Ok p.
Proof.
  intros [n v r Hn Hn58 Hv58 Hv45 Hr|n e v r Hn He Hv Hr]; unfold split_nevr.
  - replace (n ++ [45] ++ v ++ [45] ++ r) with ((n ++ [45] ++ v) ++ [45] ++ r) by (rewrite <- !app_assoc; reflexivity).
    rewrite strrchr_app by auto. rewrite zlen_nonempty by (destruct n; discriminate).
    rewrite cut_before, cut_after.
    assert (E : strrchr (n ++ [45] ++ v) 58 = None).
    { apply strrchr_none. rewrite !in_app_iff. cbn [In]. intros [H|[[H|H]|H]]; auto; discriminate. }
    rewrite E, strrchr_app by auto. rewrite zlen_nonempty by auto. rewrite cut_before, cut_after. reflexivity.
  - replace (n ++ [45] ++ e ++ [58] ++ v ++ [45] ++ r) with (((n ++ [45] ++ e) ++ [58] ++ v) ++ [45] ++ r) by (rewrite <- !app_assoc; reflexivity).
    rewrite strrchr_app by auto. rewrite zlen_nonempty by (destruct n; discriminate).
    rewrite cut_before, cut_after. rewrite strrchr_app by auto. rewrite zlen_nonempty by (destruct n; discriminate).
    rewrite cut_before, cut_after. rewrite strrchr_app by auto. rewrite zlen_nonempty by auto. rewrite cut_before, cut_after. reflexivity.
Qed.

Lemma zlen_not0 {A} (a : list A) : (zlen a =? 0) = false -> a <> [].
Proof. intros H ->. discriminate. Qed.

Lemma split_nevr_inv s : (exists p, split_nevr s = Ok p /\ nevr_text p s) \/ split_nevr s = Err EFormat.
Proof.
  unfold split_nevr. destruct (strrchr s 45) as [i|] eqn:E; [|auto].
  apply strrchr_some in E as (a & r & -> & -> & Hr). destruct (zlen a =? 0) eqn:Ea; [auto|]. rewrite cut_before, cut_after.
  destruct (strrchr a 58) as [i|] eqn:E.
  - apply strrchr_some in E as (b & v & -> & -> & Hv). destruct (zlen b =? 0) eqn:Eb; [auto|]. rewrite cut_before, cut_after.
    destruct (strrchr b 45) as [i|] eqn:E; [|auto]. apply strrchr_some in E as (n & e & -> & -> & He).
    destruct (zlen n =? 0) eqn:En; [auto|]. rewrite cut_before, cut_after. left. eexists. split; [reflexivity|].
    rewrite <- !app_assoc. constructor; auto. apply zlen_not0. auto.
  - apply strrchr_none in E. destruct (strrchr a 45) as [i|] eqn:E2; [|auto]. apply strrchr_some in E2 as (n & v & -> & -> & Hv).
    destruct (zlen n =? 0) eqn:En; [auto|]. rewrite cut_before, cut_after. left. eexists. split; [reflexivity|].
    rewrite !in_app_iff in E. rewrite <- !app_assoc. constructor; auto. apply zlen_not0. auto.
Qed.

Lemma split_nevr_exact s p : split_nevr s = Ok p <-> nevr_text p s.
Proof.
  split; [|apply split_nevr_text]. intros H. destruct (split_nevr_inv s) as [(q & E & Hq)|E]; [|congruence].
  rewrite E in H. injection H as <-. auto.
Qed.

Lemma split_nevr_malformed s : (forall p, ~ nevr_text p s) -> split_nevr s = Err EFormat.
Proof. intros H. destruct (split_nevr_inv s) as [(q & E & Hq)|E]; [|auto]. destruct (H q Hq). Qed.

Lemma split_sequence_cases s :
  (exists nevr seq, split_sequence s = Ok (nevr, seq) /\ sequence_text nevr seq s) \/
  (split_sequence s = Err EFormat /\ forall nevr seq, ~ sequence_text nevr seq s).
Proof.
  unfold split_sequence. destruct (strrchr s 45) as [i|] eqn:E.
  - apply strrchr_some in E as (a & hex & -> & -> & Hh). rewrite cut_before, cut_after.
    assert (U : forall nevr seq, sequence_text nevr seq (a ++ [45] ++ hex) -> nevr = a /\ hex_bytes (even_part hex) = Some seq /\ a <> [] /\ 16 <= zlen seq).
    { intros nevr seq (h & E1 & Hn & Hh' & Eb & Hl).
      assert (Ez : Some (zlen a) = Some (zlen nevr)) by (rewrite <- (strrchr_app a 45 hex), <- (strrchr_app nevr 45 h) by auto; rewrite E1; reflexivity).
      injection Ez as Ez.
      assert (a = nevr) by (rewrite <- (cut_before a hex 45), <- (cut_before nevr h 45), E1, Ez; reflexivity). subst nevr.
      apply app_inv_head in E1. injection E1 as <-. auto. }
    destruct (zlen a =? 0) eqn:Ea.
    { right. split; [reflexivity|]. intros nevr seq H. apply U in H as (_ & _ & H & _). apply H. destruct a; [auto|]. rewrite zlen_cons in Ea. pose proof (zlen_nonneg a). lia. }
    destruct (even_part_split hex) as (t & Et & Ht & Hz).
    assert (Hlen : forall b, hex_bytes (even_part hex) = Some b -> zlen b = zlen hex / 2).
    { intros b Hb. destruct (hex_bytes_ext _ _ Hb) as [H _]. lia. }
    destruct (zlen hex / 2 <? 16) eqn:E16.
    { right. split; [reflexivity|]. intros nevr seq H. apply U in H as (_ & H & _ & H'). apply Hlen in H. lia. }
    rewrite parse_hex_even by lia. cbn [bind]. destruct (hex_bytes (even_part hex)) as [b|] eqn:Eb.
    + pose proof (Hlen b eq_refl) as Hl. rewrite Hl, Z.eqb_refl. left. exists a, b. split; [reflexivity|].
      exists hex. repeat split; auto; [apply zlen_not0; auto|lia].
    + right. split; [reflexivity|]. intros nevr seq H. apply U in H as (_ & H & _). discriminate.
  - right. split; [reflexivity|]. apply strrchr_none in E. intros nevr seq (h & -> & _). apply E. rewrite !in_app_iff. cbn. auto.
Qed.

Lemma split_sequence_exact s nevr seq : split_sequence s = Ok (nevr, seq) <-> sequence_text nevr seq s.
Proof.
  split; intros H.
  - destruct (split_sequence_cases s) as [(n & b & E & T)|[E _]]; [|congruence]. rewrite E in H. injection H as <- <-. auto.
  - destruct (split_sequence_cases s) as [(n & b & E & T)|[_ E]]; [|destruct (E _ _ H)].
    rewrite E. destruct T as (h & E1 & Hn & Hh & Eb & Hl). destruct H as (h' & E1' & Hn' & Hh' & Eb' & Hl').
    subst s. assert (Ez : Some (zlen nevr) = Some (zlen n)) by (rewrite <- (strrchr_app n 45 h), <- (strrchr_app nevr 45 h') by auto; rewrite E1; reflexivity).
    injection Ez as Ez. assert (nevr = n) by (rewrite <- (cut_before n h 45), <- (cut_before nevr h' 45), E1, Ez; reflexivity). subst nevr.
    apply app_inv_head in E1. injection E1 as <-. congruence.
Qed.

Lemma split_sequence_malformed s : (forall nevr seq, ~ sequence_text nevr seq s) -> split_sequence s = Err EFormat.
Proof. intros H. destruct (split_sequence_cases s) as [(n & b & E & T)|[E _]]; [destruct (H _ _ T)|auto]. Qed.

Lemma even_part_even s : Z.even (zlen s) = true -> even_part s = s.
Proof. intros H. apply Z.even_spec in H as [k H]. unfold even_part. replace (2 * (zlen s / 2)) with (zlen s); [apply slice_all|]. rewrite H, Z.mul_comm, Z.div_mul by lia. lia. Qed.
Lemma even_part_odd s c : Z.even (zlen s) = true -> even_part (s ++ [c]) = s.
Proof.
  intros H. apply Z.even_spec in H as [k H]. unfold even_part. rewrite zlen_app. change (zlen [c]) with 1.
  apply slice_app_exact_l. rewrite H. replace (2 * k + 1) with (1 + k * 2) by lia. rewrite Z.div_add by lia. cbn. lia.
Qed.

Lemma write_seqfile_text d : bytes (d_seq d) -> 16 <= zlen (d_seq d) < 2 ^ 31 -> d_src_nevr d <> [] ->
  exists id, write_seqfile d = Ok (id ++ [10]) /\ ~ In 10 (from id (zlen (d_src_nevr d))) /\ split_sequence id = Ok (d_src_nevr d, d_seq d) /\ split_sequence (id ++ [10]) = Ok (d_src_nevr d, d_seq d).
Proof.
  intros Hb [Hl Hl31] Hn. destruct (dump_hex_spec (d_seq d) Hb) as (h & Eh & Ehb & Hz & Hf).
  assert (He : Z.even (zlen h) = true) by (rewrite Hz, Z.even_mul; reflexivity).
  assert (Hd : ~ In 45 h /\ ~ In 10 h) by (rewrite Forall_forall in Hf; split; intros H; apply Hf in H; tauto).
  exists (d_src_nevr d ++ [45] ++ h). unfold write_seqfile. rewrite u32_small, Z.ltb_irrefl by lia. rewrite Eh. cbn [bind]. split; [rewrite <- !app_assoc; reflexivity|]. split.
  - rewrite from_app_exact by reflexivity. intros [H|H]; [discriminate|tauto].
  - split; apply split_sequence_exact.
    + exists h. rewrite even_part_even by auto. repeat split; tauto.
    + exists (h ++ [10]). rewrite even_part_odd by auto. rewrite <- !app_assoc. repeat split; auto. rewrite in_app_iff. cbn [In]. intros [H|[H|H]]; [tauto|discriminate|auto].
Qed.
