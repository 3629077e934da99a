(** What packages own. *)
Require Import ZArith List Bool Lia.
Require Import Verif.Own Verif.OwnTools Verif.OwnCodec Verif.OwnCodecProofs Verif.OwnRpm.
Import ListNotations.
Open Scope Z_scope.

Definition orpm (r : rpm) (x : Z) : nat :=
  (op (r_self r) x + op (r_sig r) x + op (r_hdr r) x + op (r_arch r) x)%nat.
(** A package that can be released; one that was read, with or without a signature. *)
Definition wf_rpm (r : rpm) : Prop :=
  isat (r_self r) /\ okp (r_sig r) /\ okp (r_hdr r) /\ okp (r_arch r).
Definition hd_rpm (r : rpm) : Prop :=
  isat (r_self r) /\ okp (r_sig r) /\ isat (r_hdr r) /\ okp (r_arch r).
Definition full_rpm (r : rpm) : Prop :=
  isat (r_self r) /\ isat (r_sig r) /\ isat (r_hdr r) /\ okp (r_arch r).
(** What a variable can hold when its package was not read. *)
Definition no_rpm (r : rpm) : Prop :=
  okp (r_self r) /\ r_sig r = Null /\ r_hdr r = Null /\ r_arch r = Null.
Definition can_rpm (r : rpm) : Prop := no_rpm r \/ wf_rpm r.
Definition ofi (f : finfo) (x : Z) : nat := (op (fi_self f) x + ops (fi_strs f) x)%nat.
Definition wf_fi (f : finfo) : Prop := okp (fi_self f) /\ oks (fi_strs f).
Global Hint Unfold orpm ofi : own.
Global Hint Unfold wf_rpm hd_rpm full_rpm no_rpm can_rpm wf_fi : own_wf.
Ltac own_red ::=
  cbn [isnull negb andb orb fst snd
    ds_self ds_data ds_codec ds_zstd ds_null ds_junk set_ds_data
    cs_self cs_data cs_codec cs_zstd cs_null cs_junk set_cs_data end_codec
    wr_self wr_data wr_strm wr_null set_wr_strm
    r_self r_sig r_hdr r_arch rpm_null rpm_junk set_sig set_hdr set_arch
    fi_self fi_strs fi_null].

Lemma isat_ok p : isat p -> okp p.
Proof. now destruct p. Qed.
Global Hint Resolve isat_ok : core.

Lemma full_hd r : full_rpm r -> hd_rpm r.
Proof. intros (A & B & D & E). repeat split; auto. Qed.
Lemma hd_wf r : hd_rpm r -> wf_rpm r.
Proof. intros (A & B & D & E). repeat split; auto. Qed.
Lemma wf_can r : wf_rpm r -> can_rpm r.
Proof. now right. Qed.
Lemma no_can r : no_rpm r -> can_rpm r.
Proof. now left. Qed.
Lemma no_null : no_rpm rpm_null.
Proof. repeat split. Qed.
Global Hint Resolve full_hd hd_wf wf_can no_can no_null : core.

Lemma wp_rpm_free r (Q : _ -> st -> Prop) s :
  wf_rpm r -> need s (orpm r) ->
  (forall s', chg s s' (orpm r) (op (r_self r)) -> Q (mkrpm (r_self r) Null Null Null) s') ->
  wp (rpm_free r) Q s.
Proof.
  intros W N H. pose proof W as (W1 & W2 & W3 & W4). unfold rpm_free. steps; ends.
Qed.

Lemma wp_rpm_destroy r (Q : _ -> st -> Prop) s :
  can_rpm r -> need s (orpm r) ->
  (forall s', chg s s' (orpm r) zer -> Q rpm_null s') ->
  wp (rpm_destroy r) Q s.
Proof.
  intros W N H; unfold rpm_destroy. destruct r as [a b c d].
  assert (W' : mkrpm a b c d = rpm_null \/ wf_rpm (mkrpm a b c d)).
  { destruct W as [(A & B & D & E)|W]; [|now right]. cbn in *. subst.
    destruct a; [now left|destruct A|right; side]. }
  clear W. destruct W' as [W|W].
  - injection W as -> -> -> ->. steps. ends.
  - pose proof W as (W1 & W2 & W3 & W4). destruct a; try destruct W1.
    cbn in W2, W3, W4. own_red. apply wp_bind, wp_rpm_free; [exact W|exact N|].
    intros s1 K. steps. ends.
Qed.

Lemma wp_rpm_export r h (Q : _ -> st -> Prop) s :
  isat (r_self r) -> isat h -> need s (fun x => op (r_self r) x + op h x)%nat ->
  (forall n s', chg s s' zer (ind n) -> Q (true, At n) s') ->
  (forall s', e_oom (envs s) = true -> chg s s' zer zer -> Q (false, Null) s') ->
  wp (rpm_export r h) Q s.
Proof.
  intros W1 W2 N H1 H2. unfold rpm_export. steps; try ends.
Qed.

Lemma wp_rpm_unload_region r (Q : _ -> st -> Prop) s :
  hd_rpm r -> need s (orpm r) ->
  (forall r' s', hd_rpm r' -> r_self r' = r_self r -> r_sig r' = r_sig r ->
     chg s s' (orpm r) (orpm r') -> Q r' s') ->
  wp (rpm_unload_region r) Q s.
Proof.
  intros W N H. pose proof W as (W1 & W2 & W3 & W4). unfold rpm_unload_region.
  destruct r as [a b c d]. cbn in W1, W2, W3, W4. steps; try ends.
Qed.

Lemma wp_archive_rounds n r (Q : _ -> st -> Prop) s :
  envs s = calm -> full_rpm r -> need s (orpm r) ->
  (forall r' s', full_rpm r' -> chg s s' (orpm r) (orpm r') -> Q (true, r') s') ->
  wp (rounds n archive_round r) Q s.
Proof.
  intros Z W N H.
  apply wp_rounds with
    (I := fun r' s' => full_rpm r' /\ chg s s' (orpm r) (orpm r'))
    (J := fun r' s' => False).
  - split; [exact W|side].
  - intros r1 s1 (W1 & K1). unfold archive_round. destruct r1 as [a b c d].
    destruct W1 as (A1 & A2 & A3 & A4). cbn in A1, A2, A3, A4. steps. split; side.
  - intros r1 s1 (W1 & K1). auto.
  - intros r1 s1 [].
Qed.

Ltac sp1 :=
  lazymatch goal with
  | |- wp (decompstrm_init _) _ _ =>
      apply wp_decompstrm_init; [intros ? ? ? ?|intros ? ? [->| ->] ?]
  | |- wp (decompstrm_read_until_eof _) _ _ =>
      apply wp_decompstrm_read_until_eof; [try side|try side|intros ? ? ? ? ?|intros ? ? ? ?]
  | |- wp (decompstrm_read _) _ _ =>
      apply wp_decompstrm_read; [try side|try side|intros ? ? ? ?|intros ? ? ? ?]
  | |- wp (decompstrm_destroy ds_null) _ _ =>
      apply wp_decompstrm_destroy_null
  | |- wp (decompstrm_destroy _) _ _ =>
      apply wp_decompstrm_destroy; [try side|try side|intros ? ?]
  | |- wp (rounds _ archive_round _) _ _ =>
      apply wp_archive_rounds; [try envs_tac|try side|try side|intros ? ? ? ?]
  | |- wp (rpm_export _ _) _ _ =>
      apply wp_rpm_export; [try side|try side|try side|intros ? ? ?|intros ? ? ?; try contra]
  | |- wp (rpm_free _) _ _ => apply wp_rpm_free; [try side|try side|intros ? ?]
  | |- wp (rpm_destroy _) _ _ => apply wp_rpm_destroy; [try side|try side|intros ? ?]
  | |- wp (rpm_unload_region _) _ _ =>
      apply wp_rpm_unload_region; [try side|try side|intros ? ? ? ? ? ?]
  end.
Ltac spec ::= sp1.

(** With decompression in any environment, without it only in a calm one. *)
Lemma wp_rpm_read_archive r decomp (Q : _ -> st -> Prop) s :
  decomp = true \/ envs s = calm -> full_rpm r -> r_arch r = Null -> need s (orpm r) ->
  (forall r' s', full_rpm r' -> chg s s' (orpm r) (orpm r') -> Q (true, r') s') ->
  (forall r' s', full_rpm r' -> chgl s s' (orpm r) (orpm r') -> Q (false, r') s') ->
  wp (rpm_read_archive r decomp) Q s.
Proof.
  intros Z W E N H1 H2. unfold rpm_read_archive. destruct r as [a b c d]. cbn in E. subst d.
  pose proof W as (W1 & W2 & W3 & W4). cbn in W1, W2, W3.
  destruct decomp; [clear Z|destruct Z as [Z|Z]; [discriminate|]]; steps; try ends.
Qed.

Ltac sp2 :=
  first
  [ sp1
  | lazymatch goal with
    | |- wp (rpm_read_archive _ _) _ _ =>
        apply wp_rpm_read_archive;
        [try (first [assumption|now left|right; envs_tac])|try side|try reflexivity|try side
        |intros ? ? ? ?|intros ? ? ? ?]
    end ].
Ltac spec ::= sp2.

Lemma wp_rpm_read seq full include decomp (Q : _ -> st -> Prop) s :
  include = false \/ decomp = true \/ envs s = calm ->
  (forall r s', full_rpm r -> chg s s' zer (orpm r) -> Q (true, r) s') ->
  (forall r s', no_rpm r -> chgl s s' zer (orpm r) ->
     (include = false -> chg s s' zer (orpm r)) -> Q (false, r) s') ->
  wp (rpm_read seq full include decomp) Q s.
Proof.
  intros Z H1 H2. unfold rpm_read, rpm_read_body.
  assert (Z' : include = false \/ decomp = true \/ (include = true /\ decomp = false /\ envs s = calm)).
  { destruct include, decomp; intuition. }
  clear Z.
  destruct Z' as [-> |[-> |(-> & -> & Z)]]; destruct seq, full; steps.
  all: first [apply H2; [side|side|first [discriminate|intros _; side]] | ends].
Qed.

Lemma wp_rpm_look r (Q : _ -> st -> Prop) s :
  hd_rpm r -> need s (orpm r) -> (forall b s', chg s s' zer zer -> Q b s') ->
  wp (rpm_look r) Q s.
Proof. intros (W1 & W2 & W3 & W4) N H. unfold rpm_look. steps; ends. Qed.

Lemma wp_rpm_fetch_lead_and_signature r (Q : _ -> st -> Prop) s :
  full_rpm r -> need s (orpm r) ->
  (forall n s', chg s s' zer (ind n) -> Q (true, At n) s') ->
  (forall s', e_oom (envs s) = true -> chg s s' zer zer -> Q (false, Null) s') ->
  wp (rpm_fetch_lead_and_signature r) Q s.
Proof.
  intros (W1 & W2 & W3 & W4) N H1 H2. unfold rpm_fetch_lead_and_signature. steps; ends.
Qed.

Lemma wp_rpm_fetch_header r (Q : _ -> st -> Prop) s :
  hd_rpm r -> need s (orpm r) ->
  (forall n s', chg s s' zer (ind n) -> Q (true, At n) s') ->
  (forall s', e_oom (envs s) = true -> chg s s' zer zer -> Q (false, Null) s') ->
  wp (rpm_fetch_header r) Q s.
Proof.
  intros (W1 & W2 & W3 & W4) N H1 H2. unfold rpm_fetch_header. steps; ends.
Qed.

Lemma wp_rpm_fetch_archive r (Q : _ -> st -> Prop) s :
  wf_rpm r -> need s (orpm r) ->
  (forall n s', chg s s' zer (ind n) -> Q (true, At n) s') ->
  (forall s', e_oom (envs s) = true -> chg s s' zer zer -> Q (false, Null) s') ->
  wp (rpm_fetch_archive r) Q s.
Proof.
  intros (W1 & W2 & W3 & W4) N H1 H2. unfold rpm_fetch_archive. steps; ends.
Qed.

Lemma wp_rpm_write r (Q : _ -> st -> Prop) s :
  full_rpm r -> need s (orpm r) -> (forall b s', chg s s' zer zer -> Q b s') ->
  wp (rpm_write r) Q s.
Proof. intros (W1 & W2 & W3 & W4) N H. unfold rpm_write. steps; ends. Qed.

Lemma wp_rpm_replace_lead_and_signature r (Q : _ -> st -> Prop) s :
  hd_rpm r -> need s (orpm r) ->
  (forall r' s', full_rpm r' -> chg s s' (orpm r) (orpm r') -> Q (true, r') s') ->
  (forall r' s', hd_rpm r' -> chg s s' (orpm r) (orpm r') -> Q (false, r') s') ->
  wp (rpm_replace_lead_and_signature r) Q s.
Proof.
  intros W N H1 H2. unfold rpm_replace_lead_and_signature. destruct r as [a b c d].
  pose proof W as (W1 & W2 & W3 & W4). cbn in W1, W2, W3, W4. steps; ends.
Qed.

Lemma wp_rpm_get_nevr r (Q : _ -> st -> Prop) s :
  hd_rpm r -> need s (orpm r) ->
  (forall n s', chg s s' zer (ind n) -> Q (true, At n) s') ->
  (forall s', chg s s' zer zer -> Q (false, Null) s') ->
  wp (rpm_get_nevr r) Q s.
Proof. intros (W1 & W2 & W3 & W4) N H1 H2. unfold rpm_get_nevr. steps; ends. Qed.

Lemma wp_rpm_get_digest_algo r (Q : _ -> st -> Prop) s :
  hd_rpm r -> need s (orpm r) -> (forall b s', chg s s' zer zer -> Q b s') ->
  wp (rpm_get_digest_algo r) Q s.
Proof. intros (W1 & W2 & W3 & W4) N H. unfold rpm_get_digest_algo. steps; ends. Qed.

Lemma wp_header_reload h (Q : _ -> st -> Prop) s :
  isat h -> need s (op h) ->
  (forall n s', chg s s' (op h) (ind n) -> Q (At n) s') ->
  (forall s', e_oom (envs s) = true -> chg s s' (op h) zer -> Q Null s') ->
  wp (header_reload h) Q s.
Proof. intros W N H1 H2. unfold header_reload. steps; ends. Qed.

Ltac sp3 :=
  first
  [ sp2
  | lazymatch goal with
    | |- wp (header_reload _) _ _ =>
        apply wp_header_reload; [try side|try side|intros ? ? ?|intros ? ? ?; try contra]
    end ].
Ltac spec ::= sp3.

(** The new header may be null without memory. *)
Lemma wp_rpm_patch_payload_format r (Q : _ -> st -> Prop) s :
  hd_rpm r -> need s (orpm r) ->
  (forall r' s', hd_rpm r' -> r_sig r' = r_sig r -> chg s s' (orpm r) (orpm r') ->
     Q (true, r') s') ->
  (forall r' s', e_oom (envs s) = true -> wf_rpm r' -> chg s s' (orpm r) (orpm r') ->
     Q (true, r') s') ->
  (forall r' s', hd_rpm r' -> r_sig r' = r_sig r -> chg s s' (orpm r) (orpm r') ->
     Q (false, r') s') ->
  wp (rpm_patch_payload_format r) Q s.
Proof.
  intros W N H1 H2 H3. unfold rpm_patch_payload_format.
  pose proof W as (W1 & W2 & W3 & W4). steps; try ends.
Qed.

Lemma wp_file_rounds n (Q : _ -> st -> Prop) s :
  (forall l s', oks l -> chg s s' zer (ops l) -> Q (true, l) s') ->
  (forall l s', oks l -> chg s s' zer (ops l) -> Q (false, l) s') ->
  wp (rounds n file_round []) Q s.
Proof.
  intros H1 H2.
  pose (I := fun l s' => oks l /\ chg s s' zer (ops l)).
  apply wp_rounds with (I := I) (J := I); unfold I; clear I.
  - split; [exact I|side].
  - intros l s1 (W & K). unfold file_round. steps; split; side.
  - intros l s1 (W & K). auto.
  - intros l s1 (W & K). auto.
Qed.

Ltac sp4 :=
  first
  [ sp3
  | lazymatch goal with
    | |- wp (rounds _ file_round _) _ _ =>
        apply wp_file_rounds; [intros ? ? ? ?|intros ? ? ? ?]
    end ].
Ltac spec ::= sp4.

Lemma wp_rpm_get_file_info r old (Q : _ -> st -> Prop) s :
  hd_rpm r -> need s (orpm r) -> 
  (forall f s', wf_fi f -> chg s s' zer (ofi f) -> Q (true, f) s') ->
  (forall s', chg s s' zer zer -> Q (true, old) s') ->
  (forall s', chg s s' zer zer -> Q (false, old) s') ->
  wp (rpm_get_file_info r old) Q s.
Proof.
  intros (W1 & W2 & W3 & W4) N H1 H2 H3. unfold rpm_get_file_info. steps; ends.
Qed.

Lemma wp_finfo_free f (Q : _ -> st -> Prop) s :
  wf_fi f -> need s (ofi f) -> (forall s', chg s s' (ofi f) zer -> Q tt s') ->
  wp (finfo_free f) Q s.
Proof. intros (W1 & W2) N H. unfold finfo_free. steps; ends. Qed.

Lemma wp_rpm_find_payload_format_offset r (Q : _ -> st -> Prop) s :
  hd_rpm r -> need s (orpm r) -> (forall b s', chg s s' zer zer -> Q b s') ->
  wp (rpm_find_payload_format_offset r) Q s.
Proof.
  intros (W1 & W2 & W3 & W4) N H. unfold rpm_find_payload_format_offset. steps; ends.
Qed.

Lemma wp_rpm_signature_empty r (Q : _ -> st -> Prop) s :
  hd_rpm r -> need s (orpm r) ->
  (forall r' s', full_rpm r' -> chg s s' (orpm r) (orpm r') -> Q r' s') ->
  wp (rpm_signature_empty r) Q s.
Proof.
  intros W N H. unfold rpm_signature_empty. destruct r as [a b c d].
  pose proof W as (W1 & W2 & W3 & W4). cbn in W1, W2, W3, W4. steps; ends.
Qed.

Lemma wp_rpm_signature_set r (Q : _ -> st -> Prop) s :
  full_rpm r -> need s (orpm r) -> (forall s', chg s s' zer zer -> Q tt s') ->
  wp (rpm_signature_set r) Q s.
Proof. intros (W1 & W2 & W3 & W4) N H. unfold rpm_signature_set. steps; ends. Qed.

Lemma wp_rpm_signature_reload r (Q : _ -> st -> Prop) s :
  full_rpm r -> need s (orpm r) ->
  (forall r' s', full_rpm r' -> chg s s' (orpm r) (orpm r') -> Q r' s') ->
  (forall r' s', e_oom (envs s) = true -> hd_rpm r' -> chg s s' (orpm r) (orpm r') ->
     Q r' s') ->
  wp (rpm_signature_reload r) Q s.
Proof.
  intros W N H1 H2. unfold rpm_signature_reload. destruct r as [a b c d].
  pose proof W as (W1 & W2 & W3 & W4). cbn in W1, W2, W3, W4. steps; ends.
Qed.

Lemma wp_rpm_signature_get_md5 r (Q : _ -> st -> Prop) s :
  full_rpm r -> need s (orpm r) -> (forall b s', chg s s' zer zer -> Q b s') ->
  wp (rpm_signature_get_md5 r) Q s.
Proof. intros (W1 & W2 & W3 & W4) N H. unfold rpm_signature_get_md5. steps; ends. Qed.

(** Only when memory is not short; what is exported is never released. *)
Lemma wp_rpm_read_header (Q : _ -> st -> Prop) s :
  envs s = calm ->
  (forall r n s', hd_rpm r -> chg s s' zer (fun x => orpm r x + ind n x)%nat ->
     Q (true, r) s') ->
  (forall s', chgl s s' zer zer -> Q (false, rpm_null) s') ->
  wp rpm_read_header Q s.
Proof.
  intros Z H1 H2. unfold rpm_read_header. steps; try ends.
  apply H1 with (n := n4); side.
Qed.
