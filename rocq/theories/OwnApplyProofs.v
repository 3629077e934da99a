(** What applying a delta owns. *)
Require Import ZArith List Bool Lia.
Require Import Verif.Own Verif.OwnTools Verif.OwnCodec Verif.OwnCodecProofs Verif.OwnRpm.
Require Import Verif.OwnRpmProofs Verif.OwnRead Verif.OwnReadProofs Verif.OwnCheck.
Require Import Verif.OwnCheckProofs Verif.OwnMake Verif.OwnMakeProofs Verif.OwnBlocks.
Require Import Verif.OwnBlocksProofs Verif.OwnApply.
Import ListNotations.
Open Scope Z_scope.

(** Nothing but memory matters here. *)
Lemma wp_wrapper_finish_mem w old (Q : _ -> st -> Prop) s :
  e_oom (envs s) = false -> wf_wr w -> need s (owr w) ->
  (forall w' n s', wf_wr w' -> cs_codec (wr_strm w') = Null ->
     chg s s' (owr w) (fun x => owr w' x + ind n x)%nat -> Q (true, w', At n) s') ->
  (forall w' p s', wf_wr w' -> p = old \/ p = Null -> chgl s s' (owr w) (owr w') ->
     Q (false, w', p) s') ->
  wp (wrapper_finish w old) Q s.
Proof.
  intros Z W N H1 H2. pose proof W as (W1 & W2 & W3). unfold wrapper_finish.
  destruct w as [a b c]. cbn in W1, W2, W3. steps; ends.
Qed.

Definition no_blocks (b : blocks) (p : pool) (fs : list (ptr * ptr)) : Prop :=
  b = b_null /\ p = no_pool /\ fs = [].
Lemma wp_blocks_destroy_any (from only : bool) b p fs (Q : _ -> st -> Prop) s :
  no_blocks b p fs \/ wf_bk from only b /\ wf_pl p /\ isprs fs /\ (from = true -> fs = []) ->
  need s (fun y => obk b y + opl p y + oprs fs y)%nat ->
  (forall s', chg s s' (fun y => obk b y + opl p y + oprs fs y)%nat zer -> Q tt s') ->
  wp (blocks_destroy from b p fs) Q s.
Proof.
  intros [(-> & -> & ->)|(A & B & D & E)] N H.
  - apply wp_blocks_destroy_null. apply H. side.
  - now apply wp_blocks_destroy with (only := only).
Qed.
Lemma wp_decompstrm_destroy_any d (Q : _ -> st -> Prop) s :
  d = ds_null \/ wf_ds d -> need s (ods d) ->
  (forall s', chg s s' (ods d) zer -> Q ds_null s') -> wp (decompstrm_destroy d) Q s.
Proof.
  intros [->|W] N H.
  - apply wp_decompstrm_destroy_null. apply H. side.
  - now apply wp_decompstrm_destroy.
Qed.
Definition owr' (w : wrapper) (x : Z) : nat :=
  (op (wr_self w) x + op (wr_data w) x + op (cs_self (wr_strm w)) x + op (cs_data (wr_strm w)) x)%nat.
Lemma wp_wrapper_destroy_any w (Q : _ -> st -> Prop) s :
  w = wr_null \/ wf_wr w -> need s (owr w) ->
  (forall s', chg s s' (owr' w) zer -> Q tt s') -> wp (wrapper_destroy w) Q s.
Proof.
  intros [->|W] N H.
  - apply wp_wrapper_destroy_null. apply H. side.
  - now apply wp_wrapper_destroy.
Qed.
Global Hint Unfold owr' : own.

Definition oparts (a : parts) (y : Z) : nat :=
  (obk (a_blks a) y + opl (a_pool a) y + oprs (a_open a) y + ods (a_strm a) y + op (a_add a) y +
   op (a_buf a) y + op (a_hdr a) y + owr (a_csw a) y + op (a_comp a) y)%nat.
(** What can be released; what can be used. *)
Definition can_parts (from only : bool) (a : parts) : Prop :=
  (no_blocks (a_blks a) (a_pool a) (a_open a) \/
   wf_bk from only (a_blks a) /\ wf_pl (a_pool a) /\ isprs (a_open a) /\
   (from = true -> a_open a = [])) /\
  (a_strm a = ds_null \/ wf_ds (a_strm a)) /\ okp (a_add a) /\ okp (a_buf a) /\ okp (a_hdr a) /\
  (a_csw a = wr_null \/ wf_wr (a_csw a)) /\ okp (a_comp a).
Definition full_parts (from only add : bool) (a : parts) : Prop :=
  wf_bk from only (a_blks a) /\ wf_pl (a_pool a) /\ isprs (a_open a) /\
  (from = true -> a_open a = []) /\
  (if add then wf_ds (a_strm a) /\ isat (a_add a) else a_strm a = ds_null /\ a_add a = Null) /\
  isat (a_buf a) /\ okp (a_hdr a) /\ wf_wr (a_csw a) /\ a_comp a = Null.
Global Hint Unfold oparts : own.

Lemma full_can_parts from only add a : full_parts from only add a -> can_parts from only a.
Proof.
  intros (A & B & D & E & F & G & H & I0 & J).
  assert (okp (a_buf a)) by (destruct (a_buf a); easy).
  split; [right; auto|]. rewrite J. destruct add; destruct F as (F1 & F2).
  - assert (okp (a_add a)) by (destruct (a_add a); easy).
    split; [auto|]. split; [auto|]. split; [auto|]. split; [auto|]. split; [auto|exact I].
  - rewrite F2. split; [auto|]. split; [exact I|]. split; [auto|]. split; [auto|].
    split; [auto|exact I].
Qed.

Ltac own_red ::=
  cbn [isnull negb andb orb fst snd chain
    ds_self ds_data ds_codec ds_zstd ds_null ds_junk set_ds_data
    cs_self cs_data cs_codec cs_zstd cs_null cs_junk set_cs_data end_codec
    wr_self wr_data wr_strm wr_null set_wr_strm
    r_self r_sig r_hdr r_arch rpm_null rpm_junk set_sig set_hdr set_arch
    fi_self fi_strs fi_null
    d_only d_rpm d_nevr d_src d_seq d_param d_adj d_lead d_int d_ext d_add d_data d_zero
    set_d_only set_d_rpm set_d_nevr set_d_src set_d_seq set_d_param set_d_adj set_d_lead
    set_d_int set_d_ext set_d_add set_d_data
    b_self b_table b_max b_cpio b_hdr b_open b_null k_core k_idle k_page k_fd no_pool
    a_blks a_pool a_open a_strm a_add a_buf a_hdr a_csw a_comp].

Lemma wf_no_pool : wf_pl no_pool.
Proof. repeat split. Qed.

Lemma wp_apply_add (add : bool) d (Q : _ -> st -> Prop) s :
  e_oom (envs s) = false -> full_dl d -> need s (odl d) ->
  (forall t b s', (if add then wf_ds t /\ isat b else t = ds_null /\ b = Null) ->
     chg s s' zer (fun y => ods t y + op b y)%nat -> Q (true, t, b) s') ->
  (forall s', chg s s' zer zer -> Q (false, ds_null, Null) s') ->
  wp (apply_add add d) Q s.
Proof.
  intros Z W N H1 H2. unfold apply_add.
  destruct W as (W1 & W2 & W3 & W4 & W5 & W6 & W7 & W8 & W9 & W10).
  destruct add; cbn [negb].
  - apply wp_bind, wp_look; [exact W9| |].
    { intro y. specialize (N y). unfold odl in N. lia. }
    clear N. apply wp_bind, wp_decompstrm_init.
    + intros t s1 T K. steps. apply H1; [split; [exact T|exact I]|side].
    + intros t s1 E K. assert (t = ds_null) by tauto. subst t. steps. apply H2. side.
  - steps. apply H1; [auto|side].
Qed.

Lemma wp_apply_header d (Q : _ -> st -> Prop) s :
  e_oom (envs s) = false -> full_dl d -> need s (odl d) ->
  (forall ok d' h s', full_dl d' -> d_only d' = d_only d -> okp h ->
     chg s s' (odl d) (fun y => odl d' y + op h y)%nat -> Q (ok, d', h) s') ->
  wp (apply_header d) Q s.
Proof.
  intros Z W N H. unfold apply_header. destruct d as [o t n a1 a2 a3 a4 a5 a6 a7 a8 a9].
  pose proof W as (W1 & W2 & W3 & W4 & W5 & W6 & W7 & W8 & W9 & W10).
  cbn in W1, W2, W3, W4, W5, W6, W7, W8, W9, W10. destruct o.
  - steps. apply H; [exact W|reflexivity|exact I|side].
  - assert (F : hd_rpm t) by (destruct t; cbn in *; intuition auto; destruct r_sig; easy).
    steps.
    all: apply H; [side|reflexivity|exact I|side].
Qed.

Ltac ap1 :=
  first
  [ lazymatch goal with
    | |- wp (blocks_create _ _ _) _ _ =>
        apply wp_blocks_create; [try envs_tac|try side|try side|intros ? ? ? ?|intros ? ?]
    | |- wp (apply_add _ _) _ _ =>
        apply wp_apply_add; [try envs_tac|try assumption|try side|intros ? ? ? ? ?|intros ? ?]
    | |- wp (apply_header _) _ _ =>
        apply wp_apply_header;
          [try envs_tac|try assumption|try side|intros [|] ? ? ? ? ? ? ?]
    | |- wp wrapper_init _ _ => apply wp_wrapper_init; [intros ? ? ? ?|intros ? ?]
    | |- wp (wrapper_write _) _ _ =>
        apply wp_wrapper_write; [try side|try side|intros ? ? ? ?|intros ? ? ? ?]
    | |- wp (decompstrm_read _) _ _ =>
        apply wp_decompstrm_read; [try side|try side|intros ? ? ? ?|intros ? ? ? ?]
    | |- wp (wrapper_finish _ _) _ _ =>
        apply wp_wrapper_finish_mem;
          [try envs_tac|try side|try side|intros ? ? ? ? ? ?|intros ? ? ? ? ? ?]
    end
  | bk7 ].
Ltac spec ::= ap1.

Lemma wp_apply_setup (from add : bool) fd d r (Q : _ -> st -> Prop) s :
  e_oom (envs s) = false -> isat fd -> full_dl d -> hd_rpm r ->
  need s (fun y => op fd y + odl d y + orpm r y)%nat ->
  (forall d' a s', full_dl d' -> d_only d' = d_only d -> full_parts from (d_only d) add a ->
     chg s s' (odl d) (fun y => odl d' y + oparts a y)%nat -> Q (true, d', a) s') ->
  (forall d' a s', full_dl d' -> d_only d' = d_only d -> can_parts from (d_only d) a ->
     chgl s s' (odl d) (fun y => odl d' y + oparts a y)%nat -> Q (false, d', a) s') ->
  wp (apply_setup from add fd d r) Q s.
Proof.
  intros Z W0 W R N H1 H2. unfold apply_setup.
  assert (W6 : isat (d_lead d)) by apply W.
  pose proof wf_no_pool as WP.
  apply wp_bind, wp_blocks_create; [envs_tac|exact R|side| |].
  2: { intros s1 K. steps. apply H2; [exact W|reflexivity| |side].
       split; [left; now repeat split|]. cbn. tauto. }
  intros b s1 B K. cbn [negb].
  assert (B' : forall t ab buf h w c, t = ds_null \/ wf_ds t -> okp ab -> okp buf -> okp h ->
    w = wr_null \/ wf_wr w -> okp c ->
    can_parts from (d_only d) (mkparts b no_pool [] t ab buf h w c)).
  { intros. split; [right; split; [exact B|split; [exact WP|split; [exact I|auto]]]|].
    cbn. tauto. }
  steps.
  all: try match goal with X : if ?g then wf_ds ?t /\ isat ?b else _ |- _ =>
    assert (okp b) by (destruct g; destruct X as (X1 & X2);
                       [destruct b; easy|rewrite X2; exact I]);
    assert (t = ds_null \/ wf_ds t) by (destruct g; destruct X as (X1 & X2); auto)
  end.
  { apply H1; [assumption|assumption| |side]. unfold full_parts. own_red.
    split; [exact B|]. split; [exact WP|]. split; [exact I|]. split; [auto|].
    split; [assumption|]. split; [exact I|]. auto. }
  all: apply H2; [assumption|first [reflexivity|assumption]|apply B'; auto; exact I|side].
Qed.

Lemma wp_ext_rounds n lim mo (from only add : bool) r fi q a (Q : _ -> st -> Prop) s :
  0 < lim -> 0 < mo -> e_oom (envs s) = false -> e_page (envs s) = false ->
  (from = false -> envs s = calm /\ only = false) ->
  full_parts from only add a -> hd_rpm r -> wf_fi fi -> okp q ->
  need s (fun y => oparts a y + orpm r y + ofi fi y + op q y)%nat ->
  (forall a' s', full_parts from only add a' -> chg s s' (oparts a) (oparts a') ->
     Q (true, a') s') ->
  (forall a' s', full_parts from only add a' -> chgl s s' (oparts a) (oparts a') ->
     Q (false, a') s') ->
  wp (rounds n (ext_round lim mo from only add r fi q) a) Q s.
Proof.
  intros L1 L2 Z Y A W R F Wq N H1 H2.
  apply wp_rounds with
    (I := fun a' s' => full_parts from only add a' /\ chg s s' (oparts a) (oparts a'))
    (J := fun a' s' => full_parts from only add a' /\ chgl s s' (oparts a) (oparts a')).
  - split; [exact W|side].
  - intros a1 s1 (V & K). destruct a1 as [b p fs t ab buf h w c].
    destruct V as (V1 & V2 & V3 & V4 & V5 & V6 & V7 & V8 & V9).
    cbn in V1, V2, V3, V4, V5, V6, V7, V8, V9.
    unfold ext_round. apply wp_bind, wp_blocks_next; try assumption.
    + envs_tac.
    + envs_tac.
    + intros E. destruct (A E). split; [envs_tac|assumption].
    + side.
    + intros ok p' fs' s2 U1 U2 U3 K2. merge.
      assert (U4 : from = true -> fs' = []) by (intros E; rewrite U2, V4; auto).
      destruct add.
      * destruct V5 as (V5 & V5'). steps.
        all: cbn [fst snd]; (split; [|side]).
        all: unfold full_parts; own_red; repeat (split; [assumption|]); auto.
      * destruct V5 as (-> & ->). steps.
        all: cbn [fst snd]; (split; [|side]).
        all: unfold full_parts; own_red; repeat (split; [assumption|]); auto.
  - intros a1 s1 (V & K). auto.
  - intros a1 s1 (V & K). auto.
Qed.

Lemma wp_int_rounds n lim mo (from add : bool) d r fi q a (Q : _ -> st -> Prop) s :
  0 < lim -> 0 < mo -> e_oom (envs s) = false -> e_page (envs s) = false ->
  (from = false -> envs s = calm /\ d_only d = false) -> full_dl d ->
  full_parts from (d_only d) add a -> hd_rpm r -> wf_fi fi -> okp q ->
  need s (fun y => odl d y + oparts a y + orpm r y + ofi fi y + op q y)%nat ->
  (forall a' s', full_parts from (d_only d) add a' -> chg s s' (oparts a) (oparts a') ->
     Q (true, a') s') ->
  (forall a' s', full_parts from (d_only d) add a' -> chgl s s' (oparts a) (oparts a') ->
     Q (false, a') s') ->
  wp (rounds n (int_round lim mo from add d r fi q) a) Q s.
Proof.
  intros L1 L2 Z Y A D W R F Wq N H1 H2.
  apply wp_rounds with
    (I := fun a' s' => full_parts from (d_only d) add a' /\ chg s s' (oparts a) (oparts a'))
    (J := fun a' s' => full_parts from (d_only d) add a' /\ chgl s s' (oparts a) (oparts a')).
  - split; [exact W|side].
  - intros a1 s1 (V & K).
    destruct D as (D1 & D2 & D3 & D4 & D5 & D6 & D7 & D8 & D9 & D10).
    assert (M : need s1 (odl d)) by side.
    unfold int_round. apply wp_bind, wp_look; [exact D7|clear - M; side|].
    apply wp_bind, wp_look; [exact D8|clear - M; side|].
    apply wp_bind, wp_pickn. intros m s2 K2.
    apply wp_bind, wp_ext_rounds; try assumption.
    + envs_tac.
    + envs_tac.
    + intros E. destruct (A E). split; [envs_tac|assumption].
    + side.
    + intros a2 s3 V2 K3. clear M. merge. cbn [negb].
      destruct a2 as [b p fs t ab buf h w c].
      destruct V2 as (V1 & V2 & V3 & V4 & V5 & V6 & V7 & V8 & V9).
      cbn in V1, V2, V3, V4, V5, V6, V7, V8, V9. steps.
      all: cbn [fst snd]; (split; [|side]).
      all: unfold full_parts; own_red; repeat (split; [assumption|]); auto.
    + intros a2 s3 V2 K3. clear M. merge. cbn [negb]. apply wp_ret. split; [exact V2|].
      cbn [fst snd]. side.
  - intros a1 s1 (V & K). auto.
  - intros a1 s1 (V & K). auto.
Qed.

(** The codec of the wrapper is closed. *)
Definition closed (a : parts) : Prop := cs_codec (wr_strm (a_csw a)) = Null.

Lemma wp_apply_copies lim mo (from add : bool) d r fi q a (Q : _ -> st -> Prop) s :
  0 < lim -> 0 < mo -> e_oom (envs s) = false -> e_page (envs s) = false ->
  (from = false -> envs s = calm /\ d_only d = false) -> full_dl d ->
  full_parts from (d_only d) add a -> hd_rpm r -> wf_fi fi -> okp q ->
  need s (fun y => odl d y + oparts a y + orpm r y + ofi fi y + op q y)%nat ->
  (forall a' s', can_parts from (d_only d) a' -> closed a' ->
     chg s s' (oparts a) (oparts a') -> Q (true, a') s') ->
  (forall a' s', can_parts from (d_only d) a' -> chgl s s' (oparts a) (oparts a') ->
     Q (false, a') s') ->
  wp (apply_copies lim mo from add d r fi q a) Q s.
Proof.
  intros L1 L2 Z Y A D W R F Wq N H1 H2. unfold apply_copies.
  apply wp_bind, wp_pickn. intros n s1 K1.
  apply wp_bind, wp_int_rounds; try assumption.
  - envs_tac.
  - envs_tac.
  - intros E. destruct (A E). split; [envs_tac|assumption].
  - side.
  - intros a2 s3 V2 K3. merge. cbn [negb]. pose proof (full_can_parts _ _ _ _ V2) as V0.
    destruct a2 as [b p fs t ab buf h w c].
    destruct V2 as (V1 & V2 & V3 & V4 & V5 & V6 & V7 & V8 & V9).
    destruct V0 as (C1 & C2 & C3 & C4 & C5 & C6 & C7).
    cbn in V1, V2, V3, V4, V5, V6, V7, V8, V9, C1, C2, C3, C4, C5, C6, C7. subst c.
    steps.
    + apply H1; [|unfold closed; own_red; assumption|side].
      unfold can_parts; own_red; repeat (split; [assumption|]); auto.
    + apply H2; [|side]. unfold can_parts; own_red; repeat (split; [assumption|]); auto.
    + assert (p0 = Null) by tauto. subst p0.
      apply H2; [|side]. unfold can_parts; own_red; repeat (split; [assumption|]); auto.
  - intros a2 s3 V2 K3. merge. cbn [negb]. apply wp_ret.
    apply H2; [now apply full_can_parts in V2|side].
Qed.

Lemma wp_apply_check r (Q : _ -> st -> Prop) s :
  full_rpm r -> need s (orpm r) -> (forall b s', chg s s' zer zer -> Q b s') ->
  wp (apply_check r) Q s.
Proof. intros W N H. unfold apply_check. steps; apply H; side. Qed.

Lemma can_no_parts from only : can_parts from only no_parts.
Proof. split; [left; now repeat split|]. cbn. tauto. Qed.
Lemma closed_no_parts : closed no_parts.
Proof. reflexivity. Qed.

Lemma wp_apply_write lim mo (from add : bool) fd d r fi q (Q : _ -> st -> Prop) s :
  0 < lim -> 0 < mo -> e_oom (envs s) = false -> e_page (envs s) = false ->
  (from = false -> envs s = calm /\ d_only d = false) -> isat fd -> full_dl d ->
  hd_rpm r -> wf_fi fi -> okp q ->
  need s (fun y => op fd y + odl d y + orpm r y + ofi fi y + op q y)%nat ->
  (forall d' r' a s', full_dl d' -> d_only d' = d_only d -> hd_rpm r' ->
     can_parts from (d_only d) a -> closed a ->
     chg s s' (fun y => odl d y + orpm r y)%nat (fun y => odl d' y + orpm r' y + oparts a y)%nat ->
     Q (true, d', r', a) s') ->
  (forall d' r' a s', full_dl d' -> d_only d' = d_only d -> hd_rpm r' ->
     can_parts from (d_only d) a ->
     chgl s s' (fun y => odl d y + orpm r y)%nat (fun y => odl d' y + orpm r' y + oparts a y)%nat ->
     Q (false, d', r', a) s') ->
  wp (apply_write lim mo from add fd d r fi q) Q s.
Proof.
  intros L1 L2 Z Y A Wf D R F Wq N H1 H2. unfold apply_write.
  assert (W6 : isat (d_lead d)) by apply D.
  apply wp_bind, wp_use; [exact W6|side|].
  apply wp_bind, wp_rpm_replace_lead_and_signature; [exact R|side| |].
  2: { intros r' s1 R1 K. cbn [negb]. apply wp_ret.
       apply H2; [exact D|reflexivity|exact R1|apply can_no_parts|]. unfold no_parts. side. }
  intros r1 s1 R1 K. cbn [negb].
  assert (R2 : hd_rpm r1).
  { destruct R1 as (T1 & T2 & T3 & T4). split; [exact T1|].
    split; [destruct (r_sig r1); easy|]. split; assumption. }
  assert (G : forall s2, chg s s2 (orpm r) (orpm r1) ->
    wp (bind (apply_setup from add fd d r1)
          (fun x => let '(ok, d, a) := x in
             if negb ok then ret (false, d, r1, a)
             else bind (apply_copies lim mo from add d r1 fi q a)
               (fun x => let '(ok, a) := x in
                  bind (if ok then apply_check r1 else ret false)
                    (fun ok => ret (ok, d, r1, a))))) Q s2).
  { intros s2 K2. apply wp_bind, wp_apply_setup; try assumption.
    - envs_tac.
    - side.
    - intros d' a s3 D' E' P' K3. merge. cbn [negb]. rewrite <- E' in P'.
      apply wp_bind, wp_apply_copies; try assumption.
      + envs_tac.
      + envs_tac.
      + intros E. destruct (A E). split; [envs_tac|congruence].
      + side.
      + intros a' s4 P4 C4 K4. rewrite E' in P4. merge.
        apply wp_bind, wp_apply_check; [exact R1|side|]. intros [|] s5 K5; merge; apply wp_ret.
        * apply H1; try assumption. side.
        * apply H2; try assumption. side.
      + intros a' s4 P4 K4. rewrite E' in P4. merge.
        apply wp_bind, wp_ret, wp_ret. apply H2; try assumption. side.
    - intros d' a s3 D' E' P' K3. merge. cbn [negb]. apply wp_ret.
      apply H2; try assumption. side. }
  destruct (d_only d) eqn:OD.
  - apply wp_bind, wp_call. intros [|] s2 K2; merge; [|apply G; side].
    apply wp_bind, wp_rpm_write; [exact R1|side|]. intros [|] s3 K3; merge.
    + apply wp_bind, wp_apply_check; [exact R1|side|]. intros [|] s4 K4; merge; apply wp_ret.
      * apply H1; try assumption; [apply can_no_parts|apply closed_no_parts|]. unfold no_parts. side.
      * apply H2; try assumption; [apply can_no_parts|]. unfold no_parts. side.
    + apply wp_bind, wp_ret, wp_ret. apply H2; try assumption; [apply can_no_parts|].
      unfold no_parts. side.
  - apply wp_bind, wp_ret. apply G. exact K.
Qed.

Lemma wp_apply_files d r (Q : _ -> st -> Prop) s :
  full_dl d -> hd_rpm r -> need s (fun y => odl d y + orpm r y)%nat ->
  (forall ok nevr fi q s', okp nevr -> wf_fi fi -> okp q ->
     chg s s' zer (fun y => op nevr y + ofi fi y + op q y)%nat -> Q (ok, nevr, fi, q) s') ->
  wp (apply_files d r) Q s.
Proof.
  intros D R N H. unfold apply_files.
  assert (D1 : isat (d_src d)) by apply D. assert (D2 : isat (d_seq d)) by apply D.
  assert (F0 : wf_fi fi_null) by (split; exact I).
  apply wp_bind, wp_rpm_get_nevr; [exact R|side| |].
  2: { intros s1 K. cbn [negb]. apply wp_ret, H; [exact I|exact F0|exact I|side]. }
  intros n s1 K. cbn [negb]. apply wp_bind, wp_use; [exact D1|side|].
  apply wp_bind, wp_use; [exact I|side|].
  apply wp_bind, wp_call. intros [|] s2 K2; cbn [negb]; merge.
  2: { apply wp_ret, H; [exact I|exact F0|exact I|side]. }
  destruct (d_only d). { apply wp_ret, H; [exact I|exact F0|exact I|side]. }
  assert (G : forall fi s3, wf_fi fi -> chg s s3 zer (fun y => ind n y + ofi fi y)%nat ->
    wp (bind (rpm_get_digest_algo r)
          (fun ok => if negb ok then ret (false, At n, fi, Null)
             else bind (expand_sequence true CNone (d_seq d) fi)
                    (fun x => let '(ok, q) := x in ret (ok, At n, fi, q)))) Q s3).
  { intros fi s3 F K3. apply wp_bind, wp_rpm_get_digest_algo; [exact R|side|].
    intros [|] s4 K4; cbn [negb]; merge.
    2: { apply wp_ret, H; [exact I|exact F|exact I|side]. }
    apply wp_bind, wp_expand_sequence; [now left|auto|exact D2|exact F|side| |].
    - intros q s5 Wq K5. merge. assert (okp q) by (destruct q; easy).
      apply wp_ret, H; [exact I|exact F|assumption|side].
    - intros s5 K5. merge. apply wp_ret, H; [exact I|exact F|exact I|side]. }
  apply wp_bind, wp_rpm_get_file_info; [exact R|side| | |].
  - intros fi s3 F K3. merge. cbn [negb]. apply G; [exact F|side].
  - intros s3 K3. merge. cbn [negb]. apply G; [exact F0|side].
  - intros s3 K3. merge. cbn [negb]. apply wp_ret, H; [exact I|exact F0|exact I|side].
Qed.

(** The exported header of a package of the database is never released. *)
Definition extra (from : bool) (n y : Z) : nat := if from then 0%nat else ind n y.

Lemma wp_apply_old (from : bool) d (Q : _ -> st -> Prop) s :
  e_oom (envs s) = false -> (from = false -> envs s = calm) -> full_dl d -> need s (odl d) ->
  (forall r n s', hd_rpm r -> (from = false -> d_only d = false) ->
     chg s s' zer (fun y => orpm r y + extra from n y)%nat ->
     Q (false, true, r) s') ->
  (forall r s', can_rpm r -> chgl s s' zer (orpm r) -> Q (false, false, r) s') ->
  (forall s', from = false -> chg s s' zer zer -> Q (true, false, rpm_null) s') ->
  wp (apply_old from d) Q s.
Proof.
  intros Z Y D N H1 H2 H3. unfold apply_old.
  assert (D2 : isat (d_seq d)) by apply D.
  destruct from.
  - apply wp_bind, wp_rpm_read; [auto| |].
    + intros r s1 R K. cbn [negb].
      assert (R2 : hd_rpm r).
      { destruct R as (T1 & T2 & T3 & T4). split; [exact T1|].
        split; [destruct (r_sig r); easy|]. split; assumption. }
      assert (R3 : can_rpm r).
      { right. destruct R as (T1 & T2 & T3 & T4). split; [exact T1|].
        split; [destruct (r_sig r); easy|]. split; [destruct (r_hdr r); easy|assumption]. }
      destruct (d_only d).
      * apply wp_bind, wp_rpm_signature_get_md5; [exact R|side|].
        intros [|] s2 K2; cbn [negb]; merge.
        -- apply wp_bind, wp_use; [exact D2|side|]. apply wp_bind, wp_call.
           intros [|] s3 K3; merge; apply wp_ret.
           ++ apply H1 with (n := 0); [exact R2|easy|unfold extra; side].
           ++ apply H2; [exact R3|side].
        -- apply wp_ret, H2; [exact R3|side].
      * apply wp_ret. apply H1 with (n := 0); [exact R2|easy|unfold extra; side].
    + intros r s1 R K _. cbn [negb]. apply wp_ret, H2; [now left|exact K].
  - specialize (Y eq_refl). destruct (d_only d) eqn:OD. { apply wp_ret, H3; [reflexivity|side]. }
    destruct D as (D1 & _). rewrite OD in D1. destruct D1 as (D3 & D4 & D5 & D6).
    assert (M : need s (orpm (d_rpm d))).
    { intro y. specialize (N y). unfold odl in N. rewrite OD in N. lia. }
    apply wp_bind, wp_use; [exact D3|clear - M; side|].
    apply wp_bind, wp_use; [exact D5|clear - M; side|].
    apply wp_bind, wp_call. intros [|] s1 K1.
    2: { apply wp_ret, H3; [reflexivity|exact K1]. }
    apply wp_bind, wp_rpm_read_header; [envs_tac| |].
    + intros r n s2 R K. apply wp_ret. clear M. merge.
      apply H1 with (n := n); [exact R|auto|unfold extra; side].
    + intros s2 K. apply wp_ret. clear M. merge. apply H2; [left; repeat split|side].
Qed.

Lemma hd_can r : hd_rpm r -> can_rpm r.
Proof.
  intros (A & B & D & E). right. split; [exact A|]. split; [exact B|].
  split; [destruct (r_hdr r); easy|exact E].
Qed.

(** With the codec open, nothing is promised about leaks. *)
Lemma wp_drpm_apply lim mo from add (Q : _ -> st -> Prop) s :
  0 < lim -> 0 < mo -> e_oom (envs s) = false -> e_page (envs s) = false ->
  (from = false -> envs s = calm) ->
  (forall n s', chg s s' zer (extra from n) -> Q true s') ->
  (forall s', chgl s s' zer zer -> Q false s') ->
  wp (drpm_apply lim mo from add) Q s.
Proof.
  intros L1 L2 Z Y A H1 H2. unfold drpm_apply.
  apply wp_bind, wp_tryn. 2: { intros s1 K. steps. apply H2. side. }
  intros fd s1 K. cbn [isnull].
  (* the end *)
  assert (E : forall (only : bool) ok d r nevr fi q a s2,
    wf_dl d -> can_rpm r -> okp nevr -> wf_fi fi -> okp q -> can_parts from only a ->
    need s2 (fun y => ind fd y + odl d y + orpm r y + op nevr y + ofi fi y + op q y + oparts a y)%nat ->
    (forall s', chg s2 s' (fun y => ind fd y + odl d y + orpm r y + op nevr y + ofi fi y + op q y +
         (obk (a_blks a) y + opl (a_pool a) y + oprs (a_open a) y + ods (a_strm a) y +
          op (a_add a) y + op (a_buf a) y + op (a_hdr a) y + owr' (a_csw a) y + op (a_comp a) y))%nat
        zer -> Q ok s') ->
    wp (let (b, p, fs, s, ab, buf, h, w, c) := a in
        bind (free (At fd)) (fun _ => bind (finfo_free fi) (fun _ => bind (free_deltarpm d) (fun _ =>
        bind (rpm_destroy r) (fun _ => bind (free nevr) (fun _ =>
        bind (blocks_destroy from b p fs) (fun _ => bind (decompstrm_destroy s) (fun _ =>
        bind (wrapper_destroy w) (fun _ => bind (free q) (fun _ => bind (free ab) (fun _ =>
        bind (free buf) (fun _ => bind (free h) (fun _ => bind (free c) (fun _ => ret ok)
        ))))))))))))) Q s2).
  { intros only ok d r nevr fi q a s2 D R Wn F Wq P N G.
    destruct a as [b p fs t ab buf h w c]. destruct P as (P1 & P2 & P3 & P4 & P5 & P6 & P7).
    cbn in P1, P2, P3, P4, P5, P6, P7. unfold oparts in N. own_red.
    cbn [a_blks a_pool a_open a_strm a_add a_buf a_hdr a_csw a_comp] in N, G.
    apply wp_bind, wp_free; [exact I|side|]. intros s3 K3.
    apply wp_bind, wp_finfo_free; [exact F|side|]. intros s4 K4. merge.
    apply wp_bind, wp_free_deltarpm; [exact D|side|]. intros s5 K5. merge.
    apply wp_bind, wp_rpm_destroy; [exact R|side|]. intros s6 K6. merge.
    apply wp_bind, wp_free; [exact Wn|side|]. intros s7 K7. merge.
    apply wp_bind, wp_blocks_destroy_any with (only := only); [exact P1|side|]. intros s8 K8. merge.
    apply wp_bind, wp_decompstrm_destroy_any; [exact P2|side|]. intros s9 K9. merge.
    apply wp_bind, wp_wrapper_destroy_any; [exact P6|side|]. intros s10 K10. merge.
    apply wp_bind, wp_free; [exact Wq|side|]. intros s11 K11. merge.
    apply wp_bind, wp_free; [exact P3|side|]. intros s12 K12. merge.
    apply wp_bind, wp_free; [exact P4|side|]. intros s13 K13. merge.
    apply wp_bind, wp_free; [exact P5|side|]. intros s14 K14. merge.
    apply wp_bind, wp_free; [exact P7|side|]. intros s15 K15. merge.
    apply wp_ret, G. side. }
  assert (F0 : wf_fi fi_null) by (split; exact I).
  apply wp_bind, wp_read_deltarpm.
  2: { intros s2 K2. merge. apply wp_bind, wp_ret, wp_bind, wp_ret, wp_bind, wp_ret.
       apply E with (only := false).
       - repeat split; try exact I. left; repeat split.
       - left; repeat split.
       - exact I.
       - exact F0.
       - exact I.
       - apply can_no_parts.
       - unfold no_parts. side.
       - intros s3 K3. apply H2. unfold no_parts in K3. merge. side. }
  intros d s2 D K2. merge.
  apply wp_bind, wp_apply_old; [envs_tac|intros T; specialize (A T); envs_tac|exact D|side| | |].
  3: { intros s3 T K3. merge. apply wp_ret, H2. side. }
  2: { intros r s3 R K3. merge. apply wp_bind, wp_ret, wp_bind, wp_ret.
       apply E with (only := false).
       - now apply full_wf_dl.
       - exact R.
       - exact I.
       - exact F0.
       - exact I.
       - apply can_no_parts.
       - unfold no_parts. side.
       - intros s4 K4. apply H2. unfold no_parts in K4. merge. side. }
  intros r n s3 R OD K3. merge.
  apply wp_bind, wp_apply_files; [exact D|exact R|side|].
  intros [|] nevr fi q s4 Wn F Wq K4; merge.
  2: { apply wp_bind, wp_ret. apply E with (only := false).
       - now apply full_wf_dl.
       - now apply hd_can.
       - exact Wn.
       - exact F.
       - exact Wq.
       - apply can_no_parts.
       - unfold no_parts. side.
       - intros s5 K5. apply H2. unfold no_parts in K5. merge. side. }
  apply wp_bind, wp_apply_write; try assumption.
  - envs_tac.
  - envs_tac.
  - intros T. specialize (A T). split; [envs_tac|auto].
  - exact I.
  - side.
  - intros d' r' a s5 D' OD' R' P' C' K5. merge. apply E with (only := d_only d); try assumption.
    + now apply full_wf_dl.
    + now apply hd_can.
    + side.
    + intros s6 K6. apply H1 with (n := n). unfold closed in C'. merge.
      split; [envs_tac|]. chg_split. intro y. inst y.
      unfold oparts, owr', owr, ocs, zer in *. rewrite C' in *. cbn [op] in *. lia.
  - intros d' r' a s5 D' OD' R' P' K5. merge. apply E with (only := d_only d); try assumption.
    + now apply full_wf_dl.
    + now apply hd_can.
    + side.
    + intros s6 K6. apply H2. merge.
      split; [envs_tac|]. chg_split. intro y. inst y.
      unfold oparts, owr', owr, ocs, zer in *. lia.
Qed.
