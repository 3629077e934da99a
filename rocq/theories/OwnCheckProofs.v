(** What the checks own. *)
Require Import ZArith List Bool Lia.
Require Import Verif.Own Verif.OwnTools Verif.OwnCodec Verif.OwnCodecProofs Verif.OwnRpm.
Require Import Verif.OwnRpmProofs Verif.OwnRead Verif.OwnReadProofs Verif.OwnCheck.
Import ListNotations.
Open Scope Z_scope.

Lemma wp_is_prelinked (Q : _ -> st -> Prop) s :
  envs s = calm -> (forall b s', chg s s' zer zer -> Q (true, b) s') -> wp is_prelinked Q s.
Proof. intros Z H. unfold is_prelinked. steps; try ends. Qed.

Lemma wp_prelink_open (Q : _ -> st -> Prop) s :
  (forall n s', chg s s' zer (ind n) -> Q (At n) s') ->
  (forall s', e_undo (envs s) = true -> chg s s' zer zer -> Q Null s') -> wp prelink_open Q s.
Proof. intros H1 H2. unfold prelink_open. steps; try ends. Qed.

Ltac sp12 :=
  first
  [ sp10
  | lazymatch goal with
    | |- wp is_prelinked _ _ => apply wp_is_prelinked; [try envs_tac|intros ? ? ?]
    | |- wp prelink_open _ _ => apply wp_prelink_open; [intros ? ? ?|intros ? ? ?; try contra]
    end ].
Ltac spec ::= sp12.

Lemma wp_check_prelink (Q : _ -> st -> Prop) s :
  (forall b s', chg s s' zer zer -> Q b s') -> wp check_prelink Q s.
Proof. intros H. unfold check_prelink. steps; try ends. Qed.

Ltac sp13 :=
  first
  [ sp12
  | lazymatch goal with
    | |- wp check_prelink _ _ => apply wp_check_prelink; intros ? ? ?
    end ].
Ltac spec ::= sp13.

Lemma wp_check_filesize (Q : _ -> st -> Prop) s :
  envs s = calm -> (forall b s', chg s s' zer zer -> Q b s') -> wp check_filesize Q s.
Proof. intros Z H. unfold check_filesize. steps; try ends. Qed.
Lemma wp_check_full (Q : _ -> st -> Prop) s :
  envs s = calm -> (forall b s', chg s s' zer zer -> Q b s') -> wp check_full Q s.
Proof. intros Z H. unfold check_full. steps; try ends. Qed.

Ltac sp14 :=
  first
  [ sp13
  | lazymatch goal with
    | |- wp check_filesize _ _ => apply wp_check_filesize; [try envs_tac|intros ? ? ?]
    | |- wp check_full _ _ => apply wp_check_full; [try envs_tac|intros ? ? ?]
    end ].
Ltac spec ::= sp14.

Definition safe_check (m : cmode) (s : st) : Prop := m = CNone \/ envs s = calm.

Lemma wp_entry_rounds n m fi (Q : _ -> st -> Prop) s :
  safe_check m s -> wf_fi fi -> need s (ofi fi) ->
  (forall b s', chg s s' zer zer -> Q (true, b) s') ->
  (forall b s', (m = CNone -> b = true) -> chg s s' zer zer -> Q (false, b) s') ->
  wp (rounds n (entry_round m fi) true) Q s.
Proof.
  intros Z W N H1 H2.
  apply wp_rounds with
    (I := fun (_ : bool) s' => chg s s' zer zer)
    (J := fun (b : bool) s' => (m = CNone -> b = true) /\ chg s s' zer zer).
  - side.
  - intros b s1 K1. unfold entry_round.
    assert (U : forall (Q : _ -> st -> Prop), Q tt s1 ->
              wp (if isnull (fi_self fi) then ret tt else use (fi_self fi)) Q s1).
    { intros Q' HQ. destruct W as [W1 W2]. destruct fi as [a l]. cbn in W1 |- *.
      destruct a; [steps; exact HQ|destruct W1|]. own_red.
      apply wp_use; [exact I|side|exact HQ]. }
    apply wp_bind, U. destruct m.
    + steps; try (split; [first [reflexivity|discriminate|auto]|side]); side.
    + destruct Z as [Z|Z]; [discriminate Z|]. steps; try (split; [discriminate|side]); side.
    + destruct Z as [Z|Z]; [discriminate Z|]. steps; try (split; [discriminate|side]); side.
  - auto.
  - intros b s1 [B K]. auto.
Qed.

Ltac sp15 :=
  first
  [ sp14
  | lazymatch goal with
    | |- wp (rounds _ (entry_round _ _) _) _ _ =>
        apply wp_entry_rounds; [try assumption|try side|try side|intros ? ? ?|intros ? ? ? ?]
    end ].
Ltac spec ::= sp15.

Lemma safe_chg m s s' A B : safe_check m s -> chg s s' A B -> safe_check m s'.
Proof. intros [Z|Z] [E K]; [now left|right; congruence]. Qed.

Lemma wp_expand_sequence want m seq fi (Q : _ -> st -> Prop) s :
  safe_check m s -> (want = true -> m = CNone) -> isat seq -> wf_fi fi ->
  need s (fun x => op seq x + ofi fi x)%nat ->
  (forall q s', (if want then isat q else q = Null) -> chg s s' zer (op q) -> Q (true, q) s') ->
  (forall s', chg s s' zer zer -> Q (false, Null) s') ->
  wp (expand_sequence want m seq fi) Q s.
Proof.
  intros Z V W1 W2 N H1 H2. unfold expand_sequence.
  assert (R : forall s1, chg s s1 zer zer -> True) by auto. clear R.
  destruct want.
  - specialize (V eq_refl). subst m.
    steps; try (now left); try ends.
    all: match goal with H : CNone = CNone -> _ |- _ => specialize (H eq_refl); discriminate H end.
  - steps; try (eapply safe_chg; eassumption); try ends.
Qed.

Ltac sp16 :=
  first
  [ sp15
  | lazymatch goal with
    | |- wp (expand_sequence _ _ _ _) _ _ =>
        apply wp_expand_sequence;
          [try assumption; try (eapply safe_chg; eassumption)
          |try discriminate; try reflexivity|try side|try side|try side
          |intros ? ? ? ?|intros ? ?]
    | |- wp (rpm_get_file_info _ _) _ _ =>
        apply wp_rpm_get_file_info;
          [try side|try side|intros ? ? ? ?|intros ? ?|intros ? ?]
    | |- wp (rpm_get_digest_algo _) _ _ =>
        apply wp_rpm_get_digest_algo; [try side|try side|intros [|] ? ?]
    | |- wp (rpm_get_nevr _) _ _ =>
        apply wp_rpm_get_nevr; [try side|try side|intros ? ? ?|intros ? ?]
    | |- wp (rpm_signature_get_md5 _) _ _ =>
        apply wp_rpm_signature_get_md5; [try side|try side|intros [|] ? ?]
    | |- wp (finfo_free _) _ _ =>
        apply wp_finfo_free; [try side|try side|intros ? ?]
    end ].
Ltac spec ::= sp16.

Lemma wf_fi_null : wf_fi fi_null.
Proof. split; exact I. Qed.
Global Hint Resolve wf_fi_null : core.

Lemma wp_check_files m r seq (Q : _ -> st -> Prop) s :
  safe_check m s -> hd_rpm r -> isat seq -> need s (fun x => orpm r x + op seq x)%nat ->
  (forall b fi s', wf_fi fi -> chg s s' zer (ofi fi) -> Q (b, fi) s') ->
  wp (check_files m r seq) Q s.
Proof.
  intros Z W V N H. unfold check_files. steps; try ends.
  all: subst; ends.
Qed.

Ltac sp17 :=
  first
  [ lazymatch goal with
    | |- wp (check_files _ _ _) _ _ =>
        apply wp_check_files;
          [try assumption; try (eapply safe_chg; eassumption); try (left; reflexivity);
           try (right; envs_tac)
          |try side|try side|try side|intros [|] ? ? ? ?]
    | |- wp (read_deltarpm _) _ _ =>
        apply wp_read_deltarpm; [intros ? ? ? ?|intros ? ?]
    | |- wp rpm_read_header _ _ =>
        apply wp_rpm_read_header; [try envs_tac|intros ? ? ? ? ?|intros ? ?]
    | |- wp (free_deltarpm _) _ _ =>
        apply wp_free_deltarpm; [try side|try side|intros ? ?]
    | |- wp (rpm_read _ _ _ _) _ _ =>
        apply wp_rpm_read;
          [try (now left); try (right; left; reflexivity); try (right; right; envs_tac)
          |intros ? ? ? ?
          |let K := fresh "K" in let F := fresh "F" in
           intros ? ? ? K F; try (specialize (F eq_refl); clear K)]
    | |- wp (rpm_destroy _) _ _ =>
        apply wp_rpm_destroy; [try side|try side|intros ? ?]
    end
  | sp16 ].
Ltac spec ::= sp17.

Lemma wf_zero0 : wf_dl d_zero.
Proof. exact (wf_zero false). Qed.
Global Hint Resolve wf_zero0 : core.

(** Sequences of packages: whatever fails, nothing bad happens and nothing is left. *)
Lemma wp_check_sequence_package (Q : _ -> st -> Prop) s :
  (forall b s', chg s s' zer zer -> Q b s') -> wp (drpm_check_sequence false CNone) Q s.
Proof.
  intros H. unfold drpm_check_sequence, sequence_old. steps; try ends.
Qed.

(** From the database: only when the environment is calm. *)
Lemma wp_check_sequence_installed m (Q : _ -> st -> Prop) s :
  envs s = calm -> (forall b s', chgl s s' zer zer -> Q b s') ->
  wp (drpm_check_sequence true m) Q s.
Proof.
  intros Z H. unfold drpm_check_sequence, sequence_old. steps; ends.
Qed.

Lemma wp_drpm_check m (Q : _ -> st -> Prop) s :
  envs s = calm -> (forall b s', chgl s s' zer zer -> Q b s') ->
  wp (drpm_check m) Q s.
Proof.
  intros Z H. unfold drpm_check. steps; ends.
Qed.

(** When they succeed, exactly the exported header is left. *)
Lemma wp_check_sequence_left m (Q : _ -> st -> Prop) s :
  envs s = calm ->
  (forall n s', chg s s' zer (ind n) -> Q true s') -> (forall s', Q false s') ->
  wp (drpm_check_sequence true m) Q s.
Proof.
  intros Z H1 H2. unfold drpm_check_sequence, sequence_old. steps; try apply H2.
  all: match goal with n : BinNums.Z |- _ => solve [apply (H1 n); side] end.
Qed.
Lemma wp_drpm_check_left m (Q : _ -> st -> Prop) s :
  envs s = calm ->
  (forall n s', chg s s' zer (ind n) -> Q true s') -> (forall s', Q false s') ->
  wp (drpm_check m) Q s.
Proof.
  intros Z H1 H2. unfold drpm_check. steps; try apply H2.
  all: match goal with n : BinNums.Z |- _ => solve [apply (H1 n); side] end.
Qed.
