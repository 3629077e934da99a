(** * CheckSafe: checking installed files is defined *)
From Verif Require Import Base BaseLemmas Utils UtilsProofs SpecCodec Stream Rpm FormatFinal Seq SeqProofs Delta DeltaRead Expand SeqFinal
     SpecArchive SpecApply SpecApplySafe FileSys Prelink SpecPrelink PrelinkProofs Apply ApplySafe Check SpecCheck CheckProofs SpecFaults.

(** The check is only called with digests of the right length and sizes that are not 0. *)
Definition guarded (c : list Z -> bool -> list Z -> Z -> res unit) (n : list Z) (sha : bool) (d : list Z) (z : Z) : res unit :=
  if (zlen d =? digest_len sha) && (0 <? z) then c n sha d z else Err EOther.

Lemma expand_file_guard c sha f : expand_file (Some c) sha f = expand_file (Some (guarded c)) sha f.
Proof.
  unfold expand_file. destruct (S_ISLNK _); [reflexivity|]. destruct (S_ISREG _ && _) eqn:E; [|reflexivity].
  destruct (file_digest sha (fi_md5 f)) as [d|?|?|] eqn:Ed; cbn [bind]; try reflexivity.
  apply digest_exact in Ed as [_ Ed]. apply andb_true_iff in E as [_ E]. unfold guarded. rewrite Ed, Z.eqb_refl, E. reflexivity.
Qed.

Lemma expand_loop_guard c sha files l : forall off md5,
  expand_loop (Some c) sha files l off md5 = expand_loop (Some (guarded c)) sha files l off md5.
Proof.
  induction l as [|i l IH]; intros off md5; cbn [expand_loop]; [reflexivity|].
  destruct (rd files i) as [f|?|?|]; cbn [bind]; try reflexivity. rewrite expand_file_guard.
  destruct (expand_file _ sha f) as [m|?|?|]; cbn [bind]; try reflexivity. cbv zeta. rewrite IH. reflexivity.
Qed.

Lemma expand_guard L c seq files sha :
  expand_sequence L (Some c) seq files sha = expand_sequence L (Some (guarded c)) seq files sha.
Proof.
  unfold expand_sequence. destruct seq as [seq|]; [|reflexivity]. destruct (zlen seq <? 16); [reflexivity|].
  destruct (seq_positions _ _) as [p|?|?|]; cbn [bind]; try reflexivity. rewrite expand_loop_guard. reflexivity.
Qed.

(** Arbitrary sequences. *)
Lemma faults_bind {A B} l (x : res A) (k : A -> res B) :
  only_faults l x -> (forall a, x = Ok a -> only_faults l (k a)) -> only_faults l (x <- x ;; k x).
Proof. destruct x; cbn; auto. Qed.
Lemma defined_faults {A} l (x : res A) : defined x -> only_faults l x.
Proof. destruct x; cbn; tauto. Qed.

Lemma expand_loop_faults check sha files : (forall c, check = Some c -> forall n a d z, defined (c n a d z)) ->
  Forall (fun f => zlen (fi_md5 f) <= 65) files -> forall l off md5,
  Forall (fun i => 0 <= i <= zlen files) l -> only_faults sequence_faults (expand_loop check sha files l off md5).
Proof.
  intros Hc Hf. induction l as [|i l IH]; intros off md5 Hl; cbn [expand_loop]; [exact I|].
  inversion Hl as [|? ? Hi Hl']; subst. apply faults_bind.
  - unfold rd. replace (i <? 0) with false by lia. destruct (nth_error files (Z.to_nat i)) eqn:E; [exact I|]. cbn. tauto.
  - intros f Hr. apply rd_ok in Hr as (Hr & Hn). apply faults_bind.
    + apply defined_faults. apply expand_file_defined; [exact Hc|]. rewrite Forall_forall in Hf. apply Hf. eapply nth_error_In; eauto.
    + intros m _. apply faults_bind; [apply IH; auto|]. intros [[? ?] ?] _. exact I.
Qed.

Lemma expand_faults L check sha files seq : (forall c, check = Some c -> forall n a d z, defined (c n a d z)) ->
  Forall (fun f => zlen (fi_md5 f) <= 65) files -> zlen files < 2 ^ 64 - 1 -> bytes seq ->
  only_faults sequence_faults (expand_sequence L check (Some seq) files sha).
Proof.
  intros Hc Hf Hn Hb. unfold expand_sequence. destruct (zlen seq <? 16); [exact I|]. pose proof (zlen_nonneg files).
  pose proof (positions_bounds seq (zlen files) Hb ltac:(lia)) as Hp.
  destruct (seq_positions _ _) as [p|?|u|]; cbn [bind]; [|exact I|destruct Hp as [-> | ->]; cbn; tauto|contradiction].
  apply faults_bind; [apply expand_loop_faults; tauto|]. intros [[a b] c] _. destruct (negb _); exact I.
Qed.

Section Safe.
Variable L : libs.
Variable fs : fsys.
Variable unprelinked : list Z -> res (list Z).
Hypothesis Hs : SpecCheck.sound_files fs.
Hypothesis Hh : hashes_ok L.
Hypothesis Hu : forall n, defined (unprelinked n).

Lemma right_defined sha digest data filesize : defined (right_digest L sha digest data filesize).
Proof. unfold right_digest. destruct (list_eqb _ _); exact I. Qed.

Lemma undone_defined sha digest name filesize : defined (u <- unprelinked name ;; right_digest L sha digest u filesize).
Proof. apply defined_bind; [apply Hu|]. intros u _. apply right_defined. Qed.

Lemma full_defined name sha digest filesize : zlen digest = digest_len sha -> 0 < filesize ->
  defined (check_full L fs unprelinked name sha digest filesize).
Proof.
  intros Hd Hf. destruct (fs_open fs name) as [data|] eqn:E; [|unfold check_full; rewrite E; exact I].
  destruct (Hs _ _ E) as (Hb & Es & Hn).
  destruct (Z.lt_ge_cases filesize (zlen data)) as [Hl|Hl].
  - destruct (is_prelinked_exact data BUFFER_SIZE Hb) as [(A & B & _)|[_ (b & Eb & P)]]; [unfold BUFFER_SIZE; lia|tauto|].
    rewrite (full_file L fs unprelinked name sha digest filesize data b); auto; try lia; [|rewrite Es; lia].
    destruct b; [apply undone_defined|apply right_defined].
  - rewrite (full_file L fs unprelinked name sha digest filesize data false); auto; try lia; [|rewrite Es; lia].
    apply right_defined.
Qed.

Lemma filesize_defined name sha digest filesize : zlen digest = digest_len sha -> 0 < filesize ->
  defined (check_filesize L fs unprelinked name sha digest filesize).
Proof.
  intros Hd Hf. unfold check_filesize. destruct (fs_stat fs name) as [size|] eqn:Est; [|exact I].
  destruct (size =? filesize); [exact I|]. destruct (filesize <? size); [|exact I].
  destruct (fs_open fs name) as [data|] eqn:E; [|exact I]. destruct (Hs _ _ E) as (Hb & Es & Hn).
  destruct (0 <? zlen (slice data 0 128)); cbn [bind]; [|exact I].
  destruct (is_prelinked_exact data 128 Hb) as [(A & B & _)|[_ (b & Eb & P)]]; [lia|tauto|].
  rewrite Eb. cbn [bind]. destruct b; [|exact I]. rewrite check_prelink_exact by (auto; lia). apply undone_defined.
Qed.

Variable installed : list Z -> res rpm.

Lemma check_defined delta d c : read_deltarpm L delta = Ok d -> defined (installed (d_src_nevr d)) ->
  (forall r files colors, installed (d_src_nevr d) = Ok r -> d_type d = TYPE_STANDARD -> rpm_get_file_info L false r = Ok (files, colors) ->
     sound_table files /\ lists_files files (d_seq d)) ->
  c = check_full L fs unprelinked \/ c = check_filesize L fs unprelinked ->
  defined (drpm_check L installed delta (Some c)).
Proof.
  intros Hd Hi Ht Hc. unfold drpm_check. rewrite Hd. cbn [bind].
  destruct (installed (d_src_nevr d)) as [r|?|?|] eqn:Er; cbn [bind defined] in *; auto.
  destruct (negb (list_eqb _ _)); [exact I|]. destruct (d_type d =? TYPE_STANDARD) eqn:Ett; [|exact I].
  pose proof (file_info_def L false r) as Hfi.
  destruct (rpm_get_file_info L false r) as [[files colors]|?|?|] eqn:Ef; cbn [bind]; auto.
  destruct (Ht r files colors eq_refl ltac:(lia) Ef) as [[W M C] (l & digest & code & Hl & Hz & Hdg & Hen & Hsq)].
  apply defined_bind.
  { unfold rpm_get_digest_algo. destruct (lb_algo L _) as [a|]; [|exact I]. destruct (a =? 1); [exact I|]. destruct (a =? 8); exact I. }
  intros sha _. apply defined_bind; [|intros; exact I]. rewrite expand_guard, Hsq.
  apply (generated_safe L (Some (guarded c))) with (l := l); auto; [|lia].
  intros c' [= <-] n a x z. unfold guarded. destruct ((zlen x =? digest_len a) && (0 <? z)) eqn:E; [|exact I].
  apply andb_true_iff in E as [E1 E2]. destruct Hc as [-> | ->]; [apply full_defined|apply filesize_defined]; lia.
Qed.

Lemma check_faults delta d c : read_deltarpm L delta = Ok d -> bytes (d_seq d) -> defined (installed (d_src_nevr d)) ->
  (forall r files colors, installed (d_src_nevr d) = Ok r -> rpm_get_file_info L false r = Ok (files, colors) -> sound_table files) ->
  c = check_full L fs unprelinked \/ c = check_filesize L fs unprelinked ->
  only_faults sequence_faults (drpm_check L installed delta (Some c)).
Proof.
  intros Hd Hb Hi Ht Hc. unfold drpm_check. rewrite Hd. cbn [bind].
  destruct (installed (d_src_nevr d)) as [r|?|?|] eqn:Er; cbn [bind defined] in *; try contradiction; [|exact I].
  destruct (negb (list_eqb _ _)); [exact I|]. destruct (d_type d =? TYPE_STANDARD) eqn:Ett; [|exact I].
  pose proof (file_info_def L false r) as Hfi.
  destruct (rpm_get_file_info L false r) as [[files colors]|?|?|] eqn:Ef; cbn [bind]; try contradiction; [|exact I].
  destruct (Ht r files colors eq_refl Ef) as [W M C].
  apply faults_bind.
  { unfold rpm_get_digest_algo. destruct (lb_algo L _) as [a|]; [|exact I]. destruct (a =? 1); [exact I|]. destruct (a =? 8); exact I. }
  intros sha _. apply faults_bind; [|intros; exact I]. rewrite expand_guard. apply expand_faults; auto; [|lia].
  intros c' [= <-] n a x z. unfold guarded. destruct ((zlen x =? digest_len a) && (0 <? z)) eqn:E; [|exact I].
  apply andb_true_iff in E as [E1 E2]. destruct Hc as [-> | ->]; [apply full_defined|apply filesize_defined]; lia.
Qed.
End Safe.
