(** * HandleFinal: handles of deltas that were written; deltas that do not fit; cases *)
From Verif Require Import Base BaseLemmas Utils UtilsProofs SpecCodec SpecDelta SpecStream SpecFormat SpecHandle
  Stream StreamProofs Rpm Delta DeltaRead DeltaWrite FormatProofs FormatSafe ToyCodec ToyLibs FormatCases Handle HandleProofs.

Lemma written L open name d file : codec_ok (lb_codec L) -> wf_delta L d -> d_version d = 3 ->
  zlen (d_seq d) < 2 ^ 31 -> zlen (d_leadsig d) < 2 ^ 31 -> zlen (d_param d) < 2 ^ 31 ->
  write_deltarpm L d = Ok file -> open name = Some file ->
  exists h, drpm_read L open true (Some name) = Ok h /\ forall tag,
    (drpm_get_ullong (Some h) tag true = match tagged L name d tag with Some (Number n) => Ok n | _ => Err EArgs end) /\
    (drpm_get_string (Some h) tag true = match tagged L name d tag with Some (Text s) => Ok s | _ => Err EArgs end) /\
    (drpm_get_ulong_array (Some h) tag true = match tagged L name d tag with
       | Some (Array []) => Ok (None, 0) | Some (Array l) => Ok (Some l, zlen l) | _ => Err EArgs end).
Proof.
  intros Hc W Hv H1 H2 H3 Hw Ho. destruct (roundtrip_final L d Hc W) as (f & d' & E1 & E2 & R).
  rewrite Hw in E1. injection E1 as <-.
  destruct R as [R1 R2 R3 R4 R5 R6 R7 R8 R9 R10 R11 R12 R13 R14 R15 R16 R17].
  rewrite Hv in *. change (2 <=? 3) with true in R7. change (3 =? 3) with true in R8. cbn iota in R7, R8.
  destruct R7 as (R7a & R7b & R7c & R7d), R8 as (R8a & R8b & R8c), R11 as [R11a R11b], R12 as [R12a R12b].
  assert (Hs : short d') by (unfold short; rewrite R5, R9, R7d; auto).
  destruct (proj1 (read_exact L open name file d' Ho E2) Hs) as [h Eh]. exists h. split; [exact Eh|].
  assert (Et : forall tag, tagged L name d' tag = tagged L name d tag).
  { intros tag. unfold tagged. rewrite R1, R2, R3, R4, R5, R6, R7a, R7b, R7d, R8a, R8c, R9, R10, R11b, R12b, R13, R15, Hv.
    destruct (d_head d) as [r|n]; [destruct R17 as (r' & -> & _ & -> & _)|rewrite R17]; reflexivity. }
  intros tag. destruct (getters L open name file d' h Ho E2 Eh tag) as (G1 & _ & _ & _ & G2 & G3). rewrite Et in *. auto.
Qed.

(** ** Numbers and NULL *)
Lemma agree h tag room :
  (forall n, drpm_get_uint h tag room = Ok n -> drpm_get_ulong h tag room = Ok n) /\
  (forall n, drpm_get_ulong h tag room = Ok n -> drpm_get_ullong h tag room = Ok n).
Proof.
  unfold drpm_get_uint, drpm_get_ulong, drpm_get_ullong. destruct h as [h|]; [|split; intros; discriminate].
  destruct room; cbn [negb]; [|split; intros; discriminate].
  split; intros n H; repeat match type of H with (if ?b then _ else _) = _ => destruct b; [exact H|] end; discriminate.
Qed.

Lemma one_kind h tag :
  let n := match drpm_get_ullong (Some h) tag true with Err EArgs => 0 | _ => 1 end in
  let s := match drpm_get_string (Some h) tag true with Err EArgs => 0 | _ => 1 end in
  let a := match drpm_get_ulong_array (Some h) tag true with Err EArgs => 0 | _ => 1 end in
  n + s + a = (if (0 <=? tag) && (tag <=? 18) then 1 else 0).
Proof.
  cbn zeta. revert tag.
  assert (Hcp : forall size array, match (if size =? 0 then Ok (None, size) else copy <- copy_elems (Z.to_nat size) 0 array ;; Ok (Some copy, size))%res with Err EArgs => 0 | _ => 1 end = 1).
  { intros size array. destruct (size =? 0); [reflexivity|].
    assert (X : forall n i, match copy_elems n i array with Err _ => False | _ => True end).
    { induction n; intros i; cbn [copy_elems]; [exact I|]. unfold rd. destruct (i <? 0); [exact I|]. destruct (nth_error _ _); [|exact I]. cbn [bind].
      specialize (IHn (i + 1)). destruct (copy_elems n (i + 1) array); cbn [bind]; auto. }
    specialize (X (Z.to_nat size) 0). destruct (copy_elems _ _ _); cbn [bind]; try reflexivity. destruct X. }
  apply (HandleProofs.tag_cases); intros tag H.
  - cbn in H. repeat (destruct H as [<-|H]; [first [reflexivity|apply Hcp]|]). destruct H.
  - replace ((0 <=? tag) && (tag <=? 18)) with false by lia.
    unfold drpm_get_ullong, drpm_get_string, drpm_get_ulong_array. tags. cbn [negb]. no_tag. reflexivity.
Qed.

Lemma null_args h tag room : h = None \/ room = false ->
  drpm_get_uint h tag room = Err EArgs /\ drpm_get_ulong h tag room = Err EArgs /\ drpm_get_ullong h tag room = Err EArgs /\
  drpm_get_string h tag room = Err EArgs /\ drpm_get_ulong_array h tag room = Err EArgs.
Proof.
  intros [->| ->]; [repeat split; reflexivity|]. unfold drpm_get_uint, drpm_get_ulong, drpm_get_ullong, drpm_get_string, drpm_get_ulong_array.
  destruct h; repeat split; reflexivity.
Qed.

(** ** Deltas with a string of 2 GiB *)
Definition with_param (p : list Z) (d : deltarpm) : deltarpm :=
  mkdelta (d_type d) (d_comp d) (d_level d) (d_head d) (d_version d) (d_src_nevr d) (d_seq d) (d_md5 d) (d_size d)
    (d_tcomp d) (d_tlevel d) p (d_hlen d) (d_offn d) (d_off d) (d_leadsig d) (d_fmtoff d)
    (d_intn d) (d_extn d) (d_int d) (d_ext d) (d_extlen d) (d_add d) (d_intlen d) (d_idata d).

Lemma wf_param p L d : wf_delta L d -> bytes p -> zlen p < 2 ^ 32 -> wf_delta L (with_param p d).
Proof.
  intros [] Hb Hp. constructor; unfold with_param;
  cbn [d_type d_comp d_level d_head d_version d_src_nevr d_seq d_md5 d_size
    d_tcomp d_tlevel d_param d_hlen d_offn d_off d_leadsig d_fmtoff
    d_intn d_extn d_int d_ext d_extlen d_add d_intlen d_idata]; auto.
  intros H. destruct (wf_target H) as (A & B & C & _ & _). auto.
Qed.

Lemma long_string n : 0 <= n -> exists p, bytes p /\ zlen p = n.
Proof.
  intros H. exists (repeat 0 (Z.to_nat n)). split.
  - apply Forall_forall. intros x Hx. apply repeat_spec in Hx. subst. unfold byte. lia.
  - unfold zlen. rewrite repeat_length. lia.
Qed.

Lemma long_param : exists file d, write_deltarpm toylibs d = Ok file /\ wf_delta toylibs d /\ is_ok (read_deltarpm toylibs file) /\
  forall name, drpm_read toylibs (fun _ => Some file) true (Some name) = Ub OobWrite.
Proof.
  destruct (long_string (2 ^ 31) ltac:(lia)) as (p & Hb & Hz).
  pose proof (wf_param p _ _ wf_only Hb ltac:(lia)) as W.
  destruct (roundtrip_final toylibs _ toy_ok W) as (file & d' & E1 & E2 & R).
  exists file, (with_param p delta_only). split; [exact E1|]. split; [exact W|]. split; [eexists; exact E2|].
  intros name. apply (read_exact toylibs (fun _ => Some file) name file d' eq_refl E2).
  intros (_ & _ & H). pose proof (rb_target _ _ _ R) as Ht. change (2 <=? d_version (with_param p delta_only)) with true in Ht. cbn iota in Ht.
  destruct Ht as (_ & _ & _ & Ht). rewrite Ht in H. unfold with_param in H. cbn [d_param] in H. lia.
Qed.

Lemma destroyed h : exists x, drpm_destroy (Some (Some h)) = Ok x /\ drpm_destroy (Some x) = Err EArgs /\
  drpm_destroy None = Err EArgs /\
  forall tag target, drpm_get_uint x tag target = Err EArgs /\ drpm_get_ulong x tag target = Err EArgs /\
    drpm_get_ullong x tag target = Err EArgs /\ drpm_get_string x tag target = Err EArgs /\
    drpm_get_ulong_array x tag target = Err EArgs.
Proof. exists None. repeat split. Qed.
