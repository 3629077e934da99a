(** * ToyCodec: a codec that meets the assumptions, for concrete cases

    Output: the magic, eight zero bytes, the input.  Not part of the model of drpm. *)
From Verif Require Import Base BaseLemmas DeltaComp SpecCodec Stream SpecStream.

Definition toy_head (comp : Z) : list Z := magic_of comp ++ repeat 0 8.

Definition toy : codec := mkcodec
  (fun _ _ => None)
  (fun comp _ hist p => match hist with [] => toy_head comp ++ p | _ => p end)
  (fun comp _ hist => match hist with [] => toy_head comp | _ => [] end)
  (fun comp hist c => (skipn (length (toy_head comp) - length (concat hist)) c, None)).

Lemma toy_enc_more comp level : forall ps hist, hist <> [] ->
  enc_run toy comp level hist ps = concat ps.
Proof.
  induction ps as [|p r IH]; intros hist Hh; cbn.
  - destruct hist; [congruence|reflexivity].
  - rewrite IH by (destruct hist; discriminate). destruct hist; [congruence|reflexivity].
Qed.

Lemma toy_enc comp level ps : enc_run toy comp level [] ps = toy_head comp ++ concat ps.
Proof.
  destruct ps as [|p r]; cbn [enc_run].
  - cbn. rewrite app_nil_r. reflexivity.
  - rewrite toy_enc_more by discriminate. cbn [c_step toy concat]. rewrite app_assoc. reflexivity.
Qed.

Lemma toy_dec comp : forall cs hist,
  dec_run toy comp hist cs =
  (skipn (length (toy_head comp) - length (concat hist)) (concat cs), None).
Proof.
  induction cs as [|c r IH]; intros hist; cbn [dec_run concat].
  - rewrite skipn_nil. reflexivity.
  - cbn [d_step toy]. rewrite IH. rewrite concat_app. cbn [concat]. rewrite app_nil_r.
    rewrite app_length, skipn_app. f_equal. f_equal. f_equal. lia.
Qed.

Lemma toy_ok : codec_ok toy.
Proof.
  split.
  - reflexivity.
  - intros comp level ps Hc _ Hps. rewrite toy_enc. apply bytes_app. split.
    + cbn [In real_comp] in Hc. unfold real_comp in Hc. cbn [In] in Hc.
      destruct Hc as [<-|[<-|[<-|[<-|[<-|[]]]]]]; apply bytesb_ok; reflexivity.
    + clear Hc. induction Hps; cbn; [constructor|]. apply bytes_app. auto.
  - intros comp level ps Hc _. rewrite toy_enc. unfold toy_head. split.
    + rewrite !zlen_app, zlen_repeat. pose proof (zlen_nonneg (magic_of comp)).
      pose proof (zlen_nonneg (concat ps)). lia.
    + eexists. rewrite <- app_assoc. reflexivity.
  - intros comp level ps Hc _. rewrite toy_enc. unfold decodes.
    assert (Hn : comp =? COMP_NONE = false).
    { unfold real_comp in Hc. cbn [In] in Hc. destruct Hc as [<-|[<-|[<-|[<-|[<-|[]]]]]]; reflexivity. }
    rewrite Hn. intros cs rest Hb _. rewrite toy_dec. cbn [concat length]. rewrite Nat.sub_0_r.
    do 2 eexists. split; [reflexivity|]. split.
    + exists (skipn (length (toy_head comp) - length (concat cs)) rest).
      rewrite <- skipn_app, Hb, skipn_app, skipn_all, Nat.sub_diag. reflexivity.
    + intros ->. rewrite app_nil_r in Hb. rewrite Hb, skipn_app, skipn_all, Nat.sub_diag. auto.
Qed.
