(** * StreamFinal: the stream properties in their final form *)
From Verif Require Import Base BaseLemmas Utils UtilsProofs DeltaComp SpecCodec Stream SpecStream
     StreamProofs DetectProofs ToyCodec.

Lemma write_transparent cd fd comp level ps s : compstrm_init cd fd comp level = Ok s ->
  exists s1 out1 s2 out2 data qs,
    write_all cd s ps = Ok (s1, out1) /\ compstrm_finish cd s1 = Ok (s2, out2, data) /\
    (fd = true -> out1 ++ out2 = data) /\
    concat qs = concat ps /\
    data = (if comp =? 0 then concat ps else enc_run cd comp level [] qs) /\
    (forall p, compstrm_write cd s2 p = Err EProg).
Proof.
  intros Hi. destruct (stream_write cd fd comp level ps s Hi) as (s1 & o1 & s2 & o2 & E1 & E2 & Hf & Ho).
  exists s1, o1, s2, o2. do 2 eexists. split; [exact E1|]. split; [exact E2|].
  split; [intros ->; exact Ho|]. split; [apply (concat_filter_nonempty ps)|]. split.
  - unfold stream_out. change COMP_NONE with 0. rewrite concat_filter_nonempty. reflexivity.
  - intros p. unfold compstrm_write. rewrite Hf. reflexivity.
Qed.

Lemma wrapper_transparent_final cd n comp level ps w :
  0 <= n <= zlen (concat ps) -> wrapper_init cd n comp level = Ok w ->
  exists w' out1 out2 data qs,
    wrapper_all cd w ps = Ok (w', out1) /\ wrapper_finish cd w' = Ok (out2, data) /\
    out1 ++ out2 = data /\
    concat qs = slice (concat ps) n (zlen (concat ps) - n) /\
    data = slice (concat ps) 0 n ++ (if comp =? 0 then concat qs else enc_run cd comp level [] qs).
Proof.
  intros Hn Hi. destruct (wrapper_transparent cd n comp level ps w Hn Hi) as (w' & o1 & o2 & qs & E1 & Hq & _ & E2 & Ho).
  exists w', o1, o2. do 2 eexists. split; [exact E1|]. split; [exact E2|]. split; [exact Ho|].
  split; [exact Hq|]. reflexivity.
Qed.

Lemma read_transparent cd file b x s ns :
  decompstrm_init file b = Ok s -> decodes cd (ds_comp s) b x ->
  Forall (fun n => 0 <= n) ns -> zlen x + zsum ns < 2 ^ 64 ->
  if zsum ns <=? zlen x
  then exists s' outs, read_all cd s ns = Ok (s', outs) /\ map zlen outs = ns /\
                       concat outs = slice x 0 (zsum ns)
  else read_all cd s ns = Err EFormat.
Proof.
  intros Hi Hd Hn Hx. destruct (init_view cd _ _ _ Hi) as [Hv Hp].
  pose proof (read_all_spec cd _ _ _ Hd ns s Hv Hn Hx) as H. rewrite Hp in H. exact H.
Qed.

Lemma eof_transparent cd file b x s :
  decompstrm_init file b = Ok s -> decodes cd (ds_comp s) b x ->
  exists s', decompstrm_read_until_eof cd s = Ok (s', x) /\ ds_csize s' = zlen b /\ ds_md5 s' = b.
Proof.
  intros Hi Hd. destruct (init_view cd _ _ _ Hi) as [Hv Hp].
  destruct (read_until_eof_spec cd _ _ _ _ Hd Hv) as (s' & E & C & M & _).
  rewrite Hp, Z.sub_0_r, slice_all in E. eauto.
Qed.

(** ** Cut input *)
Section Cut.
Variable cd : codec.

Lemma read_chunk_cut comp b x cut s s' e : decodes cd comp b x -> dview cd comp b cut s ->
  read_chunk cd s = (s', e) ->
  (exists z, ds_data s' ++ z = x) /\ ds_pos s' = ds_pos s /\
  (e = None -> dview cd comp b cut s' /\ (length (ds_in s') < length (ds_in s))%nat).
Proof.
  intros Hd Hv E. destruct (ds_in s) as [|i0 ir] eqn:Ein.
  - rewrite read_chunk_end in E by auto. injection E as <- <-.
    destruct (view_prefix _ _ _ _ _ _ Hd Hv) as (z & Hz & _). split; [eauto|]. split; [auto|discriminate].
  - destruct (read_chunk_step _ _ _ _ _ _ Hd Hv) as (s1 & e1 & E1 & Her & Hok); [congruence|].
    rewrite E1 in E. injection E as <- <-. destruct e1 as [er|].
    + clear Hok Her. pose proof Hv as (Hc & Hb & Hne & He & Hcs & Hm & Hp).
      unfold read_chunk in E1. set (n := Z.min CHUNK_SIZE (zlen (ds_in s))) in *.
      assert (Hn : 0 < n <= zlen (ds_in s)).
      { unfold n, CHUNK_SIZE. rewrite Ein, zlen_cons. pose proof (zlen_nonneg ir). lia. }
      assert (Hl : zlen (slice (ds_in s) 0 n) = n) by (apply chunk_len).
      rewrite Hl in E1. replace (n =? 0) with false in E1 by lia.
      set (chunk := slice (ds_in s) 0 n) in *. set (rest := slice (ds_in s) n (zlen (ds_in s) - n)) in *.
      assert (Hcr : chunk ++ rest = ds_in s) by (apply slice_cut; lia).
      unfold decodes, emitted in *. rewrite Hc in E1.
      destruct (comp =? COMP_NONE) eqn:Ec; [discriminate|].
      pose proof (dec_run_snoc cd comp chunk _ _ _ He) as Hs. cbn [app] in Hs.
      destruct (d_step cd comp (ds_fed s) chunk) as [o [e|]]; [|discriminate].
      injection E1 as <- <-. cbn [ds_data ds_pos fst snd] in *. split; [|split; [auto|discriminate]].
      destruct (Hd (ds_fed s ++ [chunk]) (rest ++ cut)) as (y & e' & E & Hz & _).
      * rewrite concat_app. cbn [concat]. rewrite app_nil_r, <- app_assoc, (app_assoc chunk), Hcr. auto.
      * apply Forall_app. split; auto. constructor; [|constructor]. intros Hx. rewrite Hx in Hl.
        change (@zlen Z []) with 0 in Hl. lia.
      * rewrite Hs in E. injection E as <- <-. exact Hz.
    + destruct (Hok eq_refl) as (Hv1 & Hlt & Hpos).
      destruct (view_prefix _ _ _ _ _ _ Hd Hv1) as (z & Hz & _). rewrite Ein in Hlt.
      split; [eauto|]. split; [auto|]. intros _. split; auto.
Qed.

Lemma eof_loop_cut comp b x cut : decodes cd comp b x -> forall fuel s,
  dview cd comp b cut s -> (length (ds_in s) < fuel)%nat ->
  (exists s' z, eof_loop cd fuel s = Ok s' /\ ds_data s' ++ z = x /\ ds_pos s' = ds_pos s) \/
  (exists e, eof_loop cd fuel s = Err e /\ e <> EFormat).
Proof.
  intros Hd. induction fuel as [|fuel IH]; intros s Hv Hf; [lia|]. cbn [eof_loop].
  destruct (read_chunk cd s) as [s' e] eqn:E.
  destruct (read_chunk_cut _ _ _ _ _ _ _ Hd Hv E) as ((z & Hz) & Hp & Hok).
  destruct e as [e|].
  - destruct e; try (right; eexists; split; [reflexivity|discriminate]). left. eauto 6.
  - destruct (Hok eq_refl) as (Hv' & Hlt). destruct (IH s' Hv') as [(s2 & z2 & A & B & C)|X]; [lia| |auto].
    left. exists s2, z2. rewrite C. auto.
Qed.
End Cut.

Lemma eof_cut cd file b1 b2 x s :
  decompstrm_init file b1 = Ok s -> decodes cd (ds_comp s) (b1 ++ b2) x ->
  (exists s' y z, decompstrm_read_until_eof cd s = Ok (s', y) /\ y ++ z = x) \/
  (exists e, decompstrm_read_until_eof cd s = Err e /\ e <> EFormat).
Proof.
  intros Hi Hd. destruct (init_view_cut cd file b1 b2 s Hi) as [Hv Hp].
  unfold decompstrm_read_until_eof.
  destruct (eof_loop_cut cd _ _ _ _ Hd (fill_fuel s) s Hv) as [(s1 & z & E & Hz & Hp1)|(e & E & He)].
  { unfold fill_fuel. lia. }
  - rewrite E. cbn [bind]. left. rewrite Hp1, Hp, Z.sub_0_r, slice_all. eauto.
  - rewrite E. cbn [bind]. right. eauto.
Qed.

(** What reading to the end gives for any input and any decoder. *)
Lemma eof_loop_exact cd : forall fuel s, ds_comp s <> COMP_NONE -> (length (ds_in s) < fuel)%nat ->
  exists cs, concat cs = ds_in s /\ Forall (fun c => c <> []) cs /\
    match dec_run cd (ds_comp s) (ds_fed s) cs with
    | (y, None) | (y, Some EFormat) => exists s', eof_loop cd fuel s = Ok s' /\ ds_data s' = ds_data s ++ y /\ ds_pos s' = ds_pos s
    | (_, Some e) => eof_loop cd fuel s = Err e
    end.
Proof.
  induction fuel as [|fuel IH]; intros s Hc Hf; [lia|]. cbn [eof_loop].
  unfold read_chunk. set (chunk := slice (ds_in s) 0 (Z.min CHUNK_SIZE (zlen (ds_in s)))).
  set (rest := slice (ds_in s) (zlen chunk) (zlen (ds_in s) - zlen chunk)).
  pose proof (zlen_nonneg (ds_in s)) as Hz.
  assert (Hzc : zlen chunk = Z.min CHUNK_SIZE (zlen (ds_in s))) by (apply zlen_slice; unfold CHUNK_SIZE; lia).
  assert (Eio : chunk ++ rest = ds_in s).
  { unfold rest. rewrite Hzc. unfold chunk.
    pose proof (slice_split (ds_in s) 0 (Z.min CHUNK_SIZE (zlen (ds_in s))) (zlen (ds_in s) - Z.min CHUNK_SIZE (zlen (ds_in s)))
                  ltac:(lia) ltac:(unfold CHUNK_SIZE; lia) ltac:(lia)) as X.
    rewrite Z.add_0_l in X. rewrite <- X. etransitivity; [|apply slice_all]. f_equal. lia. }
  destruct (Z.eqb_spec (zlen chunk) 0) as [E0|E0].
  - exists []. assert (Hn : ds_in s = []) by (apply zlen_zero_nil; unfold CHUNK_SIZE in *; lia).
    split; [auto|]. split; [constructor|]. cbn [dec_run]. exists s. rewrite app_nil_r. auto.
  - assert (Hne : chunk <> []) by (intros E; rewrite E in E0; apply E0; reflexivity).
    replace (ds_comp s =? COMP_NONE) with false by (symmetry; apply Z.eqb_neq; exact Hc).
    destruct (d_step cd (ds_comp s) (ds_fed s) chunk) as [out [e|]] eqn:Ed.
    + exists (chunk :: if zlen rest =? 0 then [] else [rest]). split; [|split].
      * destruct (Z.eqb_spec (zlen rest) 0) as [Er|Er]; cbn [concat]; rewrite ?app_nil_r; [|exact Eio].
        rewrite <- Eio. apply zlen_zero_nil in Er. rewrite Er, app_nil_r. reflexivity.
      * constructor; [auto|]. destruct (Z.eqb_spec (zlen rest) 0) as [Er|Er]; constructor; [|constructor].
        intros E. apply Er. rewrite E. reflexivity.
      * cbn [dec_run]. rewrite Ed. destruct e; try reflexivity. eexists. split; [reflexivity|]. auto.
    + destruct (IH (mkds (ds_comp s) rest (ds_fed s ++ [chunk]) (ds_data s ++ out) (ds_pos s) (ds_csize s + zlen chunk) (ds_md5 s ++ chunk)))
        as (cs & E1 & E2 & E3).
      { exact Hc. }
      { cbn [ds_in]. pose proof (f_equal (@length Z) Eio) as X. rewrite app_length in X. destruct chunk; [contradiction|]. cbn [length] in X. lia. }
      cbn [ds_comp ds_in ds_fed ds_data ds_pos] in *. exists (chunk :: cs). split; [cbn [concat]; rewrite E1; exact Eio|]. split; [constructor; auto|].
      cbn [dec_run]. rewrite Ed. destruct (dec_run cd (ds_comp s) (ds_fed s ++ [chunk]) cs) as [y [[]|]]; try exact E3;
        destruct E3 as (s' & A & B & C); exists s'; rewrite B, app_assoc; auto.
Qed.

Lemma eof_exact cd file b s : decompstrm_init file b = Ok s -> ds_comp s <> COMP_NONE ->
  exists cs, concat cs = b /\ Forall (fun c => c <> []) cs /\
    match dec_run cd (ds_comp s) [] cs with
    | (y, None) | (y, Some EFormat) => exists s', decompstrm_read_until_eof cd s = Ok (s', y)
    | (_, Some e) => decompstrm_read_until_eof cd s = Err e
    end.
Proof.
  intros Hi Hc. destruct (eof_loop_exact cd (fill_fuel s) s Hc) as (cs & E1 & E2 & E3); [unfold fill_fuel; lia|].
  assert (Hs : ds_in s = b /\ ds_fed s = [] /\ ds_data s = [] /\ ds_pos s = 0).
  { unfold decompstrm_init in Hi. destruct (zlen b <? 8); [discriminate|]. destruct (parse_be64_at b 0); try discriminate. cbn [bind] in Hi. injection Hi as <-. auto. }
  destruct Hs as (H1 & H2 & H3 & H4). rewrite H1 in E1. rewrite H2, H3 in E3. exists cs. split; [auto|]. split; [auto|]. unfold decompstrm_read_until_eof.
  destruct (dec_run cd (ds_comp s) [] cs) as [y [[]|]]; try (rewrite E3; reflexivity); destruct E3 as (s' & A & B & C); rewrite A; cbn [bind];
    rewrite C, H4, Z.sub_0_r, slice_all, B; eexists; reflexivity.
Qed.

(** The corruption witness: a gzip-like archive of 40 bytes cut in the middle. *)
Lemma cut_accepted : exists cd comp level x b1 b2 s s' y,
  codec_ok cd /\ real_comp comp /\ enc_run cd comp level [] [x] = b1 ++ b2 /\ b2 <> [] /\
  decompstrm_init true b1 = Ok s /\ decompstrm_read_until_eof cd s = Ok (s', y) /\ y <> x.
Proof.
  exists toy, 1, 9, (repeat 7 40), (toy_head 1 ++ repeat 7 20), (repeat 7 20).
  do 3 eexists. split; [exact toy_ok|]. split; [unfold real_comp; cbn; auto|].
  split; [vm_compute; reflexivity|]. split; [discriminate|].
  split; [vm_compute; reflexivity|]. split; [vm_compute; reflexivity|]. discriminate.
Qed.

(** A decoder that detects corruption (a byte above 127 in the data) with a format error,
    as the gzip, bzip2 and lzma chunk functions do. *)
Definition toy7 : codec := mkcodec (c_init toy) (c_step toy) (c_flush toy)
  (fun comp hist c => let o := fst (d_step toy comp hist c) in
     if existsb (fun x => 127 <? x) o then ([], Some EFormat) else (o, None)).

Lemma corrupt_accepted : exists s s' y,
  let good := toy_head 1 ++ repeat 7 2000 in
  let bad := toy_head 1 ++ repeat 7 1500 ++ [200] ++ repeat 7 499 in
  zlen bad = zlen good /\
  dec_run toy7 1 [] [good] = (repeat 7 2000, None) /\
  dec_run toy7 1 [] [bad] = ([], Some EFormat) /\
  decompstrm_init true bad = Ok s /\ decompstrm_read_until_eof toy7 s = Ok (s', y) /\ zlen y = 1014.
Proof.
  do 3 eexists. cbv zeta. split; [vm_compute; reflexivity|]. split; [vm_compute; reflexivity|].
  split; [vm_compute; reflexivity|]. split; [vm_compute; reflexivity|].
  split; vm_compute; reflexivity.
Qed.

Lemma detect_codec cd comp level ps file : codec_ok cd -> real_comp comp -> 0 <= level <= 9 ->
  Forall bytes ps ->
  exists s, decompstrm_init file (enc_run cd comp level [] ps) = Ok s /\ ds_comp s = comp.
Proof.
  intros Hok Hc Hl Hb. destruct (ok_magic _ Hok comp level ps Hc Hl) as [H8 [r Hr]].
  destruct (detect_exact file (enc_run cd comp level [] ps)) as (s & E & Hs & _); auto.
  - apply ok_bytes; auto.
  - exists s. split; auto. rewrite Hs, Hr. apply sniff_magic; auto.
Qed.

Lemma detect_exact_final file b : bytes b ->
  (zlen b < 8 -> decompstrm_init file b = Err (if file then EFormat else EProg)) /\
  (8 <= zlen b -> exists s, decompstrm_init file b = Ok s /\ ds_comp s = sniff b).
Proof.
  intros Hb. split; intros Hl.
  - unfold decompstrm_init. replace (zlen b <? 8) with true by lia. reflexivity.
  - destruct (detect_exact file b Hb Hl) as (s & E & Hs & _). eauto.
Qed.

Lemma detect_payload file r : bytes r -> 5 <= zlen r ->
  exists s, decompstrm_init file ([68; 76; 84] ++ r) = Ok s /\ ds_comp s = 0.
Proof.
  intros Hb Hl. destruct (detect_exact file ([68; 76; 84] ++ r)) as (s & E & Hs & _).
  - apply bytes_app. split; auto. apply bytesb_ok. reflexivity.
  - rewrite zlen_app. change (zlen [68; 76; 84]) with 3. lia.
  - exists s. split; auto.
Qed.
