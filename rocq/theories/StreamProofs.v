(** * StreamProofs: the streams are transparent *)
From Verif Require Import Base BaseLemmas Utils UtilsProofs DeltaComp SpecCodec Stream SpecStream.

Definition nonempty (p : list Z) : bool := negb (zlen p =? 0).

Lemma nonempty_false p : nonempty p = false -> p = [].
Proof. unfold nonempty. intros H. apply zlen_zero_nil. destruct (zlen p =? 0) eqn:E; cbn in H; [lia|discriminate]. Qed.

Lemma concat_filter_nonempty ps : concat (filter nonempty ps) = concat ps.
Proof.
  induction ps as [|p r IH]; cbn; auto.
  destruct (nonempty p) eqn:E; cbn; rewrite ?IH; auto.
  apply nonempty_false in E. subst. reflexivity.
Qed.

Lemma slice_cut {A} (l : list A) n : 0 <= n <= zlen l ->
  slice l 0 n ++ slice l n (zlen l - n) = l.
Proof.
  intros H. pose proof (slice_split l 0 n (zlen l - n)) as X. rewrite Z.add_0_l in X.
  rewrite <- X by lia. replace (n + (zlen l - n)) with (zlen l) by lia. apply slice_all.
Qed.

(** ** Writing *)
Section Write.
Variable cd : codec.

(** Bytes emitted for pieces, without the finish. *)
Fixpoint enc_steps (comp level : Z) (hist ps : list (list Z)) : list Z :=
  match ps with
  | [] => []
  | p :: r => (if comp =? COMP_NONE then p else c_step cd comp level hist p)
              ++ enc_steps comp level (hist ++ [p]) r
  end.

Lemma enc_steps_none level hist ps : enc_steps COMP_NONE level hist ps = concat ps.
Proof. revert hist. induction ps as [|p r IH]; intros hist; cbn; auto. rewrite IH. reflexivity. Qed.

Lemma enc_run_steps comp level hist ps : comp <> COMP_NONE ->
  enc_run cd comp level hist ps
  = enc_steps comp level hist ps ++ c_flush cd comp level (hist ++ ps).
Proof.
  intros Hc. revert hist. induction ps as [|p r IH]; intros hist; cbn [enc_run enc_steps].
  - rewrite app_nil_r. reflexivity.
  - rewrite IH. replace (comp =? COMP_NONE) with false by (symmetry; apply Z.eqb_neq; auto).
    rewrite <- !app_assoc. reflexivity.
Qed.

Definition cs_inv (s : cstrm) : Prop := cs_pos s = zlen (cs_data s) /\ cs_finished s = false.

Lemma write_step s p : cs_inv s ->
  exists s', compstrm_write cd s p
    = Ok (s', if cs_fd s then enc_steps (cs_comp s) (cs_level s) (cs_fed s) (filter nonempty [p]) else [])
  /\ cs_inv s' /\ cs_comp s' = cs_comp s /\ cs_level s' = cs_level s /\ cs_fd s' = cs_fd s
  /\ cs_fed s' = cs_fed s ++ filter nonempty [p]
  /\ cs_data s' = cs_data s ++ enc_steps (cs_comp s) (cs_level s) (cs_fed s) (filter nonempty [p]).
Proof.
  intros [Hp Hf]. unfold compstrm_write. rewrite Hf. cbn [filter]. unfold nonempty.
  destruct (zlen p =? 0) eqn:E; cbn [negb].
  - exists s. cbn [enc_steps]. rewrite !app_nil_r. repeat split; auto. destruct (cs_fd s); reflexivity.
  - cbv zeta. cbn [enc_steps]. rewrite app_nil_r. unfold write_chunk.
    set (o := if cs_comp s =? COMP_NONE then p else c_step cd (cs_comp s) (cs_level s) (cs_fed s) p).
    rewrite rd_range_in; rewrite ?Hp, ?zlen_app; pose proof (zlen_nonneg (cs_data s)); pose proof (zlen_nonneg o); try lia.
    cbn [bind]. eexists. split.
    + rewrite slice_app_exact_r; [reflexivity|auto|lia].
    + unfold cs_inv. cbn. rewrite zlen_app. auto 10.
Qed.

Lemma write_all_spec ps : forall s, cs_inv s ->
  exists s', write_all cd s ps
    = Ok (s', if cs_fd s then enc_steps (cs_comp s) (cs_level s) (cs_fed s) (filter nonempty ps) else [])
  /\ cs_inv s' /\ cs_comp s' = cs_comp s /\ cs_level s' = cs_level s /\ cs_fd s' = cs_fd s
  /\ cs_fed s' = cs_fed s ++ filter nonempty ps
  /\ cs_data s' = cs_data s ++ enc_steps (cs_comp s) (cs_level s) (cs_fed s) (filter nonempty ps).
Proof.
  induction ps as [|p r IH]; intros s Hs.
  - exists s. cbn. rewrite !app_nil_r. repeat split; try apply Hs; auto. destruct (cs_fd s); reflexivity.
  - destruct (write_step s p Hs) as (s1 & E1 & I1 & C1 & L1 & F1 & H1 & D1).
    destruct (IH s1 I1) as (s2 & E2 & I2 & C2 & L2 & F2 & H2 & D2).
    exists s2. cbn [write_all]. rewrite E1. cbn [bind]. rewrite E2. cbn [bind].
    rewrite C1, L1, F1, H1 in *. rewrite D1 in D2.
    assert (X : enc_steps (cs_comp s) (cs_level s) (cs_fed s) (filter nonempty [p]) ++
                enc_steps (cs_comp s) (cs_level s) (cs_fed s ++ filter nonempty [p]) (filter nonempty r)
              = enc_steps (cs_comp s) (cs_level s) (cs_fed s) (filter nonempty (p :: r))).
    { cbn [filter]. destruct (nonempty p); cbn [enc_steps].
      - rewrite app_nil_r. reflexivity.
      - cbn [app]. rewrite app_nil_r. reflexivity. }
    split; [|split; [auto|]].
    + destruct (cs_fd s); [rewrite X; reflexivity|reflexivity].
    + rewrite <- X, C2, L2, F2. split; [auto|]. split; [auto|]. split; [auto|]. split.
      * rewrite H2. cbn [filter]. destruct (nonempty p); rewrite <- app_assoc; reflexivity.
      * rewrite D2. rewrite <- app_assoc. reflexivity.
Qed.

(** Output of a stream for pieces. *)
Definition stream_out (comp level : Z) (ps : list (list Z)) : list Z :=
  if comp =? COMP_NONE then concat ps else enc_run cd comp level [] ps.

Lemma init_state fd comp level s : compstrm_init cd fd comp level = Ok s ->
  s = mkcs comp level fd [] [] 0 false.
Proof.
  unfold compstrm_init. destruct (negb (level =? 0) && _); [discriminate|].
  destruct (comp =? COMP_NONE); [intros H; injection H; auto|].
  destruct (_ || _); [|discriminate]. destruct (c_init cd comp level); [discriminate|].
  intros H; injection H; auto.
Qed.

Lemma finish_spec s : cs_inv s -> exists s' out,
  compstrm_finish cd s = Ok (s', if cs_fd s then out else [], cs_data s ++ out)
  /\ out = (if cs_comp s =? COMP_NONE then [] else c_flush cd (cs_comp s) (cs_level s) (cs_fed s))
  /\ cs_finished s' = true.
Proof.
  intros [Hp Hf]. unfold compstrm_finish. rewrite Hf.
  destruct (cs_comp s =? COMP_NONE).
  - do 2 eexists. split; [rewrite (app_nil_r (cs_data s)); reflexivity|]. auto.
  - set (f := c_flush _ _ _ _). rewrite Hp, slice_app_exact_r; auto; [|rewrite zlen_app; lia].
    do 2 eexists. split; [reflexivity|]. auto.
Qed.

Lemma enc_run_fed comp level ps : comp <> COMP_NONE ->
  stream_out comp level ps = enc_steps comp level [] ps ++ c_flush cd comp level ps.
Proof.
  intros Hc. unfold stream_out. replace (comp =? COMP_NONE) with false by (symmetry; apply Z.eqb_neq; auto).
  rewrite enc_run_steps by auto. reflexivity.
Qed.

Lemma stream_write fd comp level ps s : compstrm_init cd fd comp level = Ok s ->
  exists s1 out1 s2 out2,
    write_all cd s ps = Ok (s1, out1) /\
    compstrm_finish cd s1 = Ok (s2, out2, stream_out comp level (filter nonempty ps)) /\
    cs_finished s2 = true /\
    out1 ++ out2 = if fd then stream_out comp level (filter nonempty ps) else [].
Proof.
  intros Hi. apply init_state in Hi. subst s.
  destruct (write_all_spec ps (mkcs comp level fd [] [] 0 false)) as (s1 & E1 & I1 & C1 & L1 & F1 & H1 & D1).
  { split; reflexivity. }
  destruct (finish_spec s1 I1) as (s2 & o & E2 & Ho & Hfin).
  cbn [cs_comp cs_level cs_fd cs_fed cs_data app] in *.
  rewrite C1, L1, H1, D1, F1 in *.
  assert (X : enc_steps comp level [] (filter nonempty ps) ++ o = stream_out comp level (filter nonempty ps)).
  { rewrite Ho. destruct (comp =? COMP_NONE) eqn:Ec.
    - apply Z.eqb_eq in Ec. rewrite Ec, enc_steps_none, app_nil_r. reflexivity.
    - rewrite enc_run_fed; auto. apply Z.eqb_neq; auto. }
  rewrite X in E2.
  do 4 eexists. split; [exact E1|]. split; [exact E2|]. split; [auto|].
  destruct fd; auto.
Qed.

(** ** The wrapper *)
Definition cw_inv (w : cwrap) (done : list Z) (fedp : list (list Z)) (file : list Z) (comp level : Z) : Prop :=
  cs_inv (cw_strm w) /\ cs_comp (cw_strm w) = comp /\ cs_level (cw_strm w) = level /\
  cs_fd (cw_strm w) = true /\ cs_fed (cw_strm w) = fedp /\ Forall (fun p => p <> []) fedp /\
  cs_data (cw_strm w) = enc_steps comp level [] fedp /\
  file = cw_uncomp w ++ cs_data (cw_strm w) /\
  0 <= cw_left w /\ zlen (cw_uncomp w) + cw_left w = cw_len w /\
  done = cw_uncomp w ++ concat fedp /\ (0 < cw_left w -> fedp = []).

Lemma wrapper_step w done fedp file comp level p : cw_inv w done fedp file comp level ->
  exists w' out fedp', wrapper_write cd w p = Ok (w', out) /\
    cw_inv w' (done ++ p) fedp' (file ++ out) comp level /\ cw_len w' = cw_len w.
Proof.
  intros (Hs & Hc & Hl & Hfd & Hfed & Hne & Hd & Hf & Hleft & Hlen & Hdone & Hz).
  unfold wrapper_write.
  assert (Hsnoc : forall fp q, enc_steps comp level [] fp ++ enc_steps comp level fp q = enc_steps comp level [] (fp ++ q)).
  { intros fp q. change fp with ([] ++ fp) at 2. generalize (@nil (list Z)) as h.
    induction fp as [|a fp IH]; intros h; cbn [enc_steps app].
    - rewrite app_nil_r. reflexivity.
    - rewrite <- app_assoc. f_equal. rewrite <- IH. rewrite <- app_assoc. reflexivity. }
  assert (Hfn : forall q : list Z, Forall (fun p => p <> []) (filter nonempty [q])).
  { intros q. cbn [filter]. destruct (nonempty q) eqn:E; [|constructor].
    constructor; [|constructor]. intros ->. discriminate. }
  assert (Hcf : forall q : list Z, concat (filter nonempty [q]) = q).
  { intros q. rewrite concat_filter_nonempty. cbn. apply app_nil_r. }
  destruct (0 <? cw_left w) eqn:E0.
  - specialize (Hz ltac:(lia)). subst fedp. rewrite Hz in *. cbn [enc_steps] in Hd.
    destruct (zlen p =? 0) eqn:E1.
    + assert (p = []) by (apply zlen_zero_nil; lia). subst p.
      do 3 eexists. split; [reflexivity|]. split; [|auto]. rewrite !app_nil_r.
      unfold cw_inv. rewrite Hz. cbn [enc_steps concat] in *. auto 20.
    + pose proof (zlen_nonneg p). set (n := Z.min (cw_left w) (zlen p)). cbv zeta.
      destruct (write_step (cw_strm w) (slice p n (zlen p - n)) Hs) as (s1 & W1 & I1 & C1 & L1 & F1 & H1 & D1).
      rewrite W1. cbn [bind]. do 3 eexists. split; [reflexivity|].
      split; [|reflexivity]. unfold cw_inv. cbn [cw_strm cw_left cw_uncomp cw_len].
      rewrite Hfd in *. rewrite Hz in *. rewrite Hc, Hl in *. cbn [app] in H1.
      rewrite Hd in D1. cbn [app] in D1.
      split; [auto|]. split; [congruence|]. split; [congruence|]. split; [auto|].
      split; [exact H1|]. split; [apply Hfn|]. split; [exact D1|].
      split. { rewrite Hf, Hd, app_nil_r, D1, <- app_assoc. reflexivity. }
      split; [unfold n; lia|]. split. { rewrite zlen_app, zlen_slice; unfold n; lia. }
      split. { rewrite Hcf, Hdone. cbn [concat]. rewrite app_nil_r, <- app_assoc. f_equal.
        symmetry. apply slice_cut. unfold n; lia. }
      intros Hpos. replace (zlen p - n) with 0 by (unfold n in *; lia). reflexivity.
  - destruct (write_step (cw_strm w) p Hs) as (s1 & W1 & I1 & C1 & L1 & F1 & H1 & D1).
    rewrite W1. cbn [bind]. do 3 eexists. split; [reflexivity|].
    split; [|reflexivity]. unfold cw_inv. cbn [cw_strm cw_left cw_uncomp cw_len].
    rewrite Hfd in *. rewrite Hc, Hl, Hfed, Hd in *.
    split; [auto|]. split; [congruence|]. split; [congruence|]. split; [auto|].
    split; [exact H1|]. split; [apply Forall_app; split; auto|].
    split; [rewrite D1, Hsnoc; reflexivity|].
    split; [rewrite Hf, D1, <- app_assoc; reflexivity|].
    split; [auto|]. split; [auto|].
    split; [rewrite concat_app, Hcf, Hdone, <- app_assoc; reflexivity|]. intros; lia.
Qed.

Lemma wrapper_all_spec ps : forall w done fedp file comp level,
  cw_inv w done fedp file comp level ->
  exists w' out fedp', wrapper_all cd w ps = Ok (w', out) /\
    cw_inv w' (done ++ concat ps) fedp' (file ++ out) comp level /\ cw_len w' = cw_len w.
Proof.
  induction ps as [|p r IH]; intros w done fedp file comp level Hw; cbn [wrapper_all concat].
  - do 3 eexists. split; [reflexivity|]. rewrite !app_nil_r. eauto.
  - destruct (wrapper_step _ _ _ _ _ _ p Hw) as (w1 & o1 & f1 & E1 & I1 & L1).
    destruct (IH _ _ _ _ _ _ I1) as (w2 & o2 & f2 & E2 & I2 & L2).
    rewrite E1. cbn [bind]. rewrite E2. cbn [bind]. do 3 eexists. split; [reflexivity|].
    rewrite !app_assoc. split; [exact I2|congruence].
Qed.

Lemma wrapper_finish_spec w done fedp file comp level :
  cw_inv w done fedp file comp level -> cw_left w = 0 ->
  exists out, wrapper_finish cd w = Ok (out, cw_uncomp w ++ stream_out comp level fedp) /\
    file ++ out = cw_uncomp w ++ stream_out comp level fedp.
Proof.
  intros (Hs & Hc & Hl & Hfd & Hfed & Hne & Hd & Hf & Hleft & Hlen & Hdone & Hz) H0.
  unfold wrapper_finish. destruct (finish_spec (cw_strm w) Hs) as (s2 & o & E2 & Ho & _).
  rewrite E2. cbn [bind]. rewrite H0. cbn. rewrite Hfd. exists o.
  assert (X : cs_data (cw_strm w) ++ o = stream_out comp level fedp).
  { rewrite Hd, Ho, Hc, Hl, Hfed. destruct (comp =? COMP_NONE) eqn:Ec.
    - apply Z.eqb_eq in Ec. rewrite Ec, enc_steps_none, app_nil_r. reflexivity.
    - rewrite enc_run_fed; auto. apply Z.eqb_neq; auto. }
  rewrite X. split; [reflexivity|]. rewrite Hf, <- app_assoc, X. reflexivity.
Qed.

(** Through the wrapper, any way of cutting the data into pieces gives a file with the
    first [n] bytes uncompressed followed by an encoding of the rest. *)
Lemma wrapper_transparent n comp level ps w : 0 <= n <= zlen (concat ps) ->
  wrapper_init cd n comp level = Ok w ->
  exists w' out1 out2 qs,
    wrapper_all cd w ps = Ok (w', out1) /\
    concat qs = slice (concat ps) n (zlen (concat ps) - n) /\ Forall (fun q => q <> []) qs /\
    wrapper_finish cd w' = Ok (out2, slice (concat ps) 0 n ++ stream_out comp level qs) /\
    out1 ++ out2 = slice (concat ps) 0 n ++ stream_out comp level qs.
Proof.
  intros Hn Hi. unfold wrapper_init in Hi. destruct (compstrm_init cd true comp level) as [s| | |] eqn:Ei; try discriminate.
  apply init_state in Ei. cbn [bind] in Hi. injection Hi as <-. subst s.
  destruct (wrapper_all_spec ps (mkcw (mkcs comp level true [] [] 0 false) n n []) [] [] [] comp level) as (w1 & o1 & qs & E1 & I1 & L1).
  { unfold cw_inv. cbn. repeat split; auto. all: lia. }
  cbn [app cw_len] in *.
  pose proof I1 as (Hs & Hc & Hl & Hfd & Hfed & Hne & Hd & Hf & Hleft & Hlen & Hdone & Hz).
  assert (H0 : cw_left w1 = 0).
  { destruct (Z.eq_dec (cw_left w1) 0) as [|Hnz]; auto. specialize (Hz ltac:(lia)). subst qs.
    rewrite Hz in Hdone. cbn [concat] in Hdone. rewrite app_nil_r in Hdone. rewrite Hdone in Hn. lia. }
  destruct (wrapper_finish_spec _ _ _ _ _ _ I1 H0) as (o2 & E2 & Hfile).
  assert (Hu : cw_uncomp w1 = slice (concat ps) 0 n).
  { rewrite Hdone. rewrite slice_app_exact_l; auto. lia. }
  exists w1, o1, o2, qs. split; [exact E1|]. split.
  - rewrite Hdone. rewrite slice_app_exact_r; [auto|lia|]. rewrite zlen_app. lia.
  - split; [auto|]. rewrite <- Hu. auto.
Qed.

End Write.

(** ** Reading *)
Section Read.
Variable cd : codec.

(** Total output of the chunks [cs] is [y], without error. *)
Definition emitted (comp : Z) (cs : list (list Z)) (y : list Z) : Prop :=
  if comp =? COMP_NONE then y = concat cs else dec_run cd comp [] cs = (y, None).

Lemma dec_run_snoc comp c : forall cs hist y,
  dec_run cd comp hist cs = (y, None) ->
  dec_run cd comp hist (cs ++ [c]) =
    (y ++ fst (d_step cd comp (hist ++ cs) c), snd (d_step cd comp (hist ++ cs) c)).
Proof.
  induction cs as [|a cs IH]; intros hist y H; cbn [dec_run app] in *.
  - injection H as <-. rewrite app_nil_r. destruct (d_step cd comp hist c) as [o [e|]]; cbn; rewrite ?app_nil_r; reflexivity.
  - destruct (d_step cd comp hist a) as [o [e|]]; [discriminate|].
    destruct (dec_run cd comp (hist ++ [a]) cs) as [o' e'] eqn:E. injection H as <- ->.
    rewrite (IH _ _ E), <- !app_assoc. reflexivity.
Qed.

(** Stream [s] reads the part of [b] that remains when [cut] is missing at its end. *)
Definition dview (comp : Z) (b cut : list Z) (s : dstrm) : Prop :=
  ds_comp s = comp /\ concat (ds_fed s) ++ ds_in s ++ cut = b /\
  Forall (fun c => c <> []) (ds_fed s) /\ emitted comp (ds_fed s) (ds_data s) /\
  ds_csize s = zlen (concat (ds_fed s)) /\ ds_md5 s = concat (ds_fed s) /\
  0 <= ds_pos s <= zlen (ds_data s).

Lemma view_prefix comp b x cut s : decodes cd comp b x -> dview comp b cut s ->
  exists z, ds_data s ++ z = x /\ (ds_in s = [] -> cut = [] -> z = []).
Proof.
  intros Hd (Hc & Hb & Hne & He & _). unfold decodes, emitted in *.
  destruct (comp =? COMP_NONE).
  - subst x. rewrite He. exists (ds_in s ++ cut). split; auto. intros -> ->. reflexivity.
  - destruct (Hd _ _ Hb Hne) as (y & e & E & (z & Hz) & Hr). rewrite He in E. injection E as <- <-.
    exists z. split; auto. intros H1 H2. rewrite H1, H2 in Hr. destruct (Hr eq_refl) as [_ Hy].
    rewrite <- Hy in Hz. apply (app_inv_head (ds_data s)). rewrite app_nil_r. auto.
Qed.

Lemma chunk_len s : let n := Z.min CHUNK_SIZE (zlen (ds_in s)) in
  zlen (slice (ds_in s) 0 n) = n.
Proof. intros n. pose proof (zlen_nonneg (ds_in s)). unfold n, CHUNK_SIZE. apply zlen_slice; lia. Qed.

Lemma read_chunk_end s : ds_in s = [] -> read_chunk cd s = (s, Some EFormat).
Proof. intros H. unfold read_chunk. rewrite H. reflexivity. Qed.

Lemma read_chunk_step comp b x cut s : decodes cd comp b x -> dview comp b cut s ->
  ds_in s <> [] ->
  exists s' e, read_chunk cd s = (s', e) /\
    (forall er, e = Some er -> cut <> []) /\
    (e = None -> dview comp b cut s' /\ (length (ds_in s') < length (ds_in s))%nat /\
                 ds_pos s' = ds_pos s).
Proof.
  intros Hd Hv Hin. pose proof Hv as (Hc & Hb & Hne & He & Hcs & Hm & Hp).
  unfold read_chunk. set (n := Z.min CHUNK_SIZE (zlen (ds_in s))).
  set (chunk := slice (ds_in s) 0 n).
  assert (Hpos : 0 < zlen (ds_in s)).
  { destruct (ds_in s); [congruence|]. rewrite zlen_cons. pose proof (zlen_nonneg l). lia. }
  assert (Hn : 0 < n <= zlen (ds_in s)) by (unfold n, CHUNK_SIZE; lia).
  assert (Hl : zlen chunk = n) by (apply chunk_len).
  rewrite Hl. replace (n =? 0) with false by lia.
  set (rest := slice (ds_in s) n (zlen (ds_in s) - n)).
  assert (Hcr : chunk ++ rest = ds_in s).
  { apply slice_cut. lia. }
  assert (Hrl : (length rest < length (ds_in s))%nat).
  { rewrite <- Hcr, app_length. unfold zlen in Hl. lia. }
  assert (Hcn : chunk <> []) by (intros Hx; rewrite Hx in Hl; unfold zlen in Hl; cbn in Hl; lia).
  assert (Hb' : concat (ds_fed s ++ [chunk]) ++ rest ++ cut = b).
  { rewrite concat_app. cbn [concat]. rewrite app_nil_r, <- app_assoc, (app_assoc chunk), Hcr. auto. }
  assert (Hne' : Forall (fun c => c <> []) (ds_fed s ++ [chunk])) by (apply Forall_app; auto).
  assert (Hcat : concat (ds_fed s ++ [chunk]) = concat (ds_fed s) ++ chunk).
  { rewrite concat_app. cbn. rewrite app_nil_r. auto. }
  unfold decodes, emitted in *. rewrite Hc.
  destruct (comp =? COMP_NONE) eqn:Ec.
  - do 2 eexists. split; [reflexivity|]. split; [discriminate|]. intros _.
    cbn [ds_in ds_pos]. split; [|auto].
    unfold dview, emitted. cbn [ds_comp ds_in ds_fed ds_data ds_pos ds_csize ds_md5].
    rewrite Ec. rewrite Hcat in *. rewrite zlen_app, Hl, Hcs, Hm, He.
    rewrite He in Hp. pose proof (zlen_nonneg chunk). rewrite !zlen_app in *. auto 20 with zarith.
  - pose proof (dec_run_snoc comp chunk _ _ _ He) as Hs. cbn [app] in Hs.
    destruct (d_step cd comp (ds_fed s) chunk) as [o [e|]]; cbn [fst snd] in Hs.
    + do 2 eexists. split; [reflexivity|]. split; [|discriminate]. intros er Her.
      intros ->.
      destruct rest as [|r0 rest'] eqn:Er.
      * destruct (Hd _ _ Hb' Hne') as (y & e' & E & _ & Hr). rewrite Hs in E. injection E as <- <-.
        destruct (Hr eq_refl). discriminate.
      * (* feed the rest as one more chunk: still an error *)
        assert (Hb2 : concat ((ds_fed s ++ [chunk]) ++ [r0 :: rest']) ++ [] = b).
        { rewrite concat_app. cbn [concat]. rewrite !app_nil_r. rewrite app_nil_r in Hb'. auto. }
        assert (Hne2 : Forall (fun c => c <> []) ((ds_fed s ++ [chunk]) ++ [r0 :: rest'])).
        { apply Forall_app; split; auto. constructor; [discriminate|constructor]. }
        destruct (Hd _ _ Hb2 Hne2) as (y & e' & E & _ & Hr). destruct (Hr eq_refl) as [-> _].
        assert (Herr : forall cs hist q ee, dec_run cd comp hist cs = (q, Some ee) ->
                  forall tl, snd (dec_run cd comp hist (cs ++ tl)) = Some ee).
        { clear. induction cs as [|a cs IH]; intros hist q ee H tl; cbn [dec_run app] in *; [discriminate|].
          destruct (d_step cd comp hist a) as [o1 [e1|]]; [injection H as -> ->; reflexivity|].
          destruct (dec_run cd comp (hist ++ [a]) cs) as [o2 e2] eqn:E2. injection H as <- ->.
          specialize (IH _ _ _ E2 tl). destruct (dec_run cd comp (hist ++ [a]) (cs ++ tl)). cbn in *. auto. }
        specialize (Herr _ _ _ _ Hs [r0 :: rest']). rewrite E in Herr. discriminate.
    + do 2 eexists. split; [reflexivity|]. split; [discriminate|]. intros _.
      cbn [ds_in ds_pos]. split; [|auto].
      unfold dview, emitted. cbn [ds_comp ds_in ds_fed ds_data ds_pos ds_csize ds_md5].
      rewrite Ec. rewrite Hcat in *. rewrite zlen_app, Hl, Hcs, Hm.
      pose proof (zlen_nonneg o). rewrite !zlen_app in *. auto 20 with zarith.
Qed.

Lemma fill_loop_spec comp b x cut n : decodes cd comp b x -> forall fuel s,
  dview comp b cut s -> (length (ds_in s) < fuel)%nat ->
  (exists s', fill_loop cd fuel s n = Ok s' /\ dview comp b cut s' /\ ds_pos s' = ds_pos s /\
              ds_pos s + n <= zlen (ds_data s')) \/
  (exists e, fill_loop cd fuel s n = Err e /\
             (cut = [] -> e = EFormat /\ zlen x < ds_pos s + n)).
Proof.
  intros Hd. induction fuel as [|fuel IH]; intros s Hv Hf; [lia|]. cbn [fill_loop].
  destruct (ds_pos s + n <=? zlen (ds_data s)) eqn:E.
  - left. exists s. split; [reflexivity|]. split; [auto|]. split; [auto|lia].
  - destruct (ds_in s) as [|i0 ir] eqn:Ein.
    + rewrite read_chunk_end by auto. right. exists EFormat. split; [reflexivity|].
      intros ->. split; [auto|]. destruct (view_prefix _ _ _ _ _ Hd Hv) as (z & Hz & Hnil).
      rewrite (Hnil Ein eq_refl), app_nil_r in Hz. rewrite <- Hz. lia.
    + destruct (read_chunk_step _ _ _ _ _ Hd Hv) as (s1 & e1 & E1 & Her & Hok); [congruence|].
      rewrite E1. destruct e1 as [er|].
      * right. exists er. split; [reflexivity|]. intros Hcut. elim (Her _ eq_refl Hcut).
      * destruct (Hok eq_refl) as (Hv1 & Hlt & Hpos). rewrite <- Hpos. apply IH; auto.
        rewrite Ein in Hlt. cbn [length] in *. lia.
Qed.

Lemma decompstrm_read_spec comp b x cut n s : decodes cd comp b x -> dview comp b cut s ->
  0 <= n -> zlen x + n < 2 ^ 64 ->
  (exists s', decompstrm_read cd s n = Ok (s', slice x (ds_pos s) n) /\ dview comp b cut s' /\
              ds_pos s' = ds_pos s + n /\ ds_pos s + n <= zlen x) \/
  (exists e, decompstrm_read cd s n = Err e /\ (cut = [] -> e = EFormat /\ zlen x < ds_pos s + n)).
Proof.
  intros Hd Hv Hn Hx. unfold decompstrm_read.
  destruct (view_prefix _ _ _ _ _ Hd Hv) as (z & Hz & _).
  assert (Hl : zlen (ds_data s) <= zlen x) by (rewrite <- Hz, zlen_app; pose proof (zlen_nonneg z); lia).
  pose proof (zlen_nonneg (ds_data s)).
  rewrite u64_small by lia. replace (zlen (ds_data s) + n <? n) with false by lia.
  destruct (fill_loop_spec comp b x cut n Hd (fill_fuel s) s Hv) as [(s1 & E1 & Hv1 & Hp1 & Hle)|(e & E1 & Hc)].
  { unfold fill_fuel. lia. }
  - rewrite E1. cbn [bind]. pose proof Hv1 as (_ & _ & _ & _ & _ & _ & Hp). rewrite Hp1 in *.
    rewrite rd_range_in by lia. cbn [bind].
    destruct (view_prefix _ _ _ _ _ Hd Hv1) as (z1 & Hz1 & _).
    left. eexists. split; [|split; [|split; [|]]].
    + rewrite <- Hz1. rewrite slice_app_l by lia. reflexivity.
    + destruct Hv1 as (A & B & C & D & F & G & I). unfold dview. cbn. auto 10 with zarith.
    + cbn. reflexivity.
    + rewrite <- Hz1, zlen_app. pose proof (zlen_nonneg z1). lia.
  - rewrite E1. cbn [bind]. right. eauto.
Qed.

Lemma read_full comp b x n s : decodes cd comp b x -> dview comp b [] s ->
  0 <= n -> zlen x + n < 2 ^ 64 ->
  if ds_pos s + n <=? zlen x
  then exists s', decompstrm_read cd s n = Ok (s', slice x (ds_pos s) n) /\ dview comp b [] s' /\
                  ds_pos s' = ds_pos s + n
  else decompstrm_read cd s n = Err EFormat.
Proof.
  intros Hd Hv Hn Hx.
  destruct (decompstrm_read_spec comp b x [] n s Hd Hv Hn Hx) as [(s' & E & V & P & L)|(e & E & C)].
  - replace (_ <=? _) with true by lia. eauto.
  - destruct (C eq_refl) as [-> L]. replace (_ <=? _) with false by lia. auto.
Qed.

Lemma init_view file b s : decompstrm_init file b = Ok s ->
  dview (ds_comp s) b [] s /\ ds_pos s = 0.
Proof.
  unfold decompstrm_init. destruct (zlen b <? 8); [discriminate|].
  destruct (parse_be64_at b 0); try discriminate. cbn [bind]. intros H; injection H as <-.
  split; [|reflexivity]. unfold dview, emitted.
  cbn [ds_comp ds_in ds_fed ds_data ds_pos ds_csize ds_md5 concat app dec_run]. rewrite app_nil_r.
  split; [reflexivity|]. split; [reflexivity|]. split; [constructor|].
  split; [destruct (_ =? COMP_NONE); reflexivity|]. split; [reflexivity|]. split; [reflexivity|].
  change (@zlen Z []) with 0. lia.
Qed.

Lemma init_view_cut file b1 b2 s : decompstrm_init file b1 = Ok s ->
  dview (ds_comp s) (b1 ++ b2) b2 s /\ ds_pos s = 0.
Proof.
  unfold decompstrm_init. destruct (zlen b1 <? 8); [discriminate|].
  destruct (parse_be64_at b1 0); try discriminate. cbn [bind]. intros H; injection H as <-.
  split; [|reflexivity]. unfold dview, emitted.
  cbn [ds_comp ds_in ds_fed ds_data ds_pos ds_csize ds_md5 concat app dec_run].
  split; [reflexivity|]. split; [reflexivity|]. split; [constructor|].
  split; [destruct (_ =? COMP_NONE); reflexivity|]. split; [reflexivity|]. split; [reflexivity|].
  change (@zlen Z []) with 0. lia.
Qed.

(** Reading to the end. *)
Lemma eof_loop_spec comp b x : decodes cd comp b x -> forall fuel s,
  dview comp b [] s -> (length (ds_in s) < fuel)%nat ->
  exists s', eof_loop cd fuel s = Ok s' /\ dview comp b [] s' /\ ds_pos s' = ds_pos s /\
             ds_data s' = x /\ ds_in s' = [].
Proof.
  intros Hd. induction fuel as [|fuel IH]; intros s Hv Hf; [lia|]. cbn [eof_loop].
  destruct (ds_in s) as [|i0 ir] eqn:Ein.
  - rewrite read_chunk_end by auto. exists s. split; [reflexivity|]. split; [auto|]. split; [auto|].
    destruct (view_prefix _ _ _ _ _ Hd Hv) as (z & Hz & Hnil).
    rewrite (Hnil Ein eq_refl), app_nil_r in Hz. auto.
  - destruct (read_chunk_step _ _ _ _ _ Hd Hv) as (s1 & e1 & E1 & Her & Hok); [congruence|].
    rewrite E1. destruct e1 as [er|].
    + elim (Her _ eq_refl eq_refl).
    + destruct (Hok eq_refl) as (Hv1 & Hlt & Hpos). rewrite <- Hpos. apply IH; auto.
      rewrite Ein in Hlt. cbn [length] in *. lia.
Qed.

Lemma read_until_eof_spec comp b x s : decodes cd comp b x -> dview comp b [] s ->
  exists s', decompstrm_read_until_eof cd s = Ok (s', slice x (ds_pos s) (zlen x - ds_pos s)) /\
    ds_csize s' = zlen b /\ ds_md5 s' = b /\ ds_data s' = x.
Proof.
  intros Hd Hv. unfold decompstrm_read_until_eof.
  destruct (eof_loop_spec comp b x Hd (fill_fuel s) s Hv) as (s1 & E1 & Hv1 & Hp & Hx & Hi).
  { unfold fill_fuel. lia. }
  rewrite E1. cbn [bind]. rewrite Hx, Hp. destruct Hv1 as (A & B & C & D & F & G & I).
  rewrite Hi in B. cbn [app] in B. rewrite app_nil_r in B.
  eexists. split; [reflexivity|]. cbn. rewrite F, G, B. auto.
Qed.

(** A list of reads. *)
Lemma read_all_spec comp b x : decodes cd comp b x -> forall ns s,
  dview comp b [] s -> Forall (fun n => 0 <= n) ns -> zlen x + zsum ns < 2 ^ 64 ->
  if ds_pos s + zsum ns <=? zlen x
  then exists s' outs, read_all cd s ns = Ok (s', outs) /\ map zlen outs = ns /\
                       concat outs = slice x (ds_pos s) (zsum ns)
  else read_all cd s ns = Err EFormat.
Proof.
  intros Hd. induction ns as [|n ns IH]; intros s Hv Hns Hx; cbn [zsum fold_right read_all] in *.
  - destruct (view_prefix _ _ _ _ _ Hd Hv) as (z & Hz & _). pose proof Hv as (_ & _ & _ & _ & _ & _ & Hp).
    replace (_ <=? _) with true.
    + do 2 eexists. split; [reflexivity|]. split; [reflexivity|]. rewrite slice_nil_len by lia. reflexivity.
    + rewrite <- Hz, zlen_app. pose proof (zlen_nonneg z). lia.
  - inversion Hns as [|? ? Hn Hns']; subst.
    assert (0 <= zsum ns). { clear -Hns'. induction Hns'; cbn; [lia|]. unfold zsum in IHHns'. lia. }
    fold (zsum ns) in *.
    pose proof (read_full comp b x n s Hd Hv Hn ltac:(lia)) as Hr.
    pose proof Hv as (_ & _ & _ & _ & _ & _ & Hp).
    destruct (ds_pos s + n <=? zlen x) eqn:E.
    + destruct Hr as (s1 & E1 & V1 & P1). rewrite E1. cbn [bind].
      specialize (IH s1 V1 Hns' ltac:(lia)). rewrite P1 in IH.
      replace (ds_pos s + (n + zsum ns)) with (ds_pos s + n + zsum ns) by lia.
      destruct (ds_pos s + n + zsum ns <=? zlen x) eqn:E2.
      * destruct IH as (s2 & outs & E3 & M & C). rewrite E3. cbn [bind].
        do 2 eexists. split; [reflexivity|]. cbn [map concat]. rewrite M, C. split.
        -- f_equal. apply zlen_slice; lia.
        -- rewrite <- slice_split by lia. reflexivity.
      * rewrite IH. reflexivity.
    + rewrite Hr. cbn [bind]. replace (_ <=? _) with false by lia. reflexivity.
Qed.

End Read.
