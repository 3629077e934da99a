(** * FormatProofs: parsing what was written *)
From Verif Require Import Base BaseLemmas Utils UtilsProofs DeltaComp SpecCodec SpecDelta SpecStream SpecFormat
  CodecFinal Stream StreamProofs DetectProofs StreamFinal Rpm Delta DeltaWrite DeltaRead ReadSim.

(** ** Elements *)
Lemma from_app_exact {A} (p r : list A) n : n = zlen p -> from (p ++ r) n = r.
Proof. intros ->. apply skipn_zlen_app. Qed.

Lemma rdl_app p r n : n = zlen p -> rdl (p ++ r) n = Ok (r, p).
Proof.
  intros ->. unfold rdl. rewrite zlen_app. pose proof (zlen_nonneg r). replace (_ <=? _) with true by lia.
  rewrite from_app_exact, slice_app_exact_l by auto. reflexivity.
Qed.

Lemma r_be32_app x r : is_u32 x -> r_be32 _ rdl (create_be32 x ++ r) = Ok (r, x).
Proof.
  intros H. unfold r_be32. rewrite rdl_app by (symmetry; apply zlen_create_be32). cbn [bind].
  rewrite parse_create_be32 by exact H. reflexivity.
Qed.
Lemma r_be64_app x r : 0 <= x < 2 ^ 64 -> r_be64 _ rdl (create_be64 x ++ r) = Ok (r, x).
Proof.
  intros H. unfold r_be64. rewrite rdl_app by (symmetry; apply zlen_create_be64). cbn [bind].
  rewrite parse_create_be64 by exact H. reflexivity.
Qed.

Definition be_list {A} (g : A -> Z) (l : list A) : list Z := concat (map (fun a => create_be32 (g a)) l).

Lemma zlen_be_list {A} (g : A -> Z) l : zlen (be_list g l) = 4 * zlen l.
Proof.
  unfold be_list. induction l as [|a l IH]; [reflexivity|]. cbn [map concat].
  rewrite zlen_app, zlen_create_be32, IH, zlen_cons. lia.
Qed.
Lemma bytes_be_list {A} (g : A -> Z) l : bytes (be_list g l).
Proof.
  unfold be_list. induction l as [|a l IH]; [constructor|]. cbn [map concat].
  apply bytes_app. split; auto. apply create_be32_bytes.
Qed.

Lemma r_elems_app {A} (g : A -> Z) f cap r : forall l i,
  Forall (fun a => is_u32 (g a)) l -> 0 <= i -> 4 * (i + 2 * zlen l - 1) <= cap ->
  r_elems _ rdl (length l) f cap i (be_list g l ++ r) = Ok (r, map (fun a => f (g a)) l).
Proof.
  induction l as [|a l IH]; intros i Hl Hi Hc; [reflexivity|].
  inversion Hl as [|? ? Ha Hl']; subst. cbn [length r_elems]. unfold be_list. cbn [map concat].
  rewrite <- app_assoc, r_be32_app by auto. cbn [bind].
  rewrite zlen_cons in Hc. pose proof (zlen_nonneg l).
  replace (cap <? 4 * (i + 1)) with false by lia. fold (be_list g l).
  rewrite IH by (auto; lia). reflexivity.
Qed.

Lemma combine_map {A B C} (f : A -> B) (g : A -> C) l : combine (map f l) (map g l) = map (fun a => (f a, g a)) l.
Proof. induction l as [|a l IH]; [reflexivity|]. cbn. rewrite IH. reflexivity. Qed.

Lemma r_pairs_app f g f' g' n l r : n = zlen l -> zlen l < 2 ^ 29 ->
  Forall (fun p => is_u32 (f' (fst p)) /\ is_u32 (g' (snd p)) /\ f (f' (fst p)) = fst p /\ g (g' (snd p)) = snd p) l ->
  r_pairs _ rdl f g n (be_list (fun p => f' (fst p)) l ++ be_list (fun p => g' (snd p)) l ++ r) = Ok (r, l).
Proof.
  intros -> Hn Hl. unfold r_pairs. pose proof (zlen_nonneg l).
  rewrite (u32_small (zlen l * 2)) by lia. rewrite (u32_small (zlen l * 2 * 4)) by lia.
  replace (Z.to_nat (zlen l * 2 / 2)) with (length l).
  2:{ rewrite Z.div_mul by lia. unfold zlen. lia. }
  rewrite (r_elems_app (fun p => f' (fst p)) f) ; [|eapply Forall_impl; [|exact Hl]; intros ? X; cbn beta in *; tauto|lia|lia]. cbn [bind].
  rewrite (r_elems_app (fun p => g' (snd p)) g) ; [|eapply Forall_impl; [|exact Hl]; intros ? X; cbn beta in *; tauto|lia|lia]. cbn [bind].
  rewrite combine_map. f_equal. f_equal. clear Hn H. induction Hl as [|[a b] l (_ & _ & Ha & Hb) Hl IH]; [reflexivity|].
  cbn [map fst snd] in *. rewrite IH, Ha, Hb. reflexivity.
Qed.

Lemma cstr_app s r : c_string s -> cstr (s ++ 0 :: r) = s.
Proof.
  intros H. induction H as [|c s Hc Hs IH]; [reflexivity|]. cbn [app cstr].
  replace (c =? 0) with false by lia. rewrite IH. reflexivity.
Qed.
Lemma c_string_bytes s : c_string s -> bytes s.
Proof. apply Forall_impl. unfold byte. lia. Qed.

(** ** The payload *)
Section Payload.
Variable d : deltarpm.

Definition w_version : list Z := [68; 76; 84; 48 + d_version d].
Definition w_nevr : list Z := create_be32 (zlen (d_src_nevr d) + 1) ++ d_src_nevr d ++ [0].
Definition w_seq : list Z := create_be32 (zlen (d_seq d)) ++ d_seq d ++ d_md5 d.
Definition w_target (c : Z) : list Z :=
  if 2 <=? d_version d
  then create_be32 (d_size d) ++ create_be32 c ++ create_be32 (zlen (d_param d)) ++ d_param d
  else [].
Definition w_hlen : list Z :=
  if d_version d =? 3 then create_be32 (d_hlen d) ++ create_be32 (d_offn d) else [].
Definition w_off : list Z :=
  if d_version d =? 3
  then be_list (fun p => fst p) (d_off d) ++ be_list (fun p => sm_encode (snd p)) (d_off d) else [].
Definition w_leadsig : list Z :=
  create_be32 (zlen (d_leadsig d)) ++ d_leadsig d ++ create_be32 (d_fmtoff d)
  ++ create_be32 (d_intn d) ++ create_be32 (d_extn d).
Definition w_int : list Z := be_list (fun p => fst p) (d_int d) ++ be_list (fun p => snd p) (d_int d).
Definition w_ext : list Z := be_list (fun p => sm_encode (fst p)) (d_ext d) ++ be_list (fun p => snd p) (d_ext d).
Definition w_len (n : Z) : list Z := if d_version d =? 3 then create_be64 n else create_be32 n.
Definition w_add : list Z :=
  if d_type d =? TYPE_STANDARD then create_be32 (zlen (d_add d)) ++ d_add d else create_be32 0.

Definition payload (c : Z) : list Z :=
  w_version ++ w_nevr ++ w_seq ++ w_target c ++ w_hlen ++ w_off ++ w_leadsig ++ w_int ++ w_ext
  ++ w_len (d_extlen d) ++ w_add ++ w_len (d_intlen d) ++ idata_bytes d.
End Payload.

Section WF.
Variable L : libs.
Variable d : deltarpm.
Hypothesis W : wf_delta L d.

Lemma version_cases : d_version d = 1 \/ d_version d = 2 \/ d_version d = 3.
Proof. pose proof (wf_version L d W). lia. Qed.

Lemma type_cases : d_type d = TYPE_STANDARD \/
  d_type d = TYPE_RPMONLY /\ d_version d = 3 /\ d_hlen d <> 0 /\ zlen (d_seq d) = 16.
Proof. pose proof (wf_head L d W). destruct (d_head d); tauto. Qed.

Lemma rd_range_all {A} (l : list A) n : n = zlen l -> rd_range l 0 n = Ok l.
Proof.
  intros ->. rewrite rd_range_in by (pose proof (zlen_nonneg l); lia). rewrite slice_all. reflexivity.
Qed.

Lemma count_half n (l : list (Z * Z)) : pair_array n l -> u32 (n * 2) / 2 = zlen l.
Proof.
  intros (-> & Hl & _). pose proof (zlen_nonneg l). rewrite u32_small by lia. apply Z.div_mul. lia.
Qed.

Lemma int_pieces_spec new : forall offs ints,
  Forall2 (fun o (p : Z * Z) => 0 <= o /\ o + snd p <= zlen new) offs ints ->
  Forall (fun p : Z * Z => is_u32 (fst p) /\ is_u32 (snd p)) ints ->
  int_pieces new offs ints = Ok (map (fun q => slice new (fst q) (snd (snd q))) (combine offs ints)).
Proof.
  intros offs ints H. induction H as [|o [n l] offs ints [Ho Hl] H IH]; intros Hp; [reflexivity|].
  inversion Hp as [|? ? [_ Hu] Hp']; subst. cbn [fst snd] in *. unfold is_u32 in Hu. cbn [int_pieces].
  destruct (l =? 0) eqn:E.
  - cbn [bind]. rewrite IH by auto. cbn [bind combine map fst snd]. rewrite slice_nil_len by lia. reflexivity.
  - rewrite rd_range_in by lia. cbn [bind]. rewrite IH by auto. reflexivity.
Qed.

Lemma enc_comp_ok : 2 <= d_version d -> exists c, encode_comp (d_tcomp d) (d_tlevel d) = Some c /\
  is_u32 c /\ decode_comp c = Some (d_tcomp d, d_tlevel d).
Proof.
  intros Hv. destruct (wf_target L d W Hv) as (_ & Hc & Hl & _).
  destruct (CodecFinal.comp_code _ _ Hc Hl) as (c & E & D & U). eauto.
Qed.

Lemma pieces_concat : exists c ps, (2 <= d_version d -> is_u32 c /\ decode_comp c = Some (d_tcomp d, d_tlevel d)) /\
  delta_pieces d = Ok ps /\ concat ps = payload d c.
Proof.
  assert (exists c, 2 <= d_version d -> encode_comp (d_tcomp d) (d_tlevel d) = Some c /\
            is_u32 c /\ decode_comp c = Some (d_tcomp d, d_tlevel d)) as [c Hc].
  { destruct (Z_le_gt_dec 2 (d_version d)) as [H|H]; [destruct (enc_comp_ok H) as (c & H1); eauto|].
    exists 0. lia. }
  exists c.
  destruct (wf_src L d W) as [Hs1 Hs2]. destruct (wf_seq L d W) as [Hq1 Hq2].
  destruct (wf_leadsig L d W) as [Hl1 Hl2]. destruct (wf_int L d W) as [Hi1 Hi2].
  destruct (wf_ext L d W) as (He1 & He2 & He3). destruct (wf_add L d W) as [Ha1 Ha2].
  pose proof (zlen_nonneg (d_src_nevr d)). pose proof (zlen_nonneg (d_seq d)).
  pose proof (zlen_nonneg (d_leadsig d)). pose proof (zlen_nonneg (d_add d)).
  assert (Hdata : exists ds, (match d_idata d with
          | IPtrs new offs => ints' <- rd_range (d_int d) 0 (d_intn d) ;; int_pieces new offs ints'
          | IBytes b => p <- rd_range b 0 (d_intlen d) ;; Ok [p]
          end) = Ok ds /\ concat ds = idata_bytes d).
  { pose proof (wf_idata L d W) as Hw. unfold idata_bytes. destruct (d_idata d) as [b|new offs].
    - rewrite rd_range_all by (symmetry; tauto). eexists. split; [reflexivity|]. cbn. apply app_nil_r.
    - destruct Hi1 as (-> & _ & Hu). rewrite rd_range_all by auto. cbn [bind].
      rewrite int_pieces_spec by tauto. eauto. }
  destruct Hdata as (ds & Ed & Cd).
  cut (exists ps, delta_pieces d = Ok ps /\ concat ps = payload d c).
  { intros (ps & Hps). exists ps. split; [intros Hv; destruct (Hc Hv); tauto|exact Hps]. }
  unfold delta_pieces. rewrite (count_half _ _ Hi1), (count_half _ _ He1).
  rewrite (rd_range_all (d_int d)), (rd_range_all (d_ext d)) by auto.
  rewrite Ed. unfold payload, w_version, w_nevr, w_seq, w_target, w_hlen, w_off, w_leadsig, w_int, w_ext, w_len, w_add.
  rewrite (u32_small (zlen (d_seq d))), (u32_small (zlen (d_leadsig d))), (u32_small (zlen (d_add d))) by lia.
  rewrite (u32_small (zlen _ + 1)) by lia.
  assert (Hver : version_str d = [68; 76; 84; 48 + d_version d]).
  { unfold version_str. pose proof (wf_version L d W). rewrite u8_small by lia. reflexivity. }
  rewrite Hver.
  pose proof (wf_extlen L d W) as Hx. pose proof (wf_intlen L d W) as Hn.
  destruct version_cases as [Hv|[Hv|Hv]]; rewrite Hv in *; cbn [Z.leb Z.eqb Z.compare Pos.compare Pos.compare_cont Pos.eqb] in *.
  - cbn [bind]. rewrite ?u32_small by lia. eexists. split; [reflexivity|].
    rewrite !concat_app. rewrite Cd. unfold be_list.
    destruct (d_type d =? TYPE_STANDARD); cbn [concat app]; rewrite !app_nil_r, <- ?app_assoc; reflexivity.
  - destruct (Hc ltac:(lia)) as (-> & _). destruct (wf_target L d W ltac:(lia)) as (_ & _ & _ & _ & Hp).
    pose proof (zlen_nonneg (d_param d)).
    cbn [bind]. rewrite ?u32_small by lia. eexists. split; [reflexivity|].
    rewrite !concat_app. rewrite Cd. unfold be_list.
    destruct (d_type d =? TYPE_STANDARD); cbn [concat app]; rewrite !app_nil_r, <- ?app_assoc; reflexivity.
  - destruct (Hc ltac:(lia)) as (-> & _). destruct (wf_target L d W ltac:(lia)) as (_ & _ & _ & _ & Hp).
    destruct (wf_off L d W Hv) as (_ & Ho & _). rewrite (count_half _ _ Ho), (rd_range_all (d_off d)) by auto.
    pose proof (zlen_nonneg (d_param d)).
    cbn [bind]. rewrite ?u32_small by lia. eexists. split; [reflexivity|].
    rewrite !concat_app. rewrite Cd. unfold be_list.
    destruct (d_type d =? TYPE_STANDARD); cbn [concat app]; rewrite !app_nil_r, <- ?app_assoc; reflexivity.
Qed.
(** ** Stages of the reader on what was written *)
Notation rl := (list Z).

Lemma st_version r : r_version rl rdl (d_type d) (w_version d ++ r) = Ok (r, d_version d).
Proof.
  unfold r_version, w_version. pose proof (wf_version L d W) as Hv.
  assert (E : [68; 76; 84; 48 + d_version d] = create_be32 (1145852976 + d_version d)).
  { destruct version_cases as [Hv1|[Hv1|Hv1]]; rewrite Hv1; reflexivity. }
  rewrite E, r_be32_app by (unfold is_u32; lia). cbn [bind].
  replace (Z.shiftr (1145852976 + d_version d) 8 =? 4475988) with true
    by (destruct version_cases as [Hv1|[Hv1|Hv1]]; rewrite Hv1; reflexivity).
  cbn [negb].
  replace (u16 ((1145852976 + d_version d) mod 256 - 48)) with (d_version d)
    by (destruct version_cases as [Hv1|[Hv1|Hv1]]; rewrite Hv1; reflexivity).
  destruct type_cases as [->|(-> & -> & _)].
  - rewrite andb_false_r. reflexivity.
  - reflexivity.
Qed.

Lemma st_nevr r : (len <- r_nevr_len rl rdl (w_nevr d ++ r) ;; r_nevr rl rdl (snd len) (fst len)) = Ok (r, d_src_nevr d).
Proof.
  unfold r_nevr_len, r_nevr, w_nevr. destruct (wf_src L d W) as [Hs Hl].
  pose proof (zlen_nonneg (d_src_nevr d)).
  rewrite <- app_assoc, r_be32_app by (unfold is_u32; lia). cbn [bind fst snd].
  rewrite rdl_app by (rewrite zlen_app; reflexivity). cbn [bind].
  rewrite u32_small by lia. rewrite Z.ltb_irrefl. rewrite (cstr_app _ [] Hs). reflexivity.
Qed.

Lemma st_seq r : r_seq rl rdl (d_type d) (w_seq d ++ r) = Ok (r, (d_seq d, d_md5 d)).
Proof.
  unfold r_seq, w_seq. destruct (wf_seq L d W) as [Hs Hl]. destruct (wf_md5 L d W) as [Hm Hml].
  rewrite <- !app_assoc, r_be32_app by (unfold is_u32; lia). cbn [bind].
  replace (zlen (d_seq d) <? 16) with false by lia.
  replace (negb (zlen (d_seq d) =? 16) && (d_type d =? TYPE_RPMONLY)) with false.
  2:{ destruct type_cases as [->|(-> & _ & _ & ->)]; [rewrite andb_false_r|]; reflexivity. }
  cbn [orb]. rewrite rdl_app by auto. cbn [bind]. rewrite rdl_app by auto. reflexivity.
Qed.

Lemma st_target c tc r :
  (2 <= d_version d -> is_u32 c /\ decode_comp c = Some (d_tcomp d, d_tlevel d)) ->
  (if 2 <=? d_version d then r_target rl rdl (w_target d c ++ r) else Ok (w_target d c ++ r, (0, tc, 0, [])))
  = Ok (r, if 2 <=? d_version d then (d_size d, d_tcomp d, d_tlevel d, d_param d) else (0, tc, 0, [])).
Proof.
  intros Hc. unfold w_target. destruct (2 <=? d_version d) eqn:Hv; [|reflexivity].
  destruct (Hc ltac:(lia)) as [Hu Hd]. destruct (wf_target L d W ltac:(lia)) as (Hs & _ & _ & Hb & Hp).
  unfold r_target. rewrite <- !app_assoc. rewrite r_be32_app by auto. cbn [bind].
  rewrite r_be32_app by auto. cbn [bind]. rewrite Hd.
  pose proof (zlen_nonneg (d_param d)).
  rewrite r_be32_app by (unfold is_u32; lia). cbn [bind].
  destruct (0 <? zlen (d_param d)) eqn:E.
  - rewrite rdl_app by auto. reflexivity.
  - rewrite (zlen_zero_nil (d_param d)) by lia. reflexivity.
Qed.

Lemma st_hlen r :
  (if d_version d =? 3 then r_hlen rl rdl (w_hlen d ++ r) else Ok (w_hlen d ++ r, (0, 0)))
  = Ok (r, if d_version d =? 3 then (d_hlen d, d_offn d) else (0, 0)).
Proof.
  unfold w_hlen. destruct (d_version d =? 3) eqn:Hv; [|reflexivity].
  destruct (wf_off L d W ltac:(lia)) as (Hh & (Hn & Hl & _) & _).
  unfold r_hlen. rewrite <- app_assoc, r_be32_app by auto. cbn [bind].
  pose proof (zlen_nonneg (d_off d)). rewrite r_be32_app by (unfold is_u32; lia). reflexivity.
Qed.

Lemma st_off r :
  r_offadj rl rdl (if d_version d =? 3 then d_offn d else 0) (w_off d ++ r)
  = Ok (r, if d_version d =? 3 then d_off d else []).
Proof.
  unfold w_off, r_offadj. destruct (d_version d =? 3) eqn:Hv; [|reflexivity].
  destruct (wf_off L d W ltac:(lia)) as (Hh & (Hn & Hl & Hu) & Hm).
  destruct (0 <? d_offn d) eqn:E.
  - rewrite <- app_assoc. apply (r_pairs_app (fun x => x) sm_decode (fun x => x) sm_encode); auto.
    apply Forall_forall. intros p Hp. rewrite Forall_forall in Hu, Hm. specialize (Hu p Hp) as [H1 H2].
    specialize (Hm p Hp). cbn beta in Hm. repeat split; auto; try apply H1; try (apply sm_encode_range; auto); apply sm_roundtrip; auto.
  - rewrite (zlen_zero_nil (d_off d)) by (pose proof (zlen_nonneg (d_off d)); lia). reflexivity.
Qed.

Lemma st_leadsig r : r_leadsig rl rdl (w_leadsig d ++ r) = Ok (r, (d_leadsig d, d_fmtoff d, d_intn d, d_extn d)).
Proof.
  unfold r_leadsig, w_leadsig. destruct (wf_leadsig L d W) as [Hb Hl].
  destruct (wf_int L d W) as [(Hi & Hil & _) _]. destruct (wf_ext L d W) as [(He & Hel & _) _].
  pose proof (zlen_nonneg (d_int d)). pose proof (zlen_nonneg (d_ext d)).
  rewrite <- !app_assoc. rewrite r_be32_app by (unfold is_u32; lia). cbn [bind].
  replace (zlen (d_leadsig d) <? RPM_LEADSIG_MIN_LEN) with false by (unfold RPM_LEADSIG_MIN_LEN; lia).
  rewrite rdl_app by auto. cbn [bind]. rewrite r_be32_app by apply (wf_fmtoff L d W). cbn [bind].
  rewrite r_be32_app by (unfold is_u32; lia). cbn [bind].
  rewrite r_be32_app by (unfold is_u32; lia). reflexivity.
Qed.

Lemma st_int r : r_int rl rdl (d_intn d) (w_int d ++ r) = Ok (r, d_int d).
Proof.
  unfold r_int, w_int. destruct (wf_int L d W) as [(Hi & Hil & Hu) _]. rewrite <- app_assoc.
  apply (r_pairs_app (fun x => x) (fun x => x) (fun x => x) (fun x => x)); auto.
  eapply Forall_impl; [|exact Hu]. cbn beta. tauto.
Qed.

Lemma st_ext r : r_ext rl rdl (d_extn d) (w_ext d ++ r) = Ok (r, d_ext d).
Proof.
  unfold r_ext, w_ext. destruct (wf_ext L d W) as [(Hi & Hil & Hu) [Hm _]]. rewrite <- app_assoc.
  apply (r_pairs_app sm_decode (fun x => x) sm_encode (fun x => x)); auto.
  apply Forall_forall. intros p Hp. rewrite Forall_forall in Hu, Hm. specialize (Hu p Hp) as [H1 H2].
  specialize (Hm p Hp). cbn beta in Hm. repeat split; auto; try apply H2; try (apply sm_encode_range; auto); apply sm_roundtrip; auto.
Qed.

Lemma st_len n r : (0 <= n < if d_version d =? 3 then 2 ^ 63 else 2 ^ 32) ->
  r_len rl rdl (d_version d) (w_len d n ++ r) = Ok (r, n).
Proof.
  unfold r_len, w_len. intros H. destruct (d_version d =? 3).
  - apply r_be64_app. lia.
  - apply r_be32_app. exact H.
Qed.

Lemma st_add r : r_add rl rdl (d_type d) (w_add d ++ r) = Ok (r, if d_type d =? TYPE_STANDARD then d_add d else []).
Proof.
  unfold r_add, w_add. destruct (wf_add L d W) as [Hb Hl]. pose proof (zlen_nonneg (d_add d)).
  destruct type_cases as [->|(-> & _)]; cbn [Z.eqb TYPE_STANDARD TYPE_RPMONLY].
  - rewrite <- app_assoc, r_be32_app by (unfold is_u32; lia). cbn [bind].
    destruct (0 <? zlen (d_add d)) eqn:E; [apply rdl_app; auto|].
    rewrite (zlen_zero_nil (d_add d)) by lia. reflexivity.
  - rewrite r_be32_app by (unfold is_u32; lia). reflexivity.
Qed.

Lemma zlen_pieces (new : list Z) : forall offs ints,
  Forall2 (fun o (p : Z * Z) => 0 <= o /\ o + snd p <= zlen new) offs ints ->
  Forall (fun p : Z * Z => is_u32 (fst p) /\ is_u32 (snd p)) ints ->
  zlen (concat (map (fun q => slice new (fst q) (snd (snd q))) (combine offs ints))) = zsum (map snd ints).
Proof.
  intros offs ints H. induction H as [|o [n l] offs ints [Ho Hl] H IH]; intros Hp; [reflexivity|].
  inversion Hp as [|? ? [_ Hu] Hp']; subst. unfold is_u32 in Hu. cbn [combine map concat fst snd zsum fold_right] in *.
  rewrite zlen_app, IH, zlen_slice by (auto; lia). reflexivity.
Qed.

Lemma idata_len : zlen (idata_bytes d) = d_intlen d.
Proof.
  pose proof (wf_idata L d W) as Hw. unfold idata_bytes. destruct (d_idata d); [tauto|].
  destruct (wf_int L d W) as [(_ & _ & Hu) _]. rewrite zlen_pieces; tauto.
Qed.

Lemma st_data r : r_data rl rdl (d_intlen d) (idata_bytes d ++ r) = Ok (r, idata_bytes d).
Proof.
  unfold r_data. pose proof idata_len as H. destruct (0 <? d_intlen d) eqn:E; [apply rdl_app; auto|].
  rewrite (zlen_zero_nil (idata_bytes d)) by (pose proof (zlen_nonneg (idata_bytes d)); lia). reflexivity.
Qed.

Lemma check_int_ok ints intlen : forall off, 0 <= off -> intlen < 2 ^ 64 ->
  Forall (fun p : Z * Z => is_u32 (fst p) /\ is_u32 (snd p)) ints ->
  off + zsum (map snd ints) <= intlen -> check_int ints off intlen = true.
Proof.
  induction ints as [|[n l] ints IH]; intros off Ho Hi Hu Hs; [reflexivity|].
  inversion Hu as [|? ? [_ Hl] Hu']; subst. unfold is_u32 in Hl. cbn [fst snd] in Hl.
  cbn [map zsum fold_right snd] in Hs. fold (zsum (map snd ints)) in Hs.
  assert (0 <= zsum (map snd ints)).
  { clear - Hu'. induction Hu' as [|[? ?] ? [_ ?]]; cbn; [lia|]. unfold is_u32 in *. cbn in *. unfold zsum in *. lia. }
  cbn [check_int]. rewrite u64_small by lia. replace (intlen <? off + l) with false by lia.
  apply IH; auto; lia.
Qed.

Lemma check_ext_ok extlen : extlen < 2 ^ 63 -> forall exts off, 0 <= off ->
  Forall (fun p : Z * Z => is_u32 (fst p) /\ is_u32 (snd p)) exts ->
  Forall (fun e => 0 <= fst e /\ 0 < fst e + snd e <= extlen) (extents off exts) ->
  check_ext exts off extlen = true.
Proof.
  intros Hx. induction exts as [|[o l] exts IH]; intros off Ho Hu Hs; [reflexivity|].
  inversion Hu as [|? ? [_ Hl] Hu']; subst. unfold is_u32 in Hl. cbn [fst snd] in Hl.
  cbn [extents] in Hs. inversion Hs as [|? ? [H1 H2] Hs']; subst. cbn [fst snd] in *.
  cbn [check_ext]. rewrite (u64_small (off + s32 o)) by lia. replace (extlen <? off + s32 o) with false by lia.
  rewrite u64_small by lia. replace (_ =? 0) with false by lia. replace (extlen <? off + s32 o + l) with false by lia.
  cbn [orb]. apply IH; auto. lia.
Qed.

Definition rb_rec (comp tc : Z) (head : dhead) (add : list Z) : deltarpm :=
  let '(size, tcomp, tlevel, param) :=
    if 2 <=? d_version d then (d_size d, d_tcomp d, d_tlevel d, d_param d) else (0, tc, 0, []) in
  let '(hlen, offn) := if d_version d =? 3 then (d_hlen d, d_offn d) else (0, 0) in
  mkdelta (d_type d) comp 0 head (d_version d) (d_src_nevr d) (d_seq d) (d_md5 d) size tcomp tlevel param
          hlen offn (if d_version d =? 3 then d_off d else []) (d_leadsig d) (d_fmtoff d) (d_intn d) (d_extn d)
          (d_int d) (d_ext d) (d_extlen d)
          (if d_type d =? TYPE_RPMONLY then add else if d_type d =? TYPE_STANDARD then d_add d else [])
          (d_intlen d) (IBytes (idata_bytes d)).

Lemma parse_payload c comp tc head add r :
  (2 <= d_version d -> is_u32 c /\ decode_comp c = Some (d_tcomp d, d_tlevel d)) ->
  readdelta_rest rl rdl (d_type d) comp tc head add (payload d c ++ r) = Ok (r, rb_rec comp tc head add).
Proof.
  intros Hc. unfold payload. rewrite <- !app_assoc. unfold readdelta_rest.
  rewrite st_version. cbn [bind].
  match goal with |- context [w_nevr d ++ ?t] => pose proof (st_nevr t) as Hn end.
  match type of Hn with (len <- ?e ;; _) = _ => destruct e as [[s len]| | |] end; try discriminate.
  cbn [bind fst snd] in *. rewrite Hn. cbn [bind]. clear Hn s len.
  rewrite st_seq. cbn [bind]. rewrite st_target by auto. cbn [bind]. unfold rb_rec.
  destruct (if 2 <=? d_version d then (d_size d, d_tcomp d, d_tlevel d, d_param d) else (0, tc, 0, []))
    as [[[size tcomp] tlevel] param].
  rewrite st_hlen. cbn [bind].
  destruct (if d_version d =? 3 then (d_hlen d, d_offn d) else (0, 0)) as [hlen offn] eqn:Eh.
  replace offn with (if d_version d =? 3 then d_offn d else 0) at 1.
  2:{ destruct (d_version d =? 3); injection Eh; auto. }
  rewrite st_off. cbn [bind].
  replace ((hlen =? 0) && (d_type d =? TYPE_RPMONLY)) with false.
  2:{ destruct type_cases as [->|(-> & Hv & Hh & _)]; [rewrite andb_false_r; reflexivity|].
      rewrite Hv in Eh. injection Eh as <- _. apply Z.eqb_neq in Hh. rewrite Hh. reflexivity. }
  rewrite st_leadsig. cbn [bind]. rewrite st_int. cbn [bind]. rewrite st_ext. cbn [bind].
  pose proof (wf_extlen L d W) as Hx. pose proof (wf_intlen L d W) as Hi.
  rewrite st_len by auto. cbn [bind]. rewrite st_add. cbn [bind].
  rewrite st_len by (destruct (d_version d =? 3); lia). cbn [bind]. rewrite st_data. cbn [bind].
  destruct (wf_int L d W) as [(_ & _ & Hu1) Hs]. destruct (wf_ext L d W) as [(_ & _ & Hu2) [_ He]].
  rewrite check_int_ok; [|lia|destruct (d_version d =? 3); lia|auto|lia]. cbn [negb].
  rewrite check_ext_ok; [|destruct (d_version d =? 3); lia|lia|auto|auto]. cbn [negb]. reflexivity.
Qed.

End WF.
