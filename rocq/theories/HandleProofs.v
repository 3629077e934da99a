(** * HandleProofs: handles and getters *)
From Verif Require Import Base BaseLemmas Utils UtilsProofs SpecCodec SpecDelta SpecStream SpecFormat SpecHandle
  Stream StreamProofs Rpm Delta DeltaRead DeltaWrite ReadSim FormatProofs FormatSafe FormatCases Handle.

Lemma flat_row l : flat l = in_row l.
Proof. induction l as [|[a b] l IH]; [reflexivity|]. cbn. f_equal. f_equal. exact IH. Qed.

Lemma zlen_row l : zlen (in_row l) = 2 * zlen l.
Proof. induction l as [|[a b] l IH]; [reflexivity|]. unfold in_row in *. cbn [map concat app fst snd]. rewrite !zlen_cons, IH. lia. Qed.

(** ** Hexadecimal text *)
Lemma digit_char n : 0 <= n < 16 -> rd digits n = Ok (hex_char n).
Proof.
  intros H. assert (E : In n (map Z.of_nat (seq 0 16))).
  { apply in_map_iff. exists (Z.to_nat n). split; [lia|]. apply in_seq. lia. }
  cbn in E. repeat (destruct E as [<-|E]; [reflexivity|]). destruct E.
Qed.

Lemma dump_loop : forall n s acc, (n <= length s)%nat -> dump_hex_loop n s acc = Ok (hex_text (firstn n s) ++ acc).
Proof.
  induction n as [|n IH]; intros s acc H; [reflexivity|].
  cbn [dump_hex_loop]. destruct (nth_error s n) as [b|] eqn:E; [|apply nth_error_None in E; lia].
  assert (Hr : rd s (Z.of_nat n) = Ok b).
  { unfold rd. replace (Z.of_nat n <? 0) with false by lia. rewrite Nat2Z.id, E. reflexivity. }
  rewrite Hr. cbn [bind].
  assert (H1 : Z.land (Z.shiftr b 4) 15 = b / 16 mod 16) by (rewrite Z.shiftr_div_pow2 by lia; change 15 with (Z.ones 4); rewrite Z.land_ones by lia; reflexivity).
  assert (H2 : Z.land b 15 = b mod 16) by (change 15 with (Z.ones 4); rewrite Z.land_ones by lia; reflexivity).
  rewrite H1, H2. rewrite !digit_char by (apply Z.mod_pos_bound; lia). cbn [bind].
  rewrite IH by lia. f_equal.
  assert (Ef : firstn (S n) s = firstn n s ++ [b]).
  { clear - E. revert s E. induction n; intros [|x s] E; try discriminate; cbn in E.
    - injection E as ->. reflexivity.
    - specialize (IHn _ E). cbn [firstn app] in *. f_equal. exact IHn. }
  rewrite Ef. unfold hex_text. rewrite map_app, concat_app. cbn [map concat app]. rewrite <- app_assoc. reflexivity.
Qed.

Lemma dump_exact b : dump_hex b (zlen b) = Ok (hex_text b).
Proof.
  unfold dump_hex. unfold zlen. rewrite Nat2Z.id, dump_loop by lia. rewrite firstn_all, app_nil_r. reflexivity.
Qed.

Lemma hex_copy_exact b : hex_copy b = if zlen b <? 2 ^ 31 then (if zlen b * 2 + 1 <? 2 ^ 32 then Ok (hex_text b) else Ub OobWrite) else Ub OobWrite.
Proof.
  pose proof (zlen_nonneg b). unfold hex_copy. destruct (zlen b <? 2 ^ 31) eqn:E.
  - replace (zlen b * 2 + 1 <? 2 ^ 32) with true by lia. rewrite u32_small by lia. rewrite Z.ltb_irrefl. apply dump_exact.
  - pose proof (u32_range (zlen b * 2 + 1)). replace (_ <? _) with true by lia. reflexivity.
Qed.
Lemma hex_small b : zlen b < 2 ^ 31 -> hex_copy b = Ok (hex_text b).
Proof. intros H. pose proof (zlen_nonneg b). rewrite hex_copy_exact. replace (_ <? _) with true by lia. replace (_ <? _) with true by lia. reflexivity. Qed.
Lemma hex_large b : 2 ^ 31 <= zlen b -> hex_copy b = Ub OobWrite.
Proof. intros H. rewrite hex_copy_exact. replace (_ <? _) with false by lia. reflexivity. Qed.

(** ** Arrays of accepted deltas *)
Definition fits (n : Z) (l : list (Z * Z)) : Prop := u32 (n * 2) = zlen (in_row l) /\ zlen (in_row l) * 4 < 2 ^ 32.

Section Cons.
Variable S : Type.
Variable rdS : S -> Z -> res (S * list Z).

Lemma r_elems_room f cap : forall n i s s' l, r_elems S rdS n f cap i s = Ok (s', l) -> length l = n /\ (n = O \/ 4 * (i + 2 * Z.of_nat n - 1) <= cap).
Proof.
  induction n as [|n IH]; intros i s s' l H; cbn [r_elems] in H.
  - injection H as _ <-. auto.
  - apply bind_ok in H as ([s1 v] & E & H). destruct (cap <? 4 * (i + 1)) eqn:Ec; [discriminate|].
    apply bind_ok in H as ([s2 r] & E2 & H). injection H as _ <-. apply IH in E2 as [<- E2]. split; [reflexivity|]. right. lia.
Qed.

Lemma r_pairs_fits f g n s s' l : r_pairs S rdS f g n s = Ok (s', l) -> fits n l.
Proof.
  unfold r_pairs. intros H. apply bind_ok in H as ([s1 a] & E1 & H). apply bind_ok in H as ([s2 b] & E2 & H).
  injection H as _ <-. apply r_elems_room in E1 as [La _]. apply r_elems_room in E2 as [Lb Hc].
  unfold fits. rewrite zlen_row. unfold zlen. rewrite combine_length, La, Lb, Nat.min_id.
  pose proof (u32_range (n * 2)). pose proof (u32_range (u32 (n * 2) * 4)).
  assert (E : u32 (n * 2) mod 2 = 0).
  { unfold u32. change (2 ^ 32) with (2 * 2 ^ 31). rewrite (Z.mul_comm n 2), Z.mul_mod_distr_l by lia. rewrite Z.mul_comm. apply Z.mod_mul. lia. }
  assert (Hq : u32 (n * 2) = 2 * (u32 (n * 2) / 2)) by (Z.div_mod_to_equations; lia).
  assert (0 <= u32 (n * 2) / 2) by (Z.div_mod_to_equations; lia).
  rewrite Z2Nat.id by lia. split; [auto|]. lia.
Qed.

Lemma rest_fits type comp tc head add s s' d : readdelta_rest S rdS type comp tc head add s = Ok (s', d) ->
  fits (d_offn d) (d_off d) /\ fits (d_intn d) (d_int d) /\ fits (d_extn d) (d_ext d).
Proof.
  unfold readdelta_rest. intros H.
  apply bind_ok in H as ([s1 version] & Ev & H).
  apply bind_ok in H as ([s2 len] & _ & H). apply bind_ok in H as ([s3 nevr] & _ & H).
  apply bind_ok in H as ([s4 [seq md5]] & Eq & H).
  apply bind_ok in H as ([s5 [[[size tc2] tl] param]] & _ & H).
  apply bind_ok in H as ([s6 [hlen offn]] & Eh & H).
  apply bind_ok in H as ([s7 offadj] & Eo & H).
  destruct ((hlen =? 0) && (type =? TYPE_RPMONLY)) eqn:Ez; [discriminate|].
  apply bind_ok in H as ([s8 [[[leadsig fmtoff] intn] extn]] & El & H).
  apply bind_ok in H as ([s9 ints] & Ei & H). apply bind_ok in H as ([s10 exts] & Ee & H).
  apply bind_ok in H as ([s11 extlen] & Ex & H). apply bind_ok in H as ([s12 add2] & _ & H).
  apply bind_ok in H as ([s13 intlen] & En & H). apply bind_ok in H as ([s14 data] & Ed & H).
  destruct (negb (check_int ints 0 intlen)) eqn:Ci; [discriminate|].
  destruct (negb (check_ext exts 0 extlen)) eqn:Ce; [discriminate|].
  injection H as _ <-. cbn [d_offn d_off d_intn d_int d_extn d_ext].
  apply r_pairs_fits in Ei, Ee. split; [|auto].
  unfold r_offadj in Eo. destruct (0 <? offn) eqn:E0; [apply r_pairs_fits in Eo; auto|].
  injection Eo as _ <-.
  assert (offn = 0).
  { destruct (version =? 3).
    - unfold r_hlen in Eh. apply bind_ok in Eh as ([u1 v1] & _ & Eh). apply bind_ok in Eh as ([u2 v2] & X & Eh).
      injection Eh as _ _ <-. apply be32_val in X. lia.
    - injection Eh as _ _ <-. reflexivity. }
  subst offn. split; [reflexivity|]. change (zlen (in_row [])) with 0. lia.
Qed.
End Cons.

Lemma accepted_fits L file d : read_deltarpm L file = Ok d ->
  fits (d_offn d) (d_off d) /\ fits (d_intn d) (d_int d) /\ fits (d_extn d) (d_ext d).
Proof.
  unfold read_deltarpm. intros H. apply bind_ok in H as ([magic f] & _ & H).
  assert (Hp : forall type tc head add p, read_payload L type tc head add p = Ok d ->
     fits (d_offn d) (d_off d) /\ fits (d_intn d) (d_int d) /\ fits (d_extn d) (d_ext d)).
  { unfold read_payload. intros type tc head add p E. apply bind_ok in E as (s & _ & E). apply bind_ok in E as ([s' d'] & E & E2).
    injection E2 as <-. eapply rest_fits; eauto. }
  destruct (magic =? 1685221485).
  - apply bind_ok in H as ([[nevr add] f'] & _ & H). eauto.
  - destruct (magic =? 3987467995); [|discriminate].
    apply bind_ok in H as ([[r tc] f'] & _ & H). eauto.
Qed.

Lemma array_fits n l : fits n l -> array_copy (u32 (n * 2)) l = Ok (in_row l).
Proof.
  intros [E H]. unfold array_copy. rewrite E, flat_row. pose proof (zlen_nonneg (in_row l)).
  destruct (0 <? zlen (in_row l)) eqn:E0.
  - rewrite u32_small by lia. rewrite Z.div_mul by lia. rewrite rd_range_in by lia. rewrite slice_all. reflexivity.
  - rewrite (zlen_zero_nil (in_row l)) by lia. reflexivity.
Qed.

(** ** Reading *)
Definition short (d : deltarpm) : Prop :=
  zlen (d_seq d) < 2 ^ 31 /\ zlen (d_leadsig d) < 2 ^ 31 /\ zlen (d_param d) < 2 ^ 31.

Definition handle_of L name d : handle :=
  mkhandle (Some name) (d_version d) (d_type d) (d_comp d) (Some (hex_text (d_seq d)))
    (Some (d_src_nevr d)) (Some (match d_head d with HRpm r => rpm_get_nevr L r | HNevr nevr => nevr end))
    (d_size d) (Some (hex_text (d_md5 d))) (d_tcomp d) (match d_param d with [] => None | p => Some (hex_text p) end)
    (d_hlen d) (in_row (d_off d)) (Some (hex_text (d_leadsig d))) (d_fmtoff d) (in_row (d_int d)) (in_row (d_ext d))
    (d_extlen d) (d_intlen d) (zlen (in_row (d_off d))) (zlen (in_row (d_int d))) (zlen (in_row (d_ext d))).

Lemma to_drpm_short L file name d : read_deltarpm L file = Ok d -> short d -> deltarpm_to_drpm L name d = Ok (handle_of L name d).
Proof.
  intros Hr (H1 & H2 & H3). destruct (accepted_fits _ _ _ Hr) as (F1 & F2 & F3). pose proof (co_md5 _ (accepted_consistent _ _ _ Hr)) as H5.
  unfold deltarpm_to_drpm. rewrite !hex_small by auto. cbn [bind]. rewrite <- H5, dump_exact. cbn [bind].
  assert (Ep : (if 0 <? zlen (d_param d) then Ok (Some (hex_text (d_param d))) else Ok None)
               = Ok (match d_param d with [] => None | p => Some (hex_text p) end)).
  { destruct (d_param d) as [|x p]; [reflexivity|]. rewrite zlen_cons. pose proof (zlen_nonneg p). replace (0 <? 1 + zlen p) with true by lia. reflexivity. }
  rewrite Ep. cbn [bind].
  rewrite !array_fits by auto. cbn [bind]. destruct F1 as [-> _], F2 as [-> _], F3 as [-> _]. reflexivity.
Qed.

Lemma to_drpm_long L file name d : read_deltarpm L file = Ok d -> ~ short d -> deltarpm_to_drpm L name d = Ub OobWrite.
Proof.
  intros Hr H. pose proof (co_md5 _ (accepted_consistent _ _ _ Hr)) as H5. unfold deltarpm_to_drpm.
  destruct (Z.lt_ge_cases (zlen (d_seq d)) (2 ^ 31)) as [H1|H1]; [rewrite hex_small by auto|rewrite hex_large by auto; reflexivity].
  cbn [bind]. rewrite <- H5, dump_exact. cbn [bind].
  destruct (Z.lt_ge_cases (zlen (d_leadsig d)) (2 ^ 31)) as [H2|H2]; [rewrite hex_small by auto|rewrite hex_large by auto; reflexivity].
  cbn [bind].
  destruct (Z.lt_ge_cases (zlen (d_param d)) (2 ^ 31)) as [H3|H3]; [exfalso; apply H; repeat split; auto|].
  replace (0 <? zlen (d_param d)) with true by lia. rewrite hex_large by auto. reflexivity.
Qed.

Lemma read_exact L open name file d : open name = Some file -> read_deltarpm L file = Ok d ->
  (short d -> is_ok (drpm_read L open true (Some name))) /\ (~ short d -> drpm_read L open true (Some name) = Ub OobWrite).
Proof.
  intros Ho Hr. unfold drpm_read. rewrite Ho, Hr. cbn [negb bind]. split; intros H.
  - rewrite (to_drpm_short _ _ _ _ Hr H). eexists. reflexivity.
  - rewrite (to_drpm_long _ _ _ _ Hr H). reflexivity.
Qed.

Lemma read_handle L open name file d h : open name = Some file -> read_deltarpm L file = Ok d ->
  drpm_read L open true (Some name) = Ok h -> h = handle_of L name d.
Proof.
  unfold drpm_read. intros Ho Hr. rewrite Ho, Hr. cbn [negb bind]. intros H.
  assert (short d).
  { unfold short. destruct (Z.lt_ge_cases (zlen (d_seq d)) (2 ^ 31)); destruct (Z.lt_ge_cases (zlen (d_leadsig d)) (2 ^ 31));
    destruct (Z.lt_ge_cases (zlen (d_param d)) (2 ^ 31)); auto; exfalso; rewrite (to_drpm_long _ _ name _ Hr) in H; try discriminate; unfold short; lia. }
  rewrite (to_drpm_short _ _ _ _ Hr) in H by auto. injection H as <-. reflexivity.
Qed.

(** ** Getters *)
Lemma copy_exact : forall n i l, 0 <= i -> i + Z.of_nat n = zlen l -> copy_elems n i l = Ok (skipn (Z.to_nat i) l).
Proof.
  induction n as [|n IH]; intros i l Hi H; cbn [copy_elems].
  - rewrite skipn_all2 by (unfold zlen in H; lia). reflexivity.
  - unfold rd. replace (i <? 0) with false by lia. destruct (nth_error l (Z.to_nat i)) as [v|] eqn:E; [|apply nth_error_None in E; unfold zlen in H; lia].
    cbn [bind]. rewrite IH by lia. cbn [bind]. f_equal.
    replace (Z.to_nat (i + 1)) with (S (Z.to_nat i)) by lia. clear - E. revert l E.
    induction (Z.to_nat i); intros [|x l] E; try discriminate; cbn in E |- *; [congruence|]. apply IHn. auto.
Qed.

Definition number (v : option value) : res Z := match v with Some (Number n) => Ok n | _ => Err EArgs end.
Definition text (v : option value) : res (option (list Z)) := match v with Some (Text s) => Ok s | _ => Err EArgs end.
Definition array (v : option value) : res (option (list Z) * Z) :=
  match v with Some (Array []) => Ok (None, 0) | Some (Array l) => Ok (Some l, zlen l) | _ => Err EArgs end.

Lemma tag_cases (P : Z -> Prop) : (forall tag, In tag [0;1;2;3;4;5;6;7;8;9;10;11;12;13;14;15;16;17;18] -> P tag) ->
  (forall tag, ~ 0 <= tag <= 18 -> P tag) -> forall tag, P tag.
Proof.
  intros A B tag. destruct (Z_le_dec 0 tag); [|apply B; lia]. destruct (Z_le_dec tag 18); [|apply B; lia]. apply A.
  assert (E : In tag (map Z.of_nat (seq 0 19))) by (apply in_map_iff; exists (Z.to_nat tag); split; [lia|apply in_seq; lia]). exact E.
Qed.

Lemma tagged_other L name d tag : ~ 0 <= tag <= 18 -> tagged L name d tag = None.
Proof.
  intros H. destruct tag as [|p|p]; [lia| |reflexivity].
  do 5 (destruct p; try reflexivity; try lia).
Qed.

Ltac tags := unfold TAG_FILENAME, TAG_VERSION, TAG_TYPE, TAG_COMP, TAG_SEQUENCE, TAG_SRCNEVR, TAG_TGTNEVR, TAG_TGTSIZE, TAG_TGTMD5, TAG_TGTCOMP,
  TAG_TGTCOMPPARAM, TAG_TGTHEADERLEN, TAG_ADJELEMS, TAG_TGTLEAD, TAG_PAYLOADFMTOFF, TAG_INTCOPIES, TAG_EXTCOPIES, TAG_EXTDATALEN, TAG_INTDATALEN.
Ltac no_tag := repeat match goal with |- context [?a =? ?b] => replace (a =? b) with false by lia end.

Lemma ullong_exact L name d tag : drpm_get_ullong (Some (handle_of L name d)) tag true = number (tagged L name d tag).
Proof.
  revert tag. apply tag_cases; intros tag H.
  - cbn in H. repeat (destruct H as [<-|H]; [reflexivity|]). destruct H.
  - rewrite tagged_other by auto. unfold drpm_get_ullong. tags. cbn [negb]. no_tag. reflexivity.
Qed.

Lemma ulong_exact L name d tag : drpm_get_ulong (Some (handle_of L name d)) tag true =
  if in_dec Z.eq_dec tag [1; 2; 3; 7; 9; 11; 14] then number (tagged L name d tag) else Err EArgs.
Proof.
  revert tag. apply tag_cases; intros tag H.
  - cbn in H. repeat (destruct H as [<-|H]; [reflexivity|]). destruct H.
  - destruct (in_dec _ _ _) as [I|I]; [cbn in I; lia|]. unfold drpm_get_ulong. tags. cbn [negb]. no_tag. reflexivity.
Qed.

Lemma uint_exact L name d tag : drpm_get_uint (Some (handle_of L name d)) tag true =
  if in_dec Z.eq_dec tag [1; 2; 3; 7; 9] then number (tagged L name d tag) else Err EArgs.
Proof.
  revert tag. apply tag_cases; intros tag H.
  - cbn in H. repeat (destruct H as [<-|H]; [reflexivity|]). destruct H.
  - destruct (in_dec _ _ _) as [I|I]; [cbn in I; lia|]. unfold drpm_get_uint. tags. cbn [negb]. no_tag. reflexivity.
Qed.

Lemma string_exact L name d tag : drpm_get_string (Some (handle_of L name d)) tag true = text (tagged L name d tag).
Proof.
  revert tag. apply tag_cases; intros tag H.
  - cbn in H. repeat (destruct H as [<-|H]; [reflexivity|]). destruct H.
  - rewrite tagged_other by auto. unfold drpm_get_string. tags. cbn [negb]. no_tag. reflexivity.
Qed.

Lemma array_step l : (if zlen l =? 0 then Ok (None, zlen l) else copy <- copy_elems (Z.to_nat (zlen l)) 0 l ;; Ok (Some copy, zlen l))%res
  = array (Some (Array l)).
Proof.
  pose proof (zlen_nonneg l). rewrite copy_exact by lia. destruct l as [|x l]; [reflexivity|].
  rewrite zlen_cons. pose proof (zlen_nonneg l). replace (1 + zlen l =? 0) with false by lia. cbn [bind array]. rewrite zlen_cons. reflexivity.
Qed.

Lemma array_exact L name d tag : drpm_get_ulong_array (Some (handle_of L name d)) tag true = array (tagged L name d tag).
Proof.
  revert tag. apply tag_cases; intros tag H.
  - cbn in H. repeat (destruct H as [<-|H]; [first [reflexivity|apply array_step]|]). destruct H.
  - rewrite tagged_other by auto. unfold drpm_get_ulong_array. tags. cbn [negb]. no_tag. reflexivity.
Qed.

Lemma getters L open name file d h : open name = Some file -> read_deltarpm L file = Ok d ->
  drpm_read L open true (Some name) = Ok h -> forall tag,
  (drpm_get_ullong (Some h) tag true = match tagged L name d tag with Some (Number n) => Ok n | _ => Err EArgs end) /\
  (drpm_get_ulong (Some h) tag true = match tagged L name d tag with
     | Some (Number n) => if (tag =? 17) || (tag =? 18) then Err EArgs else Ok n | _ => Err EArgs end) /\
  (narrow tag -> drpm_get_uint (Some h) tag true = drpm_get_ullong (Some h) tag true) /\
  (~ narrow tag -> drpm_get_uint (Some h) tag true = Err EArgs) /\
  (drpm_get_string (Some h) tag true = match tagged L name d tag with Some (Text s) => Ok s | _ => Err EArgs end) /\
  (drpm_get_ulong_array (Some h) tag true = match tagged L name d tag with
     | Some (Array []) => Ok (None, 0) | Some (Array l) => Ok (Some l, zlen l) | _ => Err EArgs end).
Proof.
  intros Ho Hr Hh tag. rewrite (read_handle _ _ _ _ _ _ Ho Hr Hh).
  rewrite ullong_exact, ulong_exact, uint_exact, string_exact, array_exact. split; [reflexivity|]. split.
  { revert tag. apply tag_cases; intros tag H.
    - cbn in H. repeat (destruct H as [<-|H]; [reflexivity|]). destruct H.
    - rewrite tagged_other by auto. destruct (in_dec _ _ _); reflexivity. }
  split; [|split; [|auto]].
  - intros H. destruct (in_dec _ _ _); [reflexivity|contradiction].
  - intros H. destruct (in_dec _ _ _); [contradiction|reflexivity].
Qed.
