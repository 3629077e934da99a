(** * The copy instructions denote the diff copies *)
From Verif Require Import Base BaseLemmas Sat Search Diff DiffProofs SpecDelta.

Fixpoint ext_end (off : Z) (exts : list (Z * Z)) : Z :=
  match exts with
  | [] => off
  | (d, l) :: r => ext_end (off + s32 d + l) r
  end.

Lemma extents_app off a b : extents off (a ++ b) = extents off a ++ extents (ext_end off a) b.
Proof.
  revert off; induction a as [|[d l] a IH]; intros off; cbn; auto. f_equal. apply IH.
Qed.

Lemma ext_end_app off a b : ext_end off (a ++ b) = ext_end (ext_end off a) b.
Proof. revert off; induction a as [|[d l] a IH]; intros off; cbn; auto. Qed.

Lemma zlen_extents off exts : zlen (extents off exts) = zlen exts.
Proof.
  revert off; induction exts as [|[d l] r IH]; intros off; cbn [extents]; auto.
  rewrite !zlen_cons, IH. reflexivity.
Qed.

Lemma s32_u32 x : - 2 ^ 31 <= x < 2 ^ 31 -> s32 (u32 x) = x.
Proof.
  intros H. unfold s32, u32. rewrite Z.mod_mod by lia.
  destruct (Z.ltb_spec (x mod 2 ^ 32) (2 ^ 31)); Z.div_mod_to_equations; lia.
Qed.

Lemma s32_small x : 0 <= x < 2 ^ 31 -> s32 x = x.
Proof.
  intros H. unfold s32, u32. rewrite Z.mod_small by lia.
  destruct (Z.ltb_spec x (2 ^ 31)); lia.
Qed.

(** Well-formed external copy as stored in the C array: 32-bit patterns, never
    INT32_MIN as offset, length below 2^31. *)
Definition ext_wf (c : Z * Z) : Prop :=
  0 <= fst c < 2 ^ 32 /\ fst c <> 2 ^ 31 /\ 0 <= snd c < 2 ^ 31.

Lemma u32_ext_wf x : - 2 ^ 31 < x < 2 ^ 31 -> 0 <= u32 x < 2 ^ 32 /\ u32 x <> 2 ^ 31.
Proof.
  intros H. unfold u32. split; [apply Z.mod_pos_bound; lia|].
  Z.div_mod_to_equations; lia.
Qed.

Definition fill_ok (lo hi : Z) (e : Z * Z) : Prop :=
  snd e = 0 /\ lo <= fst e <= hi /\ 0 < fst e.

Lemma ext_loop_sat fuel old_off old_len offset :
  0 <= old_off < 2 ^ 63 -> 0 <= offset < 2 ^ 63 -> 0 < old_len < 2 ^ 31 ->
  old_off + old_len < 2 ^ 63 ->
  Z.abs (old_off - offset) / INT32_MAX + 1 <= Z.of_nat fuel ->
  sat (fun '(r, o) =>
         o = old_off + old_len /\ ext_end offset r = o /\ Forall ext_wf r /\
         exists fill, extents offset r = fill ++ [(old_off, old_len)] /\
                      Forall (fill_ok (Z.min offset old_off) (Z.max offset old_off)) fill /\
                      zlen fill <= Z.abs (old_off - offset) / INT32_MAX)
      (ext_loop fuel old_off old_len offset).
Proof.
  revert offset; induction fuel as [|f IH]; intros offset Ho Hof Hl Hs Hf.
  { pose proof (Z.div_pos (Z.abs (old_off - offset)) INT32_MAX). unfold INT32_MAX in *. lia. }
  cbn [ext_loop]. unfold TWO31, INT32_MAX in *.
  destruct (Z.ltb_spec offset old_off) as [Hlt|Hge]; cbn [andb].
  - rewrite u64_small by lia.
    destruct (Z.leb_spec (2 ^ 31) (old_off - offset)) as [Hbig|Hsm].
    + rewrite u64_small by lia.
      eapply sat_bind.
      { apply IH; lia. }
      intros [r o] (-> & He & Hw & fill & Hx & Hfl & Hzl).
      cbn [sat]. split; [reflexivity|].
      cbn [ext_end extents]. rewrite s32_small by lia. rewrite Z.add_0_r.
      split; [exact He|]. split.
      { constructor; auto. unfold ext_wf; cbn; lia. }
      exists ((offset + (2 ^ 31 - 1), 0) :: fill). rewrite Hx. split; [reflexivity|]. split.
      * constructor; [unfold fill_ok; cbn; lia|].
        eapply Forall_impl; [|exact Hfl]. intros [p l]. unfold fill_ok; cbn. lia.
      * rewrite zlen_cons. Z.div_mod_to_equations; lia.
    + destruct (Z.ltb_spec old_off offset); [lia|]. cbn [andb].
      destruct (Z.leb_spec (2 ^ 31) old_len); [lia|].
      cbn [sat]. rewrite u64_small by lia. split; [reflexivity|].
      cbn [ext_end extents]. rewrite s32_u32 by lia.
      replace (offset + (old_off - offset)) with old_off by lia. split; [reflexivity|].
      split.
      { constructor; auto. pose proof (u32_ext_wf (old_off - offset)). unfold ext_wf; cbn. lia. }
      exists []. split; [reflexivity|]. split; [constructor|].
      rewrite zlen_nil. apply Z.div_pos; lia.
  - destruct (Z.ltb_spec old_off offset) as [Hgt|Heq]; cbn [andb].
    + rewrite u64_small by lia.
      destruct (Z.leb_spec (2 ^ 31) (offset - old_off)) as [Hbig|Hsm].
      * rewrite u64_small by lia.
        eapply sat_bind.
        { apply IH; lia. }
        intros [r o] (-> & He & Hw & fill & Hx & Hfl & Hzl).
        cbn [sat]. split; [reflexivity|].
        cbn [ext_end extents]. rewrite s32_u32 by lia. rewrite Z.add_0_r.
        replace (offset + - (2 ^ 31 - 1)) with (offset - (2 ^ 31 - 1)) by lia.
        split; [exact He|]. split.
        { constructor; auto. pose proof (u32_ext_wf (- (2 ^ 31 - 1))). unfold ext_wf; cbn [fst snd]. lia. }
        exists ((offset - (2 ^ 31 - 1), 0) :: fill). rewrite Hx. split; [reflexivity|]. split.
        -- constructor; [unfold fill_ok; cbn; lia|].
           eapply Forall_impl; [|exact Hfl]. intros [p l]. unfold fill_ok; cbn. lia.
        -- rewrite zlen_cons. Z.div_mod_to_equations; lia.
      * destruct (Z.leb_spec (2 ^ 31) old_len); [lia|].
        cbn [sat]. rewrite u64_small by lia. split; [reflexivity|].
        cbn [ext_end extents]. rewrite s32_u32 by lia.
        replace (offset + (old_off - offset)) with old_off by lia. split; [reflexivity|].
        split.
        { constructor; auto. pose proof (u32_ext_wf (old_off - offset)). unfold ext_wf; cbn. lia. }
        exists []. split; [reflexivity|]. split; [constructor|].
        rewrite zlen_nil. apply Z.div_pos; lia.
    + destruct (Z.leb_spec (2 ^ 31) old_len); [lia|].
      cbn [sat]. rewrite u64_small by lia. split; [reflexivity|].
      cbn [ext_end extents]. rewrite s32_u32 by lia.
      replace (offset + (old_off - offset)) with old_off by lia. split; [reflexivity|].
      split.
      { constructor; auto. pose proof (u32_ext_wf (old_off - offset)). unfold ext_wf; cbn. lia. }
      exists []. split; [reflexivity|]. split; [constructor|].
      rewrite zlen_nil. apply Z.div_pos; lia.
Qed.

(** Internal copies of one new extent: the lengths add up, the first carries the
    pending count. *)
Lemma int_loop_sat fuel cnt n :
  0 < n -> 0 <= cnt < 2 ^ 32 -> n / INT32_MAX + 1 <= Z.of_nat fuel ->
  sat (fun r => exists l r', r = (cnt, l) :: r' /\ Forall (fun c => fst c = 0) r' /\
                Forall (fun c => 0 < snd c < 2 ^ 31) r /\
                fold_right Z.add 0 (map snd r) = n)
      (int_loop fuel cnt n).
Proof.
  revert cnt n; induction fuel as [|f IH]; intros cnt n Hn Hc Hf.
  { pose proof (Z.div_pos n INT32_MAX). unfold INT32_MAX in *. lia. }
  cbn [int_loop]. unfold TWO31, INT32_MAX in *.
  destruct (Z.leb_spec (2 ^ 31) n).
  - eapply sat_bind.
    { apply IH; lia. }
    cbv beta. intros r (l & r' & -> & H1 & H2 & H3). cbn [sat].
    rewrite u32_small by lia.
    exists (2 ^ 31 - 1), ((0, l) :: r'). split; [reflexivity|]. split; [constructor; auto|].
    split; [constructor; auto; cbn; lia|].
    cbn [map fold_right snd] in *. lia.
  - cbn [sat]. rewrite u32_small by lia. exists n, []. split; [reflexivity|].
    split; [constructor|]. split; [constructor; [cbn; lia|constructor]|]. cbn. lia.
Qed.

Lemma adds_add_bytes xs ds : adds xs ds = add_bytes xs ds.
Proof.
  revert ds; induction xs as [|x xs IH]; destruct ds; cbn; auto.
Qed.

Lemma take_app {A} (a b : list A) n : n = zlen a -> take n (a ++ b) = Some (a, b).
Proof.
  intros ->. unfold take. rewrite zlen_app. pose proof (zlen_nonneg a). pose proof (zlen_nonneg b).
  destruct (_ && _) eqn:E; [|lia].
  unfold zlen. rewrite Nat2Z.id.
  rewrite firstn_app, Nat.sub_diag, firstn_all, firstn_O, app_nil_r.
  rewrite skipn_app, Nat.sub_diag, skipn_all, skipn_O. reflexivity.
Qed.

Lemma take_0 {A} (l : list A) : take 0 l = Some ([], l).
Proof. apply (take_app [] l). reflexivity. Qed.

Lemma copy_extents_app old add e1 e2 out1 add1 :
  copy_extents old add e1 = Some (out1, add1) ->
  copy_extents old add (e1 ++ e2) =
  match copy_extents old add1 e2 with
  | Some (out2, add2) => Some (out1 ++ out2, add2)
  | None => None
  end.
Proof.
  revert add out1; induction e1 as [|[o l] e1 IH]; intros add out1 H; cbn [copy_extents app] in *.
  - injection H as <- <-. destruct (copy_extents old add e2) as [[? ?]|]; reflexivity.
  - destruct (_ && _); [|discriminate]. destruct add as [ds|].
    + destruct (take l ds) as [[d ds']|]; [|discriminate].
      destruct (copy_extents old (Some ds') e1) as [[o1 a1]|] eqn:E; [|discriminate].
      injection H as <- <-. rewrite (IH _ _ E).
      destruct (copy_extents old a1 e2) as [[? ?]|]; [|reflexivity]. now rewrite app_assoc.
    + destruct (copy_extents old None e1) as [[o1 a1]|] eqn:E; [|discriminate].
      injection H as <- <-. rewrite (IH _ _ E).
      destruct (copy_extents old a1 e2) as [[? ?]|]; [|reflexivity]. now rewrite app_assoc.
Qed.

Lemma copy_fill old add lo hi fill :
  Forall (fill_ok lo hi) fill -> hi <= zlen old -> 0 <= lo ->
  copy_extents old add fill = Some ([], add).
Proof.
  intros H Hhi Hlo. revert add. induction fill as [|[o l] fill IH]; intros add; [reflexivity|].
  inversion H as [|? ? [H1 [H2 H3]] Hr]; subst. cbn in H1, H2, H3. subst l.
  cbn [copy_extents]. destruct (_ && _) eqn:E; [|lia].
  destruct add as [ds|].
  - rewrite take_0. rewrite IH by auto. now rewrite slice_nil_len by lia.
  - rewrite IH by auto. now rewrite slice_nil_len by lia.
Qed.

(** Consuming the internal copies of one extent. *)
Lemma patch_ints old add r ints es data d :
  Forall (fun c => fst c = 0) r -> Forall (fun c => 0 < snd c < 2 ^ 31) r ->
  zlen d = fold_right Z.add 0 (map snd r) ->
  patch old add (r ++ ints) es (d ++ data) =
  match patch old add ints es data with
  | Some rest => Some (d ++ rest)
  | None => None
  end.
Proof.
  revert d; induction r as [|[n l] r IH]; intros d H0 Hp Hd; cbn [map fold_right] in Hd.
  - apply zlen_zero_nil in Hd as ->. cbn [app]. destruct (patch old add ints es data); reflexivity.
  - inversion H0 as [|? ? E0 H0']; subst. inversion Hp as [|? ? E1 Hp']; subst.
    cbn [fst snd] in *. subst n. cbn [app patch]. rewrite take_0. cbn [copy_extents].
    assert (Hle : 0 <= fold_right Z.add 0 (map snd r)).
    { clear -Hp'. induction Hp' as [|[a b] r Hx Hr IH]; cbn [map fold_right snd] in *; lia. }
    rewrite <- (slice_all d) at 1. rewrite Hd. rewrite slice_split by lia.
    rewrite <- app_assoc. rewrite take_app by (rewrite zlen_slice; lia).
    rewrite IH; auto; [|rewrite zlen_slice; lia].
    destruct (patch old add ints es data); [|reflexivity].
    cbn [app]. rewrite app_assoc. rewrite Z.add_0_l. 
    rewrite <- slice_split by lia. rewrite <- Hd, slice_all. reflexivity.
Qed.

Section Copies.
  Context (old new : list Z) (addblk : bool).
  Context (Hold : zlen old < 2 ^ 63) (Hnew : zlen new < 2 ^ 63) (Hbytes : bytes new).

  (** The internal data of the diff copies. *)
  Fixpoint dcs_data (dcs : list diff_copy) : list Z :=
    match dcs with
    | [] => []
    | d :: r => slice new (dc_new_off d) (dc_new_len d) ++ dcs_data r
    end.

  Definition dcs_addo (np : Z) (dcs : list diff_copy) : option (list Z) :=
    if addblk then Some (dcs_add old new np dcs) else None.

  Definition short_copies (dcs : list diff_copy) : Prop :=
    Forall (fun d => dc_old_len d < 2 ^ 31) dcs.

  Lemma dcs_ok_le np dcs : dcs_ok old new addblk np dcs -> np <= zlen new.
  Proof.
    revert np; induction dcs as [|d r IH]; intros np; cbn [dcs_ok]; [lia|].
    intros (?&?&?&?&?&?&?&?). lia.
  Qed.

  (** One diff copy, seen by [copy_extents]. *)
  Lemma copy_one np d r fill lo hi :
    dcs_ok old new addblk np (d :: r) -> 0 <= np ->
    Forall (fill_ok lo hi) fill -> hi <= zlen old -> 0 <= lo ->
    copy_extents old (dcs_addo np (d :: r)) (fill ++ [(dc_old_off d, dc_old_len d)]) =
    Some (slice new np (dc_old_len d), dcs_addo (np + dc_old_len d + dc_new_len d) r).
  Proof.
    intros (D1 & D2 & D3 & D4 & D5 & D6 & D7 & D8) Hnp Hf Hhi Hlo.
    rewrite (copy_extents_app _ _ _ _ _ _ (copy_fill _ _ _ _ _ Hf Hhi Hlo)).
    cbn [copy_extents]. destruct (_ && _) eqn:E; [|lia].
    unfold dcs_addo. destruct addblk.
    - cbn [dcs_add].
      assert (Hlen : zlen (subs (slice new np (dc_old_len d)) (slice old (dc_old_off d) (dc_old_len d)))
                     = dc_old_len d).
      { unfold zlen. rewrite length_subs; [|apply zlen_eq; rewrite !zlen_slice; lia].
        change (zlen (slice new np (dc_old_len d)) = dc_old_len d). apply zlen_slice; lia. }
      rewrite take_app by lia. rewrite <- adds_add_bytes, adds_subs, app_nil_r; auto.
      + apply bytes_slice; auto.
      + apply zlen_eq. rewrite !zlen_slice; lia.
    - rewrite app_nil_r. rewrite D7; auto.
  Qed.

  Lemma patch_loop_sat dcs : forall np offset cnt pe out0 add0,
    dcs_ok old new addblk np dcs -> short_copies dcs ->
    0 <= np -> 0 <= offset <= zlen old ->
    zlen pe = cnt ->
    copy_extents old add0 pe = Some (out0, dcs_addo np dcs) ->
    sat (fun '(exts, ints) =>
           cnt + zlen exts < 2 ^ 32 ->
           Forall ext_wf exts /\
           patch old add0 ints (pe ++ extents offset exts) (dcs_data dcs)
           = Some (out0 ++ slice new np (zlen new - np)))
        (diff_copies_loop dcs offset cnt).
  Proof.
    induction dcs as [|d r IH]; intros np offset cnt pe out0 add0 Hok Hsh Hnp Hoff Hcnt Hce.
    - cbn [diff_copies_loop sat]. intros Hlt. rewrite zlen_nil in Hlt. rewrite Z.add_0_r in Hlt.
      split; [constructor|]. pose proof (zlen_nonneg pe). rewrite u32_small by lia.
      cbn [dcs_ok] in Hok. subst np. rewrite Z.sub_diag, slice_nil_len by lia.
      cbn [extents dcs_data]. rewrite !app_nil_r.
      assert (Hfin : dcs_addo (zlen new) [] = None \/ dcs_addo (zlen new) [] = Some []).
      { unfold dcs_addo. destruct addblk; auto. }
      destruct (Z.ltb_spec 0 cnt).
      + cbn [patch]. rewrite <- (app_nil_r pe). rewrite take_app by lia. rewrite Hce, take_0.
        destruct Hfin as [->| ->]; cbn; now rewrite app_nil_r.
      + destruct pe; [|unfold zlen in Hcnt; cbn in Hcnt; lia].
        cbn in Hce. injection Hce as <- ->. cbn [patch].
        destruct Hfin as [->| ->]; reflexivity.
    - pose proof Hok as (D1 & D2 & D3 & D4 & D5 & D6 & D7 & D8).
      inversion Hsh as [|? ? S1 S2]; subst.
      cbn [diff_copies_loop].
      (* external copies of this diff copy *)
      eapply (sat_bind (fun '(ex, o) =>
                0 <= o <= zlen old /\ ext_end offset ex = o /\ Forall ext_wf ex /\
                copy_extents old (dcs_addo np (d :: r)) (extents offset ex)
                = Some (slice new np (dc_old_len d),
                        dcs_addo (np + dc_old_len d + dc_new_len d) r))).
      { destruct (Z.eqb_spec (dc_old_len d) 0) as [E|E].
        - cbn [sat]. split; [lia|]. split; [reflexivity|]. split; [constructor|].
          cbn [extents copy_extents]. rewrite E. rewrite slice_nil_len by lia.
          unfold dcs_addo. destruct addblk; [|reflexivity].
          cbn [dcs_add]. rewrite E. rewrite !slice_nil_len by lia. reflexivity.
        - eapply sat_mono.
          + apply ext_loop_sat; try lia. unfold ext_fuel, INT32_MAX.
            rewrite Z2Nat.id by (Z.div_mod_to_equations; lia).
            Z.div_mod_to_equations; lia.
          + intros [ex o] (-> & He & Hw & fill & Hx & Hfl & _).
            split; [lia|]. split; [exact He|]. split; [exact Hw|].
            rewrite Hx. eapply copy_one; eauto; lia. }
      intros [ex o] (O1 & O2 & O3 & O4). cbv zeta.
      set (np' := np + dc_old_len d + dc_new_len d) in *.
      assert (Hce' : copy_extents old add0 (pe ++ extents offset ex)
                     = Some (out0 ++ slice new np (dc_old_len d), dcs_addo np' r)).
      { rewrite (copy_extents_app _ _ _ _ _ _ Hce), O4. reflexivity. }
      assert (Hzl : zlen (pe ++ extents offset ex) = zlen pe + zlen ex)
        by (rewrite zlen_app, zlen_extents; reflexivity).
      pose proof (dcs_ok_le _ _ D8) as Hle.
      assert (Hsplit : slice new np (zlen new - np) =
                slice new np (dc_old_len d) ++ slice new (dc_new_off d) (dc_new_len d)
                ++ slice new np' (zlen new - np')).
      { replace (zlen new - np) with (dc_old_len d + (dc_new_len d + (zlen new - np')))
          by (unfold np'; lia).
        rewrite slice_split by lia. f_equal. rewrite slice_split by lia.
        rewrite D4. f_equal. }
      destruct (Z.eqb_spec (dc_new_len d) 0) as [E|E].
      + cbn [bind]. eapply sat_bind.
        { eapply (IH np' o (zlen pe + zlen ex)); eauto. unfold np'; lia. }
        intros [exts ints] H. cbn [sat app]. rewrite zlen_app. intros Hlt.
        destruct (H ltac:(lia)) as [W P]. split; [apply Forall_app; auto|].
        rewrite extents_app, O2, app_assoc. cbn [dcs_data]. rewrite E.
        rewrite (slice_nil_len new (dc_new_off d)) by lia. cbn [app]. rewrite P.
        rewrite Hsplit, E. rewrite (slice_nil_len new (dc_new_off d)) by lia.
        cbn [app]. now rewrite app_assoc.
      + destruct (Z.lt_ge_cases (zlen pe + zlen ex) (2 ^ 32)) as [Hc|Hc].
        * eapply (sat_bind (fun '(is, c) => c = 0 /\ exists l r', is = (zlen pe + zlen ex, l) :: r' /\
                     Forall (fun c => fst c = 0) r' /\ Forall (fun c => 0 < snd c < 2 ^ 31) is /\
                     fold_right Z.add 0 (map snd is) = dc_new_len d)).
          { eapply sat_bind.
            - apply int_loop_sat; [lia| |].
              + pose proof (zlen_nonneg pe). pose proof (zlen_nonneg ex). lia.
              + unfold int_fuel, INT32_MAX. rewrite Z2Nat.id by (Z.div_mod_to_equations; lia). lia.
            - cbv beta. intros is His. cbn [sat]. split; auto. }
          intros [is c] (-> & l & r' & -> & I1 & I2 & I3).
          eapply sat_bind.
          { eapply (IH np' o 0 []); eauto. unfold np'; lia. reflexivity. }
          intros [exts ints] H. cbn [sat]. rewrite zlen_app. intros Hlt.
          destruct H as [W P]. { pose proof (zlen_nonneg pe). pose proof (zlen_nonneg ex). lia. }
          split; [apply Forall_app; auto|].
          rewrite extents_app, O2, app_assoc. cbn [dcs_data].
          cbn [app patch]. rewrite take_app by lia. rewrite Hce'.
          cbn [map fold_right snd] in I3.
          inversion I2 as [|? ? I4 I5]; subst. cbn [snd] in I4.
          assert (Hr' : 0 <= fold_right Z.add 0 (map snd r')).
          { clear -I5. induction I5 as [|[a b] q Hx Hr IHq]; cbn [map fold_right snd] in *; lia. }
          rewrite <- I3 at 1. rewrite slice_split by lia.
          rewrite <- app_assoc. rewrite take_app by (rewrite zlen_slice; lia).
          rewrite patch_ints; auto; [|rewrite zlen_slice; lia].
          cbn [app] in P. rewrite P. rewrite Hsplit. rewrite <- I3 at 1.
          rewrite (slice_split new (dc_new_off d) l) by lia.
          f_equal. rewrite <- !app_assoc. reflexivity.
        * (* too many copies: only the outcome matters *)
          assert (Hany : exists is, int_loop (int_fuel (dc_new_len d)) (zlen pe + zlen ex) (dc_new_len d) = Ok is).
          { assert (G : forall fuel c n, 0 < n -> n / INT32_MAX + 1 <= Z.of_nat fuel ->
                         exists is, int_loop fuel c n = Ok is).
            { clear. unfold INT32_MAX. induction fuel as [|f IHf]; intros c n Hn Hf.
              - pose proof (Z.div_pos n (2 ^ 31 - 1)). lia.
              - cbn [int_loop]. unfold TWO31, INT32_MAX. destruct (Z.leb_spec (2 ^ 31) n); [|eauto].
                destruct (IHf 0 (n - (2 ^ 31 - 1))) as [is ->]; [lia| |cbn; eauto].
                Z.div_mod_to_equations; lia. }
            apply G; [lia|]. unfold int_fuel, INT32_MAX.
            rewrite Z2Nat.id by (Z.div_mod_to_equations; lia). lia. }
          destruct Hany as [is ->]. cbn [bind].
          eapply sat_bind.
          { eapply (IH np' o 0 []); eauto. unfold np'; lia. reflexivity. }
          intros [exts ints] H. cbn [sat]. rewrite zlen_app.
          pose proof (zlen_nonneg exts). lia.
  Qed.

  (** Number of external copies when all offsets fit in 31 bits. *)
  Lemma ext_count_sat dcs : zlen old < 2 ^ 31 -> forall np offset cnt,
    dcs_ok old new addblk np dcs -> short_copies dcs ->
    0 <= np -> 0 <= offset <= zlen old ->
    sat (fun '(exts, ints) => zlen exts <= 2 * (zlen new - np))
        (diff_copies_loop dcs offset cnt).
  Proof.
    intros Hsmall. induction dcs as [|d r IH]; intros np offset cnt Hok Hsh Hnp Hoff.
    - cbn [diff_copies_loop sat]. cbn [dcs_ok] in Hok. rewrite zlen_nil. lia.
    - pose proof Hok as (D1 & D2 & D3 & D4 & D5 & D6 & D7 & D8).
      inversion Hsh as [|? ? S1 S2]; subst.
      cbn [diff_copies_loop].
      eapply (sat_bind (fun '(ex, o) => 0 <= o <= zlen old /\ zlen ex <= 2 * dc_old_len d)).
      { destruct (Z.eqb_spec (dc_old_len d) 0) as [E|E].
        - cbn [sat]. rewrite E. cbn. lia.
        - eapply sat_mono.
          + apply ext_loop_sat; try lia. unfold ext_fuel, INT32_MAX.
            rewrite Z2Nat.id by (Z.div_mod_to_equations; lia).
            Z.div_mod_to_equations; lia.
          + intros [ex o] (-> & He & Hw & fill & Hx & Hfl & Hz).
            assert (Hl : zlen ex = zlen fill + 1)
              by (rewrite <- (zlen_extents offset ex), Hx, zlen_app; reflexivity).
            unfold INT32_MAX in Hz. split; lia. }
      intros [ex o] (O1 & O2). cbv zeta.
      eapply (sat_bind (fun _ => True)).
      { destruct (Z.eqb_spec (dc_new_len d) 0) as [E|E]; [exact I|].
        eapply (sat_bind (fun _ => True)); [|intros; exact I].
        assert (G : forall fuel c n, 0 < n -> n / INT32_MAX + 1 <= Z.of_nat fuel ->
                     sat (fun _ => True) (int_loop fuel c n)).
        { clear. unfold INT32_MAX. induction fuel as [|f IHf]; intros c n Hn Hf.
          - pose proof (Z.div_pos n (2 ^ 31 - 1)). lia.
          - cbn [int_loop]. unfold TWO31, INT32_MAX. destruct (Z.leb_spec (2 ^ 31) n); [|exact I].
            eapply sat_bind; [apply IHf|intros; exact I]; lia. }
        apply G; [lia|]. unfold int_fuel, INT32_MAX.
        rewrite Z2Nat.id by (Z.div_mod_to_equations; lia). lia. }
      intros [is c] _. eapply sat_bind.
      { apply (IH (np + dc_old_len d + dc_new_len d)); auto; lia. }
      intros [exts ints] H. cbn [sat]. rewrite zlen_app. lia.
  Qed.

  (** ** Internal data *)
  Lemma int_loop_lens fuel cnt n r :
    0 < n -> int_loop fuel cnt n = Ok r ->
    Forall (fun c => 0 < snd c < 2 ^ 31) r /\ fold_right Z.add 0 (map snd r) = n.
  Proof.
    revert cnt n r; induction fuel as [|f IH]; intros cnt n r Hn H; cbn [int_loop] in H; [discriminate|].
    unfold TWO31, INT32_MAX in *. destruct (Z.leb_spec (2 ^ 31) n).
    - apply bind_ok in H as (r' & H1 & H2). injection H2 as <-.
      apply IH in H1 as [H1 H2]; [|lia]. split.
      + constructor; auto. cbn; lia.
      + cbn [map fold_right snd]. lia.
    - injection H as <-. split; [constructor; [cbn; lia|constructor]|]. cbn. lia.
  Qed.

  Lemma next_left_skip pre dcs offset :
    Forall (fun d => dc_new_len d = 0) pre ->
    exists o, next_left (pre ++ dcs) 0 offset = next_left dcs 0 o /\
              (pre = [] -> o = offset).
  Proof.
    revert offset; induction pre as [|d pre IH]; intros offset H.
    - exists offset. auto.
    - inversion H as [|? ? H1 H2]; subst. cbn [app next_left Z.eqb]. rewrite H1.
      destruct (IH (dc_new_off d) H2) as (o & -> & _). exists o. split; auto. discriminate.
  Qed.

  (** Once the current extent is loaded, its internal copies read it piece by piece. *)
  Lemma int_run is dcs ints' o left D :
    Forall (fun c => 0 < snd c < 2 ^ 31) is ->
    fold_right Z.add 0 (map snd is) = left -> 0 <= o -> o + left <= zlen new ->
    sat (fun offs => int_data_of new offs ints' = Ok D /\ length offs = length ints')
        (int_array_loop dcs ints' (o + left) 0) ->
    sat (fun offs => int_data_of new offs (is ++ ints') = Ok (slice new o left ++ D) /\
                     length offs = length (is ++ ints'))
        (int_array_loop dcs (is ++ ints') o left).
  Proof.
    revert o left; induction is as [|[c l] is IH]; intros o left Hp Hs Ho Hle Hrest.
    - cbn [map fold_right] in Hs. subst left. rewrite Z.add_0_r in Hrest.
      cbn [app]. rewrite slice_nil_len by lia. exact Hrest.
    - inversion Hp as [|? ? H1 H2]; subst. cbn [map fold_right snd] in *.
      assert (Hnn : 0 <= fold_right Z.add 0 (map snd is)).
      { clear -H2. induction H2 as [|[a b] q Hx Hr IHq]; cbn [map fold_right snd] in *; lia. }
      cbn [app int_array_loop].
      destruct (Z.ltb_spec 0 l); [|lia].
      assert (Hnx : next_left dcs (l + fold_right Z.add 0 (map snd is)) o =
                    Ok (dcs, l + fold_right Z.add 0 (map snd is), o)).
      { unfold next_left. destruct dcs; destruct (Z.eqb_spec (l + fold_right Z.add 0 (map snd is)) 0); auto; lia. }
      rewrite Hnx. cbn [bind]. rewrite !u64_small by lia.
      replace (l + fold_right Z.add 0 (map snd is) - l) with (fold_right Z.add 0 (map snd is)) by lia.
      eapply sat_bind.
      { apply (IH (o + l)); auto; try lia.
        replace (o + l + fold_right Z.add 0 (map snd is))
          with (o + (l + fold_right Z.add 0 (map snd is))) by lia. exact Hrest. }
      cbv beta. intros offs [H3 H4]. cbn [sat int_data_of length].
      rewrite rd_range_in by lia. cbn [bind]. rewrite H3. cbn [bind].
      rewrite slice_split by lia. rewrite <- app_assoc. split; [reflexivity|lia].
  Qed.

  Lemma int_array_sat dcs : forall np offset cnt exts ints pre o,
    dcs_ok old new addblk np dcs -> 0 <= np ->
    diff_copies_loop dcs offset cnt = Ok (exts, ints) ->
    Forall (fun d => dc_new_len d = 0) pre -> 0 <= o <= zlen new ->
    sat (fun offs => int_data_of new offs ints = Ok (dcs_data dcs) /\ length offs = length ints)
        (int_array_loop (pre ++ dcs) ints o 0) /\
    fold_right Z.add 0 (map snd ints) = zlen (dcs_data dcs).
  Proof.
    induction dcs as [|d r IH]; intros np offset cnt exts ints pre o Hok Hnp H Hpre Ho.
    - cbn [diff_copies_loop] in H. injection H as <- <-. destruct (0 <? u32 cnt).
      + cbn. rewrite rd_range_in by lia. rewrite slice_nil_len by lia. auto.
      + cbn. auto.
    - pose proof Hok as (D1 & D2 & D3 & D4 & D5 & D6 & D7 & D8).
      cbn [diff_copies_loop] in H.
      apply bind_ok in H as ([ex o1] & _ & H).
      apply bind_ok in H as ([is c] & H1 & H).
      apply bind_ok in H as ([exts' ints'] & H2 & H). injection H as <- <-.
      destruct (Z.eqb_spec (dc_new_len d) 0) as [E|E].
      + injection H1 as <- <-. cbn [app dcs_data]. rewrite E. rewrite slice_nil_len by lia.
        cbn [app].
        replace (pre ++ d :: r) with ((pre ++ [d]) ++ r) by (rewrite <- app_assoc; reflexivity).
        eapply IH; [exact D8|lia|exact H2| |exact Ho].
        apply Forall_app. split; auto.
      + apply bind_ok in H1 as (is' & H3 & H4). injection H4 as <- <-.
        apply int_loop_lens in H3 as [L1 L2]; [|lia].
        destruct is' as [|[c0 l0] is'].
        { cbn in L2. lia. }
        cbn [app dcs_data].
        destruct (IH _ _ _ _ _ [] (dc_new_off d + dc_new_len d) D8 ltac:(lia) H2 ltac:(constructor) ltac:(lia))
          as [I1 I2].
        split.
        * pose proof L1 as L1'. inversion L1 as [|? ? L3 L4]; subst. cbn [snd] in L3.
          cbn [int_array_loop].
          destruct (Z.ltb_spec 0 l0); [|lia].
          destruct (next_left_skip pre (d :: r) o Hpre) as (o' & -> & _).
          cbn [next_left Z.eqb].
          assert (Hnx : next_left r (dc_new_len d) (dc_new_off d) = Ok (r, dc_new_len d, dc_new_off d)).
          { unfold next_left. destruct r; destruct (Z.eqb_spec (dc_new_len d) 0); auto; lia. }
          rewrite Hnx.
          pose proof (int_run ((c0, l0) :: is') r ints' (dc_new_off d) (dc_new_len d) (dcs_data r)
                        L1' L2 ltac:(lia) ltac:(lia) I1) as R.
          cbn [app int_array_loop] in R.
          destruct (Z.ltb_spec 0 l0); [|lia]. rewrite Hnx in R. exact R.
        * rewrite zlen_app, zlen_slice by lia. rewrite <- I2.
          change ((c0, l0) :: is' ++ ints') with (((c0, l0) :: is') ++ ints').
          rewrite map_app, fold_right_app. rewrite <- L2.
          generalize (fold_right Z.add 0 (map snd ints')). intros z.
          generalize (map snd ((c0, l0) :: is')). intros q.
          induction q as [|a q IHq]; cbn [fold_right]; lia.
  Qed.

  Lemma dcs_ok_short np dcs :
    zlen new < 2 ^ 31 -> 0 <= np -> dcs_ok old new addblk np dcs -> short_copies dcs.
  Proof.
    intros Hn. revert np. induction dcs as [|d r IH]; intros np Hnp H; [constructor|].
    destruct H as (D1 & D2 & D3 & D4 & D5 & D6 & D7 & D8). constructor; [lia|].
    apply (IH (np + dc_old_len d + dc_new_len d)); auto. lia.
  Qed.

  Lemma dcs_data_le dcs np : 0 <= np -> dcs_ok old new addblk np dcs ->
    zlen (dcs_data dcs) <= zlen new - np.
  Proof.
    revert np; induction dcs as [|d r IH]; intros np Hnp H.
    - cbn [dcs_ok] in H. cbn. lia.
    - destruct H as (D1 & D2 & D3 & D4 & D5 & D6 & D7 & D8). cbn [dcs_data].
      rewrite zlen_app, zlen_slice by lia.
      specialize (IH (np + dc_old_len d + dc_new_len d) ltac:(lia) D8). lia.
  Qed.
End Copies.

Lemma fold_left_right_add l a : fold_left Z.add l a = a + fold_right Z.add 0 l.
Proof.
  revert a; induction l as [|x l IH]; intros a; cbn [fold_left fold_right]; [lia|].
  rewrite IH. lia.
Qed.

(** What [make_diff] returns, against the specification. *)
Definition diff_correct (old new : list Z) (addblk : bool) (d : diff_result) : Prop :=
  exists data,
    int_data_of new (dr_int_off d) (dr_int d) = Ok data /\
    zlen data = dr_int_len d /\
    length (dr_int_off d) = length (dr_int d) /\
    patch_delta old (dr_ext d) (dr_int d) data (if addblk then Some (concat (dr_add d)) else None)
    = Some new.

Lemma make_diff_sat old new addblk :
  bytes new -> zlen old < 2 ^ 63 -> zlen new < 2 ^ 31 ->
  zlen new = 0 \/ HSIZE <= zlen new ->
  sat (fun d => zlen (dr_ext d) < 2 ^ 32 ->
                Forall ext_wf (dr_ext d) /\ diff_correct old new addblk d)
      (make_diff old new addblk).
Proof.
  intros Hb Ho Hn Hn16. unfold make_diff. pose proof (zlen_nonneg old). pose proof (zlen_nonneg new).
  eapply sat_bind; [apply make_diff_copies_sat; auto; lia|].
  intros [dcs ads] [Hok Hads].
  pose proof (dcs_ok_short _ _ _ _ _ Hn (Z.le_refl 0) Hok) as Hsh.
  pose proof (patch_loop_sat old new addblk Ho Hb dcs 0 0 0 [] []
                (dcs_addo old new addblk 0 dcs) Hok Hsh ltac:(lia) ltac:(lia) eq_refl eq_refl) as HP.
  unfold create_diff_copies.
  destruct (diff_copies_loop dcs 0 0) as [[exts ints]| | |] eqn:E; try contradiction.
  cbn [bind sat] in *.
  destruct (int_array_sat old new addblk ltac:(lia) dcs 0 0 0 exts ints [] 0 Hok ltac:(lia) E ltac:(constructor)
              ltac:(lia)) as [HA HS].
  unfold create_int_data_array. cbn [app] in HA.
  destruct (int_array_loop dcs ints 0 0) as [offs| | |] eqn:E2; try contradiction.
  cbn [bind sat] in *. cbn [dr_ext]. intros Hlt. destruct (HP ltac:(lia)) as [W P].
  split; [exact W|].
  exists (dcs_data new dcs). cbn [dr_int dr_int_off dr_int_len dr_add].
  destruct HA as [HA1 HA2].
  split; [exact HA1|]. split.
  { rewrite fold_left_right_add, HS, Z.add_0_l, u64_small; auto.
    pose proof (dcs_data_le _ _ _ _ _ (Z.le_refl 0) Hok). pose proof (zlen_nonneg (dcs_data new dcs)). lia. }
  split; [exact HA2|].
  unfold patch_delta. cbn [app] in P. unfold dcs_addo in P.
  rewrite Z.sub_0_r, slice_all in P.
  destruct addblk; [rewrite Hads|]; exact P.
Qed.

Lemma make_diff_small_sat old new addblk :
  bytes new -> zlen old < 2 ^ 31 -> zlen new < 2 ^ 31 ->
  zlen new = 0 \/ HSIZE <= zlen new ->
  sat (fun d => zlen (dr_ext d) < 2 ^ 32 /\ Forall ext_wf (dr_ext d) /\ diff_correct old new addblk d)
      (make_diff old new addblk).
Proof.
  intros Hb Ho Hn Hn16. pose proof (zlen_nonneg old). pose proof (zlen_nonneg new).
  pose proof (make_diff_sat old new addblk Hb ltac:(lia) Hn Hn16) as HM.
  destruct (make_diff old new addblk) as [d| | |] eqn:E; try contradiction.
  cbn [sat] in *.
  assert (Hlt : zlen (dr_ext d) < 2 ^ 32); [|split; auto].
  unfold make_diff in E. apply bind_ok in E as ([dcs ads] & E1 & E).
  pose proof (make_diff_copies_sat old new ltac:(lia) ltac:(lia) addblk Hn16) as HC.
  rewrite E1 in HC. cbn [sat] in HC. destruct HC as [Hok _].
  pose proof (dcs_ok_short _ _ _ _ _ Hn (Z.le_refl 0) Hok) as Hsh.
  pose proof (ext_count_sat old new addblk dcs Ho 0 0 0 Hok Hsh ltac:(lia) ltac:(lia)) as HX.
  apply bind_ok in E as ([exts ints] & E2 & E). unfold create_diff_copies in E2.
  rewrite E2 in HX. cbn [sat] in HX.
  apply bind_ok in E as ([offs l] & E3 & E). injection E as <-. cbn [dr_ext]. lia.
Qed.
