(** * Data-free reading of the copy instructions *)
From Verif Require Import Base BaseLemmas Sat Diff DiffProofs SpecDelta CopiesProofs.

(** The operations meant by a list of diff copies. *)
Fixpoint dcs_ops (dcs : list diff_copy) : list op :=
  match dcs with
  | [] => []
  | d :: r => OCopy (dc_old_off d) (dc_old_len d) :: OData (dc_new_len d) :: dcs_ops r
  end.

Definition ops_eq (a b : list op) : Prop :=
  forall i k, 0 <= k -> byte_src a i k = byte_src b i k.

Lemma ops_eq_refl a : ops_eq a a.
Proof. intros i k _; reflexivity. Qed.

Lemma ops_eq_sym a b : ops_eq a b -> ops_eq b a.
Proof. intros H i k Hk; symmetry; apply H; auto. Qed.

Lemma ops_eq_trans a b c : ops_eq a b -> ops_eq b c -> ops_eq a c.
Proof. intros H1 H2 i k Hk. rewrite H1 by auto. apply H2; auto. Qed.

Definition op_len (o : op) : Z := match o with OCopy _ l => l | OData l => l end.

Lemma ops_eq_app p a b : ops_eq a b -> ops_eq (p ++ a) (p ++ b).
Proof.
  intros H. induction p as [|o p IH]; cbn [app]; auto.
  intros i k Hk. destruct o; cbn [byte_src]; destruct (Z.ltb_spec k len); auto; apply IH; lia.
Qed.

Lemma ops_drop_copy o a : ops_eq (OCopy o 0 :: a) a.
Proof. intros i k Hk. cbn [byte_src]. destruct (Z.ltb_spec k 0); [lia|]. now rewrite Z.sub_0_r. Qed.

Lemma ops_drop_data a : ops_eq (OData 0 :: a) a.
Proof.
  intros i k Hk. cbn [byte_src]. destruct (Z.ltb_spec k 0); [lia|]. now rewrite Z.sub_0_r, Z.add_0_r.
Qed.

Lemma ops_merge_data l m a : 0 <= l -> 0 <= m -> ops_eq (OData l :: OData m :: a) (OData (l + m) :: a).
Proof.
  intros Hl Hm i k Hk. cbn [byte_src].
  destruct (Z.ltb_spec k l), (Z.ltb_spec k (l + m)), (Z.ltb_spec (k - l) m); try lia;
    try reflexivity; try (do 2 f_equal; lia); f_equal; lia.
Qed.

Definition copies (es : list (Z * Z)) : list op := map (fun e => OCopy (fst e) (snd e)) es.

Lemma ops_fill lo hi fill a : Forall (fill_ok lo hi) fill -> ops_eq (copies fill ++ a) a.
Proof.
  induction 1 as [|[o l] fill [H1 _] _ IH]; cbn [copies map app]; [apply ops_eq_refl|].
  cbn [fst snd] in *. subst l. eapply ops_eq_trans; [apply ops_drop_copy|exact IH].
Qed.

Lemma delta_ops_data r ints es :
  Forall (fun c => fst c = 0) r -> Forall (fun c => 0 < snd c < 2 ^ 31) r ->
  ops_eq (delta_ops (r ++ ints) es)
         (OData (fold_right Z.add 0 (map snd r)) :: delta_ops ints es).
Proof.
  intros H0 Hp. induction r as [|[n l] r IH]; cbn [app map fold_right].
  - apply ops_eq_sym, ops_drop_data.
  - inversion H0 as [|? ? E0 H0']; subst. inversion Hp as [|? ? E1 Hp']; subst.
    cbn [fst snd] in *. subst n. cbn [delta_ops Z.to_nat firstn skipn map app].
    assert (Hle : 0 <= fold_right Z.add 0 (map snd r)).
    { clear -Hp'. induction Hp' as [|[a b] r Hx Hr IH]; cbn [map fold_right snd] in *; lia. }
    eapply ops_eq_trans; [apply (ops_eq_app [OData l]); apply IH; auto|].
    cbn [app]. apply ops_merge_data; lia.
Qed.

Definition dc_wf (d : diff_copy) : Prop :=
  0 <= dc_old_off d /\ 0 <= dc_old_len d < 2 ^ 31 /\ dc_old_off d + dc_old_len d < 2 ^ 63 /\
  0 <= dc_new_len d.

Lemma extent_loop_sat dcs : forall offset cnt pe,
  Forall dc_wf dcs -> 0 <= offset < 2 ^ 63 -> zlen pe = cnt ->
  sat (fun '(exts, ints) =>
         cnt + zlen exts < 2 ^ 32 ->
         Forall ext_wf exts /\
         ops_eq (delta_ops ints (pe ++ extents offset exts)) (copies pe ++ dcs_ops dcs))
      (diff_copies_loop dcs offset cnt).
Proof.
  induction dcs as [|d r IH]; intros offset cnt pe Hwf Hoff Hcnt.
  - cbn [diff_copies_loop sat]. rewrite zlen_nil, Z.add_0_r. intros Hlt.
    split; [constructor|]. pose proof (zlen_nonneg pe). rewrite u32_small by lia.
    cbn [extents dcs_ops]. rewrite !app_nil_r.
    destruct (Z.ltb_spec 0 cnt); cbn [delta_ops].
    + rewrite firstn_all2, skipn_all2 by (unfold zlen in Hcnt; lia). cbn [map].
      apply (ops_eq_trans _ (copies pe ++ [])); [|rewrite app_nil_r; apply ops_eq_refl].
      apply ops_eq_app. apply ops_drop_data.
    + apply ops_eq_refl.
  - inversion Hwf as [|? ? (D1 & D2 & D3 & D4) Hwf']; subst. cbn [diff_copies_loop].
    eapply (sat_bind (fun '(ex, o) =>
              0 <= o < 2 ^ 63 /\ ext_end offset ex = o /\ Forall ext_wf ex /\
              forall a, ops_eq (copies (extents offset ex) ++ a)
                               (OCopy (dc_old_off d) (dc_old_len d) :: a))).
    { destruct (Z.eqb_spec (dc_old_len d) 0) as [E|E].
      - cbn [sat]. split; [lia|]. split; [reflexivity|]. split; [constructor|].
        intros a. rewrite E. cbn [extents copies map app]. apply ops_eq_sym, ops_drop_copy.
      - eapply sat_mono.
        + apply ext_loop_sat; try lia. unfold ext_fuel, INT32_MAX.
          rewrite Z2Nat.id by (Z.div_mod_to_equations; lia).
          Z.div_mod_to_equations; lia.
        + intros [ex o] (-> & He & Hw & fill & Hx & Hfl & _).
          split; [lia|]. split; [exact He|]. split; [exact Hw|].
          intros a. rewrite Hx. unfold copies. rewrite map_app, <- app_assoc.
          cbn [map app fst snd]. eapply ops_fill; eauto. }
    intros [ex o] (O1 & O2 & O3 & O4). cbv zeta.
    assert (Hzl : zlen (pe ++ extents offset ex) = zlen pe + zlen ex)
      by (rewrite zlen_app, zlen_extents; reflexivity).
    pose proof (zlen_nonneg pe) as Hpe. pose proof (zlen_nonneg ex) as Hex.
    destruct (Z.eqb_spec (dc_new_len d) 0) as [E|E].
    + cbn [bind]. eapply sat_bind; [apply (IH o (zlen pe + zlen ex)); eauto|].
      intros [exts ints] H. cbn [sat app]. rewrite zlen_app. intros Hlt.
      destruct (H ltac:(lia)) as [W P]. split; [apply Forall_app; auto|].
      rewrite extents_app, O2, app_assoc.
      eapply ops_eq_trans; [exact P|]. unfold copies. rewrite map_app, <- app_assoc.
      apply ops_eq_app. eapply ops_eq_trans; [apply O4|]. cbn [dcs_ops]. rewrite E.
      apply (ops_eq_app [OCopy (dc_old_off d) (dc_old_len d)]). apply ops_eq_sym, ops_drop_data.
    + assert (Hany : exists is, int_loop (int_fuel (dc_new_len d)) (zlen pe + zlen ex) (dc_new_len d) = Ok is).
      { assert (G : forall fuel c n, 0 < n -> n / INT32_MAX + 1 <= Z.of_nat fuel ->
                     exists is, int_loop fuel c n = Ok is).
        { clear. unfold INT32_MAX. induction fuel as [|f IHf]; intros c n Hn Hf.
          - pose proof (Z.div_pos n (2 ^ 31 - 1)). lia.
          - cbn [int_loop]. unfold TWO31, INT32_MAX. destruct (Z.leb_spec (2 ^ 31) n); [|eauto].
            destruct (IHf 0 (n - (2 ^ 31 - 1))) as [is ->]; [lia| |cbn; eauto].
            Z.div_mod_to_equations; lia. }
        apply G; [lia|]. unfold int_fuel, INT32_MAX.
        rewrite Z2Nat.id by (Z.div_mod_to_equations; lia). lia. }
      destruct Hany as [is His]. rewrite His. cbn [bind].
      eapply sat_bind; [apply (IH o 0 []); eauto|].
      intros [exts ints] H. cbn [sat]. rewrite zlen_app. pose proof (zlen_nonneg exts). intros Hlt.
      destruct (H ltac:(lia)) as [W P]. split; [apply Forall_app; auto|].
      assert (HI : sat (fun r => exists l r', r = (zlen pe + zlen ex, l) :: r' /\ Forall (fun c => fst c = 0) r' /\
                Forall (fun c => 0 < snd c < 2 ^ 31) r /\
                fold_right Z.add 0 (map snd r) = dc_new_len d) (Ok is)).
      { rewrite <- His. apply int_loop_sat; [lia|lia|].
        unfold int_fuel, INT32_MAX. rewrite Z2Nat.id by (Z.div_mod_to_equations; lia). lia. }
      cbn [sat] in HI. destruct HI as (l & r' & -> & I1 & I2 & I3).
      rewrite extents_app, O2, app_assoc. cbn [app delta_ops].
      rewrite <- Hzl, firstn_zlen_app, skipn_zlen_app.
      rewrite map_app, <- app_assoc. apply ops_eq_app.
      fold (copies (extents offset ex)).
      eapply ops_eq_trans; [apply O4|]. cbn [dcs_ops].
      apply (ops_eq_app [OCopy (dc_old_off d) (dc_old_len d)]).
      inversion I2 as [|? ? I4 I5]; subst. cbn [snd map fold_right] in *.
      eapply ops_eq_trans; [apply (ops_eq_app [OData l]); apply delta_ops_data; auto|].
      cbn [app].
      assert (Hr' : 0 <= fold_right Z.add 0 (map snd r')).
      { clear -I5. induction I5 as [|[a b] q Hx Hr IHq]; cbn [map fold_right snd] in *; lia. }
      eapply ops_eq_trans; [apply ops_merge_data; lia|]. rewrite I3.
      apply (ops_eq_app [OData (dc_new_len d)]). exact P.
Qed.

Lemma create_diff_copies_ops dcs : Forall dc_wf dcs ->
  sat (fun '(exts, ints) => zlen exts < 2 ^ 32 ->
         Forall ext_wf exts /\
         forall k, 0 <= k -> byte_src (delta_ops ints (extents 0 exts)) 0 k
                             = byte_src (dcs_ops dcs) 0 k)
      (create_diff_copies dcs).
Proof.
  intros H. eapply sat_mono; [apply (extent_loop_sat dcs 0 0 []); auto; lia|].
  intros [exts ints] HP Hlt. destruct (HP ltac:(lia)) as [W P]. split; auto.
Qed.
