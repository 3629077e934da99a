(** * ArchiveCases: concrete archives and growing arrays *)
From Verif Require Import Base BaseLemmas Sat Utils SpecCodec UtilsProofs CpioHeader CpioHeaderProofs CodecFinal
     Rpm FormatFinal Seq SeqProofs Expand SeqFinal Archive SpecArchive ArchiveProofs ArchiveMain ArchiveLoop ArchiveFinal
     ArchiveSafe ArchiveSeq.

(** ** Recognising listings *)
Definition read_header (archive : list Z) (o : Z) : option (Z * Z) :=
  if (0 <=? o) && (o + 110 <=? zlen archive) && list_eqb (slice archive o 6) CPIO_MAGIC
     && forallb (fun k => match field_at archive o (Z.of_nat k) with Some _ => true | None => false end) (seq 0 12)
  then match field_at archive o 6, field_at archive o 11 with
       | Some size, Some n => Some (n mod 2 ^ 16, size)
       | _, _ => None
       end
  else None.

Lemma read_header_ok archive o n size : read_header archive o = Some (n, size) -> header_at archive o n size.
Proof.
  unfold read_header. destruct (_ && _) eqn:E; [|discriminate].
  rewrite !andb_true_iff in E. destruct E as [[[E1 E2] E3] E4]. apply list_eqb_spec in E3. rewrite forallb_forall in E4.
  destruct (field_at archive o 6) as [s|] eqn:E6; [|discriminate]. destruct (field_at archive o 11) as [m|] eqn:E11; [|discriminate].
  intros H. injection H as <- <-. split; auto; [lia| |eauto].
  intros k Hk. specialize (E4 (Z.to_nat k)). rewrite Z2Nat.id in E4 by lia.
  destruct (field_at archive o k); [discriminate|]. discriminate E4. apply in_seq. lia.
Qed.

Lemma some_inj {A} (a b : A) : Some a = Some b -> a = b.
Proof. congruence. Qed.

Fixpoint read_listing (fuel : nat) (archive : list Z) (o : Z) : option (list entry) :=
  match fuel with
  | O => None
  | S fuel =>
      match read_header archive o with
      | None => None
      | Some (n, size) =>
          if (0 <? n) && (o + 110 + n <=? zlen archive) then
            let name := cstring (slice archive (o + 110) (n - 1)) in
            if list_eqb name CPIO_TRAILER then Some []
            else
              let e := mken o (plain_name name) (110 + n + padding (110 + n) 4) size in
              if en_next e <=? zlen archive then
                match read_listing fuel archive (en_next e) with Some es => Some (e :: es) | None => None end
              else None
          else None
      end
  end.

Lemma read_listing_ok archive : forall fuel o es, read_listing fuel archive o = Some es -> listing archive o es.
Proof.
  induction fuel as [|fuel IH]; intros o es H; cbn [read_listing] in H; [discriminate|].
  destruct (read_header archive o) as [[n size]|] eqn:Eh; [|discriminate]. apply read_header_ok in Eh.
  destruct (_ && _) eqn:E; [|discriminate]. apply andb_true_iff in E as [E1 E2].
  assert (Hn : name_at archive o n (cstring (slice archive (o + 110) (n - 1)))) by (split; [lia|reflexivity]).
  destruct (list_eqb _ CPIO_TRAILER) eqn:Et.
  - apply list_eqb_spec in Et. injection H as <-. rewrite Et in Hn. eapply l_trailer; eauto.
  - destruct (en_next _ <=? zlen archive) eqn:En; [|discriminate].
    destruct (read_listing fuel archive _) as [es'|] eqn:El; [|discriminate]. apply some_inj in H. subst es.
    apply Z.leb_le in En. eapply l_entry; eauto. intros X. rewrite X in Et. discriminate.
Qed.

(** ** An archive: a regular file, a changed configuration file, a link, a directory, a file that is not in the list *)
Definition member (mode : Z) (name data : list Z) : list Z :=
  align4 (cpio_header_write (mkch 7 mode 3 4 1 99 (zlen data) 8 1 0 0 (zlen name + 3)) ++ [46; 47] ++ name ++ [0]) ++ align4 data.
Definition ex_archive : list Z :=
  member 33188 [99; 102] [1; 2; 3]
  ++ member 33188 [97] [10; 20; 30; 40; 50]
  ++ member 41471 [108] [120; 121]
  ++ member 33188 [122] [5; 5]
  ++ member 16877 [100] []
  ++ trailer.

(** Hexadecimal MD5 of 16 bytes 17. *)
Definition ex_md5 : list Z := concat (repeat [49; 49] 16).
Definition ex_files : list file_info :=
  [ mkfi [47; 97] 0 ex_md5 0 5 33188 3 [] 0
  ; mkfi [47; 99; 102] 1 ex_md5 0 3 33188 3 [] 0
  ; mkfi [47; 100] 0 [] 0 4096 16877 3 [] 0
  ; mkfi [47; 108] 0 [] 0 0 41471 3 [97; 98; 99] 0 ].
Definition ex_rpm : rpm := mkrpm [] [] [] ex_archive 0 0.
Definition ex_entries : list entry := match read_listing 10 ex_archive 0 with Some es => es | None => [] end.

Lemma ex_listing : listing ex_archive 0 ex_entries.
Proof. apply (read_listing_ok _ 10). vm_compute. reflexivity. Qed.

Lemma ex_wf : Forall wf_file ex_files.
Proof. repeat constructor; cbn [fi_mode fi_size fi_rdev fi_name fi_linkto]; try lia; vm_compute; reflexivity. Qed.

(** A directory entry with contents. *)
Definition odd_archive : list Z := member 16877 [100] [1; 2; 3; 4] ++ trailer.
Definition odd_rpm : rpm := mkrpm [] [] [] odd_archive 0 0.

(** A header without a name. *)
Definition nameless : list Z := cpio_header_write (mkch 7 33188 3 4 1 99 0 8 1 0 0 0) ++ zeros 20.
Definition nameless_rpm : rpm := mkrpm [] [] [] nameless 0 0.

(** ** Growing arrays *)
Fixpoint caps (threshold width : Z) (k : nat) : Z :=
  match k with O => 0 | S k => resize (caps threshold width k) (width * Z.of_nat k) threshold end.

Lemma caps_ok t w k : 0 < w -> 0 < t -> t mod w = 0 -> w * Z.of_nat k + w <= caps t w (S k).
Proof.
  intros Hw Ht Hm.
  assert (Hcap : forall k, caps t w (S k) = t * (w * Z.of_nat k / t) + t).
  { clear k. induction k as [|k IH].
    - cbn [caps]. unfold resize. rewrite Z.mul_0_r, Z.mod_0_l by lia. rewrite Z.div_0_l by lia. change (0 =? 0) with true. cbn iota. lia.
    - change (caps t w (S (S k))) with (resize (caps t w (S k)) (w * Z.of_nat (S k)) t). unfold resize. rewrite IH.
      destruct (w * Z.of_nat (S k) mod t =? 0) eqn:E.
      + pose proof (Z.div_mod (w * Z.of_nat (S k)) t ltac:(lia)). lia.
      + do 2 f_equal. set (a := w * Z.of_nat k) in *. replace (w * Z.of_nat (S k)) with (a + w) in * by (unfold a; lia).
        apply Z.mod_divide in Hm; [|lia]. destruct Hm as [q Hq].
        pose proof (Z.div_mod a t ltac:(lia)) as Ha. pose proof (Z.mod_pos_bound a t ltac:(lia)) as Hr.
        assert (Hlt : a mod t + w < t).
        { assert (Hdv : exists j, a mod t = w * j).
          { exists (Z.of_nat k - q * (a / t)). unfold a in *. nia. }
          destruct Hdv as [j Hj]. destruct (Z.lt_ge_cases (a mod t + w) t) as [|Hge]; [auto|]. exfalso.
          assert (Hqj : q <= j + 1) by nia. assert (Hjq : j < q) by nia. assert (j = q - 1) by lia.
          assert (a + w = t * (a / t + 1)) by nia.
          rewrite H0, Z.mul_comm, Z.mod_mul in E by lia. lia. }
        apply Z.div_unique with (a mod t + w); lia. }
  rewrite Hcap. apply Z.mod_divide in Hm; [|lia]. destruct Hm as [q Hq]. set (a := w * Z.of_nat k).
  pose proof (Z.div_mod a t ltac:(lia)) as Ha. pose proof (Z.mod_pos_bound a t ltac:(lia)) as Hr.
  assert (Hdv : a mod t = w * (Z.of_nat k - q * (a / t))) by (unfold a in *; nia).
  set (j := Z.of_nat k - q * (a / t)) in *. assert (j < q) by nia. nia.
Qed.

Lemma buffer_ok parts : zlen (concat parts) < 2 ^ 63 ->
  exists cap, cpio_extends (mkgb [] 0) parts = Ok (mkgb (concat parts) cap) /\ zlen (concat parts) <= cap.
Proof.
  intros H. destruct (extends_ok parts (mkgb [] 0) ltac:(reflexivity)) as (g & E & D & I).
  { cbn [gb_data]. change (@zlen Z []) with 0. lia. }
  cbn [gb_data app] in D. exists (gb_cap g). split.
  - rewrite E. destruct g as [d c]. cbn [gb_data gb_cap] in *. subst d. reflexivity.
  - unfold gb_inv in I. rewrite I, D. pose proof (pad_range (zlen (concat parts))). lia.
Qed.

(** Any history of adjustments. *)
Fixpoint adjust_all (calls : list (Z * Z * Z)) (adj : list (Z * Z)) (cap : Z) : res (list (Z * Z) * Z) :=
  match calls with
  | [] => Ok (adj, cap)
  | (len, prev, pos) :: calls =>
      '(adj, cap) <- offadj_loop (offadj_fuel len pos) adj cap len prev pos ;; adjust_all calls adj cap
  end.
Lemma adjust_ok calls : exists adj cap, adjust_all calls [] 0 = Ok (adj, cap).
Proof.
  assert (H : forall adj cap, cap_inv adj cap -> exists a c, adjust_all calls adj cap = Ok (a, c)).
  { induction calls as [|[[len prev] pos] calls IH]; intros adj cap Hc; cbn [adjust_all]; [eauto|].
    destruct (offadj_any len adj cap prev pos Hc) as (new & cap' & E & Hc' & _). rewrite E. cbn [bind]. apply IH. auto. }
  apply H. left. reflexivity.
Qed.

Lemma adjustments_survive L unpatched offadj files colors sha r cpio sequence adjs :
  zlen (rp_archive r) < 2 ^ 32 -> zlen files < 2 ^ 32 -> Forall wf_file files ->
  parse_cpio_files L unpatched offadj files colors sha r = Ok (cpio, sequence, adjs) ->
  Forall (fun a => 0 <= fst a < 2 ^ 31 /\ 0 <= snd a < 2 ^ 32 /\ s32 (snd a) <> - 2 ^ 31) adjs.
Proof.
  intros Ha Hc Hf E. pose proof (parse_safe L unpatched offadj files colors sha r Ha Hf Hc) as H. rewrite E in H.
  destruct H as (_ & H & _). eapply Forall_impl; [|exact H]. intros [a b] (A & B & C). cbn [fst snd] in *. split; [auto|]. split; [auto|].
  unfold s32. rewrite u32_small by lia. destruct (b <? 2 ^ 31) eqn:E1; lia.
Qed.

Lemma parse_sizes L unpatched offadj files colors sha r cpio sequence adjs :
  zlen (rp_archive r) < 2 ^ 32 -> zlen files < 2 ^ 32 -> Forall wf_file files ->
  parse_cpio_files L unpatched offadj files colors sha r = Ok (cpio, sequence, adjs) ->
  zlen cpio < 2 ^ 61 /\ exists x sq, sequence = lb_md5 L x ++ sq /\ 16 + zlen sq < 2 ^ 31.
Proof.
  intros Ha Hc Hf E. pose proof (parse_safe L unpatched offadj files colors sha r Ha Hf Hc) as H. rewrite E in H. tauto.
Qed.

Lemma parse_defined L unpatched offadj files colors sha r :
  zlen (rp_archive r) < 2 ^ 32 -> zlen files < 2 ^ 32 -> Forall wf_file files -> Forall (fun f => zlen (fi_md5 f) <= 65) files ->
  (forall o size, ~ header_at (rp_archive r) o 0 size) ->
  defined (parse_cpio_files L unpatched offadj files colors sha r).
Proof.
  intros Ha Hc Hf H65 Hz. pose proof (parse_safe L unpatched offadj files colors sha r Ha Hf Hc) as H.
  destruct (parse_cpio_files L unpatched offadj files colors sha r) as [?|?|?|]; cbn [defined]; auto.
  destruct H as [(o & size & H)|H]; [eapply Hz; eauto|]. apply Exists_exists in H as (f & Hin & Hl).
  rewrite Forall_forall in H65. specialize (H65 f Hin). lia.
Qed.

Lemma parse_listed L unpatched offadj files colors sha r x :
  zlen (rp_archive r) < 2 ^ 32 -> zlen files < 2 ^ 32 -> Forall wf_file files ->
  parse_cpio_files L unpatched offadj files colors sha r = Ok x ->
  exists es, listing (rp_archive r) 0 es /\ Forall (fun k => digest_ok sha (ke_file k)) (kept unpatched files colors es).
Proof.
  intros Ha Hc Hf E. pose proof (parse_safe L unpatched offadj files colors sha r Ha Hf Hc) as H. rewrite E in H.
  destruct x as [[? ?] ?]. tauto.
Qed.

Lemma offsets_recovered L unpatched files colors sha r es :
  zlen (rp_archive r) < 2 ^ 32 -> zlen files < 2 ^ 32 -> Forall wf_file files ->
  listing (rp_archive r) 0 es ->
  let ks := kept unpatched files colors es in
  Forall (fun k => digest_ok sha (ke_file k)) ks ->
  close 0 0 (offsets (rp_archive r) 0 ks) ->
  exists cpio sequence adjs, parse_cpio_files L unpatched true files colors sha r = Ok (cpio, sequence, adjs) /\
    forall original a, In (original, a) (offsets (rp_archive r) 0 ks) -> original = a + adj_sum 0 adjs a.
Proof.
  intros Ha Hc Hf Hl ks Hd Hcl.
  destruct (parse_small L unpatched true files colors sha r es Ha Hc Hf Hl Hd (fun _ => Hcl)) as (code & adjs & _ & E & _ & H).
  do 3 eexists. split; [exact E|]. specialize (H eq_refl). rewrite Forall_forall in H. intros x a Hin. apply (H (x, a) Hin).
Qed.
