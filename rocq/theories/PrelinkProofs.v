(** * PrelinkProofs: what the detection of prelinked files computes *)
From Verif Require Import Base BaseLemmas SpecCodec Utils UtilsProofs CodecFinal FileSys Prelink SpecPrelink.

Lemma be_val_bound l : bytes l -> 0 <= be_val l < 256 ^ zlen l.
Proof.
  unfold be_val. assert (G : forall l a, bytes l -> 0 <= a -> a * 256 ^ zlen l <= fold_left (fun a b => a * 256 + b) l a < (a + 1) * 256 ^ zlen l).
  { clear l. induction l as [|x l IH]; intros a Hb Ha; cbn [fold_left]. { cbn [zlen length Z.of_nat]. lia. }
    inversion_clear Hb. unfold byte in H. rewrite zlen_cons. pose proof (zlen_nonneg l). rewrite Z.pow_add_r by lia. specialize (IH (a * 256 + x) H0 ltac:(lia)).
    change (256 ^ 1) with 256. nia. }
  intros Hb. specialize (G l 0 Hb ltac:(lia)). lia.
Qed.

Lemma bytes_rev l : bytes l -> bytes (rev l).
Proof. apply Forall_rev. Qed.
Lemma zlen_rev {A} (l : list A) : zlen (rev l) = zlen l.
Proof. unfold zlen. rewrite rev_length. reflexivity. Qed.

Lemma num_bound le data off len : bytes data -> 0 <= len -> 0 <= num le data off len < 256 ^ len.
Proof.
  intros Hb Hl. unfold num. set (l := if le then _ else _).
  assert (Hbl : bytes l) by (destruct le; [apply bytes_rev|]; apply bytes_slice; auto).
  assert (Hz : zlen l <= len) by (pose proof (zlen_slice_le data off len Hl); destruct le; subst l; rewrite ?zlen_rev; auto).
  pose proof (be_val_bound l Hbl) as H. split; [lia|]. apply Z.lt_le_trans with (256 ^ zlen l); [lia|]. apply Z.pow_le_mono_r; lia.
Qed.

Lemma num_slice le data off len o n : 0 <= off -> 0 <= o -> 0 <= n -> o + n <= len -> off + len <= zlen data ->
  num le (slice data off len) o n = num le data (off + o) n.
Proof. intros. unfold num. rewrite slice_slice by lia. reflexivity. Qed.

Lemma slice2 l o : 0 <= o -> o + 2 <= zlen l -> slice l o 2 = [getz l o; getz l (o + 1)].
Proof.
  intros. apply list_getz_ext. { rewrite zlen_slice by lia. reflexivity. }
  intros i. rewrite zlen_slice by lia. intros Hi. rewrite getz_slice by lia.
  assert (i = 0 \/ i = 1) as [-> | ->] by lia; rewrite ?Z.add_0_r; reflexivity.
Qed.
Lemma slice4 l o : 0 <= o -> o + 4 <= zlen l -> slice l o 4 = [getz l o; getz l (o + 1); getz l (o + 2); getz l (o + 3)].
Proof.
  intros. apply list_getz_ext. { rewrite zlen_slice by lia. reflexivity. }
  intros i. rewrite zlen_slice by lia. intros Hi. rewrite getz_slice by lia.
  assert (i = 0 \/ i = 1 \/ i = 2 \/ i = 3) as [-> | [-> | [-> | ->]]] by lia; rewrite ?Z.add_0_r; reflexivity.
Qed.

Lemma lor_low a b k : 0 <= k -> 0 <= a < 2 ^ k -> 0 <= b -> Z.lor a (Z.shiftl b k) = b * 2 ^ k + a.
Proof. intros. rewrite Z.lor_comm, Z.shiftl_mul_pow2 by lia. apply lor_add; lia. Qed.

Lemma elf16_num l o le : bytes l -> 0 <= o -> o + 2 <= zlen l -> elf16 l o le = Ok (num le l o 2).
Proof.
  intros Hb H0 H1. unfold elf16, num. destruct le; [|apply parse_be16_at_val; auto].
  unfold le16_at. rewrite !rd_getz by lia. cbn [bind]. rewrite slice2 by auto.
  pose proof (bytes_getz l o Hb). pose proof (bytes_getz l (o + 1) Hb). unfold byte in *.
  rewrite lor_low by lia. unfold be_val. cbn [rev app fold_left]; f_equal; lia.
Qed.

Lemma le32_num l o : bytes l -> 0 <= o -> o + 4 <= zlen l -> le32_at l o = Ok (num true l o 4).
Proof.
  intros Hb H0 H1. unfold le32_at, num. rewrite !rd_getz by lia. cbn [bind]. rewrite slice4 by auto.
  pose proof (bytes_getz l o Hb). pose proof (bytes_getz l (o + 1) Hb). pose proof (bytes_getz l (o + 2) Hb). pose proof (bytes_getz l (o + 3) Hb). unfold byte in *.
  rewrite (lor_low (getz l o)) by lia. rewrite (lor_low (getz l (o + 1) * 2 ^ 8 + getz l o)) by lia.
  rewrite lor_low by lia. unfold be_val. cbn [rev app fold_left]; f_equal; lia.
Qed.

Lemma elf32_num l o le : bytes l -> 0 <= o -> o + 4 <= zlen l -> elf32 l o le = Ok (num le l o 4).
Proof. intros. unfold elf32. destruct le; [apply le32_num; auto|]. unfold num. apply parse_be32_at_val; auto. Qed.

(** A 64-bit number is a high and a low half. *)
Lemma be_val_app a b : be_val (a ++ b) = be_val a * 256 ^ zlen b + be_val b.
Proof.
  unfold be_val. rewrite fold_left_app. generalize (fold_left (fun x y => x * 256 + y) a 0). intros x.
  assert (G : forall b x, fold_left (fun x y => x * 256 + y) b x = x * 256 ^ zlen b + fold_left (fun x y => x * 256 + y) b 0).
  { clear. induction b as [|c b IH]; intros x; cbn [fold_left]. { cbn [zlen length Z.of_nat]. lia. }
    rewrite (IH (x * 256 + c)), (IH (0 * 256 + c)), zlen_cons. pose proof (zlen_nonneg b). rewrite Z.pow_add_r by lia. change (256 ^ 1) with 256. lia. }
  apply G.
Qed.

Lemma num8 le l o : 0 <= o -> o + 8 <= zlen l ->
  num le l o 8 = num le l (if le then o + 4 else o) 4 * 2 ^ 32 + num le l (if le then o else o + 4) 4.
Proof.
  intros H0 H1. unfold num. change 8 with (4 + 4). rewrite slice_split by lia.
  destruct le; rewrite ?rev_app_distr, be_val_app; rewrite ?zlen_rev, zlen_slice by lia; reflexivity.
Qed.

Definition follow_val (le : bool) (n : Z) : Z := if 2 ^ 32 <=? n then 2 ^ 64 - 1 else if le then u64 (s32 n) else n.

Lemma elf64_num l o le (is64 : bool) : bytes l -> 0 <= o -> o + (if is64 then 8 else 4) <= zlen l ->
  elf64 l o le is64 = Ok (follow_val le (num le l o (if is64 then 8 else 4))).
Proof.
  intros Hb H0 H1. unfold elf64, follow_val.
  assert (G : forall p, 0 <= p -> p + 4 <= zlen l -> (if le then v <- le32_at l p ;; Ok (u64 (s32 v)) else parse_be32_at l p) =
             Ok (if le then u64 (s32 (num le l p 4)) else num le l p 4)).
  { intros p Hp Hp2. destruct le; [rewrite le32_num by auto; reflexivity|]. unfold num. apply parse_be32_at_val; auto. }
  destruct is64; cbn beta iota in *.
  - rewrite num8 by lia. set (high := if le then o + 4 else o). assert (0 <= high /\ high + 4 <= zlen l) as [Hh Hh'] by (subst high; destruct le; lia).
    rewrite !rd_getz by lia. cbn [bind].
    assert (Hz : (0 <? getz l high) || (0 <? getz l (high + 1)) || (0 <? getz l (high + 2)) || (0 <? getz l (high + 3)) = negb (num le l high 4 =? 0)).
    { unfold num. rewrite slice4 by lia.
      pose proof (bytes_getz l high Hb). pose proof (bytes_getz l (high + 1) Hb). pose proof (bytes_getz l (high + 2) Hb). pose proof (bytes_getz l (high + 3) Hb). unfold byte in *.
      destruct le; unfold be_val; cbn [rev app fold_left]; lia. }
    rewrite Hz. pose proof (num_bound le l high 4 Hb ltac:(lia)). pose proof (num_bound le l (if le then o else o + 4) 4 Hb ltac:(lia)) as Hlo. change (256 ^ 4) with (2 ^ 32) in *.
    destruct (num le l high 4 =? 0) eqn:E; cbn [negb].
    + apply Z.eqb_eq in E. rewrite E, Z.mul_0_l, Z.add_0_l. assert (E2 : (2 ^ 32 <=? num le l (if le then o else o + 4) 4) = false) by lia. rewrite E2.
      apply G; destruct le; lia.
    + assert (E2 : (2 ^ 32 <=? num le l high 4 * 2 ^ 32 + num le l (if le then o else o + 4) 4) = true) by lia. rewrite E2. reflexivity.
  - pose proof (num_bound le l o 4 Hb ltac:(lia)). change (256 ^ 4) with (2 ^ 32) in *. assert (E2 : (2 ^ 32 <=? num le l o 4) = false) by lia. rewrite E2. apply G; lia.
Qed.

Lemma follow_off le n : 0 <= n -> let v := off_t (follow_val le n) in
  if (2 ^ 32 <=? n) || (le && (n =? 2 ^ 32 - 1)) then v = -1 else if n <? (if le then 2 ^ 31 else 2 ^ 32) then v = n else v < -1.
Proof.
  intros Hn. cbn zeta. unfold follow_val, off_t. destruct (2 ^ 32 <=? n) eqn:E; cbn [orb]. { reflexivity. }
  destruct le; cbn [andb].
  - unfold s32. rewrite u32_small by lia. destruct (n <? 2 ^ 31) eqn:E2.
    + assert (E3 : (n =? 2 ^ 32 - 1) = false) by lia. rewrite E3. rewrite u64_small by lia. assert (E4 : (n <? 2 ^ 63) = true) by lia. rewrite E4. reflexivity.
    + assert (Eu : u64 (n - 2 ^ 32) = n - 2 ^ 32 + 2 ^ 64). { unfold u64. symmetry. apply Z.mod_unique_pos with (-1); lia. }
      rewrite Eu. assert (E4 : (n - 2 ^ 32 + 2 ^ 64 <? 2 ^ 63) = false) by lia. rewrite E4. destruct (n =? 2 ^ 32 - 1) eqn:E5; lia.
  - assert (E4 : (n <? 2 ^ 63) = true) by lia. rewrite E4. assert (E5 : (n <? 2 ^ 32) = true) by lia. rewrite E5. reflexivity.
Qed.

Lemma follow_len le n : 0 <= n -> u32 (follow_val le n) = if 2 ^ 32 <=? n then 2 ^ 32 - 1 else n.
Proof.
  intros Hn. unfold follow_val. destruct (2 ^ 32 <=? n) eqn:E; [reflexivity|].
  destruct le; [|apply u32_small; lia]. unfold s32. rewrite (u32_small n) by lia. destruct (n <? 2 ^ 31) eqn:E2.
  - rewrite u64_small by lia. apply u32_small. lia.
  - assert (Eu : u64 (n - 2 ^ 32) = n - 2 ^ 32 + 2 ^ 64). { unfold u64. symmetry. apply Z.mod_unique_pos with (-1); lia. }
    rewrite Eu. unfold u32. symmetry. apply Z.mod_unique_pos with (2 ^ 32 - 1); lia.
Qed.

Lemma undo_loop_exact n : forall sects strs ssiz i le, bytes sects -> zlen strs < 2 ^ 31 -> 0 <= i -> 4 <= ssiz -> (i + Z.of_nat n) * ssiz <= zlen sects ->
  exists b, undo_loop n sects strs ssiz i le = Ok b /\
    (b = true <-> exists j, i <= j < i + Z.of_nat n /\ num le sects (j * ssiz) 4 + 18 <= zlen strs /\ slice strs (num le sects (j * ssiz) 4) 18 = UNDO_NAME).
Proof.
  induction n as [|n IH]; intros sects strs ssiz i le Hb Hs Hi Hz Hl; cbn [undo_loop].
  { exists false. split; [reflexivity|]. split; [discriminate|]. intros (j & Hj & _). lia. }
  rewrite elf32_num by (auto; nia). cbn [bind]. set (o := num le sects (i * ssiz) 4).
  assert (Ho : 0 <= o < 2 ^ 32) by (apply (num_bound le sects (i * ssiz) 4 Hb ltac:(lia))).
  destruct (IH sects strs ssiz (i + 1) le Hb Hs ltac:(lia) Hz ltac:(lia)) as (b & Eb & Hbb).
  assert (Hnot : (o + 18 <= zlen strs -> slice strs o 18 <> UNDO_NAME) ->
    exists b, undo_loop n sects strs ssiz (i + 1) le = Ok b /\ (b = true <-> exists j, i <= j < i + Z.of_nat (S n) /\ num le sects (j * ssiz) 4 + 18 <= zlen strs /\ slice strs (num le sects (j * ssiz) 4) 18 = UNDO_NAME)).
  { intros Hno. exists b. split; [auto|]. rewrite Hbb. split; intros (j & Hj & H1 & H2).
    - exists j. split; [lia|auto].
    - destruct (Z.eq_dec j i) as [->|]; [exfalso; apply Hno; auto|]. exists j. split; [lia|auto]. }
  destruct (zlen strs <? o) eqn:E1; [apply Hnot; lia|]. rewrite u32_small by lia.
  destruct (o + 18 <=? zlen strs) eqn:E2; [|apply Hnot; lia]. rewrite rd_range_in by lia. cbn [bind].
  destruct (list_eqb (slice strs o 18) UNDO_NAME) eqn:E3.
  - apply list_eqb_spec in E3. exists true. split; [reflexivity|]. split; [|reflexivity]. intros _. exists i. split; [lia|]. split; [lia|auto].
  - apply Hnot. intros _ H. apply list_eqb_spec in H. congruence.
Qed.

Lemma row_in j e s : 0 <= j < e -> 40 <= s -> 0 <= j * s /\ j * s + s <= e * s.
Proof. intros. nia. Qed.

Section Main.
Variable data : list Z.
Variable n : Z.
Hypothesis Hb : bytes data.
Hypothesis Hn : 64 <= n.
Notation buf := (slice data 0 n).

Lemma buf_len : zlen buf = Z.min n (zlen data).
Proof.
  destruct (Z.le_gt_cases n (zlen data)); [rewrite zlen_slice by lia; lia|]. rewrite slice_all_ge by lia. lia.
Qed.
Lemma buf_slice o k : 0 <= o -> 0 <= k -> o + k <= 64 -> o + k <= zlen data -> slice buf o k = slice data o k.
Proof.
  intros. destruct (Z.le_gt_cases n (zlen data)); [rewrite slice_slice by lia; f_equal; lia|]. rewrite slice_all_ge by lia. reflexivity.
Qed.
Lemma buf_getz o : 0 <= o < 64 -> o < zlen data -> getz buf o = getz data o.
Proof.
  intros. destruct (Z.le_gt_cases n (zlen data)); [rewrite getz_slice by lia; f_equal; lia|]. rewrite slice_all_ge by lia. reflexivity.
Qed.
Lemma buf_num le o k : 0 <= o -> 0 <= k -> o + k <= 64 -> o + k <= zlen data -> num le buf o k = num le data o k.
Proof. intros. unfold num. rewrite buf_slice by lia. reflexivity. Qed.

Lemma pread_some len off s : 0 <= len -> pread data len off = Some s -> 0 <= off /\ off + len <= zlen data /\ s = slice data off len.
Proof. unfold pread. intros Hl. destruct ((off <? 0) || (zlen data <? off + len)) eqn:E; [discriminate|]. intros H. injection H as <-. repeat split; auto; lia. Qed.
Lemma pread_none len off : pread data len off = None -> off < 0 \/ zlen data < off + len.
Proof. unfold pread. destruct ((off <? 0) || (zlen data <? off + len)) eqn:E; [|discriminate]. lia. Qed.

Definition outcome (r : res bool) : Prop :=
  (has_table data /\ bad_names data /\ r = Ub BadFree) \/
  (~ (has_table data /\ bad_names data) /\ exists b, r = Ok b /\ (b = true <-> has_table data /\ has_undo data)).

Lemma no_table : ~ has_table data -> outcome (Ok false).
Proof. intros H. right. split; [tauto|]. exists false. split; [reflexivity|]. split; [discriminate|tauto]. Qed.

Lemma is_prelinked_exact : outcome (is_prelinked data buf).
Proof.
  unfold is_prelinked. pose proof buf_len as Hbl.
  destruct (zlen buf <? 52) eqn:E1.
  { apply no_table. intros [[H _] _]. lia. }
  rewrite rd_range_in by lia. cbn [bind]. rewrite buf_slice by lia.
  destruct (list_eqb (slice data 0 4) [127; 69; 76; 70]) eqn:E2; cbn [negb].
  2:{ apply no_table. intros [(_ & H & _) _]. apply list_eqb_spec in H. congruence. }
  apply list_eqb_spec in E2. rewrite !rd_getz by lia. cbn [bind]. rewrite !buf_getz by lia.
  fold (class64 data) (little data).
  destruct (class64 data && (zlen buf <? 64)) eqn:E3.
  { apply no_table. intros [(_ & _ & H) _]. apply andb_prop in E3 as [E3 E4]. specialize (H E3). lia. }
  assert (Helf : is_elf data) by (repeat split; auto; [lia|intros Hc; rewrite Hc in E3; cbn [andb] in E3; lia]).
  assert (Hlen : (if class64 data then 64 else 52) <= Z.min n (zlen data)) by (destruct (class64 data) eqn:Ec; cbn [andb] in E3; lia).
  assert (Hbb : bytes buf) by (apply bytes_slice; auto).
  rewrite elf64_num by (auto; destruct (class64 data); lia). cbn [bind].
  assert (Et : num (little data) buf (if class64 data then 40 else 32) (if class64 data then 8 else 4) = table_off data).
  { unfold table_off. destruct (class64 data); apply buf_num; lia. }
  rewrite Et.
  assert (Ht0 : 0 <= table_off data) by (unfold table_off; destruct (class64 data); apply num_bound; auto; lia).
  pose proof (follow_off (little data) (table_off data) Ht0) as Hf. cbn zeta in Hf.
  set (v := off_t (follow_val (little data) (table_off data))) in *.
  destruct (v =? -1) eqn:Ev.
  { apply no_table. intros (_ & H & _). unfold follows in H.
    destruct ((2 ^ 32 <=? table_off data) || (little data && (table_off data =? 2 ^ 32 - 1))) eqn:E; [destruct (little data); cbn [andb] in E; lia|].
    assert (E' : (table_off data <? (if little data then 2 ^ 31 else 2 ^ 32)) = true) by lia. rewrite E' in Hf. lia. }
  rewrite !elf16_num by (auto; destruct (class64 data); lia). cbn [bind].
  rewrite !buf_num by (destruct (class64 data); lia).
  fold (header_size data) (entries data) (names_index data).
  destruct ((header_size data <? (if class64 data then 64 else 40)) || (32768 <=? header_size data)) eqn:E4.
  { apply no_table. intros (_ & _ & H & _). lia. }
  cbn [bind]. destruct (entries data <=? names_index data) eqn:E5.
  { apply no_table. intros (_ & _ & _ & H & _). lia. }
  assert (Hes : (if class64 data then 64 else 40) <= header_size data < 32768) by lia.
  assert (Hes40 : 40 <= header_size data) by (destruct (class64 data); lia).
  assert (Hni : 0 <= names_index data) by (apply num_bound; auto; lia).
  destruct (pread data (entries data * header_size data) v) as [sects|] eqn:Ep.
  2:{ apply no_table. intros (_ & H & _ & _ & H2). unfold follows in H.
      destruct ((2 ^ 32 <=? table_off data) || (little data && (table_off data =? 2 ^ 32 - 1))) eqn:E; [destruct (little data); cbn [andb] in E; lia|].
      assert (E' : (table_off data <? (if little data then 2 ^ 31 else 2 ^ 32)) = true) by lia. rewrite E' in Hf.
      apply pread_none in Ep. lia. }
  apply pread_some in Ep as (Hv0 & Hv1 & Es); [|nia].
  assert (Hvt : v = table_off data /\ follows data (table_off data)).
  { destruct ((2 ^ 32 <=? table_off data) || (little data && (table_off data =? 2 ^ 32 - 1))) eqn:E; [lia|]. unfold follows.
    destruct (table_off data <? (if little data then 2 ^ 31 else 2 ^ 32)) eqn:E'; lia. }
  destruct Hvt as [Hvt Hfo]. rewrite Hvt in *. clear v Hvt Ev Hf.
  assert (Htab : has_table data) by (split; [auto|split; [auto|split; [auto|split; [lia|lia]]]]).
  assert (Hsl : zlen sects = entries data * header_size data) by (rewrite Es; apply zlen_slice; nia).
  assert (Hbs : bytes sects) by (rewrite Es; apply bytes_slice; auto).
  destruct (row_in (names_index data) (entries data) (header_size data) ltac:(lia) Hes40) as [Hidx0 Hidx].
  assert (Hnum : forall o k, 0 <= o -> 0 <= k -> o + k <= entries data * header_size data -> num (little data) sects o k = num (little data) data (table_off data + o) k).
  { intros. rewrite Es. apply num_slice; lia. }
  rewrite elf32_num by (auto; lia). cbn [bind]. rewrite Hnum by lia. rewrite Z.add_assoc. fold (entry data (names_index data)). fold (names_type data).
  destruct (names_type data =? 3) eqn:E6; cbn [negb].
  2:{ left. split; [auto|]. split; [left; lia|reflexivity]. }
  rewrite !elf64_num by (auto; destruct (class64 data); lia). cbn [bind]. rewrite !Hnum by (destruct (class64 data); lia).
  assert (Eo : num (little data) data (table_off data + (names_index data * header_size data + (if class64 data then 24 else 16))) (if class64 data then 8 else 4) = names_off data).
  { unfold names_off, entry. destruct (class64 data); rewrite Z.add_assoc; reflexivity. }
  assert (El : num (little data) data (table_off data + (names_index data * header_size data + (if class64 data then 32 else 20))) (if class64 data then 8 else 4) = names_len data).
  { unfold names_len, entry. destruct (class64 data); rewrite Z.add_assoc; reflexivity. }
  rewrite Eo, El.
  assert (Ho0 : 0 <= names_off data) by (unfold names_off; destruct (class64 data); apply num_bound; auto; lia).
  assert (Hl0 : 0 <= names_len data) by (unfold names_len; destruct (class64 data); apply num_bound; auto; lia).
  rewrite follow_len by auto. pose proof (follow_off (little data) (names_off data) Ho0) as Hf. cbn zeta in Hf.
  set (v := off_t (follow_val (little data) (names_off data))) in *.
  set (slen := if 2 ^ 32 <=? names_len data then 2 ^ 32 - 1 else names_len data).
  destruct ((v =? -1) || (slen =? 2 ^ 32 - 1) || (2 ^ 31 <=? slen)) eqn:E7.
  { left. split; [auto|]. split; [|reflexivity]. unfold bad_names.
    destruct (2 ^ 31 <=? names_len data) eqn:E8; [right; right; right; lia|].
    assert (slen = names_len data) by (subst slen; destruct (2 ^ 32 <=? names_len data) eqn:E9; lia).
    destruct ((2 ^ 32 <=? names_off data) || (little data && (names_off data =? 2 ^ 32 - 1))) eqn:E.
    - apply orb_prop in E as [E|E]; [right; left; lia|]. apply andb_prop in E as [Ea Eb]. right. right. left. split; [auto|lia].
    - destruct (names_off data <? (if little data then 2 ^ 31 else 2 ^ 32)); lia. }
  assert (Hslen : slen = names_len data /\ names_len data < 2 ^ 31) by (subst slen; destruct (2 ^ 32 <=? names_len data) eqn:E9; lia).
  destruct Hslen as [-> Hlen31].
  assert (E : (2 ^ 32 <=? names_off data) || (little data && (names_off data =? 2 ^ 32 - 1)) = false).
  { destruct ((2 ^ 32 <=? names_off data) || (little data && (names_off data =? 2 ^ 32 - 1))); [lia|reflexivity]. }
  rewrite E in Hf.
  assert (Hnb : ~ bad_names data).
  { unfold bad_names. intros [H|[H|[[H H']|H]]]; [lia|lia| |lia]. rewrite H, H' in E. cbn in E. lia. }
  right. split; [tauto|].
  destruct (pread data (names_len data) v) as [strs|] eqn:Ep.
  2:{ exists false. split; [reflexivity|]. split; [discriminate|]. intros [_ (Hfn & Hin & _)]. unfold follows in Hfn.
      assert (E' : (names_off data <? (if little data then 2 ^ 31 else 2 ^ 32)) = true) by lia. rewrite E' in Hf. apply pread_none in Ep. lia. }
  apply pread_some in Ep as (Hw0 & Hw1 & Est); [|lia].
  assert (Hw : v = names_off data /\ follows data (names_off data)).
  { unfold follows. destruct (names_off data <? (if little data then 2 ^ 31 else 2 ^ 32)) eqn:E'; lia. }
  destruct Hw as [Hw Hfn]. rewrite Hw in *.
  assert (Hstl : zlen strs = names_len data) by (rewrite Est; apply zlen_slice; lia).
  assert (He0 : 0 <= entries data) by (apply num_bound; auto; lia).
  destruct (undo_loop_exact (Z.to_nat (entries data)) sects strs (header_size data) 0 (little data) Hbs ltac:(lia) ltac:(lia) ltac:(lia) ltac:(rewrite Z2Nat.id by lia; lia)) as (b & Eb & Hbt).
  exists b. split; [auto|]. rewrite Hbt, Z2Nat.id by lia. split.
  - intros (j & Hj & H1 & H2). split; [auto|]. split; [auto|]. split; [lia|]. exists j. split; [lia|]. cbn zeta. unfold entry.
    destruct (row_in j (entries data) (header_size data) ltac:(lia) Hes40) as [Hr1 Hr2].
    rewrite Hnum in H1, H2 by lia. split; [lia|]. rewrite Est in H2.
    pose proof (num_bound (little data) data (table_off data + j * header_size data) 4 Hb ltac:(lia)). rewrite slice_slice in H2 by lia. exact H2.
  - intros [_ (_ & _ & j & Hj & H1 & H2)]. unfold entry in H1, H2. exists j. split; [lia|].
    destruct (row_in j (entries data) (header_size data) ltac:(lia) Hes40) as [Hr1 Hr2]. rewrite Hnum by lia. split; [lia|].
    pose proof (num_bound (little data) data (table_off data + j * header_size data) 4 Hb ltac:(lia)). rewrite Est. rewrite slice_slice by lia. exact H2.
Qed.
End Main.
