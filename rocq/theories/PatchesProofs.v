(** * PatchesProofs: lists of patched files *)
From Verif Require Import Base BaseLemmas Utils Rpm Expand Archive Seq UtilsProofs SpecCodec Patches SpecPatches.

(** ** Reading *)
Definition bad {A} (r : res A) : Prop := (exists e, r = Err e) \/ (exists u, r = Ub u).
Lemma bad_bind {A B} (r : res A) (k : A -> res B) : (forall a, r = Ok a -> bad (k a)) -> r <> NoFuel -> bad (bind r k).
Proof.
  intros H Hn. destruct r as [a|e|u|]; cbn [bind].
  - apply H. reflexivity.
  - left. eexists. reflexivity.
  - right. eexists. reflexivity.
  - congruence.
Qed.

Lemma rd_fuel {A} (l : list A) i : rd l i <> NoFuel.
Proof. unfold rd. destruct (i <? 0); [|destruct nth_error]; discriminate. Qed.
Lemma read_fuel data pos n : rpml_read data pos n <> NoFuel.
Proof. unfold rpml_read. destruct (n =? 0); [discriminate|]. destruct (zlen data <? pos + n); discriminate. Qed.
Lemma bind_fuel {A B} (r : res A) (k : A -> res B) : r <> NoFuel -> (forall a, r = Ok a -> k a <> NoFuel) -> bind r k <> NoFuel.
Proof. intros H1 H2. destruct r; cbn [bind]; [apply H2; reflexivity|discriminate..|congruence]. Qed.
Lemma string_fuel data pos want : rpml_get_string data pos want <> NoFuel.
Proof.
  unfold rpml_get_string. apply bind_fuel; [apply read_fuel|]. intros [b p] _. apply bind_fuel; [apply rd_fuel|].
  intros n _. destruct want; [|discriminate]. apply bind_fuel; [apply read_fuel|]. intros [s q] _. discriminate.
Qed.
Lemma uint16_fuel data pos : rpml_get_uint16 data pos <> NoFuel.
Proof.
  unfold rpml_get_uint16. apply bind_fuel; [apply read_fuel|]. intros [b p] _. apply bind_fuel; [|discriminate].
  unfold parse_be16_at. repeat (apply bind_fuel; [apply rd_fuel|intros ? _]). discriminate.
Qed.
Lemma uint32_fuel data pos : rpml_get_uint32 data pos <> NoFuel.
Proof.
  unfold rpml_get_uint32. apply bind_fuel; [apply read_fuel|]. intros [b p] _. apply bind_fuel; [|discriminate].
  unfold parse_be32_at. repeat (apply bind_fuel; [apply rd_fuel|intros ? _]). discriminate.
Qed.
Lemma skip_fuel data n pos : skip_strings data n pos <> NoFuel.
Proof.
  revert pos. induction n as [|n IH]; intros pos; cbn [skip_strings]; [discriminate|].
  apply bind_fuel; [apply string_fuel|]. intros [s p] _. apply IH.
Qed.

Lemma filename_undefined data pos buf : bad (rpml_get_filename data pos (buf, None)).
Proof.
  unfold rpml_get_filename. apply bad_bind; [|apply read_fuel]. intros [b p] _.
  apply bad_bind; [|apply rd_fuel]. intros off _. apply bad_bind; [|apply rd_fuel]. intros b1 _.
  apply bad_bind; [|destruct (b1 =? 255); [apply uint16_fuel|discriminate]]. intros [len q] _.
  right. eexists. reflexivity.
Qed.

Lemma body_bad data pos : bad (read_rpmlist_body false data pos).
Proof.
  unfold read_rpmlist_body.
  apply bad_bind; [|apply string_fuel]. intros [name p1] _. apply bad_bind; [|apply string_fuel]. intros [evr p2] _.
  apply bad_bind; [|apply string_fuel]. intros [h p3] _. apply bad_bind; [|apply uint32_fuel]. intros [t p4] _.
  apply bad_bind; [|apply uint16_fuel]. intros [patches p5] _.
  assert (Hlast : forall fuel p files, bad (bind (listed_files data (S fuel) p ([], None) files) (fun '(files, _) => Ok (mkpi (name ++ [45] ++ evr) files)))).
  { intros fuel p files. cbn [listed_files]. destruct (filename_undefined data p []) as [[e E]|[u E]]; rewrite E; cbn [bind].
    - left. eexists. reflexivity.
    - right. eexists. reflexivity. }
  destruct (0 <? patches).
  - apply bad_bind.
    + intros [[nb files] p6] E.
      destruct (skip_strings data (Z.to_nat patches) p5) as [p|?|?|]; try discriminate E. cbn [bind] in E.
      destruct (rpml_get_uint32 data p) as [[n q]|?|?|]; try discriminate E. cbn [bind] in E.
      cbn [unpatched_files] in E. destruct (n =? 0); [|discriminate E].
      injection E as <- <- <-. apply Hlast.
    + apply bind_fuel; [apply skip_fuel|]. intros p _. apply bind_fuel; [apply uint32_fuel|]. intros [n q] _.
      cbn [unpatched_files]. destruct (n =? 0); discriminate.
  - cbn [bind]. apply Hlast.
Qed.

Lemma patches_undefined L print patch : exists u, patches_read L false print patch = Ub u.
Proof.
  unfold patches_read. destruct patch as [d|]; [|eexists; reflexivity].
  assert (H : bad (read_rpmlist false d)).
  { unfold read_rpmlist. apply bad_bind; [|apply read_fuel]. intros [m p] _.
    destruct (negb (list_eqb m MAGIC_RPML)); [left; eexists; reflexivity|]. apply body_bad. }
  destruct H as [[e E]|[u E]]; rewrite E; cbn [bind]; eexists; reflexivity.
Qed.

Lemma print_undefined l : l <> [] -> ~ is_ok (print_files (zlen l) 0 l).
Proof.
  intros Hl. assert (H : forall l i, 0 <= i -> l <> [] -> ~ is_ok (print_files (i + zlen l) i l)).
  { clear. induction l as [|f l IH]; intros i Hi Hl; [congruence|]. cbn [print_files].
    destruct (i + zlen (f :: l) <? 32 * (i + 1)) eqn:E; [intros [a Ha]; discriminate|].
    destruct (parse_md5 (fi_md5 f) 16) as [[m|]|?|?|]; cbn [bind]; try (intros [a Ha]; discriminate).
    assert (Hn : l <> []) by (intros ->; unfold zlen in E; cbn [length] in E; lia).
    specialize (IH (i + 1) ltac:(lia) Hn). replace (i + 1 + zlen l) with (i + zlen (f :: l)) in IH by (unfold zlen; cbn [length]; lia).
    intros [a Ha]. apply IH. destruct (print_files (i + zlen (f :: l)) (i + 1) l) as [x|?|?|]; try discriminate Ha. eexists. reflexivity. }
  apply (H l 0); [lia|exact Hl].
Qed.

(** ** Using the lists *)
Definition stored_file (x : list Z * Z * list Z) : pfile := let '(n, flags, md5) := x in mkpf (map Some n ++ [Some 0]) 0 flags md5.

Lemma buf_string_ok n : Forall (fun c => c <> 0) n -> buf_string (map Some n ++ [Some 0]) = Ok n.
Proof.
  induction 1 as [|c n Hc _ IH]; cbn [map app buf_string]; [reflexivity|].
  rewrite (proj2 (Z.eqb_neq c 0) Hc), IH. reflexivity.
Qed.

Lemma list_eqb_sym a b : list_eqb a b = list_eqb b a.
Proof.
  destruct (list_eqb a b) eqn:E.
  - apply list_eqb_spec in E. subst. symmetry. apply list_eqb_spec. reflexivity.
  - destruct (list_eqb b a) eqn:E2; [|reflexivity]. apply list_eqb_spec in E2. subst.
    rewrite (proj2 (list_eqb_spec a a) eq_refl) in E. discriminate.
Qed.

Lemma find_ok l name : Forall (fun x => Forall (fun c => c <> 0) (fst (fst x))) l ->
  match first_named l name with
  | None => find_name (map stored_file l) name = Ok None
  | Some (flags, md5) => exists f, find_name (map stored_file l) name = Ok (Some f) /\ pf_flags f = flags /\ pf_md5 f = md5
  end.
Proof.
  induction 1 as [|[[n flags] md5] l Hn _ IH]; cbn [first_named map find_name]; [reflexivity|].
  cbn [fst] in Hn. cbn [stored_file pf_name]. rewrite (buf_string_ok n Hn). cbn [bind]. rewrite (list_eqb_sym name n).
  destruct (list_eqb n name); [|exact IH]. eexists. split; [reflexivity|]. split; reflexivity.
Qed.

Lemma hex_char_ok d : 0 <= d < 16 -> rd digits d = Ok (hex_char d).
Proof.
  intros H. assert (E : d = 0 \/ d = 1 \/ d = 2 \/ d = 3 \/ d = 4 \/ d = 5 \/ d = 6 \/ d = 7 \/ d = 8 \/ d = 9 \/ d = 10 \/ d = 11 \/
                        d = 12 \/ d = 13 \/ d = 14 \/ d = 15) by lia.
  repeat destruct E as [->|E]; try reflexivity. subst. reflexivity.
Qed.

Lemma hex_text_ok l : Forall (fun b => 0 <= b < 256) l -> dump_hex l (zlen l) = Ok (hex_text l).
Proof.
  intros Hb. unfold dump_hex.
  assert (H : forall n acc, (n <= length l)%nat -> dump_hex_loop n l acc = Ok (hex_text (firstn n l) ++ acc)).
  { induction n as [|n IH]; intros acc Hn; cbn [dump_hex_loop]; [reflexivity|].
    destruct (nth_error l n) as [b|] eqn:En; [|apply nth_error_None in En; lia].
    assert (Er : rd l (Z.of_nat n) = Ok b).
    { unfold rd. replace (Z.of_nat n <? 0) with false by lia. rewrite Nat2Z.id, En. reflexivity. }
    rewrite Er. cbn [bind].
    assert (Hbb : 0 <= b < 256) by (rewrite Forall_forall in Hb; apply Hb; apply nth_error_In in En; exact En).
    assert (Z.land (Z.shiftr b 4) 15 = b / 16) as ->.
    { change 15 with (Z.ones 4). rewrite Z.land_ones, Z.shiftr_div_pow2 by lia.
      change (2 ^ 4) with 16. apply Z.mod_small. Z.div_mod_to_equations; lia. }
    assert (Z.land b 15 = b mod 16) as ->.
    { change 15 with (Z.ones 4). rewrite Z.land_ones by lia. reflexivity. }
    rewrite hex_char_ok by (Z.div_mod_to_equations; lia). cbn [bind].
    rewrite hex_char_ok by (Z.div_mod_to_equations; lia). cbn [bind].
    rewrite IH by lia. f_equal.
    assert (Ef : firstn (S n) l = firstn n l ++ [b]).
    { clear - En. revert l En. induction n as [|n IH]; intros [|a l] En; cbn in En; try discriminate.
      - injection En as ->. reflexivity.
      - cbn [firstn app]. f_equal. apply IH. exact En. }
    rewrite Ef. unfold hex_text. rewrite map_app, concat_app, <- app_assoc. reflexivity. }
  unfold zlen. rewrite Nat2Z.id, H by lia. rewrite firstn_all, app_nil_r. reflexivity.
Qed.

Lemma hex_text_inj a b : Forall (fun b => 0 <= b < 256) a -> Forall (fun b => 0 <= b < 256) b -> hex_text a = hex_text b -> a = b.
Proof.
  intros Ha Hb E.
  destruct (dump_hex_spec a Ha) as (s & Es & Hs & _). destruct (dump_hex_spec b Hb) as (t & Et & Ht & _).
  rewrite (hex_text_ok a Ha) in Es. rewrite (hex_text_ok b Hb) in Et. congruence.
Qed.

Lemma unpatched_ok ps qs name md5 :
  Forall (fun x => Forall (fun c => c <> 0) (fst (fst x))) ps -> Forall (fun x => Forall (fun c => c <> 0) (fst (fst x))) qs ->
  Forall (fun x => zlen (snd x) = 16 /\ Forall (fun b => 0 <= b < 256) (snd x)) qs -> Forall (fun b => 0 <= b < 256) md5 ->
  exists b, is_unpatched (map stored_file ps) (map stored_file qs) name (hex_text md5) = Ok b /\
  (b = true <-> exists flags m, first_named ps name = Some (flags, m) /\ Z.testbit flags 10 = true /\
     match first_named qs name with None => True | Some (_, m') => m' <> md5 end).
Proof.
  intros Hp Hq Hm Hmd. unfold is_unpatched. pose proof (find_ok ps name Hp) as Ep. pose proof (find_ok qs name Hq) as Eq.
  destruct (first_named ps name) as [[flags m]|].
  2:{ rewrite Ep. cbn [bind]. exists false. split; [reflexivity|]. split; [discriminate|]. intros (? & ? & ? & _). discriminate. }
  destruct Ep as (f & Ef & Efl & _). rewrite Ef. cbn [bind]. rewrite Efl.
  assert (Hbit : (Z.land flags RPMFILE_UNPATCHED =? 0) = negb (Z.testbit flags 10)).
  { change RPMFILE_UNPATCHED with (2 ^ 10). destruct (Z.testbit flags 10) eqn:Et; cbn [negb].
    - apply Z.eqb_neq. intros H0. assert (Hc : Z.testbit (Z.land flags (2 ^ 10)) 10 = true).
      { rewrite Z.land_spec, Et, Z.pow2_bits_true by lia. reflexivity. }
      rewrite H0, Z.bits_0 in Hc. discriminate.
    - apply Z.eqb_eq. apply Z.bits_inj'. intros k Hk. rewrite Z.land_spec, Z.bits_0.
      destruct (Z.eq_dec k 10) as [->|Hne]; [rewrite Et; reflexivity|]. rewrite Z.pow2_bits_false by lia. apply andb_false_r. }
  rewrite Hbit. destruct (Z.testbit flags 10) eqn:Et; cbn [negb].
  2:{ exists false. split; [reflexivity|]. split; [discriminate|]. intros (fl & m' & E & Hb & _). injection E as <- <-. congruence. }
  assert (Hin : forall fl m', first_named qs name = Some (fl, m') -> zlen m' = 16 /\ Forall (fun b => 0 <= b < 256) m').
  { clear - Hm. intros fl m'. induction Hm as [|[[n g] x] qs Hx _ IH]; cbn [first_named]; [discriminate|].
    destruct (list_eqb n name); [|exact IH]. intros E. injection E as <- <-. exact Hx. }
  destruct (first_named qs name) as [[fl m']|].
  2:{ rewrite Eq. cbn [bind]. exists true. split; [reflexivity|]. split; [|reflexivity]. intros _.
      exists flags, m. split; [reflexivity|]. split; [exact Et|exact I]. }
  destruct Eq as (g & Eg & _ & Em). rewrite Eg. cbn [bind]. rewrite Em. destruct (Hin fl m' eq_refl) as [Hz Hb].
  rewrite <- Hz, (hex_text_ok m' Hb). cbn [bind]. eexists. split; [reflexivity|].
  rewrite negb_true_iff. split.
  - intros Hne. exists flags, m. split; [reflexivity|]. split; [exact Et|]. intros ->.
    rewrite (proj2 (list_eqb_spec _ _) eq_refl) in Hne. discriminate.
  - intros (fl' & m'' & _ & _ & Hne). destruct (list_eqb (hex_text md5) (hex_text m')) eqn:E; [|reflexivity].
    apply list_eqb_spec in E. apply hex_text_inj in E; auto. congruence.
Qed.
