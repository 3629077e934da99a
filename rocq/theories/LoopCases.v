(** * LoopCases: small libraries that keep the contracts, for concrete cases.  Not part of the
    model of drpm. *)
From Verif Require Import Base BaseLemmas Stream CodecLoop SpecLoop LoopProofs.

(** ** An encoder that copies, through a buffer of its own *)

Definition fifo_take (endc : Z) (s : list Z) (room : Z) : Z * list Z * list Z :=
  (if zlen s <=? room then endc else 0, slice s 0 room, slice s room (zlen s - room)).
Definition fifo_run : call (list Z) := fun s input room =>
  let '(_, out, s') := fifo_take 0 (s ++ input) room in (0, zlen input, out, s').
(** The return value of zstd tells how much is left, so 0 is the end there. *)
Definition fifo_finish (endc goon : Z) : call (list Z) := fun s _ room =>
  (if zlen s <=? room then endc else goon, 0, slice s 0 room, slice s room (zlen s - room)).
(** Levels from 1 to 9 are accepted, others are rejected with [reject]. *)
Definition fifo (reject endc goon : Z) : encoder :=
  mkencoder (list Z) (fun level => (if (1 <=? level) && (level <=? 9) then 0 else reject, []))
    fifo_run (fifo_finish endc goon).

(** What went in is what came out and what is still in the buffer. *)
Definition fifo_view : enc_view (list Z) :=
  mkev (fun s c p => c = p ++ s) (fun s c p => c = p ++ s) (fun _ => False) (fun s input => zlen s + zlen input).

Definition copied (b x : list Z) : Prop := b = x.

Lemma slice_cut {A} (l : list A) room : 0 < room ->
  l = slice l 0 room ++ slice l room (zlen l - room) /\ zlen (slice l 0 room) <= room /\
  zlen (slice l room (zlen l - room)) = zlen l - zlen (slice l 0 room) /\
  (zlen (slice l 0 room) < room -> slice l 0 room = l /\ slice l room (zlen l - room) = [] /\ zlen l < room).
Proof.
  intros Hr. pose proof (zlen_nonneg l). destruct (Z_le_gt_dec room (zlen l)) as [Hle|Hgt].
  - pose proof (zlen_slice l 0 room ltac:(lia) ltac:(lia) ltac:(lia)) as E1.
    pose proof (zlen_slice l room (zlen l - room) ltac:(lia) ltac:(lia) ltac:(lia)) as E2.
    split; [apply rest_split; lia|]. split; [lia|]. split; [lia|]. intros H1. lia.
  - rewrite (slice_all_ge l room) by lia. rewrite (slice_nil_len l room (zlen l - room)) by lia.
    split; [rewrite app_nil_r; reflexivity|]. split; [lia|]. split; [cbn; lia|]. intros _. split; [reflexivity|]. split; [reflexivity|lia].
Qed.

Lemma fifo_ok endc goon (fine fine_end : Z -> Prop) (ended : Z -> bool) :
  fine 0 -> fine_end endc -> fine_end goon -> ended endc = true -> ended goon = false ->
  encodes copied fine fine_end ended fifo_run (fifo_finish endc goon) fifo_view.
Proof.
  intros Hf He Hg Ee Eg. split.
  - intros s c p input room ret n out s' Hl Hr E. unfold fifo_run, fifo_take in E.
    injection E as <- <- <- <-. cbn [fifo_view ev_live ev_left ev_stuck] in *.
    destruct (slice_cut (s ++ input) room Hr) as (A & B & C & D).
    pose proof (zlen_nonneg input). rewrite Z.sub_diag, (slice_nil_len input _ 0) by lia. rewrite slice_all.
    split; [lia|]. split; [exact B|]. split.
    { rewrite Hl, <- !app_assoc. f_equal. exact A. }
    split; [reflexivity|]. pose proof (zlen_nonneg (slice (s ++ input) room (zlen (s ++ input) - room))).
    change (zlen (@nil Z)) with 0. split; [lia|]. split; [rewrite C, zlen_app; lia|]. split; [right; intros []|]. left; exact Hf.
  - intros s c p room ret n out s' Hl Hr E. unfold fifo_finish in E. injection E as <- <- <- <-.
    cbn [fifo_view ev_live ev_closing ev_left ev_stuck] in *.
    assert (Hc : c = p ++ s) by (destruct Hl; assumption).
    destruct (slice_cut s room Hr) as (A & B & C & D).
    split; [reflexivity|]. split; [exact B|]. split; [rewrite Hc, <- app_assoc; f_equal; exact A|].
    split. { intros Hlt. destruct (D Hlt) as (_ & _ & Hs). replace (zlen s <=? room) with true by (symmetry; apply Z.leb_le; lia). exact Ee. }
    split.
    { destruct (zlen s <=? room) eqn:El; [|rewrite Eg; discriminate]. intros _. apply Z.leb_le in El.
      unfold copied. rewrite slice_all_ge by lia. symmetry. exact Hc. }
    pose proof (zlen_nonneg (slice s room (zlen s - room))).
    change (zlen (@nil Z)) with 0. split; [lia|]. split; [lia|]. split; [right; intros []|]. left. destruct (zlen s <=? room); assumption.
Qed.

Lemma fifo_starts reject endc goon : starts (fifo reject endc goon) fifo_view 9.
Proof.
  intros level Hl. exists []. cbn [fifo e_init].
  replace (1 <=? level) with true by (symmetry; apply Z.leb_le; lia).
  replace (level <=? 9) with true by (symmetry; apply Z.leb_le; lia). split; reflexivity.
Qed.

(** ** A decoder that repeats every byte [unit] times *)

Definition repeated (unit : Z) (b x : list Z) : Prop := x = concat (map (fun v => repeat v (Z.to_nat unit)) b).

Fixpoint pump (unit : Z) (s : list Z) (input : list Z) (room : Z) : Z * list Z * list Z :=
  if room <=? zlen s then (0, slice s 0 room, slice s room (zlen s - room))
  else match input with
       | [] => (0, s, [])
       | v :: r => let '(n, out, s') := pump unit (repeat v (Z.to_nat unit)) r (room - zlen s) in (n + 1, s ++ out, s')
       end.
Definition repeater (unit : Z) : decoder :=
  mkdecoder (list Z) [] (fun s input room => let '(n, out, s') := pump unit s input room in (0, n, out, s')).

Definition repeater_view (unit : Z) : dec_view (list Z) :=
  mkdv (fun s c p => repeated unit c (p ++ s)) (fun _ => False) (fun s input => zlen s + unit * zlen input).

Lemma repeated_app unit a b x y : repeated unit a x -> repeated unit b y -> repeated unit (a ++ b) (x ++ y).
Proof. unfold repeated. intros -> ->. rewrite map_app, concat_app. reflexivity. Qed.

Lemma pump_ok unit : 0 <= unit -> forall input s room n out s', 0 < room -> pump unit s input room = (n, out, s') ->
  0 <= n <= zlen input /\ zlen out <= room /\
  (exists y, repeated unit (slice input 0 n) y /\ s ++ y = out ++ s') /\
  (zlen out < room -> n = zlen input /\ s' = []).
Proof.
  intros Hu. induction input as [|v r IH]; intros s room n out s' Hr E; cbn [pump] in E.
  - destruct (Z.leb_spec room (zlen s)) as [Hle|Hlt]; injection E as <- <- <-.
    + destruct (slice_cut s room Hr) as (A & B & C & D). cbn. split; [lia|]. split; [exact B|]. split.
      * exists []. split; [reflexivity|]. rewrite app_nil_r. exact A.
      * intros H. destruct (D H) as (_ & _ & D'). lia.
    + cbn. split; [lia|]. split; [lia|]. split; [|intros _; split; reflexivity]. exists []. split; reflexivity.
  - destruct (Z.leb_spec room (zlen s)) as [Hle|Hlt].
    + injection E as <- <- <-. destruct (slice_cut s room Hr) as (A & B & C & D).
      pose proof (zlen_nonneg (v :: r)). split; [lia|]. split; [exact B|]. split.
      * exists []. split; [reflexivity|]. rewrite app_nil_r. exact A.
      * intros H0. destruct (D H0) as (_ & _ & D'). lia.
    + destruct (pump unit (repeat v (Z.to_nat unit)) r (room - zlen s)) as [[n1 out1] s1] eqn:E1.
      injection E as <- <- <-. destruct (IH _ (room - zlen s) _ _ _ ltac:(lia) E1) as (A & B & (y & C & C') & D).
      rewrite zlen_cons, zlen_app. split; [lia|]. split; [lia|]. split.
      * exists (repeat v (Z.to_nat unit) ++ y). split.
        { replace (slice (v :: r) 0 (n1 + 1)) with ([v] ++ slice r 0 n1).
          - apply repeated_app; [|exact C]. unfold repeated. cbn. rewrite app_nil_r. reflexivity.
          - unfold slice. change (Z.to_nat 0) with 0%nat. cbn [skipn].
            replace (Z.to_nat (n1 + 1)) with (S (Z.to_nat n1)) by lia. reflexivity. }
        { rewrite <- app_assoc. f_equal. exact C'. }
      * intros H. destruct (D ltac:(lia)) as [-> ->]. split; [lia|reflexivity].
Qed.

Lemma repeated_len unit b x : 0 <= unit -> repeated unit b x -> zlen x = unit * zlen b.
Proof.
  unfold repeated. intros Hu ->. induction b as [|v b IH]; cbn [map concat]; [cbn; lia|].
  rewrite zlen_app, IH, zlen_repeat, zlen_cons. lia.
Qed.

Lemma repeater_ok unit (fine : Z -> Prop) : 0 <= unit -> fine 0 -> decodes_stream (repeated unit) fine (repeater unit) (repeater_view unit).
Proof.
  intros Hu Hf. split; [reflexivity|].
  intros b x s c p input rest room ret n out s' Hv Hl Hb Hr E. cbn [repeater d_run] in E.
  destruct (pump unit s input room) as [[n1 out1] s1] eqn:E1. injection E as <- <- <- <-.
  destruct (pump_ok unit Hu input s room n1 out1 s1 Hr E1) as (A & B & (y & C & C') & D).
  cbn [repeater_view dv_live dv_left dv_stuck] in *.
  assert (L : repeated unit (c ++ slice input 0 n1) ((p ++ out1) ++ s1)).
  { rewrite <- app_assoc, <- C', app_assoc. apply repeated_app; assumption. }
  split; [exact A|]. split; [exact B|]. split; [exact L|]. split.
  { exists (s1 ++ concat (map (fun v => repeat v (Z.to_nat unit)) (slice input n1 (zlen input - n1) ++ rest))).
    unfold repeated in Hv, L. rewrite Hv, <- Hb.
    transitivity (concat (map (fun v => repeat v (Z.to_nat unit)) ((c ++ slice input 0 n1) ++ slice input n1 (zlen input - n1) ++ rest))).
    - rewrite (map_app _ (c ++ _)), concat_app, <- L, <- !app_assoc. reflexivity.
    - do 2 f_equal. rewrite <- app_assoc. f_equal. rewrite app_assoc. f_equal. symmetry. apply rest_split. lia. }
  split.
  { intros Hlt. destruct (D Hlt) as [-> ->]. split; [reflexivity|]. intros ->.
    rewrite slice_all, app_nil_r in L. unfold repeated in L, Hv. rewrite Hv, <- Hb, app_nil_r. exact L. }
  assert (Hlen : zlen s + unit * n1 = zlen out1 + zlen s1).
  { pose proof (f_equal zlen C') as E. rewrite !zlen_app in E. rewrite (repeated_len _ _ _ Hu C) in E.
    rewrite zlen_slice in E by lia. lia. }
  rewrite zlen_slice by lia. pose proof (zlen_nonneg s1). split; [nia|]. split; [nia|]. split; [right; intros []|left; exact Hf].
Qed.
