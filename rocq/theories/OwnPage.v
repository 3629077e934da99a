(** A block that could not be written to the temporary file is used after its release, whatever
    the limit on the blocks in memory is. *)
Require Import ZArith List Bool Lia.
Require Import Verif.Own Verif.OwnCodec Verif.OwnRpm Verif.OwnRead Verif.OwnCheck Verif.OwnMake.
Require Import Verif.OwnBlocks Verif.OwnApply Verif.OwnCases Verif.SpecOwn.
Import ListNotations.
Open Scope Z_scope.

Definition wlp {A} (m : M A) (Q : A -> st -> Prop) (s : st) : Prop :=
  match m s with Done a s' => Q a s' | Bad _ => True end.
Lemma wlp_bind {A B} (m : M A) (k : A -> M B) Q s :
  wlp m (fun a s => wlp (k a) Q s) s -> wlp (bind m k) Q s.
Proof. unfold wlp, bind. destruct (m s); auto. Qed.
Lemma wlp_run {A B} (m : M A) (k : A -> M B) Q s a s' :
  m s = Done a s' -> wlp (k a) Q s' -> wlp (bind m k) Q s.
Proof. unfold wlp, bind. intros ->. auto. Qed.
Lemma wlp_ret {A} (a : A) (Q : A -> st -> Prop) s : Q a s -> wlp (ret a) Q s.
Proof. auto. Qed.
Lemma wlp_use p (Q : unit -> st -> Prop) s : Q tt s -> wlp (use p) Q s.
Proof. unfold wlp, use. destruct p; auto. destruct existsb; auto. Qed.
Lemma wlp_mono {A} (m : M A) (Q R : A -> st -> Prop) s :
  wlp m Q s -> (forall a s, Q a s -> R a s) -> wlp m R s.
Proof. unfold wlp. destruct (m s); auto. Qed.

(** What is dead stays dead. *)
Definition dead (q : Z) (s : st) : Prop := q < next s /\ existsb (Z.eqb q) (live s) = false.
Definition kd {A} (m : M A) : Prop := forall q s, dead q s -> wlp m (fun _ => dead q) s.
Lemma kd_ret {A} (a : A) : kd (ret a).
Proof. intros q s D. exact D. Qed.
Lemma kd_bind {A B} (m : M A) (k : A -> M B) : kd m -> (forall a, kd (k a)) -> kd (bind m k).
Proof.
  intros H K q s D. apply wlp_bind. eapply wlp_mono; [apply (H q); exact D|]. intros a s'. apply K.
Qed.
Lemma kd_use p : kd (use p).
Proof. intros q s D. now apply wlp_use. Qed.
Lemma existsb_remove q n l : existsb (Z.eqb q) l = false -> existsb (Z.eqb q) (remove1 n l) = false.
Proof.
  induction l as [|m l IH]; cbn; [auto|]. intros H. apply orb_false_iff in H. destruct H as [H1 H2].
  destruct (n =? m); cbn; [exact H2|]. rewrite H1. now apply IH.
Qed.
Lemma kd_free p : kd (free p).
Proof.
  intros q s D. unfold wlp, free. destruct p; auto. destruct existsb; auto.
  destruct D as [D1 D2]. split; [exact D1|]. cbn. now apply existsb_remove.
Qed.
Lemma kd_call : kd call.
Proof.
  intros q s D. unfold call. apply wlp_bind. unfold wlp, pick. destruct (picks s); cbn; exact D.
Qed.
Ltac kds :=
  repeat first
    [ apply kd_ret | apply kd_use | apply kd_free | apply kd_call | apply kd_bind; [|intro]
    | match goal with |- kd (match ?x with _ => _ end) => destruct x end ].
Lemma kd_frees l : kd (frees l).
Proof. induction l; cbn [frees]; kds. assumption. Qed.
Lemma kd_freepairs l : kd (freepairs l).
Proof. induction l as [|[b d] l IH]; cbn [freepairs]; kds. assumption. Qed.
Lemma dead_pages q l s : dead q s -> wlp (freepages (At q :: l)) (fun _ _ => False) s.
Proof.
  intros [_ D]. cbn [freepages]. apply wlp_bind. unfold wlp, use. rewrite D. exact I.
Qed.
Lemma dead_destroy q l b p fs s :
  isnull (b_self b) = false -> k_page p = At q :: l -> dead q s ->
  wlp (blocks_destroy true b p fs) (fun _ _ => False) s.
Proof.
  intros Y E D. unfold blocks_destroy. rewrite Y, E.
  apply wlp_bind. eapply wlp_mono; [apply (kd_use _ q); exact D|]. clear D. clear s. intros ? s D. cbv beta in D.
  apply wlp_bind. eapply wlp_mono; [apply (kd_free _ q); exact D|]. clear D. clear s. intros ? s D. cbv beta in D.
  apply wlp_bind. eapply wlp_mono; [apply (kd_freepairs _ q); exact D|]. clear D. clear s. intros ? s D. cbv beta in D.
  apply wlp_bind. eapply wlp_mono; [apply (kd_freepairs _ q); exact D|]. clear D. clear s. intros ? s D. cbv beta in D.
  apply wlp_bind. eapply wlp_mono; [apply (dead_pages q); exact D|]. intros ? ? [].
Qed.

(** One more block in memory; then one that does not fit. *)
Definition grow_picks : list Z := [1; 0; 0; 0; 0] ++ good 6.
Definition last_picks : list Z := [1; 0; 0; 1; 0; 0; 1; 0; 0; 1].
Fixpoint fill_picks (n : nat) : list Z :=
  match n with O => last_picks | S n => grow_picks ++ fill_picks n end.
Definition page_picks (lim : Z) : list Z :=
  good 97 ++ [1; lim + 1] ++ fill_picks (Z.to_nat lim).

Section Run.
Variables (lim mo : Z) (r : rpm) (fi : finfo) (q : ptr).
Variables (b : blocks) (fs : list (ptr * ptr)) (s0 : dstream) (ab buf h : ptr) (w : wrapper).
Variable c : ptr.
Hypothesis plain : cs_zstd (wr_strm w) = false.
Let at_pool (core : list (ptr * ptr)) (pages : list ptr) : parts :=
  mkparts b (mkpool core [] pages Null) fs s0 ab buf h w c.


Lemma wlp_call L n p rest e (Q : bool -> st -> Prop) :
  Q (p =? 0) (mkst L n rest e) -> wlp call Q (mkst L n (p :: rest) e).
Proof. auto. Qed.
Lemma wlp_pickn L n p rest e (Q : nat -> st -> Prop) :
  Q (Z.to_nat p) (mkst L n rest e) -> wlp pickn Q (mkst L n (p :: rest) e).
Proof. auto. Qed.
Lemma wlp_malloc L n ps (Q : ptr -> st -> Prop) :
  Q (At n) (mkst (n :: L) (n + 1) ps no_page) -> wlp malloc Q (mkst L n ps no_page).
Proof. auto. Qed.
Lemma wlp_page L n p rest (Q : bool -> st -> Prop) :
  Q (p =? 0) (mkst L n rest no_page) -> wlp (gated e_page) Q (mkst L n (p :: rest) no_page).
Proof. auto. Qed.
Ltac tidy := cbn [negb andb isnull app rounds k_core k_idle k_page k_fd take_free fst snd
                  Z.eqb Z.to_nat pull length Nat.sub].
Ltac go := repeat first
  [ apply wlp_bind | apply wlp_ret | apply wlp_use | apply wlp_call | apply wlp_pickn
  | apply wlp_malloc | apply wlp_page | progress tidy ].

Lemma wlp_look p (Q : unit -> st -> Prop) s : Q tt s -> wlp (look p) Q s.
Proof. unfold look. destruct (isnull p); [auto|apply wlp_use]. Qed.
Lemma next_grow core L n rest :
  Z.of_nat (length core) < lim ->
  next_block lim (mkpool core [] [] Null) (mkst L n (0 :: rest) no_page) =
  Done (true, mkpool ((At n, At (n + 1)) :: core) [] [] Null)
    (mkst (n + 1 :: n :: L) (n + 1 + 1) rest no_page).
Proof.
  intros G. unfold next_block. cbn [take_free k_idle].
  assert (B : below lim (mkpool core [] [] Null) = true).
  { unfold below. cbn. rewrite Nat.add_0_r. apply Z.ltb_lt, G. }
  rewrite B. reflexivity.
Qed.
Lemma blocks_next_grow core L n rest :
  Z.of_nat (length core) < lim ->
  wlp (blocks_next lim mo true false b r fi q buf (mkpool core [] [] Null) fs)
    (fun x s => exists x1,
       x = (true, mkpool (x1 :: core) [] [] Null, fs) /\
       s = mkst (n + 1 :: n :: L) (n + 1 + 1) rest no_page)
    (mkst L n (1 :: 0 :: 0 :: 0 :: 0 :: rest) no_page).
Proof.
  intros G. unfold blocks_next.
  apply wlp_bind, wlp_use, wlp_bind, wlp_use, wlp_bind, wlp_call, wlp_bind, wlp_pickn.
  cbn [Z.eqb]. unfold get_block.
  apply wlp_bind, wlp_bind, wlp_use, wlp_bind, wlp_use.
  eapply wlp_run; [now apply next_grow|].
  cbn [negb k_core fst snd k_fd].
  apply wlp_bind, wlp_call. cbn [Z.eqb].
  apply wlp_bind, wlp_use, wlp_bind, wlp_use, wlp_bind, wlp_look, wlp_bind, wlp_call, wlp_ret.
  cbn [negb Z.eqb]. apply wlp_bind, wlp_use, wlp_ret. eauto 6.
Qed.
Lemma wrapper_write_zero L n rest :
  wlp (wrapper_write w)
    (fun x s => x = (true, w) /\ s = mkst L n rest no_page)
    (mkst L n (0 :: 0 :: 0 :: 0 :: rest) no_page).
Proof.
  unfold wrapper_write, compstrm_write. rewrite plain.
  apply wlp_bind, wlp_use, wlp_bind, wlp_call. cbn [Z.eqb negb].
  apply wlp_bind, wlp_bind, wlp_use, wlp_bind, wlp_call. cbn [Z.eqb negb].
  apply wlp_bind, wlp_ret. cbn [andb]. apply wlp_bind, wlp_pickn. cbn [Z.to_nat rounds].
  apply wlp_bind, wlp_ret. cbn [negb]. apply wlp_bind. unfold wlp at 1. cbn [free].
  apply wlp_bind, wlp_call, wlp_ret, wlp_ret. cbn [Z.eqb]. split; [|reflexivity].
  destruct w; reflexivity.
Qed.
Lemma decomp_zero L n rest :
  wlp (decompstrm_read s0)
    (fun x s => x = (true, s0) /\ s = mkst L n rest no_page)
    (mkst L n (0 :: 0 :: rest) no_page).
Proof.
  unfold decompstrm_read. apply wlp_bind, wlp_use, wlp_bind, wlp_call. cbn [Z.eqb negb].
  apply wlp_bind, wlp_pickn. cbn [Z.to_nat rounds]. apply wlp_ret. auto.
Qed.
Lemma grow_round core L n rest :
  Z.of_nat (length core) < lim ->
  wlp (ext_round lim mo true false true r fi q (at_pool core []))
    (fun x s => exists x1, x = (true, at_pool (x1 :: core) []) /\
       s = mkst (n + 1 :: n :: L) (n + 1 + 1) rest no_page)
    (mkst L n (grow_picks ++ rest) no_page).
Proof.
  intros G. unfold ext_round, at_pool, grow_picks. cbn [app good repeat].
  apply wlp_bind. eapply wlp_mono; [now apply blocks_next_grow|].
  intros x s (x1 & -> & ->). cbn [negb].
  apply wlp_bind, wlp_bind, wlp_use. eapply wlp_mono; [apply decomp_zero|].
  intros x s [-> ->]. cbn [negb]. apply wlp_bind, wlp_use.
  apply wlp_bind. eapply wlp_mono; [apply wrapper_write_zero|].
  intros x s [-> ->]. apply wlp_ret. eauto 6.
Qed.
(** The last round: the oldest block should go to the file. *)
Lemma last_round core L n :
  Z.of_nat (length core) = lim -> Forall (fun x => x < n) L ->
  wlp (ext_round lim mo true false true r fi q (at_pool core []))
    (fun x s => exists core' z, x = (false, at_pool core' [At z]) /\ dead z s)
    (mkst L n last_picks no_page).
Proof.
  intros G P. unfold ext_round, at_pool, last_picks, blocks_next, get_block.
  apply wlp_bind, wlp_bind, wlp_use, wlp_bind, wlp_use, wlp_bind, wlp_call, wlp_bind, wlp_pickn.
  cbn [Z.eqb]. apply wlp_bind, wlp_bind, wlp_use, wlp_bind, wlp_use.
  apply wlp_bind. unfold next_block. cbn [take_free k_idle k_core k_page k_fd].
  assert (B : below lim (mkpool core [] [] Null) = false).
  { unfold below. cbn. rewrite Nat.add_0_r. apply Z.ltb_ge. lia. }
  rewrite B. apply wlp_bind, wlp_call. cbn [andb]. apply wlp_bind, wlp_call, wlp_bind, wlp_pickn.
  cbn [Z.eqb]. destruct (pull (length core - 1) core) as [[x l]|].
  2: { apply wlp_bind. exact I. }
  apply wlp_bind, wlp_call. cbn [Z.eqb]. apply wlp_bind, wlp_use. unfold write_page_block.
  apply wlp_bind, wlp_call. cbn [Z.eqb]. apply wlp_bind. unfold page_for.
  apply wlp_bind, wlp_call, wlp_bind, wlp_pickn. cbn [Z.eqb k_page pull k_fd k_core k_idle].
  apply wlp_bind, wlp_malloc. cbn [isnull negb]. apply wlp_bind, wlp_page. cbn [Z.eqb negb].
  apply wlp_bind. unfold wlp at 1. cbn [free live existsb]. rewrite Z.eqb_refl. cbn [orb].
  apply wlp_ret. cbn [negb]. apply wlp_ret, wlp_ret, wlp_ret, wlp_ret.
  cbn [remove1]. rewrite Z.eqb_refl. eexists _, n. split; [reflexivity|]. split; cbn; [lia|].
  clear - P. induction P as [|y l Y P IH]; [reflexivity|]. cbn. rewrite IH.
  destruct (Z.eqb_spec n y); [lia|reflexivity].
Qed.
Lemma all_rounds m : forall core L n,
  Z.of_nat (length core + m) = lim -> Forall (fun x => x < n) L ->
  wlp (rounds (m + 1) (ext_round lim mo true false true r fi q) (at_pool core []))
    (fun x s => exists core' z, x = (false, at_pool core' [At z]) /\ dead z s)
    (mkst L n (fill_picks m) no_page).
Proof.
  induction m as [|m IH]; intros core L n G P.
  - cbn [Nat.add rounds fill_picks]. apply wlp_bind. eapply wlp_mono.
    + apply last_round; [lia|exact P].
    + intros x s (core' & z & -> & D). apply wlp_ret. eauto.
  - cbn [Nat.add rounds fill_picks]. apply wlp_bind. eapply wlp_mono.
    + apply grow_round. lia.
    + intros x s (x1 & -> & ->). apply IH; [cbn [length]; lia|].
      constructor; [lia|]. constructor; [lia|]. eapply Forall_impl; [|exact P]. cbv beta. intros; lia.
Qed.
End Run.

Lemma kd_finfo_free fi : kd (finfo_free fi).
Proof. unfold finfo_free. kds. all: apply kd_frees. Qed.
Lemma kd_rpm_destroy r : kd (rpm_destroy r).
Proof. unfold rpm_destroy, rpm_free. kds. Qed.
Lemma kd_free_deltarpm d : kd (free_deltarpm d).
Proof. unfold free_deltarpm. kds. all: apply kd_rpm_destroy. Qed.

Ltac run := eapply wlp_run; [vm_compute; reflexivity|]; cbv beta iota.
Lemma apply_page lim mo :
  0 < lim -> wlp (drpm_apply lim mo true true) (fun _ _ => False) (mkst [] 0 (page_picks lim) no_page).
Proof.
  intros P. unfold page_picks.
  assert (N : (Z.to_nat (lim + 1) = Z.to_nat lim + 1)%nat) by lia.
  assert (E : Z.of_nat (Z.to_nat lim) = lim) by lia.
  remember (fill_picks (Z.to_nat lim)) as F eqn:EF.
  remember (lim + 1) as k eqn:Ek. clear Ek.
  change (good 97 ++ [1; k] ++ F) with (good 97 ++ 1 :: k :: F).
  unfold drpm_apply. run. cbn [isnull]. run. run. run.
  apply wlp_bind. unfold apply_write. run. run. cbn [negb d_only]. run. run. cbn [negb].
  unfold apply_copies. apply wlp_bind, wlp_bind, wlp_pickn. cbn [Z.to_nat Pos.to_nat Pos.iter_op].
  apply wlp_bind. cbn [rounds]. apply wlp_bind. unfold int_round. run. run.
  apply wlp_bind, wlp_pickn. rewrite N, EF. apply wlp_bind.
  eapply wlp_mono.
  { eapply (all_rounds lim mo); [reflexivity|cbn [length]; exact E|].
    repeat constructor. }
  intros x s (core & z & -> & D). cbn [negb].
  apply wlp_ret, wlp_ret. cbn [negb]. apply wlp_ret, wlp_bind, wlp_ret, wlp_ret.
  apply wlp_bind. eapply wlp_mono; [apply (kd_free _ z); exact D|]. clear D. intros ? t D. cbv beta in D.
  apply wlp_bind. eapply wlp_mono; [apply (kd_finfo_free _ z); exact D|]. clear D. intros ? t1 D. cbv beta in D.
  apply wlp_bind. eapply wlp_mono; [apply (kd_free_deltarpm _ z); exact D|]. clear D. intros ? t2 D. cbv beta in D.
  apply wlp_bind. eapply wlp_mono; [apply (kd_rpm_destroy _ z); exact D|]. clear D. intros ? t3 D. cbv beta in D.
  apply wlp_bind. eapply wlp_mono; [apply (kd_free _ z); exact D|]. clear D. intros ? t4 D. cbv beta in D.
  apply wlp_bind. eapply wlp_mono; [eapply (dead_destroy z); [reflexivity|reflexivity|exact D]|].
  intros ? ? [].
Qed.
Lemma never_done {A} (m : M A) s : wlp m (fun _ _ => False) s -> exists b, m s = Bad b.
Proof. unfold wlp. destruct (m s) as [a t|b]; [intros []|]. now exists b. Qed.
Lemma page_broken lim mo : 0 < lim -> exists ps, broken no_page ps (drpm_apply lim mo true true).
Proof. intros P. exists (page_picks lim). exact (never_done _ _ (apply_page lim mo P)). Qed.
