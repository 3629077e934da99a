(** * PrelinkOpenProofs: what comes of undoing prelink *)
From Verif Require Import Base BaseLemmas SpecCodec Stream Rpm FileSys Prelink SpecPrelink Check SpecCheck CheckProofs PrelinkOpen.

(** What is at the place for the output once the child has ended. *)
Definition output (h : host) (filename : list Z) : option (list Z) :=
  match ho_child h filename with NoExec => Some [] | Ended _ file => file end.

Lemma open_ok h tmp filename template data :
  ho_mkstemp h = Some template -> tmp_find tmp template = None ->
  (snd (prelink_open h tmp filename) = Ok data <->
   ho_stat h = true /\ ho_fork h = true /\ ho_open h = true /\ output h filename = Some data).
Proof.
  intros Ht Hf. unfold prelink_open, output. rewrite Ht. destruct (ho_stat h); cbn [negb snd]; [|split; [discriminate|intros (H & _); discriminate]].
  destruct (ho_fork h); cbn [negb snd]; [|split; [discriminate|intros (_ & H & _); discriminate]].
  destruct (ho_child h filename) as [|status [d|]]; cbn [tmp_find]; rewrite ?list_eqb_refl, ?Hf; cbn [snd].
  1,2: destruct (ho_open h); cbn [snd]; split; try discriminate; [intros E; injection E as <-; auto|intros (_ & _ & _ & E); injection E as <-; reflexivity|intros (_ & _ & E & _); discriminate].
  split; [discriminate|]. intros (_ & _ & _ & E). discriminate.
Qed.

Lemma open_left h tmp filename : (forall template, ho_mkstemp h = Some template -> tmp_find tmp template = None) ->
  (forall data, snd (prelink_open h tmp filename) = Ok data -> fst (prelink_open h tmp filename) = tmp) /\
  (fst (prelink_open h tmp filename) <> tmp <->
   ho_stat h = true /\ ho_mkstemp h <> None /\ (ho_fork h = false \/ (ho_fork h = true /\ ho_open h = false /\ output h filename <> None))).
Proof.
  intros Hf. unfold prelink_open, output.
  assert (Hc : forall x : list Z * list Z, x :: tmp <> tmp).
  { intros x E. apply (f_equal (@length _)) in E. cbn [length] in E. lia. }
  destruct (ho_stat h); cbn [negb fst snd]; [|split; [discriminate|split; [intros E; elim E; reflexivity|intros (H & _); discriminate]]].
  destruct (ho_mkstemp h) as [template|]; cbn [fst snd]; [|split; [discriminate|split; [intros E; elim E; reflexivity|intros (_ & H & _); elim H; reflexivity]]].
  specialize (Hf template eq_refl).
  destruct (ho_fork h); cbn [negb fst snd]; [|split; [discriminate|split; [intros _; split; [auto|]; split; [discriminate|auto]|intros _; apply Hc]]].
  destruct (ho_child h filename) as [|status [d|]]; cbn [tmp_find]; rewrite ?list_eqb_refl, ?Hf; cbn [fst snd].
  3: { split; [discriminate|]. split; [intros E; elim E; reflexivity|]. intros (_ & _ & [H|(_ & _ & H)]); [discriminate|elim H; reflexivity]. }
  1,2: destruct (ho_open h); cbn [fst snd tmp_unlink]; rewrite ?list_eqb_refl; (split; [intros ? E; (reflexivity || discriminate)|]);
    (split; [intros E; (elim E; reflexivity) || (split; [auto|]; split; [discriminate|]; right; split; [auto|]; split; [auto|]; discriminate)|]);
    intros (_ & _ & [H|(_ & H & _)]); try discriminate; apply Hc.
Qed.

(** The checks, if prelink cannot be run. *)
Lemma failed_checks L fs h tmp name sha digest filesize data size :
  hashes_ok L -> zlen digest = digest_len sha -> 0 < filesize ->
  fs_open fs name = Some data -> fs_stat fs name = Some size -> bytes data -> has_table data -> has_undo data -> ~ bad_names data -> filesize < size ->
  (forall template, ho_mkstemp h = Some template -> tmp_find tmp template = None) ->
  ho_stat h = true -> ho_mkstemp h <> None -> ho_fork h = true -> ho_open h = true -> ho_child h name = NoExec ->
  digest <> hash L sha [] ->
  let undo := fun n => snd (prelink_open h tmp n) in
  check_full L fs undo name sha digest filesize = Err EMismatch /\ check_filesize L fs undo name sha digest filesize = Err EMismatch.
Proof.
  intros Hh Hd Hf E Es Hb Ht Hu Hn Hl Hfr H1 H2 H3 H4 H5 Hne undo.
  destruct (prelinked_checks L fs undo name sha digest filesize data size) as [Q1 Q2]; auto.
  destruct (ho_mkstemp h) as [template|] eqn:Em; [|contradiction].
  assert (Eu : undo name = Ok []).
  { unfold undo. apply (open_ok h tmp name template []); auto. unfold output. rewrite H5. auto. }
  assert (Ev : right_digest L sha digest [] filesize = Err EMismatch).
  { unfold right_digest. assert (El : slice (@nil Z) 0 filesize = []) by (unfold slice; rewrite skipn_nil; apply firstn_nil).
    rewrite El. destruct (list_eqb (hash L sha []) digest) eqn:Eq; [|reflexivity]. apply list_eqb_spec in Eq. congruence. }
  rewrite Q1, Q2, Eu. cbn [bind]. auto.
Qed.
