(** * CheckCases: ELF files and file systems for the examples *)
From Verif Require Import Base BaseLemmas SpecCodec ToyLibs Stream Rpm FileSys Prelink SpecPrelink Check SpecCheck ArchiveCases Make SpecMake MakeCases.

(** A 64-bit little-endian ELF file with two sections: [name] is the name of both, [type] that of the second, which has the names. *)
Definition zs (n : nat) : list Z := repeat 0 n.
Definition elf_case (type : Z) (name : list Z) : list Z :=
  [127; 69; 76; 70; 2; 1] ++ zs 34 ++ [64; 0; 0; 0; 0; 0; 0; 0] ++ zs 10 ++ [64; 0; 2; 0; 1; 0] ++
  zs 64 ++
  ([0; 0; 0; 0; type; 0; 0; 0] ++ zs 16 ++ [192; 0; 0; 0; 0; 0; 0; 0] ++ [zlen name; 0; 0; 0; 0; 0; 0; 0] ++ zs 24) ++
  name.
(** ".text" with NUL *)
Definition text_name : list Z := [46; 116; 101; 120; 116; 0].

(** A file of 5000 bytes, longer than the buffer, with name "/a". *)
Definition c_data : list Z := map (fun i => Z.of_nat i mod 251) (seq 0 5000).
Definition c_fs : fsys :=
  mkfs (fun n => if list_eqb n [47; 97] then Some 5000 else if list_eqb n [47; 98] then Some 7 else None)
       (fun n => if list_eqb n [47; 97] then Some c_data else None).

Lemma c_plain : plain_files c_fs.
Proof.
  intros name data H. cbn [c_fs fs_open] in H. destruct (list_eqb name [47; 97]); [|discriminate]. injection H as <-.
  split; [apply bytesb_ok; vm_compute; reflexivity|]. intros [[(_ & H & _) _] _]. revert H. vm_compute. discriminate.
Qed.
Lemma toy_hashes : hashes_ok toylibs.
Proof.
  assert (G : forall x, zlen (toy_md5 x) = 16). { intros x. unfold toy_md5. reflexivity. }
  intros x. cbn [toylibs lb_md5 lb_sha256]. rewrite zlen_app, !G. split; reflexivity.
Qed.

(** The libraries of [MakeCases], with the digest recorded for "/a" as that of its content "hello". *)
Definition k_hello : list Z := [104; 101; 108; 108; 111].
Definition k_digest : list Z := match hex_bytes ex_md5 with Some d => d | None => [] end.
Definition k_md5 (l : list Z) : list Z := if list_eqb l k_hello then k_digest else toy_md5 l.
Definition klibs : libs := mklibs (lb_codec mlibs) k_md5 (lb_sha256 mlibs) (lb_read mlibs) (lb_import mlibs) (lb_string mlibs)
  (lb_nevr mlibs) (lb_algo mlibs) (lb_sig_md5 mlibs) (lb_mksig mlibs) (lb_setfmt mlibs) (lb_files mlibs).
Definition k_fs (content : list Z) : fsys :=
  mkfs (fun n => if list_eqb n [47; 97] then Some (zlen content) else None) (fun n => if list_eqb n [47; 97] then Some content else None).
Definition k_installed (nevr : list Z) : res rpm := Ok (mkrpm [] [] (p_hdr m_old) [] 0 0).
Definition made_with (L : libs) (o : make_options) (old new : list Z) : list Z :=
  match drpm_make L (Some o) (Some old) (Some new) true with Ok (d, _) => d | _ => [] end.
Definition k_delta : list Z := Eval vm_compute in made_with klibs (m_options false 3 true true) (package_file m_old) (package_file m_new).

Lemma k_plain content : bytes content -> zlen content < 52 -> plain_files (k_fs content).
Proof.
  intros Hb Hl name data H. cbn [k_fs fs_open] in H. destruct (list_eqb name [47; 97]); [|discriminate]. injection H as <-.
  split; [auto|]. intros [[(H & _) _] _]. lia.
Qed.
Lemma k_hashes : hashes_ok klibs.
Proof.
  intros x. cbn [klibs lb_md5 lb_sha256 mlibs]. split; [|apply (proj2 (toy_hashes x))].
  unfold k_md5. destruct (list_eqb x k_hello); [reflexivity|]. apply (proj1 (toy_hashes x)).
Qed.

(** A prelinked file "/a" and a plain one "/b"; prelinking of "/a" can be undone. *)
Definition p_fs : fsys :=
  mkfs (fun n => if list_eqb n [47; 97] then Some 210 else if list_eqb n [47; 98] then Some 5 else None)
       (fun n => if list_eqb n [47; 97] then Some (elf_case 3 UNDO_NAME) else if list_eqb n [47; 98] then Some k_hello else None).
Definition p_undo (name : list Z) : res (list Z) := if list_eqb name [47; 97] then Ok k_hello else Err EIo.
Lemma elf_prelinked : bytes (elf_case 3 UNDO_NAME) /\ has_table (elf_case 3 UNDO_NAME) /\ has_undo (elf_case 3 UNDO_NAME) /\ ~ bad_names (elf_case 3 UNDO_NAME).
Proof.
  split; [apply bytesb_ok; vm_compute; reflexivity|]. split; [unfold has_table, is_elf, follows; vm_compute; repeat split; discriminate|]. split.
  - unfold has_undo, follows. split; [vm_compute; reflexivity|]. split; [vm_compute; discriminate|].
    exists 0. split; [vm_compute; split; [discriminate|reflexivity]|]. vm_compute. split; [discriminate|reflexivity].
  - intros [H|[H|[[_ H]|H]]]; vm_compute in H; congruence.
Qed.
Lemma p_sound : sound_files p_fs.
Proof.
  intros name data H. cbn [p_fs fs_open fs_stat] in *. destruct (list_eqb name [47; 97]).
  { injection H as <-. destruct elf_prelinked as (A & _ & _ & B). split; [exact A|]. split; [reflexivity|]. intros [_ C]. exact (B C). }
  destruct (list_eqb name [47; 98]); [|discriminate]. injection H as <-. split; [apply bytesb_ok; reflexivity|]. split; [reflexivity|].
  intros [[(H & _) _] _]. vm_compute in H. apply H. reflexivity.
Qed.
