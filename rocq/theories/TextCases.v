(** * TextCases: paths in library directories, an archive written as text *)
From Coq Require Import String Ascii.
From Verif Require Import Base BaseLemmas Utils CpioHeader Rpm Expand Archive SpecArchive ArchiveCases.

(** ** Paths in library directories *)
Lemma prefix_spec : forall pat l, prefix_of pat l = true <-> exists after, l = pat ++ after.
Proof.
  induction pat as [|p pat IH]; intros l; cbn [prefix_of]; [split; [intros _; exists l; reflexivity|auto]|].
  destruct l as [|x l]; [split; [discriminate|intros [after H]; discriminate H]|].
  rewrite andb_true_iff, IH, Z.eqb_eq. split.
  - intros [-> [after ->]]. exists after. reflexivity.
  - intros [after H]. cbn [app] in H. injection H as -> ->. split; [reflexivity|]. exists after. reflexivity.
Qed.
Lemma strstr_spec pat : forall l, strstr l pat = true <-> exists before after, l = before ++ pat ++ after.
Proof.
  induction l as [|x l IH]; cbn [strstr]; rewrite orb_true_iff, prefix_spec.
  - split; [intros [[after H]|H]; [exists [], after; exact H|discriminate]|].
    intros (before & after & H). left. exists after. destruct before; [exact H|discriminate H].
  - rewrite IH. split.
    + intros [[after ->]|(before & after & ->)]; [exists [], after; reflexivity|exists (x :: before), after; reflexivity].
    + intros (before & after & H). destruct before as [|y before]; [left; exists after; exact H|].
      right. cbn [app] in H. injection H as -> ->. exists before, after. reflexivity.
Qed.

(** ** Text: "~" stands for NUL *)
Definition text (s : string) : list Z :=
  map (fun c => let n := Z.of_nat (Ascii.nat_of_ascii c) in if n =? 126 then 0 else n) (list_ascii_of_string s).
Definition in_dir (dir : string) (path : list Z) : Prop := exists before after, path = before ++ text dir ++ after.

Lemma multilib_spec path : IN_MULTILIB_DIR path = true <-> in_dir "lib/" path \/ in_dir "lib32/" path \/ in_dir "lib64/" path.
Proof. unfold IN_MULTILIB_DIR, in_dir. rewrite !orb_true_iff, !strstr_spec. tauto. Qed.

(** An archive with programs in and out of library directories, a link, a device. *)
Definition text_archive : list Z := text (
  "070701" ++ "00000007" ++ "000081a4" ++ "00000003" ++ "00000004" ++ "00000001" ++ "00000063" ++ "00000002" ++ "00000008" ++ "00000001" ++ "00000000" ++ "00000000" ++ "0000000e" ++ "00000000"
  ++ "./usr/lib32/a~" ++ "xy~~" ++
  "070701" ++ "00000007" ++ "000081a4" ++ "00000003" ++ "00000004" ++ "00000001" ++ "00000063" ++ "00000002" ++ "00000008" ++ "00000001" ++ "00000000" ++ "00000000" ++ "00000008" ++ "00000000"
  ++ "./bin/b~~~" ++ "zz~~" ++
  "070701" ++ "00000007" ++ "000081A4" ++ "00000003" ++ "00000004" ++ "00000001" ++ "00000063" ++ "00000002" ++ "00000008" ++ "00000001" ++ "00000000" ++ "00000000" ++ "0000000e" ++ "00000000"
  ++ "./usr/lib64/c~" ++ "vw~~" ++
  "070701" ++ "00000007" ++ "000081a4" ++ "00000003" ++ "00000004" ++ "00000001" ++ "00000063" ++ "00000002" ++ "00000008" ++ "00000001" ++ "00000000" ++ "00000000" ++ "00000008" ++ "00000000"
  ++ "./lib/d~~~" ++ "pq~~" ++
  "070701" ++ "00000007" ++ "0000a1ff" ++ "00000003" ++ "00000004" ++ "00000001" ++ "00000063" ++ "00000001" ++ "00000008" ++ "00000001" ++ "00000000" ++ "00000000" ++ "00000004" ++ "00000000"
  ++ "./e~~~" ++ "d~~~" ++
  "070701" ++ "00000007" ++ "000061a4" ++ "00000003" ++ "00000004" ++ "00000001" ++ "00000063" ++ "00000000" ++ "00000008" ++ "00000001" ++ "00000005" ++ "00000006" ++ "00000004" ++ "00000000"
  ++ "./f~~~" ++
  "070701" ++ "00000000" ++ "00000000" ++ "00000000" ++ "00000000" ++ "00000001" ++ "00000000" ++ "00000000" ++ "00000000" ++ "00000000" ++ "00000000" ++ "00000000" ++ "0000000b" ++ "00000000"
  ++ "TRAILER!!!~~~~")%string.
Definition text_files : list file_info :=
  [ mkfi (text "/usr/lib32/a") 0 ex_md5 0 2 33188 3 [] 1
  ; mkfi (text "/bin/b") 0 ex_md5 0 2 33188 3 [] 1
  ; mkfi (text "/usr/lib64/c") 0 ex_md5 0 2 33188 3 [] 2
  ; mkfi (text "/lib/d") 0 ex_md5 0 2 33188 3 [] 3
  ; mkfi (text "/e") 0 [] 0 1 41471 3 (text "lnk") 0
  ; mkfi (text "/f") 0 [] 2049 0 24996 3 [] 0 ].
