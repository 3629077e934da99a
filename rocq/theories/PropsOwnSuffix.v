(** * PropsOwnSuffix: ownership in the suffix sort (C45, C46) *)
From Verif Require Import Own SpecOwn OwnSuffix OwnSuffixProofs.
Require Import ZArith List.
Import ListNotations.
Open Scope Z_scope.

(** C45, C46: making, searching and releasing a suffix array, whichever allocations fail. *)
Theorem C46_suffix : forall e ps, clean e ps (suffix_caller false) (fun _ => True).
Proof. exact suffix_clean. Qed.
Print Assumptions C46_suffix.

(** C45 is false of a caller that releases it in any case, as [make_diff] would: if there is no memory for the struct a null
    pointer is used, if there is none for the buckets a struct that was released. *)
Theorem C45_suffix_refuted : exists ps ps',
  suffix_caller true (mkst [] 0 ps wild) = Bad UseNull /\ suffix_caller true (mkst [] 0 ps' wild) = Bad UseDead.
Proof. exists [1], [0; 0; 0; 1]. split; vm_compute; reflexivity. Qed.
Print Assumptions C45_suffix_refuted.

(** Five searches; no memory for the suffix array, for the inverse, for the buckets. *)
Example C46_suffix_case :
  match suffix_caller false (mkst [] 0 [0; 0; 0; 0; 5] wild), suffix_caller false (mkst [] 0 [0; 1] wild),
        suffix_caller false (mkst [] 0 [0; 0; 1] wild), suffix_caller false (mkst [] 0 [0; 0; 0; 1] wild), suffix_caller true (mkst [] 0 [] calm) with
  | Done a s, Done a1 s1, Done a2 s2, Done a3 s3, Done a4 s4 =>
      a = true /\ live s = [] /\ next s = 4 /\ a1 = false /\ live s1 = [] /\ next s1 = 1 /\ a2 = false /\ live s2 = [] /\ next s2 = 2 /\
      a3 = false /\ live s3 = [] /\ next s3 = 3 /\ a4 = true /\ live s4 = []
  | _, _, _, _, _ => False
  end.
Proof. vm_compute. repeat split. Qed.
