(** The lists of roots in /repo/data. *)

From Coq Require Import ZArith List String Sorted.
From Verif Require Import CSem Spec ModelGen SpecRoots CommittedRoots RootsFinal ExTables AvxProdFinal.
Import ListNotations.
Open Scope Z_scope.

(** C60: each file lists, in increasing order and once each, exactly the
    primitive roots of unity of the order it names *)
Theorem primitive_roots_files :
  forall n t, In (n, t) [(1024, file_primitive_roots_1024); (2048, file_primitive_roots_2048);
                         (4096, file_primitive_roots_4096)] ->
  exists l, numbers t = Some l /\ StronglySorted Z.lt l /\ (forall x, In x l <-> primitive_root n x).
Proof. exact primitive_roots_files_L. Qed.
Print Assumptions primitive_roots_files.

Example primitive_roots_files_ex :
  exists l, numbers file_primitive_roots_2048 = Some l /\ In 1014 l /\ ~ In 1003 l /\ List.length l = 1024%nat.
Proof.
  exists (listed file_primitive_roots_2048). split; [vm_compute; reflexivity|].
  split; [|split; [|vm_compute; reflexivity]].
  - apply (proj1 (in_listed _ _)). vm_compute. reflexivity.
  - apply (proj1 (not_in_listed _ _)). vm_compute. reflexivity.
Qed.

(** C60: the roots listed for order 2n are exactly the values of psi that the
    generators accept for size n *)
Theorem primitive_roots_accepted :
  forall n t malloc psi, In (n, t) [(1024, file_primitive_roots_1024); (2048, file_primitive_roots_2048);
                         (4096, file_primitive_roots_4096)] ->
  (forall i, 0 <= i -> zlen (malloc i) = i) ->
  exists l, numbers t = Some l
  /\ (In psi l <-> exists T, make_tables malloc (n / 2) psi = Ok (Written T))
  /\ (In psi l <-> exists T, make_red_tables malloc (n / 2) psi = Ok (Written T)).
Proof. exact primitive_roots_accepted_L. Qed.
Print Assumptions primitive_roots_accepted.

Example primitive_roots_accepted_ex :
  (exists T, make_red_tables malloc77 1024 1014 = Ok (Written T))
  /\ ~ (exists T, make_red_tables malloc77 1024 1003 = Ok (Written T)).
Proof.
  assert (H : In (2048, file_primitive_roots_2048) [(1024, file_primitive_roots_1024); (2048, file_primitive_roots_2048);
                         (4096, file_primitive_roots_4096)]) by (right; left; reflexivity).
  assert (F : forall l, numbers file_primitive_roots_2048 = Some l -> l = listed file_primitive_roots_2048).
  { intros l E. unfold listed. rewrite E. reflexivity. }
  split.
  - destruct (primitive_roots_accepted _ _ malloc77 1014 H malloc77_len) as (l & E & _ & R).
    apply R. rewrite (F l E). apply (proj1 (in_listed _ _)). vm_compute. reflexivity.
  - destruct (primitive_roots_accepted _ _ malloc77 1003 H malloc77_len) as (l & E & _ & R).
    rewrite <- R. rewrite (F l E). apply (proj1 (not_in_listed _ _)). vm_compute. reflexivity.
Qed.
