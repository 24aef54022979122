(** Sorting of arrays of uint64 (src/sort.c). *)

From Coq Require Import ZArith List Permutation Sorted.
From Verif Require Import CSem Spec ModelSort SortFinal.
Import ListNotations.
Open Scope Z_scope.

(** C39: sort(a, n) reads and writes only a[0..n-1], ends, and leaves the same elements there
    in non-decreasing order; the rest of the array is unchanged. *)
Theorem sort_sorts :
forall a n, 0 <= n < 2 ^ 32 -> n <= Z.of_nat (length a) ->
  exists b, sort a n = Ok b
    /\ Permutation (firstn (Z.to_nat n) a) (firstn (Z.to_nat n) b)
    /\ StronglySorted Z.le (firstn (Z.to_nat n) b)
    /\ skipn (Z.to_nat n) b = skipn (Z.to_nat n) a.
Proof. exact sort_sorts_L. Qed.
Print Assumptions sort_sorts.

(** The pivot is the largest element; the last element equals the pivot. *)
Example sort_pivot_ex :
  sort [1; 2; 3; 4; 5; 19; 6; 7; 8; 0] 10 = Ok [0; 1; 2; 3; 4; 5; 6; 7; 8; 19]
  /\ sort [1; 2; 3; 4; 5; 9; 6; 7; 8; 9] 10 = Ok [1; 2; 3; 4; 5; 6; 7; 8; 9; 9].
Proof. repeat split; vm_compute; reflexivity. Qed.

Example sort_sorts_ex :
  sort [5; 18446744073709551615; 3; 3; 9; 0; 7; 12; 3; 1; 8; 2; 3; 77; 6] 14
  = Ok [0; 1; 2; 3; 3; 3; 3; 5; 7; 8; 9; 12; 77; 18446744073709551615; 6].
Proof. vm_compute. reflexivity. Qed.
