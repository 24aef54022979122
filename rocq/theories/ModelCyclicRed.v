(** Products modulo X^n - 1 with the plain Longa-Naehrig transforms.

    The library has no such procedure, but all functions are public (src/ntt_red1024.h 21-52,
    src/ntt_red_asm1024.h 22-53, src/ntt_red.h 78-148, src/ntt_asm.h).  These are the steps of ntt_red1024_product5
    (src/ntt_red1024.c 111-127; src/ntt_red_asm1024.c 111-127) with the plain transforms instead of those
    that multiply by the powers of psi. *)

From Coq Require Import ZArith List Bool.
From Verif Require Import CSem Spec ModelGen ModelRed ModelProducts ModelAvx ModelAvxProd ModelCyclic.
Import ListNotations.
Open Scope Z_scope.

(** shift_array, reduce_array, mul_reduce_array, reduce_array_twice, scalar_mul_reduce_array and correct:
    src/ntt_red.c 103-225; [sh]: whether the arguments are shifted *)
Definition red_cyclic (sh : bool) (n : Z) (T : red_tables) (f1 f2 g : list Z -> res (list Z)) : heap -> Z -> Z -> Z -> res heap :=
  cyclic_product
    (fun x => do x <- maybe_shift sh n x; do x <- f1 x; reduce_array x n)
    (fun x => do x <- maybe_shift sh n x; do x <- f2 x; reduce_array x n)
    (fun h c a b => mul_reduce_array_h h c n a b)
    (fun x => do x <- reduce_array_twice x n; g x)
    (fun x => do x <- scalar_mul_reduce_array x n (rescale8 T); do x <- reduce_array_twice x n; correct x n).

(** The same with the functions of src/ntt_asm.S (steps of src/ntt_red_asm1024.c 111-127) *)
Definition red_asm_cyclic (sh : bool) (n : Z) (T : red_tables) (f1 f2 g : list Z -> res (list Z)) : heap -> Z -> Z -> Z -> res heap :=
  cyclic_product
    (fun x => do x <- maybe_shift_asm sh n x; do x <- f1 x; reduce_array_asm x n)
    (fun x => do x <- maybe_shift_asm sh n x; do x <- f2 x; reduce_array_asm x n)
    (fun h c a b => mul_reduce_array_asm_h h c n a b)
    (fun x => do x <- reduce_array_twice_asm x n; g x)
    (fun x => do x <- scalar_mul_reduce_array_asm x n (rescale8 T); do x <- reduce_array_twice_asm x n; correct_asm x n).
