(** Products modulo X^n - 1 with the plain transforms.

    The library has no such procedure, but all functions are public: a caller transforms both
    arrays with the plain transforms of the header (ntt1024.h 20-72, naive_ntt1024.h 20-72),
    multiplies element by element, transforms back and multiplies by ntt1024_inv_n.  These are the
    steps of ntt1024_product1 (src/ntt1024.c 10-18) without the powers of psi. *)

From Coq Require Import ZArith List Bool.
From Verif Require Import CSem Spec ModelGen ModelNtt ModelNaive ModelProducts.
Import ListNotations.
Open Scope Z_scope.

(** The steps of ntt1024_product1 (src/ntt1024.c 10-18) without those with powers of psi, for any
    transforms [f1] and [f2] and any inverse transform [g] *)
Definition cyclic_product (f1 f2 : list Z -> res (list Z)) (mul : heap -> Z -> Z -> Z -> res heap)
  (g scale : list Z -> res (list Z)) (h : heap) (c a b : Z) : res heap :=
  do h <- on a f1 h;
  do h <- on b f2 h;
  do h <- mul h c a b;
  do h <- on c g h;
  do h <- on c scale h;
  Ok h.

(** mul_array and scalar_mul_array: src/ntt.c *)
Definition ntt_cyclic (n : Z) (T : tables) (f1 f2 g : list Z -> res (list Z)) : heap -> Z -> Z -> Z -> res heap :=
  cyclic_product f1 f2 (fun h c a b => mul_array_h h c n a b) g (fun x => scalar_mul_array x n (t_inv_n T)).
(** mul_array_naive and scalar_mul_array_naive: src/naive_ntt.c *)
Definition naive_cyclic (n : Z) (T : tables) (f1 f2 g : list Z -> res (list Z)) : heap -> Z -> Z -> Z -> res heap :=
  cyclic_product f1 f2 (fun h c a b => mul_array_naive_h h c n a b 12289) g
    (fun x => scalar_mul_array_naive x n (t_inv_n T) 12289).

(** Specification: coefficient number [m] of the product modulo X^n - 1. *)
Definition cyclic (n : Z) (a b : Z -> Z) (m : Z) : Z := Sum n (fun i => a i * b ((m - i) mod n)).
