(** The two halves of the products, for callers that keep transforms.

    The product functions of /repo/src/ntt*.c, naive_ntt*.c, ntt_red*.c and ntt_red_asm*.c first
    transform each argument in place ("forward half"), then multiply the two transforms, then
    transform the result back in place ("inverse half").  All the functions they call are public
    (the headers ntt16.h etc.), so that a caller can do the same steps himself.  The lists below
    are the sequences of calls that occur in the products; a caller may combine them in other ways
    than the products do. *)

From Coq Require Import ZArith List Bool.
From Verif Require Import CSem Spec ModelGen ModelNtt ModelNaive ModelRed ModelAvx ModelProducts ModelAvxProd.
Import ListNotations.
Open Scope Z_scope.

(** What happens to [a] (and to [b]) in ntt1024_product1, 2, 5: src/ntt1024.c 10-59 *)
Definition ntt_forwards (n : Z) (T : tables) : list (list Z -> res (list Z)) :=
  [ (fun x => do x <- mul_array16 x n (psi_powers T); do x <- n_ct_std2rev n T x; Ok x);
    (fun x => do x <- mul_array16 x n (psi_powers T); do x <- n_gs_std2rev n T x; Ok x);
    (fun x => do x <- n_mulntt_ct_std2rev n T x; Ok x) ].

(** What happens to [c] after the multiplication in ntt1024_product1, 3, 5: src/ntt1024.c 10-59 *)
Definition ntt_inverses (n : Z) (T : tables) : list (list Z -> res (list Z)) :=
  [ (fun x => do x <- n_intt_ct_rev2std n T x; do x <- mul_array16 x n (scaled_inv_psi_powers T); Ok x);
    (fun x => do x <- n_intt_gs_rev2std n T x; do x <- mul_array16 x n (scaled_inv_psi_powers T); Ok x);
    (fun x => do x <- n_inttmul_gs_rev2std n T x; do x <- scalar_mul_array x n (t_inv_n T); Ok x) ].

(** The same for naive_ntt1024_product1, 2, 5: src/naive_ntt1024.c 10-60 *)
Definition naive_forwards (n : Z) (T : tables) : list (list Z -> res (list Z)) :=
  [ (fun x => do x <- mul_array16_naive x n (psi_powers T) 12289; do x <- v_ct_std2rev n T x; Ok x);
    (fun x => do x <- mul_array16_naive x n (psi_powers T) 12289; do x <- v_gs_std2rev n T x; Ok x);
    (fun x => do x <- v_mulntt_ct_std2rev n T x; Ok x) ].

(** naive_ntt1024_product1, 3, 5: src/naive_ntt1024.c 10-60 *)
Definition naive_inverses (n : Z) (T : tables) : list (list Z -> res (list Z)) :=
  [ (fun x => do x <- v_intt_ct_rev2std n T x; do x <- mul_array16_naive x n (scaled_inv_psi_powers T) 12289; Ok x);
    (fun x => do x <- v_intt_gs_rev2std n T x; do x <- mul_array16_naive x n (scaled_inv_psi_powers T) 12289; Ok x);
    (fun x => do x <- v_inttmul_gs_rev2std n T x; do x <- scalar_mul_array_naive x n (t_inv_n T) 12289; Ok x) ].

(** ntt_red16_product1, 2, 5, with shift_array ([sh] = true: src/ntt_red16.c 17-129) or without
    (src/ntt_red1024.c 17-127) *)
Definition red_forwards (sh : bool) (n : Z) (T : red_tables) : list (list Z -> res (list Z)) :=
  [ (fun x => do x <- maybe_shift sh n x; do x <- mul_reduce_array16 x n (red_psi_powers T);
              do x <- r_ct_std2rev n T x; do x <- reduce_array x n; Ok x);
    (fun x => do x <- maybe_shift sh n x; do x <- mul_reduce_array16 x n (red_psi_powers T);
              do x <- r_gs_std2rev n T x; do x <- reduce_array x n; Ok x);
    (fun x => do x <- maybe_shift sh n x; do x <- r_mulntt_ct_std2rev n T x; do x <- reduce_array x n; Ok x) ].

(** ntt_red1024_product1, 3, 5: src/ntt_red1024.c 17-127 *)
Definition red_inverses (n : Z) (T : red_tables) : list (list Z -> res (list Z)) :=
  [ (fun x => do x <- reduce_array_twice x n; do x <- r_intt_ct_rev2std n T x;
              do x <- mul_reduce_array16 x n (red_scaled_inv_psi_powers T);
              do x <- reduce_array_twice x n; do x <- correct x n; Ok x);
    (fun x => do x <- reduce_array_twice x n; do x <- r_intt_gs_rev2std n T x;
              do x <- mul_reduce_array16 x n (red_scaled_inv_psi_powers T);
              do x <- reduce_array_twice x n; do x <- correct x n; Ok x);
    (fun x => do x <- reduce_array_twice x n; do x <- r_inttmul_gs_rev2std n T x;
              do x <- scalar_mul_reduce_array x n (rescale8 T);
              do x <- reduce_array_twice x n; do x <- correct x n; Ok x) ].

(** ntt_red16_product1_asm, 2, 5: src/ntt_red_asm16.c 17-129; without shift_array_asm:
    src/ntt_red_asm1024.c 39-125 *)
Definition asm_forwards (sh : bool) (n : Z) (T : red_tables) : list (list Z -> res (list Z)) :=
  [ (fun x => do x <- maybe_shift_asm sh n x; do x <- mul_reduce_array16_asm x n (red_psi_powers T);
              do x <- x_ct_std2rev n T x; do x <- reduce_array_asm x n; Ok x);
    (fun x => do x <- maybe_shift_asm sh n x; do x <- mul_reduce_array16_asm x n (red_psi_powers T);
              do x <- x_gs_std2rev n T x; do x <- reduce_array_asm x n; Ok x);
    (fun x => do x <- maybe_shift_asm sh n x; do x <- x_mulntt_ct_std2rev n T x; do x <- reduce_array_asm x n; Ok x) ].

(** ntt_red16_product1_asm, 3, 5: src/ntt_red_asm16.c 17-129 *)
Definition asm_inverses (n : Z) (T : red_tables) : list (list Z -> res (list Z)) :=
  [ (fun x => do x <- reduce_array_twice_asm x n; do x <- x_intt_ct_rev2std n T x;
              do x <- mul_reduce_array16_asm x n (red_scaled_inv_psi_powers T);
              do x <- reduce_array_twice_asm x n; do x <- correct_asm x n; Ok x);
    (fun x => do x <- reduce_array_twice_asm x n; do x <- x_intt_gs_rev2std n T x;
              do x <- mul_reduce_array16_asm x n (red_scaled_inv_psi_powers T);
              do x <- reduce_array_twice_asm x n; do x <- correct_asm x n; Ok x);
    (fun x => do x <- reduce_array_twice_asm x n; do x <- x_inttmul_gs_rev2std n T x;
              do x <- scalar_mul_reduce_array_asm x n (rescale8 T);
              do x <- reduce_array_twice_asm x n; do x <- correct_asm x n; Ok x) ].

(** Specification: [dot l i] is the sum of the products of the elements number [i] of the pairs of
    arrays in [l]; [negacyclics n l i] is the coefficient number [i] of the sum of the products
    modulo X^n + 1 of the pairs in [l]. *)
Fixpoint dot (l : list (list Z * list Z)) (i : Z) : Z :=
  match l with [] => 0 | p :: l => at_ (fst p) i * at_ (snd p) i + dot l i end.
Fixpoint negacyclics (n : Z) (l : list (list Z * list Z)) (i : Z) : Z :=
  match l with [] => 0 | p :: l => negacyclic n (at_ (fst p)) (at_ (snd p)) i + negacyclics n l i end.

(** Specification: [y] is what one of the forward halves [Fs] makes of [x], an array of [n] elements
    from [lo] to [hi]. *)
Definition transform_by (Fs : list (list Z -> res (list Z))) (n lo hi : Z) (x y : list Z) : Prop :=
  zlen x = n /\ all_in lo hi x /\ exists F, In F Fs /\ F x = Ok y.
