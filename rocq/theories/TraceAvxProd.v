(** ModelAvxProd (the product functions that use the AVX2 routines) read with the
    semantics of TraceSem: same text.  [sh] is fixed when the library is built:
    no branch. *)

From Coq Require Import ZArith List Bool.
From Verif Require Import CSem ModelGen TraceSem TraceAvx.
Import ListNotations.
Open Scope Z_scope.

Section Asm.
Variables (sh : bool) (n : Z) (T : red_tables).

(** The wrappers of ntt_red_asm1024.h 22-71 (ntt_red_asm16.h 21-70, the other sizes: same). *)
Definition x_ct_rev2std (a : list Z) := ntt_red_ct_rev2std_asm a n (red_omega_powers T).
Definition x_gs_rev2std (a : list Z) := ntt_red_gs_rev2std_asm a n (red_omega_powers_rev T).
Definition x_ct_std2rev (a : list Z) := ntt_red_ct_std2rev_asm a n (red_omega_powers_rev T).
Definition x_gs_std2rev (a : list Z) := ntt_red_gs_std2rev_asm a n (red_omega_powers T).
Definition x_intt_ct_rev2std (a : list Z) := ntt_red_ct_rev2std_asm a n (red_inv_omega_powers T).
Definition x_intt_gs_rev2std (a : list Z) := ntt_red_gs_rev2std_asm a n (red_inv_omega_powers_rev T).
Definition x_intt_ct_std2rev (a : list Z) := ntt_red_ct_std2rev_asm a n (red_inv_omega_powers_rev T).
Definition x_intt_gs_std2rev (a : list Z) := ntt_red_gs_std2rev_asm a n (red_inv_omega_powers T).
Definition x_mulntt_ct_rev2std (a : list Z) := mulntt_red_ct_rev2std_asm a n (red_mixed_powers T).
Definition x_mulntt_ct_std2rev (a : list Z) := mulntt_red_ct_std2rev_asm a n (red_mixed_powers_rev T).
Definition x_inttmul_gs_rev2std (a : list Z) := nttmul_red_gs_rev2std_asm a n (red_inv_mixed_powers_rev T).
Definition x_inttmul_gs_std2rev (a : list Z) := nttmul_red_gs_std2rev_asm a n (red_inv_mixed_powers T).

(** [shift_array_asm(x, n)] when present: src/ntt_red_asm16.c 18, 23, 42, 47, ...; absent or
    commented out in src/ntt_red_asm1024.c *)
Definition maybe_shift_asm (x : list Z) : tr (list Z) :=
  if sh then shift_array_asm x n else ret x.

(** ntt_red16_product1_asm, src/ntt_red_asm16.c 17-39 (256, 512: same lines) *)
Definition red_product1_asm (h : heap) (c a b : Z) : tr heap :=
  do h <- on a maybe_shift_asm h;
  do h <- on a (fun x => mul_reduce_array16_asm x n (red_psi_powers T)) h;
  do h <- on a x_ct_std2rev h;
  do h <- on a (fun x => reduce_array_asm x n) h;
  do h <- on b maybe_shift_asm h;
  do h <- on b (fun x => mul_reduce_array16_asm x n (red_psi_powers T)) h;
  do h <- on b x_ct_std2rev h;
  do h <- on b (fun x => reduce_array_asm x n) h;
  do h <- mul_reduce_array_asm_h h c n a b;
  do h <- on c (fun x => reduce_array_twice_asm x n) h;
  do h <- on c x_intt_ct_rev2std h;
  do h <- on c (fun x => mul_reduce_array16_asm x n (red_scaled_inv_psi_powers T)) h;
  do h <- on c (fun x => reduce_array_twice_asm x n) h;
  do h <- on c (fun x => correct_asm x n) h;
  ret h.

(** ntt_red16_product2_asm, src/ntt_red_asm16.c 41-63 (256, 512: same lines; ntt_red_asm1024.c 39-61) *)
Definition red_product2_asm (h : heap) (c a b : Z) : tr heap :=
  do h <- on a maybe_shift_asm h;
  do h <- on a (fun x => mul_reduce_array16_asm x n (red_psi_powers T)) h;
  do h <- on a x_gs_std2rev h;
  do h <- on a (fun x => reduce_array_asm x n) h;
  do h <- on b maybe_shift_asm h;
  do h <- on b (fun x => mul_reduce_array16_asm x n (red_psi_powers T)) h;
  do h <- on b x_gs_std2rev h;
  do h <- on b (fun x => reduce_array_asm x n) h;
  do h <- mul_reduce_array_asm_h h c n a b;
  do h <- on c (fun x => reduce_array_twice_asm x n) h;
  do h <- on c x_intt_ct_rev2std h;
  do h <- on c (fun x => mul_reduce_array16_asm x n (red_scaled_inv_psi_powers T)) h;
  do h <- on c (fun x => reduce_array_twice_asm x n) h;
  do h <- on c (fun x => correct_asm x n) h;
  ret h.

(** ntt_red16_product3_asm, src/ntt_red_asm16.c 65-87 (256, 512: same lines; ntt_red_asm1024.c 63-85) *)
Definition red_product3_asm (h : heap) (c a b : Z) : tr heap :=
  do h <- on a maybe_shift_asm h;
  do h <- on a (fun x => mul_reduce_array16_asm x n (red_psi_powers T)) h;
  do h <- on a x_ct_std2rev h;
  do h <- on a (fun x => reduce_array_asm x n) h;
  do h <- on b maybe_shift_asm h;
  do h <- on b (fun x => mul_reduce_array16_asm x n (red_psi_powers T)) h;
  do h <- on b x_ct_std2rev h;
  do h <- on b (fun x => reduce_array_asm x n) h;
  do h <- mul_reduce_array_asm_h h c n a b;
  do h <- on c (fun x => reduce_array_twice_asm x n) h;
  do h <- on c x_intt_gs_rev2std h;
  do h <- on c (fun x => mul_reduce_array16_asm x n (red_scaled_inv_psi_powers T)) h;
  do h <- on c (fun x => reduce_array_twice_asm x n) h;
  do h <- on c (fun x => correct_asm x n) h;
  ret h.

(** ntt_red16_product4_asm, src/ntt_red_asm16.c 89-111 (256, 512: same lines; ntt_red_asm1024.c 87-109) *)
Definition red_product4_asm (h : heap) (c a b : Z) : tr heap :=
  do h <- on a maybe_shift_asm h;
  do h <- on a (fun x => mul_reduce_array16_asm x n (red_psi_powers T)) h;
  do h <- on a x_gs_std2rev h;
  do h <- on a (fun x => reduce_array_asm x n) h;
  do h <- on b maybe_shift_asm h;
  do h <- on b (fun x => mul_reduce_array16_asm x n (red_psi_powers T)) h;
  do h <- on b x_gs_std2rev h;
  do h <- on b (fun x => reduce_array_asm x n) h;
  do h <- mul_reduce_array_asm_h h c n a b;
  do h <- on c (fun x => reduce_array_twice_asm x n) h;
  do h <- on c x_intt_gs_rev2std h;
  do h <- on c (fun x => mul_reduce_array16_asm x n (red_scaled_inv_psi_powers T)) h;
  do h <- on c (fun x => reduce_array_twice_asm x n) h;
  do h <- on c (fun x => correct_asm x n) h;
  ret h.

(** ntt_red16_product5_asm, src/ntt_red_asm16.c 113-129 (256, 512: same lines; ntt_red_asm1024.c 111-127) *)
Definition red_product5_asm (h : heap) (c a b : Z) : tr heap :=
  do h <- on a maybe_shift_asm h;
  do h <- on a x_mulntt_ct_std2rev h;
  do h <- on a (fun x => reduce_array_asm x n) h;
  do h <- on b maybe_shift_asm h;
  do h <- on b x_mulntt_ct_std2rev h;
  do h <- on b (fun x => reduce_array_asm x n) h;
  do h <- mul_reduce_array_asm_h h c n a b;
  do h <- on c (fun x => reduce_array_twice_asm x n) h;
  do h <- on c x_inttmul_gs_rev2std h;
  do h <- on c (fun x => scalar_mul_reduce_array_asm x n (rescale8 T)) h;
  do h <- on c (fun x => reduce_array_twice_asm x n) h;
  do h <- on c (fun x => correct_asm x n) h;
  ret h.

(** ntt_red1024_product1_asm, src/ntt_red_asm1024.c 17-37: no shift, the reduction of [c] before
    the inverse transform is commented out, and the final multiplication uses another table *)
Definition red1024_product1_asm (h : heap) (c a b : Z) : tr heap :=
  do h <- on a (fun x => mul_reduce_array16_asm x n (red_psi_powers T)) h;
  do h <- on a x_ct_std2rev h;
  do h <- on a (fun x => reduce_array_asm x n) h;
  do h <- on b (fun x => mul_reduce_array16_asm x n (red_psi_powers T)) h;
  do h <- on b x_ct_std2rev h;
  do h <- on b (fun x => reduce_array_asm x n) h;
  do h <- mul_reduce_array_asm_h h c n a b;
  do h <- on c x_intt_ct_rev2std h;
  do h <- on c (fun x => mul_reduce_array16_asm x n (red_scaled_inv_psi_powers_var T)) h;
  do h <- on c (fun x => reduce_array_twice_asm x n) h;
  do h <- on c (fun x => correct_asm x n) h;
  ret h.
End Asm.
