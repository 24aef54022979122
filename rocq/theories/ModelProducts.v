(** Model of the product functions: /repo/src/ntt{16,256,512,1024}.c,
    /repo/src/naive_ntt{16,256,512,1024}.c, /repo/src/ntt_red{16,256,512,1024}.c
    and of the wrappers in the headers of the same names.

    The four files of each family are the same text up to the size, except
    that the Longa-Naehrig products for 16, 256 and 512 start with
    [shift_array], which the file for 1024 leaves out (it is commented out or
    missing); this is the parameter [sh].  The size [n] and the constant tables
    (generated by make_tables / make_red_tables) are parameters.  The three
    arrays live in a heap, so that [c], [a], [b] may be the same array. *)

From Coq Require Import ZArith List Bool.
From Verif Require Import CSem ModelGen ModelNtt ModelNaive ModelRed.
Import ListNotations.
Open Scope Z_scope.

(** A call [f(p, ...)] that works in place on array [p]. *)
Definition on (p : Z) (f : list Z -> res (list Z)) (h : heap) : res heap :=
  do l <- f (h p);
  Ok (hset h p l).

Section Default.
Variables (n : Z) (T : tables).

(** The wrappers of ntt1024.h 20-72 (ntt16.h, ntt256.h, ntt512.h: same). *)
Definition n_ct_rev2std (a : list Z) := ntt_ct_rev2std a n (omega_powers T).
Definition n_gs_rev2std (a : list Z) := ntt_gs_rev2std a n (omega_powers_rev T).
Definition n_ct_std2rev (a : list Z) := ntt_ct_std2rev a n (omega_powers_rev T).
Definition n_gs_std2rev (a : list Z) := ntt_gs_std2rev a n (omega_powers T).
Definition n_intt_ct_rev2std (a : list Z) := ntt_ct_rev2std a n (inv_omega_powers T).
Definition n_intt_gs_rev2std (a : list Z) := ntt_gs_rev2std a n (inv_omega_powers_rev T).
Definition n_intt_ct_std2rev (a : list Z) := ntt_ct_std2rev a n (inv_omega_powers_rev T).
Definition n_intt_gs_std2rev (a : list Z) := ntt_gs_std2rev a n (inv_omega_powers T).
Definition n_mulntt_ct_rev2std (a : list Z) := mulntt_ct_rev2std a n (mixed_powers T).
Definition n_mulntt_ct_std2rev (a : list Z) := mulntt_ct_std2rev a n (mixed_powers_rev T).
Definition n_inttmul_gs_rev2std (a : list Z) := nttmul_gs_rev2std a n (inv_mixed_powers_rev T).
Definition n_inttmul_gs_std2rev (a : list Z) := nttmul_gs_std2rev a n (inv_mixed_powers T).

(** ntt1024_product1, src/ntt1024.c 10-18 (ntt16.c, ntt256.c, ntt512.c 10-18) *)
Definition ntt_product1 (h : heap) (c a b : Z) : res heap :=
  do h <- on a (fun x => mul_array16 x n (psi_powers T)) h;
  do h <- on a n_ct_std2rev h;
  do h <- on b (fun x => mul_array16 x n (psi_powers T)) h;
  do h <- on b n_ct_std2rev h;
  do h <- mul_array_h h c n a b;
  do h <- on c n_intt_ct_rev2std h;
  do h <- on c (fun x => mul_array16 x n (scaled_inv_psi_powers T)) h;
  Ok h.

(** ntt1024_product2, src/ntt1024.c 20-28 *)
Definition ntt_product2 (h : heap) (c a b : Z) : res heap :=
  do h <- on a (fun x => mul_array16 x n (psi_powers T)) h;
  do h <- on a n_gs_std2rev h;
  do h <- on b (fun x => mul_array16 x n (psi_powers T)) h;
  do h <- on b n_gs_std2rev h;
  do h <- mul_array_h h c n a b;
  do h <- on c n_intt_ct_rev2std h;
  do h <- on c (fun x => mul_array16 x n (scaled_inv_psi_powers T)) h;
  Ok h.

(** ntt1024_product3, src/ntt1024.c 30-38 *)
Definition ntt_product3 (h : heap) (c a b : Z) : res heap :=
  do h <- on a (fun x => mul_array16 x n (psi_powers T)) h;
  do h <- on a n_ct_std2rev h;
  do h <- on b (fun x => mul_array16 x n (psi_powers T)) h;
  do h <- on b n_ct_std2rev h;
  do h <- mul_array_h h c n a b;
  do h <- on c n_intt_gs_rev2std h;
  do h <- on c (fun x => mul_array16 x n (scaled_inv_psi_powers T)) h;
  Ok h.

(** ntt1024_product4, src/ntt1024.c 40-48 *)
Definition ntt_product4 (h : heap) (c a b : Z) : res heap :=
  do h <- on a (fun x => mul_array16 x n (psi_powers T)) h;
  do h <- on a n_gs_std2rev h;
  do h <- on b (fun x => mul_array16 x n (psi_powers T)) h;
  do h <- on b n_gs_std2rev h;
  do h <- mul_array_h h c n a b;
  do h <- on c n_intt_gs_rev2std h;
  do h <- on c (fun x => mul_array16 x n (scaled_inv_psi_powers T)) h;
  Ok h.

(** ntt1024_product5, src/ntt1024.c 53-59 *)
Definition ntt_product5 (h : heap) (c a b : Z) : res heap :=
  do h <- on a n_mulntt_ct_std2rev h;
  do h <- on b n_mulntt_ct_std2rev h;
  do h <- mul_array_h h c n a b;
  do h <- on c n_inttmul_gs_rev2std h;
  do h <- on c (fun x => scalar_mul_array x n (t_inv_n T)) h;
  Ok h.
End Default.

Section Naive.
Variables (n : Z) (T : tables).

(** The wrappers of naive_ntt1024.h 20-72 (the other sizes: same). *)
Definition v_ct_rev2std (a : list Z) := ntt_ct_rev2std_naive a n (omega_powers T) 12289.
Definition v_gs_rev2std (a : list Z) := ntt_gs_rev2std_naive a n (omega_powers_rev T) 12289.
Definition v_ct_std2rev (a : list Z) := ntt_ct_std2rev_naive a n (omega_powers_rev T) 12289.
Definition v_gs_std2rev (a : list Z) := ntt_gs_std2rev_naive a n (omega_powers T) 12289.
Definition v_intt_ct_rev2std (a : list Z) := ntt_ct_rev2std_naive a n (inv_omega_powers T) 12289.
Definition v_intt_gs_rev2std (a : list Z) := ntt_gs_rev2std_naive a n (inv_omega_powers_rev T) 12289.
Definition v_intt_ct_std2rev (a : list Z) := ntt_ct_std2rev_naive a n (inv_omega_powers_rev T) 12289.
Definition v_intt_gs_std2rev (a : list Z) := ntt_gs_std2rev_naive a n (inv_omega_powers T) 12289.
Definition v_mulntt_ct_rev2std (a : list Z) := mulntt_ct_rev2std_naive a n (mixed_powers T) 12289.
Definition v_mulntt_ct_std2rev (a : list Z) := mulntt_ct_std2rev_naive a n (mixed_powers_rev T) 12289.
Definition v_inttmul_gs_rev2std (a : list Z) := nttmul_gs_rev2std_naive a n (inv_mixed_powers_rev T) 12289.
Definition v_inttmul_gs_std2rev (a : list Z) := nttmul_gs_std2rev_naive a n (inv_mixed_powers T) 12289.

(** naive_ntt1024_product1, src/naive_ntt1024.c 10-18 *)
Definition naive_product1 (h : heap) (c a b : Z) : res heap :=
  do h <- on a (fun x => mul_array16_naive x n (psi_powers T) 12289) h;
  do h <- on a v_ct_std2rev h;
  do h <- on b (fun x => mul_array16_naive x n (psi_powers T) 12289) h;
  do h <- on b v_ct_std2rev h;
  do h <- mul_array_naive_h h c n a b 12289;
  do h <- on c v_intt_ct_rev2std h;
  do h <- on c (fun x => mul_array16_naive x n (scaled_inv_psi_powers T) 12289) h;
  Ok h.

(** naive_ntt1024_product2, src/naive_ntt1024.c 20-28 *)
Definition naive_product2 (h : heap) (c a b : Z) : res heap :=
  do h <- on a (fun x => mul_array16_naive x n (psi_powers T) 12289) h;
  do h <- on a v_gs_std2rev h;
  do h <- on b (fun x => mul_array16_naive x n (psi_powers T) 12289) h;
  do h <- on b v_gs_std2rev h;
  do h <- mul_array_naive_h h c n a b 12289;
  do h <- on c v_intt_ct_rev2std h;
  do h <- on c (fun x => mul_array16_naive x n (scaled_inv_psi_powers T) 12289) h;
  Ok h.

(** naive_ntt1024_product3, src/naive_ntt1024.c 30-38 *)
Definition naive_product3 (h : heap) (c a b : Z) : res heap :=
  do h <- on a (fun x => mul_array16_naive x n (psi_powers T) 12289) h;
  do h <- on a v_ct_std2rev h;
  do h <- on b (fun x => mul_array16_naive x n (psi_powers T) 12289) h;
  do h <- on b v_ct_std2rev h;
  do h <- mul_array_naive_h h c n a b 12289;
  do h <- on c v_intt_gs_rev2std h;
  do h <- on c (fun x => mul_array16_naive x n (scaled_inv_psi_powers T) 12289) h;
  Ok h.

(** naive_ntt1024_product4, src/naive_ntt1024.c 40-48 *)
Definition naive_product4 (h : heap) (c a b : Z) : res heap :=
  do h <- on a (fun x => mul_array16_naive x n (psi_powers T) 12289) h;
  do h <- on a v_gs_std2rev h;
  do h <- on b (fun x => mul_array16_naive x n (psi_powers T) 12289) h;
  do h <- on b v_gs_std2rev h;
  do h <- mul_array_naive_h h c n a b 12289;
  do h <- on c v_intt_gs_rev2std h;
  do h <- on c (fun x => mul_array16_naive x n (scaled_inv_psi_powers T) 12289) h;
  Ok h.

(** naive_ntt1024_product5, src/naive_ntt1024.c 54-60 *)
Definition naive_product5 (h : heap) (c a b : Z) : res heap :=
  do h <- on a v_mulntt_ct_std2rev h;
  do h <- on b v_mulntt_ct_std2rev h;
  do h <- mul_array_naive_h h c n a b 12289;
  do h <- on c v_inttmul_gs_rev2std h;
  do h <- on c (fun x => scalar_mul_array_naive x n (t_inv_n T) 12289) h;
  Ok h.
End Naive.

Section Red.
Variables (sh : bool) (n : Z) (T : red_tables).

(** The wrappers of ntt_red1024.h 20-72 (the other sizes: same). *)
Definition r_ct_rev2std (a : list Z) := ntt_red_ct_rev2std a n (red_omega_powers T).
Definition r_gs_rev2std (a : list Z) := ntt_red_gs_rev2std a n (red_omega_powers_rev T).
Definition r_ct_std2rev (a : list Z) := ntt_red_ct_std2rev a n (red_omega_powers_rev T).
Definition r_gs_std2rev (a : list Z) := ntt_red_gs_std2rev a n (red_omega_powers T).
Definition r_intt_ct_rev2std (a : list Z) := ntt_red_ct_rev2std a n (red_inv_omega_powers T).
Definition r_intt_gs_rev2std (a : list Z) := ntt_red_gs_rev2std a n (red_inv_omega_powers_rev T).
Definition r_intt_ct_std2rev (a : list Z) := ntt_red_ct_std2rev a n (red_inv_omega_powers_rev T).
Definition r_intt_gs_std2rev (a : list Z) := ntt_red_gs_std2rev a n (red_inv_omega_powers T).
Definition r_mulntt_ct_rev2std (a : list Z) := mulntt_red_ct_rev2std a n (red_mixed_powers T).
Definition r_mulntt_ct_std2rev (a : list Z) := mulntt_red_ct_std2rev a n (red_mixed_powers_rev T).
Definition r_inttmul_gs_rev2std (a : list Z) := nttmul_red_gs_rev2std a n (red_inv_mixed_powers_rev T).
Definition r_inttmul_gs_std2rev (a : list Z) := nttmul_red_gs_std2rev a n (red_inv_mixed_powers T).

(** [shift_array(x, n)] when present: src/ntt_red16.c 18, 23, 42, 47, ...; absent
    (or commented out) in src/ntt_red1024.c *)
Definition maybe_shift (x : list Z) : res (list Z) :=
  if sh then shift_array x n else Ok x.

(** ntt_red1024_product1, src/ntt_red1024.c 17-37 (ntt_red16.c 17-39) *)
Definition red_product1 (h : heap) (c a b : Z) : res heap :=
  do h <- on a maybe_shift h;
  do h <- on a (fun x => mul_reduce_array16 x n (red_psi_powers T)) h;
  do h <- on a r_ct_std2rev h;
  do h <- on a (fun x => reduce_array x n) h;
  do h <- on b maybe_shift h;
  do h <- on b (fun x => mul_reduce_array16 x n (red_psi_powers T)) h;
  do h <- on b r_ct_std2rev h;
  do h <- on b (fun x => reduce_array x n) h;
  do h <- mul_reduce_array_h h c n a b;
  do h <- on c (fun x => reduce_array_twice x n) h;
  do h <- on c r_intt_ct_rev2std h;
  do h <- on c (fun x => mul_reduce_array16 x n (red_scaled_inv_psi_powers T)) h;
  do h <- on c (fun x => reduce_array_twice x n) h;
  do h <- on c (fun x => correct x n) h;
  Ok h.

(** ntt_red1024_product2, src/ntt_red1024.c 39-61 *)
Definition red_product2 (h : heap) (c a b : Z) : res heap :=
  do h <- on a maybe_shift h;
  do h <- on a (fun x => mul_reduce_array16 x n (red_psi_powers T)) h;
  do h <- on a r_gs_std2rev h;
  do h <- on a (fun x => reduce_array x n) h;
  do h <- on b maybe_shift h;
  do h <- on b (fun x => mul_reduce_array16 x n (red_psi_powers T)) h;
  do h <- on b r_gs_std2rev h;
  do h <- on b (fun x => reduce_array x n) h;
  do h <- mul_reduce_array_h h c n a b;
  do h <- on c (fun x => reduce_array_twice x n) h;
  do h <- on c r_intt_ct_rev2std h;
  do h <- on c (fun x => mul_reduce_array16 x n (red_scaled_inv_psi_powers T)) h;
  do h <- on c (fun x => reduce_array_twice x n) h;
  do h <- on c (fun x => correct x n) h;
  Ok h.

(** ntt_red1024_product3, src/ntt_red1024.c 63-85 *)
Definition red_product3 (h : heap) (c a b : Z) : res heap :=
  do h <- on a maybe_shift h;
  do h <- on a (fun x => mul_reduce_array16 x n (red_psi_powers T)) h;
  do h <- on a r_ct_std2rev h;
  do h <- on a (fun x => reduce_array x n) h;
  do h <- on b maybe_shift h;
  do h <- on b (fun x => mul_reduce_array16 x n (red_psi_powers T)) h;
  do h <- on b r_ct_std2rev h;
  do h <- on b (fun x => reduce_array x n) h;
  do h <- mul_reduce_array_h h c n a b;
  do h <- on c (fun x => reduce_array_twice x n) h;
  do h <- on c r_intt_gs_rev2std h;
  do h <- on c (fun x => mul_reduce_array16 x n (red_scaled_inv_psi_powers T)) h;
  do h <- on c (fun x => reduce_array_twice x n) h;
  do h <- on c (fun x => correct x n) h;
  Ok h.

(** ntt_red1024_product4, src/ntt_red1024.c 87-109 *)
Definition red_product4 (h : heap) (c a b : Z) : res heap :=
  do h <- on a maybe_shift h;
  do h <- on a (fun x => mul_reduce_array16 x n (red_psi_powers T)) h;
  do h <- on a r_gs_std2rev h;
  do h <- on a (fun x => reduce_array x n) h;
  do h <- on b maybe_shift h;
  do h <- on b (fun x => mul_reduce_array16 x n (red_psi_powers T)) h;
  do h <- on b r_gs_std2rev h;
  do h <- on b (fun x => reduce_array x n) h;
  do h <- mul_reduce_array_h h c n a b;
  do h <- on c (fun x => reduce_array_twice x n) h;
  do h <- on c r_intt_gs_rev2std h;
  do h <- on c (fun x => mul_reduce_array16 x n (red_scaled_inv_psi_powers T)) h;
  do h <- on c (fun x => reduce_array_twice x n) h;
  do h <- on c (fun x => correct x n) h;
  Ok h.

(** ntt_red1024_product5, src/ntt_red1024.c 111-127 (ntt_red16.c 113-129) *)
Definition red_product5 (h : heap) (c a b : Z) : res heap :=
  do h <- on a maybe_shift h;
  do h <- on a r_mulntt_ct_std2rev h;
  do h <- on a (fun x => reduce_array x n) h;
  do h <- on b maybe_shift h;
  do h <- on b r_mulntt_ct_std2rev h;
  do h <- on b (fun x => reduce_array x n) h;
  do h <- mul_reduce_array_h h c n a b;
  do h <- on c (fun x => reduce_array_twice x n) h;
  do h <- on c r_inttmul_gs_rev2std h;
  do h <- on c (fun x => scalar_mul_reduce_array x n (rescale8 T)) h;
  do h <- on c (fun x => reduce_array_twice x n) h;
  do h <- on c (fun x => correct x n) h;
  Ok h.
End Red.
