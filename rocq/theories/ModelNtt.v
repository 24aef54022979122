(** Model of /repo/src/ntt.c (default implementation, Q = 12289).

    Simplifications: the six statement groups that the file repeats inside its
    loops (the "butterflies") are written once each below; everything else
    follows the C text loop by loop.  [p] is a [uint16_t] array. *)

From Coq Require Import ZArith List Bool.
From Verif Require Import CSem.
Import ListNotations.
Open Scope Z_scope.

(** src/ntt.c 18 *)
Definition Q : Z := 12289.

(** bitrev_shuffle, src/ntt.c 27-44 (the copy in src/naive_ntt.c 24-41 is
    identical).  The [do ... while] loop is [cdowhile]; its state is [(k, j)]. *)
Definition bitrev_shuffle (a : list Z) (n : Z) : res (list Z) :=
  do _ <- cassert ((0 <? n) && (Z.land n (u32 (n - 1)) =? 0));
  do '(_, a) <- cfor (fuel n) 1 (fun i => i <? u32 (n - 1)) (fun i => u32 (i + 1))
    (fun i '(j, a) =>
      do a <- (if i <? j then
                 do x <- rd a i;
                 do y <- rd a j;
                 do a <- wr a i y;
                 wr a j x
               else Ok a);
      do '(_, j) <- cdowhile (fuel 32)
                      (fun '(k, j) => let k := Z.shiftr k 1 in Ok (k, Z.lxor j k))
                      (fun '(k, j) => Z.land j k =? 0) (n, j);
      Ok (j, a)) (Z.shiftr n 1, a);
  Ok a.

(** shuffle_with_table, src/ntt.c 50-59 (same as src/naive_ntt.c 47-56).
    [p] is the list of pairs of the table, [n] the number of pairs. *)
Definition shuffle_with_table (a : list Z) (p : list (Z * Z)) (n : Z) : res (list Z) :=
  cfor (fuel n) 0 (fun i => i <? n) (fun i => u32 (i + 1)) (fun i a =>
    do '(j, k) <- match nth_error p (Z.to_nat i) with
                  | Some pr => Ok pr
                  | None => Err OutOfBounds
                  end;
    do x <- rd a j;
    do y <- rd a k;
    do a <- wr a j y;
    wr a k x) a.

(** sub_mod, src/ntt.c 69-74 *)
Definition sub_mod (x y : Z) : res Z :=
  do x <- sub32 x y;
  add32 x (Z.land (Z.shiftr x 14) Q).

(** add_mod, src/ntt.c 76-81 *)
Definition add_mod (x y : Z) : res Z :=
  do d <- sub32 y Q;
  do x <- add32 x d;
  add32 x (Z.land (Z.shiftr x 14) Q).

(** divq, src/ntt.c 101-103: conversion of the int32 argument to uint64 wraps,
    the product wraps at 64 bits, the result is converted to uint32 *)
Definition divq (x : Z) : Z :=
  u32 (Z.shiftr (u64 (u64 x * 178942409)) 41).

(** modq, src/ntt.c 105-107: uint32 arithmetic converted back to int32 *)
Definition modq (x : Z) : Z :=
  to_i32 (u32 (u32 x - u32 (divq x * Q))).

(** mul_array16, src/ntt.c 119-125 *)
Definition mul_array16 (a : list Z) (n : Z) (p : list Z) : res (list Z) :=
  cfor (fuel n) 0 (fun i => i <? n) (fun i => u32 (i + 1)) (fun i a =>
    do x <- rd a i;
    do y <- rd p i;
    do z <- mul32 x y;
    wr a i (modq z)) a.

(** mul_array, src/ntt.c 131-137.  [a] and [b] are read, [c] is written; the
    heap version used by the product functions is [mul_array_h]. *)
Definition mul_array_h (h : heap) (c n a b : Z) : res heap :=
  cfor (fuel n) 0 (fun i => i <? n) (fun i => u32 (i + 1)) (fun i h =>
    do x <- rd (h a) i;
    do y <- rd (h b) i;
    do z <- mul32 x y;
    do l <- wr (h c) i (modq z);
    Ok (hset h c l)) h.

(** scalar_mul_array, src/ntt.c 147-153 *)
Definition scalar_mul_array (a : list Z) (n : Z) (c : Z) : res (list Z) :=
  cfor (fuel n) 0 (fun i => i <? n) (fun i => u32 (i + 1)) (fun i a =>
    do x <- rd a i;
    do z <- mul32 x c;
    wr a i (modq z)) a.

(** Statements 182-184, 228-230, 314-316, 402-404, 479-481 (j = 0, no
    multiplication):
    [x = a[s+t]; a[s+t] = sub_mod(a[s], x); a[s] = add_mod(a[s], x)] *)
Definition bfly0 (s t : Z) (a : list Z) : res (list Z) :=
  do x <- rd a (u32 (s + t));
  do y <- rd a s;
  do v <- sub_mod y x;
  do a <- wr a (u32 (s + t)) v;
  do y <- rd a s;
  do v <- add_mod y x;
  wr a s v.

(** Cooley-Tukey statements, src/ntt.c 191-193, 237-239, 272-274, 323-325,
    365-367:
    [x = modq(a[s+t] * w); a[s+t] = sub_mod(a[s], x); a[s] = add_mod(a[s], x)] *)
Definition ct_bfly (w s t : Z) (a : list Z) : res (list Z) :=
  do y <- rd a (u32 (s + t));
  do z <- mul32 y w;
  let x := modq z in
  do y <- rd a s;
  do v <- sub_mod y x;
  do a <- wr a (u32 (s + t)) v;
  do y <- rd a s;
  do v <- add_mod y x;
  wr a s v.

(** Gentleman-Sande statements, src/ntt.c 410-412, 445-447, 487-489, 519-521:
    [x = a[s+t]; a[s+t] = modq(sub_mod(a[s], x) * w); a[s] = add_mod(a[s], x)] *)
Definition gs_bfly (w s t : Z) (a : list Z) : res (list Z) :=
  do x <- rd a (u32 (s + t));
  do y <- rd a s;
  do v <- sub_mod y x;
  do v <- mul32 v w;
  do a <- wr a (u32 (s + t)) (modq v);
  do y <- rd a s;
  do v <- add_mod y x;
  wr a s v.

(** ntt_ct_rev2std_v1, src/ntt.c 168-197 (table of powers of psi, index [j*l]) *)
Definition ntt_ct_rev2std_v1 (a : list Z) (n : Z) (p : list Z) : res (list Z) :=
  do '(_, a) <- cfor (fuel n) 1 (fun t => t <? n) (fun t => u32 (t * 2)) (fun t '(l, a) =>
    do a <- cfor (fuel n) 0 (fun s => s <? n) (fun s => u32 (s + u32 (t + t)))
              (fun s a => bfly0 s t a) a;
    do a <- cfor (fuel n) 1 (fun j => j <? t) (fun j => u32 (j + 1)) (fun j a =>
      do w <- rd p (u32 (j * l));
      cfor (fuel n) j (fun s => s <? n) (fun s => u32 (s + u32 (t + t)))
        (fun s a => ct_bfly w s t a) a) a;
    Ok (Z.shiftr l 1, a)) (n, a);
  Ok a.

(** ntt_ct_rev2std, src/ntt.c 216-243 *)
Definition ntt_ct_rev2std (a : list Z) (n : Z) (p : list Z) : res (list Z) :=
  cfor (fuel n) 1 (fun t => t <? n) (fun t => u32 (t * 2)) (fun t a =>
    do a <- cfor (fuel n) 0 (fun s => s <? n) (fun s => u32 (s + u32 (t + t)))
              (fun s a => bfly0 s t a) a;
    cfor (fuel n) 1 (fun j => j <? t) (fun j => u32 (j + 1)) (fun j a =>
      do w <- rd p (u32 (t + j));
      cfor (fuel n) j (fun s => s <? n) (fun s => u32 (s + u32 (t + t)))
        (fun s a => ct_bfly w s t a) a) a) a.

(** mulntt_ct_rev2std, src/ntt.c 253-278 *)
Definition mulntt_ct_rev2std (a : list Z) (n : Z) (p : list Z) : res (list Z) :=
  cfor (fuel n) 1 (fun t => t <? n) (fun t => u32 (t * 2)) (fun t a =>
    cfor (fuel n) 0 (fun j => j <? t) (fun j => u32 (j + 1)) (fun j a =>
      do w <- rd p (u32 (t + j));
      cfor (fuel n) j (fun s => s <? n) (fun s => u32 (s + u32 (t + t)))
        (fun s a => ct_bfly w s t a) a) a) a.

(** ntt_ct_std2rev, src/ntt.c 295-329 *)
Definition ntt_ct_std2rev (a : list Z) (n : Z) (p : list Z) : res (list Z) :=
  do '(_, a) <- cfor (fuel n) 1 (fun t => t <? n) (fun t => u32 (t * 2)) (fun t '(d, a) =>
    let d := Z.shiftr d 1 in
    do a <- cfor (fuel n) 0 (fun s => s <? d) (fun s => u32 (s + 1))
              (fun s a => bfly0 s d a) a;
    do '(_, a) <- cfor (fuel n) 1 (fun j => j <? t) (fun j => u32 (j + 1)) (fun j '(u, a) =>
      do w <- rd p (u32 (t + j));
      let u := u32 (u + u32 (2 * d)) in
      do a <- cfor (fuel n) u (fun s => s <? u32 (u + d)) (fun s => u32 (s + 1))
                (fun s a => ct_bfly w s d a) a;
      Ok (u, a)) (0, a);
    Ok (d, a)) (n, a);
  Ok a.

(** mulntt_ct_std2rev, src/ntt.c 342-371 *)
Definition mulntt_ct_std2rev (a : list Z) (n : Z) (p : list Z) : res (list Z) :=
  do '(_, a) <- cfor (fuel n) 1 (fun t => t <? n) (fun t => u32 (t * 2)) (fun t '(d, a) =>
    let d := Z.shiftr d 1 in
    do '(_, a) <- cfor (fuel n) 0 (fun j => j <? t) (fun j => u32 (j + 1)) (fun j '(u, a) =>
      do w <- rd p (u32 (t + j));
      do a <- cfor (fuel n) u (fun s => s <? u32 (u + d)) (fun s => u32 (s + 1))
                (fun s a => ct_bfly w s d a) a;
      Ok (u32 (u + u32 (2 * d)), a)) (0, a);
    Ok (d, a)) (n, a);
  Ok a.

(** ntt_gs_rev2std, src/ntt.c 387-416 *)
Definition ntt_gs_rev2std (a : list Z) (n : Z) (p : list Z) : res (list Z) :=
  do '(_, a) <- cfor (fuel n) 1 (fun d => d <? n) (fun d => u32 (d * 2)) (fun d '(t, a) =>
    let t := Z.shiftr t 1 in
    do a <- cfor (fuel n) 0 (fun s => s <? d) (fun s => u32 (s + 1))
              (fun s a => bfly0 s d a) a;
    do '(_, a) <- cfor (fuel n) 1 (fun j => j <? t) (fun j => u32 (j + 1)) (fun j '(u, a) =>
      do w <- rd p (u32 (t + j));
      do a <- cfor (fuel n) u (fun s => s <? u32 (u + d)) (fun s => u32 (s + 1))
                (fun s a => gs_bfly w s d a) a;
      Ok (u32 (u + u32 (2 * d)), a)) (u32 (2 * d), a);
    Ok (t, a)) (n, a);
  Ok a.

(** nttmul_gs_rev2std, src/ntt.c 428-451 *)
Definition nttmul_gs_rev2std (a : list Z) (n : Z) (p : list Z) : res (list Z) :=
  do '(_, a) <- cfor (fuel n) 1 (fun d => d <? n) (fun d => u32 (d * 2)) (fun d '(t, a) =>
    let t := Z.shiftr t 1 in
    do '(_, a) <- cfor (fuel n) 0 (fun j => j <? t) (fun j => u32 (j + 1)) (fun j '(u, a) =>
      do w <- rd p (u32 (t + j));
      do a <- cfor (fuel n) u (fun s => s <? u32 (u + d)) (fun s => u32 (s + 1))
                (fun s a => gs_bfly w s d a) a;
      Ok (u32 (u + u32 (2 * d)), a)) (0, a);
    Ok (t, a)) (n, a);
  Ok a.

(** ntt_gs_std2rev, src/ntt.c 467-493 *)
Definition ntt_gs_std2rev (a : list Z) (n : Z) (p : list Z) : res (list Z) :=
  cfor (fuel n) (Z.shiftr n 1) (fun t => 0 <? t) (fun t => Z.shiftr t 1) (fun t a =>
    do a <- cfor (fuel n) 0 (fun s => s <? n) (fun s => u32 (s + u32 (t + t)))
              (fun s a => bfly0 s t a) a;
    cfor (fuel n) 1 (fun j => j <? t) (fun j => u32 (j + 1)) (fun j a =>
      do w <- rd p (u32 (t + j));
      cfor (fuel n) j (fun s => s <? n) (fun s => u32 (s + u32 (t + t)))
        (fun s a => gs_bfly w s t a) a) a) a.

(** nttmul_gs_std2rev, src/ntt.c 505-525 *)
Definition nttmul_gs_std2rev (a : list Z) (n : Z) (p : list Z) : res (list Z) :=
  cfor (fuel n) (Z.shiftr n 1) (fun t => 0 <? t) (fun t => Z.shiftr t 1) (fun t a =>
    cfor (fuel n) 0 (fun j => j <? t) (fun j => u32 (j + 1)) (fun j a =>
      do w <- rd p (u32 (t + j));
      cfor (fuel n) j (fun s => s <? n) (fun s => u32 (s + u32 (t + t)))
        (fun s a => gs_bfly w s t a) a) a) a.
