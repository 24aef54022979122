(** ModelRed (/repo/src/ntt_red.c) read with the semantics of TraceSem: same text,
    each access names its array, each [if] of the code is [cif]. *)

From Coq Require Import ZArith List Bool.
From Verif Require Import CSem TraceSem.
Import ListNotations.
Open Scope Z_scope.

(** src/ntt_red.c 24 *)
Definition Q : Z := 12289.

(** red, src/ntt_red.c 34-36 *)
Definition red (x : Z) : tr Z :=
  do y <- mul32 3 (Z.land x 4095);
  sub32 y (Z.shiftr x 12).

(** mul_red, src/ntt_red.c 39-46: 64-bit product, assertion, conversion of
    [z & 4095] and [z >> 12] to int32, 32-bit result *)
Definition mul_red (x y : Z) : tr Z :=
  do z <- mul64 x y;
  do _ <- cassert ((-8796042698752 <=? z) && (z <=? 8796093026303));
  let x := to_i32 (Z.land z 4095) in
  let y := to_i32 (Z.shiftr z 12) in
  do v <- mul32 3 x;
  sub32 v y.

(** normalize, src/ntt_red.c 72-82 *)
Definition normalize (a : list Z) (n : Z) : tr (list Z) :=
  cfor (fuel n) 0 (fun i => i <? n) (fun i => u32 (i + 1)) (fun i a =>
    do v <- rd Arg a i;
    do x <- rem32 v Q;
    do x <- (branch x <? 0 then add32 x Q else ret x);
    do _ <- cassert ((0 <=? x) && (x <? Q));
    wr Arg a i x) a.

(** normalize_inv3, src/ntt_red.c 87-97 *)
Definition normalize_inv3 (a : list Z) (n : Z) : tr (list Z) :=
  cfor (fuel n) 0 (fun i => i <? n) (fun i => u32 (i + 1)) (fun i a =>
    do v <- rd Arg a i;
    do z <- mul64 v 8193;
    do z <- rem64 z Q;
    let x := to_i32 z in
    do x <- (branch x <? 0 then add32 x Q else ret x);
    do _ <- cassert ((0 <=? x) && (x <? Q));
    wr Arg a i x) a.

(** shift_array, src/ntt_red.c 103-111 *)
Definition shift_array (a : list Z) (n : Z) : tr (list Z) :=
  cfor (fuel n) 0 (fun i => i <? n) (fun i => u32 (i + 1)) (fun i a =>
    do x <- rd Arg a i;
    do v <- (branch (Q - 1) / 2 <? x then sub32 x Q else ret x);
    wr Arg a i v) a.

(** reduce_array, src/ntt_red.c 124-130 *)
Definition reduce_array (a : list Z) (n : Z) : tr (list Z) :=
  cfor (fuel n) 0 (fun i => i <? n) (fun i => u32 (i + 1)) (fun i a =>
    do x <- rd Arg a i;
    do v <- red x;
    wr Arg a i v) a.

(** reduce_array_twice, src/ntt_red.c 138-144 *)
Definition reduce_array_twice (a : list Z) (n : Z) : tr (list Z) :=
  cfor (fuel n) 0 (fun i => i <? n) (fun i => u32 (i + 1)) (fun i a =>
    do x <- rd Arg a i;
    do v <- red x;
    do v <- red v;
    wr Arg a i v) a.

(** correct, src/ntt_red.c 150-169 *)
Definition correct (a : list Z) (n : Z) : tr (list Z) :=
  cfor (fuel n) 0 (fun i => i <? n) (fun i => u32 (i + 1)) (fun i a =>
    do x <- rd Arg a i;
    do x <- add32 x (Z.land (Z.shiftr x 16) Q);
    do x <- sub32 x Q;
    do x <- add32 x (Z.land (Z.shiftr x 16) Q);
    wr Arg a i x) a.

(** mul_reduce_array16, src/ntt_red.c 197-203 *)
Definition mul_reduce_array16 (a : list Z) (n : Z) (p : list Z) : tr (list Z) :=
  cfor (fuel n) 0 (fun i => i <? n) (fun i => u32 (i + 1)) (fun i a =>
    do x <- rd Arg a i;
    do y <- rd Tab p i;
    do v <- mul_red x y;
    wr Arg a i v) a.

(** mul_reduce_array, src/ntt_red.c 205-211, on a heap (c may alias a or b) *)
Definition mul_reduce_array_h (h : heap) (c n a b : Z) : tr heap :=
  cfor (fuel n) 0 (fun i => i <? n) (fun i => u32 (i + 1)) (fun i h =>
    do x <- rd (Ptr a) (h a) i;
    do y <- rd (Ptr b) (h b) i;
    do v <- mul_red x y;
    do l <- wr (Ptr c) (h c) i v;
    ret (hset h c l)) h.

(** scalar_mul_reduce_array, src/ntt_red.c 217-223 *)
Definition scalar_mul_reduce_array (a : list Z) (n : Z) (c : Z) : tr (list Z) :=
  cfor (fuel n) 0 (fun i => i <? n) (fun i => u32 (i + 1)) (fun i a =>
    do x <- rd Arg a i;
    do v <- mul_red x c;
    wr Arg a i v) a.

(** Statements with j = 0, src/ntt_red.c 256-258, 340-342, 429-431, 507-509:
    [x = a[s+t]; a[s+t] = a[s] - x; a[s] = a[s] + x] *)
Definition bfly0_red (s t : Z) (a : list Z) : tr (list Z) :=
  do x <- rd Arg a (u32 (s + t));
  do y <- rd Arg a s;
  do v <- sub32 y x;
  do a <- wr Arg a (u32 (s + t)) v;
  do y <- rd Arg a s;
  do v <- add32 y x;
  wr Arg a s v.

(** Cooley-Tukey statements, src/ntt_red.c 264-266, 298-300, 349-351, 391-393:
    [x = mul_red(a[s+t], w); a[s+t] = a[s] - x; a[s] = a[s] + x] *)
Definition ct_bfly_red (w s t : Z) (a : list Z) : tr (list Z) :=
  do y <- rd Arg a (u32 (s + t));
  do x <- mul_red y w;
  do y <- rd Arg a s;
  do v <- sub32 y x;
  do a <- wr Arg a (u32 (s + t)) v;
  do y <- rd Arg a s;
  do v <- add32 y x;
  wr Arg a s v.

(** Gentleman-Sande statements, src/ntt_red.c 437-439, 473-475, 515-517,
    548-550:
    [x = a[s+d]; a[s+d] = mul_red(a[s] - x, w); a[s] = a[s] + x] *)
Definition gs_bfly_red (w s t : Z) (a : list Z) : tr (list Z) :=
  do x <- rd Arg a (u32 (s + t));
  do y <- rd Arg a s;
  do v <- sub32 y x;
  do v <- mul_red v w;
  do a <- wr Arg a (u32 (s + t)) v;
  do y <- rd Arg a s;
  do v <- add32 y x;
  wr Arg a s v.

(** ntt_red_ct_rev2std, src/ntt_red.c 244-270 *)
Definition ntt_red_ct_rev2std (a : list Z) (n : Z) (p : list Z) : tr (list Z) :=
  cfor (fuel n) 1 (fun t => t <? n) (fun t => u32 (t * 2)) (fun t a =>
    do a <- cfor (fuel n) 0 (fun s => s <? n) (fun s => u32 (s + u32 (t + t)))
              (fun s a => bfly0_red s t a) a;
    cfor (fuel n) 1 (fun j => j <? t) (fun j => u32 (j + 1)) (fun j a =>
      do w <- rd Tab p (u32 (t + j));
      cfor (fuel n) j (fun s => s <? n) (fun s => u32 (s + u32 (t + t)))
        (fun s a => ct_bfly_red w s t a) a) a) a.

(** mulntt_red_ct_rev2std, src/ntt_red.c 280-304 *)
Definition mulntt_red_ct_rev2std (a : list Z) (n : Z) (p : list Z) : tr (list Z) :=
  cfor (fuel n) 1 (fun t => t <? n) (fun t => u32 (t * 2)) (fun t a =>
    cfor (fuel n) 0 (fun j => j <? t) (fun j => u32 (j + 1)) (fun j a =>
      do w <- rd Tab p (u32 (t + j));
      cfor (fuel n) j (fun s => s <? n) (fun s => u32 (s + u32 (t + t)))
        (fun s a => ct_bfly_red w s t a) a) a) a.

(** ntt_red_ct_std2rev, src/ntt_red.c 321-355 *)
Definition ntt_red_ct_std2rev (a : list Z) (n : Z) (p : list Z) : tr (list Z) :=
  do '(_, a) <- cfor (fuel n) 1 (fun t => t <? n) (fun t => u32 (t * 2)) (fun t '(d, a) =>
    let d := Z.shiftr d 1 in
    do a <- cfor (fuel n) 0 (fun s => s <? d) (fun s => u32 (s + 1))
              (fun s a => bfly0_red s d a) a;
    do '(_, a) <- cfor (fuel n) 1 (fun j => j <? t) (fun j => u32 (j + 1)) (fun j '(u, a) =>
      do w <- rd Tab p (u32 (t + j));
      let u := u32 (u + u32 (2 * d)) in
      do a <- cfor (fuel n) u (fun s => s <? u32 (u + d)) (fun s => u32 (s + 1))
                (fun s a => ct_bfly_red w s d a) a;
      ret (u, a)) (0, a);
    ret (d, a)) (n, a);
  ret a.

(** mulntt_red_ct_std2rev, src/ntt_red.c 368-397 *)
Definition mulntt_red_ct_std2rev (a : list Z) (n : Z) (p : list Z) : tr (list Z) :=
  do '(_, a) <- cfor (fuel n) 1 (fun t => t <? n) (fun t => u32 (t * 2)) (fun t '(d, a) =>
    let d := Z.shiftr d 1 in
    do '(_, a) <- cfor (fuel n) 0 (fun j => j <? t) (fun j => u32 (j + 1)) (fun j '(u, a) =>
      do w <- rd Tab p (u32 (t + j));
      do a <- cfor (fuel n) u (fun s => s <? u32 (u + d)) (fun s => u32 (s + 1))
                (fun s a => ct_bfly_red w s d a) a;
      ret (u32 (u + u32 (2 * d)), a)) (0, a);
    ret (d, a)) (n, a);
  ret a.

(** ntt_red_gs_rev2std, src/ntt_red.c 414-443 *)
Definition ntt_red_gs_rev2std (a : list Z) (n : Z) (p : list Z) : tr (list Z) :=
  do '(_, a) <- cfor (fuel n) 1 (fun d => d <? n) (fun d => u32 (d * 2)) (fun d '(t, a) =>
    let t := Z.shiftr t 1 in
    do a <- cfor (fuel n) 0 (fun s => s <? d) (fun s => u32 (s + 1))
              (fun s a => bfly0_red s d a) a;
    do '(_, a) <- cfor (fuel n) 1 (fun j => j <? t) (fun j => u32 (j + 1)) (fun j '(u, a) =>
      do w <- rd Tab p (u32 (t + j));
      do a <- cfor (fuel n) u (fun s => s <? u32 (u + d)) (fun s => u32 (s + 1))
                (fun s a => gs_bfly_red w s d a) a;
      ret (u32 (u + u32 (2 * d)), a)) (u32 (2 * d), a);
    ret (t, a)) (n, a);
  ret a.

(** nttmul_red_gs_rev2std, src/ntt_red.c 456-479 *)
Definition nttmul_red_gs_rev2std (a : list Z) (n : Z) (p : list Z) : tr (list Z) :=
  do '(_, a) <- cfor (fuel n) 1 (fun d => d <? n) (fun d => u32 (d * 2)) (fun d '(t, a) =>
    let t := Z.shiftr t 1 in
    do '(_, a) <- cfor (fuel n) 0 (fun j => j <? t) (fun j => u32 (j + 1)) (fun j '(u, a) =>
      do w <- rd Tab p (u32 (t + j));
      do a <- cfor (fuel n) u (fun s => s <? u32 (u + d)) (fun s => u32 (s + 1))
                (fun s a => gs_bfly_red w s d a) a;
      ret (u32 (u + u32 (2 * d)), a)) (0, a);
    ret (t, a)) (n, a);
  ret a.

(** ntt_red_gs_std2rev, src/ntt_red.c 495-521 *)
Definition ntt_red_gs_std2rev (a : list Z) (n : Z) (p : list Z) : tr (list Z) :=
  cfor (fuel n) (Z.shiftr n 1) (fun t => 0 <? t) (fun t => Z.shiftr t 1) (fun t a =>
    do a <- cfor (fuel n) 0 (fun s => s <? n) (fun s => u32 (s + u32 (t + t)))
              (fun s a => bfly0_red s t a) a;
    cfor (fuel n) 1 (fun j => j <? t) (fun j => u32 (j + 1)) (fun j a =>
      do w <- rd Tab p (u32 (t + j));
      cfor (fuel n) j (fun s => s <? n) (fun s => u32 (s + u32 (t + t)))
        (fun s a => gs_bfly_red w s t a) a) a) a.

(** nttmul_red_gs_std2rev, src/ntt_red.c 534-554 *)
Definition nttmul_red_gs_std2rev (a : list Z) (n : Z) (p : list Z) : tr (list Z) :=
  cfor (fuel n) (Z.shiftr n 1) (fun t => 0 <? t) (fun t => Z.shiftr t 1) (fun t a =>
    cfor (fuel n) 0 (fun j => j <? t) (fun j => u32 (j + 1)) (fun j a =>
      do w <- rd Tab p (u32 (t + j));
      cfor (fuel n) j (fun s => s <? n) (fun s => u32 (s + u32 (t + t)))
        (fun s a => gs_bfly_red w s t a) a) a) a.
