(** Model of /repo/src/naive_ntt.c: plain C99 [% q] arithmetic.

    [bitrev_shuffle] and [shuffle_with_table] (24-56) are the same text as in
    src/ntt.c and are modelled once, in [ModelNtt].  The repeated statement
    groups inside the loops are written once each. *)

From Coq Require Import ZArith List Bool.
From Verif Require Import CSem.
Import ListNotations.
Open Scope Z_scope.

(** mul_array16_naive, src/naive_ntt.c 68-74 *)
Definition mul_array16_naive (a : list Z) (n : Z) (p : list Z) (q : Z) : res (list Z) :=
  cfor (fuel n) 0 (fun i => i <? n) (fun i => u32 (i + 1)) (fun i a =>
    do x <- rd a i;
    do y <- rd p i;
    do z <- mul32 x y;
    do r <- rem32 z q;
    wr a i r) a.

(** mul_array_naive, src/naive_ntt.c 80-86 *)
Definition mul_array_naive_h (h : heap) (c n a b q : Z) : res heap :=
  cfor (fuel n) 0 (fun i => i <? n) (fun i => u32 (i + 1)) (fun i h =>
    do x <- rd (h a) i;
    do y <- rd (h b) i;
    do z <- mul32 x y;
    do r <- rem32 z q;
    do l <- wr (h c) i r;
    Ok (hset h c l)) h.

(** scalar_mul_array_naive, src/naive_ntt.c 96-102 *)
Definition scalar_mul_array_naive (a : list Z) (n : Z) (c q : Z) : res (list Z) :=
  cfor (fuel n) 0 (fun i => i <? n) (fun i => u32 (i + 1)) (fun i a =>
    do x <- rd a i;
    do z <- mul32 x c;
    do r <- rem32 z q;
    wr a i r) a.

(** Statements with j = 0, src/naive_ntt.c 137-139, 223-225, 311-313, 390-392:
    [x = a[s+t]; a[s+t] = (a[s] - x) % q; a[s] = (a[s] + x) % q] *)
Definition bfly0_naive (q s t : Z) (a : list Z) : res (list Z) :=
  do x <- rd a (u32 (s + t));
  do y <- rd a s;
  do v <- sub32 y x;
  do v <- rem32 v q;
  do a <- wr a (u32 (s + t)) v;
  do y <- rd a s;
  do v <- add32 y x;
  do v <- rem32 v q;
  wr a s v.

(** Cooley-Tukey statements, src/naive_ntt.c 146-148, 181-183, 232-234, 274-276:
    [x = a[s+t] * w; a[s+t] = (a[s] - x) % q; a[s] = (a[s] + x) % q] *)
Definition ct_bfly_naive (q w s t : Z) (a : list Z) : res (list Z) :=
  do y <- rd a (u32 (s + t));
  do x <- mul32 y w;
  do y <- rd a s;
  do v <- sub32 y x;
  do v <- rem32 v q;
  do a <- wr a (u32 (s + t)) v;
  do y <- rd a s;
  do v <- add32 y x;
  do v <- rem32 v q;
  wr a s v.

(** Gentleman-Sande statements, src/naive_ntt.c 319-322, 355-358, 398-401,
    431-434:
    [x = a[s+d]; a[s+d] = ((a[s] - x) * w) % q; a[s] = (a[s] + x) % q] *)
Definition gs_bfly_naive (q w s t : Z) (a : list Z) : res (list Z) :=
  do x <- rd a (u32 (s + t));
  do y <- rd a s;
  do v <- sub32 y x;
  do v <- mul32 v w;
  do v <- rem32 v q;
  do a <- wr a (u32 (s + t)) v;
  do y <- rd a s;
  do v <- add32 y x;
  do v <- rem32 v q;
  wr a s v.

(** ntt_ct_rev2std_naive, src/naive_ntt.c 125-152 *)
Definition ntt_ct_rev2std_naive (a : list Z) (n : Z) (p : list Z) (q : Z) : res (list Z) :=
  cfor (fuel n) 1 (fun t => t <? n) (fun t => u32 (t * 2)) (fun t a =>
    do a <- cfor (fuel n) 0 (fun s => s <? n) (fun s => u32 (s + u32 (t + t)))
              (fun s a => bfly0_naive q s t a) a;
    cfor (fuel n) 1 (fun j => j <? t) (fun j => u32 (j + 1)) (fun j a =>
      do w <- rd p (u32 (t + j));
      cfor (fuel n) j (fun s => s <? n) (fun s => u32 (s + u32 (t + t)))
        (fun s a => ct_bfly_naive q w s t a) a) a) a.

(** mulntt_ct_rev2std_naive, src/naive_ntt.c 162-187 *)
Definition mulntt_ct_rev2std_naive (a : list Z) (n : Z) (p : list Z) (q : Z) : res (list Z) :=
  cfor (fuel n) 1 (fun t => t <? n) (fun t => u32 (t * 2)) (fun t a =>
    cfor (fuel n) 0 (fun j => j <? t) (fun j => u32 (j + 1)) (fun j a =>
      do w <- rd p (u32 (t + j));
      cfor (fuel n) j (fun s => s <? n) (fun s => u32 (s + u32 (t + t)))
        (fun s a => ct_bfly_naive q w s t a) a) a) a.

(** ntt_ct_std2rev_naive, src/naive_ntt.c 204-238 *)
Definition ntt_ct_std2rev_naive (a : list Z) (n : Z) (p : list Z) (q : Z) : res (list Z) :=
  do '(_, a) <- cfor (fuel n) 1 (fun t => t <? n) (fun t => u32 (t * 2)) (fun t '(d, a) =>
    let d := Z.shiftr d 1 in
    do a <- cfor (fuel n) 0 (fun s => s <? d) (fun s => u32 (s + 1))
              (fun s a => bfly0_naive q s d a) a;
    do '(_, a) <- cfor (fuel n) 1 (fun j => j <? t) (fun j => u32 (j + 1)) (fun j '(u, a) =>
      do w <- rd p (u32 (t + j));
      let u := u32 (u + u32 (2 * d)) in
      do a <- cfor (fuel n) u (fun s => s <? u32 (u + d)) (fun s => u32 (s + 1))
                (fun s a => ct_bfly_naive q w s d a) a;
      Ok (u, a)) (0, a);
    Ok (d, a)) (n, a);
  Ok a.

(** mulntt_ct_std2rev_naive, src/naive_ntt.c 251-280 *)
Definition mulntt_ct_std2rev_naive (a : list Z) (n : Z) (p : list Z) (q : Z) : res (list Z) :=
  do '(_, a) <- cfor (fuel n) 1 (fun t => t <? n) (fun t => u32 (t * 2)) (fun t '(d, a) =>
    let d := Z.shiftr d 1 in
    do '(_, a) <- cfor (fuel n) 0 (fun j => j <? t) (fun j => u32 (j + 1)) (fun j '(u, a) =>
      do w <- rd p (u32 (t + j));
      do a <- cfor (fuel n) u (fun s => s <? u32 (u + d)) (fun s => u32 (s + 1))
                (fun s a => ct_bfly_naive q w s d a) a;
      Ok (u32 (u + u32 (2 * d)), a)) (0, a);
    Ok (d, a)) (n, a);
  Ok a.

(** ntt_gs_rev2std_naive, src/naive_ntt.c 296-326 *)
Definition ntt_gs_rev2std_naive (a : list Z) (n : Z) (p : list Z) (q : Z) : res (list Z) :=
  do '(_, a) <- cfor (fuel n) 1 (fun d => d <? n) (fun d => u32 (d * 2)) (fun d '(t, a) =>
    let t := Z.shiftr t 1 in
    do a <- cfor (fuel n) 0 (fun s => s <? d) (fun s => u32 (s + 1))
              (fun s a => bfly0_naive q s d a) a;
    do '(_, a) <- cfor (fuel n) 1 (fun j => j <? t) (fun j => u32 (j + 1)) (fun j '(u, a) =>
      do w <- rd p (u32 (t + j));
      do a <- cfor (fuel n) u (fun s => s <? u32 (u + d)) (fun s => u32 (s + 1))
                (fun s a => gs_bfly_naive q w s d a) a;
      Ok (u32 (u + u32 (2 * d)), a)) (u32 (2 * d), a);
    Ok (t, a)) (n, a);
  Ok a.

(** nttmul_gs_rev2std_naive, src/naive_ntt.c 338-362 *)
Definition nttmul_gs_rev2std_naive (a : list Z) (n : Z) (p : list Z) (q : Z) : res (list Z) :=
  do '(_, a) <- cfor (fuel n) 1 (fun d => d <? n) (fun d => u32 (d * 2)) (fun d '(t, a) =>
    let t := Z.shiftr t 1 in
    do '(_, a) <- cfor (fuel n) 0 (fun j => j <? t) (fun j => u32 (j + 1)) (fun j '(u, a) =>
      do w <- rd p (u32 (t + j));
      do a <- cfor (fuel n) u (fun s => s <? u32 (u + d)) (fun s => u32 (s + 1))
                (fun s a => gs_bfly_naive q w s d a) a;
      Ok (u32 (u + u32 (2 * d)), a)) (0, a);
    Ok (t, a)) (n, a);
  Ok a.

(** ntt_gs_std2rev_naive, src/naive_ntt.c 378-405 *)
Definition ntt_gs_std2rev_naive (a : list Z) (n : Z) (p : list Z) (q : Z) : res (list Z) :=
  cfor (fuel n) (Z.shiftr n 1) (fun t => 0 <? t) (fun t => Z.shiftr t 1) (fun t a =>
    do a <- cfor (fuel n) 0 (fun s => s <? n) (fun s => u32 (s + u32 (t + t)))
              (fun s a => bfly0_naive q s t a) a;
    cfor (fuel n) 1 (fun j => j <? t) (fun j => u32 (j + 1)) (fun j a =>
      do w <- rd p (u32 (t + j));
      cfor (fuel n) j (fun s => s <? n) (fun s => u32 (s + u32 (t + t)))
        (fun s a => gs_bfly_naive q w s t a) a) a) a.

(** nttmul_gs_std2rev_naive, src/naive_ntt.c 417-438 *)
Definition nttmul_gs_std2rev_naive (a : list Z) (n : Z) (p : list Z) (q : Z) : res (list Z) :=
  cfor (fuel n) (Z.shiftr n 1) (fun t => 0 <? t) (fun t => Z.shiftr t 1) (fun t a =>
    cfor (fuel n) 0 (fun j => j <? t) (fun j => u32 (j + 1)) (fun j a =>
      do w <- rd p (u32 (t + j));
      cfor (fuel n) j (fun s => s <? n) (fun s => u32 (s + u32 (t + t)))
        (fun s a => gs_bfly_naive q w s t a) a) a) a.
