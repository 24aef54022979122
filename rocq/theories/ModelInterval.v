(** Model of /repo/src/intervals.c and /repo/src/ntt_red_interval.c.

    An interval is the pair of its bounds.  The functions return a new interval;
    allocation and deletion are not modelled.  Arithmetic on the bounds is signed
    64-bit: leaving the type is undefined behaviour, also where the C code looks at
    the result afterwards (add64, sub64) or relies on two's complement (size).
    exit(1) and abort() are [Err Exited].  The text printed by the abstract
    transforms is modelled by the bounds and the warnings of each call of
    show_intervals. *)

From Coq Require Import ZArith List Bool.
From Verif Require Import CSem.
From Verif Require ModelBounds.
Import ListNotations.
Open Scope Z_scope.

(** interval_t, src/intervals.h 12-15: (min, max) *)
Definition itv : Type := Z * Z.

(** make_interval, src/intervals.c 39-47 *)
Definition make_interval (x y : Z) : res itv :=
  do _ <- cassert (x <=? y);
  Ok (x, y).

(** point, src/intervals.c 52-54 *)
Definition point (x : Z) : res itv := make_interval x x.

(** interval, src/intervals.c 59-66 *)
Definition interval (min max : Z) : res itv :=
  if max <? min then Err Exited else make_interval min max.

(** neg, src/intervals.c 72-78 *)
Definition neg (a : itv) : res itv :=
  if fst a =? -9223372036854775808 then Err Exited else
  do x <- sub64 0 (snd a);
  do y <- sub64 0 (fst a);
  make_interval x y.

(** add64, src/intervals.c 81-90: the overflow in the sum is undefined behaviour, so
    the test never succeeds *)
Definition iadd64 (x y : Z) : res Z :=
  do z <- add64 x y;
  if ((x <? 0) && (y <? 0) && (0 <=? z)) || ((0 <=? x) && (0 <=? y) && (z <? 0))
  then Err Exited else Ok z.

(** sub64, src/intervals.c 93-102 *)
Definition isub64 (x y : Z) : res Z :=
  do z <- sub64 x y;
  if ((x <? 0) && (0 <=? y) && (0 <=? z)) || ((0 <=? x) && (y <? 0) && (z <? 0))
  then Err Exited else Ok z.

(** size, src/intervals.c 108-113 *)
Definition size (a : itv) : res Z :=
  do _ <- cassert (fst a <=? snd a);
  do d <- sub64 (snd a) (fst a);
  Ok (u64 d).

(** add, src/intervals.c 118-120 *)
Definition add (a b : itv) : res itv :=
  do x <- iadd64 (fst a) (fst b);
  do y <- iadd64 (snd a) (snd b);
  make_interval x y.

(** sub, src/intervals.c 125-127 *)
Definition sub (a b : itv) : res itv :=
  do x <- isub64 (fst a) (snd b);
  do y <- isub64 (snd a) (fst b);
  make_interval x y.

(** red, src/intervals.c 132-138 *)
Definition red (a : itv) : res itv :=
  do '(min, _) <- ModelBounds.min_red (fst a) (snd a);
  do '(max, _) <- ModelBounds.max_red (fst a) (snd a);
  make_interval min max.

(** red_twice, src/intervals.c 144-153 *)
Definition red_twice (a : itv) : res itv :=
  do '(min0, _) <- ModelBounds.min_red (fst a) (snd a);
  do '(max0, _) <- ModelBounds.max_red (fst a) (snd a);
  do _ <- cassert (min0 <=? max0);
  do '(min, _) <- ModelBounds.min_red min0 max0;
  do '(max, _) <- ModelBounds.max_red min0 max0;
  make_interval min max.

(** red_mul, src/intervals.c 160-178 *)
Definition red_mul (a b : itv) : res itv :=
  do sa <- size a;
  do sb <- size b;
  let '(a, b) := if sa <? sb then (b, a) else (a, b) in
  do '(min, _, _) <- ModelBounds.min_red_mul_interval (fst a) (snd a) (fst b) (snd b);
  do '(max, _, _) <- ModelBounds.max_red_mul_interval (fst a) (snd a) (fst b) (snd b);
  make_interval min max.

(** red_scale, src/intervals.c 185-191 *)
Definition red_scale (k : Z) (a : itv) : res itv :=
  do '(min, _) <- ModelBounds.min_red_mul (fst a) (snd a) k;
  do '(max, _) <- ModelBounds.max_red_mul (fst a) (snd a) k;
  make_interval min max.

(** rem_q, src/intervals.c 197-204 *)
Definition rem_q (x : Z) : res Z :=
  do r <- rem64 x 12289;
  do r <- (if r <? 0 then add64 r 12289 else Ok r);
  do _ <- cassert ((0 <=? r) && (r <=? 12288));
  Ok r.

(** normal, src/intervals.c 211-226 *)
Definition normal (a : itv) : res itv :=
  do s <- size a;
  if 12288 <=? s then make_interval 0 12288 else
  do l <- rem_q (fst a);
  do h <- rem_q (snd a);
  if l <=? h then make_interval l h else make_interval 0 12288.

(** normal_inv3, src/intervals.c 233-242 *)
Definition normal_inv3 (a : itv) : res itv :=
  if fst a =? snd a then
    do x <- rem_q (fst a);
    do x <- mul64 x 8193;
    do x <- rem_q x;
    make_interval x x
  else make_interval 0 12288.

(** shift, src/intervals.c 250-259 *)
Definition shift (a : itv) : res itv :=
  do _ <- cassert ((0 <=? fst a) && (fst a <=? snd a) && (snd a <=? 12288));
  if 6144 <? fst a then
    do x <- sub64 (fst a) 12289;
    do y <- sub64 (snd a) 12289;
    make_interval x y
  else if snd a <=? 6144 then make_interval (fst a) (snd a)
  else make_interval (-6144) 6144.

(** correct, src/intervals.c 265-286 *)
Definition correct (a : itv) : res itv :=
  do _ <- cassert ((-12289 <=? fst a) && (fst a <=? snd a) && (snd a <? 2 * 12289));
  if snd a <? 0 then
    do x <- add64 (fst a) 12289;
    do y <- add64 (snd a) 12289;
    do _ <- cassert ((0 <=? x) && (y <=? 12288));
    make_interval x y
  else if 12289 <=? fst a then
    do x <- sub64 (fst a) 12289;
    do y <- sub64 (snd a) 12289;
    do _ <- cassert ((0 <=? x) && (y <=? 12288));
    make_interval x y
  else if (0 <=? fst a) && (snd a <? 12289) then make_interval (fst a) (snd a)
  else make_interval 0 12288.

(** ** Arrays of intervals *)

(** [rdi a i] is [a[i]]. *)
Definition rdi (a : list itv) (i : Z) : res itv :=
  if i <? 0 then Err OutOfBounds
  else match nth_error a (Z.to_nat i) with
       | Some v => Ok v
       | None => Err OutOfBounds
       end.

(** The array [a] with [v] at index [i], used for a[i] = v *)
Fixpoint updi (a : list itv) (i : nat) (v : itv) : option (list itv) :=
  match a with
  | [] => None
  | x :: l =>
      match i with
      | O => Some (v :: l)
      | S j => match updi l j v with
               | Some l' => Some (x :: l')
               | None => None
               end
      end
  end.

(** [wri a i v] is [a[i] = v]. *)
Definition wri (a : list itv) (i : Z) (v : itv) : res (list itv) :=
  if i <? 0 then Err OutOfBounds
  else match updi a (Z.to_nat i) v with
       | Some l => Ok l
       | None => Err OutOfBounds
       end.

(** The loop shared by the functions that replace every a[i] by f(i, a[i]). *)
Definition amap (f : Z -> itv -> res itv) (a : list itv) (n : Z) : res (list itv) :=
  cfor (fuel n) 0 (fun i => i <? n) (fun i => u32 (i + 1)) (fun i a =>
    do x <- rdi a i;
    do v <- f i x;
    wri a i v) a.

(** abstract_normalize, src/ntt_red_interval.c 60-69 *)
Definition abstract_normalize : list itv -> Z -> res (list itv) := amap (fun _ x => normal x).

(** abstract_normalize_inv3, src/ntt_red_interval.c 74-83 *)
Definition abstract_normalize_inv3 : list itv -> Z -> res (list itv) :=
  amap (fun _ x => normal_inv3 x).

(** abstract_shift_array, src/ntt_red_interval.c 89-98 *)
Definition abstract_shift_array : list itv -> Z -> res (list itv) := amap (fun _ x => shift x).

(** abstract_reduce_array, src/ntt_red_interval.c 111-120 *)
Definition abstract_reduce_array : list itv -> Z -> res (list itv) := amap (fun _ x => red x).

(** abstract_reduce_array_twice, src/ntt_red_interval.c 128-137 *)
Definition abstract_reduce_array_twice : list itv -> Z -> res (list itv) :=
  amap (fun _ x => red_twice x).

(** abstract_correct, src/ntt_red_interval.c 150-165 *)
Definition abstract_correct : list itv -> Z -> res (list itv) :=
  amap (fun _ x =>
    if (fst x <? -12289) || (2 * 12289 <=? snd x) then Err Exited else correct x).

(** abstract_mul_reduce_array16, src/ntt_red_interval.c 193-202 *)
Definition abstract_mul_reduce_array16 (a : list itv) (n : Z) (p : list Z) : res (list itv) :=
  amap (fun i x => do w <- rd p i; red_scale w x) a n.

(** abstract_mul_reduce_array, src/ntt_red_interval.c 204-210; c is a different
    array from a and b *)
Definition abstract_mul_reduce_array (c : list itv) (n : Z) (a b : list itv) : res (list itv) :=
  cfor (fuel n) 0 (fun i => i <? n) (fun i => u32 (i + 1)) (fun i c =>
    do x <- rdi a i;
    do y <- rdi b i;
    do v <- red_mul x y;
    wri c i v) c.

(** abstract_scalar_mul_reduce_array, src/ntt_red_interval.c 216-225 *)
Definition abstract_scalar_mul_reduce_array (a : list itv) (n c : Z) : res (list itv) :=
  amap (fun _ x => red_scale c x) a n.

(** ** The transforms *)

(** What a call of show_intervals prints: the bounds of a[0], .., a[n-1] and the
    indices for which it prints a warning. *)
Definition shown : Type := list itv * list Z.

(** show_intervals, src/ntt_red_interval.c 232-247 *)
Definition show_intervals (a : list itv) (n : Z) : res shown :=
  do bounds <- cfor (fuel n) 0 (fun i => i <? n) (fun i => u32 (i + 1)) (fun i out =>
    do x <- rdi a i;
    Ok (out ++ [x])) [];
  do warnings <- cfor (fuel n) 0 (fun i => i <? n) (fun i => u32 (i + 1)) (fun i out =>
    do x <- rdi a i;
    Ok (if (fst x <? -2147483648) || (2147483647 <? snd x) then out ++ [i] else out)) [];
  Ok (bounds, warnings).

(** Statements with j = 0, src/ntt_red_interval.c 280-283, 324-327, 469-472, 518-521,
    677-682, 725-730, 870-875, 915-920: x = a[s+t]; y = a[s]; a[s+t] = y - x; a[s]
    = y + x *)
Definition abfly0 (s t : Z) (a : list itv) : res (list itv) :=
  do x <- rdi a (u32 (s + t));
  do y <- rdi a s;
  do v <- sub y x;
  do a <- wri a (u32 (s + t)) v;
  do v <- add y x;
  wri a s v.

Section Scaled.
(** The functions come in two versions: constants p[i] given as numbers (red_scale)
    or as intervals (red_mul).  [scale w x] is the product by a constant and [rdw]
    reads the array of constants. *)
Context {W : Type} (scale : W -> itv -> res itv) (rdw : Z -> res W).

(** Cooley-Tukey statements, src/ntt_red_interval.c 291-295, 335-339, 380-384,
    416-420, 481-485, 530-534, 582-589, 626-633: x = a[s+t]; y = a[s]; z = w * x;
    a[s+t] = y - z; a[s] = y + z *)
Definition act_bfly (w : W) (s t : Z) (a : list itv) : res (list itv) :=
  do x <- rdi a (u32 (s + t));
  do y <- rdi a s;
  do z <- scale w x;
  do v <- sub y z;
  do a <- wri a (u32 (s + t)) v;
  do v <- add y z;
  wri a s v.

(** Gentleman-Sande statements, src/ntt_red_interval.c 690-694, 738-742, 787-791,
    824-828, 883-887, 928-932, 974-978, 1008-1012: x = a[s+d]; y = a[s]; z = y -
    x; a[s+d] = w * z; a[s] = y + x *)
Definition ags_bfly (w : W) (s t : Z) (a : list itv) : res (list itv) :=
  do x <- rdi a (u32 (s + t));
  do y <- rdi a s;
  do z <- sub y x;
  do v <- scale w z;
  do a <- wri a (u32 (s + t)) v;
  do v <- add y x;
  wri a s v.

(** abstract_ntt_red_ct_rev2std and abstract2_ntt_red_ct_rev2std,
    src/ntt_red_interval.c 265-304, 309-348 *)
Definition ai_ntt_ct_rev2std (a : list itv) (n : Z) : res (list shown * list itv) :=
  do '(out, a) <- cfor (fuel n) 1 (fun t => t <? n) (fun t => u32 (t * 2)) (fun t '(out, a) =>
    do sh <- show_intervals a n;
    do a <- cfor (fuel n) 0 (fun s => s <? n) (fun s => u32 (s + u32 (t + t)))
              (fun s a => abfly0 s t a) a;
    do a <- cfor (fuel n) 1 (fun j => j <? t) (fun j => u32 (j + 1)) (fun j a =>
      do w <- rdw (u32 (t + j));
      cfor (fuel n) j (fun s => s <? n) (fun s => u32 (s + u32 (t + t)))
        (fun s a => act_bfly w s t a) a) a;
    Ok (out ++ [sh], a)) ([], a);
  do sh <- show_intervals a n;
  Ok (out ++ [sh], a).

(** abstract_mulntt_red_ct_rev2std and abstract2_mulntt_red_ct_rev2std,
    src/ntt_red_interval.c 359-393, 395-429 *)
Definition ai_mulntt_ct_rev2std (a : list itv) (n : Z) : res (list shown * list itv) :=
  do '(out, a) <- cfor (fuel n) 1 (fun t => t <? n) (fun t => u32 (t * 2)) (fun t '(out, a) =>
    do sh <- show_intervals a n;
    do a <- cfor (fuel n) 0 (fun j => j <? t) (fun j => u32 (j + 1)) (fun j a =>
      do w <- rdw (u32 (t + j));
      cfor (fuel n) j (fun s => s <? n) (fun s => u32 (s + u32 (t + t)))
        (fun s a => act_bfly w s t a) a) a;
    Ok (out ++ [sh], a)) ([], a);
  do sh <- show_intervals a n;
  Ok (out ++ [sh], a).

(** abstract_ntt_red_ct_std2rev and abstract2_ntt_red_ct_std2rev,
    src/ntt_red_interval.c 447-494, 496-543 *)
Definition ai_ntt_ct_std2rev (a : list itv) (n : Z) : res (list shown * list itv) :=
  do '(out, _, a) <- cfor (fuel n) 1 (fun t => t <? n) (fun t => u32 (t * 2))
    (fun t '(out, d, a) =>
      do sh <- show_intervals a n;
      let d := Z.shiftr d 1 in
      do a <- cfor (fuel n) 0 (fun s => s <? d) (fun s => u32 (s + 1))
                (fun s a => abfly0 s d a) a;
      do '(_, a) <- cfor (fuel n) 1 (fun j => j <? t) (fun j => u32 (j + 1)) (fun j '(u, a) =>
        do w <- rdw (u32 (t + j));
        let u := u32 (u + u32 (2 * d)) in
        do a <- cfor (fuel n) u (fun s => s <? u32 (u + d)) (fun s => u32 (s + 1))
                  (fun s a => act_bfly w s d a) a;
        Ok (u, a)) (0, a);
      Ok (out ++ [sh], d, a)) ([], n, a);
  do sh <- show_intervals a n;
  Ok (out ++ [sh], a).

(** abstract_mulntt_red_ct_std2rev and abstract2_mulntt_red_ct_std2rev,
    src/ntt_red_interval.c 556-598, 600-642 *)
Definition ai_mulntt_ct_std2rev (a : list itv) (n : Z) : res (list shown * list itv) :=
  do '(out, _, a) <- cfor (fuel n) 1 (fun t => t <? n) (fun t => u32 (t * 2))
    (fun t '(out, d, a) =>
      do sh <- show_intervals a n;
      let d := Z.shiftr d 1 in
      do '(_, a) <- cfor (fuel n) 0 (fun j => j <? t) (fun j => u32 (j + 1)) (fun j '(u, a) =>
        do w <- rdw (u32 (t + j));
        do a <- cfor (fuel n) u (fun s => s <? u32 (u + d)) (fun s => u32 (s + 1))
                  (fun s a => act_bfly w s d a) a;
        Ok (u32 (u + u32 (2 * d)), a)) (0, a);
      Ok (out ++ [sh], d, a)) ([], n, a);
  do sh <- show_intervals a n;
  Ok (out ++ [sh], a).

(** abstract_ntt_red_gs_rev2std and abstract2_ntt_red_gs_rev2std,
    src/ntt_red_interval.c 659-705, 707-753; t is halved, d runs over 1, 2, 4, .. *)
Definition ai_ntt_gs_rev2std (a : list itv) (n : Z) : res (list shown * list itv) :=
  do '(out, _, a) <- cfor (fuel n) 1 (fun d => d <? n) (fun d => u32 (d * 2))
    (fun d '(out, t, a) =>
      do sh <- show_intervals a n;
      let t := Z.shiftr t 1 in
      do a <- cfor (fuel n) 0 (fun s => s <? d) (fun s => u32 (s + 1))
                (fun s a => abfly0 s d a) a;
      do '(_, a) <- cfor (fuel n) 1 (fun j => j <? t) (fun j => u32 (j + 1)) (fun j '(u, a) =>
        do w <- rdw (u32 (t + j));
        do a <- cfor (fuel n) u (fun s => s <? u32 (u + d)) (fun s => u32 (s + 1))
                  (fun s a => ags_bfly w s d a) a;
        Ok (u32 (u + u32 (2 * d)), a)) (u32 (2 * d), a);
      Ok (out ++ [sh], t, a)) ([], n, a);
  do sh <- show_intervals a n;
  Ok (out ++ [sh], a).

(** abstract_nttmul_red_gs_rev2std and abstract2_nttmul_red_gs_rev2std,
    src/ntt_red_interval.c 767-802, 804-839 *)
Definition ai_nttmul_gs_rev2std (a : list itv) (n : Z) : res (list shown * list itv) :=
  do '(out, _, a) <- cfor (fuel n) 1 (fun d => d <? n) (fun d => u32 (d * 2))
    (fun d '(out, t, a) =>
      do sh <- show_intervals a n;
      let t := Z.shiftr t 1 in
      do '(_, a) <- cfor (fuel n) 0 (fun j => j <? t) (fun j => u32 (j + 1)) (fun j '(u, a) =>
        do w <- rdw (u32 (t + j));
        do a <- cfor (fuel n) u (fun s => s <? u32 (u + d)) (fun s => u32 (s + 1))
                  (fun s a => ags_bfly w s d a) a;
        Ok (u32 (u + u32 (2 * d)), a)) (0, a);
      Ok (out ++ [sh], t, a)) ([], n, a);
  do sh <- show_intervals a n;
  Ok (out ++ [sh], a).

(** abstract_ntt_red_gs_std2rev and abstract2_ntt_red_gs_std2rev,
    src/ntt_red_interval.c 855-898, 900-943 *)
Definition ai_ntt_gs_std2rev (a : list itv) (n : Z) : res (list shown * list itv) :=
  do '(out, a) <- cfor (fuel n) (Z.shiftr n 1) (fun t => 0 <? t) (fun t => Z.shiftr t 1)
    (fun t '(out, a) =>
      do sh <- show_intervals a n;
      do a <- cfor (fuel n) 0 (fun s => s <? n) (fun s => u32 (s + u32 (t + t)))
                (fun s a => abfly0 s t a) a;
      do a <- cfor (fuel n) 1 (fun j => j <? t) (fun j => u32 (j + 1)) (fun j a =>
        do w <- rdw (u32 (t + j));
        cfor (fuel n) j (fun s => s <? n) (fun s => u32 (s + u32 (t + t)))
          (fun s a => ags_bfly w s t a) a) a;
      Ok (out ++ [sh], a)) ([], a);
  do sh <- show_intervals a n;
  Ok (out ++ [sh], a).

(** abstract_nttmul_red_gs_std2rev and abstract2_nttmul_red_gs_std2rev,
    src/ntt_red_interval.c 957-989, 991-1023 *)
Definition ai_nttmul_gs_std2rev (a : list itv) (n : Z) : res (list shown * list itv) :=
  do '(out, a) <- cfor (fuel n) (Z.shiftr n 1) (fun t => 0 <? t) (fun t => Z.shiftr t 1)
    (fun t '(out, a) =>
      do sh <- show_intervals a n;
      do a <- cfor (fuel n) 0 (fun j => j <? t) (fun j => u32 (j + 1)) (fun j a =>
        do w <- rdw (u32 (t + j));
        cfor (fuel n) j (fun s => s <? n) (fun s => u32 (s + u32 (t + t)))
          (fun s a => ags_bfly w s t a) a) a;
      Ok (out ++ [sh], a)) ([], a);
  do sh <- show_intervals a n;
  Ok (out ++ [sh], a).

End Scaled.

(** The functions with constants given as numbers: src/ntt_red_interval.c, lines above *)
Definition abstract_ntt_red_ct_rev2std (a : list itv) (n : Z) (p : list Z) :=
  ai_ntt_ct_rev2std red_scale (rd p) a n.
Definition abstract_mulntt_red_ct_rev2std (a : list itv) (n : Z) (p : list Z) :=
  ai_mulntt_ct_rev2std red_scale (rd p) a n.
Definition abstract_ntt_red_ct_std2rev (a : list itv) (n : Z) (p : list Z) :=
  ai_ntt_ct_std2rev red_scale (rd p) a n.
Definition abstract_mulntt_red_ct_std2rev (a : list itv) (n : Z) (p : list Z) :=
  ai_mulntt_ct_std2rev red_scale (rd p) a n.
Definition abstract_ntt_red_gs_rev2std (a : list itv) (n : Z) (p : list Z) :=
  ai_ntt_gs_rev2std red_scale (rd p) a n.
Definition abstract_nttmul_red_gs_rev2std (a : list itv) (n : Z) (p : list Z) :=
  ai_nttmul_gs_rev2std red_scale (rd p) a n.
Definition abstract_ntt_red_gs_std2rev (a : list itv) (n : Z) (p : list Z) :=
  ai_ntt_gs_std2rev red_scale (rd p) a n.
Definition abstract_nttmul_red_gs_std2rev (a : list itv) (n : Z) (p : list Z) :=
  ai_nttmul_gs_std2rev red_scale (rd p) a n.

(** The functions with constants given as intervals *)
Definition abstract2_ntt_red_ct_rev2std (a : list itv) (n : Z) (p : list itv) :=
  ai_ntt_ct_rev2std (fun w x => red_mul x w) (rdi p) a n.
Definition abstract2_mulntt_red_ct_rev2std (a : list itv) (n : Z) (p : list itv) :=
  ai_mulntt_ct_rev2std (fun w x => red_mul x w) (rdi p) a n.
Definition abstract2_ntt_red_ct_std2rev (a : list itv) (n : Z) (p : list itv) :=
  ai_ntt_ct_std2rev (fun w x => red_mul x w) (rdi p) a n.
Definition abstract2_mulntt_red_ct_std2rev (a : list itv) (n : Z) (p : list itv) :=
  ai_mulntt_ct_std2rev (fun w x => red_mul x w) (rdi p) a n.
Definition abstract2_ntt_red_gs_rev2std (a : list itv) (n : Z) (p : list itv) :=
  ai_ntt_gs_rev2std (fun w x => red_mul x w) (rdi p) a n.
Definition abstract2_nttmul_red_gs_rev2std (a : list itv) (n : Z) (p : list itv) :=
  ai_nttmul_gs_rev2std (fun w x => red_mul x w) (rdi p) a n.
Definition abstract2_ntt_red_gs_std2rev (a : list itv) (n : Z) (p : list itv) :=
  ai_ntt_gs_std2rev (fun w x => red_mul x w) (rdi p) a n.
Definition abstract2_nttmul_red_gs_std2rev (a : list itv) (n : Z) (p : list itv) :=
  ai_nttmul_gs_std2rev (fun w x => red_mul x w) (rdi p) a n.
