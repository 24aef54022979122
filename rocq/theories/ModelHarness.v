(** The programs of verifier/vstte20-benchmarks that the verifier analyses, and the
    programs of src/tests_in_paper that run the interval analysis.

    The benchmarks have their own copy of ntt_red.c.  In that copy the assertion
    of mul_red is written as two calls of clam_assert, with bounds that depend on
    the macro SAFE, and the macro USE_CRAB_INTRINSICS replaces the computation of
    the result by a call of __CRAB_intrinsic_red.  The Makefile (lines 43 and 45)
    defines both macros.  The four transforms called by the harnesses differ from
    those of src/ntt_red.c only in pragmas. *)

From Coq Require Import ZArith List Bool.
From Verif Require Import CSem ModelGen ModelInterval.
Import ListNotations.
Open Scope Z_scope.

(** Constants of the file, verifier/vstte20-benchmarks/ntt_red.c 25 *)
Definition Q := 12289.

Section Bench.
(** [-DSAFE] and [-DUSE_CRAB_INTRINSICS], verifier/vstte20-benchmarks/Makefile 43, 45 *)
Variables (safe intrinsic : bool).

(** mul_red, verifier/vstte20-benchmarks/ntt_red.c 43-61.  The function
    __CRAB_intrinsic_red has no definition in C: the verifier interprets a call as the
    reduction of its argument (verifier/src/ntt_intervals.cpp 156-158, see C32), here the exact value, which has to fit
    the result type int32_t. *)
Definition mul_red (x y : Z) : res Z :=
  do z <- mul64 x y;
  do _ <- (if safe then do _ <- cassert (-8796042698752 <=? z); cassert (z <=? 8796093026303)
           else do _ <- cassert (-62029812 <=? z); cassert (z <=? 14813490));
  if intrinsic then i32 (3 * Z.land z 4095 - Z.shiftr z 12)
  else
    let x := to_i32 (Z.land z 4095) in
    let y := to_i32 (Z.shiftr z 12) in
    do v <- mul32 3 x;
    sub32 v y.

(** Statements with j = 0, verifier/vstte20-benchmarks/ntt_red.c 286-288, 384-386,
    473-475, 551-553 *)
Definition bfly0 (s t : Z) (a : list Z) : res (list Z) :=
  do x <- rd a (u32 (s + t));
  do y <- rd a s;
  do v <- sub32 y x;
  do a <- wr a (u32 (s + t)) v;
  do y <- rd a s;
  do v <- add32 y x;
  wr a s v.

(** Cooley-Tukey statements, verifier/vstte20-benchmarks/ntt_red.c 308-310, 393-395 *)
Definition ct_bfly (w s t : Z) (a : list Z) : res (list Z) :=
  do y <- rd a (u32 (s + t));
  do x <- mul_red y w;
  do y <- rd a s;
  do v <- sub32 y x;
  do a <- wr a (u32 (s + t)) v;
  do y <- rd a s;
  do v <- add32 y x;
  wr a s v.

(** Gentleman-Sande statements, verifier/vstte20-benchmarks/ntt_red.c 481-483, 559-561 *)
Definition gs_bfly (w s t : Z) (a : list Z) : res (list Z) :=
  do x <- rd a (u32 (s + t));
  do y <- rd a s;
  do v <- sub32 y x;
  do v <- mul_red v w;
  do a <- wr a (u32 (s + t)) v;
  do y <- rd a s;
  do v <- add32 y x;
  wr a s v.

(** ntt_red_ct_rev2std, verifier/vstte20-benchmarks/ntt_red.c 260-314 *)
Definition ntt_red_ct_rev2std (a : list Z) (n : Z) (p : list Z) : res (list Z) :=
  cfor (fuel n) 1 (fun t => t <? n) (fun t => u32 (t * 2)) (fun t a =>
    do a <- cfor (fuel n) 0 (fun s => s <? n) (fun s => u32 (s + u32 (t + t)))
              (fun s a => bfly0 s t a) a;
    cfor (fuel n) 1 (fun j => j <? t) (fun j => u32 (j + 1)) (fun j a =>
      do w <- rd p (u32 (t + j));
      cfor (fuel n) j (fun s => s <? n) (fun s => u32 (s + u32 (t + t)))
        (fun s a => ct_bfly w s t a) a) a) a.

(** ntt_red_ct_std2rev, verifier/vstte20-benchmarks/ntt_red.c 365-399 *)
Definition ntt_red_ct_std2rev (a : list Z) (n : Z) (p : list Z) : res (list Z) :=
  do '(_, a) <- cfor (fuel n) 1 (fun t => t <? n) (fun t => u32 (t * 2)) (fun t '(d, a) =>
    let d := Z.shiftr d 1 in
    do a <- cfor (fuel n) 0 (fun s => s <? d) (fun s => u32 (s + 1))
              (fun s a => bfly0 s d a) a;
    do '(_, a) <- cfor (fuel n) 1 (fun j => j <? t) (fun j => u32 (j + 1)) (fun j '(u, a) =>
      do w <- rd p (u32 (t + j));
      let u := u32 (u + u32 (2 * d)) in
      do a <- cfor (fuel n) u (fun s => s <? u32 (u + d)) (fun s => u32 (s + 1))
                (fun s a => ct_bfly w s d a) a;
      Ok (u, a)) (0, a);
    Ok (d, a)) (n, a);
  Ok a.

(** ntt_red_gs_rev2std, verifier/vstte20-benchmarks/ntt_red.c 458-487 *)
Definition ntt_red_gs_rev2std (a : list Z) (n : Z) (p : list Z) : res (list Z) :=
  do '(_, a) <- cfor (fuel n) 1 (fun d => d <? n) (fun d => u32 (d * 2)) (fun d '(t, a) =>
    let t := Z.shiftr t 1 in
    do a <- cfor (fuel n) 0 (fun s => s <? d) (fun s => u32 (s + 1))
              (fun s a => bfly0 s d a) a;
    do '(_, a) <- cfor (fuel n) 1 (fun j => j <? t) (fun j => u32 (j + 1)) (fun j '(u, a) =>
      do w <- rd p (u32 (t + j));
      do a <- cfor (fuel n) u (fun s => s <? u32 (u + d)) (fun s => u32 (s + 1))
                (fun s a => gs_bfly w s d a) a;
      Ok (u32 (u + u32 (2 * d)), a)) (u32 (2 * d), a);
    Ok (t, a)) (n, a);
  Ok a.

(** ntt_red_gs_std2rev, verifier/vstte20-benchmarks/ntt_red.c 539-565 *)
Definition ntt_red_gs_std2rev (a : list Z) (n : Z) (p : list Z) : res (list Z) :=
  cfor (fuel n) (Z.shiftr n 1) (fun t => 0 <? t) (fun t => Z.shiftr t 1) (fun t a =>
    do a <- cfor (fuel n) 0 (fun s => s <? n) (fun s => u32 (s + u32 (t + t)))
              (fun s a => bfly0 s t a) a;
    cfor (fuel n) 1 (fun j => j <? t) (fun j => u32 (j + 1)) (fun j a =>
      do w <- rd p (u32 (t + j));
      cfor (fuel n) j (fun s => s <? n) (fun s => u32 (s + u32 (t + t)))
        (fun s a => gs_bfly w s t a) a) a) a.

(** ** The harnesses *)

(** A run is discarded when a condition of clam_assume is false. *)
Inductive outcome :=
| Discarded
| Ran (r : res (list Z)).

(** ASSUME_FORALL, verifier/vstte20-benchmarks/clam.h 26-62 (the two versions differ in a
    pragma).  [nd c] is what the [c]-th call of int_nd returns, [c0] the number of calls made
    before, [conv] the conversion of an int to the element type; the state is [None] after a
    false condition. *)
Definition assume_forall (nd : Z -> Z) (c0 : Z) (conv : Z -> Z) (a : list Z) (size lb ub : Z)
    : res (option (list Z)) :=
  cfor (fuel size) 0 (fun i => i <? size) (fun i => i + 1) (fun i st =>
    match st with
    | None => Ok None
    | Some a =>
        let x := nd (c0 + i) in
        if negb (lb <=? x) then Ok None
        else if negb (x <? ub) then Ok None
        else do a <- wr a i (conv x); Ok (Some a)
    end) (Some a).

(** Conversion to int16_t *)
Definition to_int16 (z : Z) : Z :=
  let m := z mod 65536 in if m <? 32768 then m else m - 65536.

(** A static array is filled with zeroes before main starts. *)
Definition static_array : list Z := repeat 0 (Z.to_nat 1024).

(** main with one array, lines 18-24 of harness_intt_red1024.c, harness_intt_red1024b.c,
    harness_ntt_red1024.c, harness_ntt_red1024b.c, harness_ntt_red1024e.c and
    harness_ntt_red1024f.c in verifier/vstte20-benchmarks *)
Definition main1 (f : list Z -> Z -> list Z -> res (list Z)) (p : list Z) (nd : Z -> Z) : outcome :=
  match assume_forall nd 0 (fun x => x) static_array 1024 0 Q with
  | Err e => Ran (Err e)
  | Ok None => Discarded
  | Ok (Some a) => Ran (f a 1024 p)
  end.

(** main with an array and a table, lines 19-27 of harness_ntt_red1024c.c and
    harness_ntt_red1024d.c in verifier/vstte20-benchmarks *)
Definition main2 (f : list Z -> Z -> list Z -> res (list Z)) (nd : Z -> Z) : outcome :=
  match assume_forall nd 0 (fun x => x) static_array 1024 0 Q with
  | Err e => Ran (Err e)
  | Ok None => Discarded
  | Ok (Some a) =>
      match assume_forall nd 1024 to_int16 static_array 1024 (-6144) 6144 with
      | Err e => Ran (Err e)
      | Ok None => Discarded
      | Ok (Some p) => Ran (f a 1024 p)
      end
  end.

(** The tables are those of [make_red_tables 1024 1014]
    (verifier/vstte20-benchmarks/Makefile 131-132). *)
Variable T : red_tables.

(** verifier/vstte20-benchmarks/harness_intt_red1024.c 18-24 *)
Definition harness_intt_red1024 := main1 ntt_red_ct_std2rev (red_inv_omega_powers_rev T).
(** verifier/vstte20-benchmarks/harness_intt_red1024b.c 18-24 *)
Definition harness_intt_red1024b := main1 ntt_red_ct_rev2std (red_inv_omega_powers T).
(** verifier/vstte20-benchmarks/harness_ntt_red1024.c 18-24 *)
Definition harness_ntt_red1024 := main1 ntt_red_ct_std2rev (red_omega_powers_rev T).
(** verifier/vstte20-benchmarks/harness_ntt_red1024b.c 18-24 *)
Definition harness_ntt_red1024b := main1 ntt_red_ct_rev2std (red_omega_powers T).
(** verifier/vstte20-benchmarks/harness_ntt_red1024c.c 19-27 *)
Definition harness_ntt_red1024c := main2 ntt_red_ct_std2rev.
(** verifier/vstte20-benchmarks/harness_ntt_red1024d.c 19-27 *)
Definition harness_ntt_red1024d := main2 ntt_red_ct_rev2std.
(** verifier/vstte20-benchmarks/harness_ntt_red1024e.c 18-24 *)
Definition harness_ntt_red1024e := main1 ntt_red_gs_std2rev (red_omega_powers T).
(** verifier/vstte20-benchmarks/harness_ntt_red1024f.c 18-24 *)
Definition harness_ntt_red1024f := main1 ntt_red_gs_rev2std (red_omega_powers_rev T).

End Bench.

(** ** The test programs of the interval analysis *)

(** [for (i=0; i<1024; i++) a[i] = interval(lo, hi)], in the programs below.  The array of
    pointers is uninitialised before; the model starts from an empty list. *)
Definition fill_intervals (lo hi : Z) : res (list itv) :=
  cfor (fuel 1024) 0 (fun i => i <? 1024) (fun i => u32 (i + 1)) (fun _ a =>
    do v <- interval lo hi;
    Ok (a ++ [v])) [].

(** main with constants from a table; the result is what is printed and the intervals the
    array then holds *)
Definition paper1 (f : list itv -> Z -> list Z -> res (list shown * list itv)) (p : list Z)
    : res (list shown * list itv) :=
  do a <- fill_intervals 0 (Q - 1);
  f a 1024 p.

(** src/tests_in_paper/test_intt_red1024.c 14-24 *)
Definition test_intt_red1024 (T : red_tables) := paper1 abstract_ntt_red_ct_std2rev (red_inv_omega_powers_rev T).
(** src/tests_in_paper/test_intt_red1024b.c 14-24 *)
Definition test_intt_red1024b (T : red_tables) := paper1 abstract_ntt_red_ct_rev2std (red_inv_omega_powers T).
(** src/tests_in_paper/test_ntt_red1024.c 14-24 *)
Definition test_ntt_red1024 (T : red_tables) := paper1 abstract_ntt_red_ct_std2rev (red_omega_powers_rev T).
(** src/tests_in_paper/test_ntt_red1024b.c 14-24 *)
Definition test_ntt_red1024b (T : red_tables) := paper1 abstract_ntt_red_ct_rev2std (red_omega_powers T).
(** src/tests_in_paper/test_ntt_red1024e.c 15-25 *)
Definition test_ntt_red1024e (T : red_tables) := paper1 abstract_ntt_red_gs_std2rev (red_omega_powers T).
(** src/tests_in_paper/test_ntt_red1024f.c 14-24 *)
Definition test_ntt_red1024f (T : red_tables) := paper1 abstract_ntt_red_gs_rev2std (red_omega_powers_rev T).

(** main with intervals of constants *)
Definition paper2 (f : list itv -> Z -> list itv -> res (list shown * list itv)) : res (list shown * list itv) :=
  do a <- fill_intervals 0 (Q - 1);
  do p <- fill_intervals (Z.quot (- (Q - 1)) 2) (Z.quot (Q - 1) 2);
  f a 1024 p.

(** src/tests_in_paper/test_ntt_red1024c.c 13-28 *)
Definition test_ntt_red1024c := paper2 abstract2_ntt_red_ct_std2rev.
(** src/tests_in_paper/test_ntt_red1024d.c 13-28 *)
Definition test_ntt_red1024d := paper2 abstract2_ntt_red_ct_rev2std.
