(** Model of /repo/src/sort.c.

    The array passed to sort is [a]; a pointer into it is its offset [o], so that
    [p[i]] is element [o + i].  Elements are uint64 values, only compared and moved. *)

From Coq Require Import ZArith List Bool.
From Verif Require Import CSem.
Import ListNotations.
Open Scope Z_scope.

(** [while (p[j] < x) j++] and, with the state after the first [j++], the loops below:
    the flag tells whether to go on. *)
Definition go {S : Type} (st : bool * S) : bool := fst st.

(** isort_int_array, src/sort.c 10-24 *)
Definition isort_int_array (a : list Z) (o n : Z) : res (list Z) :=
  cfor (fuel n) 1 (fun i => i <? n) (fun i => u32 (i + 1)) (fun i a =>
    do x <- rd a (o + i);
    do '(_, j) <- cwhile (fuel n) go (fun '(_, j) =>
      do v <- rd a (o + j);
      Ok (if v <? x then (true, u32 (j + 1)) else (false, j))) (true, 0);
    do '(a, x, j) <- cwhile (fuel n) (fun '(_, _, j) => j <? i) (fun '(a, x, j) =>
      do y <- rd a (o + j);
      do a <- wr a (o + j) x;
      Ok (a, y, u32 (j + 1))) (a, x, j);
    wr a (o + j) x) a.

(** [do { j--; } while (p[j] > x)], src/sort.c 50, 56 *)
Definition scan_down (a : list Z) (o n x j : Z) : res Z :=
  do '(_, j) <- cwhile (fuel n) go (fun '(_, j) =>
    let j := u32 (j - 1) in
    do v <- rd a (o + j);
    Ok (x <? v, j)) (true, j);
  Ok j.

(** [do { i++; } while (i <= j && p[i] < x)], src/sort.c 51 *)
Definition scan_up_first (a : list Z) (o n x i j : Z) : res Z :=
  do '(_, i) <- cwhile (fuel n) go (fun '(_, i) =>
    let i := u32 (i + 1) in
    if i <=? j then
      do v <- rd a (o + i);
      Ok (v <? x, i)
    else Ok (false, i)) (true, i);
  Ok i.

(** [do { i++; } while (p[i] < x)], src/sort.c 57 *)
Definition scan_up (a : list Z) (o n x i : Z) : res Z :=
  do '(_, i) <- cwhile (fuel n) go (fun '(_, i) =>
    let i := u32 (i + 1) in
    do v <- rd a (o + i);
    Ok (v <? x, i)) (true, i);
  Ok i.

(** qsort_int_array up to the recursive calls, src/sort.c 39-62: the array and j *)
Definition partition (a : list Z) (o n : Z) : res (list Z * Z) :=
  let i := n / 2 in
  do x <- rd a (o + i);
  do y <- rd a o;
  do a <- wr a (o + i) y;
  do a <- wr a o x;
  do j <- scan_down a o n x n;
  do i <- scan_up_first a o n x 0 j;
  do '(a, _, j) <- cwhile (fuel n) (fun '(_, i, j) => i <? j) (fun '(a, i, j) =>
    do y <- rd a (o + i);
    do v <- rd a (o + j);
    do a <- wr a (o + i) v;
    do a <- wr a (o + j) y;
    do j <- scan_down a o n x j;
    do i <- scan_up a o n x i;
    Ok (a, i, j)) (a, i, j);
  do y <- rd a (o + j);
  do a <- wr a o y;
  do a <- wr a (o + j) x;
  Ok (a, j).

(** sort_array and qsort_int_array, src/sort.c 26-32, 35-68; [f] bounds the depth of the
    recursion *)
Fixpoint sort_array (f : nat) (a : list Z) (o n : Z) : res (list Z) :=
  match f with
  | O => Err NoFuel
  | S f =>
      if n <? 10 then isort_int_array a o n
      else
        do '(a, j) <- partition a o n;
        do a <- sort_array f a o j;
        let j := u32 (j + 1) in
        sort_array f a (o + j) (u32 (n - j))
  end.

(** sort, src/sort.c 74-76 *)
Definition sort (a : list Z) (n : Z) : res (list Z) := sort_array (fuel n) a 0 n.
