(** The memory accesses of AvxSem with the semantics of TraceSem: an access to a
    vector is an access to each of its elements, in order. *)

From Coq Require Import ZArith List Bool.
From Verif Require Import CSem AvxSem TraceSem.
Import ListNotations.
Open Scope Z_scope.

(** ** Memory *)

(** [vmovdqu ymm, [m]] on an array of 32-bit elements *)
Definition ld8 (q : place) (a : list Z) (off : Z) : tr ymm :=
  do i <- lift (eidx 4 off);
  do x0 <- rd q a i; do x1 <- rd q a (i + 1); do x2 <- rd q a (i + 2); do x3 <- rd q a (i + 3);
  do x4 <- rd q a (i + 4); do x5 <- rd q a (i + 5); do x6 <- rd q a (i + 6); do x7 <- rd q a (i + 7);
  ret (V x0 x1 x2 x3 x4 x5 x6 x7).

(** [vmovdqu [m], ymm] *)
Definition st8 (q : place) (a : list Z) (off : Z) (x : ymm) : tr (list Z) :=
  do i <- lift (eidx 4 off);
  do a <- wr q a i (lane x 0%nat); do a <- wr q a (i + 1) (lane x 1%nat);
  do a <- wr q a (i + 2) (lane x 2%nat); do a <- wr q a (i + 3) (lane x 3%nat);
  do a <- wr q a (i + 4) (lane x 4%nat); do a <- wr q a (i + 5) (lane x 5%nat);
  do a <- wr q a (i + 6) (lane x 6%nat); do a <- wr q a (i + 7) (lane x 7%nat);
  ret a.

(** [vmovdqu [m], xmm] *)
Definition st4 (q : place) (a : list Z) (off : Z) (x : ymm) : tr (list Z) :=
  do i <- lift (eidx 4 off);
  do a <- wr q a i (lane x 0%nat); do a <- wr q a (i + 1) (lane x 1%nat);
  do a <- wr q a (i + 2) (lane x 2%nat); do a <- wr q a (i + 3) (lane x 3%nat);
  ret a.

(** [vpmovsxdq ymm, [m]]: four 32-bit elements *)
Definition vpmovsxdq (q : place) (a : list Z) (off : Z) : tr ymm :=
  do i <- lift (eidx 4 off);
  do x0 <- rd q a i; do x1 <- rd q a (i + 1); do x2 <- rd q a (i + 2); do x3 <- rd q a (i + 3);
  ret (V (lo64 x0) (hi64 x0) (lo64 x1) (hi64 x1) (lo64 x2) (hi64 x2) (lo64 x3) (hi64 x3)).

(** [vpmovsxwd ymm, [m]]: eight 16-bit elements *)
Definition vpmovsxwd (p : list Z) (off : Z) : tr ymm :=
  do i <- lift (eidx 2 off);
  do x0 <- rd Tab p i; do x1 <- rd Tab p (i + 1); do x2 <- rd Tab p (i + 2); do x3 <- rd Tab p (i + 3);
  do x4 <- rd Tab p (i + 4); do x5 <- rd Tab p (i + 5); do x6 <- rd Tab p (i + 6); do x7 <- rd Tab p (i + 7);
  ret (V x0 x1 x2 x3 x4 x5 x6 x7).

(** [vpmovsxwq ymm, [m]]: four 16-bit elements *)
Definition vpmovsxwq (p : list Z) (off : Z) : tr ymm :=
  do i <- lift (eidx 2 off);
  do x0 <- rd Tab p i; do x1 <- rd Tab p (i + 1); do x2 <- rd Tab p (i + 2); do x3 <- rd Tab p (i + 3);
  ret (V (lo64 x0) (hi64 x0) (lo64 x1) (hi64 x1) (lo64 x2) (hi64 x2) (lo64 x3) (hi64 x3)).

(** [vpmovsxwq xmm, [m]]: two 16-bit elements *)
Definition vpmovsxwq_x (p : list Z) (off : Z) : tr ymm :=
  do i <- lift (eidx 2 off);
  do x0 <- rd Tab p i; do x1 <- rd Tab p (i + 1);
  ret (V (lo64 x0) (hi64 x0) (lo64 x1) (hi64 x1) 0 0 0 0).

(** [vpbroadcastw xmm, [m]]: eight copies of one 16-bit element *)
Definition vpbroadcastw (p : list Z) (off : Z) : tr ymm :=
  do i <- lift (eidx 2 off);
  do x <- rd Tab p i;
  let d := to_i32 (u16 x + 65536 * u16 x) in
  ret (V d d d d 0 0 0 0).
