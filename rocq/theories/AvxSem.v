(** Semantics of the AVX2 instructions used by /repo/src/ntt_asm.S.

    A vector register holds eight 32-bit lanes; a lane is given by its signed
    value.  An xmm register is the lower half of the ymm register of the same
    number: instructions that write an xmm register clear the upper half.
    A pointer is a byte offset from the start of the array it points into.
    The assembly reads and writes whole elements only, so an array is a list of
    elements (32-bit for [a], 16-bit for [p]) and a misaligned offset is an
    error. *)

From Coq Require Import ZArith List Bool.
From Verif Require Import CSem.
Import ListNotations.
Open Scope Z_scope.

Inductive ymm := V (l0 l1 l2 l3 l4 l5 l6 l7 : Z).

(** Lane [i] of a register, 0 <= i < 8.  Lane numbers are in [nat]. *)
Definition lane (x : ymm) (i : nat) : Z :=
  match x with
  | V l0 l1 l2 l3 l4 l5 l6 l7 =>
      match i with
      | 0 => l0 | 1 => l1 | 2 => l2 | 3 => l3
      | 4 => l4 | 5 => l5 | 6 => l6 | 7 => l7 | _ => 0%Z
      end%nat
  end.

Definition vgen (f : nat -> Z) : ymm := V (f 0%nat) (f 1%nat) (f 2%nat) (f 3%nat) (f 4%nat) (f 5%nat) (f 6%nat) (f 7%nat).
Definition vmap (f : Z -> Z) (x : ymm) : ymm := vgen (fun i => f (lane x i)).
Definition vmap2 (f : Z -> Z -> Z) (x y : ymm) : ymm := vgen (fun i => f (lane x i) (lane y i)).

(** Bit [i] of an immediate operand, and a small number given by its bits. *)
Definition bit (imm : Z) (i : nat) : bool := Z.testbit imm (Z.of_nat i).
Definition b2n (b : bool) : nat := if b then 1%nat else 0%nat.

(** ** Lane-wise instructions *)

Definition vpaddd (x y : ymm) : ymm := vmap2 (fun a b => to_i32 (a + b)) x y.
Definition vpsubd (x y : ymm) : ymm := vmap2 (fun a b => to_i32 (a - b)) x y.
Definition vpand (x y : ymm) : ymm := vmap2 Z.land x y.
Definition vpcmpgtd (x y : ymm) : ymm := vmap2 (fun a b => if a >? b then -1 else 0) x y.
(** shift right arithmetic / shift left, 32-bit lanes *)
Definition vpsrad (x : ymm) (imm : Z) : ymm := vmap (fun a => Z.shiftr a imm) x.
Definition vpslld (x : ymm) (imm : Z) : ymm := vmap (fun a => to_i32 (Z.shiftl a imm)) x.

(** ** 64-bit lanes: lane [2i] is the low half, lane [2i+1] the high half *)

Definition lo64 (z : Z) : Z := to_i32 z.
Definition hi64 (z : Z) : Z := to_i32 (Z.shiftr z 32).
Definition u64of (lo hi : Z) : Z := u32 lo + 4294967296 * u32 hi.
Definition vgen64 (f : nat -> Z) : ymm :=
  V (lo64 (f 0%nat)) (hi64 (f 0%nat)) (lo64 (f 1%nat)) (hi64 (f 1%nat))
    (lo64 (f 2%nat)) (hi64 (f 2%nat)) (lo64 (f 3%nat)) (hi64 (f 3%nat)).

(** signed product of the low halves *)
Definition vpmuldq (x y : ymm) : ymm := vgen64 (fun i => lane x (2 * i) * lane y (2 * i)).
(** logical shift right *)
Definition vpsrlq (x : ymm) (imm : Z) : ymm :=
  vgen64 (fun i => Z.shiftr (u64of (lane x (2 * i)) (lane x (2 * i + 1))) imm).

(** ** Shuffles *)

(** byte shifts inside each 128-bit half, by a multiple of 4 bytes *)
Definition vpslldq (x : ymm) (imm : Z) : ymm :=
  let k := (Z.to_nat imm / 4)%nat in
  vgen (fun i => if (i mod 4 <? k)%nat then 0 else lane x (i - k)).
Definition vpsrldq (x : ymm) (imm : Z) : ymm :=
  let k := (Z.to_nat imm / 4)%nat in
  vgen (fun i => if (i mod 4 + k <? 4)%nat then lane x (i + k) else 0).
(** lane [i] from [y] if bit [i] of [imm] is set, else from [x] *)
Definition vpblendd (x y : ymm) (imm : Z) : ymm :=
  vgen (fun i => if bit imm i then lane y i else lane x i).
(** the two bits [2j+1], [2j] of [imm] *)
Definition sel2 (imm : Z) (j : nat) : nat := (b2n (bit imm (2 * j)) + 2 * b2n (bit imm (2 * j + 1)))%nat.
(** two bits of [imm] select one of the four lanes of the same half *)
Definition vpshufd (x : ymm) (imm : Z) : ymm :=
  vgen (fun i => lane x (4 * (i / 4) + sel2 imm (i mod 4))).
Definition vshufps (x y : ymm) (imm : Z) : ymm :=
  vgen (fun i => lane (if (i mod 4 <? 2)%nat then x else y) (4 * (i / 4) + sel2 imm (i mod 4))).
(** 64-bit shuffle: bit [i] of [imm] selects for the 64-bit lane [i] *)
Definition vshufpd (x y : ymm) (imm : Z) : ymm :=
  vgen (fun i => lane (if (i mod 4 <? 2)%nat then x else y)
                   (4 * (i / 4) + 2 * b2n (bit imm (i / 2)) + i mod 2)).
(** each half is one of the four halves of [x], [y], or zero: four bits of [imm] from
    bit [b] on *)
Definition half128 (x y : ymm) (imm : Z) (b i : nat) : Z :=
  if bit imm (b + 3) then 0
  else lane (if bit imm (b + 1) then y else x) (4 * b2n (bit imm b) + i).
Definition vperm2i128 (x y : ymm) (imm : Z) : ymm :=
  vgen (fun i => half128 x y imm (4 * (i / 4)) (i mod 4)).
(** permutation of the eight lanes by an index register (three bits of each index) *)
Definition idx8 (k : Z) : nat := (b2n (bit k 0) + 2 * b2n (bit k 1) + 4 * b2n (bit k 2))%nat.
Definition vpermd (idx x : ymm) : ymm := vgen (fun i => lane x (idx8 (lane idx i))).

(** ** Broadcasts and sign extensions from a register *)

Definition to_i16 (z : Z) : Z :=
  let m := z mod 65536 in if m <? 32768 then m else m - 65536.
(** [vmovd xmm, r]: the low 32 bits, rest zero *)
Definition vmovd (r : Z) : ymm := V (to_i32 r) 0 0 0 0 0 0 0.
Definition vpbroadcastd (x : ymm) : ymm := vgen (fun _ => lane x 0%nat).
Definition vpbroadcastq (x : ymm) : ymm := vgen (fun i => lane x (i mod 2)%nat).
(** 16-bit word [j] of a register *)
Definition word (x : ymm) (j : nat) : Z :=
  to_i16 (if (j mod 2 =? 0)%nat then lane x (j / 2) else Z.shiftr (lane x (j / 2)) 16).
(** [vpmovsxwq ymm, xmm]: the four lowest words *)
Definition vpmovsxwq_r (x : ymm) : ymm := vgen64 (fun i => word x i).

(** ** Memory *)

(** index of the element at a byte offset *)
Definition eidx (size off : Z) : res Z :=
  if off mod size =? 0 then Ok (off / size) else Err OutOfBounds.

(** [vmovdqu ymm, [m]] on an array of 32-bit elements *)
Definition ld8 (a : list Z) (off : Z) : res ymm :=
  do i <- eidx 4 off;
  do x0 <- rd a i; do x1 <- rd a (i + 1); do x2 <- rd a (i + 2); do x3 <- rd a (i + 3);
  do x4 <- rd a (i + 4); do x5 <- rd a (i + 5); do x6 <- rd a (i + 6); do x7 <- rd a (i + 7);
  Ok (V x0 x1 x2 x3 x4 x5 x6 x7).

(** [vmovdqu [m], ymm] *)
Definition st8 (a : list Z) (off : Z) (x : ymm) : res (list Z) :=
  do i <- eidx 4 off;
  do a <- wr a i (lane x 0%nat); do a <- wr a (i + 1) (lane x 1%nat);
  do a <- wr a (i + 2) (lane x 2%nat); do a <- wr a (i + 3) (lane x 3%nat);
  do a <- wr a (i + 4) (lane x 4%nat); do a <- wr a (i + 5) (lane x 5%nat);
  do a <- wr a (i + 6) (lane x 6%nat); do a <- wr a (i + 7) (lane x 7%nat);
  Ok a.

(** [vmovdqu [m], xmm] *)
Definition st4 (a : list Z) (off : Z) (x : ymm) : res (list Z) :=
  do i <- eidx 4 off;
  do a <- wr a i (lane x 0%nat); do a <- wr a (i + 1) (lane x 1%nat);
  do a <- wr a (i + 2) (lane x 2%nat); do a <- wr a (i + 3) (lane x 3%nat);
  Ok a.

(** [vpmovsxdq ymm, [m]]: four 32-bit elements *)
Definition vpmovsxdq (a : list Z) (off : Z) : res ymm :=
  do i <- eidx 4 off;
  do x0 <- rd a i; do x1 <- rd a (i + 1); do x2 <- rd a (i + 2); do x3 <- rd a (i + 3);
  Ok (V (lo64 x0) (hi64 x0) (lo64 x1) (hi64 x1) (lo64 x2) (hi64 x2) (lo64 x3) (hi64 x3)).

(** [vpmovsxwd ymm, [m]]: eight 16-bit elements *)
Definition vpmovsxwd (p : list Z) (off : Z) : res ymm :=
  do i <- eidx 2 off;
  do x0 <- rd p i; do x1 <- rd p (i + 1); do x2 <- rd p (i + 2); do x3 <- rd p (i + 3);
  do x4 <- rd p (i + 4); do x5 <- rd p (i + 5); do x6 <- rd p (i + 6); do x7 <- rd p (i + 7);
  Ok (V x0 x1 x2 x3 x4 x5 x6 x7).

(** [vpmovsxwq ymm, [m]]: four 16-bit elements *)
Definition vpmovsxwq (p : list Z) (off : Z) : res ymm :=
  do i <- eidx 2 off;
  do x0 <- rd p i; do x1 <- rd p (i + 1); do x2 <- rd p (i + 2); do x3 <- rd p (i + 3);
  Ok (V (lo64 x0) (hi64 x0) (lo64 x1) (hi64 x1) (lo64 x2) (hi64 x2) (lo64 x3) (hi64 x3)).

(** [vpmovsxwq xmm, [m]]: two 16-bit elements *)
Definition vpmovsxwq_x (p : list Z) (off : Z) : res ymm :=
  do i <- eidx 2 off;
  do x0 <- rd p i; do x1 <- rd p (i + 1);
  Ok (V (lo64 x0) (hi64 x0) (lo64 x1) (hi64 x1) 0 0 0 0).

(** [vpbroadcastw xmm, [m]]: eight copies of one 16-bit element *)
Definition vpbroadcastw (p : list Z) (off : Z) : res ymm :=
  do i <- eidx 2 off;
  do x <- rd p i;
  let d := to_i32 (u16 x + 65536 * u16 x) in
  Ok (V d d d d 0 0 0 0).
