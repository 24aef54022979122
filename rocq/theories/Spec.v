(** Independent specifications: nothing here refers to the C code. *)

From Coq Require Import ZArith List.
Import ListNotations.
Open Scope Z_scope.

Definition Q : Z := 12289.

(** Array access with a default, used only in statements where the index is in
    range. *)
Definition at_ (a : list Z) (i : Z) : Z := nth (Z.to_nat i) a 0.

Definition zlen (a : list Z) : Z := Z.of_nat (length a).

(** [Sum n f] is the sum of [f i] for [0 <= i < n]. *)
Fixpoint sum_nat (n : nat) (f : Z -> Z) : Z :=
  match n with
  | O => 0
  | S m => sum_nat m f + f (Z.of_nat m)
  end.
Definition Sum (n : Z) (f : Z -> Z) : Z := sum_nat (Z.to_nat n) f.

(** Congruence modulo Q. *)
Definition eqQ (a b : Z) : Prop := a mod Q = b mod Q.

(** The number theoretic transform of [x_0 .. x_(n-1)] with root [w]:
    component [j] is the value at [w^j] of the polynomial with coefficients
    [x_i] (an integer; take it modulo Q). *)
Definition NTT (n w : Z) (x : Z -> Z) (j : Z) : Z :=
  Sum n (fun i => x i * w ^ (i * j)).

(** Reversal of the low [k] bits of [i]. *)
Fixpoint bitrev_nat (k : nat) (i : Z) : Z :=
  match k with
  | O => 0
  | S k' => (i mod 2) * 2 ^ (Z.of_nat k') + bitrev_nat k' (i / 2)
  end.
Definition bitrev (k i : Z) : Z := bitrev_nat (Z.to_nat k) i.

(** Coefficient [m] of the product of two polynomials modulo [x^n + 1]. *)
Definition negacyclic (n : Z) (a b : Z -> Z) (m : Z) : Z :=
  Sum n (fun i =>
    if i <=? m then a i * b (m - i) else - (a i * b (m - i + n))).

(** [all_in lo hi a]: every element of the array is in [lo, hi]. *)
Definition all_in (lo hi : Z) (a : list Z) : Prop :=
  forall v, In v a -> lo <= v <= hi.

(** [psi] is an [n]-th root of -1 modulo Q. *)
Definition root_of_minus_one (n psi : Z) : Prop := eqQ (psi ^ n) (-1).

(** Constant tables, as described in the headers: for [t = 1, 2, 4, .., n/2]
    (that is [t = 2^l], [0 <= l < k], [n = 2^k]) and [0 <= j < t], the entry
    [p[t+j]] is [c] times the given power.  Entry 0 is unconstrained. *)
Definition table_at (k : Z) (p : list Z) (f : Z -> Z -> Z) : Prop :=
  zlen p = 2 ^ k /\
  forall l j, 0 <= l < k -> 0 <= j < 2 ^ l -> eqQ (at_ p (2 ^ l + j)) (f l j).

(** c * (omega^(n/2t))^j *)
Definition omega_table (k omega c : Z) (p : list Z) : Prop :=
  table_at k p (fun l j => c * (omega ^ (2 ^ k / (2 * 2 ^ l))) ^ j).
(** c * (omega^(n/2t))^bitrev(j), the bit reversal being on [log2(t)] bits *)
Definition omega_table_rev (k omega c : Z) (p : list Z) : Prop :=
  table_at k p (fun l j => c * (omega ^ (2 ^ k / (2 * 2 ^ l))) ^ bitrev l j).
(** c * psi^(n/2t) * (omega^(n/2t))^j  where omega = psi^2 *)
Definition mixed_table (k psi c : Z) (p : list Z) : Prop :=
  table_at k p (fun l j =>
    c * (psi ^ (2 ^ k / (2 * 2 ^ l)) * ((psi ^ 2) ^ (2 ^ k / (2 * 2 ^ l))) ^ j)).
Definition mixed_table_rev (k psi c : Z) (p : list Z) : Prop :=
  table_at k p (fun l j =>
    c * (psi ^ (2 ^ k / (2 * 2 ^ l)) * ((psi ^ 2) ^ (2 ^ k / (2 * 2 ^ l))) ^ bitrev l j)).

(** The Longa-Naehrig reduction over the integers: x is 4096 * (x / 4096) + x mod 4096,
    3 * 4096 is -1 modulo Q, so the value is congruent to 3 * x. *)
Definition ln_red (x : Z) : Z := 3 * (x mod 4096) - x / 4096.
