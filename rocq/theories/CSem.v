(** C semantics used by the model.

    Every modelled C function returns [res A]: either [Ok a], or [Err e] where
    [e] says which rule of the language (or which assertion) was violated.
    Values of all integer types are [Z].  Nothing in this file is specific to
    the NTT library. *)

From Coq Require Import ZArith List Bool.
Import ListNotations.
Open Scope Z_scope.

(** What can go wrong in a run. *)
Inductive err :=
| OutOfBounds      (* array access outside the object *)
| SignedOverflow   (* signed arithmetic leaves its type: undefined behaviour *)
| AssertFail       (* assert(...) failed *)
| DivByZero        (* division or remainder by zero: undefined behaviour *)
| Exited           (* the program stopped itself: exit(1) or abort() *)
| NoFuel.          (* the loop did not finish within the model's fuel *)

Inductive res (A : Type) :=
| Ok (a : A)
| Err (e : err).
Arguments Ok {A} a.
Arguments Err {A} e.

Definition bind {A B} (m : res A) (f : A -> res B) : res B :=
  match m with
  | Ok a => f a
  | Err e => Err e
  end.

Notation "'do' x <- m ; k" := (bind m (fun x => k))
  (at level 200, x name, m at level 100, k at level 200, right associativity).
Notation "'do' ' x <- m ; k" := (bind m (fun x => k))
  (at level 200, x strict pattern, m at level 100, k at level 200,
   right associativity).

(** ** Integer types *)

Definition in_i32 (z : Z) : bool := (-2147483648 <=? z) && (z <=? 2147483647).
Definition in_i64 (z : Z) : bool :=
  (-9223372036854775808 <=? z) && (z <=? 9223372036854775807).

(** Result of a signed operation whose exact value is [z]. *)
Definition i32 (z : Z) : res Z := if in_i32 z then Ok z else Err SignedOverflow.
Definition i64 (z : Z) : res Z := if in_i64 z then Ok z else Err SignedOverflow.

Definition add32 (x y : Z) : res Z := i32 (x + y).
Definition sub32 (x y : Z) : res Z := i32 (x - y).
Definition mul32 (x y : Z) : res Z := i32 (x * y).

Definition add64 (x y : Z) : res Z := i64 (x + y).
Definition sub64 (x y : Z) : res Z := i64 (x - y).
Definition mul64 (x y : Z) : res Z := i64 (x * y).

(** Unsigned operations wrap around. *)
Definition u16 (z : Z) : Z := z mod 65536.
Definition u32 (z : Z) : Z := z mod 4294967296.
Definition u64 (z : Z) : Z := z mod 18446744073709551616.

(** Conversion to a signed 32-bit integer (wraps, as gcc and clang define it). *)
Definition to_i32 (z : Z) : Z :=
  let m := z mod 4294967296 in
  if m <? 2147483648 then m else m - 4294967296.

(** Bit operations on two's complement integers: [Z.land], [Z.lor], [Z.lxor],
    [Z.shiftr] (arithmetic shift) already have that meaning on [Z]. *)

(** C99 division and remainder truncate toward zero. *)
Definition rem32 (x y : Z) : res Z :=
  if y =? 0 then Err DivByZero
  else if (x =? -2147483648) && (y =? -1) then Err SignedOverflow
  else Ok (Z.rem x y).
Definition div32 (x y : Z) : res Z :=
  if y =? 0 then Err DivByZero
  else if (x =? -2147483648) && (y =? -1) then Err SignedOverflow
  else Ok (Z.quot x y).
Definition rem64 (x y : Z) : res Z :=
  if y =? 0 then Err DivByZero
  else if (x =? -9223372036854775808) && (y =? -1) then Err SignedOverflow
  else Ok (Z.rem x y).
Definition div64 (x y : Z) : res Z :=
  if y =? 0 then Err DivByZero
  else if (x =? -9223372036854775808) && (y =? -1) then Err SignedOverflow
  else Ok (Z.quot x y).

Definition cassert (b : bool) : res unit := if b then Ok tt else Err AssertFail.

(** ** Arrays *)

(** [rd a i] is [a[i]]. *)
Definition rd (a : list Z) (i : Z) : res Z :=
  if i <? 0 then Err OutOfBounds
  else match nth_error a (Z.to_nat i) with
       | Some v => Ok v
       | None => Err OutOfBounds
       end.

Fixpoint upd (a : list Z) (i : nat) (v : Z) : option (list Z) :=
  match a with
  | [] => None
  | x :: l =>
      match i with
      | O => Some (v :: l)
      | S j => match upd l j v with
               | Some l' => Some (x :: l')
               | None => None
               end
      end
  end.

(** [wr a i v] is [a[i] = v]. *)
Definition wr (a : list Z) (i : Z) (v : Z) : res (list Z) :=
  if i <? 0 then Err OutOfBounds
  else match upd a (Z.to_nat i) v with
       | Some l => Ok l
       | None => Err OutOfBounds
       end.

(** ** Loops *)

(** [for (i = i0; cond(i); i = next(i)) body]; [S] is the rest of the state. *)
Fixpoint cfor {S : Type} (fuel : nat) (i : Z) (cond : Z -> bool)
         (next : Z -> Z) (body : Z -> S -> res S) (st : S) : res S :=
  match fuel with
  | O => Err NoFuel
  | Datatypes.S f =>
      if cond i then
        do st' <- body i st; cfor f (next i) cond next body st'
      else Ok st
  end.

(** [while (cond) body] on a state. *)
Fixpoint cwhile {S : Type} (fuel : nat) (cond : S -> bool)
         (body : S -> res S) (st : S) : res S :=
  match fuel with
  | O => Err NoFuel
  | Datatypes.S f =>
      if cond st then do st' <- body st; cwhile f cond body st'
      else Ok st
  end.

(** [do body while (cond)] on a state. *)
Definition cdowhile {S : Type} (fuel : nat) (body : S -> res S)
           (cond : S -> bool) (st : S) : res S :=
  do st' <- body st; cwhile fuel cond body st'.

(** Enough fuel for any loop making at most [n] iterations. *)
Definition fuel (n : Z) : nat := S (Z.to_nat n).

(** ** Memory: named arrays, so that pointer aliasing can be expressed *)
Definition heap := Z -> list Z.
Definition hset (h : heap) (p : Z) (l : list Z) : heap :=
  fun x => if x =? p then l else h x.
