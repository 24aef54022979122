(** Reading a list of numbers, one per line.  A line that starts with # is a
    comment; empty lines are skipped; anything else is an error. *)

From Coq Require Import ZArith List Ascii String Bool.
From Verif Require Import Spec.
Import ListNotations.
Open Scope Z_scope.

Definition digit_of (c : ascii) : option Z :=
  let n := Z.of_nat (nat_of_ascii c) in
  if (48 <=? n) && (n <=? 57) then Some (n - 48) else None.

Inductive place := LineStart | InComment | InNumber (v : Z).

Fixpoint numbers_from (p : place) (t : string) : option (list Z) :=
  match t with
  | EmptyString => match p with InNumber v => Some [v] | _ => Some [] end
  | String c t' =>
      let eol := Ascii.eqb c "010" in
      match p with
      | InComment => numbers_from (if eol then LineStart else InComment) t'
      | LineStart =>
          if eol then numbers_from LineStart t'
          else if Ascii.eqb c "#" then numbers_from InComment t'
          else match digit_of c with Some d => numbers_from (InNumber d) t' | None => None end
      | InNumber v =>
          if eol then option_map (cons v) (numbers_from LineStart t')
          else match digit_of c with Some d => numbers_from (InNumber (10 * v + d)) t' | None => None end
      end
  end.

Definition numbers : string -> option (list Z) := numbers_from LineStart.

(** x is a primitive n-th root of unity modulo Q. *)
Definition primitive_root (n x : Z) : Prop :=
  0 <= x < Q /\ eqQ (x ^ n) 1 /\ forall i, 0 < i < n -> ~ eqQ (x ^ i) 1.
