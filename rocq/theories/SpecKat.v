(** What a function does when the known-answer programs call it. *)

From Coq Require Import ZArith List.
From Verif Require Import CSem Spec ModelTests.
Open Scope Z_scope.

(** Called on canonical arrays of 1024 elements, [f] puts [F] of the last two into the first and keeps the lengths. *)
Definition puts (f : heap -> Z -> Z -> Z -> res heap) (F : list Z -> list Z -> list Z) : Prop :=
  forall h, zlen (h 0) = 1024 -> zlen (h 1) = 1024 -> zlen (h 2) = 1024 ->
  all_in 0 (Q - 1) (h 0) -> all_in 0 (Q - 1) (h 1) ->
  exists h', f h 2 0 1 = Ok h' /\ zlen (h' 0) = 1024 /\ zlen (h' 1) = 1024 /\ zlen (h' 2) = 1024 /\ h' 2 = F (h 0) (h 1).
