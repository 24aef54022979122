(** Notions used to state when the product procedures compute products of integer polynomials. *)

From Coq Require Import ZArith List.
From Verif Require Import Spec SpecRing.
Open Scope Z_scope.

(** The polynomial with integer coefficients [X i], 0 <= i < n, as an array of residues *)
Definition encode (n : Z) (X : Z -> Z) : list Z := table n (fun i => X i mod Q).

(** The integer from -6144 to 6144 that a residue from 0 to Q - 1 stands for *)
Definition centred (v : Z) : Z := if v <=? 6144 then v else v - Q.

(** Coefficient [i] of the product of two polynomials, without reduction modulo X^n + 1 *)
Definition ordinary (X Y : Z -> Z) (i : Z) : Z := Sum (i + 1) (fun j => X j * Y (i - j)).
