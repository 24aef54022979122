(** Definitions for the examples of PropTestsAll.v. *)

From Coq Require Import ZArith List Bool Lia.
From Verif Require Import CSem Spec Loops Exlib ModelGen ModelProducts CommittedTables ExTables.
Import Spec.
Import ListNotations.
Open Scope Z_scope.

(** The tables of size 16 with one entry of mixed_powers_rev changed *)
Definition T16bad : tables := {|
  t_psi := t_psi T16; t_omega := t_omega T16; t_inv_psi := t_inv_psi T16; t_inv_omega := t_inv_omega T16; t_inv_n := t_inv_n T16;
  psi_powers := psi_powers T16; inv_psi_powers := inv_psi_powers T16; inv_psi_powers_rev := inv_psi_powers_rev T16;
  scaled_inv_psi_powers := scaled_inv_psi_powers T16; omega_powers := omega_powers T16; omega_powers_rev := omega_powers_rev T16;
  inv_omega_powers := inv_omega_powers T16; inv_omega_powers_rev := inv_omega_powers_rev T16; mixed_powers := mixed_powers T16;
  mixed_powers_rev := aset (mixed_powers_rev T16) 13 1; inv_mixed_powers := inv_mixed_powers T16;
  inv_mixed_powers_rev := inv_mixed_powers_rev T16 |}.

(** The same for the tables of the "red" family *)
Definition R16bad : red_tables := {|
  r_psi := r_psi R16; r_omega := r_omega R16; r_inv_psi := r_inv_psi R16; r_inv_omega := r_inv_omega R16; r_inv_n := r_inv_n R16;
  r_inv_k := r_inv_k R16; rescale8 := rescale8 R16; rescale6 := rescale6 R16;
  red_psi_powers := red_psi_powers R16; red_psi_powers_rev := red_psi_powers_rev R16; red_inv_psi_powers := red_inv_psi_powers R16;
  red_scaled_inv_psi_powers := red_scaled_inv_psi_powers R16; red_scaled_inv_psi_powers_var := red_scaled_inv_psi_powers_var R16;
  red_omega_powers := red_omega_powers R16; red_omega_powers_rev := red_omega_powers_rev R16;
  red_inv_omega_powers := red_inv_omega_powers R16; red_inv_omega_powers_rev := red_inv_omega_powers_rev R16;
  red_mixed_powers := red_mixed_powers R16; red_mixed_powers_rev := aset (red_mixed_powers_rev R16) 13 1;
  red_inv_mixed_powers := red_inv_mixed_powers R16; red_inv_mixed_powers_rev := red_inv_mixed_powers_rev R16 |}.

(** X^5 and X^7, the result in array 2 *)
Definition heap57 : heap := fun p => if p =? 0 then aset (repeat 0 16) 5 1 else if p =? 1 then aset (repeat 0 16) 7 1 else repeat 9 16.
