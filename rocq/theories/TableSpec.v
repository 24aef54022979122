(** Contracts of the generated tables, in the terms of the comments of
    src/ntt.h, src/ntt_red.h and of the generators. *)

From Coq Require Import ZArith List.
From Verif Require Import CSem Spec ModelGen.
Import ListNotations.
Open Scope Z_scope.

(** [p[i] = x * y^i] for [0 <= i < n] *)
Definition power_table (n x y : Z) (p : list Z) : Prop :=
  zlen p = n /\ forall i, 0 <= i < n -> eqQ (at_ p i) (x * y ^ i).

(** Everything make_tables writes for size [2^k] and [psi]. *)
Record tables_ok (k psi : Z) (T : tables) : Prop := {
  ok_psi : t_psi T = psi;
  ok_omega : eqQ (t_omega T) (psi ^ 2) /\ 0 <= t_omega T < Q;
  ok_inv_psi : eqQ (psi * t_inv_psi T) 1 /\ 0 <= t_inv_psi T < Q;
  ok_inv_omega : eqQ (t_omega T * t_inv_omega T) 1 /\ 0 <= t_inv_omega T < Q;
  ok_inv_n : eqQ (2 ^ k * t_inv_n T) 1 /\ 0 <= t_inv_n T < Q;
  ok_psi_powers : power_table (2 ^ k) 1 psi (psi_powers T) /\ all_in 0 (Q - 1) (psi_powers T);
  ok_inv_psi_powers : power_table (2 ^ k) 1 (t_inv_psi T) (inv_psi_powers T)
    /\ all_in 0 (Q - 1) (inv_psi_powers T);
  ok_inv_psi_powers_rev : omega_table_rev k (t_inv_psi T) 1 (inv_psi_powers_rev T)
    /\ all_in 0 (Q - 1) (inv_psi_powers_rev T);
  ok_scaled : power_table (2 ^ k) (t_inv_n T) (t_inv_psi T) (scaled_inv_psi_powers T)
    /\ all_in 0 (Q - 1) (scaled_inv_psi_powers T);
  ok_omega_powers : omega_table k (t_omega T) 1 (omega_powers T)
    /\ all_in 0 (Q - 1) (omega_powers T);
  ok_omega_powers_rev : omega_table_rev k (t_omega T) 1 (omega_powers_rev T)
    /\ all_in 0 (Q - 1) (omega_powers_rev T);
  ok_inv_omega_powers : omega_table k (t_inv_omega T) 1 (inv_omega_powers T)
    /\ all_in 0 (Q - 1) (inv_omega_powers T);
  ok_inv_omega_powers_rev : omega_table_rev k (t_inv_omega T) 1 (inv_omega_powers_rev T)
    /\ all_in 0 (Q - 1) (inv_omega_powers_rev T);
  ok_mixed : mixed_table k psi 1 (mixed_powers T) /\ all_in 0 (Q - 1) (mixed_powers T);
  ok_mixed_rev : mixed_table_rev k psi 1 (mixed_powers_rev T)
    /\ all_in 0 (Q - 1) (mixed_powers_rev T);
  ok_inv_mixed : mixed_table k (t_inv_psi T) 1 (inv_mixed_powers T)
    /\ all_in 0 (Q - 1) (inv_mixed_powers T);
  ok_inv_mixed_rev : mixed_table_rev k (t_inv_psi T) 1 (inv_mixed_powers_rev T)
    /\ all_in 0 (Q - 1) (inv_mixed_powers_rev T)
}.

(** Everything make_red_tables writes; [r_inv_k] is the inverse of 3. *)
Record red_tables_ok (k psi : Z) (T : red_tables) : Prop := {
  rok_psi : r_psi T = psi;
  rok_omega : eqQ (r_omega T) (psi ^ 2) /\ 0 <= r_omega T < Q;
  rok_inv_psi : eqQ (psi * r_inv_psi T) 1 /\ 0 <= r_inv_psi T < Q;
  rok_inv_omega : eqQ (r_omega T * r_inv_omega T) 1 /\ 0 <= r_inv_omega T < Q;
  rok_inv_n : eqQ (2 ^ k * r_inv_n T) 1 /\ 0 <= r_inv_n T < Q;
  rok_inv_k : r_inv_k T = 8193;
  rok_rescale8 : eqQ (3 ^ 8 * 2 ^ k * rescale8 T) 1 /\ 0 <= rescale8 T < Q;
  rok_rescale6 : eqQ (3 ^ 6 * 2 ^ k * rescale6 T) 1 /\ 0 <= rescale6 T < Q;
  rok_psi_powers : power_table (2 ^ k) 8193 psi (red_psi_powers T)
    /\ all_in (-6144) 6144 (red_psi_powers T);
  rok_psi_powers_rev : omega_table_rev k psi 8193 (red_psi_powers_rev T)
    /\ all_in (-6144) 6144 (red_psi_powers_rev T);
  rok_inv_psi_powers : power_table (2 ^ k) 8193 (r_inv_psi T) (red_inv_psi_powers T)
    /\ all_in (-6144) 6144 (red_inv_psi_powers T);
  rok_scaled : power_table (2 ^ k) (rescale8 T) (r_inv_psi T) (red_scaled_inv_psi_powers T)
    /\ all_in (-6144) 6144 (red_scaled_inv_psi_powers T);
  rok_scaled_var : power_table (2 ^ k) (rescale6 T) (r_inv_psi T) (red_scaled_inv_psi_powers_var T)
    /\ all_in (-6144) 6144 (red_scaled_inv_psi_powers_var T);
  rok_omega_powers : omega_table k (r_omega T) 8193 (red_omega_powers T)
    /\ all_in (-6144) 6144 (red_omega_powers T);
  rok_omega_powers_rev : omega_table_rev k (r_omega T) 8193 (red_omega_powers_rev T)
    /\ all_in (-6144) 6144 (red_omega_powers_rev T);
  rok_inv_omega_powers : omega_table k (r_inv_omega T) 8193 (red_inv_omega_powers T)
    /\ all_in (-6144) 6144 (red_inv_omega_powers T);
  rok_inv_omega_powers_rev : omega_table_rev k (r_inv_omega T) 8193 (red_inv_omega_powers_rev T)
    /\ all_in (-6144) 6144 (red_inv_omega_powers_rev T);
  rok_mixed : mixed_table k psi 8193 (red_mixed_powers T)
    /\ all_in (-6144) 6144 (red_mixed_powers T);
  rok_mixed_rev : mixed_table_rev k psi 8193 (red_mixed_powers_rev T)
    /\ all_in (-6144) 6144 (red_mixed_powers_rev T);
  rok_inv_mixed : mixed_table k (r_inv_psi T) 8193 (red_inv_mixed_powers T)
    /\ all_in (-6144) 6144 (red_inv_mixed_powers T);
  rok_inv_mixed_rev : mixed_table_rev k (r_inv_psi T) 8193 (red_inv_mixed_powers_rev T)
    /\ all_in (-6144) 6144 (red_inv_mixed_powers_rev T)
}.
