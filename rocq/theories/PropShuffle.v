(** Properties of the bit-reversal shuffles and of the generated and committed
    tables: C26, C27, C40, C41. *)

From Coq Require Import ZArith List Bool Lia.
From Verif Require Import CSem Spec ModelNtt ModelGen ExTables CommittedTables ShuffleFinal.
Import ListNotations.
Open Scope Z_scope.

(** C26: element [i] moves to position [bitrev k i] *)
Theorem bitrev_shuffle_correct :
  forall k a, 0 <= k <= 31 -> zlen a = 2 ^ k ->
  exists r, bitrev_shuffle a (2 ^ k) = Ok r /\ zlen r = 2 ^ k
    /\ forall i, 0 <= i < 2 ^ k -> at_ r (bitrev k i) = at_ a i.
Proof. exact bitrev_shuffle_correct_L. Qed.
Print Assumptions bitrev_shuffle_correct.

Example bitrev_shuffle_ex :
  bitrev_shuffle [10; 11; 12; 13; 14; 15; 16; 17] 8 = Ok [10; 14; 12; 16; 11; 15; 13; 17].
Proof. vm_compute. reflexivity. Qed.

(** C26: shuffling twice restores the array *)
Theorem bitrev_shuffle_involutive :
  forall k a, 0 <= k <= 31 -> zlen a = 2 ^ k ->
  (do r <- bitrev_shuffle a (2 ^ k); bitrev_shuffle r (2 ^ k)) = Ok a.
Proof. exact bitrev_shuffle_involutive_L. Qed.
Print Assumptions bitrev_shuffle_involutive.

Example bitrev_shuffle_involutive_ex :
  exists r, bitrev_shuffle [3; 1; 4; 1; 5; 9; 2; 6] (2 ^ 3) = Ok r /\ r <> [3; 1; 4; 1; 5; 9; 2; 6].
Proof. eexists. split; [vm_compute; reflexivity|discriminate]. Qed.

(** C27: accepted sizes, and totality *)
Theorem make_bitrev_table_accepts_iff :
  forall size,
  ((exists t, make_bitrev_table size = Ok (Written t)) <-> exists k, 1 <= k <= 15 /\ size = 2 ^ k)
  /\ exists out, make_bitrev_table size = Ok out.
Proof. exact make_bitrev_table_accepts_iff_L. Qed.
Print Assumptions make_bitrev_table_accepts_iff.

Example make_bitrev_table_accepts_ex :
  make_bitrev_table 65536 = Ok (Exit SizeTooLarge) /\ make_bitrev_table 24 = Ok (Exit NotPowerOfTwo)
  /\ make_bitrev_table 8 = Ok (Written (2, [(1, 4); (3, 6)])).
Proof. split; [|split]; vm_compute; reflexivity. Qed.

(** C27: what the generated table contains, and that shuffling with it is bitrev_shuffle *)
Theorem bitrev_table_shuffle_agrees :
  forall size m t, make_bitrev_table size = Ok (Written (m, t)) ->
  m = Z.of_nat (length t)
  /\ (forall i j, In (i, j) t -> 0 <= i < j /\ j < size /\ j < 2 ^ 16)
  /\ forall a, zlen a = size ->
     exists r, shuffle_with_table a t m = Ok r /\ bitrev_shuffle a size = Ok r.
Proof. exact bitrev_table_shuffle_agrees_L. Qed.
Print Assumptions bitrev_table_shuffle_agrees.

Example bitrev_table_shuffle_ex :
  make_bitrev_table 8 = Ok (Written (2, [(1, 4); (3, 6)]))
  /\ shuffle_with_table [10; 11; 12; 13; 14; 15; 16; 17] [(1, 4); (3, 6)] 2 = Ok [10; 14; 12; 16; 11; 15; 13; 17].
Proof. split; vm_compute; reflexivity. Qed.

(** C40: the committed bit-reversal tables *)
Theorem committed_bitrev_tables :
  make_bitrev_table 16 = Ok (Written (BITREV16_NPAIRS, bitrev16))
  /\ make_bitrev_table 256 = Ok (Written (BITREV256_NPAIRS, bitrev256))
  /\ make_bitrev_table 512 = Ok (Written (BITREV512_NPAIRS, bitrev512))
  /\ make_bitrev_table 1024 = Ok (Written (BITREV1024_NPAIRS, bitrev1024))
  /\ make_bitrev_table 32 = Ok (Written (BITREV32_NPAIRS, ntt32_bitrev)).
Proof. exact committed_bitrev_tables_L. Qed.
Print Assumptions committed_bitrev_tables.

(** C41: the tables do not depend on the contents of the allocated buffer *)
Theorem make_tables_memory_independent :
  forall m1 m2 size psi, (forall n, 0 <= n -> zlen (m1 n) = n) -> (forall n, 0 <= n -> zlen (m2 n) = n) ->
  make_tables m1 size psi = make_tables m2 size psi.
Proof. exact make_tables_memory_independent_L. Qed.
Print Assumptions make_tables_memory_independent.

Example make_tables_memory_ex :
  make_tables malloc77 16 1212 = make_tables (fun n => repeat 0 (Z.to_nat n)) 16 1212
  /\ exists T, make_tables malloc77 16 1212 = Ok (Written T).
Proof. split; [vm_compute; reflexivity|]. exists T16. exact T16_made. Qed.

(** C41: the same for make_red_tables *)
Theorem make_red_tables_memory_independent :
  forall m1 m2 size psi, (forall n, 0 <= n -> zlen (m1 n) = n) -> (forall n, 0 <= n -> zlen (m2 n) = n) ->
  make_red_tables m1 size psi = make_red_tables m2 size psi.
Proof. exact make_red_tables_memory_independent_L. Qed.
Print Assumptions make_red_tables_memory_independent.

Example make_red_tables_memory_ex :
  make_red_tables malloc77 16 1212 = make_red_tables (fun n => repeat 0 (Z.to_nat n)) 16 1212
  /\ exists T, make_red_tables malloc77 16 1212 = Ok (Written T).
Proof. split; [vm_compute; reflexivity|]. exists R16. exact R16_made. Qed.

(** C40: the committed ntt32 tables are those of make_tables for n = 32, psi = 563 *)
Theorem committed_ntt32_tables :
  forall malloc, (forall n, 0 <= n -> zlen (malloc n) = n) ->
  exists T, make_tables malloc 32 ntt32_psi = Ok (Written T)
  /\ t_psi T = ntt32_psi /\ t_omega T = ntt32_omega /\ t_inv_psi T = ntt32_inv_psi
  /\ t_inv_omega T = ntt32_inv_omega /\ t_inv_n T = ntt32_inv_n
  /\ psi_powers T = ntt32_psi_powers /\ inv_psi_powers T = ntt32_inv_psi_powers
  /\ scaled_inv_psi_powers T = ntt32_scaled_inv_psi_powers
  /\ omega_powers T = ntt32_omega_powers /\ omega_powers_rev T = ntt32_omega_powers_rev
  /\ inv_omega_powers T = ntt32_inv_omega_powers /\ inv_omega_powers_rev T = ntt32_inv_omega_powers_rev
  /\ mixed_powers T = ntt32_mixed_powers /\ mixed_powers_rev T = ntt32_mixed_powers_rev
  /\ inv_mixed_powers T = ntt32_inv_mixed_powers /\ inv_mixed_powers_rev T = ntt32_inv_mixed_powers_rev.
Proof. exact committed_ntt32_tables_L. Qed.
Print Assumptions committed_ntt32_tables.
