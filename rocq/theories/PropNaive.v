(** C15: the transforms of src/naive_ntt.c, called with q = Q = 12289.

    [a] has [n = 2^k] elements.  [NTT n w x j] is the sum of [x_i w^(ij)], and
    [eqQ] is congruence modulo Q; the results have absolute value below Q, their sign is not determined by
    the residue.  [omega_table], [mixed_table] and their bit-reversed forms are
    the contracts of the headers for the constant table (entry 0 is free). *)

From Coq Require Import ZArith List.
From Verif Require Import CSem Spec Exlib NaiveFinal.
From Verif Require ModelNaive.
Import ListNotations.
Open Scope Z_scope.

(** C15 *)
Theorem ntt_ct_rev2std_naive_correct :
  forall k omega a p, 0 <= k <= 31 -> (0 < k -> eqQ (omega ^ (2 ^ (k - 1))) (-1)) ->
  omega_table k omega 1 p -> (forall i, 1 <= i < 2 ^ k -> 0 <= at_ p i <= Q - 1) ->
  zlen a = 2 ^ k -> all_in (- Q + 1) (Q - 1) a ->
  exists r, ModelNaive.ntt_ct_rev2std_naive a (2 ^ k) p Q = Ok r /\ zlen r = 2 ^ k /\ all_in (- Q + 1) (Q - 1) r
    /\ forall j, 0 <= j < 2 ^ k ->
         eqQ (at_ r j) (NTT (2 ^ k) omega (fun i => at_ a (bitrev k i)) j).
Proof. exact ntt_ct_rev2std_naive_correct_L. Qed.
Print Assumptions ntt_ct_rev2std_naive_correct.

Example ntt_ct_rev2std_naive_ex :
  let p := [0; 1; 1; 1479; 1; 4043; 1479; 7143] in
  let a := [1; -12288; 5; 0; 7777; 300; 2; 12000] in
  eqQ (4043 ^ (2 ^ (3 - 1))) (-1) /\ omega_table 3 4043 1 p /\ all_in (- Q + 1) (Q - 1) a
  /\ ModelNaive.ntt_ct_rev2std_naive a 8 p Q = Ok [-4492; -4551; -4670; 1880; -7783; 7052; 4664; -4381].
Proof.
  cbv zeta. split; [vm_compute; reflexivity|]. split; [check_table|].
  split; [check_all_in | vm_compute; reflexivity].
Qed.

(** C15 *)
Theorem ntt_ct_std2rev_naive_correct :
  forall k omega a p, 0 <= k <= 31 -> (0 < k -> eqQ (omega ^ (2 ^ (k - 1))) (-1)) ->
  omega_table_rev k omega 1 p -> (forall i, 1 <= i < 2 ^ k -> 0 <= at_ p i <= Q - 1) ->
  zlen a = 2 ^ k -> all_in (- Q + 1) (Q - 1) a ->
  exists r, ModelNaive.ntt_ct_std2rev_naive a (2 ^ k) p Q = Ok r /\ zlen r = 2 ^ k /\ all_in (- Q + 1) (Q - 1) r
    /\ forall j, 0 <= j < 2 ^ k ->
         eqQ (at_ r (bitrev k j)) (NTT (2 ^ k) omega (at_ a) j).
Proof. exact ntt_ct_std2rev_naive_correct_L. Qed.
Print Assumptions ntt_ct_std2rev_naive_correct.

Example ntt_ct_std2rev_naive_ex :
  let p := [0; 1; 1; 1479; 1; 1479; 4043; 7143] in
  let a := [1; -12288; 5; 0; 7777; 300; 2; 12000] in
  eqQ (4043 ^ (2 ^ (3 - 1))) (-1) /\ omega_table_rev 3 4043 1 p /\ all_in (- Q + 1) (Q - 1) a
  /\ ModelNaive.ntt_ct_std2rev_naive a 8 p Q = Ok [7797; 7773; -4427; 7680; -8099; 1421; 3577; -3425].
Proof.
  cbv zeta. split; [vm_compute; reflexivity|]. split; [check_table|].
  split; [check_all_in | vm_compute; reflexivity].
Qed.

(** C15 *)
Theorem ntt_gs_rev2std_naive_correct :
  forall k omega a p, 0 <= k <= 31 -> (0 < k -> eqQ (omega ^ (2 ^ (k - 1))) (-1)) ->
  omega_table_rev k omega 1 p -> (forall i, 1 <= i < 2 ^ k -> 0 <= at_ p i <= Q - 1) ->
  zlen a = 2 ^ k -> all_in (- Q + 1) (Q - 1) a ->
  exists r, ModelNaive.ntt_gs_rev2std_naive a (2 ^ k) p Q = Ok r /\ zlen r = 2 ^ k /\ all_in (- Q + 1) (Q - 1) r
    /\ forall j, 0 <= j < 2 ^ k ->
         eqQ (at_ r j) (NTT (2 ^ k) omega (fun i => at_ a (bitrev k i)) j).
Proof. exact ntt_gs_rev2std_naive_correct_L. Qed.
Print Assumptions ntt_gs_rev2std_naive_correct.

Example ntt_gs_rev2std_naive_ex :
  let p := [0; 1; 1; 1479; 1; 1479; 4043; 7143] in
  let a := [1; -12288; 5; 0; 7777; 300; 2; 12000] in
  eqQ (4043 ^ (2 ^ (3 - 1))) (-1) /\ omega_table_rev 3 4043 1 p /\ all_in (- Q + 1) (Q - 1) a
  /\ ModelNaive.ntt_gs_rev2std_naive a 8 p Q = Ok [-4492; 7738; -4670; 1880; -7783; 7052; 4664; -4381].
Proof.
  cbv zeta. split; [vm_compute; reflexivity|]. split; [check_table|].
  split; [check_all_in | vm_compute; reflexivity].
Qed.

(** C15 *)
Theorem ntt_gs_std2rev_naive_correct :
  forall k omega a p, 0 <= k <= 31 -> (0 < k -> eqQ (omega ^ (2 ^ (k - 1))) (-1)) ->
  omega_table k omega 1 p -> (forall i, 1 <= i < 2 ^ k -> 0 <= at_ p i <= Q - 1) ->
  zlen a = 2 ^ k -> all_in (- Q + 1) (Q - 1) a ->
  exists r, ModelNaive.ntt_gs_std2rev_naive a (2 ^ k) p Q = Ok r /\ zlen r = 2 ^ k /\ all_in (- Q + 1) (Q - 1) r
    /\ forall j, 0 <= j < 2 ^ k ->
         eqQ (at_ r (bitrev k j)) (NTT (2 ^ k) omega (at_ a) j).
Proof. exact ntt_gs_std2rev_naive_correct_L. Qed.
Print Assumptions ntt_gs_std2rev_naive_correct.

Example ntt_gs_std2rev_naive_ex :
  let p := [0; 1; 1; 1479; 1; 4043; 1479; 7143] in
  let a := [1; -12288; 5; 0; 7777; 300; 2; 12000] in
  eqQ (4043 ^ (2 ^ (3 - 1))) (-1) /\ omega_table 3 4043 1 p /\ all_in (- Q + 1) (Q - 1) a
  /\ ModelNaive.ntt_gs_std2rev_naive a 8 p Q = Ok [7797; 7773; -4427; 7680; -8099; 1421; -8712; -3425].
Proof.
  cbv zeta. split; [vm_compute; reflexivity|]. split; [check_table|].
  split; [check_all_in | vm_compute; reflexivity].
Qed.

(** C15 *)
Theorem mulntt_ct_rev2std_naive_correct :
  forall k psi a p, 0 <= k <= 31 -> eqQ (psi ^ (2 ^ k)) (-1) ->
  mixed_table k psi 1 p -> (forall i, 1 <= i < 2 ^ k -> 0 <= at_ p i <= Q - 1) ->
  zlen a = 2 ^ k -> all_in (- Q + 1) (Q - 1) a ->
  exists r, ModelNaive.mulntt_ct_rev2std_naive a (2 ^ k) p Q = Ok r /\ zlen r = 2 ^ k /\ all_in (- Q + 1) (Q - 1) r
    /\ forall j, 0 <= j < 2 ^ k ->
         eqQ (at_ r j) (NTT (2 ^ k) (psi ^ 2) (fun i => at_ a (bitrev k i) * psi ^ i) j).
Proof. exact mulntt_ct_rev2std_naive_correct_L. Qed.
Print Assumptions mulntt_ct_rev2std_naive_correct.

Example mulntt_ct_rev2std_naive_ex :
  let p := [0; 1479; 4043; 7143; 6553; 10984; 8155; 11567] in
  let a := [1; -12288; 5; 0; 7777; 300; 2; 12000] in
  eqQ (6553 ^ (2 ^ 3)) (-1) /\ mixed_table 3 6553 1 p /\ all_in (- Q + 1) (Q - 1) a
  /\ ModelNaive.mulntt_ct_rev2std_naive a 8 p Q = Ok [7728; -3627; -10570; 5211; -1205; 10656; 9967; -5863].
Proof.
  cbv zeta. split; [vm_compute; reflexivity|]. split; [check_table|].
  split; [check_all_in | vm_compute; reflexivity].
Qed.

(** C15 *)
Theorem mulntt_ct_std2rev_naive_correct :
  forall k psi a p, 0 <= k <= 31 -> eqQ (psi ^ (2 ^ k)) (-1) ->
  mixed_table_rev k psi 1 p -> (forall i, 1 <= i < 2 ^ k -> 0 <= at_ p i <= Q - 1) ->
  zlen a = 2 ^ k -> all_in (- Q + 1) (Q - 1) a ->
  exists r, ModelNaive.mulntt_ct_std2rev_naive a (2 ^ k) p Q = Ok r /\ zlen r = 2 ^ k /\ all_in (- Q + 1) (Q - 1) r
    /\ forall j, 0 <= j < 2 ^ k ->
         eqQ (at_ r (bitrev k j)) (NTT (2 ^ k) (psi ^ 2) (fun i => at_ a i * psi ^ i) j).
Proof. exact mulntt_ct_std2rev_naive_correct_L. Qed.
Print Assumptions mulntt_ct_std2rev_naive_correct.

Example mulntt_ct_std2rev_naive_ex :
  let p := [0; 1479; 4043; 7143; 6553; 8155; 10984; 11567] in
  let a := [1; -12288; 5; 0; 7777; 300; 2; 12000] in
  eqQ (6553 ^ (2 ^ 3)) (-1) /\ mixed_table_rev 3 6553 1 p /\ all_in (- Q + 1) (Q - 1) a
  /\ ModelNaive.mulntt_ct_std2rev_naive a 8 p Q = Ok [4601; -9973; -5562; 9654; -8247; 10470; 5392; -6327].
Proof.
  cbv zeta. split; [vm_compute; reflexivity|]. split; [check_table|].
  split; [check_all_in | vm_compute; reflexivity].
Qed.

(** C15 *)
Theorem nttmul_gs_rev2std_naive_correct :
  forall k psi a p, 0 <= k <= 31 -> eqQ (psi ^ (2 ^ k)) (-1) ->
  mixed_table_rev k psi 1 p -> (forall i, 1 <= i < 2 ^ k -> 0 <= at_ p i <= Q - 1) ->
  zlen a = 2 ^ k -> all_in (- Q + 1) (Q - 1) a ->
  exists r, ModelNaive.nttmul_gs_rev2std_naive a (2 ^ k) p Q = Ok r /\ zlen r = 2 ^ k /\ all_in (- Q + 1) (Q - 1) r
    /\ forall j, 0 <= j < 2 ^ k ->
         eqQ (at_ r j) (psi ^ j * NTT (2 ^ k) (psi ^ 2) (fun i => at_ a (bitrev k i)) j).
Proof. exact nttmul_gs_rev2std_naive_correct_L. Qed.
Print Assumptions nttmul_gs_rev2std_naive_correct.

Example nttmul_gs_rev2std_naive_ex :
  let p := [0; 1479; 4043; 7143; 6553; 8155; 10984; 11567] in
  let a := [1; -12288; 5; 0; 7777; 300; 2; 12000] in
  eqQ (6553 ^ (2 ^ 3)) (-1) /\ mixed_table_rev 3 6553 1 p /\ all_in (- Q + 1) (Q - 1) a
  /\ ModelNaive.nttmul_gs_rev2std_naive a 8 p Q = Ok [-4492; 2700; -4906; -7889; -8553; -3460; -527; -7480].
Proof.
  cbv zeta. split; [vm_compute; reflexivity|]. split; [check_table|].
  split; [check_all_in | vm_compute; reflexivity].
Qed.

(** C15 *)
Theorem nttmul_gs_std2rev_naive_correct :
  forall k psi a p, 0 <= k <= 31 -> eqQ (psi ^ (2 ^ k)) (-1) ->
  mixed_table k psi 1 p -> (forall i, 1 <= i < 2 ^ k -> 0 <= at_ p i <= Q - 1) ->
  zlen a = 2 ^ k -> all_in (- Q + 1) (Q - 1) a ->
  exists r, ModelNaive.nttmul_gs_std2rev_naive a (2 ^ k) p Q = Ok r /\ zlen r = 2 ^ k /\ all_in (- Q + 1) (Q - 1) r
    /\ forall j, 0 <= j < 2 ^ k ->
         eqQ (at_ r (bitrev k j)) (psi ^ j * NTT (2 ^ k) (psi ^ 2) (at_ a) j).
Proof. exact nttmul_gs_std2rev_naive_correct_L. Qed.
Print Assumptions nttmul_gs_std2rev_naive_correct.

Example nttmul_gs_std2rev_naive_ex :
  let p := [0; 1479; 4043; 7143; 6553; 10984; 8155; 11567] in
  let a := [1; -12288; 5; 0; 7777; 300; 2; 12000] in
  eqQ (6553 ^ (2 ^ 3)) (-1) /\ mixed_table 3 6553 1 p /\ all_in (- Q + 1) (Q - 1) a
  /\ ModelNaive.nttmul_gs_std2rev_naive a 8 p Q = Ok [7797; 6052; 6712; 144; 3444; 12017; 1835; -9528].
Proof.
  cbv zeta. split; [vm_compute; reflexivity|]. split; [check_table|].
  split; [check_all_in | vm_compute; reflexivity].
Qed.
