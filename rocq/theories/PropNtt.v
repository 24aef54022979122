(** C11-C14: the transforms of src/ntt.c.

    [a] has [n = 2^k] elements.  [NTT n w x j] is the sum of [x_i w^(ij)], and
    [eqQ] is congruence modulo Q; with all elements in [0, Q-1] this determines
    the result.  [omega_table], [mixed_table] and their bit-reversed forms are
    the contracts of the headers for the constant table (entry 0 is free). *)

From Coq Require Import ZArith List.
From Verif Require Import CSem Spec Exlib NttFinal.
From Verif Require ModelNtt.
Import ListNotations.
Open Scope Z_scope.

(** C11 *)
Theorem ntt_ct_rev2std_correct :
  forall k omega a p, 0 <= k <= 31 -> (0 < k -> eqQ (omega ^ (2 ^ (k - 1))) (-1)) ->
  omega_table k omega 1 p -> (forall i, 1 <= i < 2 ^ k -> 0 <= at_ p i <= Q - 1) ->
  zlen a = 2 ^ k -> all_in 0 (Q - 1) a ->
  exists r, ModelNtt.ntt_ct_rev2std a (2 ^ k) p = Ok r /\ zlen r = 2 ^ k /\ all_in 0 (Q - 1) r
    /\ forall j, 0 <= j < 2 ^ k ->
         eqQ (at_ r j) (NTT (2 ^ k) omega (fun i => at_ a (bitrev k i)) j).
Proof. exact ntt_ct_rev2std_correct_L. Qed.
Print Assumptions ntt_ct_rev2std_correct.

Example ntt_ct_rev2std_ex :
  let p := [0; 1; 1; 1479; 1; 4043; 1479; 7143] in
  let a := [1; 12288; 5; 0; 7777; 300; 2; 12000] in
  eqQ (4043 ^ (2 ^ (3 - 1))) (-1) /\ omega_table 3 4043 1 p /\ all_in 0 (Q - 1) a
  /\ ModelNtt.ntt_ct_rev2std a 8 p = Ok [7795; 7740; 7617; 1882; 4504; 7054; 4662; 7910].
Proof.
  cbv zeta. split; [vm_compute; reflexivity|]. split; [check_table|].
  split; [check_all_in | vm_compute; reflexivity].
Qed.

(** C12 *)
Theorem ntt_ct_std2rev_correct :
  forall k omega a p, 0 <= k <= 31 -> (0 < k -> eqQ (omega ^ (2 ^ (k - 1))) (-1)) ->
  omega_table_rev k omega 1 p -> (forall i, 1 <= i < 2 ^ k -> 0 <= at_ p i <= Q - 1) ->
  zlen a = 2 ^ k -> all_in 0 (Q - 1) a ->
  exists r, ModelNtt.ntt_ct_std2rev a (2 ^ k) p = Ok r /\ zlen r = 2 ^ k /\ all_in 0 (Q - 1) r
    /\ forall j, 0 <= j < 2 ^ k ->
         eqQ (at_ r (bitrev k j)) (NTT (2 ^ k) omega (at_ a) j).
Proof. exact ntt_ct_std2rev_correct_L. Qed.
Print Assumptions ntt_ct_std2rev_correct.

Example ntt_ct_std2rev_ex :
  let p := [0; 1; 1; 1479; 1; 1479; 4043; 7143] in
  let a := [1; 12288; 5; 0; 7777; 300; 2; 12000] in
  eqQ (4043 ^ (2 ^ (3 - 1))) (-1) /\ omega_table_rev 3 4043 1 p /\ all_in 0 (Q - 1) a
  /\ ModelNtt.ntt_ct_std2rev a 8 p = Ok [7795; 7775; 4904; 10638; 8393; 9507; 1580; 10861].
Proof.
  cbv zeta. split; [vm_compute; reflexivity|]. split; [check_table|].
  split; [check_all_in | vm_compute; reflexivity].
Qed.

(** C13 *)
Theorem ntt_gs_rev2std_correct :
  forall k omega a p, 0 <= k <= 31 -> (0 < k -> eqQ (omega ^ (2 ^ (k - 1))) (-1)) ->
  omega_table_rev k omega 1 p -> (forall i, 1 <= i < 2 ^ k -> 0 <= at_ p i <= Q - 1) ->
  zlen a = 2 ^ k -> all_in 0 (Q - 1) a ->
  exists r, ModelNtt.ntt_gs_rev2std a (2 ^ k) p = Ok r /\ zlen r = 2 ^ k /\ all_in 0 (Q - 1) r
    /\ forall j, 0 <= j < 2 ^ k ->
         eqQ (at_ r j) (NTT (2 ^ k) omega (fun i => at_ a (bitrev k i)) j).
Proof. exact ntt_gs_rev2std_correct_L. Qed.
Print Assumptions ntt_gs_rev2std_correct.

Example ntt_gs_rev2std_ex :
  let p := [0; 1; 1; 1479; 1; 1479; 4043; 7143] in
  let a := [1; 12288; 5; 0; 7777; 300; 2; 12000] in
  eqQ (4043 ^ (2 ^ (3 - 1))) (-1) /\ omega_table_rev 3 4043 1 p /\ all_in 0 (Q - 1) a
  /\ ModelNtt.ntt_gs_rev2std a 8 p = Ok [7795; 7740; 7617; 1882; 4504; 7054; 4662; 7910].
Proof.
  cbv zeta. split; [vm_compute; reflexivity|]. split; [check_table|].
  split; [check_all_in | vm_compute; reflexivity].
Qed.

(** C13 *)
Theorem ntt_gs_std2rev_correct :
  forall k omega a p, 0 <= k <= 31 -> (0 < k -> eqQ (omega ^ (2 ^ (k - 1))) (-1)) ->
  omega_table k omega 1 p -> (forall i, 1 <= i < 2 ^ k -> 0 <= at_ p i <= Q - 1) ->
  zlen a = 2 ^ k -> all_in 0 (Q - 1) a ->
  exists r, ModelNtt.ntt_gs_std2rev a (2 ^ k) p = Ok r /\ zlen r = 2 ^ k /\ all_in 0 (Q - 1) r
    /\ forall j, 0 <= j < 2 ^ k ->
         eqQ (at_ r (bitrev k j)) (NTT (2 ^ k) omega (at_ a) j).
Proof. exact ntt_gs_std2rev_correct_L. Qed.
Print Assumptions ntt_gs_std2rev_correct.

Example ntt_gs_std2rev_ex :
  let p := [0; 1; 1; 1479; 1; 4043; 1479; 7143] in
  let a := [1; 12288; 5; 0; 7777; 300; 2; 12000] in
  eqQ (4043 ^ (2 ^ (3 - 1))) (-1) /\ omega_table 3 4043 1 p /\ all_in 0 (Q - 1) a
  /\ ModelNtt.ntt_gs_std2rev a 8 p = Ok [7795; 7775; 4904; 10638; 8393; 9507; 1580; 10861].
Proof.
  cbv zeta. split; [vm_compute; reflexivity|]. split; [check_table|].
  split; [check_all_in | vm_compute; reflexivity].
Qed.

(** C14 *)
Theorem mulntt_ct_rev2std_correct :
  forall k psi a p, 0 <= k <= 31 -> eqQ (psi ^ (2 ^ k)) (-1) ->
  mixed_table k psi 1 p -> (forall i, 1 <= i < 2 ^ k -> 0 <= at_ p i <= Q - 1) ->
  zlen a = 2 ^ k -> all_in 0 (Q - 1) a ->
  exists r, ModelNtt.mulntt_ct_rev2std a (2 ^ k) p = Ok r /\ zlen r = 2 ^ k /\ all_in 0 (Q - 1) r
    /\ forall j, 0 <= j < 2 ^ k ->
         eqQ (at_ r j) (NTT (2 ^ k) (psi ^ 2) (fun i => at_ a (bitrev k i) * psi ^ i) j).
Proof. exact mulntt_ct_rev2std_correct_L. Qed.
Print Assumptions mulntt_ct_rev2std_correct.

Example mulntt_ct_rev2std_ex :
  let p := [0; 1479; 4043; 7143; 6553; 10984; 8155; 11567] in
  let a := [1; 12288; 5; 0; 7777; 300; 2; 12000] in
  eqQ (6553 ^ (2 ^ 3)) (-1) /\ mixed_table 3 6553 1 p /\ all_in 0 (Q - 1) a
  /\ ModelNtt.mulntt_ct_rev2std a 8 p = Ok [4770; 11620; 11050; 8169; 8126; 1325; 7009; 9384].
Proof.
  cbv zeta. split; [vm_compute; reflexivity|]. split; [check_table|].
  split; [check_all_in | vm_compute; reflexivity].
Qed.

(** C14 *)
Theorem mulntt_ct_std2rev_correct :
  forall k psi a p, 0 <= k <= 31 -> eqQ (psi ^ (2 ^ k)) (-1) ->
  mixed_table_rev k psi 1 p -> (forall i, 1 <= i < 2 ^ k -> 0 <= at_ p i <= Q - 1) ->
  zlen a = 2 ^ k -> all_in 0 (Q - 1) a ->
  exists r, ModelNtt.mulntt_ct_std2rev a (2 ^ k) p = Ok r /\ zlen r = 2 ^ k /\ all_in 0 (Q - 1) r
    /\ forall j, 0 <= j < 2 ^ k ->
         eqQ (at_ r (bitrev k j)) (NTT (2 ^ k) (psi ^ 2) (fun i => at_ a i * psi ^ i) j).
Proof. exact mulntt_ct_std2rev_correct_L. Qed.
Print Assumptions mulntt_ct_std2rev_correct.

Example mulntt_ct_std2rev_ex :
  let p := [0; 1479; 4043; 7143; 6553; 8155; 10984; 11567] in
  let a := [1; 12288; 5; 0; 7777; 300; 2; 12000] in
  eqQ (6553 ^ (2 ^ 3)) (-1) /\ mixed_table_rev 3 6553 1 p /\ all_in 0 (Q - 1) a
  /\ ModelNtt.mulntt_ct_std2rev a 8 p = Ok [3784; 3133; 2706; 1386; 6652; 7860; 6836; 4518].
Proof.
  cbv zeta. split; [vm_compute; reflexivity|]. split; [check_table|].
  split; [check_all_in | vm_compute; reflexivity].
Qed.

(** C14 *)
Theorem nttmul_gs_rev2std_correct :
  forall k psi a p, 0 <= k <= 31 -> eqQ (psi ^ (2 ^ k)) (-1) ->
  mixed_table_rev k psi 1 p -> (forall i, 1 <= i < 2 ^ k -> 0 <= at_ p i <= Q - 1) ->
  zlen a = 2 ^ k -> all_in 0 (Q - 1) a ->
  exists r, ModelNtt.nttmul_gs_rev2std a (2 ^ k) p = Ok r /\ zlen r = 2 ^ k /\ all_in 0 (Q - 1) r
    /\ forall j, 0 <= j < 2 ^ k ->
         eqQ (at_ r j) (psi ^ j * NTT (2 ^ k) (psi ^ 2) (fun i => at_ a (bitrev k i)) j).
Proof. exact nttmul_gs_rev2std_correct_L. Qed.
Print Assumptions nttmul_gs_rev2std_correct.

Example nttmul_gs_rev2std_ex :
  let p := [0; 1479; 4043; 7143; 6553; 8155; 10984; 11567] in
  let a := [1; 12288; 5; 0; 7777; 300; 2; 12000] in
  eqQ (6553 ^ (2 ^ 3)) (-1) /\ mixed_table_rev 3 6553 1 p /\ all_in 0 (Q - 1) a
  /\ ModelNtt.nttmul_gs_rev2std a 8 p = Ok [7795; 3517; 11586; 1790; 778; 561; 9765; 3365].
Proof.
  cbv zeta. split; [vm_compute; reflexivity|]. split; [check_table|].
  split; [check_all_in | vm_compute; reflexivity].
Qed.

(** C14 *)
Theorem nttmul_gs_std2rev_correct :
  forall k psi a p, 0 <= k <= 31 -> eqQ (psi ^ (2 ^ k)) (-1) ->
  mixed_table k psi 1 p -> (forall i, 1 <= i < 2 ^ k -> 0 <= at_ p i <= Q - 1) ->
  zlen a = 2 ^ k -> all_in 0 (Q - 1) a ->
  exists r, ModelNtt.nttmul_gs_std2rev a (2 ^ k) p = Ok r /\ zlen r = 2 ^ k /\ all_in 0 (Q - 1) r
    /\ forall j, 0 <= j < 2 ^ k ->
         eqQ (at_ r (bitrev k j)) (psi ^ j * NTT (2 ^ k) (psi ^ 2) (at_ a) j).
Proof. exact nttmul_gs_std2rev_correct_L. Qed.
Print Assumptions nttmul_gs_std2rev_correct.

Example nttmul_gs_std2rev_ex :
  let p := [0; 1479; 4043; 7143; 6553; 10984; 8155; 11567] in
  let a := [1; 12288; 5; 0; 7777; 300; 2; 12000] in
  eqQ (6553 ^ (2 ^ 3)) (-1) /\ mixed_table 3 6553 1 p /\ all_in 0 (Q - 1) a
  /\ ModelNtt.nttmul_gs_std2rev a 8 p = Ok [7795; 9010; 4715; 4347; 6054; 10573; 2652; 11029].
Proof.
  cbv zeta. split; [vm_compute; reflexivity|]. split; [check_table|].
  split; [check_all_in | vm_compute; reflexivity].
Qed.

(** C11, the version that reads a table of powers of psi *)
Theorem ntt_ct_rev2std_v1_correct :
  forall k psi a p, 0 <= k <= 31 -> eqQ (psi ^ (2 ^ k)) (-1) ->
  zlen p = 2 ^ k ->
  (forall i, 0 <= i < 2 ^ k -> 0 <= at_ p i <= Q - 1 /\ eqQ (at_ p i) (psi ^ i)) ->
  zlen a = 2 ^ k -> all_in 0 (Q - 1) a ->
  exists r, ModelNtt.ntt_ct_rev2std_v1 a (2 ^ k) p = Ok r /\ zlen r = 2 ^ k /\ all_in 0 (Q - 1) r
    /\ forall j, 0 <= j < 2 ^ k ->
         eqQ (at_ r j) (NTT (2 ^ k) (psi ^ 2) (fun i => at_ a (bitrev k i)) j).
Proof. exact ntt_ct_rev2std_v1_correct_L. Qed.
Print Assumptions ntt_ct_rev2std_v1_correct.

Example ntt_ct_rev2std_v1_ex :
  let p := [1; 6553; 4043; 10984; 1479; 8155; 7143; 11567] in
  let a := [1; 12288; 5; 0; 7777; 300; 2; 12000] in
  eqQ (6553 ^ 8) (-1) /\ ModelNtt.ntt_ct_rev2std_v1 a 8 p
    = ModelNtt.ntt_ct_rev2std a 8 [0; 1; 1; 1479; 1; 4043; 1479; 7143].
Proof. vm_compute. auto. Qed.
