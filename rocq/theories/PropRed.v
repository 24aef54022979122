(** C16-C18: the transforms of src/ntt_red.c.

    In C16 the table holds the powers times inverse(3) = 8193, in [-6144, 6144],
    and |a[i]| <= 21499; in C17 the table is arbitrary in [-6144, 6144]. *)

From Coq Require Import ZArith List.
From Verif Require Import CSem Spec Exlib RedFinal.
From Verif Require ModelRed.
Import ListNotations.
Open Scope Z_scope.

(** C16 *)
Theorem ntt_red_ct_rev2std_correct :
  forall k omega a p, 0 <= k <= 12 -> (0 < k -> eqQ (omega ^ (2 ^ (k - 1))) (-1)) ->
  omega_table k omega 8193 p -> (forall i, 1 <= i < 2 ^ k -> -6144 <= at_ p i <= 6144) ->
  zlen a = 2 ^ k -> all_in (-21499) 21499 a ->
  exists r, ModelRed.ntt_red_ct_rev2std a (2 ^ k) p = Ok r /\ zlen r = 2 ^ k /\ all_in (- 2 ^ 31) (2 ^ 31 - 1) r
    /\ forall j, 0 <= j < 2 ^ k ->
         eqQ (at_ r j) (NTT (2 ^ k) omega (fun i => at_ a (bitrev k i)) j).
Proof. exact ntt_red_ct_rev2std_correct_L. Qed.
Print Assumptions ntt_red_ct_rev2std_correct.

Example ntt_red_ct_rev2std_ex :
  let p := [0; -4096; -4096; 493; -4096; 5444; 493; 2381] in
  let a := [1; -21499; 5; 0; 21499; 300; 2; -12000] in
  eqQ (4043 ^ (2 ^ (3 - 1))) (-1) /\ omega_table 3 4043 8193 p /\ all_in (-21499) 21499 a
  /\ ModelRed.ntt_red_ct_rev2std a 8 p = Ok [-11692; -1679; -15103; 8329; -31294; 59469; -27903; 19881].
Proof.
  cbv zeta. split; [vm_compute; reflexivity|]. split; [check_table|].
  split; [check_all_in | vm_compute; reflexivity].
Qed.

(** C16 *)
Theorem ntt_red_ct_std2rev_correct :
  forall k omega a p, 0 <= k <= 12 -> (0 < k -> eqQ (omega ^ (2 ^ (k - 1))) (-1)) ->
  omega_table_rev k omega 8193 p -> (forall i, 1 <= i < 2 ^ k -> -6144 <= at_ p i <= 6144) ->
  zlen a = 2 ^ k -> all_in (-21499) 21499 a ->
  exists r, ModelRed.ntt_red_ct_std2rev a (2 ^ k) p = Ok r /\ zlen r = 2 ^ k /\ all_in (- 2 ^ 31) (2 ^ 31 - 1) r
    /\ forall j, 0 <= j < 2 ^ k ->
         eqQ (at_ r (bitrev k j)) (NTT (2 ^ k) omega (at_ a) j).
Proof. exact ntt_red_ct_std2rev_correct_L. Qed.
Print Assumptions ntt_red_ct_std2rev_correct.

Example ntt_red_ct_std2rev_ex :
  let p := [0; -4096; -4096; 493; -4096; 493; 5444; 2381] in
  let a := [1; -21499; 5; 0; 21499; 300; 2; -12000] in
  eqQ (4043 ^ (2 ^ (3 - 1))) (-1) /\ omega_table_rev 3 4043 8193 p /\ all_in (-21499) 21499 a
  /\ ModelRed.ntt_red_ct_std2rev a 8 p = Ok [-11692; 54706; 32384; 10602; 11093; -45215; -10956; -40914].
Proof.
  cbv zeta. split; [vm_compute; reflexivity|]. split; [check_table|].
  split; [check_all_in | vm_compute; reflexivity].
Qed.

(** C16 *)
Theorem ntt_red_gs_rev2std_correct :
  forall k omega a p, 0 <= k <= 10 -> (0 < k -> eqQ (omega ^ (2 ^ (k - 1))) (-1)) ->
  omega_table_rev k omega 8193 p -> (forall i, 1 <= i < 2 ^ k -> -6144 <= at_ p i <= 6144) ->
  zlen a = 2 ^ k -> all_in (-21499) 21499 a ->
  exists r, ModelRed.ntt_red_gs_rev2std a (2 ^ k) p = Ok r /\ zlen r = 2 ^ k /\ all_in (- 2 ^ 31) (2 ^ 31 - 1) r
    /\ forall j, 0 <= j < 2 ^ k ->
         eqQ (at_ r j) (NTT (2 ^ k) omega (fun i => at_ a (bitrev k i)) j).
Proof. exact ntt_red_gs_rev2std_correct_L. Qed.
Print Assumptions ntt_red_gs_rev2std_correct.

Example ntt_red_gs_rev2std_ex :
  let p := [0; -4096; -4096; 493; -4096; 493; 5444; 2381] in
  let a := [1; -21499; 5; 0; 21499; 300; 2; -12000] in
  eqQ (4043 ^ (2 ^ (3 - 1))) (-1) /\ omega_table_rev 3 4043 8193 p /\ all_in (-21499) 21499 a
  /\ ModelRed.ntt_red_gs_rev2std a 8 p = Ok [-11692; 10610; -15103; 20618; -31294; 47180; -27903; 7592].
Proof.
  cbv zeta. split; [vm_compute; reflexivity|]. split; [check_table|].
  split; [check_all_in | vm_compute; reflexivity].
Qed.

(** C16 *)
Theorem ntt_red_gs_std2rev_correct :
  forall k omega a p, 0 <= k <= 10 -> (0 < k -> eqQ (omega ^ (2 ^ (k - 1))) (-1)) ->
  omega_table k omega 8193 p -> (forall i, 1 <= i < 2 ^ k -> -6144 <= at_ p i <= 6144) ->
  zlen a = 2 ^ k -> all_in (-21499) 21499 a ->
  exists r, ModelRed.ntt_red_gs_std2rev a (2 ^ k) p = Ok r /\ zlen r = 2 ^ k /\ all_in (- 2 ^ 31) (2 ^ 31 - 1) r
    /\ forall j, 0 <= j < 2 ^ k ->
         eqQ (at_ r (bitrev k j)) (NTT (2 ^ k) omega (at_ a) j).
Proof. exact ntt_red_gs_std2rev_correct_L. Qed.
Print Assumptions ntt_red_gs_std2rev_correct.

Example ntt_red_gs_std2rev_ex :
  let p := [0; -4096; -4096; 493; -4096; 5444; 493; 2381] in
  let a := [1; -21499; 5; 0; 21499; 300; 2; -12000] in
  eqQ (4043 ^ (2 ^ (3 - 1))) (-1) /\ omega_table 3 4043 8193 p /\ all_in (-21499) 21499 a
  /\ ModelRed.ntt_red_gs_std2rev a 8 p = Ok [-11692; 54706; 32384; 10602; 23382; -57504; -23245; -28625].
Proof.
  cbv zeta. split; [vm_compute; reflexivity|]. split; [check_table|].
  split; [check_all_in | vm_compute; reflexivity].
Qed.

(** C16 *)
Theorem mulntt_red_ct_rev2std_correct :
  forall k psi a p, 0 <= k <= 12 -> eqQ (psi ^ (2 ^ k)) (-1) ->
  mixed_table k psi 8193 p -> (forall i, 1 <= i < 2 ^ k -> -6144 <= at_ p i <= 6144) ->
  zlen a = 2 ^ k -> all_in (-21499) 21499 a ->
  exists r, ModelRed.mulntt_red_ct_rev2std a (2 ^ k) p = Ok r /\ zlen r = 2 ^ k /\ all_in (- 2 ^ 31) (2 ^ 31 - 1) r
    /\ forall j, 0 <= j < 2 ^ k ->
         eqQ (at_ r j) (NTT (2 ^ k) (psi ^ 2) (fun i => at_ a (bitrev k i) * psi ^ i) j).
Proof. exact mulntt_red_ct_rev2std_correct_L. Qed.
Print Assumptions mulntt_red_ct_rev2std_correct.

Example mulntt_red_ct_rev2std_ex :
  let p := [0; 493; 5444; 2381; -1912; -435; -1378; -4337] in
  let a := [1; -21499; 5; 0; 21499; 300; 2; -12000] in
  eqQ (6553 ^ (2 ^ 3)) (-1) /\ mixed_table 3 6553 8193 p /\ all_in (-21499) 21499 a
  /\ ModelRed.mulntt_red_ct_rev2std a 8 p = Ok [27612; 7996; 14055; -12238; 2064; 458; -16083; -23856].
Proof.
  cbv zeta. split; [vm_compute; reflexivity|]. split; [check_table|].
  split; [check_all_in | vm_compute; reflexivity].
Qed.

(** C16 *)
Theorem mulntt_red_ct_std2rev_correct :
  forall k psi a p, 0 <= k <= 12 -> eqQ (psi ^ (2 ^ k)) (-1) ->
  mixed_table_rev k psi 8193 p -> (forall i, 1 <= i < 2 ^ k -> -6144 <= at_ p i <= 6144) ->
  zlen a = 2 ^ k -> all_in (-21499) 21499 a ->
  exists r, ModelRed.mulntt_red_ct_std2rev a (2 ^ k) p = Ok r /\ zlen r = 2 ^ k /\ all_in (- 2 ^ 31) (2 ^ 31 - 1) r
    /\ forall j, 0 <= j < 2 ^ k ->
         eqQ (at_ r (bitrev k j)) (NTT (2 ^ k) (psi ^ 2) (fun i => at_ a i * psi ^ i) j).
Proof. exact mulntt_red_ct_std2rev_correct_L. Qed.
Print Assumptions mulntt_red_ct_std2rev_correct.

Example mulntt_red_ct_std2rev_ex :
  let p := [0; 493; 5444; 2381; -1912; -1378; -435; -4337] in
  let a := [1; -21499; 5; 0; 21499; 300; 2; -12000] in
  eqQ (6553 ^ (2 ^ 3)) (-1) /\ mixed_table_rev 3 6553 8193 p /\ all_in (-21499) 21499 a
  /\ ModelRed.mulntt_red_ct_std2rev a 8 p = Ok [-9883; 15909; 14717; 773; 6959; -3845; -44848; 20226].
Proof.
  cbv zeta. split; [vm_compute; reflexivity|]. split; [check_table|].
  split; [check_all_in | vm_compute; reflexivity].
Qed.

(** C16 *)
Theorem nttmul_red_gs_rev2std_correct :
  forall k psi a p, 0 <= k <= 10 -> eqQ (psi ^ (2 ^ k)) (-1) ->
  mixed_table_rev k psi 8193 p -> (forall i, 1 <= i < 2 ^ k -> -6144 <= at_ p i <= 6144) ->
  zlen a = 2 ^ k -> all_in (-21499) 21499 a ->
  exists r, ModelRed.nttmul_red_gs_rev2std a (2 ^ k) p = Ok r /\ zlen r = 2 ^ k /\ all_in (- 2 ^ 31) (2 ^ 31 - 1) r
    /\ forall j, 0 <= j < 2 ^ k ->
         eqQ (at_ r j) (psi ^ j * NTT (2 ^ k) (psi ^ 2) (fun i => at_ a (bitrev k i)) j).
Proof. exact nttmul_red_gs_rev2std_correct_L. Qed.
Print Assumptions nttmul_red_gs_rev2std_correct.

Example nttmul_red_gs_rev2std_ex :
  let p := [0; 493; 5444; 2381; -1912; -1378; -435; -4337] in
  let a := [1; -21499; 5; 0; 21499; 300; 2; -12000] in
  eqQ (6553 ^ (2 ^ 3)) (-1) /\ mixed_table_rev 3 6553 8193 p /\ all_in (-21499) 21499 a
  /\ ModelRed.nttmul_red_gs_rev2std a 8 p = Ok [-11692; 57613; 14901; 6420; 8837; 8888; 4162; 11759].
Proof.
  cbv zeta. split; [vm_compute; reflexivity|]. split; [check_table|].
  split; [check_all_in | vm_compute; reflexivity].
Qed.

(** C16 *)
Theorem nttmul_red_gs_std2rev_correct :
  forall k psi a p, 0 <= k <= 10 -> eqQ (psi ^ (2 ^ k)) (-1) ->
  mixed_table k psi 8193 p -> (forall i, 1 <= i < 2 ^ k -> -6144 <= at_ p i <= 6144) ->
  zlen a = 2 ^ k -> all_in (-21499) 21499 a ->
  exists r, ModelRed.nttmul_red_gs_std2rev a (2 ^ k) p = Ok r /\ zlen r = 2 ^ k /\ all_in (- 2 ^ 31) (2 ^ 31 - 1) r
    /\ forall j, 0 <= j < 2 ^ k ->
         eqQ (at_ r (bitrev k j)) (psi ^ j * NTT (2 ^ k) (psi ^ 2) (at_ a) j).
Proof. exact nttmul_red_gs_std2rev_correct_L. Qed.
Print Assumptions nttmul_red_gs_std2rev_correct.

Example nttmul_red_gs_std2rev_ex :
  let p := [0; 493; 5444; 2381; -1912; -435; -1378; -4337] in
  let a := [1; -21499; 5; 0; 21499; 300; 2; -12000] in
  eqQ (6553 ^ (2 ^ 3)) (-1) /\ mixed_table 3 6553 8193 p /\ all_in (-21499) 21499 a
  /\ ModelRed.nttmul_red_gs_std2rev a 8 p = Ok [-11692; -602; -10783; 5268; 27572; 3120; 54629; 9441].
Proof.
  cbv zeta. split; [vm_compute; reflexivity|]. split; [check_table|].
  split; [check_all_in | vm_compute; reflexivity].
Qed.

(** C17, n up to 4096 *)
Theorem ntt_red_ct_rev2std_safe :
  forall k a p, 0 <= k <= 12 -> zlen a = 2 ^ k -> zlen p = 2 ^ k ->
  all_in (-21499) 21499 a -> all_in (-6144) 6144 p ->
  exists r, ModelRed.ntt_red_ct_rev2std a (2 ^ k) p = Ok r /\ zlen r = 2 ^ k
    /\ all_in (- 2 ^ 31) (2 ^ 31 - 1) r.
Proof. exact ntt_red_ct_rev2std_safe_L. Qed.
Print Assumptions ntt_red_ct_rev2std_safe.

(** C17, n up to 4096 *)
Theorem ntt_red_ct_std2rev_safe :
  forall k a p, 0 <= k <= 12 -> zlen a = 2 ^ k -> zlen p = 2 ^ k ->
  all_in (-21499) 21499 a -> all_in (-6144) 6144 p ->
  exists r, ModelRed.ntt_red_ct_std2rev a (2 ^ k) p = Ok r /\ zlen r = 2 ^ k
    /\ all_in (- 2 ^ 31) (2 ^ 31 - 1) r.
Proof. exact ntt_red_ct_std2rev_safe_L. Qed.
Print Assumptions ntt_red_ct_std2rev_safe.

(** C17, n up to 4096 *)
Theorem mulntt_red_ct_rev2std_safe :
  forall k a p, 0 <= k <= 12 -> zlen a = 2 ^ k -> zlen p = 2 ^ k ->
  all_in (-21499) 21499 a -> all_in (-6144) 6144 p ->
  exists r, ModelRed.mulntt_red_ct_rev2std a (2 ^ k) p = Ok r /\ zlen r = 2 ^ k
    /\ all_in (- 2 ^ 31) (2 ^ 31 - 1) r.
Proof. exact mulntt_red_ct_rev2std_safe_L. Qed.
Print Assumptions mulntt_red_ct_rev2std_safe.

(** C17, n up to 4096 *)
Theorem mulntt_red_ct_std2rev_safe :
  forall k a p, 0 <= k <= 12 -> zlen a = 2 ^ k -> zlen p = 2 ^ k ->
  all_in (-21499) 21499 a -> all_in (-6144) 6144 p ->
  exists r, ModelRed.mulntt_red_ct_std2rev a (2 ^ k) p = Ok r /\ zlen r = 2 ^ k
    /\ all_in (- 2 ^ 31) (2 ^ 31 - 1) r.
Proof. exact mulntt_red_ct_std2rev_safe_L. Qed.
Print Assumptions mulntt_red_ct_std2rev_safe.

(** C17, n up to 1024 *)
Theorem ntt_red_gs_rev2std_safe :
  forall k a p, 0 <= k <= 10 -> zlen a = 2 ^ k -> zlen p = 2 ^ k ->
  all_in (-21499) 21499 a -> all_in (-6144) 6144 p ->
  exists r, ModelRed.ntt_red_gs_rev2std a (2 ^ k) p = Ok r /\ zlen r = 2 ^ k
    /\ all_in (- 2 ^ 31) (2 ^ 31 - 1) r.
Proof. exact ntt_red_gs_rev2std_safe_L. Qed.
Print Assumptions ntt_red_gs_rev2std_safe.

(** C17, n up to 1024 *)
Theorem ntt_red_gs_std2rev_safe :
  forall k a p, 0 <= k <= 10 -> zlen a = 2 ^ k -> zlen p = 2 ^ k ->
  all_in (-21499) 21499 a -> all_in (-6144) 6144 p ->
  exists r, ModelRed.ntt_red_gs_std2rev a (2 ^ k) p = Ok r /\ zlen r = 2 ^ k
    /\ all_in (- 2 ^ 31) (2 ^ 31 - 1) r.
Proof. exact ntt_red_gs_std2rev_safe_L. Qed.
Print Assumptions ntt_red_gs_std2rev_safe.

(** C17, n up to 1024 *)
Theorem nttmul_red_gs_rev2std_safe :
  forall k a p, 0 <= k <= 10 -> zlen a = 2 ^ k -> zlen p = 2 ^ k ->
  all_in (-21499) 21499 a -> all_in (-6144) 6144 p ->
  exists r, ModelRed.nttmul_red_gs_rev2std a (2 ^ k) p = Ok r /\ zlen r = 2 ^ k
    /\ all_in (- 2 ^ 31) (2 ^ 31 - 1) r.
Proof. exact nttmul_red_gs_rev2std_safe_L. Qed.
Print Assumptions nttmul_red_gs_rev2std_safe.

(** C17, n up to 1024 *)
Theorem nttmul_red_gs_std2rev_safe :
  forall k a p, 0 <= k <= 10 -> zlen a = 2 ^ k -> zlen p = 2 ^ k ->
  all_in (-21499) 21499 a -> all_in (-6144) 6144 p ->
  exists r, ModelRed.nttmul_red_gs_std2rev a (2 ^ k) p = Ok r /\ zlen r = 2 ^ k
    /\ all_in (- 2 ^ 31) (2 ^ 31 - 1) r.
Proof. exact nttmul_red_gs_std2rev_safe_L. Qed.
Print Assumptions nttmul_red_gs_std2rev_safe.

(** A table that is not made of powers of a root. *)
Example safe_ex :
  let a := [21499; -21499; -21499; 21499; -21499; 21499; 21499; -21499] in
  let p := [-6144; 6144; -6144; 6143; 1; 0; -6143; 5] in
  all_in (-21499) 21499 a /\ all_in (-6144) 6144 p
  /\ ModelRed.ntt_red_ct_rev2std a 8 p = Ok [0; 113599; 0; -19095; 0; 113599; 0; -36111]
  /\ ModelRed.nttmul_red_gs_std2rev a 8 p = Ok [0; 0; 0; 0; -46266; 87225; 111074; -123261].
Proof.
  cbv zeta. split; [check_all_in|]. split; [check_all_in|]. split; vm_compute; reflexivity.
Qed.

(** C18: overflow within the documented bounds *)
Theorem ntt_red_gs_rev2std_2048_refuted :
  exists a p, zlen a = 2048 /\ zlen p = 2048 /\ all_in (-21499) 21499 a /\ all_in (-6144) 6144 p
    /\ ModelRed.ntt_red_gs_rev2std a 2048 p = Err SignedOverflow.
Proof. exact ntt_red_gs_rev2std_2048_refuted_L. Qed.
Print Assumptions ntt_red_gs_rev2std_2048_refuted.

(** C18: overflow within the documented bounds *)
Theorem ntt_red_gs_std2rev_2048_refuted :
  exists a p, zlen a = 2048 /\ zlen p = 2048 /\ all_in (-21499) 21499 a /\ all_in (-6144) 6144 p
    /\ ModelRed.ntt_red_gs_std2rev a 2048 p = Err SignedOverflow.
Proof. exact ntt_red_gs_std2rev_2048_refuted_L. Qed.
Print Assumptions ntt_red_gs_std2rev_2048_refuted.

(** C18: overflow within the documented bounds *)
Theorem nttmul_red_gs_rev2std_2048_refuted :
  exists a p, zlen a = 2048 /\ zlen p = 2048 /\ all_in (-21499) 21499 a /\ all_in (-6144) 6144 p
    /\ ModelRed.nttmul_red_gs_rev2std a 2048 p = Err SignedOverflow.
Proof. exact nttmul_red_gs_rev2std_2048_refuted_L. Qed.
Print Assumptions nttmul_red_gs_rev2std_2048_refuted.

(** C18: overflow within the documented bounds *)
Theorem nttmul_red_gs_std2rev_2048_refuted :
  exists a p, zlen a = 2048 /\ zlen p = 2048 /\ all_in (-21499) 21499 a /\ all_in (-6144) 6144 p
    /\ ModelRed.nttmul_red_gs_std2rev a 2048 p = Err SignedOverflow.
Proof. exact nttmul_red_gs_std2rev_2048_refuted_L. Qed.
Print Assumptions nttmul_red_gs_std2rev_2048_refuted.
