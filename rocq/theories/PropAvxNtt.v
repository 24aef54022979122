(** The AVX2 transforms of src/ntt_asm.S (the model executes the routines instruction by
    instruction; see ModelAvx and AvxSem). *)

From Coq Require Import ZArith List Lia.
From Verif Require Import CSem Spec Exlib ModelAvx AvxNttFinal.
From Verif Require ModelRed.
Import ListNotations.
Open Scope Z_scope.

(** C48: whenever the C transform returns (no overflow), the AVX2 transform returns the same
    array, bit for bit.  The C code does not read the table entries 1, 2, 4, ... (it assumes they
    stand for a multiplication by 1); the AVX2 code reads some of them, so they must be
    inverse(3) = -4096. *)
Theorem ntt_asm_equals_c :
forall k a p, 4 <= k <= 31 -> zlen a = 2 ^ k -> 2 ^ k <= zlen p ->
  all_in (- 2 ^ 15) (2 ^ 15 - 1) p ->
  (forall c, 0 <= c < k -> at_ p (2 ^ c) = -4096) ->
  (forall r, ModelRed.ntt_red_ct_rev2std a (2 ^ k) p = Ok r -> ntt_red_ct_rev2std_asm a (2 ^ k) p = Ok r)
  /\ (forall r, ModelRed.ntt_red_ct_std2rev a (2 ^ k) p = Ok r -> ntt_red_ct_std2rev_asm a (2 ^ k) p = Ok r)
  /\ (forall r, ModelRed.ntt_red_gs_rev2std a (2 ^ k) p = Ok r -> ntt_red_gs_rev2std_asm a (2 ^ k) p = Ok r)
  /\ (forall r, ModelRed.ntt_red_gs_std2rev a (2 ^ k) p = Ok r -> ntt_red_gs_std2rev_asm a (2 ^ k) p = Ok r).
Proof. exact ntt_asm_equals_c_L. Qed.
Print Assumptions ntt_asm_equals_c.

(** C48: the same for the transforms combined with a multiplication; any table *)
Theorem mulntt_asm_equals_c :
forall k a p, 4 <= k <= 31 -> zlen a = 2 ^ k -> 2 ^ k <= zlen p ->
  all_in (- 2 ^ 15) (2 ^ 15 - 1) p ->
  (forall r, ModelRed.mulntt_red_ct_rev2std a (2 ^ k) p = Ok r -> mulntt_red_ct_rev2std_asm a (2 ^ k) p = Ok r)
  /\ (forall r, ModelRed.mulntt_red_ct_std2rev a (2 ^ k) p = Ok r -> mulntt_red_ct_std2rev_asm a (2 ^ k) p = Ok r)
  /\ (forall r, ModelRed.nttmul_red_gs_rev2std a (2 ^ k) p = Ok r -> nttmul_red_gs_rev2std_asm a (2 ^ k) p = Ok r)
  /\ (forall r, ModelRed.nttmul_red_gs_std2rev a (2 ^ k) p = Ok r -> nttmul_red_gs_std2rev_asm a (2 ^ k) p = Ok r).
Proof. exact mulntt_asm_equals_c_L. Qed.
Print Assumptions mulntt_asm_equals_c.

(** C48: for every array and every int16 table the AVX2 transform returns an array of the same
    length: no load or store is outside the two arrays *)
Theorem mulntt_asm_in_bounds :
forall k a p, 4 <= k <= 31 -> zlen a = 2 ^ k -> 2 ^ k <= zlen p ->
  all_in (- 2 ^ 15) (2 ^ 15 - 1) p ->
  (exists r, mulntt_red_ct_rev2std_asm a (2 ^ k) p = Ok r /\ zlen r = 2 ^ k)
  /\ (exists r, mulntt_red_ct_std2rev_asm a (2 ^ k) p = Ok r /\ zlen r = 2 ^ k)
  /\ (exists r, nttmul_red_gs_rev2std_asm a (2 ^ k) p = Ok r /\ zlen r = 2 ^ k)
  /\ (exists r, nttmul_red_gs_std2rev_asm a (2 ^ k) p = Ok r /\ zlen r = 2 ^ k).
Proof. exact mulntt_asm_in_bounds_L. Qed.
Print Assumptions mulntt_asm_in_bounds.

(** C48 *)
Theorem ntt_asm_in_bounds :
forall k a p, 4 <= k <= 31 -> zlen a = 2 ^ k -> 2 ^ k <= zlen p ->
  all_in (- 2 ^ 15) (2 ^ 15 - 1) p ->
  (forall c, 0 <= c < k -> at_ p (2 ^ c) = -4096) ->
  (exists r, ntt_red_ct_rev2std_asm a (2 ^ k) p = Ok r /\ zlen r = 2 ^ k)
  /\ (exists r, ntt_red_ct_std2rev_asm a (2 ^ k) p = Ok r /\ zlen r = 2 ^ k)
  /\ (exists r, ntt_red_gs_rev2std_asm a (2 ^ k) p = Ok r /\ zlen r = 2 ^ k)
  /\ (exists r, ntt_red_gs_std2rev_asm a (2 ^ k) p = Ok r /\ zlen r = 2 ^ k).
Proof. exact ntt_asm_in_bounds_L. Qed.
Print Assumptions ntt_asm_in_bounds.

Example ntt_asm_equals_c_ex :
  zlen ex_a16 = 2 ^ 4 /\ zlen ex_w16 = 2 ^ 4 /\ all_in (- 2 ^ 15) (2 ^ 15 - 1) ex_w16
  /\ (forall c, 0 <= c < 4 -> at_ ex_w16 (2 ^ c) = -4096)
  /\ ModelRed.ntt_red_ct_rev2std ex_a16 16 ex_w16 = Ok [-11657; 14350; -11843; 16297; -19354; 67144; -15565;
       12125; -11727; -17708; -18363; 361; -43234; 51794; -40241; 27637]
  /\ ntt_red_gs_std2rev_asm ex_a16 16 ex_w16 = Ok [-11657; 66969; 21844; 8828; 27692; -45966; -27441; -40205;
       27170; 31772; -3111; -18423; 16224; -10436; -13093; -30151]
  /\ mulntt_red_ct_rev2std_asm ex_a16 16 ex_m16 = Ok [28198; 9034; 25450; 3820; 11943; 15609; -9614; -10251;
       27026; 6958; 2660; -28296; -7815; -14693; -22552; -37461]
  /\ ModelRed.nttmul_red_gs_std2rev ex_a16 16 ex_m16 = Ok [-11657; -2189; -5751; 15834; 43169; 10926; 37226; 1392;
       93832; 5272; -51312; 12374; 2044; 4320; 25787; 1779].
Proof.
  split; [reflexivity|]. split; [reflexivity|]. split; [check_all_in|].
  split; [|repeat split; vm_compute; reflexivity].
  intros c Hc. assert (H : c = 0 \/ c = 1 \/ c = 2 \/ c = 3) by lia.
  destruct H as [->|[->|[->| ->]]]; reflexivity.
Qed.

(** The hypothesis on the entries 1, 2, 4, ... is needed: with -4095 in place of -4096 in
    entry 4 the two versions differ. *)
Example ntt_asm_unit_entries_needed :
  let p := [0; -4096; -4096; 493; -4095; 5444; 493; 2381; -4096; -1912; 5444; -435; 493; -1378; 2381; -4337] in
  ntt_red_ct_rev2std_asm ex_a16 16 p <> ModelRed.ntt_red_ct_rev2std ex_a16 16 p.
Proof. vm_compute. discriminate. Qed.

(** C49 *)
Theorem ntt_red_ct_rev2std_asm_correct :
forall k omega a p, 4 <= k <= 10 -> (0 < k -> eqQ (omega ^ (2 ^ (k - 1))) (-1)) ->
  omega_table k omega 8193 p -> (forall i, 1 <= i < 2 ^ k -> -6144 <= at_ p i <= 6144) ->
  all_in (- 2 ^ 15) (2 ^ 15 - 1) p -> zlen a = 2 ^ k -> all_in (-21499) 21499 a ->
  exists r, ntt_red_ct_rev2std_asm a (2 ^ k) p = Ok r /\ zlen r = 2 ^ k /\ all_in (- 2 ^ 31) (2 ^ 31 - 1) r
    /\ forall j, 0 <= j < 2 ^ k ->
         eqQ (at_ r j) (NTT (2 ^ k) omega (fun i => at_ a (bitrev k i)) j).
Proof. exact ntt_red_ct_rev2std_asm_correct_L. Qed.
Print Assumptions ntt_red_ct_rev2std_asm_correct.

(** C49 *)
Theorem ntt_red_ct_std2rev_asm_correct :
forall k omega a p, 4 <= k <= 10 -> (0 < k -> eqQ (omega ^ (2 ^ (k - 1))) (-1)) ->
  omega_table_rev k omega 8193 p -> (forall i, 1 <= i < 2 ^ k -> -6144 <= at_ p i <= 6144) ->
  all_in (- 2 ^ 15) (2 ^ 15 - 1) p -> zlen a = 2 ^ k -> all_in (-21499) 21499 a ->
  exists r, ntt_red_ct_std2rev_asm a (2 ^ k) p = Ok r /\ zlen r = 2 ^ k /\ all_in (- 2 ^ 31) (2 ^ 31 - 1) r
    /\ forall j, 0 <= j < 2 ^ k ->
         eqQ (at_ r (bitrev k j)) (NTT (2 ^ k) omega (at_ a) j).
Proof. exact ntt_red_ct_std2rev_asm_correct_L. Qed.
Print Assumptions ntt_red_ct_std2rev_asm_correct.

(** C49 *)
Theorem ntt_red_gs_rev2std_asm_correct :
forall k omega a p, 4 <= k <= 10 -> (0 < k -> eqQ (omega ^ (2 ^ (k - 1))) (-1)) ->
  omega_table_rev k omega 8193 p -> (forall i, 1 <= i < 2 ^ k -> -6144 <= at_ p i <= 6144) ->
  all_in (- 2 ^ 15) (2 ^ 15 - 1) p -> zlen a = 2 ^ k -> all_in (-21499) 21499 a ->
  exists r, ntt_red_gs_rev2std_asm a (2 ^ k) p = Ok r /\ zlen r = 2 ^ k /\ all_in (- 2 ^ 31) (2 ^ 31 - 1) r
    /\ forall j, 0 <= j < 2 ^ k ->
         eqQ (at_ r j) (NTT (2 ^ k) omega (fun i => at_ a (bitrev k i)) j).
Proof. exact ntt_red_gs_rev2std_asm_correct_L. Qed.
Print Assumptions ntt_red_gs_rev2std_asm_correct.

(** C49 *)
Theorem ntt_red_gs_std2rev_asm_correct :
forall k omega a p, 4 <= k <= 10 -> (0 < k -> eqQ (omega ^ (2 ^ (k - 1))) (-1)) ->
  omega_table k omega 8193 p -> (forall i, 1 <= i < 2 ^ k -> -6144 <= at_ p i <= 6144) ->
  all_in (- 2 ^ 15) (2 ^ 15 - 1) p -> zlen a = 2 ^ k -> all_in (-21499) 21499 a ->
  exists r, ntt_red_gs_std2rev_asm a (2 ^ k) p = Ok r /\ zlen r = 2 ^ k /\ all_in (- 2 ^ 31) (2 ^ 31 - 1) r
    /\ forall j, 0 <= j < 2 ^ k ->
         eqQ (at_ r (bitrev k j)) (NTT (2 ^ k) omega (at_ a) j).
Proof. exact ntt_red_gs_std2rev_asm_correct_L. Qed.
Print Assumptions ntt_red_gs_std2rev_asm_correct.

(** C49 *)
Theorem mulntt_red_ct_rev2std_asm_correct :
forall k psi a p, 4 <= k <= 10 -> eqQ (psi ^ (2 ^ k)) (-1) ->
  mixed_table k psi 8193 p -> (forall i, 1 <= i < 2 ^ k -> -6144 <= at_ p i <= 6144) ->
  all_in (- 2 ^ 15) (2 ^ 15 - 1) p -> zlen a = 2 ^ k -> all_in (-21499) 21499 a ->
  exists r, mulntt_red_ct_rev2std_asm a (2 ^ k) p = Ok r /\ zlen r = 2 ^ k /\ all_in (- 2 ^ 31) (2 ^ 31 - 1) r
    /\ forall j, 0 <= j < 2 ^ k ->
         eqQ (at_ r j) (NTT (2 ^ k) (psi ^ 2) (fun i => at_ a (bitrev k i) * psi ^ i) j).
Proof. exact mulntt_red_ct_rev2std_asm_correct_L. Qed.
Print Assumptions mulntt_red_ct_rev2std_asm_correct.

(** C49 *)
Theorem mulntt_red_ct_std2rev_asm_correct :
forall k psi a p, 4 <= k <= 10 -> eqQ (psi ^ (2 ^ k)) (-1) ->
  mixed_table_rev k psi 8193 p -> (forall i, 1 <= i < 2 ^ k -> -6144 <= at_ p i <= 6144) ->
  all_in (- 2 ^ 15) (2 ^ 15 - 1) p -> zlen a = 2 ^ k -> all_in (-21499) 21499 a ->
  exists r, mulntt_red_ct_std2rev_asm a (2 ^ k) p = Ok r /\ zlen r = 2 ^ k /\ all_in (- 2 ^ 31) (2 ^ 31 - 1) r
    /\ forall j, 0 <= j < 2 ^ k ->
         eqQ (at_ r (bitrev k j)) (NTT (2 ^ k) (psi ^ 2) (fun i => at_ a i * psi ^ i) j).
Proof. exact mulntt_red_ct_std2rev_asm_correct_L. Qed.
Print Assumptions mulntt_red_ct_std2rev_asm_correct.

(** C49 *)
Theorem nttmul_red_gs_rev2std_asm_correct :
forall k psi a p, 4 <= k <= 10 -> eqQ (psi ^ (2 ^ k)) (-1) ->
  mixed_table_rev k psi 8193 p -> (forall i, 1 <= i < 2 ^ k -> -6144 <= at_ p i <= 6144) ->
  all_in (- 2 ^ 15) (2 ^ 15 - 1) p -> zlen a = 2 ^ k -> all_in (-21499) 21499 a ->
  exists r, nttmul_red_gs_rev2std_asm a (2 ^ k) p = Ok r /\ zlen r = 2 ^ k /\ all_in (- 2 ^ 31) (2 ^ 31 - 1) r
    /\ forall j, 0 <= j < 2 ^ k ->
         eqQ (at_ r j) (psi ^ j * NTT (2 ^ k) (psi ^ 2) (fun i => at_ a (bitrev k i)) j).
Proof. exact nttmul_red_gs_rev2std_asm_correct_L. Qed.
Print Assumptions nttmul_red_gs_rev2std_asm_correct.

(** C49 *)
Theorem nttmul_red_gs_std2rev_asm_correct :
forall k psi a p, 4 <= k <= 10 -> eqQ (psi ^ (2 ^ k)) (-1) ->
  mixed_table k psi 8193 p -> (forall i, 1 <= i < 2 ^ k -> -6144 <= at_ p i <= 6144) ->
  all_in (- 2 ^ 15) (2 ^ 15 - 1) p -> zlen a = 2 ^ k -> all_in (-21499) 21499 a ->
  exists r, nttmul_red_gs_std2rev_asm a (2 ^ k) p = Ok r /\ zlen r = 2 ^ k /\ all_in (- 2 ^ 31) (2 ^ 31 - 1) r
    /\ forall j, 0 <= j < 2 ^ k ->
         eqQ (at_ r (bitrev k j)) (psi ^ j * NTT (2 ^ k) (psi ^ 2) (at_ a) j).
Proof. exact nttmul_red_gs_std2rev_asm_correct_L. Qed.
Print Assumptions nttmul_red_gs_std2rev_asm_correct.

Example ntt_red_asm_ex :
  eqQ (6553 ^ (2 ^ (4 - 1))) (-1) /\ omega_table 4 6553 8193 ex_w16 /\ all_in (-21499) 21499 ex_a16
  /\ all_in (-6144) 6144 ex_w16
  /\ eqQ (1212 ^ (2 ^ 4)) (-1) /\ mixed_table 4 1212 8193 ex_m16 /\ all_in (-6144) 6144 ex_m16
  /\ omega_table_rev 4 6553 8193 ex_w16r /\ all_in (-6144) 6144 ex_w16r
  /\ mixed_table_rev 4 1212 8193 ex_m16r /\ all_in (-6144) 6144 ex_m16r.
Proof.
  split; [vm_compute; reflexivity|]. split; [check_table|]. split; [check_all_in|]. split; [check_all_in|].
  split; [vm_compute; reflexivity|]. split; [check_table|]. split; [check_all_in|].
  split; [check_table|]. split; [check_all_in|]. split; [check_table|check_all_in].
Qed.
