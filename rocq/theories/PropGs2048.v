(** C78: the Gentleman-Sande transforms of src/ntt_red.c on inputs from any
    interval, in particular on canonical inputs at n = 2048, whatever the table. *)

From Coq Require Import ZArith List Lia.
From Verif Require Import CSem Spec Exlib Gs2048Final.
From Verif Require ModelRed.
Import ListNotations.
Open Scope Z_scope.

(** C78: the four transforms do not overflow, and how large the result can be *)
Theorem gs_interval_safe :
  forall k lo hi a, 1 <= k <= 31 -> lo <= hi -> - lo <= 3 * hi -> hi <= 24570 - 3 * lo ->
  3 ^ k * (2 * (hi - lo) + 12285) <= 2 ^ 33 - 24576 ->
  zlen a = 2 ^ k -> all_in lo hi a ->
  forall p, zlen p = 2 ^ k -> all_in (-6144) 6144 p ->
  let ok m := exists r, m = Ok r /\ zlen r = 2 ^ k /\ all_in (- 2 ^ 31) (2 ^ 31 - 1) r
    /\ forall v, In v r -> 4 * Z.abs v <= 3 ^ k * (2 * (hi - lo) + 12285) + 24576 in
  ok (ModelRed.ntt_red_gs_rev2std a (2 ^ k) p) /\ ok (ModelRed.ntt_red_gs_std2rev a (2 ^ k) p)
  /\ ok (ModelRed.nttmul_red_gs_rev2std a (2 ^ k) p) /\ ok (ModelRed.nttmul_red_gs_std2rev a (2 ^ k) p).
Proof. exact safe_interval_L. Qed.
Print Assumptions gs_interval_safe.

(** The intervals meant: 0 .. Q-1 and its centred form up to n = 2048, and three
    times the documented range, or 0 .. 24570, up to n = 512. *)
Example gs_interval_safe_ex :
  3 ^ 11 * (2 * (12288 - 0) + 12285) <= 2 ^ 33 - 24576
  /\ 3 ^ 11 * (2 * (6144 - -6144) + 12285) <= 2 ^ 33 - 24576
  /\ 3 ^ 10 * (2 * (33296 - -33296) + 12285) <= 2 ^ 33 - 24576
  /\ 3 ^ 9 * (2 * (3 * 21499 - -3 * 21499) + 12285) <= 2 ^ 33 - 24576
  /\ ModelRed.nttmul_red_gs_std2rev [12288; 0; 0; 12288; 0; 12288; 12288; 0] 8
       [-6144; 6144; -6144; 6143; -6143; 6144; -6143; 5] = Ok [49152; 0; 0; 0; 18417; 33770; 39865; -99919]
  /\ ModelRed.nttmul_red_gs_rev2std [12288; 0; 0; 12288; 0; 12288; 12288; 0] 8
       [-6144; 6144; -6144; 6143; -6143; 6144; -6143; 5] = Ok [49152; 18417; 0; 39847; 0; -76813; 0; 47495].
Proof. repeat apply conj; try (vm_compute; congruence). Qed.

(** C78: and the result is the transform *)
Theorem ntt_red_gs_rev2std_interval :
  forall k lo hi a, 1 <= k <= 31 -> lo <= hi -> - lo <= 3 * hi -> hi <= 24570 - 3 * lo ->
  3 ^ k * (2 * (hi - lo) + 12285) <= 2 ^ 33 - 24576 ->
  zlen a = 2 ^ k -> all_in lo hi a ->
  forall p, (forall i, 1 <= i < 2 ^ k -> -6144 <= at_ p i <= 6144) ->
  forall omega, eqQ (omega ^ (2 ^ (k - 1))) (-1) -> omega_table_rev k omega 8193 p ->
  exists r, ModelRed.ntt_red_gs_rev2std a (2 ^ k) p = Ok r /\ zlen r = 2 ^ k /\ all_in (- 2 ^ 31) (2 ^ 31 - 1) r
    /\ forall j, 0 <= j < 2 ^ k ->
         eqQ (at_ r j) (NTT (2 ^ k) omega (fun i => at_ a (bitrev k i)) j).
Proof. exact interval_gs_rev2std. Qed.
Print Assumptions ntt_red_gs_rev2std_interval.

Example ntt_red_gs_rev2std_interval_ex :
  let p := [0; -4096; -4096; 493; -4096; 493; 5444; 2381] in
  let a := [12288; 0; 0; 12288; 0; 12288; 12288; 0] in
  eqQ (4043 ^ (2 ^ (3 - 1))) (-1) /\ omega_table_rev 3 4043 8193 p /\ all_in 0 12288 a
  /\ ModelRed.ntt_red_gs_rev2std a 8 p = Ok [49152; 22956; 0; 13909; 0; 4578; 0; 7709].
Proof.
  cbv zeta. split; [vm_compute; reflexivity|]. split; [check_table|].
  split; [check_all_in | vm_compute; reflexivity].
Qed.

(** C78 *)
Theorem ntt_red_gs_std2rev_interval :
  forall k lo hi a, 1 <= k <= 31 -> lo <= hi -> - lo <= 3 * hi -> hi <= 24570 - 3 * lo ->
  3 ^ k * (2 * (hi - lo) + 12285) <= 2 ^ 33 - 24576 ->
  zlen a = 2 ^ k -> all_in lo hi a ->
  forall p, (forall i, 1 <= i < 2 ^ k -> -6144 <= at_ p i <= 6144) ->
  forall omega, eqQ (omega ^ (2 ^ (k - 1))) (-1) -> omega_table k omega 8193 p ->
  exists r, ModelRed.ntt_red_gs_std2rev a (2 ^ k) p = Ok r /\ zlen r = 2 ^ k /\ all_in (- 2 ^ 31) (2 ^ 31 - 1) r
    /\ forall j, 0 <= j < 2 ^ k -> eqQ (at_ r (bitrev k j)) (NTT (2 ^ k) omega (at_ a) j).
Proof. exact interval_gs_std2rev. Qed.
Print Assumptions ntt_red_gs_std2rev_interval.

Example ntt_red_gs_std2rev_interval_ex :
  let p := [0; -4096; -4096; 493; -4096; 5444; 493; 2381] in
  let a := [12288; 0; 0; 12288; 0; 12288; 12288; 0] in
  eqQ (4043 ^ (2 ^ (3 - 1))) (-1) /\ omega_table 3 4043 8193 p /\ all_in 0 12288 a
  /\ ModelRed.ntt_red_gs_std2rev a 8 p = Ok [49152; 0; 0; 0; 22956; 4578; 13909; 7709].
Proof.
  cbv zeta. split; [vm_compute; reflexivity|]. split; [check_table|].
  split; [check_all_in | vm_compute; reflexivity].
Qed.

(** C78 *)
Theorem nttmul_red_gs_rev2std_interval :
  forall k lo hi a, 1 <= k <= 31 -> lo <= hi -> - lo <= 3 * hi -> hi <= 24570 - 3 * lo ->
  3 ^ k * (2 * (hi - lo) + 12285) <= 2 ^ 33 - 24576 ->
  zlen a = 2 ^ k -> all_in lo hi a ->
  forall p, (forall i, 1 <= i < 2 ^ k -> -6144 <= at_ p i <= 6144) ->
  forall psi, eqQ (psi ^ (2 ^ k)) (-1) -> mixed_table_rev k psi 8193 p ->
  exists r, ModelRed.nttmul_red_gs_rev2std a (2 ^ k) p = Ok r /\ zlen r = 2 ^ k /\ all_in (- 2 ^ 31) (2 ^ 31 - 1) r
    /\ forall j, 0 <= j < 2 ^ k ->
         eqQ (at_ r j) (psi ^ j * NTT (2 ^ k) (psi ^ 2) (fun i => at_ a (bitrev k i)) j).
Proof. exact interval_mul_gs_rev2std. Qed.
Print Assumptions nttmul_red_gs_rev2std_interval.

Example nttmul_red_gs_rev2std_interval_ex :
  let p := [0; 493; 5444; 2381; -1912; -1378; -435; -4337] in
  let a := [12288; 0; 0; 12288; 0; 12288; 12288; 0] in
  eqQ (6553 ^ (2 ^ 3)) (-1) /\ mixed_table_rev 3 6553 8193 p /\ all_in 0 12288 a
  /\ ModelRed.nttmul_red_gs_rev2std a 8 p = Ok [49152; 13308; 0; -392; 0; 11897; 0; 13308].
Proof.
  cbv zeta. split; [vm_compute; reflexivity|]. split; [check_table|].
  split; [check_all_in | vm_compute; reflexivity].
Qed.

(** C78 *)
Theorem nttmul_red_gs_std2rev_interval :
  forall k lo hi a, 1 <= k <= 31 -> lo <= hi -> - lo <= 3 * hi -> hi <= 24570 - 3 * lo ->
  3 ^ k * (2 * (hi - lo) + 12285) <= 2 ^ 33 - 24576 ->
  zlen a = 2 ^ k -> all_in lo hi a ->
  forall p, (forall i, 1 <= i < 2 ^ k -> -6144 <= at_ p i <= 6144) ->
  forall psi, eqQ (psi ^ (2 ^ k)) (-1) -> mixed_table k psi 8193 p ->
  exists r, ModelRed.nttmul_red_gs_std2rev a (2 ^ k) p = Ok r /\ zlen r = 2 ^ k /\ all_in (- 2 ^ 31) (2 ^ 31 - 1) r
    /\ forall j, 0 <= j < 2 ^ k ->
         eqQ (at_ r (bitrev k j)) (psi ^ j * NTT (2 ^ k) (psi ^ 2) (at_ a) j).
Proof. exact interval_mul_gs_std2rev. Qed.
Print Assumptions nttmul_red_gs_std2rev_interval.

Example nttmul_red_gs_std2rev_interval_ex :
  let p := [0; 493; 5444; 2381; -1912; -435; -1378; -4337] in
  let a := [12288; 0; 0; 12288; 0; 12288; 12288; 0] in
  eqQ (6553 ^ (2 ^ 3)) (-1) /\ mixed_table 3 6553 8193 p /\ all_in 0 12288 a
  /\ ModelRed.nttmul_red_gs_std2rev a 8 p = Ok [49152; 0; 0; 0; 13308; 11897; -392; 13308].
Proof.
  cbv zeta. split; [vm_compute; reflexivity|]. split; [check_table|].
  split; [check_all_in | vm_compute; reflexivity].
Qed.

(** C78: the sentence of section 4 of paper/main_final.pdf, "This result no longer
    holds for n = 2048" (said of the Cooley-Tukey variants), is too pessimistic: with
    inputs 0 .. Q-1 none of the eight transforms overflows at n = 2048 either,
    whatever the constants *)
Theorem canonical_2048_safe :
  forall k a p, 1 <= k <= 11 -> zlen a = 2 ^ k -> zlen p = 2 ^ k ->
  all_in 0 12288 a -> all_in (-6144) 6144 p ->
  forall f, In f [ModelRed.ntt_red_ct_rev2std; ModelRed.ntt_red_ct_std2rev;
                  ModelRed.ntt_red_gs_rev2std; ModelRed.ntt_red_gs_std2rev;
                  ModelRed.mulntt_red_ct_rev2std; ModelRed.mulntt_red_ct_std2rev;
                  ModelRed.nttmul_red_gs_rev2std; ModelRed.nttmul_red_gs_std2rev] ->
  exists r, f a (2 ^ k) p = Ok r /\ zlen r = 2 ^ k /\ all_in (-1632460035) 1632460035 r.
Proof. exact canonical_2048_L. Qed.
Print Assumptions canonical_2048_safe.

Example canonical_2048_safe_ex :
  let a := repeat 12288 (Z.to_nat 2048) in
  let p := repeat (-6143) (Z.to_nat 2048) in
  zlen a = 2 ^ 11 /\ all_in 0 12288 a /\ all_in (-6144) 6144 p.
Proof.
  cbv zeta. split; [unfold zlen; rewrite repeat_length; reflexivity|].
  split; intros v Hv; apply repeat_spec in Hv; lia.
Qed.
