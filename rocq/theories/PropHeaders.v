(** Properties of the transforms declared in the public headers: C63.

    The tables are those the generator writes for [size] and [psi]; [psi'] is any
    inverse of [psi] modulo Q.  Each line of a list is a transform, the root it is a
    number-theoretic transform for, the factor each input is multiplied by
    beforehand, and the factor each output is multiplied by afterwards. *)

From Coq Require Import ZArith List Bool Lia.
From Verif Require Import CSem Spec Exlib ModelGen ModelProducts ModelAvx ModelAvxProd ExTables ProdFinal HeadersFinal.
From Verif Require ModelRed.
Import ListNotations.
Open Scope Z_scope.

(** C63: the default implementation, transforms from standard to bit-reversed order *)
Theorem ntt_header_std2rev :
forall malloc size psi T, (forall n, 0 <= n -> zlen (malloc n) = n) ->
  make_tables malloc size psi = Ok (Written T) ->
  exists k, 1 <= k <= 11 /\ size = 2 ^ k /\
  forall psi', eqQ (psi * psi') 1 ->
  forall F w pre post, In (F, w, pre, post) [
    (n_ct_std2rev size T, psi ^ 2, fun _ => 1, fun _ => 1);
    (n_gs_std2rev size T, psi ^ 2, fun _ => 1, fun _ => 1);
    (n_intt_ct_std2rev size T, psi' ^ 2, fun _ => 1, fun _ => 1);
    (n_intt_gs_std2rev size T, psi' ^ 2, fun _ => 1, fun _ => 1);
    (n_mulntt_ct_std2rev size T, psi ^ 2, fun i => psi ^ i, fun _ => 1);
    (n_inttmul_gs_std2rev size T, psi' ^ 2, fun _ => 1, fun j => psi' ^ j)] ->
  forall a, zlen a = size -> all_in 0 (Q - 1) a ->
  exists r, F a = Ok r /\ zlen r = size /\ all_in 0 (Q - 1) r
    /\ forall j, 0 <= j < size -> at_ r (bitrev k j) = (post j * NTT size w (fun i => at_ a i * pre i) j) mod Q.
Proof. exact ntt_header_std2rev_L. Qed.
Print Assumptions ntt_header_std2rev.

Example ntt_header_std2rev_ex :
  make_tables malloc77 16 1212 = Ok (Written T16) /\ eqQ (1212 * 2545) 1 /\ all_in 0 (Q - 1) exA
  /\ (exists r, n_ct_std2rev 16 T16 exA = Ok r
      /\ at_ r (bitrev 4 1) = (12288 * (1212 ^ 2) ^ 1 + 5 * (1212 ^ 2) ^ 15) mod Q)
  /\ (exists r, n_inttmul_gs_std2rev 16 T16 exA = Ok r
      /\ at_ r (bitrev 4 3) = (2545 ^ 3 * (12288 * (2545 ^ 2) ^ 3 + 5 * (2545 ^ 2) ^ 45)) mod Q).
Proof.
  split; [exact T16_made|]. split; [vm_compute; reflexivity|]. split; [check_all_in|].
  split; eexists; (split; [vm_compute; reflexivity|vm_compute; reflexivity]).
Qed.

(** C63: the default implementation, transforms from bit-reversed to standard order *)
Theorem ntt_header_rev2std :
forall malloc size psi T, (forall n, 0 <= n -> zlen (malloc n) = n) ->
  make_tables malloc size psi = Ok (Written T) ->
  exists k, 1 <= k <= 11 /\ size = 2 ^ k /\
  forall psi', eqQ (psi * psi') 1 ->
  forall F w pre post, In (F, w, pre, post) [
    (n_ct_rev2std size T, psi ^ 2, fun _ => 1, fun _ => 1);
    (n_gs_rev2std size T, psi ^ 2, fun _ => 1, fun _ => 1);
    (n_intt_ct_rev2std size T, psi' ^ 2, fun _ => 1, fun _ => 1);
    (n_intt_gs_rev2std size T, psi' ^ 2, fun _ => 1, fun _ => 1);
    (n_mulntt_ct_rev2std size T, psi ^ 2, fun i => psi ^ i, fun _ => 1);
    (n_inttmul_gs_rev2std size T, psi' ^ 2, fun _ => 1, fun j => psi' ^ j)] ->
  forall a, zlen a = size -> all_in 0 (Q - 1) a ->
  exists r, F a = Ok r /\ zlen r = size /\ all_in 0 (Q - 1) r
    /\ forall j, 0 <= j < size -> at_ r j = (post j * NTT size w (fun i => at_ a (bitrev k i) * pre i) j) mod Q.
Proof. exact ntt_header_rev2std_L. Qed.
Print Assumptions ntt_header_rev2std.

Example ntt_header_rev2std_ex :
  make_tables malloc77 16 1212 = Ok (Written T16) /\ eqQ (1212 * 2545) 1 /\ all_in 0 (Q - 1) exA
  /\ (exists r, n_gs_rev2std 16 T16 exA = Ok r
      /\ at_ r 3 = (12288 * (1212 ^ 2) ^ (3 * bitrev 4 1) + 5 * (1212 ^ 2) ^ (3 * bitrev 4 15)) mod Q)
  /\ (exists r, n_mulntt_ct_rev2std 16 T16 exA = Ok r
      /\ at_ r 1 = (12288 * 1212 ^ bitrev 4 1 * (1212 ^ 2) ^ bitrev 4 1 + 5 * 1212 ^ bitrev 4 15 * (1212 ^ 2) ^ bitrev 4 15) mod Q).
Proof.
  split; [exact T16_made|]. split; [vm_compute; reflexivity|]. split; [check_all_in|].
  split; eexists; (split; [vm_compute; reflexivity|vm_compute; reflexivity]).
Qed.

(** C63: the naive implementation, transforms from standard to bit-reversed order *)
Theorem naive_header_std2rev :
forall malloc size psi T, (forall n, 0 <= n -> zlen (malloc n) = n) ->
  make_tables malloc size psi = Ok (Written T) ->
  exists k, 1 <= k <= 11 /\ size = 2 ^ k /\
  forall psi', eqQ (psi * psi') 1 ->
  forall F w pre post, In (F, w, pre, post) [
    (v_ct_std2rev size T, psi ^ 2, fun _ => 1, fun _ => 1);
    (v_gs_std2rev size T, psi ^ 2, fun _ => 1, fun _ => 1);
    (v_intt_ct_std2rev size T, psi' ^ 2, fun _ => 1, fun _ => 1);
    (v_intt_gs_std2rev size T, psi' ^ 2, fun _ => 1, fun _ => 1);
    (v_mulntt_ct_std2rev size T, psi ^ 2, fun i => psi ^ i, fun _ => 1);
    (v_inttmul_gs_std2rev size T, psi' ^ 2, fun _ => 1, fun j => psi' ^ j)] ->
  forall a, zlen a = size -> all_in (- Q + 1) (Q - 1) a ->
  exists r, F a = Ok r /\ zlen r = size /\ all_in (- Q + 1) (Q - 1) r
    /\ forall j, 0 <= j < size -> eqQ (at_ r (bitrev k j)) (post j * NTT size w (fun i => at_ a i * pre i) j).
Proof. exact naive_header_std2rev_L. Qed.
Print Assumptions naive_header_std2rev.

Example naive_header_std2rev_ex :
  make_tables malloc77 16 1212 = Ok (Written T16) /\ eqQ (1212 * 2545) 1 /\ all_in 0 (Q - 1) exA
  /\ (exists r, v_gs_std2rev 16 T16 exA = Ok r
      /\ at_ r (bitrev 4 1) mod Q = (12288 * (1212 ^ 2) ^ 1 + 5 * (1212 ^ 2) ^ 15) mod Q)
  /\ (exists r, v_intt_ct_std2rev 16 T16 exA = Ok r
      /\ at_ r (bitrev 4 3) mod Q = (12288 * (2545 ^ 2) ^ 3 + 5 * (2545 ^ 2) ^ 45) mod Q).
Proof.
  split; [exact T16_made|]. split; [vm_compute; reflexivity|]. split; [check_all_in|].
  split; eexists; (split; [vm_compute; reflexivity|vm_compute; reflexivity]).
Qed.

(** C63: the naive implementation, transforms from bit-reversed to standard order *)
Theorem naive_header_rev2std :
forall malloc size psi T, (forall n, 0 <= n -> zlen (malloc n) = n) ->
  make_tables malloc size psi = Ok (Written T) ->
  exists k, 1 <= k <= 11 /\ size = 2 ^ k /\
  forall psi', eqQ (psi * psi') 1 ->
  forall F w pre post, In (F, w, pre, post) [
    (v_ct_rev2std size T, psi ^ 2, fun _ => 1, fun _ => 1);
    (v_gs_rev2std size T, psi ^ 2, fun _ => 1, fun _ => 1);
    (v_intt_ct_rev2std size T, psi' ^ 2, fun _ => 1, fun _ => 1);
    (v_intt_gs_rev2std size T, psi' ^ 2, fun _ => 1, fun _ => 1);
    (v_mulntt_ct_rev2std size T, psi ^ 2, fun i => psi ^ i, fun _ => 1);
    (v_inttmul_gs_rev2std size T, psi' ^ 2, fun _ => 1, fun j => psi' ^ j)] ->
  forall a, zlen a = size -> all_in (- Q + 1) (Q - 1) a ->
  exists r, F a = Ok r /\ zlen r = size /\ all_in (- Q + 1) (Q - 1) r
    /\ forall j, 0 <= j < size -> eqQ (at_ r j) (post j * NTT size w (fun i => at_ a (bitrev k i) * pre i) j).
Proof. exact naive_header_rev2std_L. Qed.
Print Assumptions naive_header_rev2std.

Example naive_header_rev2std_ex :
  make_tables malloc77 16 1212 = Ok (Written T16) /\ eqQ (1212 * 2545) 1 /\ all_in 0 (Q - 1) exA
  /\ (exists r, v_ct_rev2std 16 T16 exA = Ok r
      /\ at_ r 3 mod Q = (12288 * (1212 ^ 2) ^ (3 * bitrev 4 1) + 5 * (1212 ^ 2) ^ (3 * bitrev 4 15)) mod Q)
  /\ (exists r, v_inttmul_gs_rev2std 16 T16 exA = Ok r
      /\ at_ r 1 mod Q = (2545 * (12288 * (2545 ^ 2) ^ bitrev 4 1 + 5 * (2545 ^ 2) ^ bitrev 4 15)) mod Q).
Proof.
  split; [exact T16_made|]. split; [vm_compute; reflexivity|]. split; [check_all_in|].
  split; eexists; (split; [vm_compute; reflexivity|vm_compute; reflexivity]).
Qed.

(** C63: the Longa-Naehrig implementation, transforms from standard to bit-reversed order *)
Theorem red_header_std2rev :
forall malloc size psi T, (forall n, 0 <= n -> zlen (malloc n) = n) ->
  make_red_tables malloc size psi = Ok (Written T) -> size <= 1024 ->
  exists k, 1 <= k <= 11 /\ size = 2 ^ k /\
  forall psi', eqQ (psi * psi') 1 ->
  forall F w pre post, In (F, w, pre, post) [
    (r_ct_std2rev size T, psi ^ 2, fun _ => 1, fun _ => 1);
    (r_gs_std2rev size T, psi ^ 2, fun _ => 1, fun _ => 1);
    (r_intt_ct_std2rev size T, psi' ^ 2, fun _ => 1, fun _ => 1);
    (r_intt_gs_std2rev size T, psi' ^ 2, fun _ => 1, fun _ => 1);
    (r_mulntt_ct_std2rev size T, psi ^ 2, fun i => psi ^ i, fun _ => 1);
    (r_inttmul_gs_std2rev size T, psi' ^ 2, fun _ => 1, fun j => psi' ^ j)] ->
  forall a, zlen a = size -> all_in (-21499) 21499 a ->
  exists r, F a = Ok r /\ zlen r = size /\ all_in (- 2 ^ 31) (2 ^ 31 - 1) r
    /\ forall j, 0 <= j < size -> eqQ (at_ r (bitrev k j)) (post j * NTT size w (fun i => at_ a i * pre i) j).
Proof. exact red_header_std2rev_L. Qed.
Print Assumptions red_header_std2rev.

Example red_header_std2rev_ex :
  make_red_tables malloc77 16 1212 = Ok (Written R16) /\ eqQ (1212 * 2545) 1 /\ all_in 0 (Q - 1) exA
  /\ (exists r, r_mulntt_ct_std2rev 16 R16 exA = Ok r
      /\ at_ r (bitrev 4 1) mod Q = (12288 * 1212 * (1212 ^ 2) ^ 1 + 5 * 1212 ^ 15 * (1212 ^ 2) ^ 15) mod Q)
  /\ (exists r, r_intt_gs_std2rev 16 R16 exA = Ok r
      /\ at_ r (bitrev 4 3) mod Q = (12288 * (2545 ^ 2) ^ 3 + 5 * (2545 ^ 2) ^ 45) mod Q).
Proof.
  split; [exact R16_made|]. split; [vm_compute; reflexivity|]. split; [check_all_in|].
  split; eexists; (split; [vm_compute; reflexivity|vm_compute; reflexivity]).
Qed.

(** C63: the Longa-Naehrig implementation, transforms from bit-reversed to standard order *)
Theorem red_header_rev2std :
forall malloc size psi T, (forall n, 0 <= n -> zlen (malloc n) = n) ->
  make_red_tables malloc size psi = Ok (Written T) -> size <= 1024 ->
  exists k, 1 <= k <= 11 /\ size = 2 ^ k /\
  forall psi', eqQ (psi * psi') 1 ->
  forall F w pre post, In (F, w, pre, post) [
    (r_ct_rev2std size T, psi ^ 2, fun _ => 1, fun _ => 1);
    (r_gs_rev2std size T, psi ^ 2, fun _ => 1, fun _ => 1);
    (r_intt_ct_rev2std size T, psi' ^ 2, fun _ => 1, fun _ => 1);
    (r_intt_gs_rev2std size T, psi' ^ 2, fun _ => 1, fun _ => 1);
    (r_mulntt_ct_rev2std size T, psi ^ 2, fun i => psi ^ i, fun _ => 1);
    (r_inttmul_gs_rev2std size T, psi' ^ 2, fun _ => 1, fun j => psi' ^ j)] ->
  forall a, zlen a = size -> all_in (-21499) 21499 a ->
  exists r, F a = Ok r /\ zlen r = size /\ all_in (- 2 ^ 31) (2 ^ 31 - 1) r
    /\ forall j, 0 <= j < size -> eqQ (at_ r j) (post j * NTT size w (fun i => at_ a (bitrev k i) * pre i) j).
Proof. exact red_header_rev2std_L. Qed.
Print Assumptions red_header_rev2std.

Example red_header_rev2std_ex :
  make_red_tables malloc77 16 1212 = Ok (Written R16) /\ eqQ (1212 * 2545) 1 /\ all_in 0 (Q - 1) exA
  /\ (exists r, r_gs_rev2std 16 R16 exA = Ok r
      /\ at_ r 3 mod Q = (12288 * (1212 ^ 2) ^ (3 * bitrev 4 1) + 5 * (1212 ^ 2) ^ (3 * bitrev 4 15)) mod Q)
  /\ (exists r, r_intt_ct_rev2std 16 R16 exA = Ok r
      /\ at_ r 1 mod Q = (12288 * (2545 ^ 2) ^ bitrev 4 1 + 5 * (2545 ^ 2) ^ bitrev 4 15) mod Q).
Proof.
  split; [exact R16_made|]. split; [vm_compute; reflexivity|]. split; [check_all_in|].
  split; eexists; (split; [vm_compute; reflexivity|vm_compute; reflexivity]).
Qed.

(** C63: the AVX2 implementation, transforms from standard to bit-reversed order *)
Theorem asm_header_std2rev :
forall malloc size psi T, (forall n, 0 <= n -> zlen (malloc n) = n) ->
  make_red_tables malloc size psi = Ok (Written T) -> 16 <= size <= 1024 ->
  exists k, 1 <= k <= 11 /\ size = 2 ^ k /\
  forall psi', eqQ (psi * psi') 1 ->
  forall F w pre post, In (F, w, pre, post) [
    (x_ct_std2rev size T, psi ^ 2, fun _ => 1, fun _ => 1);
    (x_gs_std2rev size T, psi ^ 2, fun _ => 1, fun _ => 1);
    (x_intt_ct_std2rev size T, psi' ^ 2, fun _ => 1, fun _ => 1);
    (x_intt_gs_std2rev size T, psi' ^ 2, fun _ => 1, fun _ => 1);
    (x_mulntt_ct_std2rev size T, psi ^ 2, fun i => psi ^ i, fun _ => 1);
    (x_inttmul_gs_std2rev size T, psi' ^ 2, fun _ => 1, fun j => psi' ^ j)] ->
  forall a, zlen a = size -> all_in (-21499) 21499 a ->
  exists r, F a = Ok r /\ zlen r = size /\ all_in (- 2 ^ 31) (2 ^ 31 - 1) r
    /\ forall j, 0 <= j < size -> eqQ (at_ r (bitrev k j)) (post j * NTT size w (fun i => at_ a i * pre i) j).
Proof. exact asm_header_std2rev_L. Qed.
Print Assumptions asm_header_std2rev.

Example asm_header_std2rev_ex :
  make_red_tables malloc77 16 1212 = Ok (Written R16) /\ eqQ (1212 * 2545) 1 /\ all_in 0 (Q - 1) exA
  /\ (exists r, x_ct_std2rev 16 R16 exA = Ok r
      /\ at_ r (bitrev 4 1) mod Q = (12288 * (1212 ^ 2) ^ 1 + 5 * (1212 ^ 2) ^ 15) mod Q)
  /\ (exists r, x_inttmul_gs_std2rev 16 R16 exA = Ok r
      /\ at_ r (bitrev 4 3) mod Q = (2545 ^ 3 * (12288 * (2545 ^ 2) ^ 3 + 5 * (2545 ^ 2) ^ 45)) mod Q).
Proof.
  split; [exact R16_made|]. split; [vm_compute; reflexivity|]. split; [check_all_in|].
  split; eexists; (split; [vm_compute; reflexivity|vm_compute; reflexivity]).
Qed.

(** C63: the AVX2 implementation, transforms from bit-reversed to standard order *)
Theorem asm_header_rev2std :
forall malloc size psi T, (forall n, 0 <= n -> zlen (malloc n) = n) ->
  make_red_tables malloc size psi = Ok (Written T) -> 16 <= size <= 1024 ->
  exists k, 1 <= k <= 11 /\ size = 2 ^ k /\
  forall psi', eqQ (psi * psi') 1 ->
  forall F w pre post, In (F, w, pre, post) [
    (x_ct_rev2std size T, psi ^ 2, fun _ => 1, fun _ => 1);
    (x_gs_rev2std size T, psi ^ 2, fun _ => 1, fun _ => 1);
    (x_intt_ct_rev2std size T, psi' ^ 2, fun _ => 1, fun _ => 1);
    (x_intt_gs_rev2std size T, psi' ^ 2, fun _ => 1, fun _ => 1);
    (x_mulntt_ct_rev2std size T, psi ^ 2, fun i => psi ^ i, fun _ => 1);
    (x_inttmul_gs_rev2std size T, psi' ^ 2, fun _ => 1, fun j => psi' ^ j)] ->
  forall a, zlen a = size -> all_in (-21499) 21499 a ->
  exists r, F a = Ok r /\ zlen r = size /\ all_in (- 2 ^ 31) (2 ^ 31 - 1) r
    /\ forall j, 0 <= j < size -> eqQ (at_ r j) (post j * NTT size w (fun i => at_ a (bitrev k i) * pre i) j).
Proof. exact asm_header_rev2std_L. Qed.
Print Assumptions asm_header_rev2std.

Example asm_header_rev2std_ex :
  make_red_tables malloc77 16 1212 = Ok (Written R16) /\ eqQ (1212 * 2545) 1 /\ all_in 0 (Q - 1) exA
  /\ (exists r, x_mulntt_ct_rev2std 16 R16 exA = Ok r
      /\ at_ r 1 mod Q = (12288 * 1212 ^ bitrev 4 1 * (1212 ^ 2) ^ bitrev 4 1 + 5 * 1212 ^ bitrev 4 15 * (1212 ^ 2) ^ bitrev 4 15) mod Q)
  /\ (exists r, x_intt_gs_rev2std 16 R16 exA = Ok r
      /\ at_ r 1 mod Q = (12288 * (2545 ^ 2) ^ bitrev 4 1 + 5 * (2545 ^ 2) ^ bitrev 4 15) mod Q).
Proof.
  split; [exact R16_made|]. split; [vm_compute; reflexivity|]. split; [check_all_in|].
  split; eexists; (split; [vm_compute; reflexivity|vm_compute; reflexivity]).
Qed.

(** C63: each AVX2 transform returns the array that the C transform of the same name returns *)
Theorem asm_header_equal_c :
forall malloc size psi T, (forall n, 0 <= n -> zlen (malloc n) = n) ->
  make_red_tables malloc size psi = Ok (Written T) -> 16 <= size <= 1024 ->
  forall F G, In (F, G) [
    (r_ct_std2rev size T, x_ct_std2rev size T);
    (r_gs_std2rev size T, x_gs_std2rev size T);
    (r_intt_ct_std2rev size T, x_intt_ct_std2rev size T);
    (r_intt_gs_std2rev size T, x_intt_gs_std2rev size T);
    (r_mulntt_ct_std2rev size T, x_mulntt_ct_std2rev size T);
    (r_inttmul_gs_std2rev size T, x_inttmul_gs_std2rev size T);
    (r_ct_rev2std size T, x_ct_rev2std size T);
    (r_gs_rev2std size T, x_gs_rev2std size T);
    (r_intt_ct_rev2std size T, x_intt_ct_rev2std size T);
    (r_intt_gs_rev2std size T, x_intt_gs_rev2std size T);
    (r_mulntt_ct_rev2std size T, x_mulntt_ct_rev2std size T);
    (r_inttmul_gs_rev2std size T, x_inttmul_gs_rev2std size T)] ->
  forall a, zlen a = size -> all_in (-21499) 21499 a ->
  exists r, F a = Ok r /\ G a = Ok r.
Proof. exact asm_header_equal_c_L. Qed.
Print Assumptions asm_header_equal_c.

Example asm_header_equal_c_ex :
  make_red_tables malloc77 16 1212 = Ok (Written R16) /\ all_in (-21499) 21499 exA
  /\ (exists r, r_intt_gs_std2rev 16 R16 exA = Ok r /\ x_intt_gs_std2rev 16 R16 exA = Ok r)
  /\ (exists r, r_ct_rev2std 16 R16 exA = Ok r /\ x_ct_rev2std 16 R16 exA = Ok r).
Proof.
  split; [exact R16_made|]. split; [check_all_in|].
  split; eexists; (split; [vm_compute; reflexivity|vm_compute; reflexivity]).
Qed.

(** C63: a forward AVX2 transform, the double reduction, and an inverse AVX2 transform
    give back the input times 9 * size *)
Theorem asm_round_trip :
forall malloc size psi T, (forall n, 0 <= n -> zlen (malloc n) = n) ->
  make_red_tables malloc size psi = Ok (Written T) -> 16 <= size <= 1024 ->
  forall F G, In (F, G) [
    (x_ct_std2rev size T, x_intt_ct_rev2std size T);
    (x_ct_std2rev size T, x_intt_gs_rev2std size T);
    (x_gs_std2rev size T, x_intt_ct_rev2std size T);
    (x_gs_std2rev size T, x_intt_gs_rev2std size T);
    (x_ct_rev2std size T, x_intt_ct_std2rev size T);
    (x_ct_rev2std size T, x_intt_gs_std2rev size T);
    (x_gs_rev2std size T, x_intt_ct_std2rev size T);
    (x_gs_rev2std size T, x_intt_gs_std2rev size T);
    (x_mulntt_ct_std2rev size T, x_inttmul_gs_rev2std size T);
    (x_mulntt_ct_rev2std size T, x_inttmul_gs_std2rev size T)] ->
  forall a, zlen a = size -> all_in (-21499) 21499 a ->
  exists r, (do x <- F a; do y <- reduce_array_twice_asm x size; G y) = Ok r /\ zlen r = size
    /\ all_in (- 2 ^ 31) (2 ^ 31 - 1) r
    /\ (forall i, 0 <= i < size -> eqQ (at_ r i) (9 * (size * at_ a i))).
Proof. exact asm_round_trip_L. Qed.
Print Assumptions asm_round_trip.

Example asm_round_trip_ex :
  make_red_tables malloc77 16 1212 = Ok (Written R16) /\ all_in (-21499) 21499 exA
  /\ exists r, (do x <- x_gs_rev2std 16 R16 exA; do y <- reduce_array_twice_asm x 16; x_intt_ct_std2rev 16 R16 y) = Ok r
     /\ map (fun v => v mod 12289) r = map (fun v => (9 * (16 * v)) mod 12289) exA.
Proof.
  split; [exact R16_made|]. split; [check_all_in|].
  eexists. split; [vm_compute; reflexivity|vm_compute; reflexivity].
Qed.
