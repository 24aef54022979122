(** Properties of the table generators (make_tables.c, make_red_tables.c):
    C28 to C31.  [malloc] returns any list of the requested length. *)

From Coq Require Import ZArith List Bool Lia.
From Verif Require Import CSem Spec Exlib TableSpec ModelGen ExTables GenFinal.
From Verif Require Fermat.
Import ListNotations.
Open Scope Z_scope.

(** C31: modular exponentiation *)
Theorem power_correct :
  forall x k q, 1 < q <= 65536 -> 0 <= x < q -> 0 <= k < 2 ^ 32 ->
  power x k q = Ok (x ^ k mod q).
Proof. exact power_correct_L. Qed.
Print Assumptions power_correct.

Example power_ex : power 1014 1024 12289 = Ok 12288 /\ power 65534 4294967295 65536 = Ok 0.
Proof. split; vm_compute; reflexivity. Qed.

(** C31: the modular inverse is found exactly when it exists; no overflow, no
    failing assertion *)
Theorem inverse_correct :
  forall x q, 0 <= x -> 1 < q < 2 ^ 31 -> x * q < 2 ^ 31 ->
  (Z.gcd x q = 1 /\ exists i, inverse x q = Ok (Some i) /\ 0 <= i < q /\ (x * i) mod q = 1)
  \/ (Z.gcd x q <> 1 /\ inverse x q = Ok None).
Proof. exact inverse_correct_L. Qed.
Print Assumptions inverse_correct.

Example inverse_ex :
  inverse 3 12289 = Ok (Some 8193) /\ inverse 99999 12289 = Ok (Some 2637) /\ inverse 6 12 = Ok None.
Proof. split; [vm_compute; reflexivity|]. split; vm_compute; reflexivity. Qed.

(** C31: the condition [1 < q] is needed: with modulus 1 the assertion of
    [inverse] fails *)
Theorem inverse_modulus_one_refuted :
  exists x, Z.gcd x 1 = 1 /\ inverse x 1 = Err AssertFail.
Proof. exact inverse_modulus_one_refuted_L. Qed.
Print Assumptions inverse_modulus_one_refuted.

(** C31: logarithm of powers of two *)
Theorem logtwo_correct :
  forall n, 1 <= n < 2 ^ 32 ->
  (exists k, 0 <= k < 32 /\ n = 2 ^ k /\ logtwo n = Ok (Some k))
  \/ ((forall k, 0 <= k -> n <> 2 ^ k) /\ logtwo n = Ok None).
Proof. exact logtwo_correct_L. Qed.
Print Assumptions logtwo_correct.

Example logtwo_ex : logtwo 2147483648 = Ok (Some 31) /\ logtwo 96 = Ok None.
Proof. split; vm_compute; reflexivity. Qed.

(** C31: reversal of the low [k] bits *)
Theorem reverse_correct :
  forall i k, 0 <= i < 2 ^ 32 -> 0 <= k <= 32 -> reverse i k = Ok (bitrev k i).
Proof. exact reverse_correct_L. Qed.
Print Assumptions reverse_correct.

Example reverse_ex : reverse 11 5 = Ok 26 /\ bitrev 5 11 = 26.
Proof. split; vm_compute; reflexivity. Qed.

(** C30: the primitive-root test decides the definition *)
Theorem is_primitive_root_correct :
  forall x n q, 1 < q <= 65536 -> 0 <= x < q -> 0 < n < 2 ^ 32 ->
  exists b, is_primitive_root x n q = Ok b /\
    (b = true <-> (x ^ n mod q = 1 /\ forall i, 0 < i < n -> x ^ i mod q <> 1)).
Proof. exact is_primitive_root_correct_L. Qed.
Print Assumptions is_primitive_root_correct.

Example is_primitive_root_ex :
  is_primitive_root (1212 ^ 2 mod 12289) 16 12289 = Ok true
  /\ is_primitive_root (1212 ^ 4 mod 12289) 16 12289 = Ok false.
Proof. split; vm_compute; reflexivity. Qed.

(** C30: make_tables accepts exactly these parameters *)
Theorem make_tables_accepts_iff :
  forall malloc size psi, (forall n, 0 <= n -> zlen (malloc n) = n) ->
  ((exists T, make_tables malloc size psi = Ok (Written T)) <->
   (exists k, 1 <= k /\ size = 2 ^ k) /\ 1 < psi < Q /\ eqQ (psi ^ size) (-1)).
Proof. exact make_tables_accepts_iff_L. Qed.
Print Assumptions make_tables_accepts_iff.

(** C30: make_red_tables accepts the same parameters *)
Theorem make_red_tables_accepts_iff :
  forall malloc size psi, (forall n, 0 <= n -> zlen (malloc n) = n) ->
  ((exists T, make_red_tables malloc size psi = Ok (Written T)) <->
   (exists k, 1 <= k /\ size = 2 ^ k) /\ 1 < psi < Q /\ eqQ (psi ^ size) (-1)).
Proof. exact make_red_tables_accepts_iff_L. Qed.
Print Assumptions make_red_tables_accepts_iff.

(** C30: on any two integers make_tables ends by writing its files or by a
    message about its arguments: no overflow, no failing assertion, no endless
    loop, no "bug" message *)
Theorem make_tables_total :
  forall malloc size psi, (forall n, 0 <= n -> zlen (malloc n) = n) ->
  exists o, make_tables malloc size psi = Ok o /\ o <> Exit BugInverse.
Proof. exact make_tables_total_L. Qed.
Print Assumptions make_tables_total.

(** C30: the same for make_red_tables *)
Theorem make_red_tables_total :
  forall malloc size psi, (forall n, 0 <= n -> zlen (malloc n) = n) ->
  exists o, make_red_tables malloc size psi = Ok o /\ o <> Exit BugInverse /\ o <> Exit BadK.
Proof. exact make_red_tables_total_L. Qed.
Print Assumptions make_red_tables_total.

(** C30: an accepted size divides 2048, and psi^2 is a primitive root of unity
    of that order *)
Theorem accepted_size_divides :
  forall k psi, 1 <= k -> eqQ (psi ^ (2 ^ k)) (-1) ->
  k <= 11 /\ eqQ ((psi ^ 2) ^ (2 ^ k)) 1 /\ (forall i, 0 < i < 2 ^ k -> ~ eqQ ((psi ^ 2) ^ i) 1).
Proof. exact accepted_size_divides_L. Qed.
Print Assumptions accepted_size_divides.

(** Accepted and refused parameters. *)
Example accept_ex :
  (exists T, make_tables malloc77 16 1212 = Ok (Written T))
  /\ make_tables malloc77 16 1213 = Ok (Exit NotRoot)
  /\ make_tables malloc77 24 1212 = Ok (Exit NotPowerOfTwo)
  /\ make_tables malloc77 (-5) 1212 = Ok (Exit SizeTooSmall)
  /\ make_tables malloc77 16 12289 = Ok (Exit BadPsi)
  /\ make_red_tables malloc77 1048576 3 = Ok (Exit SizeTooLarge).
Proof.
  split; [exists T16; exact T16_made|]. split; [vm_compute; reflexivity|]. split; [vm_compute; reflexivity|].
  split; [vm_compute; reflexivity|]. split; vm_compute; reflexivity.
Qed.
Example accepted_size_ex : exists psi, eqQ (psi ^ (2 ^ 11)) (-1).
Proof. exists (11 ^ 3). rewrite <- Z.pow_mul_r by discriminate. exact Fermat.g_half. Qed.
Example accept_smallest_ex : exists T, make_tables malloc77 2 1479 = Ok (Written T) /\ psi_powers T = [1; 1479].
Proof. eexists. split; vm_compute; reflexivity. Qed.

(** C28: the written parameters and tables *)
Theorem make_tables_output :
  forall malloc size psi T, (forall n, 0 <= n -> zlen (malloc n) = n) ->
  make_tables malloc size psi = Ok (Written T) ->
  exists k, 1 <= k <= 11 /\ size = 2 ^ k /\ tables_ok k psi T.
Proof. exact make_tables_output_L. Qed.
Print Assumptions make_tables_output.

(** The complete output for n = 16. *)
Example make_tables_ex : make_tables malloc77 16 1212 = Ok (Written T16) /\ tables_ok 4 1212 T16.
Proof.
  split; [exact T16_made|].
  destruct (make_tables_output malloc77 16 1212 T16) as (k & _ & Hk & HT).
  - intros n Hn. unfold malloc77, zlen. rewrite repeat_length. lia.
  - exact T16_made.
  - replace k with 4 in HT; [exact HT|]. apply (Z.pow_inj_r 2); [reflexivity|discriminate| |exact Hk].
    destruct (Z.leb_spec 0 k); [assumption|]. rewrite Z.pow_neg_r in Hk by assumption. discriminate.
Qed.

(** C29: the written parameters and tables of the signed variant *)
Theorem make_red_tables_output :
  forall malloc size psi T, (forall n, 0 <= n -> zlen (malloc n) = n) ->
  make_red_tables malloc size psi = Ok (Written T) ->
  exists k, 1 <= k <= 11 /\ size = 2 ^ k /\ red_tables_ok k psi T.
Proof. exact make_red_tables_output_L. Qed.
Print Assumptions make_red_tables_output.

(** The two values next to the middle. *)
Example shift_ex : shift 6144 12289 = Ok 6144 /\ shift 6145 12289 = Ok (-6144).
Proof. repeat split; vm_compute; reflexivity. Qed.

Example make_red_tables_ex :
  make_red_tables malloc77 16 1212 = Ok (Written R16)
  /\ r_inv_k R16 = 8193 /\ rescale8 R16 = 5973 /\ rescale6 R16 = 4601.
Proof. split; [exact R16_made|]. repeat split. Qed.
