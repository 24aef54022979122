(** Lemmas behind [PropGen]. *)

From Coq Require Import ZArith List Bool Lia.
From Verif Require Import CSem Spec Loops ModQ TableSpec ModelGen GenElem GenTables GenMain Fermat.
Import ListNotations.
Open Scope Z_scope.

Lemma power_correct_L :
  forall x k q, 1 < q <= 65536 -> 0 <= x < q -> 0 <= k < 2 ^ 32 ->
  power x k q = Ok (x ^ k mod q).
Proof.
  exact power_ok.
Qed.

Lemma inverse_correct_L :
  forall x q, 0 <= x -> 1 < q < 2 ^ 31 -> x * q < 2 ^ 31 ->
  (Z.gcd x q = 1 /\ exists i, inverse x q = Ok (Some i) /\ 0 <= i < q /\ (x * i) mod q = 1)
  \/ (Z.gcd x q <> 1 /\ inverse x q = Ok None).
Proof.
  intros x q H1 H2 H3. change (2 ^ 31) with 2147483648 in *. apply inverse_ok; lia.
Qed.

Lemma inverse_modulus_one_refuted_L :
  exists x, Z.gcd x 1 = 1 /\ inverse x 1 = Err AssertFail.
Proof.
  exists 5. split; vm_compute; reflexivity.
Qed.

Lemma logtwo_correct_L :
  forall n, 1 <= n < 2 ^ 32 ->
  (exists k, 0 <= k < 32 /\ n = 2 ^ k /\ logtwo n = Ok (Some k))
  \/ ((forall k, 0 <= k -> n <> 2 ^ k) /\ logtwo n = Ok None).
Proof.
  exact logtwo_ok.
Qed.

Lemma reverse_correct_L :
  forall i k, 0 <= i < 2 ^ 32 -> 0 <= k <= 32 -> reverse i k = Ok (bitrev k i).
Proof.
  intros i k Hi Hk. apply reverse_ok; lia.
Qed.

Lemma is_primitive_root_correct_L :
  forall x n q, 1 < q <= 65536 -> 0 <= x < q -> 0 < n < 2 ^ 32 ->
  exists b, is_primitive_root x n q = Ok b /\
    (b = true <-> (x ^ n mod q = 1 /\ forall i, 0 < i < n -> x ^ i mod q <> 1)).
Proof.
  exact is_primitive_root_ok.
Qed.

Lemma make_tables_accepts_iff_L :
  forall malloc size psi, (forall n, 0 <= n -> zlen (malloc n) = n) ->
  ((exists T, make_tables malloc size psi = Ok (Written T)) <->
   (exists k, 1 <= k /\ size = 2 ^ k) /\ 1 < psi < Q /\ eqQ (psi ^ size) (-1)).
Proof.
  intros malloc size psi HM.
  destruct (make_tables_cases malloc HM size psi) as
    [(k & T & Hk & Hs & Hp & Hr & E & _)|[HN (why & E & _)]].
  - split; [intros _|eauto]. split; [exists k; lia|auto].
  - split.
    + intros [T E']. rewrite E in E'. discriminate.
    + intros ((k & Hk & Hs) & Hp & Hr). exfalso. apply HN. exists k. auto.
Qed.

Lemma make_red_tables_accepts_iff_L :
  forall malloc size psi, (forall n, 0 <= n -> zlen (malloc n) = n) ->
  ((exists T, make_red_tables malloc size psi = Ok (Written T)) <->
   (exists k, 1 <= k /\ size = 2 ^ k) /\ 1 < psi < Q /\ eqQ (psi ^ size) (-1)).
Proof.
  intros malloc size psi HM.
  destruct (make_red_tables_cases malloc HM size psi) as
    [(k & T & Hk & Hs & Hp & Hr & E & _)|[HN (why & E & _)]].
  - split; [intros _|eauto]. split; [exists k; lia|auto].
  - split.
    + intros [T E']. rewrite E in E'. discriminate.
    + intros ((k & Hk & Hs) & Hp & Hr). exfalso. apply HN. exists k. auto.
Qed.

Lemma make_tables_total_L :
  forall malloc size psi, (forall n, 0 <= n -> zlen (malloc n) = n) ->
  exists o, make_tables malloc size psi = Ok o /\ o <> Exit BugInverse.
Proof.
  intros malloc size psi HM.
  destruct (make_tables_cases malloc HM size psi) as
    [(k & T & Hk & Hs & Hp & Hr & E & _)|[HN (why & E & HW)]].
  - exists (Written T). split; [exact E|discriminate].
  - exists (Exit why). split; [exact E|]. congruence.
Qed.

Lemma make_red_tables_total_L :
  forall malloc size psi, (forall n, 0 <= n -> zlen (malloc n) = n) ->
  exists o, make_red_tables malloc size psi = Ok o /\ o <> Exit BugInverse /\ o <> Exit BadK.
Proof.
  intros malloc size psi HM.
  destruct (make_red_tables_cases malloc HM size psi) as
    [(k & T & Hk & Hs & Hp & Hr & E & _)|[HN (why & E & HW & HW')]].
  - exists (Written T). split; [exact E|]. split; discriminate.
  - exists (Exit why). split; [exact E|]. split; congruence.
Qed.

Lemma accepted_size_divides_L :
  forall k psi, 1 <= k -> eqQ (psi ^ (2 ^ k)) (-1) ->
  k <= 11 /\ eqQ ((psi ^ 2) ^ (2 ^ k)) 1 /\ (forall i, 0 < i < 2 ^ k -> ~ eqQ ((psi ^ 2) ^ i) 1).
Proof.
  intros k psi Hk Hr. split; [exact (accepted_k k psi Hk Hr)|].
  assert (H2 : 0 < 2 ^ (k - 1)) by (apply pow2_pos; lia).
  assert (H2k : 2 ^ k = 2 * 2 ^ (k - 1)) by (rewrite <- pow2_succ by lia; f_equal; lia).
  split.
  - rewrite <- Z.pow_mul_r by lia. rewrite Z.mul_comm, Z.pow_mul_r by lia. rewrite Hr. reflexivity.
  - intros i Hi. apply (primitive k); [lia| |exact Hi].
    rewrite <- Z.pow_mul_r by lia. rewrite <- H2k. exact Hr.
Qed.

Lemma make_tables_output_L :
  forall malloc size psi T, (forall n, 0 <= n -> zlen (malloc n) = n) ->
  make_tables malloc size psi = Ok (Written T) ->
  exists k, 1 <= k <= 11 /\ size = 2 ^ k /\ tables_ok k psi T.
Proof.
  intros malloc size psi T HM E.
  destruct (make_tables_cases malloc HM size psi) as
    [(k & T' & Hk & Hs & Hp & Hr & E' & HT)|[HN (why & E' & HW)]].
  - exists k. rewrite E in E'. injection E' as <-. auto.
  - rewrite E in E'. discriminate.
Qed.

Lemma make_red_tables_output_L :
  forall malloc size psi T, (forall n, 0 <= n -> zlen (malloc n) = n) ->
  make_red_tables malloc size psi = Ok (Written T) ->
  exists k, 1 <= k <= 11 /\ size = 2 ^ k /\ red_tables_ok k psi T.
Proof.
  intros malloc size psi T HM E.
  destruct (make_red_tables_cases malloc HM size psi) as
    [(k & T' & Hk & Hs & Hp & Hr & E' & HT)|[HN (why & E' & HW)]].
  - exists k. rewrite E in E'. injection E' as <-. auto.
  - rewrite E in E'. discriminate.
Qed.
