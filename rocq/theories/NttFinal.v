(** Lemmas behind [PropNtt]. *)

From Coq Require Import ZArith List Bool Lia.
From Verif Require Import CSem Spec Loops ModQ NttElem NttTransforms.
From Verif Require ModelNtt.
Import ListNotations.
Open Scope Z_scope.

Lemma from_spec k (B : Z -> Prop) lo hi m f g :
  (forall v, B v -> lo <= v <= hi) ->
  (exists r, m = Ok r /\ zlen r = 2 ^ k /\
     (forall j, 0 <= j < 2 ^ k -> eqQ (at_ r (f j)) (g j) /\ B (at_ r j))) ->
  exists r : list Z, m = Ok r /\ zlen r = 2 ^ k /\ all_in lo hi r /\
     (forall j, 0 <= j < 2 ^ k -> eqQ (at_ r (f j)) (g j)).
Proof.
  intros HB (r & E & HL & H). exists r. split; [exact E|]. split; [exact HL|]. split.
  - apply all_in_of. intros i Hi. apply HB. apply H. lia.
  - intros j Hj. apply H, Hj.
Qed.

Lemma ntt_ct_rev2std_correct_L :
  forall k omega a p, 0 <= k <= 31 -> (0 < k -> eqQ (omega ^ (2 ^ (k - 1))) (-1)) ->
  omega_table k omega 1 p -> (forall i, 1 <= i < 2 ^ k -> 0 <= at_ p i <= Q - 1) ->
  zlen a = 2 ^ k -> all_in 0 (Q - 1) a ->
  exists r, ModelNtt.ntt_ct_rev2std a (2 ^ k) p = Ok r /\ zlen r = 2 ^ k /\ all_in 0 (Q - 1) r
    /\ forall j, 0 <= j < 2 ^ k ->
         eqQ (at_ r j) (NTT (2 ^ k) omega (fun i => at_ a (bitrev k i)) j).
Proof.
  intros k w a p Hk Hw Ht Hp HL Ha. unfold Q in *.
  apply from_spec with (B := can); [unfold can; lia|].
  apply ntt_ct_rev2std_spec; auto.
  - intros i Hi. specialize (Hp i Hi). unfold can. lia.
  - intros i Hi. apply all_in_at with (i := i) in Ha; [|lia]. unfold can. lia.
Qed.

Lemma ntt_ct_std2rev_correct_L :
  forall k omega a p, 0 <= k <= 31 -> (0 < k -> eqQ (omega ^ (2 ^ (k - 1))) (-1)) ->
  omega_table_rev k omega 1 p -> (forall i, 1 <= i < 2 ^ k -> 0 <= at_ p i <= Q - 1) ->
  zlen a = 2 ^ k -> all_in 0 (Q - 1) a ->
  exists r, ModelNtt.ntt_ct_std2rev a (2 ^ k) p = Ok r /\ zlen r = 2 ^ k /\ all_in 0 (Q - 1) r
    /\ forall j, 0 <= j < 2 ^ k ->
         eqQ (at_ r (bitrev k j)) (NTT (2 ^ k) omega (at_ a) j).
Proof.
  intros k w a p Hk Hw Ht Hp HL Ha. unfold Q in *.
  apply from_spec with (B := can); [unfold can; lia|].
  apply ntt_ct_std2rev_spec; auto.
  - intros i Hi. specialize (Hp i Hi). unfold can. lia.
  - intros i Hi. apply all_in_at with (i := i) in Ha; [|lia]. unfold can. lia.
Qed.

Lemma ntt_gs_rev2std_correct_L :
  forall k omega a p, 0 <= k <= 31 -> (0 < k -> eqQ (omega ^ (2 ^ (k - 1))) (-1)) ->
  omega_table_rev k omega 1 p -> (forall i, 1 <= i < 2 ^ k -> 0 <= at_ p i <= Q - 1) ->
  zlen a = 2 ^ k -> all_in 0 (Q - 1) a ->
  exists r, ModelNtt.ntt_gs_rev2std a (2 ^ k) p = Ok r /\ zlen r = 2 ^ k /\ all_in 0 (Q - 1) r
    /\ forall j, 0 <= j < 2 ^ k ->
         eqQ (at_ r j) (NTT (2 ^ k) omega (fun i => at_ a (bitrev k i)) j).
Proof.
  intros k w a p Hk Hw Ht Hp HL Ha. unfold Q in *.
  apply from_spec with (B := can); [unfold can; lia|].
  apply ntt_gs_rev2std_spec; auto.
  - intros i Hi. specialize (Hp i Hi). unfold can. lia.
  - intros i Hi. apply all_in_at with (i := i) in Ha; [|lia]. unfold can. lia.
Qed.

Lemma ntt_gs_std2rev_correct_L :
  forall k omega a p, 0 <= k <= 31 -> (0 < k -> eqQ (omega ^ (2 ^ (k - 1))) (-1)) ->
  omega_table k omega 1 p -> (forall i, 1 <= i < 2 ^ k -> 0 <= at_ p i <= Q - 1) ->
  zlen a = 2 ^ k -> all_in 0 (Q - 1) a ->
  exists r, ModelNtt.ntt_gs_std2rev a (2 ^ k) p = Ok r /\ zlen r = 2 ^ k /\ all_in 0 (Q - 1) r
    /\ forall j, 0 <= j < 2 ^ k ->
         eqQ (at_ r (bitrev k j)) (NTT (2 ^ k) omega (at_ a) j).
Proof.
  intros k w a p Hk Hw Ht Hp HL Ha. unfold Q in *.
  apply from_spec with (B := can); [unfold can; lia|].
  apply ntt_gs_std2rev_spec; auto.
  - intros i Hi. specialize (Hp i Hi). unfold can. lia.
  - intros i Hi. apply all_in_at with (i := i) in Ha; [|lia]. unfold can. lia.
Qed.

Lemma mulntt_ct_rev2std_correct_L :
  forall k psi a p, 0 <= k <= 31 -> eqQ (psi ^ (2 ^ k)) (-1) ->
  mixed_table k psi 1 p -> (forall i, 1 <= i < 2 ^ k -> 0 <= at_ p i <= Q - 1) ->
  zlen a = 2 ^ k -> all_in 0 (Q - 1) a ->
  exists r, ModelNtt.mulntt_ct_rev2std a (2 ^ k) p = Ok r /\ zlen r = 2 ^ k /\ all_in 0 (Q - 1) r
    /\ forall j, 0 <= j < 2 ^ k ->
         eqQ (at_ r j) (NTT (2 ^ k) (psi ^ 2) (fun i => at_ a (bitrev k i) * psi ^ i) j).
Proof.
  intros k w a p Hk Hw Ht Hp HL Ha. unfold Q in *.
  apply from_spec with (B := can); [unfold can; lia|].
  apply mulntt_ct_rev2std_spec; auto.
  - intros i Hi. specialize (Hp i Hi). unfold can. lia.
  - intros i Hi. apply all_in_at with (i := i) in Ha; [|lia]. unfold can. lia.
Qed.

Lemma mulntt_ct_std2rev_correct_L :
  forall k psi a p, 0 <= k <= 31 -> eqQ (psi ^ (2 ^ k)) (-1) ->
  mixed_table_rev k psi 1 p -> (forall i, 1 <= i < 2 ^ k -> 0 <= at_ p i <= Q - 1) ->
  zlen a = 2 ^ k -> all_in 0 (Q - 1) a ->
  exists r, ModelNtt.mulntt_ct_std2rev a (2 ^ k) p = Ok r /\ zlen r = 2 ^ k /\ all_in 0 (Q - 1) r
    /\ forall j, 0 <= j < 2 ^ k ->
         eqQ (at_ r (bitrev k j)) (NTT (2 ^ k) (psi ^ 2) (fun i => at_ a i * psi ^ i) j).
Proof.
  intros k w a p Hk Hw Ht Hp HL Ha. unfold Q in *.
  apply from_spec with (B := can); [unfold can; lia|].
  apply mulntt_ct_std2rev_spec; auto.
  - intros i Hi. specialize (Hp i Hi). unfold can. lia.
  - intros i Hi. apply all_in_at with (i := i) in Ha; [|lia]. unfold can. lia.
Qed.

Lemma nttmul_gs_rev2std_correct_L :
  forall k psi a p, 0 <= k <= 31 -> eqQ (psi ^ (2 ^ k)) (-1) ->
  mixed_table_rev k psi 1 p -> (forall i, 1 <= i < 2 ^ k -> 0 <= at_ p i <= Q - 1) ->
  zlen a = 2 ^ k -> all_in 0 (Q - 1) a ->
  exists r, ModelNtt.nttmul_gs_rev2std a (2 ^ k) p = Ok r /\ zlen r = 2 ^ k /\ all_in 0 (Q - 1) r
    /\ forall j, 0 <= j < 2 ^ k ->
         eqQ (at_ r j) (psi ^ j * NTT (2 ^ k) (psi ^ 2) (fun i => at_ a (bitrev k i)) j).
Proof.
  intros k w a p Hk Hw Ht Hp HL Ha. unfold Q in *.
  apply from_spec with (B := can); [unfold can; lia|].
  apply nttmul_gs_rev2std_spec; auto.
  - intros i Hi. specialize (Hp i Hi). unfold can. lia.
  - intros i Hi. apply all_in_at with (i := i) in Ha; [|lia]. unfold can. lia.
Qed.

Lemma nttmul_gs_std2rev_correct_L :
  forall k psi a p, 0 <= k <= 31 -> eqQ (psi ^ (2 ^ k)) (-1) ->
  mixed_table k psi 1 p -> (forall i, 1 <= i < 2 ^ k -> 0 <= at_ p i <= Q - 1) ->
  zlen a = 2 ^ k -> all_in 0 (Q - 1) a ->
  exists r, ModelNtt.nttmul_gs_std2rev a (2 ^ k) p = Ok r /\ zlen r = 2 ^ k /\ all_in 0 (Q - 1) r
    /\ forall j, 0 <= j < 2 ^ k ->
         eqQ (at_ r (bitrev k j)) (psi ^ j * NTT (2 ^ k) (psi ^ 2) (at_ a) j).
Proof.
  intros k w a p Hk Hw Ht Hp HL Ha. unfold Q in *.
  apply from_spec with (B := can); [unfold can; lia|].
  apply nttmul_gs_std2rev_spec; auto.
  - intros i Hi. specialize (Hp i Hi). unfold can. lia.
  - intros i Hi. apply all_in_at with (i := i) in Ha; [|lia]. unfold can. lia.
Qed.

Lemma ntt_ct_rev2std_v1_correct_L :
  forall k psi a p, 0 <= k <= 31 -> eqQ (psi ^ (2 ^ k)) (-1) ->
  zlen p = 2 ^ k ->
  (forall i, 0 <= i < 2 ^ k -> 0 <= at_ p i <= Q - 1 /\ eqQ (at_ p i) (psi ^ i)) ->
  zlen a = 2 ^ k -> all_in 0 (Q - 1) a ->
  exists r, ModelNtt.ntt_ct_rev2std_v1 a (2 ^ k) p = Ok r /\ zlen r = 2 ^ k /\ all_in 0 (Q - 1) r
    /\ forall j, 0 <= j < 2 ^ k ->
         eqQ (at_ r j) (NTT (2 ^ k) (psi ^ 2) (fun i => at_ a (bitrev k i)) j).
Proof.
  intros k w a p Hk Hw HLp Hp HL Ha. unfold Q in *.
  apply from_spec with (B := can); [unfold can; lia|].
  apply ntt_ct_rev2std_v1_spec; auto.
  - intros i Hi. destruct (Hp i Hi). unfold can. split; [lia|auto].
  - intros i Hi. apply all_in_at with (i := i) in Ha; [|lia]. unfold can. lia.
Qed.
