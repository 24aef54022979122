(** Lemmas behind [PropAvxNtt]. *)

From Coq Require Import ZArith List Bool Lia.
From Verif Require Import CSem Spec Loops ModelAvx RedFinal IntervalLoops AvxRound AvxExec IntervalSound.
From Verif Require ModelRed AvxCtR2s AvxCtS2r AvxGsR2s AvxGsS2r.
Import ListNotations.
Open Scope Z_scope.

Lemma isA_refl a n : zlen a = n -> isA n (at_ a) a.
Proof. intros H. split; [exact H|]. intros i Hi. reflexivity. Qed.

Lemma isA_unique n F r r' : isA n F r -> isA n F r' -> r = r'.
Proof.
  intros [L H] [L' H']. apply list_ext; [lia|]. intros i Hi. unfold isF in *. rewrite H, H' by lia. reflexivity.
Qed.

Lemma wp_pc (m m' : res (list Z)) n F r : pc m (isA n F) -> wp m' (isA n F) -> m = Ok r -> m' = Ok r.
Proof.
  intros H (r' & E & H') Er. rewrite E. f_equal. eapply isA_unique; [exact H'|]. apply H, Er.
Qed.

Lemma wp_len (m : res (list Z)) n F : wp m (isA n F) -> exists r, m = Ok r /\ zlen r = n.
Proof. intros (r & E & H). exists r. split; [exact E|apply H]. Qed.

Lemma all16 p : all_in (- 2 ^ 15) (2 ^ 15 - 1) p -> forall i, 0 <= i < zlen p -> -32768 <= at_ p i <= 32767.
Proof. intros H i Hi. exact (all_in_at _ _ _ i H Hi). Qed.

Section S.
Variables (k : Z) (a p : list Z).
Hypothesis Hk : 4 <= k <= 31.
Hypothesis La : zlen a = 2 ^ k.
Hypothesis Lp : 2 ^ k <= zlen p.
Hypothesis Hp : all_in (- 2 ^ 15) (2 ^ 15 - 1) p.
Let Hk0 : 0 <= k <= 31.
Proof. lia. Qed.

Lemma ntt_red_ct_rev2std_wp : (forall c, 0 <= c < k -> at_ p (2 ^ c) = -4096) -> wp (ntt_red_ct_rev2std_asm a (2 ^ k) p) (isA (2 ^ k) (Tr (w_ctA p k) (at_ a) k)).
Proof. intros H4. apply (AvxCtR2s.ntt_red_ct_rev2std_asm_ok k (2 ^ k) p (at_ a) Hk eq_refl Lp); [exact H4|exact (isA_refl a _ La)]. Qed.
Lemma ntt_red_ct_rev2std_eq r : (forall c, 0 <= c < k -> at_ p (2 ^ c) = -4096) -> ModelRed.ntt_red_ct_rev2std a (2 ^ k) p = Ok r -> ntt_red_ct_rev2std_asm a (2 ^ k) p = Ok r.
Proof. intros H4. apply (wp_pc _ _ (2 ^ k) (Tr (w_ctA p k) (at_ a) k)).
  - apply (AvxRound.ntt_red_ct_rev2std_pc k (2 ^ k) p a); try assumption; reflexivity.
  - apply ntt_red_ct_rev2std_wp; exact H4.
Qed.
Lemma ntt_red_ct_std2rev_wp : (forall c, 0 <= c < k -> at_ p (2 ^ c) = -4096) -> wp (ntt_red_ct_std2rev_asm a (2 ^ k) p) (isA (2 ^ k) (Tr (w_ctB p k) (at_ a) k)).
Proof. intros H4. apply (AvxCtS2r.ntt_red_ct_std2rev_asm_ok k (2 ^ k) p (at_ a) Hk eq_refl Lp (all16 p Hp)); [exact H4|exact (isA_refl a _ La)]. Qed.
Lemma ntt_red_ct_std2rev_eq r : (forall c, 0 <= c < k -> at_ p (2 ^ c) = -4096) -> ModelRed.ntt_red_ct_std2rev a (2 ^ k) p = Ok r -> ntt_red_ct_std2rev_asm a (2 ^ k) p = Ok r.
Proof. intros H4. apply (wp_pc _ _ (2 ^ k) (Tr (w_ctB p k) (at_ a) k)).
  - apply (AvxRound.ntt_red_ct_std2rev_pc k (2 ^ k) p a); try assumption; reflexivity.
  - apply ntt_red_ct_std2rev_wp; exact H4.
Qed.
Lemma ntt_red_gs_rev2std_wp : (forall c, 0 <= c < k -> at_ p (2 ^ c) = -4096) -> wp (ntt_red_gs_rev2std_asm a (2 ^ k) p) (isA (2 ^ k) (Tr (w_gsB p k) (at_ a) k)).
Proof. intros H4. apply (AvxGsR2s.ntt_red_gs_rev2std_asm_ok k (2 ^ k) p (at_ a) Hk eq_refl Lp (all16 p Hp)); [exact H4|exact (isA_refl a _ La)]. Qed.
Lemma ntt_red_gs_rev2std_eq r : (forall c, 0 <= c < k -> at_ p (2 ^ c) = -4096) -> ModelRed.ntt_red_gs_rev2std a (2 ^ k) p = Ok r -> ntt_red_gs_rev2std_asm a (2 ^ k) p = Ok r.
Proof. intros H4. apply (wp_pc _ _ (2 ^ k) (Tr (w_gsB p k) (at_ a) k)).
  - apply (AvxRound.ntt_red_gs_rev2std_pc k (2 ^ k) p a); try assumption; reflexivity.
  - apply ntt_red_gs_rev2std_wp; exact H4.
Qed.
Lemma ntt_red_gs_std2rev_wp : (forall c, 0 <= c < k -> at_ p (2 ^ c) = -4096) -> wp (ntt_red_gs_std2rev_asm a (2 ^ k) p) (isA (2 ^ k) (Tr (w_gsA p k) (at_ a) k)).
Proof. intros H4. apply (AvxGsS2r.ntt_red_gs_std2rev_asm_ok k (2 ^ k) p (at_ a) Hk eq_refl Lp); [exact H4|exact (isA_refl a _ La)]. Qed.
Lemma ntt_red_gs_std2rev_eq r : (forall c, 0 <= c < k -> at_ p (2 ^ c) = -4096) -> ModelRed.ntt_red_gs_std2rev a (2 ^ k) p = Ok r -> ntt_red_gs_std2rev_asm a (2 ^ k) p = Ok r.
Proof. intros H4. apply (wp_pc _ _ (2 ^ k) (Tr (w_gsA p k) (at_ a) k)).
  - apply (AvxRound.ntt_red_gs_std2rev_pc k (2 ^ k) p a); try assumption; reflexivity.
  - apply ntt_red_gs_std2rev_wp; exact H4.
Qed.
Lemma mulntt_red_ct_rev2std_wp : wp (mulntt_red_ct_rev2std_asm a (2 ^ k) p) (isA (2 ^ k) (Tr (w_ctA p k) (at_ a) k)).
Proof. apply (AvxCtR2s.mulntt_red_ct_rev2std_asm_ok k (2 ^ k) p (at_ a) Hk eq_refl Lp); exact (isA_refl a _ La). Qed.
Lemma mulntt_red_ct_rev2std_eq r : ModelRed.mulntt_red_ct_rev2std a (2 ^ k) p = Ok r -> mulntt_red_ct_rev2std_asm a (2 ^ k) p = Ok r.
Proof. apply (wp_pc _ _ (2 ^ k) (Tr (w_ctA p k) (at_ a) k)).
  - apply (AvxRound.mulntt_red_ct_rev2std_pc k (2 ^ k) p a); try assumption; reflexivity.
  - apply mulntt_red_ct_rev2std_wp.
Qed.
Lemma mulntt_red_ct_std2rev_wp : wp (mulntt_red_ct_std2rev_asm a (2 ^ k) p) (isA (2 ^ k) (Tr (w_ctB p k) (at_ a) k)).
Proof. apply (AvxCtS2r.mulntt_red_ct_std2rev_asm_ok k (2 ^ k) p (at_ a) Hk eq_refl Lp (all16 p Hp)); exact (isA_refl a _ La). Qed.
Lemma mulntt_red_ct_std2rev_eq r : ModelRed.mulntt_red_ct_std2rev a (2 ^ k) p = Ok r -> mulntt_red_ct_std2rev_asm a (2 ^ k) p = Ok r.
Proof. apply (wp_pc _ _ (2 ^ k) (Tr (w_ctB p k) (at_ a) k)).
  - apply (AvxRound.mulntt_red_ct_std2rev_pc k (2 ^ k) p a); try assumption; reflexivity.
  - apply mulntt_red_ct_std2rev_wp.
Qed.
Lemma nttmul_red_gs_rev2std_wp : wp (nttmul_red_gs_rev2std_asm a (2 ^ k) p) (isA (2 ^ k) (Tr (w_gsB p k) (at_ a) k)).
Proof. apply (AvxGsR2s.nttmul_red_gs_rev2std_asm_ok k (2 ^ k) p (at_ a) Hk eq_refl Lp (all16 p Hp)); exact (isA_refl a _ La). Qed.
Lemma nttmul_red_gs_rev2std_eq r : ModelRed.nttmul_red_gs_rev2std a (2 ^ k) p = Ok r -> nttmul_red_gs_rev2std_asm a (2 ^ k) p = Ok r.
Proof. apply (wp_pc _ _ (2 ^ k) (Tr (w_gsB p k) (at_ a) k)).
  - apply (AvxRound.nttmul_red_gs_rev2std_pc k (2 ^ k) p a); try assumption; reflexivity.
  - apply nttmul_red_gs_rev2std_wp.
Qed.
Lemma nttmul_red_gs_std2rev_wp : wp (nttmul_red_gs_std2rev_asm a (2 ^ k) p) (isA (2 ^ k) (Tr (w_gsA p k) (at_ a) k)).
Proof. apply (AvxGsS2r.nttmul_red_gs_std2rev_asm_ok k (2 ^ k) p (at_ a) Hk eq_refl Lp); exact (isA_refl a _ La). Qed.
Lemma nttmul_red_gs_std2rev_eq r : ModelRed.nttmul_red_gs_std2rev a (2 ^ k) p = Ok r -> nttmul_red_gs_std2rev_asm a (2 ^ k) p = Ok r.
Proof. apply (wp_pc _ _ (2 ^ k) (Tr (w_gsA p k) (at_ a) k)).
  - apply (AvxRound.nttmul_red_gs_std2rev_pc k (2 ^ k) p a); try assumption; reflexivity.
  - apply nttmul_red_gs_std2rev_wp.
Qed.
End S.


Lemma one_entry (p : list Z) c : -6144 <= at_ p (2 ^ c) <= 6144 -> eqQ (at_ p (2 ^ c)) 8193 -> at_ p (2 ^ c) = -4096.
Proof.
  unfold eqQ, Spec.Q. intros H E. change (8193 mod 12289) with 8193 in E.
  assert (X := Z.div_mod (at_ p (2 ^ c)) 12289). lia.
Qed.

Lemma pow_rng k c : 0 <= c < k -> 1 <= 2 ^ c < 2 ^ k.
Proof. intros H. assert (0 < 2 ^ c) by (apply Z.pow_pos_nonneg; lia). assert (2 ^ c < 2 ^ k) by (apply Z.pow_lt_mono_r; lia). lia. Qed.

Lemma omega_unit k w p : omega_table k w 8193 p -> (forall i, 1 <= i < 2 ^ k -> -6144 <= at_ p i <= 6144) ->
  forall c, 0 <= c < k -> at_ p (2 ^ c) = -4096.
Proof.
  intros [_ H] HR c Hc. apply one_entry; [apply HR, pow_rng, Hc|].
  rewrite <- (Z.add_0_r (2 ^ c)). rewrite H; [|exact Hc|assert (X := pow_rng k c Hc); lia].
  rewrite Z.pow_0_r. reflexivity.
Qed.
Lemma omega_rev_unit k w p : omega_table_rev k w 8193 p -> (forall i, 1 <= i < 2 ^ k -> -6144 <= at_ p i <= 6144) ->
  forall c, 0 <= c < k -> at_ p (2 ^ c) = -4096.
Proof.
  intros [_ H] HR c Hc. apply one_entry; [apply HR, pow_rng, Hc|].
  rewrite <- (Z.add_0_r (2 ^ c)). rewrite H; [|exact Hc|assert (X := pow_rng k c Hc); lia].
  rewrite ModQ.bitrev_zero by lia. rewrite Z.pow_0_r. reflexivity.
Qed.
Lemma len_le k (p : list Z) : zlen p = 2 ^ k -> 2 ^ k <= zlen p.
Proof. intros ->. apply Z.le_refl. Qed.

Lemma ntt_asm_equals_c_L :
forall k a p, 4 <= k <= 31 -> zlen a = 2 ^ k -> 2 ^ k <= zlen p ->
  all_in (- 2 ^ 15) (2 ^ 15 - 1) p ->
  (forall c, 0 <= c < k -> at_ p (2 ^ c) = -4096) ->
  (forall r, ModelRed.ntt_red_ct_rev2std a (2 ^ k) p = Ok r -> ntt_red_ct_rev2std_asm a (2 ^ k) p = Ok r)
  /\ (forall r, ModelRed.ntt_red_ct_std2rev a (2 ^ k) p = Ok r -> ntt_red_ct_std2rev_asm a (2 ^ k) p = Ok r)
  /\ (forall r, ModelRed.ntt_red_gs_rev2std a (2 ^ k) p = Ok r -> ntt_red_gs_rev2std_asm a (2 ^ k) p = Ok r)
  /\ (forall r, ModelRed.ntt_red_gs_std2rev a (2 ^ k) p = Ok r -> ntt_red_gs_std2rev_asm a (2 ^ k) p = Ok r).
Proof.
  intros k a p Hk La Lp Hp H4. split; [intros r; now apply ntt_red_ct_rev2std_eq|].
  split; [intros r; now apply ntt_red_ct_std2rev_eq|].
  split; [intros r; now apply ntt_red_gs_rev2std_eq|].
  intros r; now apply ntt_red_gs_std2rev_eq.
Qed.

Lemma mulntt_asm_equals_c_L :
forall k a p, 4 <= k <= 31 -> zlen a = 2 ^ k -> 2 ^ k <= zlen p ->
  all_in (- 2 ^ 15) (2 ^ 15 - 1) p ->
  (forall r, ModelRed.mulntt_red_ct_rev2std a (2 ^ k) p = Ok r -> mulntt_red_ct_rev2std_asm a (2 ^ k) p = Ok r)
  /\ (forall r, ModelRed.mulntt_red_ct_std2rev a (2 ^ k) p = Ok r -> mulntt_red_ct_std2rev_asm a (2 ^ k) p = Ok r)
  /\ (forall r, ModelRed.nttmul_red_gs_rev2std a (2 ^ k) p = Ok r -> nttmul_red_gs_rev2std_asm a (2 ^ k) p = Ok r)
  /\ (forall r, ModelRed.nttmul_red_gs_std2rev a (2 ^ k) p = Ok r -> nttmul_red_gs_std2rev_asm a (2 ^ k) p = Ok r).
Proof.
  intros k a p Hk La Lp Hp. split; [intros r; now apply mulntt_red_ct_rev2std_eq|].
  split; [intros r; now apply mulntt_red_ct_std2rev_eq|].
  split; [intros r; now apply nttmul_red_gs_rev2std_eq|].
  intros r; now apply nttmul_red_gs_std2rev_eq.
Qed.

Lemma mulntt_asm_in_bounds_L :
forall k a p, 4 <= k <= 31 -> zlen a = 2 ^ k -> 2 ^ k <= zlen p ->
  all_in (- 2 ^ 15) (2 ^ 15 - 1) p ->
  (exists r, mulntt_red_ct_rev2std_asm a (2 ^ k) p = Ok r /\ zlen r = 2 ^ k)
  /\ (exists r, mulntt_red_ct_std2rev_asm a (2 ^ k) p = Ok r /\ zlen r = 2 ^ k)
  /\ (exists r, nttmul_red_gs_rev2std_asm a (2 ^ k) p = Ok r /\ zlen r = 2 ^ k)
  /\ (exists r, nttmul_red_gs_std2rev_asm a (2 ^ k) p = Ok r /\ zlen r = 2 ^ k).
Proof.
  intros k a p Hk La Lp Hp. split; [eapply wp_len; now apply mulntt_red_ct_rev2std_wp|].
  split; [eapply wp_len; now apply mulntt_red_ct_std2rev_wp|].
  split; [eapply wp_len; now apply nttmul_red_gs_rev2std_wp|].
  eapply wp_len; now apply nttmul_red_gs_std2rev_wp.
Qed.

Lemma ntt_asm_in_bounds_L :
forall k a p, 4 <= k <= 31 -> zlen a = 2 ^ k -> 2 ^ k <= zlen p ->
  all_in (- 2 ^ 15) (2 ^ 15 - 1) p ->
  (forall c, 0 <= c < k -> at_ p (2 ^ c) = -4096) ->
  (exists r, ntt_red_ct_rev2std_asm a (2 ^ k) p = Ok r /\ zlen r = 2 ^ k)
  /\ (exists r, ntt_red_ct_std2rev_asm a (2 ^ k) p = Ok r /\ zlen r = 2 ^ k)
  /\ (exists r, ntt_red_gs_rev2std_asm a (2 ^ k) p = Ok r /\ zlen r = 2 ^ k)
  /\ (exists r, ntt_red_gs_std2rev_asm a (2 ^ k) p = Ok r /\ zlen r = 2 ^ k).
Proof.
  intros k a p Hk La Lp Hp H4. split; [eapply wp_len; now apply ntt_red_ct_rev2std_wp|].
  split; [eapply wp_len; now apply ntt_red_ct_std2rev_wp|].
  split; [eapply wp_len; now apply ntt_red_gs_rev2std_wp|].
  eapply wp_len; now apply ntt_red_gs_std2rev_wp.
Qed.

Lemma ntt_red_ct_rev2std_asm_correct_L :
forall k omega a p, 4 <= k <= 10 -> (0 < k -> eqQ (omega ^ (2 ^ (k - 1))) (-1)) ->
  omega_table k omega 8193 p -> (forall i, 1 <= i < 2 ^ k -> -6144 <= at_ p i <= 6144) ->
  all_in (- 2 ^ 15) (2 ^ 15 - 1) p -> zlen a = 2 ^ k -> all_in (-21499) 21499 a ->
  exists r, ntt_red_ct_rev2std_asm a (2 ^ k) p = Ok r /\ zlen r = 2 ^ k /\ all_in (- 2 ^ 31) (2 ^ 31 - 1) r
    /\ forall j, 0 <= j < 2 ^ k ->
         eqQ (at_ r j) (NTT (2 ^ k) omega (fun i => at_ a (bitrev k i)) j).
Proof.
  intros k w a p Hk Hw HT HR H16 La Ha.
  destruct (ntt_red_ct_rev2std_correct_L k w a p ltac:(lia) Hw HT HR La Ha) as (r & E & X).
  exists r. split; [|exact X].
  apply ntt_red_ct_rev2std_eq; try assumption; [lia|apply len_le, HT|apply (omega_unit k w); assumption].
Qed.

Lemma ntt_red_ct_std2rev_asm_correct_L :
forall k omega a p, 4 <= k <= 10 -> (0 < k -> eqQ (omega ^ (2 ^ (k - 1))) (-1)) ->
  omega_table_rev k omega 8193 p -> (forall i, 1 <= i < 2 ^ k -> -6144 <= at_ p i <= 6144) ->
  all_in (- 2 ^ 15) (2 ^ 15 - 1) p -> zlen a = 2 ^ k -> all_in (-21499) 21499 a ->
  exists r, ntt_red_ct_std2rev_asm a (2 ^ k) p = Ok r /\ zlen r = 2 ^ k /\ all_in (- 2 ^ 31) (2 ^ 31 - 1) r
    /\ forall j, 0 <= j < 2 ^ k ->
         eqQ (at_ r (bitrev k j)) (NTT (2 ^ k) omega (at_ a) j).
Proof.
  intros k w a p Hk Hw HT HR H16 La Ha.
  destruct (ntt_red_ct_std2rev_correct_L k w a p ltac:(lia) Hw HT HR La Ha) as (r & E & X).
  exists r. split; [|exact X].
  apply ntt_red_ct_std2rev_eq; try assumption; [lia|apply len_le, HT|apply (omega_rev_unit k w); assumption].
Qed.

Lemma ntt_red_gs_rev2std_asm_correct_L :
forall k omega a p, 4 <= k <= 10 -> (0 < k -> eqQ (omega ^ (2 ^ (k - 1))) (-1)) ->
  omega_table_rev k omega 8193 p -> (forall i, 1 <= i < 2 ^ k -> -6144 <= at_ p i <= 6144) ->
  all_in (- 2 ^ 15) (2 ^ 15 - 1) p -> zlen a = 2 ^ k -> all_in (-21499) 21499 a ->
  exists r, ntt_red_gs_rev2std_asm a (2 ^ k) p = Ok r /\ zlen r = 2 ^ k /\ all_in (- 2 ^ 31) (2 ^ 31 - 1) r
    /\ forall j, 0 <= j < 2 ^ k ->
         eqQ (at_ r j) (NTT (2 ^ k) omega (fun i => at_ a (bitrev k i)) j).
Proof.
  intros k w a p Hk Hw HT HR H16 La Ha.
  destruct (ntt_red_gs_rev2std_correct_L k w a p ltac:(lia) Hw HT HR La Ha) as (r & E & X).
  exists r. split; [|exact X].
  apply ntt_red_gs_rev2std_eq; try assumption; [lia|apply len_le, HT|apply (omega_rev_unit k w); assumption].
Qed.

Lemma ntt_red_gs_std2rev_asm_correct_L :
forall k omega a p, 4 <= k <= 10 -> (0 < k -> eqQ (omega ^ (2 ^ (k - 1))) (-1)) ->
  omega_table k omega 8193 p -> (forall i, 1 <= i < 2 ^ k -> -6144 <= at_ p i <= 6144) ->
  all_in (- 2 ^ 15) (2 ^ 15 - 1) p -> zlen a = 2 ^ k -> all_in (-21499) 21499 a ->
  exists r, ntt_red_gs_std2rev_asm a (2 ^ k) p = Ok r /\ zlen r = 2 ^ k /\ all_in (- 2 ^ 31) (2 ^ 31 - 1) r
    /\ forall j, 0 <= j < 2 ^ k ->
         eqQ (at_ r (bitrev k j)) (NTT (2 ^ k) omega (at_ a) j).
Proof.
  intros k w a p Hk Hw HT HR H16 La Ha.
  destruct (ntt_red_gs_std2rev_correct_L k w a p ltac:(lia) Hw HT HR La Ha) as (r & E & X).
  exists r. split; [|exact X].
  apply ntt_red_gs_std2rev_eq; try assumption; [lia|apply len_le, HT|apply (omega_unit k w); assumption].
Qed.

Lemma mulntt_red_ct_rev2std_asm_correct_L :
forall k psi a p, 4 <= k <= 10 -> eqQ (psi ^ (2 ^ k)) (-1) ->
  mixed_table k psi 8193 p -> (forall i, 1 <= i < 2 ^ k -> -6144 <= at_ p i <= 6144) ->
  all_in (- 2 ^ 15) (2 ^ 15 - 1) p -> zlen a = 2 ^ k -> all_in (-21499) 21499 a ->
  exists r, mulntt_red_ct_rev2std_asm a (2 ^ k) p = Ok r /\ zlen r = 2 ^ k /\ all_in (- 2 ^ 31) (2 ^ 31 - 1) r
    /\ forall j, 0 <= j < 2 ^ k ->
         eqQ (at_ r j) (NTT (2 ^ k) (psi ^ 2) (fun i => at_ a (bitrev k i) * psi ^ i) j).
Proof.
  intros k w a p Hk Hw HT HR H16 La Ha.
  destruct (mulntt_red_ct_rev2std_correct_L k w a p ltac:(lia) Hw HT HR La Ha) as (r & E & X).
  exists r. split; [|exact X].
  apply mulntt_red_ct_rev2std_eq; try assumption; [lia|apply len_le, HT].
Qed.

Lemma mulntt_red_ct_std2rev_asm_correct_L :
forall k psi a p, 4 <= k <= 10 -> eqQ (psi ^ (2 ^ k)) (-1) ->
  mixed_table_rev k psi 8193 p -> (forall i, 1 <= i < 2 ^ k -> -6144 <= at_ p i <= 6144) ->
  all_in (- 2 ^ 15) (2 ^ 15 - 1) p -> zlen a = 2 ^ k -> all_in (-21499) 21499 a ->
  exists r, mulntt_red_ct_std2rev_asm a (2 ^ k) p = Ok r /\ zlen r = 2 ^ k /\ all_in (- 2 ^ 31) (2 ^ 31 - 1) r
    /\ forall j, 0 <= j < 2 ^ k ->
         eqQ (at_ r (bitrev k j)) (NTT (2 ^ k) (psi ^ 2) (fun i => at_ a i * psi ^ i) j).
Proof.
  intros k w a p Hk Hw HT HR H16 La Ha.
  destruct (mulntt_red_ct_std2rev_correct_L k w a p ltac:(lia) Hw HT HR La Ha) as (r & E & X).
  exists r. split; [|exact X].
  apply mulntt_red_ct_std2rev_eq; try assumption; [lia|apply len_le, HT].
Qed.

Lemma nttmul_red_gs_rev2std_asm_correct_L :
forall k psi a p, 4 <= k <= 10 -> eqQ (psi ^ (2 ^ k)) (-1) ->
  mixed_table_rev k psi 8193 p -> (forall i, 1 <= i < 2 ^ k -> -6144 <= at_ p i <= 6144) ->
  all_in (- 2 ^ 15) (2 ^ 15 - 1) p -> zlen a = 2 ^ k -> all_in (-21499) 21499 a ->
  exists r, nttmul_red_gs_rev2std_asm a (2 ^ k) p = Ok r /\ zlen r = 2 ^ k /\ all_in (- 2 ^ 31) (2 ^ 31 - 1) r
    /\ forall j, 0 <= j < 2 ^ k ->
         eqQ (at_ r j) (psi ^ j * NTT (2 ^ k) (psi ^ 2) (fun i => at_ a (bitrev k i)) j).
Proof.
  intros k w a p Hk Hw HT HR H16 La Ha.
  destruct (nttmul_red_gs_rev2std_correct_L k w a p ltac:(lia) Hw HT HR La Ha) as (r & E & X).
  exists r. split; [|exact X].
  apply nttmul_red_gs_rev2std_eq; try assumption; [lia|apply len_le, HT].
Qed.

Lemma nttmul_red_gs_std2rev_asm_correct_L :
forall k psi a p, 4 <= k <= 10 -> eqQ (psi ^ (2 ^ k)) (-1) ->
  mixed_table k psi 8193 p -> (forall i, 1 <= i < 2 ^ k -> -6144 <= at_ p i <= 6144) ->
  all_in (- 2 ^ 15) (2 ^ 15 - 1) p -> zlen a = 2 ^ k -> all_in (-21499) 21499 a ->
  exists r, nttmul_red_gs_std2rev_asm a (2 ^ k) p = Ok r /\ zlen r = 2 ^ k /\ all_in (- 2 ^ 31) (2 ^ 31 - 1) r
    /\ forall j, 0 <= j < 2 ^ k ->
         eqQ (at_ r (bitrev k j)) (psi ^ j * NTT (2 ^ k) (psi ^ 2) (at_ a) j).
Proof.
  intros k w a p Hk Hw HT HR H16 La Ha.
  destruct (nttmul_red_gs_std2rev_correct_L k w a p ltac:(lia) Hw HT HR La Ha) as (r & E & X).
  exists r. split; [|exact X].
  apply nttmul_red_gs_std2rev_eq; try assumption; [lia|apply len_le, HT].
Qed.

(** Data of the examples in PropAvxNtt. *)
Definition ex_a16 : list Z := [1; -21499; 5; 0; 21499; 300; 2; -12000; 7; 8; 9; 10; -11; 12; 6144; -6144].

Definition ex_w16 : list Z :=
  [0; -4096; -4096; 493; -4096; 5444; 493; 2381; -4096; -1912; 5444; -435; 493; -1378; 2381; -4337].

Definition ex_m16 : list Z :=
  [0; 493; 5444; 2381; -1912; -435; -1378; -4337; 404; 5277; -1065; 1207; -4645; 1168; -2143; 3248].
Definition ex_w16r : list Z :=
  [0; -4096; -4096; 493; -4096; 493; 5444; 2381; -4096; 493; 5444; 2381; -1912; -1378; -435; -4337].
Definition ex_m16r : list Z :=
  [0; 493; 5444; 2381; -1912; -1378; -435; -4337; 404; -4645; -1065; -2143; 5277; 1168; 1207; 3248].
