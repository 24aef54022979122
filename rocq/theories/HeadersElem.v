(** The transforms of the public headers, for the tables of the generator. *)

From Coq Require Import ZArith List Bool Lia Setoid Morphisms.
From Verif Require Import CSem Spec Loops ModQ Fermat Conv TableSpec ModelGen ModelProducts ModelAvx ModelAvxProd
  ProdGen AvxArrays AvxProd AvxNttFinal RoundTrip.
From Verif Require ModelRed.
Import ListNotations.
Open Scope Z_scope.

Lemma s2r_eq k lo hi lo' hi' w w' pre pre' post post' F : s2r k lo hi lo' hi' w pre post F ->
  eqQ w w' -> (forall i, 0 <= i < 2 ^ k -> eqQ (pre i) (pre' i)) -> (forall i, 0 <= i < 2 ^ k -> eqQ (post i) (post' i)) ->
  s2r k lo hi lo' hi' w' pre' post' F.
Proof.
  intros H Ew E1 E2 a HL Ha. destruct (H a HL Ha) as (r & E & L & R & V). exists r.
  split; [exact E|]. split; [exact L|]. split; [exact R|]. intros j Hj. rewrite (V j Hj).
  apply eqQ_mul; [apply E2, Hj|]. rewrite (NTT_root _ _ _ _ _ Ew). apply NTT_extQ. intros i Hi.
  apply eqQ_mul; [reflexivity|apply E1, Hi].
Qed.
Lemma r2s_eq k lo hi lo' hi' w w' pre pre' post post' F : r2s k lo hi lo' hi' w pre post F ->
  eqQ w w' -> (forall i, 0 <= i < 2 ^ k -> eqQ (pre i) (pre' i)) -> (forall i, 0 <= i < 2 ^ k -> eqQ (post i) (post' i)) ->
  r2s k lo hi lo' hi' w' pre' post' F.
Proof.
  intros H Ew E1 E2 a HL Ha. destruct (H a HL Ha) as (r & E & L & R & V). exists r.
  split; [exact E|]. split; [exact L|]. split; [exact R|]. intros j Hj. rewrite (V j Hj).
  apply eqQ_mul; [apply E2, Hj|]. rewrite (NTT_root _ _ _ _ _ Ew). apply NTT_extQ. intros i Hi.
  apply eqQ_mul; [reflexivity|apply E1, Hi].
Qed.

Lemma inv_unique psi u v : eqQ (psi * u) 1 -> eqQ (psi * v) 1 -> eqQ u v.
Proof. intros Hu Hv. apply (eqQ_cancel psi u); [rewrite Z.mul_comm; exact Hu|]. rewrite Hu, Hv. reflexivity. Qed.

(** The inverse of psi that the tables use may be replaced by any other. *)
Lemma s2r_inv k lo hi lo' hi' u v F : eqQ u v ->
  s2r k lo hi lo' hi' (u ^ 2) (fun _ => 1) (fun _ => 1) F -> s2r k lo hi lo' hi' (v ^ 2) (fun _ => 1) (fun _ => 1) F.
Proof. intros E H. apply (s2r_eq _ _ _ _ _ _ _ _ _ _ _ _ H); [rewrite E; reflexivity| |]; intros; reflexivity. Qed.
Lemma r2s_inv k lo hi lo' hi' u v F : eqQ u v ->
  r2s k lo hi lo' hi' (u ^ 2) (fun _ => 1) (fun _ => 1) F -> r2s k lo hi lo' hi' (v ^ 2) (fun _ => 1) (fun _ => 1) F.
Proof. intros E H. apply (r2s_eq _ _ _ _ _ _ _ _ _ _ _ _ H); [rewrite E; reflexivity| |]; intros; reflexivity. Qed.
Lemma s2r_invmul k lo hi lo' hi' u v F : eqQ u v ->
  s2r k lo hi lo' hi' (u ^ 2) (fun _ => 1) (fun i => u ^ i) F -> s2r k lo hi lo' hi' (v ^ 2) (fun _ => 1) (fun i => v ^ i) F.
Proof. intros E H. apply (s2r_eq _ _ _ _ _ _ _ _ _ _ _ _ H); [rewrite E; reflexivity| |]; intros; [reflexivity|rewrite E; reflexivity]. Qed.
Lemma r2s_invmul k lo hi lo' hi' u v F : eqQ u v ->
  r2s k lo hi lo' hi' (u ^ 2) (fun _ => 1) (fun i => u ^ i) F -> r2s k lo hi lo' hi' (v ^ 2) (fun _ => 1) (fun i => v ^ i) F.
Proof. intros E H. apply (r2s_eq _ _ _ _ _ _ _ _ _ _ _ _ H); [rewrite E; reflexivity| |]; intros; [reflexivity|rewrite E; reflexivity]. Qed.

Lemma s2r_same k lo hi lo' hi' w pre post F G : (forall a r, zlen a = 2 ^ k -> F a = Ok r -> G a = Ok r) ->
  s2r k lo hi lo' hi' w pre post F -> s2r k lo hi lo' hi' w pre post G.
Proof. intros HE H a HL Ha. destruct (H a HL Ha) as (r & E & X). exists r. split; [exact (HE a r HL E)|exact X]. Qed.
Lemma r2s_same k lo hi lo' hi' w pre post F G : (forall a r, zlen a = 2 ^ k -> F a = Ok r -> G a = Ok r) ->
  r2s k lo hi lo' hi' w pre post F -> r2s k lo hi lo' hi' w pre post G.
Proof. intros HE H a HL Ha. destruct (H a HL Ha) as (r & E & X). exists r. split; [exact (HE a r HL E)|exact X]. Qed.

(** Where the C wrapper returns, the AVX2 wrapper returns the same array. *)
Section X.
Variables (k psi : Z) (T : red_tables).
Hypothesis Hk : 4 <= k <= 10.
Hypothesis Hpsi : eqQ (psi ^ (2 ^ k)) (-1).
Hypothesis HT : red_tables_ok k psi T.
Let Hk31 : 4 <= k <= 31.
Proof. lia. Qed.
Let Hk10 : 0 <= k <= 10.
Proof. lia. Qed.
Let unit p w : omega_table k w 8193 p -> all_in (-6144) 6144 p -> forall c, 0 <= c < k -> at_ p (2 ^ c) = -4096.
Proof. intros H HA. apply (omega_unit k w p H). intros i Hi. apply all_in_at; [exact HA|]. rewrite (proj1 H). lia. Qed.
Let unit_rev p w : omega_table_rev k w 8193 p -> all_in (-6144) 6144 p -> forall c, 0 <= c < k -> at_ p (2 ^ c) = -4096.
Proof. intros H HA. apply (omega_rev_unit k w p H). intros i Hi. apply all_in_at; [exact HA|]. rewrite (proj1 H). lia. Qed.
Let t16 p : all_in (-6144) 6144 p -> all_in (- 2 ^ 15) (2 ^ 15 - 1) p.
Proof. intros H. eapply all_in_weak; [exact H|lia|lia]. Qed.

Lemma same_ct_std2rev a r : zlen a = 2 ^ k -> r_ct_std2rev (2 ^ k) T a = Ok r -> x_ct_std2rev (2 ^ k) T a = Ok r.
Proof.
  intros HL. destruct (rok_omega_powers_rev _ _ _ HT) as [H1 H2].
  apply (ntt_red_ct_std2rev_eq k a); auto. rewrite (proj1 H1). lia. eapply unit_rev; eauto.
Qed.

Lemma same_gs_std2rev a r : zlen a = 2 ^ k -> r_gs_std2rev (2 ^ k) T a = Ok r -> x_gs_std2rev (2 ^ k) T a = Ok r.
Proof.
  intros HL. destruct (rok_omega_powers _ _ _ HT) as [H1 H2].
  apply (ntt_red_gs_std2rev_eq k a); auto. rewrite (proj1 H1). lia. eapply unit; eauto.
Qed.

Lemma same_intt_ct_std2rev a r : zlen a = 2 ^ k -> r_intt_ct_std2rev (2 ^ k) T a = Ok r -> x_intt_ct_std2rev (2 ^ k) T a = Ok r.
Proof.
  intros HL. destruct (rok_inv_omega_powers_rev _ _ _ HT) as [H1 H2].
  apply (ntt_red_ct_std2rev_eq k a); auto. rewrite (proj1 H1). lia. eapply unit_rev; eauto.
Qed.

Lemma same_intt_gs_std2rev a r : zlen a = 2 ^ k -> r_intt_gs_std2rev (2 ^ k) T a = Ok r -> x_intt_gs_std2rev (2 ^ k) T a = Ok r.
Proof.
  intros HL. destruct (rok_inv_omega_powers _ _ _ HT) as [H1 H2].
  apply (ntt_red_gs_std2rev_eq k a); auto. rewrite (proj1 H1). lia. eapply unit; eauto.
Qed.

Lemma same_mulntt_ct_std2rev a r : zlen a = 2 ^ k -> r_mulntt_ct_std2rev (2 ^ k) T a = Ok r -> x_mulntt_ct_std2rev (2 ^ k) T a = Ok r.
Proof.
  intros HL. destruct (rok_mixed_rev _ _ _ HT) as [H1 H2].
  apply (mulntt_red_ct_std2rev_eq k a); auto. rewrite (proj1 H1). lia.
Qed.

Lemma same_inttmul_gs_std2rev a r : zlen a = 2 ^ k -> r_inttmul_gs_std2rev (2 ^ k) T a = Ok r -> x_inttmul_gs_std2rev (2 ^ k) T a = Ok r.
Proof.
  intros HL. destruct (rok_inv_mixed _ _ _ HT) as [H1 H2].
  apply (nttmul_red_gs_std2rev_eq k a); auto. rewrite (proj1 H1). lia.
Qed.

Lemma same_ct_rev2std a r : zlen a = 2 ^ k -> r_ct_rev2std (2 ^ k) T a = Ok r -> x_ct_rev2std (2 ^ k) T a = Ok r.
Proof.
  intros HL. destruct (rok_omega_powers _ _ _ HT) as [H1 H2].
  apply (ntt_red_ct_rev2std_eq k a); auto. rewrite (proj1 H1). lia. eapply unit; eauto.
Qed.

Lemma same_gs_rev2std a r : zlen a = 2 ^ k -> r_gs_rev2std (2 ^ k) T a = Ok r -> x_gs_rev2std (2 ^ k) T a = Ok r.
Proof.
  intros HL. destruct (rok_omega_powers_rev _ _ _ HT) as [H1 H2].
  apply (ntt_red_gs_rev2std_eq k a); auto. rewrite (proj1 H1). lia. eapply unit_rev; eauto.
Qed.

Lemma same_intt_ct_rev2std a r : zlen a = 2 ^ k -> r_intt_ct_rev2std (2 ^ k) T a = Ok r -> x_intt_ct_rev2std (2 ^ k) T a = Ok r.
Proof.
  intros HL. destruct (rok_inv_omega_powers _ _ _ HT) as [H1 H2].
  apply (ntt_red_ct_rev2std_eq k a); auto. rewrite (proj1 H1). lia. eapply unit; eauto.
Qed.

Lemma same_intt_gs_rev2std a r : zlen a = 2 ^ k -> r_intt_gs_rev2std (2 ^ k) T a = Ok r -> x_intt_gs_rev2std (2 ^ k) T a = Ok r.
Proof.
  intros HL. destruct (rok_inv_omega_powers_rev _ _ _ HT) as [H1 H2].
  apply (ntt_red_gs_rev2std_eq k a); auto. rewrite (proj1 H1). lia. eapply unit_rev; eauto.
Qed.

Lemma same_mulntt_ct_rev2std a r : zlen a = 2 ^ k -> r_mulntt_ct_rev2std (2 ^ k) T a = Ok r -> x_mulntt_ct_rev2std (2 ^ k) T a = Ok r.
Proof.
  intros HL. destruct (rok_mixed _ _ _ HT) as [H1 H2].
  apply (mulntt_red_ct_rev2std_eq k a); auto. rewrite (proj1 H1). lia.
Qed.

Lemma same_inttmul_gs_rev2std a r : zlen a = 2 ^ k -> r_inttmul_gs_rev2std (2 ^ k) T a = Ok r -> x_inttmul_gs_rev2std (2 ^ k) T a = Ok r.
Proof.
  intros HL. destruct (rok_inv_mixed_rev _ _ _ HT) as [H1 H2].
  apply (nttmul_red_gs_rev2std_eq k a); auto. rewrite (proj1 H1). lia.
Qed.

Lemma t_x_ct_std2rev : s2r k (-21499) 21499 (- 2 ^ 31) (2 ^ 31 - 1) (psi ^ 2) (fun _ => 1) (fun _ => 1) (x_ct_std2rev (2 ^ k) T).
Proof. exact (s2r_same _ _ _ _ _ _ _ _ _ _ same_ct_std2rev (t_r_ct_std2rev k psi T Hk10 Hpsi HT)). Qed.
Lemma t_x_gs_std2rev : s2r k (-21499) 21499 (- 2 ^ 31) (2 ^ 31 - 1) (psi ^ 2) (fun _ => 1) (fun _ => 1) (x_gs_std2rev (2 ^ k) T).
Proof. exact (s2r_same _ _ _ _ _ _ _ _ _ _ same_gs_std2rev (t_r_gs_std2rev k psi T Hk10 Hpsi HT)). Qed.
Lemma t_x_intt_ct_std2rev : s2r k (-21499) 21499 (- 2 ^ 31) (2 ^ 31 - 1) (r_inv_psi T ^ 2) (fun _ => 1) (fun _ => 1) (x_intt_ct_std2rev (2 ^ k) T).
Proof. exact (s2r_same _ _ _ _ _ _ _ _ _ _ same_intt_ct_std2rev (t_r_intt_ct_std2rev k psi T Hk10 Hpsi HT)). Qed.
Lemma t_x_intt_gs_std2rev : s2r k (-21499) 21499 (- 2 ^ 31) (2 ^ 31 - 1) (r_inv_psi T ^ 2) (fun _ => 1) (fun _ => 1) (x_intt_gs_std2rev (2 ^ k) T).
Proof. exact (s2r_same _ _ _ _ _ _ _ _ _ _ same_intt_gs_std2rev (t_r_intt_gs_std2rev k psi T Hk10 Hpsi HT)). Qed.
Lemma t_x_mulntt_ct_std2rev : s2r k (-21499) 21499 (- 2 ^ 31) (2 ^ 31 - 1) (psi ^ 2) (fun i => psi ^ i) (fun _ => 1) (x_mulntt_ct_std2rev (2 ^ k) T).
Proof. exact (s2r_same _ _ _ _ _ _ _ _ _ _ same_mulntt_ct_std2rev (t_r_mulntt_ct_std2rev k psi T Hk10 Hpsi HT)). Qed.
Lemma t_x_inttmul_gs_std2rev : s2r k (-21499) 21499 (- 2 ^ 31) (2 ^ 31 - 1) (r_inv_psi T ^ 2) (fun _ => 1) (fun i => r_inv_psi T ^ i) (x_inttmul_gs_std2rev (2 ^ k) T).
Proof. exact (s2r_same _ _ _ _ _ _ _ _ _ _ same_inttmul_gs_std2rev (t_r_inttmul_gs_std2rev k psi T Hk10 Hpsi HT)). Qed.
Lemma t_x_ct_rev2std : r2s k (-21499) 21499 (- 2 ^ 31) (2 ^ 31 - 1) (psi ^ 2) (fun _ => 1) (fun _ => 1) (x_ct_rev2std (2 ^ k) T).
Proof. exact (r2s_same _ _ _ _ _ _ _ _ _ _ same_ct_rev2std (t_r_ct_rev2std k psi T Hk10 Hpsi HT)). Qed.
Lemma t_x_gs_rev2std : r2s k (-21499) 21499 (- 2 ^ 31) (2 ^ 31 - 1) (psi ^ 2) (fun _ => 1) (fun _ => 1) (x_gs_rev2std (2 ^ k) T).
Proof. exact (r2s_same _ _ _ _ _ _ _ _ _ _ same_gs_rev2std (t_r_gs_rev2std k psi T Hk10 Hpsi HT)). Qed.
Lemma t_x_intt_ct_rev2std : r2s k (-21499) 21499 (- 2 ^ 31) (2 ^ 31 - 1) (r_inv_psi T ^ 2) (fun _ => 1) (fun _ => 1) (x_intt_ct_rev2std (2 ^ k) T).
Proof. exact (r2s_same _ _ _ _ _ _ _ _ _ _ same_intt_ct_rev2std (t_r_intt_ct_rev2std k psi T Hk10 Hpsi HT)). Qed.
Lemma t_x_intt_gs_rev2std : r2s k (-21499) 21499 (- 2 ^ 31) (2 ^ 31 - 1) (r_inv_psi T ^ 2) (fun _ => 1) (fun _ => 1) (x_intt_gs_rev2std (2 ^ k) T).
Proof. exact (r2s_same _ _ _ _ _ _ _ _ _ _ same_intt_gs_rev2std (t_r_intt_gs_rev2std k psi T Hk10 Hpsi HT)). Qed.
Lemma t_x_mulntt_ct_rev2std : r2s k (-21499) 21499 (- 2 ^ 31) (2 ^ 31 - 1) (psi ^ 2) (fun i => psi ^ i) (fun _ => 1) (x_mulntt_ct_rev2std (2 ^ k) T).
Proof. exact (r2s_same _ _ _ _ _ _ _ _ _ _ same_mulntt_ct_rev2std (t_r_mulntt_ct_rev2std k psi T Hk10 Hpsi HT)). Qed.
Lemma t_x_inttmul_gs_rev2std : r2s k (-21499) 21499 (- 2 ^ 31) (2 ^ 31 - 1) (r_inv_psi T ^ 2) (fun _ => 1) (fun i => r_inv_psi T ^ i) (x_inttmul_gs_rev2std (2 ^ k) T).
Proof. exact (r2s_same _ _ _ _ _ _ _ _ _ _ same_inttmul_gs_rev2std (t_r_inttmul_gs_rev2std k psi T Hk10 Hpsi HT)). Qed.

End X.

Lemma same_twice k a r : 4 <= k <= 10 -> all_in (- 2 ^ 31) (2 ^ 31 - 1) a -> ModelRed.reduce_array_twice a (2 ^ k) = Ok r ->
  reduce_array_twice_asm a (2 ^ k) = Ok r.
Proof.
  intros Hk Ha E. apply (reduce_array_twice_same a (2 ^ k) r (mult16_pow k Hk)); [|exact E].
  eapply all_in_weak; [exact Ha|lia|lia].
Qed.
