(** The products of src/ntt_red_asm{16,256,512,1024}.c. *)

From Coq Require Import ZArith List Bool Lia.
From Verif Require Import CSem Spec Loops ModQ TableSpec ModelGen ModelProducts ModelAvx ModelAvxProd
  ModelRed ProdGen ProdRed AvxArrays AvxNttFinal.
Import ListNotations.
Open Scope Z_scope.

Lemma mult16_pow k : 4 <= k <= 10 -> mult16 (2 ^ k).
Proof.
  intros Hk. unfold mult16. replace k with (4 + (k - 4)) by lia. rewrite Z.pow_add_r by lia.
  change (2 ^ 4) with 16.
  assert (0 < 2 ^ (k - 4)) by (apply Z.pow_pos_nonneg; lia).
  assert (2 ^ (k - 4) <= 2 ^ 6) by (apply Z.pow_le_mono_r; lia). change (2 ^ 6) with 64 in *.
  split; [lia|]. rewrite Z.mul_comm. apply Z.mod_mul. lia.
Qed.

Lemma at_all_in x n lo hi : zlen x = n -> (forall i, 0 <= i < n -> lo <= at_ x i <= hi) -> all_in lo hi x.
Proof. intros <- H. apply all_in_of. exact H. Qed.

Lemma all_in_weak lo hi lo' hi' x : all_in lo hi x -> lo' <= lo -> hi <= hi' -> all_in lo' hi' x.
Proof. intros H H1 H2. apply all_in_of. intros i Hi. assert (X := all_in_at _ _ _ i H Hi). lia. Qed.

Section P.
Variables (sh : bool) (k psi : Z) (T : red_tables).
Hypothesis Hk4 : 4 <= k <= 10.
Hypothesis Hpsi : eqQ (psi ^ (2 ^ k)) (-1).
Hypothesis HT : red_tables_ok k psi T.
Let n := 2 ^ k.
Let Hk : 1 <= k <= 10.
Proof. lia. Qed.
Let H16 : mult16 n.
Proof. apply mult16_pow, Hk4. Qed.

(** From a C step to the AVX2 step that gives the same arrays. *)
Lemma step_same f g P R G : step k f P R G ->
  (forall x r, zlen x = n -> (forall i, 0 <= i < n -> P (at_ x i)) -> f x = Ok r -> g x = Ok r) ->
  step k g P R G.
Proof.
  intros H HE x HL Hx. destruct (H x HL Hx) as (r & E & X). exists r. split; [|exact X].
  exact (HE x r HL Hx E).
Qed.

Let in32 (P : Z -> Prop) x : (forall v, P v -> w32 v) -> zlen x = n -> (forall i, 0 <= i < n -> P (at_ x i)) ->
  all_in (-2147483648) 2147483647 x.
Proof. intros HP HL Hx. apply (at_all_in x n); [exact HL|]. intros i Hi. apply HP, Hx, Hi. Qed.

Let tab16 p : all_in (-6144) 6144 p -> all_in (-32768) 32767 p.
Proof. intros H. eapply all_in_weak; [exact H|lia|lia]. Qed.

Lemma inp_w32 v : inp v -> w32 v.
Proof. unfold inp, w32. lia. Qed.
Lemma mid_w32 v : mid v -> w32 v.
Proof. unfold mid, w32. lia. Qed.
Lemma twice_w32 v : twice v -> w32 v.
Proof. unfold twice, w32. lia. Qed.

Lemma sx_shift : step k (maybe_shift_asm sh n) inp inp (fun _ v => v).
Proof.
  apply (step_same _ _ _ _ _ (st_shift sh k psi T Hk)). intros x r HL Hx. unfold maybe_shift, maybe_shift_asm. fold n.
  destruct sh; [|trivial]. apply (shift_array_same x n r H16 (in32 inp x inp_w32 HL Hx)).
Qed.

Lemma sx_mulpsi : step k (fun x => mul_reduce_array16_asm x n (red_psi_powers T)) inp mid (fun i v => v * psi ^ i).
Proof.
  apply (step_same _ _ _ _ _ (st_mulpsi k psi T Hk HT)). intros x r HL Hx E.
  apply (mul_reduce_array16_same x n _ r H16 (in32 inp x inp_w32 HL Hx)); [|exact E].
  apply tab16, (rok_psi_powers _ _ _ HT).
Qed.

Lemma sx_reduce : step k (fun x => reduce_array_asm x n) w32 once (fun _ v => 3 * v).
Proof.
  apply (step_same _ _ _ _ _ (st_reduce k psi T Hk)). intros x r HL Hx E.
  apply (reduce_array_same x n r H16 (in32 w32 x (fun v H => H) HL Hx) E).
Qed.

Lemma sx_reduce2 : step k (fun x => reduce_array_twice_asm x n) w32 twice (fun _ v => 9 * v).
Proof.
  apply (step_same _ _ _ _ _ (st_reduce2 k psi T Hk)). intros x r HL Hx E.
  apply (reduce_array_twice_same x n r H16 (in32 w32 x (fun v H => H) HL Hx) E).
Qed.

Lemma sx_correct : step k (fun x => correct_asm x n) twice NttElem.can (fun _ v => v).
Proof.
  apply (step_same _ _ _ _ _ (st_correct k psi T Hk)). intros x r HL Hx E.
  apply (correct_same x n r H16); [|exact E]. intros i Hi. specialize (Hx i Hi). unfold twice in Hx. lia.
Qed.

Lemma mulin_w32 v : mulin 6144 v -> w32 v.
Proof. unfold mulin, w32. lia. Qed.

Lemma sx_scaled : step k (fun x => mul_reduce_array16_asm x n (red_scaled_inv_psi_powers T))
  (mulin 6144) w32 (fun i v => 3 * (v * (rescale8 T * r_inv_psi T ^ i))).
Proof.
  apply (step_same _ _ _ _ _ (st_scaled k psi T Hk HT)). intros x r HL Hx E.
  apply (mul_reduce_array16_same x n _ r H16 (in32 (mulin 6144) x mulin_w32 HL Hx)); [|exact E].
  apply tab16, (rok_scaled _ _ _ HT).
Qed.

Lemma sx_scalar : step k (fun x => scalar_mul_reduce_array_asm x n (rescale8 T))
  (mulin 12288) w32 (fun i v => 3 * (v * rescale8 T)).
Proof.
  apply (step_same _ _ _ _ _ (st_scalar k psi T Hk HT)). intros x r HL Hx E.
  apply (scalar_mul_reduce_array_same x n _ r H16); [|exact E].
  destruct (rok_rescale8 _ _ _ HT) as [_ HR]. change Spec.Q with 12289 in HR. unfold AvxArrays.w32. lia.
Qed.

Let unit p w : omega_table k w 8193 p -> all_in (-6144) 6144 p -> forall c, 0 <= c < k -> at_ p (2 ^ c) = -4096.
Proof. intros H HA. apply (omega_unit k w p H). intros i Hi. apply all_in_at; [exact HA|]. rewrite (proj1 H). lia. Qed.
Let unit_rev p w : omega_table_rev k w 8193 p -> all_in (-6144) 6144 p -> forall c, 0 <= c < k -> at_ p (2 ^ c) = -4096.
Proof. intros H HA. apply (omega_rev_unit k w p H). intros i Hi. apply all_in_at; [exact HA|]. rewrite (proj1 H). lia. Qed.
Let Hk31 : 4 <= k <= 31.
Proof. lia. Qed.
Let t16 p : all_in (-6144) 6144 p -> all_in (- 2 ^ 15) (2 ^ 15 - 1) p.
Proof. exact (tab16 p). Qed.

Lemma x_ct_std2rev_ok : std2rev_ok k psi (x_ct_std2rev n T).
Proof.
  intros x HL Hx. destruct (r_ct_std2rev_ok k psi T Hk Hpsi HT x HL Hx) as (r & E & X). exists r. split; [|exact X].
  destruct (rok_omega_powers_rev _ _ _ HT) as [H1 H2].
  apply (ntt_red_ct_std2rev_eq k x); auto. rewrite (proj1 H1). lia. eapply unit_rev; eauto.
Qed.
Lemma x_gs_std2rev_ok : std2rev_ok k psi (x_gs_std2rev n T).
Proof.
  intros x HL Hx. destruct (r_gs_std2rev_ok k psi T Hk Hpsi HT x HL Hx) as (r & E & X). exists r. split; [|exact X].
  destruct (rok_omega_powers _ _ _ HT) as [H1 H2].
  apply (ntt_red_gs_std2rev_eq k x); auto. rewrite (proj1 H1). lia. eapply unit; eauto.
Qed.
Lemma x_mulntt_ok : mulntt_ok k psi (x_mulntt_ct_std2rev n T).
Proof.
  intros x HL Hx. destruct (r_mulntt_ok k psi T Hk Hpsi HT x HL Hx) as (r & E & X). exists r. split; [|exact X].
  destruct (rok_mixed_rev _ _ _ HT) as [H1 H2].
  apply (mulntt_red_ct_std2rev_eq k x); auto. rewrite (proj1 H1). lia.
Qed.
Lemma x_intt_ct_ok : rev2std_ok k T (x_intt_ct_rev2std n T).
Proof.
  intros x HL Hx. destruct (r_intt_ct_ok k psi T Hk Hpsi HT x HL Hx) as (r & E & X). exists r. split; [|exact X].
  destruct (rok_inv_omega_powers _ _ _ HT) as [H1 H2].
  apply (ntt_red_ct_rev2std_eq k x); auto. rewrite (proj1 H1). lia. eapply unit; eauto.
Qed.
Lemma x_intt_gs_ok : rev2std_ok k T (x_intt_gs_rev2std n T).
Proof.
  intros x HL Hx. destruct (r_intt_gs_ok k psi T Hk Hpsi HT x HL Hx) as (r & E & X). exists r. split; [|exact X].
  destruct (rok_inv_omega_powers_rev _ _ _ HT) as [H1 H2].
  apply (ntt_red_gs_rev2std_eq k x); auto. rewrite (proj1 H1). lia. eapply unit_rev; eauto.
Qed.
Lemma x_inttmul_ok : inttmul_ok k T (x_inttmul_gs_rev2std n T).
Proof.
  intros x HL Hx. destruct (r_inttmul_ok k psi T Hk Hpsi HT x HL Hx) as (r & E & X). exists r. split; [|exact X].
  destruct (rok_inv_mixed_rev _ _ _ HT) as [H1 H2].
  apply (nttmul_red_gs_rev2std_eq k x); auto. rewrite (proj1 H1). lia.
Qed.

Lemma x_pointwise : pointwise_ok k (fun h c a b => mul_reduce_array_asm_h h c n a b).
Proof.
  intros h c a b Lc La Lb HB. destruct (r_pointwise k psi T Hk h c a b Lc La Lb HB) as (h' & E & L & R & O).
  destruct (mul_reduce_array_h_same h c n a b h' H16 E) as (g & Eg & Hg).
  exists g. split; [exact Eg|]. rewrite !Hg. split; [exact L|]. split; [exact R|].
  intros p Hp. rewrite Hg. apply O, Hp.
Qed.

Lemma x_fwd f : std2rev_ok k psi f ->
  fwd_ok k psi [maybe_shift_asm sh n; (fun x => mul_reduce_array16_asm x n (red_psi_powers T)); f;
    (fun x => reduce_array_asm x n)].
Proof. intros Hf. apply fwd_plain; auto; [apply sx_shift|apply sx_mulpsi|apply sx_reduce]. Qed.
Lemma x_fwd_mul : fwd_ok k psi [maybe_shift_asm sh n; x_mulntt_ct_std2rev n T; (fun x => reduce_array_asm x n)].
Proof. apply fwd_mul; auto; [apply sx_shift|apply x_mulntt_ok|apply sx_reduce]. Qed.
Lemma x_bwd f : rev2std_ok k T f ->
  bwd_ok k psi [(fun x => reduce_array_twice_asm x n); f;
    (fun x => mul_reduce_array16_asm x n (red_scaled_inv_psi_powers T));
    (fun x => reduce_array_twice_asm x n); (fun x => correct_asm x n)].
Proof. intros Hf. apply (bwd_plain k psi T); auto; [apply sx_reduce2|apply sx_scaled|apply sx_correct]. Qed.
Lemma x_bwd_mul : bwd_ok k psi [(fun x => reduce_array_twice_asm x n); x_inttmul_gs_rev2std n T;
    (fun x => scalar_mul_reduce_array_asm x n (rescale8 T));
    (fun x => reduce_array_twice_asm x n); (fun x => correct_asm x n)].
Proof. apply (bwd_mul k psi T); auto; [apply sx_reduce2|apply x_inttmul_ok|apply sx_scalar|apply sx_correct]. Qed.

Local Opaque x_ct_std2rev x_gs_std2rev x_mulntt_ct_std2rev x_intt_ct_rev2std x_intt_gs_rev2std x_inttmul_gs_rev2std
  mul_reduce_array16_asm mul_reduce_array_asm_h reduce_array_asm reduce_array_twice_asm scalar_mul_reduce_array_asm
  correct_asm maybe_shift_asm.

Let P F G := prod_ok k psi T Hk Hpsi HT F G.

Lemma x_product1_ok : rproduct_spec k (red_product1_asm sh n T).
Proof. exact (P _ _ _ (x_fwd _ x_ct_std2rev_ok) (x_bwd _ x_intt_ct_ok) x_pointwise). Qed.
Lemma x_product2_ok : rproduct_spec k (red_product2_asm sh n T).
Proof. exact (P _ _ _ (x_fwd _ x_gs_std2rev_ok) (x_bwd _ x_intt_ct_ok) x_pointwise). Qed.
Lemma x_product3_ok : rproduct_spec k (red_product3_asm sh n T).
Proof. exact (P _ _ _ (x_fwd _ x_ct_std2rev_ok) (x_bwd _ x_intt_gs_ok) x_pointwise). Qed.
Lemma x_product4_ok : rproduct_spec k (red_product4_asm sh n T).
Proof. exact (P _ _ _ (x_fwd _ x_gs_std2rev_ok) (x_bwd _ x_intt_gs_ok) x_pointwise). Qed.
Lemma x_product5_ok : rproduct_spec k (red_product5_asm sh n T).
Proof. exact (P _ _ _ x_fwd_mul x_bwd_mul x_pointwise). Qed.
End P.
