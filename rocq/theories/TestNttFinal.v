(** Lemmas behind [PropTestNtt]. *)

From Coq Require Import ZArith List Bool Lia Setoid Morphisms.
From Verif Require Import CSem Spec Loops ModQ NttElem AvxArrays ProdFinal ModelNtt ModelTests TestsElem TestsRun
  LinRed BasisElem LinNtt TabCheck ModelTestTables ModelTestNttRed TestNttRedElem TestNttRedFinal ModelTestNtt TestNttElem
  TestNttRight.
Import Spec.
Import ListNotations.
Open Scope Z_scope.

(** Linear combinations *)
Lemma lin_comb2 n F a b c x y i : (forall j, 0 <= j < n -> eqQ (at_ c j) (x * at_ a j + y * at_ b j)) ->
  eqQ (lin n F c i) (x * lin n F a i + y * lin n F b i).
Proof.
  intros H. unfold lin. rewrite <- !Sum_mul_l, <- Sum_add. apply Sum_extQ. intros j Hj. rewrite H by exact Hj. qring.
Qed.

Lemma ntt_functions_linear_L :
  forall k W x y a b c, 0 <= k <= 31 -> assembled (2 ^ k) W ->
  zlen a = 2 ^ k -> zlen b = 2 ^ k -> zlen c = 2 ^ k ->
  all_in 0 (Q - 1) a -> all_in 0 (Q - 1) b -> all_in 0 (Q - 1) c ->
  (forall i, 0 <= i < 2 ^ k -> eqQ (at_ c i) (x * at_ a i + y * at_ b i)) ->
  exists ra rb rc, W a = Ok ra /\ W b = Ok rb /\ W c = Ok rc
  /\ zlen rc = 2 ^ k /\ all_in 0 (Q - 1) rc
  /\ forall i, 0 <= i < 2 ^ k -> at_ rc i = (x * at_ ra i + y * at_ rb i) mod Q.
Proof.
  intros k W x y a b c Hk HW La Lb Lc Ia Ib Ic H. destruct (assembled_linear k W Hk HW) as [F HF].
  destruct (HF a La Ia) as (ra & Ea & _ & Va). destruct (HF b Lb Ib) as (rb & Eb & _ & Vb).
  destruct (HF c Lc Ic) as (rc & Ec & Lr & Vc). exists ra, rb, rc. split; [exact Ea|]. split; [exact Eb|]. split; [exact Ec|].
  split; [exact Lr|]. split; [exact (canon_in _ _ rc Lr Vc)|]. intros i Hi. rewrite Vc by exact Hi.
  change (eqQ (lin (2 ^ k) F c i) (x * at_ ra i + y * at_ rb i)). rewrite Va, Vb by exact Hi. rewrite !eqQ_modn.
  apply lin_comb2. exact H.
Qed.

Lemma ntt_red_functions_linear_L :
  forall k f p x y a b c, 1 <= k <= 11 -> In f (r2s_transforms ++ s2r_transforms) ->
  zlen p = 2 ^ k -> all_in (-6144) 6144 p ->
  zlen a = 2 ^ k -> zlen b = 2 ^ k -> zlen c = 2 ^ k ->
  all_in (-6144) 6144 a -> all_in (-6144) 6144 b -> all_in (-6144) 6144 c ->
  (forall i, 0 <= i < 2 ^ k -> eqQ (at_ c i) (x * at_ a i + y * at_ b i)) ->
  exists ra rb rc, f a (2 ^ k) p = Ok ra /\ f b (2 ^ k) p = Ok rb /\ f c (2 ^ k) p = Ok rc /\ zlen rc = 2 ^ k
  /\ forall i, 0 <= i < 2 ^ k -> eqQ (at_ rc i) (x * at_ ra i + y * at_ rb i).
Proof.
  intros k f p x y a b c Hk Hf Lp Ip La Lb Lc Ia Ib Ic H.
  assert (L : exists F, forall a, zlen a = 2 ^ k -> all_in (-6144) 6144 a -> exists r, f a (2 ^ k) p = Ok r /\ zlen r = 2 ^ k
     /\ forall i, 0 <= i < 2 ^ k -> eqQ (at_ r i) (lin (2 ^ k) F a i)).
  { apply in_app_or in Hf. destruct Hf as [Hf|Hf].
    - destruct (r2s_linear k p Hk Lp Ip f Hf) as [F HF]. exists F. intros u Lu Iu.
      destruct (HF u Lu Iu) as (r & E & Lr & _ & V). eauto.
    - destruct (s2r_linear k p Hk Lp Ip f Hf) as [F HF]. exists F. intros u Lu Iu.
      destruct (HF u Lu Iu) as (r & E & Lr & _ & V). eauto. }
  destruct L as [F HF].
  destruct (HF a La Ia) as (ra & Ea & _ & Va). destruct (HF b Lb Ib) as (rb & Eb & _ & Vb).
  destruct (HF c Lc Ic) as (rc & Ec & Lr & Vc). exists ra, rb, rc. split; [exact Ea|]. split; [exact Eb|]. split; [exact Ec|].
  split; [exact Lr|]. intros i Hi. rewrite Vc, Va, Vb by exact Hi. apply lin_comb2. exact H.
Qed.

(** The tests decide *)
Lemma ntt_basis_test_decides_L :
  forall k omega W a0, 1 <= k <= 13 -> 0 <= omega < 12289 -> eqQ (omega ^ (2 ^ (k - 1))) (-1) ->
  assembled (2 ^ k) W -> zlen a0 = 2 ^ k ->
  (test_simple_polys a0 (2 ^ k) W omega = Ok tt <-> computes_ntt (2 ^ k) omega W)
  /\ (test_simple_polys a0 (2 ^ k) W omega = Ok tt \/ test_simple_polys a0 (2 ^ k) W omega = Err Exited).
Proof.
  intros k omega W a0 Hk Ho Hw HW La. assert (L := assembled_linear k W ltac:(lia) HW).
  split; [split|].
  - apply basis_exhaustive; assumption.
  - apply basis_pass; assumption.
  - apply basis_total; assumption.
Qed.

Lemma cross_check_decides_L :
  forall k f g a0 b0, 0 <= k <= 31 -> assembled (2 ^ k) f -> assembled (2 ^ k) g -> zlen a0 = 2 ^ k -> zlen b0 = 2 ^ k ->
  (cross_check a0 b0 (2 ^ k) f g = Ok tt <-> forall a, zlen a = 2 ^ k -> all_in 0 (Q - 1) a -> f a = g a)
  /\ (cross_check a0 b0 (2 ^ k) f g = Ok tt \/ cross_check a0 b0 (2 ^ k) f g = Err Exited).
Proof.
  intros k f g a0 b0 Hk Hf Hg La Lb. assert (Ff := assembled_linear k f Hk Hf). assert (Fg := assembled_linear k g Hk Hg).
  assert (P : 0 <= 2 ^ k < 4294967296).
  { split; [apply Z.pow_nonneg; lia|]. apply Z.le_lt_trans with (2 ^ 31); [apply Z.pow_le_mono_r; lia|reflexivity]. }
  split; [split|].
  - apply cross_exhaustive; assumption.
  - apply cross_pass; assumption.
  - apply cross_total; assumption.
Qed.

(** The tables *)
Ltac in_list := cbn [In]; repeat (first [left; reflexivity | right]).
Lemma psi_canon k psi p : (zlen p = 2 ^ k /\ forall i, 0 <= i < 2 ^ k -> at_ p i = psi ^ i mod Q) -> all_in 0 (Q - 1) p.
Proof. intros [L V]. exact (canon_in (2 ^ k) _ p L V). Qed.

Lemma len_psi_powers_ntt16_12289 : zlen psi_powers_ntt16_12289 = 16.
Proof. exact (proj1 (psi_powers_tables 4 1212 psi_powers_ntt16_12289 ltac:(in_list))). Qed.
Lemma can_psi_powers_ntt16_12289 : all_in 0 (Q - 1) psi_powers_ntt16_12289.
Proof. exact (psi_canon 4 1212 _ (psi_powers_tables 4 1212 psi_powers_ntt16_12289 ltac:(in_list))). Qed.
Lemma len_shoup_ntt16_12289 : zlen shoup_ntt16_12289 = 16.
Proof. exact (proj1 (proj1 (ntt_omega_table 4 6553 shoup_ntt16_12289 ltac:(in_list)))). Qed.
Lemma can_shoup_ntt16_12289 : all_in 0 (Q - 1) shoup_ntt16_12289.
Proof. exact (proj2 (ntt_omega_table 4 6553 shoup_ntt16_12289 ltac:(in_list))). Qed.
Lemma len_rev_shoup_ntt16_12289 : zlen rev_shoup_ntt16_12289 = 16.
Proof. exact (proj1 (proj1 (ntt_omega_table_rev 4 6553 rev_shoup_ntt16_12289 ltac:(in_list)))). Qed.
Lemma can_rev_shoup_ntt16_12289 : all_in 0 (Q - 1) rev_shoup_ntt16_12289.
Proof. exact (proj2 (ntt_omega_table_rev 4 6553 rev_shoup_ntt16_12289 ltac:(in_list))). Qed.
Lemma len_shoup_scaled_ntt16_12289 : zlen shoup_scaled_ntt16_12289 = 16.
Proof. exact (proj1 (proj1 (ntt_mixed_table 4 1212 shoup_scaled_ntt16_12289 ltac:(in_list)))). Qed.
Lemma can_shoup_scaled_ntt16_12289 : all_in 0 (Q - 1) shoup_scaled_ntt16_12289.
Proof. exact (proj2 (ntt_mixed_table 4 1212 shoup_scaled_ntt16_12289 ltac:(in_list))). Qed.
Lemma len_rev_shoup_scaled_ntt16_12289 : zlen rev_shoup_scaled_ntt16_12289 = 16.
Proof. exact (proj1 (proj1 (ntt_mixed_table_rev 4 1212 rev_shoup_scaled_ntt16_12289 ltac:(in_list)))). Qed.
Lemma can_rev_shoup_scaled_ntt16_12289 : all_in 0 (Q - 1) rev_shoup_scaled_ntt16_12289.
Proof. exact (proj2 (ntt_mixed_table_rev 4 1212 rev_shoup_scaled_ntt16_12289 ltac:(in_list))). Qed.
Lemma len_psi_powers_ntt256_12289 : zlen psi_powers_ntt256_12289 = 256.
Proof. exact (proj1 (psi_powers_tables 8 1002 psi_powers_ntt256_12289 ltac:(in_list))). Qed.
Lemma can_psi_powers_ntt256_12289 : all_in 0 (Q - 1) psi_powers_ntt256_12289.
Proof. exact (psi_canon 8 1002 _ (psi_powers_tables 8 1002 psi_powers_ntt256_12289 ltac:(in_list))). Qed.
Lemma len_shoup_ntt256_12289 : zlen shoup_ntt256_12289 = 256.
Proof. exact (proj1 (proj1 (ntt_omega_table 8 8595 shoup_ntt256_12289 ltac:(in_list)))). Qed.
Lemma can_shoup_ntt256_12289 : all_in 0 (Q - 1) shoup_ntt256_12289.
Proof. exact (proj2 (ntt_omega_table 8 8595 shoup_ntt256_12289 ltac:(in_list))). Qed.
Lemma len_rev_shoup_ntt256_12289 : zlen rev_shoup_ntt256_12289 = 256.
Proof. exact (proj1 (proj1 (ntt_omega_table_rev 8 8595 rev_shoup_ntt256_12289 ltac:(in_list)))). Qed.
Lemma can_rev_shoup_ntt256_12289 : all_in 0 (Q - 1) rev_shoup_ntt256_12289.
Proof. exact (proj2 (ntt_omega_table_rev 8 8595 rev_shoup_ntt256_12289 ltac:(in_list))). Qed.
Lemma len_shoup_scaled_ntt256_12289 : zlen shoup_scaled_ntt256_12289 = 256.
Proof. exact (proj1 (proj1 (ntt_mixed_table 8 1002 shoup_scaled_ntt256_12289 ltac:(in_list)))). Qed.
Lemma can_shoup_scaled_ntt256_12289 : all_in 0 (Q - 1) shoup_scaled_ntt256_12289.
Proof. exact (proj2 (ntt_mixed_table 8 1002 shoup_scaled_ntt256_12289 ltac:(in_list))). Qed.
Lemma len_rev_shoup_scaled_ntt256_12289 : zlen rev_shoup_scaled_ntt256_12289 = 256.
Proof. exact (proj1 (proj1 (ntt_mixed_table_rev 8 1002 rev_shoup_scaled_ntt256_12289 ltac:(in_list)))). Qed.
Lemma can_rev_shoup_scaled_ntt256_12289 : all_in 0 (Q - 1) rev_shoup_scaled_ntt256_12289.
Proof. exact (proj2 (ntt_mixed_table_rev 8 1002 rev_shoup_scaled_ntt256_12289 ltac:(in_list))). Qed.
Lemma len_psi_powers_ntt512_12289 : zlen psi_powers_ntt512_12289 = 512.
Proof. exact (proj1 (psi_powers_tables 9 1003 psi_powers_ntt512_12289 ltac:(in_list))). Qed.
Lemma can_psi_powers_ntt512_12289 : all_in 0 (Q - 1) psi_powers_ntt512_12289.
Proof. exact (psi_canon 9 1003 _ (psi_powers_tables 9 1003 psi_powers_ntt512_12289 ltac:(in_list))). Qed.
Lemma len_shoup_ntt512_12289 : zlen shoup_ntt512_12289 = 512.
Proof. exact (proj1 (proj1 (ntt_omega_table 9 10600 shoup_ntt512_12289 ltac:(in_list)))). Qed.
Lemma can_shoup_ntt512_12289 : all_in 0 (Q - 1) shoup_ntt512_12289.
Proof. exact (proj2 (ntt_omega_table 9 10600 shoup_ntt512_12289 ltac:(in_list))). Qed.
Lemma len_rev_shoup_ntt512_12289 : zlen rev_shoup_ntt512_12289 = 512.
Proof. exact (proj1 (proj1 (ntt_omega_table_rev 9 10600 rev_shoup_ntt512_12289 ltac:(in_list)))). Qed.
Lemma can_rev_shoup_ntt512_12289 : all_in 0 (Q - 1) rev_shoup_ntt512_12289.
Proof. exact (proj2 (ntt_omega_table_rev 9 10600 rev_shoup_ntt512_12289 ltac:(in_list))). Qed.
Lemma len_shoup_scaled_ntt512_12289 : zlen shoup_scaled_ntt512_12289 = 512.
Proof. exact (proj1 (proj1 (ntt_mixed_table 9 1003 shoup_scaled_ntt512_12289 ltac:(in_list)))). Qed.
Lemma can_shoup_scaled_ntt512_12289 : all_in 0 (Q - 1) shoup_scaled_ntt512_12289.
Proof. exact (proj2 (ntt_mixed_table 9 1003 shoup_scaled_ntt512_12289 ltac:(in_list))). Qed.
Lemma len_rev_shoup_scaled_ntt512_12289 : zlen rev_shoup_scaled_ntt512_12289 = 512.
Proof. exact (proj1 (proj1 (ntt_mixed_table_rev 9 1003 rev_shoup_scaled_ntt512_12289 ltac:(in_list)))). Qed.
Lemma can_rev_shoup_scaled_ntt512_12289 : all_in 0 (Q - 1) rev_shoup_scaled_ntt512_12289.
Proof. exact (proj2 (ntt_mixed_table_rev 9 1003 rev_shoup_scaled_ntt512_12289 ltac:(in_list))). Qed.
Lemma len_psi_powers_ntt1024_12289 : zlen psi_powers_ntt1024_12289 = 1024.
Proof. exact (proj1 (psi_powers_tables 10 1014 psi_powers_ntt1024_12289 ltac:(in_list))). Qed.
Lemma can_psi_powers_ntt1024_12289 : all_in 0 (Q - 1) psi_powers_ntt1024_12289.
Proof. exact (psi_canon 10 1014 _ (psi_powers_tables 10 1014 psi_powers_ntt1024_12289 ltac:(in_list))). Qed.
Lemma len_shoup_ntt1024_12289 : zlen shoup_ntt1024_12289 = 1024.
Proof. exact (proj1 (proj1 (ntt_omega_table 10 8209 shoup_ntt1024_12289 ltac:(in_list)))). Qed.
Lemma can_shoup_ntt1024_12289 : all_in 0 (Q - 1) shoup_ntt1024_12289.
Proof. exact (proj2 (ntt_omega_table 10 8209 shoup_ntt1024_12289 ltac:(in_list))). Qed.
Lemma len_rev_shoup_ntt1024_12289 : zlen rev_shoup_ntt1024_12289 = 1024.
Proof. exact (proj1 (proj1 (ntt_omega_table_rev 10 8209 rev_shoup_ntt1024_12289 ltac:(in_list)))). Qed.
Lemma can_rev_shoup_ntt1024_12289 : all_in 0 (Q - 1) rev_shoup_ntt1024_12289.
Proof. exact (proj2 (ntt_omega_table_rev 10 8209 rev_shoup_ntt1024_12289 ltac:(in_list))). Qed.
Lemma len_shoup_scaled_ntt1024_12289 : zlen shoup_scaled_ntt1024_12289 = 1024.
Proof. exact (proj1 (proj1 (ntt_mixed_table 10 1014 shoup_scaled_ntt1024_12289 ltac:(in_list)))). Qed.
Lemma can_shoup_scaled_ntt1024_12289 : all_in 0 (Q - 1) shoup_scaled_ntt1024_12289.
Proof. exact (proj2 (ntt_mixed_table 10 1014 shoup_scaled_ntt1024_12289 ltac:(in_list))). Qed.
Lemma len_rev_shoup_scaled_ntt1024_12289 : zlen rev_shoup_scaled_ntt1024_12289 = 1024.
Proof. exact (proj1 (proj1 (ntt_mixed_table_rev 10 1014 rev_shoup_scaled_ntt1024_12289 ltac:(in_list)))). Qed.
Lemma can_rev_shoup_scaled_ntt1024_12289 : all_in 0 (Q - 1) rev_shoup_scaled_ntt1024_12289.
Proof. exact (proj2 (ntt_mixed_table_rev 10 1014 rev_shoup_scaled_ntt1024_12289 ltac:(in_list))). Qed.

(** The functions of the program are put together from those of src/ntt.c *)
Lemma asm_ntt16_v1 : assembled 16 ntt16_v1.
Proof. exact (A_seq 16 _ _ (A_shuffle 16 (fun a => bitrev_shuffle a 16) (fun _ _ => eq_refl)) (A_transform 16 ntt_ct_rev2std_v1 psi_powers_ntt16_12289 ltac:(in_list) len_psi_powers_ntt16_12289 can_psi_powers_ntt16_12289)). Qed.
Lemma asm_ntt16_v2 : assembled 16 ntt16_v2.
Proof. exact (A_seq 16 _ _ (A_shuffle 16 (fun a => bitrev_shuffle a 16) (fun _ _ => eq_refl)) (A_transform 16 ntt_ct_rev2std shoup_ntt16_12289 ltac:(in_list) len_shoup_ntt16_12289 can_shoup_ntt16_12289)). Qed.
Lemma asm_ntt16_v3 : assembled 16 ntt16_v3.
Proof. exact (A_seq 16 _ _ (A_shuffle 16 (fun a => bitrev_shuffle a 16) (fun _ _ => eq_refl)) (A_transform 16 mulntt_ct_rev2std shoup_ntt16_12289 ltac:(in_list) len_shoup_ntt16_12289 can_shoup_ntt16_12289)). Qed.
Lemma asm_ntt16_v4 : assembled 16 ntt16_v4.
Proof. exact (A_seq 16 _ _ (A_transform 16 ntt_ct_std2rev rev_shoup_ntt16_12289 ltac:(in_list) len_rev_shoup_ntt16_12289 can_rev_shoup_ntt16_12289) (A_shuffle 16 (fun a => bitrev_shuffle a 16) (fun _ _ => eq_refl))). Qed.
Lemma asm_ntt16_v5 : assembled 16 ntt16_v5.
Proof. exact (A_seq 16 _ _ (A_transform 16 mulntt_ct_std2rev rev_shoup_ntt16_12289 ltac:(in_list) len_rev_shoup_ntt16_12289 can_rev_shoup_ntt16_12289) (A_shuffle 16 (fun a => bitrev_shuffle a 16) (fun _ _ => eq_refl))). Qed.
Lemma asm_ntt16_v6 : assembled 16 ntt16_v6.
Proof. exact (A_seq 16 _ _ (A_shuffle 16 (fun a => bitrev_shuffle a 16) (fun _ _ => eq_refl)) (A_transform 16 ntt_gs_rev2std rev_shoup_ntt16_12289 ltac:(in_list) len_rev_shoup_ntt16_12289 can_rev_shoup_ntt16_12289)). Qed.
Lemma asm_ntt16_v7 : assembled 16 ntt16_v7.
Proof. exact (A_seq 16 _ _ (A_shuffle 16 (fun a => bitrev_shuffle a 16) (fun _ _ => eq_refl)) (A_transform 16 nttmul_gs_rev2std rev_shoup_ntt16_12289 ltac:(in_list) len_rev_shoup_ntt16_12289 can_rev_shoup_ntt16_12289)). Qed.
Lemma asm_ntt16_v8 : assembled 16 ntt16_v8.
Proof. exact (A_seq 16 _ _ (A_transform 16 ntt_gs_std2rev shoup_ntt16_12289 ltac:(in_list) len_shoup_ntt16_12289 can_shoup_ntt16_12289) (A_shuffle 16 (fun a => bitrev_shuffle a 16) (fun _ _ => eq_refl))). Qed.
Lemma asm_ntt16_v9 : assembled 16 ntt16_v9.
Proof. exact (A_seq 16 _ _ (A_transform 16 nttmul_gs_std2rev shoup_ntt16_12289 ltac:(in_list) len_shoup_ntt16_12289 can_shoup_ntt16_12289) (A_shuffle 16 (fun a => bitrev_shuffle a 16) (fun _ _ => eq_refl))). Qed.
Lemma asm_ntt256_v1 : assembled 256 ntt256_v1.
Proof. exact (A_seq 256 _ _ (A_shuffle 256 bitrev_shuffle256 shuffle256_ok) (A_transform 256 ntt_ct_rev2std_v1 psi_powers_ntt256_12289 ltac:(in_list) len_psi_powers_ntt256_12289 can_psi_powers_ntt256_12289)). Qed.
Lemma asm_ntt256_v2 : assembled 256 ntt256_v2.
Proof. exact (A_seq 256 _ _ (A_shuffle 256 bitrev_shuffle256 shuffle256_ok) (A_transform 256 ntt_ct_rev2std shoup_ntt256_12289 ltac:(in_list) len_shoup_ntt256_12289 can_shoup_ntt256_12289)). Qed.
Lemma asm_ntt256_v3 : assembled 256 ntt256_v3.
Proof. exact (A_seq 256 _ _ (A_transform 256 ntt_ct_std2rev rev_shoup_ntt256_12289 ltac:(in_list) len_rev_shoup_ntt256_12289 can_rev_shoup_ntt256_12289) (A_shuffle 256 bitrev_shuffle256 shuffle256_ok)). Qed.
Lemma asm_ntt256_v4 : assembled 256 ntt256_v4.
Proof. exact (A_seq 256 _ _ (A_shuffle 256 bitrev_shuffle256 shuffle256_ok) (A_transform 256 ntt_gs_rev2std rev_shoup_ntt256_12289 ltac:(in_list) len_rev_shoup_ntt256_12289 can_rev_shoup_ntt256_12289)). Qed.
Lemma asm_ntt256_v5 : assembled 256 ntt256_v5.
Proof. exact (A_seq 256 _ _ (A_shuffle 256 bitrev_shuffle256 shuffle256_ok) (A_transform 256 nttmul_gs_rev2std rev_shoup_ntt256_12289 ltac:(in_list) len_rev_shoup_ntt256_12289 can_rev_shoup_ntt256_12289)). Qed.
Lemma asm_ntt512_v1 : assembled 512 ntt512_v1.
Proof. exact (A_seq 512 _ _ (A_shuffle 512 bitrev_shuffle512 shuffle512_ok) (A_transform 512 ntt_ct_rev2std_v1 psi_powers_ntt512_12289 ltac:(in_list) len_psi_powers_ntt512_12289 can_psi_powers_ntt512_12289)). Qed.
Lemma asm_ntt512_v2 : assembled 512 ntt512_v2.
Proof. exact (A_seq 512 _ _ (A_shuffle 512 bitrev_shuffle512 shuffle512_ok) (A_transform 512 ntt_ct_rev2std shoup_ntt512_12289 ltac:(in_list) len_shoup_ntt512_12289 can_shoup_ntt512_12289)). Qed.
Lemma asm_ntt512_v3 : assembled 512 ntt512_v3.
Proof. exact (A_seq 512 _ _ (A_transform 512 ntt_ct_std2rev rev_shoup_ntt512_12289 ltac:(in_list) len_rev_shoup_ntt512_12289 can_rev_shoup_ntt512_12289) (A_shuffle 512 bitrev_shuffle512 shuffle512_ok)). Qed.
Lemma asm_ntt512_v4 : assembled 512 ntt512_v4.
Proof. exact (A_seq 512 _ _ (A_shuffle 512 bitrev_shuffle512 shuffle512_ok) (A_transform 512 ntt_gs_rev2std rev_shoup_ntt512_12289 ltac:(in_list) len_rev_shoup_ntt512_12289 can_rev_shoup_ntt512_12289)). Qed.
Lemma asm_ntt512_v5 : assembled 512 ntt512_v5.
Proof. exact (A_seq 512 _ _ (A_shuffle 512 bitrev_shuffle512 shuffle512_ok) (A_transform 512 nttmul_gs_rev2std rev_shoup_ntt512_12289 ltac:(in_list) len_rev_shoup_ntt512_12289 can_rev_shoup_ntt512_12289)). Qed.
Lemma asm_ntt1024_v1 : assembled 1024 ntt1024_v1.
Proof. exact (A_seq 1024 _ _ (A_shuffle 1024 bitrev_shuffle1024 shuffle1024_ok) (A_transform 1024 ntt_ct_rev2std_v1 psi_powers_ntt1024_12289 ltac:(in_list) len_psi_powers_ntt1024_12289 can_psi_powers_ntt1024_12289)). Qed.
Lemma asm_ntt1024_v2 : assembled 1024 ntt1024_v2.
Proof. exact (A_seq 1024 _ _ (A_shuffle 1024 bitrev_shuffle1024 shuffle1024_ok) (A_transform 1024 ntt_ct_rev2std shoup_ntt1024_12289 ltac:(in_list) len_shoup_ntt1024_12289 can_shoup_ntt1024_12289)). Qed.
Lemma asm_ntt1024_v3 : assembled 1024 ntt1024_v3.
Proof. exact (A_seq 1024 _ _ (A_transform 1024 ntt_ct_std2rev rev_shoup_ntt1024_12289 ltac:(in_list) len_rev_shoup_ntt1024_12289 can_rev_shoup_ntt1024_12289) (A_shuffle 1024 bitrev_shuffle1024 shuffle1024_ok)). Qed.
Lemma asm_ntt1024_v4 : assembled 1024 ntt1024_v4.
Proof. exact (A_seq 1024 _ _ (A_shuffle 1024 bitrev_shuffle1024 shuffle1024_ok) (A_transform 1024 ntt_gs_rev2std rev_shoup_ntt1024_12289 ltac:(in_list) len_rev_shoup_ntt1024_12289 can_rev_shoup_ntt1024_12289)). Qed.
Lemma asm_ntt1024_v5 : assembled 1024 ntt1024_v5.
Proof. exact (A_seq 1024 _ _ (A_shuffle 1024 bitrev_shuffle1024 shuffle1024_ok) (A_transform 1024 nttmul_gs_rev2std rev_shoup_ntt1024_12289 ltac:(in_list) len_rev_shoup_ntt1024_12289 can_rev_shoup_ntt1024_12289)). Qed.
Lemma asm_mul_then_ntt16 : assembled 16 mul_then_ntt16.
Proof. exact (A_seq 16 _ _ (A_mul 16 psi_powers_ntt16_12289 len_psi_powers_ntt16_12289 can_psi_powers_ntt16_12289) (A_seq 16 _ _ (A_shuffle 16 (fun a => bitrev_shuffle a 16) (fun _ _ => eq_refl)) (A_transform 16 ntt_ct_rev2std_v1 psi_powers_ntt16_12289 ltac:(in_list) len_psi_powers_ntt16_12289 can_psi_powers_ntt16_12289))). Qed.
Lemma asm_combined_mulntt16 : assembled 16 combined_mulntt16.
Proof. exact (A_seq 16 _ _ (A_shuffle 16 (fun a => bitrev_shuffle a 16) (fun _ _ => eq_refl)) (A_transform 16 mulntt_ct_rev2std shoup_scaled_ntt16_12289 ltac:(in_list) len_shoup_scaled_ntt16_12289 can_shoup_scaled_ntt16_12289)). Qed.
Lemma asm_mul_then_ntt16_rev : assembled 16 mul_then_ntt16_rev.
Proof. exact (A_seq 16 _ _ (A_mul 16 psi_powers_ntt16_12289 len_psi_powers_ntt16_12289 can_psi_powers_ntt16_12289) (A_transform 16 ntt_ct_std2rev rev_shoup_ntt16_12289 ltac:(in_list) len_rev_shoup_ntt16_12289 can_rev_shoup_ntt16_12289)). Qed.
Lemma asm_combined_mulntt16_rev : assembled 16 combined_mulntt16_rev.
Proof. exact (A_transform 16 mulntt_ct_std2rev rev_shoup_scaled_ntt16_12289 ltac:(in_list) len_rev_shoup_scaled_ntt16_12289 can_rev_shoup_scaled_ntt16_12289). Qed.
Lemma asm_ntt_then_mul16 : assembled 16 ntt_then_mul16.
Proof. exact (A_seq 16 _ _ (A_shuffle 16 (fun a => bitrev_shuffle a 16) (fun _ _ => eq_refl)) (A_seq 16 _ _ (A_transform 16 ntt_ct_rev2std shoup_ntt16_12289 ltac:(in_list) len_shoup_ntt16_12289 can_shoup_ntt16_12289) (A_mul 16 psi_powers_ntt16_12289 len_psi_powers_ntt16_12289 can_psi_powers_ntt16_12289))). Qed.
Lemma asm_combined_nttmul16 : assembled 16 combined_nttmul16.
Proof. exact (A_seq 16 _ _ (A_shuffle 16 (fun a => bitrev_shuffle a 16) (fun _ _ => eq_refl)) (A_transform 16 nttmul_gs_rev2std rev_shoup_scaled_ntt16_12289 ltac:(in_list) len_rev_shoup_scaled_ntt16_12289 can_rev_shoup_scaled_ntt16_12289)). Qed.
Lemma asm_ntt_then_mul16_rev : assembled 16 ntt_then_mul16_rev.
Proof. exact (A_seq 16 _ _ (A_transform 16 ntt_ct_std2rev rev_shoup_ntt16_12289 ltac:(in_list) len_rev_shoup_ntt16_12289 can_rev_shoup_ntt16_12289) (A_seq 16 _ _ (A_shuffle 16 (fun a => bitrev_shuffle a 16) (fun _ _ => eq_refl)) (A_mul 16 psi_powers_ntt16_12289 len_psi_powers_ntt16_12289 can_psi_powers_ntt16_12289))). Qed.
Lemma asm_combined_nttmul16_rev : assembled 16 combined_nttmul16_rev.
Proof. exact (A_seq 16 _ _ (A_transform 16 nttmul_gs_std2rev shoup_scaled_ntt16_12289 ltac:(in_list) len_shoup_scaled_ntt16_12289 can_shoup_scaled_ntt16_12289) (A_shuffle 16 (fun a => bitrev_shuffle a 16) (fun _ _ => eq_refl))). Qed.
Lemma asm_mul_then_ntt256 : assembled 256 mul_then_ntt256.
Proof. exact (A_seq 256 _ _ (A_mul 256 psi_powers_ntt256_12289 len_psi_powers_ntt256_12289 can_psi_powers_ntt256_12289) (A_seq 256 _ _ (A_shuffle 256 bitrev_shuffle256 shuffle256_ok) (A_transform 256 ntt_ct_rev2std_v1 psi_powers_ntt256_12289 ltac:(in_list) len_psi_powers_ntt256_12289 can_psi_powers_ntt256_12289))). Qed.
Lemma asm_combined_mulntt256 : assembled 256 combined_mulntt256.
Proof. exact (A_seq 256 _ _ (A_shuffle 256 bitrev_shuffle256 shuffle256_ok) (A_transform 256 mulntt_ct_rev2std shoup_scaled_ntt256_12289 ltac:(in_list) len_shoup_scaled_ntt256_12289 can_shoup_scaled_ntt256_12289)). Qed.
Lemma asm_mul_then_ntt256_rev : assembled 256 mul_then_ntt256_rev.
Proof. exact (A_seq 256 _ _ (A_mul 256 psi_powers_ntt256_12289 len_psi_powers_ntt256_12289 can_psi_powers_ntt256_12289) (A_transform 256 ntt_ct_std2rev rev_shoup_ntt256_12289 ltac:(in_list) len_rev_shoup_ntt256_12289 can_rev_shoup_ntt256_12289)). Qed.
Lemma asm_combined_mulntt256_rev : assembled 256 combined_mulntt256_rev.
Proof. exact (A_transform 256 mulntt_ct_std2rev rev_shoup_scaled_ntt256_12289 ltac:(in_list) len_rev_shoup_scaled_ntt256_12289 can_rev_shoup_scaled_ntt256_12289). Qed.
Lemma asm_ntt_then_mul256 : assembled 256 ntt_then_mul256.
Proof. exact (A_seq 256 _ _ (A_shuffle 256 bitrev_shuffle256 shuffle256_ok) (A_seq 256 _ _ (A_transform 256 ntt_ct_rev2std shoup_ntt256_12289 ltac:(in_list) len_shoup_ntt256_12289 can_shoup_ntt256_12289) (A_mul 256 psi_powers_ntt256_12289 len_psi_powers_ntt256_12289 can_psi_powers_ntt256_12289))). Qed.
Lemma asm_combined_nttmul256 : assembled 256 combined_nttmul256.
Proof. exact (A_seq 256 _ _ (A_shuffle 256 bitrev_shuffle256 shuffle256_ok) (A_transform 256 nttmul_gs_rev2std rev_shoup_scaled_ntt256_12289 ltac:(in_list) len_rev_shoup_scaled_ntt256_12289 can_rev_shoup_scaled_ntt256_12289)). Qed.
Lemma asm_ntt_then_mul256_rev : assembled 256 ntt_then_mul256_rev.
Proof. exact (A_seq 256 _ _ (A_transform 256 ntt_ct_std2rev rev_shoup_ntt256_12289 ltac:(in_list) len_rev_shoup_ntt256_12289 can_rev_shoup_ntt256_12289) (A_seq 256 _ _ (A_shuffle 256 (fun a => bitrev_shuffle a 256) (fun _ _ => eq_refl)) (A_mul 256 psi_powers_ntt256_12289 len_psi_powers_ntt256_12289 can_psi_powers_ntt256_12289))). Qed.
Lemma asm_combined_nttmul256_rev : assembled 256 combined_nttmul256_rev.
Proof. exact (A_seq 256 _ _ (A_transform 256 nttmul_gs_std2rev shoup_scaled_ntt256_12289 ltac:(in_list) len_shoup_scaled_ntt256_12289 can_shoup_scaled_ntt256_12289) (A_shuffle 256 (fun a => bitrev_shuffle a 256) (fun _ _ => eq_refl))). Qed.
Lemma asm_mul_then_ntt512 : assembled 512 mul_then_ntt512.
Proof. exact (A_seq 512 _ _ (A_mul 512 psi_powers_ntt512_12289 len_psi_powers_ntt512_12289 can_psi_powers_ntt512_12289) (A_seq 512 _ _ (A_shuffle 512 bitrev_shuffle512 shuffle512_ok) (A_transform 512 ntt_ct_rev2std_v1 psi_powers_ntt512_12289 ltac:(in_list) len_psi_powers_ntt512_12289 can_psi_powers_ntt512_12289))). Qed.
Lemma asm_combined_mulntt512 : assembled 512 combined_mulntt512.
Proof. exact (A_seq 512 _ _ (A_shuffle 512 bitrev_shuffle512 shuffle512_ok) (A_transform 512 mulntt_ct_rev2std shoup_scaled_ntt512_12289 ltac:(in_list) len_shoup_scaled_ntt512_12289 can_shoup_scaled_ntt512_12289)). Qed.
Lemma asm_mul_then_ntt512_rev : assembled 512 mul_then_ntt512_rev.
Proof. exact (A_seq 512 _ _ (A_mul 512 psi_powers_ntt512_12289 len_psi_powers_ntt512_12289 can_psi_powers_ntt512_12289) (A_transform 512 ntt_ct_std2rev rev_shoup_ntt512_12289 ltac:(in_list) len_rev_shoup_ntt512_12289 can_rev_shoup_ntt512_12289)). Qed.
Lemma asm_combined_mulntt512_rev : assembled 512 combined_mulntt512_rev.
Proof. exact (A_transform 512 mulntt_ct_std2rev rev_shoup_scaled_ntt512_12289 ltac:(in_list) len_rev_shoup_scaled_ntt512_12289 can_rev_shoup_scaled_ntt512_12289). Qed.
Lemma asm_ntt_then_mul512 : assembled 512 ntt_then_mul512.
Proof. exact (A_seq 512 _ _ (A_shuffle 512 bitrev_shuffle512 shuffle512_ok) (A_seq 512 _ _ (A_transform 512 ntt_ct_rev2std shoup_ntt512_12289 ltac:(in_list) len_shoup_ntt512_12289 can_shoup_ntt512_12289) (A_mul 512 psi_powers_ntt512_12289 len_psi_powers_ntt512_12289 can_psi_powers_ntt512_12289))). Qed.
Lemma asm_combined_nttmul512 : assembled 512 combined_nttmul512.
Proof. exact (A_seq 512 _ _ (A_shuffle 512 bitrev_shuffle512 shuffle512_ok) (A_transform 512 nttmul_gs_rev2std rev_shoup_scaled_ntt512_12289 ltac:(in_list) len_rev_shoup_scaled_ntt512_12289 can_rev_shoup_scaled_ntt512_12289)). Qed.
Lemma asm_ntt_then_mul512_rev : assembled 512 ntt_then_mul512_rev.
Proof. exact (A_seq 512 _ _ (A_transform 512 ntt_ct_std2rev rev_shoup_ntt512_12289 ltac:(in_list) len_rev_shoup_ntt512_12289 can_rev_shoup_ntt512_12289) (A_seq 512 _ _ (A_shuffle 512 (fun a => bitrev_shuffle a 512) (fun _ _ => eq_refl)) (A_mul 512 psi_powers_ntt512_12289 len_psi_powers_ntt512_12289 can_psi_powers_ntt512_12289))). Qed.
Lemma asm_combined_nttmul512_rev : assembled 512 combined_nttmul512_rev.
Proof. exact (A_seq 512 _ _ (A_transform 512 nttmul_gs_std2rev shoup_scaled_ntt512_12289 ltac:(in_list) len_shoup_scaled_ntt512_12289 can_shoup_scaled_ntt512_12289) (A_shuffle 512 (fun a => bitrev_shuffle a 512) (fun _ _ => eq_refl))). Qed.
Lemma asm_mul_then_ntt1024 : assembled 1024 mul_then_ntt1024.
Proof. exact (A_seq 1024 _ _ (A_mul 1024 psi_powers_ntt1024_12289 len_psi_powers_ntt1024_12289 can_psi_powers_ntt1024_12289) (A_seq 1024 _ _ (A_shuffle 1024 bitrev_shuffle1024 shuffle1024_ok) (A_transform 1024 ntt_ct_rev2std_v1 psi_powers_ntt1024_12289 ltac:(in_list) len_psi_powers_ntt1024_12289 can_psi_powers_ntt1024_12289))). Qed.
Lemma asm_combined_mulntt1024 : assembled 1024 combined_mulntt1024.
Proof. exact (A_seq 1024 _ _ (A_shuffle 1024 bitrev_shuffle1024 shuffle1024_ok) (A_transform 1024 mulntt_ct_rev2std shoup_scaled_ntt1024_12289 ltac:(in_list) len_shoup_scaled_ntt1024_12289 can_shoup_scaled_ntt1024_12289)). Qed.
Lemma asm_mul_then_ntt1024_rev : assembled 1024 mul_then_ntt1024_rev.
Proof. exact (A_seq 1024 _ _ (A_mul 1024 psi_powers_ntt1024_12289 len_psi_powers_ntt1024_12289 can_psi_powers_ntt1024_12289) (A_transform 1024 ntt_ct_std2rev rev_shoup_ntt1024_12289 ltac:(in_list) len_rev_shoup_ntt1024_12289 can_rev_shoup_ntt1024_12289)). Qed.
Lemma asm_combined_mulntt1024_rev : assembled 1024 combined_mulntt1024_rev.
Proof. exact (A_transform 1024 mulntt_ct_std2rev rev_shoup_scaled_ntt1024_12289 ltac:(in_list) len_rev_shoup_scaled_ntt1024_12289 can_rev_shoup_scaled_ntt1024_12289). Qed.
Lemma asm_ntt_then_mul1024 : assembled 1024 ntt_then_mul1024.
Proof. exact (A_seq 1024 _ _ (A_shuffle 1024 bitrev_shuffle1024 shuffle1024_ok) (A_seq 1024 _ _ (A_transform 1024 ntt_ct_rev2std shoup_ntt1024_12289 ltac:(in_list) len_shoup_ntt1024_12289 can_shoup_ntt1024_12289) (A_mul 1024 psi_powers_ntt1024_12289 len_psi_powers_ntt1024_12289 can_psi_powers_ntt1024_12289))). Qed.
Lemma asm_combined_nttmul1024 : assembled 1024 combined_nttmul1024.
Proof. exact (A_seq 1024 _ _ (A_shuffle 1024 bitrev_shuffle1024 shuffle1024_ok) (A_transform 1024 nttmul_gs_rev2std rev_shoup_scaled_ntt1024_12289 ltac:(in_list) len_rev_shoup_scaled_ntt1024_12289 can_rev_shoup_scaled_ntt1024_12289)). Qed.
Lemma asm_ntt_then_mul1024_rev : assembled 1024 ntt_then_mul1024_rev.
Proof. exact (A_seq 1024 _ _ (A_transform 1024 ntt_ct_std2rev rev_shoup_ntt1024_12289 ltac:(in_list) len_rev_shoup_ntt1024_12289 can_rev_shoup_ntt1024_12289) (A_seq 1024 _ _ (A_shuffle 1024 (fun a => bitrev_shuffle a 1024) (fun _ _ => eq_refl)) (A_mul 1024 psi_powers_ntt1024_12289 len_psi_powers_ntt1024_12289 can_psi_powers_ntt1024_12289))). Qed.
Lemma asm_combined_nttmul1024_rev : assembled 1024 combined_nttmul1024_rev.
Proof. exact (A_seq 1024 _ _ (A_transform 1024 nttmul_gs_std2rev shoup_scaled_ntt1024_12289 ltac:(in_list) len_shoup_scaled_ntt1024_12289 can_shoup_scaled_ntt1024_12289) (A_shuffle 1024 (fun a => bitrev_shuffle a 1024) (fun _ _ => eq_refl))). Qed.
Lemma asm_speed_ntt16_v1 : assembled 16 speed_ntt16_v1.
Proof. exact (A_transform 16 ntt_ct_rev2std_v1 psi_powers_ntt16_12289 ltac:(in_list) len_psi_powers_ntt16_12289 can_psi_powers_ntt16_12289). Qed.
Lemma asm_speed_ntt16_v2 : assembled 16 speed_ntt16_v2.
Proof. exact (A_transform 16 ntt_ct_rev2std shoup_ntt16_12289 ltac:(in_list) len_shoup_ntt16_12289 can_shoup_ntt16_12289). Qed.
Lemma asm_speed_ntt16_v3 : assembled 16 speed_ntt16_v3.
Proof. exact (A_transform 16 mulntt_ct_rev2std shoup_ntt16_12289 ltac:(in_list) len_shoup_ntt16_12289 can_shoup_ntt16_12289). Qed.
Lemma asm_speed_ntt16_v4 : assembled 16 speed_ntt16_v4.
Proof. exact (A_transform 16 ntt_ct_std2rev rev_shoup_ntt16_12289 ltac:(in_list) len_rev_shoup_ntt16_12289 can_rev_shoup_ntt16_12289). Qed.
Lemma asm_speed_ntt16_v5 : assembled 16 speed_ntt16_v5.
Proof. exact (A_transform 16 mulntt_ct_rev2std rev_shoup_ntt16_12289 ltac:(in_list) len_rev_shoup_ntt16_12289 can_rev_shoup_ntt16_12289). Qed.
Lemma asm_speed_ntt16_v6 : assembled 16 speed_ntt16_v6.
Proof. exact (A_transform 16 ntt_gs_rev2std rev_shoup_ntt16_12289 ltac:(in_list) len_rev_shoup_ntt16_12289 can_rev_shoup_ntt16_12289). Qed.
Lemma asm_speed_ntt16_v7 : assembled 16 speed_ntt16_v7.
Proof. exact (A_transform 16 nttmul_gs_rev2std rev_shoup_ntt16_12289 ltac:(in_list) len_rev_shoup_ntt16_12289 can_rev_shoup_ntt16_12289). Qed.
Lemma asm_speed_ntt256_v1 : assembled 256 speed_ntt256_v1.
Proof. exact (A_transform 256 ntt_ct_rev2std_v1 psi_powers_ntt256_12289 ltac:(in_list) len_psi_powers_ntt256_12289 can_psi_powers_ntt256_12289). Qed.
Lemma asm_speed_ntt256_v2 : assembled 256 speed_ntt256_v2.
Proof. exact (A_transform 256 ntt_ct_rev2std shoup_ntt256_12289 ltac:(in_list) len_shoup_ntt256_12289 can_shoup_ntt256_12289). Qed.
Lemma asm_speed_ntt256_v3 : assembled 256 speed_ntt256_v3.
Proof. exact (A_transform 256 ntt_ct_std2rev rev_shoup_ntt256_12289 ltac:(in_list) len_rev_shoup_ntt256_12289 can_rev_shoup_ntt256_12289). Qed.
Lemma asm_speed_ntt256_v4 : assembled 256 speed_ntt256_v4.
Proof. exact (A_transform 256 ntt_gs_rev2std rev_shoup_ntt256_12289 ltac:(in_list) len_rev_shoup_ntt256_12289 can_rev_shoup_ntt256_12289). Qed.
Lemma asm_speed_ntt256_v5 : assembled 256 speed_ntt256_v5.
Proof. exact (A_transform 256 nttmul_gs_rev2std rev_shoup_ntt256_12289 ltac:(in_list) len_rev_shoup_ntt256_12289 can_rev_shoup_ntt256_12289). Qed.
Lemma asm_speed_ntt512_v1 : assembled 512 speed_ntt512_v1.
Proof. exact (A_transform 512 ntt_ct_rev2std_v1 psi_powers_ntt512_12289 ltac:(in_list) len_psi_powers_ntt512_12289 can_psi_powers_ntt512_12289). Qed.
Lemma asm_speed_ntt512_v2 : assembled 512 speed_ntt512_v2.
Proof. exact (A_transform 512 ntt_ct_rev2std shoup_ntt512_12289 ltac:(in_list) len_shoup_ntt512_12289 can_shoup_ntt512_12289). Qed.
Lemma asm_speed_ntt512_v3 : assembled 512 speed_ntt512_v3.
Proof. exact (A_transform 512 ntt_ct_std2rev rev_shoup_ntt512_12289 ltac:(in_list) len_rev_shoup_ntt512_12289 can_rev_shoup_ntt512_12289). Qed.
Lemma asm_speed_ntt512_v4 : assembled 512 speed_ntt512_v4.
Proof. exact (A_transform 512 ntt_gs_rev2std rev_shoup_ntt512_12289 ltac:(in_list) len_rev_shoup_ntt512_12289 can_rev_shoup_ntt512_12289). Qed.
Lemma asm_speed_ntt512_v5 : assembled 512 speed_ntt512_v5.
Proof. exact (A_transform 512 nttmul_gs_rev2std rev_shoup_ntt512_12289 ltac:(in_list) len_rev_shoup_ntt512_12289 can_rev_shoup_ntt512_12289). Qed.
Lemma asm_speed_ntt1024_v1 : assembled 1024 speed_ntt1024_v1.
Proof. exact (A_transform 1024 ntt_ct_rev2std_v1 psi_powers_ntt1024_12289 ltac:(in_list) len_psi_powers_ntt1024_12289 can_psi_powers_ntt1024_12289). Qed.
Lemma asm_speed_ntt1024_v2 : assembled 1024 speed_ntt1024_v2.
Proof. exact (A_transform 1024 ntt_ct_rev2std shoup_ntt1024_12289 ltac:(in_list) len_shoup_ntt1024_12289 can_shoup_ntt1024_12289). Qed.
Lemma asm_speed_ntt1024_v3 : assembled 1024 speed_ntt1024_v3.
Proof. exact (A_transform 1024 ntt_ct_std2rev rev_shoup_ntt1024_12289 ltac:(in_list) len_rev_shoup_ntt1024_12289 can_rev_shoup_ntt1024_12289). Qed.
Lemma asm_speed_ntt1024_v4 : assembled 1024 speed_ntt1024_v4.
Proof. exact (A_transform 1024 ntt_gs_rev2std rev_shoup_ntt1024_12289 ltac:(in_list) len_rev_shoup_ntt1024_12289 can_rev_shoup_ntt1024_12289). Qed.
Lemma asm_speed_ntt1024_v5 : assembled 1024 speed_ntt1024_v5.
Proof. exact (A_transform 1024 nttmul_gs_rev2std rev_shoup_ntt1024_12289 ltac:(in_list) len_rev_shoup_ntt1024_12289 can_rev_shoup_ntt1024_12289). Qed.

Lemma right16 :
  (computes_ntt 16 6553 ntt16_v1
   /\ computes_ntt 16 6553 ntt16_v2
   /\ computes_ntt 16 6553 ntt16_v3
   /\ computes_ntt 16 6553 ntt16_v4
   /\ computes_ntt 16 6553 ntt16_v5
   /\ computes_ntt 16 6553 ntt16_v6
   /\ computes_ntt 16 6553 ntt16_v7
   /\ computes_ntt 16 6553 ntt16_v8
   /\ computes_ntt 16 6553 ntt16_v9)
  /\ ((forall a, zlen a = 16 -> all_in 0 (Q - 1) a -> combined_mulntt16 a = mul_then_ntt16 a)
   /\ (forall a, zlen a = 16 -> all_in 0 (Q - 1) a -> combined_mulntt16_rev a = mul_then_ntt16_rev a)
   /\ (forall a, zlen a = 16 -> all_in 0 (Q - 1) a -> combined_nttmul16 a = ntt_then_mul16 a)
   /\ (forall a, zlen a = 16 -> all_in 0 (Q - 1) a -> combined_nttmul16_rev a = ntt_then_mul16_rev a)).
Proof.
  assert (K : 1 <= 4 <= 31) by lia.
  assert (W : eqQ (1212 ^ (2 ^ 4)) (-1)) by (change 4 with (Z.of_nat 4) at 1; rewrite <- sq_ok; vm_compute; reflexivity).
  assert (O : eqQ 6553 (1212 ^ 2)) by (vm_compute; reflexivity).
  assert (T1 := proj1 (ntt_omega_table 4 6553 shoup_ntt16_12289 ltac:(in_list))).
  assert (T2 := proj1 (ntt_omega_table_rev 4 6553 rev_shoup_ntt16_12289 ltac:(in_list))).
  assert (T3 := proj1 (ntt_mixed_table 4 1212 shoup_scaled_ntt16_12289 ltac:(in_list))).
  assert (T4 := proj1 (ntt_mixed_table_rev 4 1212 rev_shoup_scaled_ntt16_12289 ltac:(in_list))).
  assert (T5 := psi_powers_tables 4 1212 psi_powers_ntt16_12289 ltac:(in_list)).
  assert (X := all_right 4 1212 6553 _ _ _ _ _ (fun a => bitrev_shuffle a 16) K W O T1 T2 T3 T4 T5 can_shoup_ntt16_12289 can_rev_shoup_ntt16_12289
    can_shoup_scaled_ntt16_12289 can_rev_shoup_scaled_ntt16_12289 (fun _ _ => eq_refl)).
  assert (Y := all_right 4 1212 6553 _ _ _ _ _ (fun a => bitrev_shuffle a 16) K W O T1 T2 T3 T4 T5 can_shoup_ntt16_12289 can_rev_shoup_ntt16_12289
    can_shoup_scaled_ntt16_12289 can_rev_shoup_scaled_ntt16_12289 (fun _ _ => eq_refl)).
  cbv zeta in X, Y. change (2 ^ 4) with 16 in X, Y.
  destruct X as ((R1 & R2 & R3 & R4 & R5 & R6 & R7 & R8 & R9) & C1 & C2 & C3 & C4).
  destruct Y as (_ & _ & _ & _ & D4).
  split; [exact (conj R1 (conj R2 (conj R3 (conj R4 (conj R5 (conj R6 (conj R7 (conj R8 R9))))))))|].
  exact (conj C1 (conj C2 (conj C3 D4))).
Qed.

Lemma right256 :
  (computes_ntt 256 8595 ntt256_v1
   /\ computes_ntt 256 8595 ntt256_v2
   /\ computes_ntt 256 8595 ntt256_v3
   /\ computes_ntt 256 8595 ntt256_v4
   /\ computes_ntt 256 8595 ntt256_v5)
  /\ ((forall a, zlen a = 256 -> all_in 0 (Q - 1) a -> combined_mulntt256 a = mul_then_ntt256 a)
   /\ (forall a, zlen a = 256 -> all_in 0 (Q - 1) a -> combined_mulntt256_rev a = mul_then_ntt256_rev a)
   /\ (forall a, zlen a = 256 -> all_in 0 (Q - 1) a -> combined_nttmul256 a = ntt_then_mul256 a)
   /\ (forall a, zlen a = 256 -> all_in 0 (Q - 1) a -> combined_nttmul256_rev a = ntt_then_mul256_rev a)).
Proof.
  assert (K : 1 <= 8 <= 31) by lia.
  assert (W : eqQ (1002 ^ (2 ^ 8)) (-1)) by (change 8 with (Z.of_nat 8) at 1; rewrite <- sq_ok; vm_compute; reflexivity).
  assert (O : eqQ 8595 (1002 ^ 2)) by (vm_compute; reflexivity).
  assert (T1 := proj1 (ntt_omega_table 8 8595 shoup_ntt256_12289 ltac:(in_list))).
  assert (T2 := proj1 (ntt_omega_table_rev 8 8595 rev_shoup_ntt256_12289 ltac:(in_list))).
  assert (T3 := proj1 (ntt_mixed_table 8 1002 shoup_scaled_ntt256_12289 ltac:(in_list))).
  assert (T4 := proj1 (ntt_mixed_table_rev 8 1002 rev_shoup_scaled_ntt256_12289 ltac:(in_list))).
  assert (T5 := psi_powers_tables 8 1002 psi_powers_ntt256_12289 ltac:(in_list)).
  assert (X := all_right 8 1002 8595 _ _ _ _ _ bitrev_shuffle256 K W O T1 T2 T3 T4 T5 can_shoup_ntt256_12289 can_rev_shoup_ntt256_12289
    can_shoup_scaled_ntt256_12289 can_rev_shoup_scaled_ntt256_12289 shuffle256_ok).
  assert (Y := all_right 8 1002 8595 _ _ _ _ _ (fun a => bitrev_shuffle a 256) K W O T1 T2 T3 T4 T5 can_shoup_ntt256_12289 can_rev_shoup_ntt256_12289
    can_shoup_scaled_ntt256_12289 can_rev_shoup_scaled_ntt256_12289 (fun _ _ => eq_refl)).
  cbv zeta in X, Y. change (2 ^ 8) with 256 in X, Y.
  destruct X as ((R1 & R2 & R3 & R4 & R5 & R6 & R7 & R8 & R9) & C1 & C2 & C3 & C4).
  destruct Y as (_ & _ & _ & _ & D4).
  split; [exact (conj R1 (conj R2 (conj R4 (conj R6 R7))))|].
  exact (conj C1 (conj C2 (conj C3 D4))).
Qed.

Lemma right512 :
  (computes_ntt 512 10600 ntt512_v1
   /\ computes_ntt 512 10600 ntt512_v2
   /\ computes_ntt 512 10600 ntt512_v3
   /\ computes_ntt 512 10600 ntt512_v4
   /\ computes_ntt 512 10600 ntt512_v5)
  /\ ((forall a, zlen a = 512 -> all_in 0 (Q - 1) a -> combined_mulntt512 a = mul_then_ntt512 a)
   /\ (forall a, zlen a = 512 -> all_in 0 (Q - 1) a -> combined_mulntt512_rev a = mul_then_ntt512_rev a)
   /\ (forall a, zlen a = 512 -> all_in 0 (Q - 1) a -> combined_nttmul512 a = ntt_then_mul512 a)
   /\ (forall a, zlen a = 512 -> all_in 0 (Q - 1) a -> combined_nttmul512_rev a = ntt_then_mul512_rev a)).
Proof.
  assert (K : 1 <= 9 <= 31) by lia.
  assert (W : eqQ (1003 ^ (2 ^ 9)) (-1)) by (change 9 with (Z.of_nat 9) at 1; rewrite <- sq_ok; vm_compute; reflexivity).
  assert (O : eqQ 10600 (1003 ^ 2)) by (vm_compute; reflexivity).
  assert (T1 := proj1 (ntt_omega_table 9 10600 shoup_ntt512_12289 ltac:(in_list))).
  assert (T2 := proj1 (ntt_omega_table_rev 9 10600 rev_shoup_ntt512_12289 ltac:(in_list))).
  assert (T3 := proj1 (ntt_mixed_table 9 1003 shoup_scaled_ntt512_12289 ltac:(in_list))).
  assert (T4 := proj1 (ntt_mixed_table_rev 9 1003 rev_shoup_scaled_ntt512_12289 ltac:(in_list))).
  assert (T5 := psi_powers_tables 9 1003 psi_powers_ntt512_12289 ltac:(in_list)).
  assert (X := all_right 9 1003 10600 _ _ _ _ _ bitrev_shuffle512 K W O T1 T2 T3 T4 T5 can_shoup_ntt512_12289 can_rev_shoup_ntt512_12289
    can_shoup_scaled_ntt512_12289 can_rev_shoup_scaled_ntt512_12289 shuffle512_ok).
  assert (Y := all_right 9 1003 10600 _ _ _ _ _ (fun a => bitrev_shuffle a 512) K W O T1 T2 T3 T4 T5 can_shoup_ntt512_12289 can_rev_shoup_ntt512_12289
    can_shoup_scaled_ntt512_12289 can_rev_shoup_scaled_ntt512_12289 (fun _ _ => eq_refl)).
  cbv zeta in X, Y. change (2 ^ 9) with 512 in X, Y.
  destruct X as ((R1 & R2 & R3 & R4 & R5 & R6 & R7 & R8 & R9) & C1 & C2 & C3 & C4).
  destruct Y as (_ & _ & _ & _ & D4).
  split; [exact (conj R1 (conj R2 (conj R4 (conj R6 R7))))|].
  exact (conj C1 (conj C2 (conj C3 D4))).
Qed.

Lemma right1024 :
  (computes_ntt 1024 8209 ntt1024_v1
   /\ computes_ntt 1024 8209 ntt1024_v2
   /\ computes_ntt 1024 8209 ntt1024_v3
   /\ computes_ntt 1024 8209 ntt1024_v4
   /\ computes_ntt 1024 8209 ntt1024_v5)
  /\ ((forall a, zlen a = 1024 -> all_in 0 (Q - 1) a -> combined_mulntt1024 a = mul_then_ntt1024 a)
   /\ (forall a, zlen a = 1024 -> all_in 0 (Q - 1) a -> combined_mulntt1024_rev a = mul_then_ntt1024_rev a)
   /\ (forall a, zlen a = 1024 -> all_in 0 (Q - 1) a -> combined_nttmul1024 a = ntt_then_mul1024 a)
   /\ (forall a, zlen a = 1024 -> all_in 0 (Q - 1) a -> combined_nttmul1024_rev a = ntt_then_mul1024_rev a)).
Proof.
  assert (K : 1 <= 10 <= 31) by lia.
  assert (W : eqQ (1014 ^ (2 ^ 10)) (-1)) by (change 10 with (Z.of_nat 10) at 1; rewrite <- sq_ok; vm_compute; reflexivity).
  assert (O : eqQ 8209 (1014 ^ 2)) by (vm_compute; reflexivity).
  assert (T1 := proj1 (ntt_omega_table 10 8209 shoup_ntt1024_12289 ltac:(in_list))).
  assert (T2 := proj1 (ntt_omega_table_rev 10 8209 rev_shoup_ntt1024_12289 ltac:(in_list))).
  assert (T3 := proj1 (ntt_mixed_table 10 1014 shoup_scaled_ntt1024_12289 ltac:(in_list))).
  assert (T4 := proj1 (ntt_mixed_table_rev 10 1014 rev_shoup_scaled_ntt1024_12289 ltac:(in_list))).
  assert (T5 := psi_powers_tables 10 1014 psi_powers_ntt1024_12289 ltac:(in_list)).
  assert (X := all_right 10 1014 8209 _ _ _ _ _ bitrev_shuffle1024 K W O T1 T2 T3 T4 T5 can_shoup_ntt1024_12289 can_rev_shoup_ntt1024_12289
    can_shoup_scaled_ntt1024_12289 can_rev_shoup_scaled_ntt1024_12289 shuffle1024_ok).
  assert (Y := all_right 10 1014 8209 _ _ _ _ _ (fun a => bitrev_shuffle a 1024) K W O T1 T2 T3 T4 T5 can_shoup_ntt1024_12289 can_rev_shoup_ntt1024_12289
    can_shoup_scaled_ntt1024_12289 can_rev_shoup_scaled_ntt1024_12289 (fun _ _ => eq_refl)).
  cbv zeta in X, Y. change (2 ^ 10) with 1024 in X, Y.
  destruct X as ((R1 & R2 & R3 & R4 & R5 & R6 & R7 & R8 & R9) & C1 & C2 & C3 & C4).
  destruct Y as (_ & _ & _ & _ & D4).
  split; [exact (conj R1 (conj R2 (conj R4 (conj R6 R7))))|].
  exact (conj C1 (conj C2 (conj C3 D4))).
Qed.

(** Speed measurements *)
Lemma speed_fine clk a0 n W t c : 0 <= n <= 12289 -> linear_map n W -> zlen a0 = n -> zlen t = NTESTS ->
  exists t' c', speed_test clk a0 n W t c = Ok (t', c') /\ zlen t' = NTESTS.
Proof.
  intros Hn HW La HL. unfold speed_test. assert (HN := NTESTS_range).
  replace (n <=? 12289) with true by (symmetry; apply Z.leb_le; lia). cbn [cassert bind].
  destruct (fill_ok n a0 (fun i => i) (fun i a => wr a i (to_i32 i))) as (a & E & Lr & Va).
  - lia.
  - exact La.
  - intros i b Hi _. rewrite to_i32_small by lia. reflexivity.
  - rewrite E. cbn [bind].
    match goal with |- context [loop NTESTS ?B ?s0] =>
      destruct (loop_ok (fun _ (s : list Z * list Z * Z) => zlen (fst (fst s)) = NTESTS
        /\ zlen (snd (fst s)) = n /\ all_in 0 (Q - 1) (snd (fst s))) NTESTS B s0) as ([[t1 a1] c1] & E1 & L1 & _) end.
    + exact HN.
    + cbn [fst snd]. split; [exact HL|]. split; [exact Lr|]. apply all_in_of. intros i Hi. rewrite Va by lia. unfold Q. lia.
    + intros i [[u b] d] Hi (Lu & Lb & Ib). cbn [fst snd] in *. rewrite wr_ok by lia. cbn [bind].
      destruct (linear_canon n W HW b Lb Ib) as (r & -> & Lr' & Ir). cbn [bind]. eexists. split; [reflexivity|]. cbn [fst snd].
      split; [rewrite aset_len; exact Lu|]. auto.
    + rewrite E1. cbn [bind]. cbn [fst] in L1. destruct (TestsRun.report_ok clk (fun _ => []) 0 (fun _ => eq_refl) t1 c1 L1) as (t2 & -> & L2). eauto.
Qed.
Lemma lin16 W : assembled 16 W -> linear_map 16 W.
Proof. change 16 with (2 ^ 4). apply assembled_linear. lia. Qed.
Lemma lin256 W : assembled 256 W -> linear_map 256 W.
Proof. change 256 with (2 ^ 8). apply assembled_linear. lia. Qed.
Lemma lin512 W : assembled 512 W -> linear_map 512 W.
Proof. change 512 with (2 ^ 9). apply assembled_linear. lia. Qed.
Lemma lin1024 W : assembled 1024 W -> linear_map 1024 W.
Proof. change 1024 with (2 ^ 10). apply assembled_linear. lia. Qed.

Section Program.
Variables (clk : Z -> Z) (stk : Z -> Z -> list Z).
Hypothesis Hstk : forall c n, 0 <= n -> zlen (stk c n) = n.

Lemma simple_pass k n omega W c : n = 2 ^ k -> 1 <= k <= 13 -> 0 <= omega < 12289 -> eqQ (omega ^ (2 ^ (k - 1))) (-1) ->
  computes_ntt n omega W -> test_simple_polys (stk c n) n W omega = Ok tt.
Proof. intros -> Hk Ho Hw HW. apply basis_pass; auto. apply Hstk. apply Z.pow_nonneg. lia. Qed.
Lemma cross_fine k n f g c d : n = 2 ^ k -> 0 <= k <= 31 -> assembled n f -> assembled n g ->
  (forall a, zlen a = n -> all_in 0 (Q - 1) a -> f a = g a) -> cross_check (stk c n) (stk d n) n f g = Ok tt.
Proof.
  intros -> Hk Hf Hg H. assert (P : 0 <= 2 ^ k) by (apply Z.pow_nonneg; lia).
  apply (cross_check_decides_L k f g (stk c (2 ^ k)) (stk d (2 ^ k)) Hk Hf Hg (Hstk c _ P) (Hstk d _ P)). exact H.
Qed.

Lemma tests16_ok : tests16 stk = Ok tt.
Proof.
  assert (Hw : eqQ (6553 ^ (2 ^ (4 - 1))) (-1)) by (change (4 - 1) with (Z.of_nat 3); rewrite <- sq_ok; vm_compute; reflexivity).
  assert (X := fun W c => simple_pass 4 16 6553 W c eq_refl ltac:(lia) ltac:(lia) Hw).
  destruct right16 as ((H0 & H1 & H2 & H3 & H4 & H5 & H6 & H7 & H8) & _). unfold tests16.
  rewrite (X _ _ H0). cbn [bind].
  rewrite (X _ _ H1). cbn [bind].
  rewrite (X _ _ H2). cbn [bind].
  rewrite (X _ _ H3). cbn [bind].
  rewrite (X _ _ H4). cbn [bind].
  rewrite (X _ _ H5). cbn [bind].
  rewrite (X _ _ H6). cbn [bind].
  rewrite (X _ _ H7). cbn [bind].
  exact (X _ _ H8).
Qed.
Lemma tests256_ok : tests256 stk = Ok tt.
Proof.
  assert (Hw : eqQ (8595 ^ (2 ^ (8 - 1))) (-1)) by (change (8 - 1) with (Z.of_nat 7); rewrite <- sq_ok; vm_compute; reflexivity).
  assert (X := fun W c => simple_pass 8 256 8595 W c eq_refl ltac:(lia) ltac:(lia) Hw).
  destruct right256 as ((H0 & H1 & H2 & H3 & H4) & _). unfold tests256.
  rewrite (X _ _ H0). cbn [bind].
  rewrite (X _ _ H1). cbn [bind].
  rewrite (X _ _ H2). cbn [bind].
  rewrite (X _ _ H3). cbn [bind].
  exact (X _ _ H4).
Qed.
Lemma tests512_ok : tests512 stk = Ok tt.
Proof.
  assert (Hw : eqQ (10600 ^ (2 ^ (9 - 1))) (-1)) by (change (9 - 1) with (Z.of_nat 8); rewrite <- sq_ok; vm_compute; reflexivity).
  assert (X := fun W c => simple_pass 9 512 10600 W c eq_refl ltac:(lia) ltac:(lia) Hw).
  destruct right512 as ((H0 & H1 & H2 & H3 & H4) & _). unfold tests512.
  rewrite (X _ _ H0). cbn [bind].
  rewrite (X _ _ H1). cbn [bind].
  rewrite (X _ _ H2). cbn [bind].
  rewrite (X _ _ H3). cbn [bind].
  exact (X _ _ H4).
Qed.
Lemma tests1024_ok : tests1024 stk = Ok tt.
Proof.
  assert (Hw : eqQ (8209 ^ (2 ^ (10 - 1))) (-1)) by (change (10 - 1) with (Z.of_nat 9); rewrite <- sq_ok; vm_compute; reflexivity).
  assert (X := fun W c => simple_pass 10 1024 8209 W c eq_refl ltac:(lia) ltac:(lia) Hw).
  destruct right1024 as ((H0 & H1 & H2 & H3 & H4) & _). unfold tests1024.
  rewrite (X _ _ H0). cbn [bind].
  rewrite (X _ _ H1). cbn [bind].
  rewrite (X _ _ H2). cbn [bind].
  rewrite (X _ _ H3). cbn [bind].
  exact (X _ _ H4).
Qed.
Lemma cross_1_ok : cross_1 stk = Ok tt.
Proof.
  unfold cross_1.
  rewrite (cross_fine 4 16 _ _ 24 25 eq_refl ltac:(lia) asm_combined_mulntt16 asm_mul_then_ntt16 (proj1 (proj2 right16))). cbn [bind].
  rewrite (cross_fine 8 256 _ _ 26 27 eq_refl ltac:(lia) asm_combined_mulntt256 asm_mul_then_ntt256 (proj1 (proj2 right256))). cbn [bind].
  rewrite (cross_fine 9 512 _ _ 28 29 eq_refl ltac:(lia) asm_combined_mulntt512 asm_mul_then_ntt512 (proj1 (proj2 right512))). cbn [bind].
  exact (cross_fine 10 1024 _ _ 30 31 eq_refl ltac:(lia) asm_combined_mulntt1024 asm_mul_then_ntt1024 (proj1 (proj2 right1024))).
Qed.
Lemma cross_2_ok : cross_2 stk = Ok tt.
Proof.
  unfold cross_2.
  rewrite (cross_fine 4 16 _ _ 32 33 eq_refl ltac:(lia) asm_combined_mulntt16_rev asm_mul_then_ntt16_rev (proj1 (proj2 (proj2 right16)))). cbn [bind].
  rewrite (cross_fine 8 256 _ _ 34 35 eq_refl ltac:(lia) asm_combined_mulntt256_rev asm_mul_then_ntt256_rev (proj1 (proj2 (proj2 right256)))). cbn [bind].
  rewrite (cross_fine 9 512 _ _ 36 37 eq_refl ltac:(lia) asm_combined_mulntt512_rev asm_mul_then_ntt512_rev (proj1 (proj2 (proj2 right512)))). cbn [bind].
  exact (cross_fine 10 1024 _ _ 38 39 eq_refl ltac:(lia) asm_combined_mulntt1024_rev asm_mul_then_ntt1024_rev (proj1 (proj2 (proj2 right1024)))).
Qed.
Lemma cross_3_ok : cross_3 stk = Ok tt.
Proof.
  unfold cross_3.
  rewrite (cross_fine 4 16 _ _ 40 41 eq_refl ltac:(lia) asm_combined_nttmul16 asm_ntt_then_mul16 (proj1 (proj2 (proj2 (proj2 right16))))). cbn [bind].
  rewrite (cross_fine 8 256 _ _ 42 43 eq_refl ltac:(lia) asm_combined_nttmul256 asm_ntt_then_mul256 (proj1 (proj2 (proj2 (proj2 right256))))). cbn [bind].
  rewrite (cross_fine 9 512 _ _ 44 45 eq_refl ltac:(lia) asm_combined_nttmul512 asm_ntt_then_mul512 (proj1 (proj2 (proj2 (proj2 right512))))). cbn [bind].
  exact (cross_fine 10 1024 _ _ 46 47 eq_refl ltac:(lia) asm_combined_nttmul1024 asm_ntt_then_mul1024 (proj1 (proj2 (proj2 (proj2 right1024))))).
Qed.
Lemma cross_4_ok : cross_4 stk = Ok tt.
Proof.
  unfold cross_4.
  rewrite (cross_fine 4 16 _ _ 48 49 eq_refl ltac:(lia) asm_combined_nttmul16_rev asm_ntt_then_mul16_rev (proj2 (proj2 (proj2 (proj2 right16))))). cbn [bind].
  rewrite (cross_fine 8 256 _ _ 50 51 eq_refl ltac:(lia) asm_combined_nttmul256_rev asm_ntt_then_mul256_rev (proj2 (proj2 (proj2 (proj2 right256))))). cbn [bind].
  rewrite (cross_fine 9 512 _ _ 52 53 eq_refl ltac:(lia) asm_combined_nttmul512_rev asm_ntt_then_mul512_rev (proj2 (proj2 (proj2 (proj2 right512))))). cbn [bind].
  exact (cross_fine 10 1024 _ _ 54 55 eq_refl ltac:(lia) asm_combined_nttmul1024_rev asm_ntt_then_mul1024_rev (proj2 (proj2 (proj2 (proj2 right1024))))).
Qed.
Lemma speeds16_ok t c : zlen t = NTESTS -> exists t' c', speeds16 clk stk t c = Ok (t', c') /\ zlen t' = NTESTS.
Proof.
  intros L. unfold speeds16.
  destruct (speed_fine clk (stk 56 16) 16 speed_ntt16_v1 t c ltac:(lia) (lin16 _ asm_speed_ntt16_v1) (Hstk 56 16 ltac:(lia)) L) as (t1 & c1 & -> & L1). cbn [bind].
  destruct (speed_fine clk (stk 57 16) 16 speed_ntt16_v2 t1 c1 ltac:(lia) (lin16 _ asm_speed_ntt16_v2) (Hstk 57 16 ltac:(lia)) L1) as (t2 & c2 & -> & L2). cbn [bind].
  destruct (speed_fine clk (stk 58 16) 16 speed_ntt16_v3 t2 c2 ltac:(lia) (lin16 _ asm_speed_ntt16_v3) (Hstk 58 16 ltac:(lia)) L2) as (t3 & c3 & -> & L3). cbn [bind].
  destruct (speed_fine clk (stk 59 16) 16 speed_ntt16_v4 t3 c3 ltac:(lia) (lin16 _ asm_speed_ntt16_v4) (Hstk 59 16 ltac:(lia)) L3) as (t4 & c4 & -> & L4). cbn [bind].
  destruct (speed_fine clk (stk 60 16) 16 speed_ntt16_v5 t4 c4 ltac:(lia) (lin16 _ asm_speed_ntt16_v5) (Hstk 60 16 ltac:(lia)) L4) as (t5 & c5 & -> & L5). cbn [bind].
  destruct (speed_fine clk (stk 61 16) 16 speed_ntt16_v6 t5 c5 ltac:(lia) (lin16 _ asm_speed_ntt16_v6) (Hstk 61 16 ltac:(lia)) L5) as (t6 & c6 & -> & L6). cbn [bind].
  exact (speed_fine clk (stk 62 16) 16 speed_ntt16_v7 t6 c6 ltac:(lia) (lin16 _ asm_speed_ntt16_v7) (Hstk 62 16 ltac:(lia)) L6).
Qed.
Lemma speeds256_ok t c : zlen t = NTESTS -> exists t' c', speeds256 clk stk t c = Ok (t', c') /\ zlen t' = NTESTS.
Proof.
  intros L. unfold speeds256.
  destruct (speed_fine clk (stk 63 256) 256 speed_ntt256_v1 t c ltac:(lia) (lin256 _ asm_speed_ntt256_v1) (Hstk 63 256 ltac:(lia)) L) as (t1 & c1 & -> & L1). cbn [bind].
  destruct (speed_fine clk (stk 64 256) 256 speed_ntt256_v2 t1 c1 ltac:(lia) (lin256 _ asm_speed_ntt256_v2) (Hstk 64 256 ltac:(lia)) L1) as (t2 & c2 & -> & L2). cbn [bind].
  destruct (speed_fine clk (stk 65 256) 256 speed_ntt256_v3 t2 c2 ltac:(lia) (lin256 _ asm_speed_ntt256_v3) (Hstk 65 256 ltac:(lia)) L2) as (t3 & c3 & -> & L3). cbn [bind].
  destruct (speed_fine clk (stk 66 256) 256 speed_ntt256_v4 t3 c3 ltac:(lia) (lin256 _ asm_speed_ntt256_v4) (Hstk 66 256 ltac:(lia)) L3) as (t4 & c4 & -> & L4). cbn [bind].
  exact (speed_fine clk (stk 67 256) 256 speed_ntt256_v5 t4 c4 ltac:(lia) (lin256 _ asm_speed_ntt256_v5) (Hstk 67 256 ltac:(lia)) L4).
Qed.
Lemma speeds512_ok t c : zlen t = NTESTS -> exists t' c', speeds512 clk stk t c = Ok (t', c') /\ zlen t' = NTESTS.
Proof.
  intros L. unfold speeds512.
  destruct (speed_fine clk (stk 68 512) 512 speed_ntt512_v1 t c ltac:(lia) (lin512 _ asm_speed_ntt512_v1) (Hstk 68 512 ltac:(lia)) L) as (t1 & c1 & -> & L1). cbn [bind].
  destruct (speed_fine clk (stk 69 512) 512 speed_ntt512_v2 t1 c1 ltac:(lia) (lin512 _ asm_speed_ntt512_v2) (Hstk 69 512 ltac:(lia)) L1) as (t2 & c2 & -> & L2). cbn [bind].
  destruct (speed_fine clk (stk 70 512) 512 speed_ntt512_v3 t2 c2 ltac:(lia) (lin512 _ asm_speed_ntt512_v3) (Hstk 70 512 ltac:(lia)) L2) as (t3 & c3 & -> & L3). cbn [bind].
  destruct (speed_fine clk (stk 71 512) 512 speed_ntt512_v4 t3 c3 ltac:(lia) (lin512 _ asm_speed_ntt512_v4) (Hstk 71 512 ltac:(lia)) L3) as (t4 & c4 & -> & L4). cbn [bind].
  exact (speed_fine clk (stk 72 512) 512 speed_ntt512_v5 t4 c4 ltac:(lia) (lin512 _ asm_speed_ntt512_v5) (Hstk 72 512 ltac:(lia)) L4).
Qed.
Lemma speeds1024_ok t c : zlen t = NTESTS -> exists t' c', speeds1024 clk stk t c = Ok (t', c') /\ zlen t' = NTESTS.
Proof.
  intros L. unfold speeds1024.
  destruct (speed_fine clk (stk 73 1024) 1024 speed_ntt1024_v1 t c ltac:(lia) (lin1024 _ asm_speed_ntt1024_v1) (Hstk 73 1024 ltac:(lia)) L) as (t1 & c1 & -> & L1). cbn [bind].
  destruct (speed_fine clk (stk 74 1024) 1024 speed_ntt1024_v2 t1 c1 ltac:(lia) (lin1024 _ asm_speed_ntt1024_v2) (Hstk 74 1024 ltac:(lia)) L1) as (t2 & c2 & -> & L2). cbn [bind].
  destruct (speed_fine clk (stk 75 1024) 1024 speed_ntt1024_v3 t2 c2 ltac:(lia) (lin1024 _ asm_speed_ntt1024_v3) (Hstk 75 1024 ltac:(lia)) L2) as (t3 & c3 & -> & L3). cbn [bind].
  destruct (speed_fine clk (stk 76 1024) 1024 speed_ntt1024_v4 t3 c3 ltac:(lia) (lin1024 _ asm_speed_ntt1024_v4) (Hstk 76 1024 ltac:(lia)) L3) as (t4 & c4 & -> & L4). cbn [bind].
  exact (speed_fine clk (stk 77 1024) 1024 speed_ntt1024_v5 t4 c4 ltac:(lia) (lin1024 _ asm_speed_ntt1024_v5) (Hstk 77 1024 ltac:(lia)) L4).
Qed.
Lemma speeds16_mul_ok t c : zlen t = NTESTS -> exists t' c', speeds16_mul clk stk t c = Ok (t', c') /\ zlen t' = NTESTS.
Proof.
  intros L. unfold speeds16_mul.
  destruct (speed_fine clk (stk 78 16) 16 mul_then_ntt16 t c ltac:(lia) (lin16 _ asm_mul_then_ntt16) (Hstk 78 16 ltac:(lia)) L) as (t1 & c1 & -> & L1). cbn [bind].
  destruct (speed_fine clk (stk 79 16) 16 combined_mulntt16 t1 c1 ltac:(lia) (lin16 _ asm_combined_mulntt16) (Hstk 79 16 ltac:(lia)) L1) as (t2 & c2 & -> & L2). cbn [bind].
  destruct (speed_fine clk (stk 80 16) 16 mul_then_ntt16_rev t2 c2 ltac:(lia) (lin16 _ asm_mul_then_ntt16_rev) (Hstk 80 16 ltac:(lia)) L2) as (t3 & c3 & -> & L3). cbn [bind].
  destruct (speed_fine clk (stk 81 16) 16 combined_mulntt16_rev t3 c3 ltac:(lia) (lin16 _ asm_combined_mulntt16_rev) (Hstk 81 16 ltac:(lia)) L3) as (t4 & c4 & -> & L4). cbn [bind].
  destruct (speed_fine clk (stk 82 16) 16 ntt_then_mul16 t4 c4 ltac:(lia) (lin16 _ asm_ntt_then_mul16) (Hstk 82 16 ltac:(lia)) L4) as (t5 & c5 & -> & L5). cbn [bind].
  destruct (speed_fine clk (stk 83 16) 16 combined_nttmul16 t5 c5 ltac:(lia) (lin16 _ asm_combined_nttmul16) (Hstk 83 16 ltac:(lia)) L5) as (t6 & c6 & -> & L6). cbn [bind].
  destruct (speed_fine clk (stk 84 16) 16 ntt_then_mul16_rev t6 c6 ltac:(lia) (lin16 _ asm_ntt_then_mul16_rev) (Hstk 84 16 ltac:(lia)) L6) as (t7 & c7 & -> & L7). cbn [bind].
  exact (speed_fine clk (stk 85 16) 16 combined_nttmul16_rev t7 c7 ltac:(lia) (lin16 _ asm_combined_nttmul16_rev) (Hstk 85 16 ltac:(lia)) L7).
Qed.
Lemma speeds256_mul_ok t c : zlen t = NTESTS -> exists t' c', speeds256_mul clk stk t c = Ok (t', c') /\ zlen t' = NTESTS.
Proof.
  intros L. unfold speeds256_mul.
  destruct (speed_fine clk (stk 86 256) 256 mul_then_ntt256 t c ltac:(lia) (lin256 _ asm_mul_then_ntt256) (Hstk 86 256 ltac:(lia)) L) as (t1 & c1 & -> & L1). cbn [bind].
  destruct (speed_fine clk (stk 87 256) 256 combined_mulntt256 t1 c1 ltac:(lia) (lin256 _ asm_combined_mulntt256) (Hstk 87 256 ltac:(lia)) L1) as (t2 & c2 & -> & L2). cbn [bind].
  destruct (speed_fine clk (stk 88 256) 256 mul_then_ntt256_rev t2 c2 ltac:(lia) (lin256 _ asm_mul_then_ntt256_rev) (Hstk 88 256 ltac:(lia)) L2) as (t3 & c3 & -> & L3). cbn [bind].
  destruct (speed_fine clk (stk 89 256) 256 combined_mulntt256_rev t3 c3 ltac:(lia) (lin256 _ asm_combined_mulntt256_rev) (Hstk 89 256 ltac:(lia)) L3) as (t4 & c4 & -> & L4). cbn [bind].
  destruct (speed_fine clk (stk 90 256) 256 ntt_then_mul256 t4 c4 ltac:(lia) (lin256 _ asm_ntt_then_mul256) (Hstk 90 256 ltac:(lia)) L4) as (t5 & c5 & -> & L5). cbn [bind].
  destruct (speed_fine clk (stk 91 256) 256 combined_nttmul256 t5 c5 ltac:(lia) (lin256 _ asm_combined_nttmul256) (Hstk 91 256 ltac:(lia)) L5) as (t6 & c6 & -> & L6). cbn [bind].
  destruct (speed_fine clk (stk 92 256) 256 ntt_then_mul256_rev t6 c6 ltac:(lia) (lin256 _ asm_ntt_then_mul256_rev) (Hstk 92 256 ltac:(lia)) L6) as (t7 & c7 & -> & L7). cbn [bind].
  exact (speed_fine clk (stk 93 256) 256 combined_nttmul256_rev t7 c7 ltac:(lia) (lin256 _ asm_combined_nttmul256_rev) (Hstk 93 256 ltac:(lia)) L7).
Qed.
Lemma speeds512_mul_ok t c : zlen t = NTESTS -> exists t' c', speeds512_mul clk stk t c = Ok (t', c') /\ zlen t' = NTESTS.
Proof.
  intros L. unfold speeds512_mul.
  destruct (speed_fine clk (stk 94 512) 512 mul_then_ntt512 t c ltac:(lia) (lin512 _ asm_mul_then_ntt512) (Hstk 94 512 ltac:(lia)) L) as (t1 & c1 & -> & L1). cbn [bind].
  destruct (speed_fine clk (stk 95 512) 512 combined_mulntt512 t1 c1 ltac:(lia) (lin512 _ asm_combined_mulntt512) (Hstk 95 512 ltac:(lia)) L1) as (t2 & c2 & -> & L2). cbn [bind].
  destruct (speed_fine clk (stk 96 512) 512 mul_then_ntt512_rev t2 c2 ltac:(lia) (lin512 _ asm_mul_then_ntt512_rev) (Hstk 96 512 ltac:(lia)) L2) as (t3 & c3 & -> & L3). cbn [bind].
  destruct (speed_fine clk (stk 97 512) 512 combined_mulntt512_rev t3 c3 ltac:(lia) (lin512 _ asm_combined_mulntt512_rev) (Hstk 97 512 ltac:(lia)) L3) as (t4 & c4 & -> & L4). cbn [bind].
  destruct (speed_fine clk (stk 98 512) 512 ntt_then_mul512 t4 c4 ltac:(lia) (lin512 _ asm_ntt_then_mul512) (Hstk 98 512 ltac:(lia)) L4) as (t5 & c5 & -> & L5). cbn [bind].
  destruct (speed_fine clk (stk 99 512) 512 combined_nttmul512 t5 c5 ltac:(lia) (lin512 _ asm_combined_nttmul512) (Hstk 99 512 ltac:(lia)) L5) as (t6 & c6 & -> & L6). cbn [bind].
  destruct (speed_fine clk (stk 100 512) 512 ntt_then_mul512_rev t6 c6 ltac:(lia) (lin512 _ asm_ntt_then_mul512_rev) (Hstk 100 512 ltac:(lia)) L6) as (t7 & c7 & -> & L7). cbn [bind].
  exact (speed_fine clk (stk 101 512) 512 combined_nttmul512_rev t7 c7 ltac:(lia) (lin512 _ asm_combined_nttmul512_rev) (Hstk 101 512 ltac:(lia)) L7).
Qed.
Lemma speeds1024_mul_ok t c : zlen t = NTESTS -> exists t' c', speeds1024_mul clk stk t c = Ok (t', c') /\ zlen t' = NTESTS.
Proof.
  intros L. unfold speeds1024_mul.
  destruct (speed_fine clk (stk 102 1024) 1024 mul_then_ntt1024 t c ltac:(lia) (lin1024 _ asm_mul_then_ntt1024) (Hstk 102 1024 ltac:(lia)) L) as (t1 & c1 & -> & L1). cbn [bind].
  destruct (speed_fine clk (stk 103 1024) 1024 combined_mulntt1024 t1 c1 ltac:(lia) (lin1024 _ asm_combined_mulntt1024) (Hstk 103 1024 ltac:(lia)) L1) as (t2 & c2 & -> & L2). cbn [bind].
  destruct (speed_fine clk (stk 104 1024) 1024 mul_then_ntt1024_rev t2 c2 ltac:(lia) (lin1024 _ asm_mul_then_ntt1024_rev) (Hstk 104 1024 ltac:(lia)) L2) as (t3 & c3 & -> & L3). cbn [bind].
  destruct (speed_fine clk (stk 105 1024) 1024 combined_mulntt1024_rev t3 c3 ltac:(lia) (lin1024 _ asm_combined_mulntt1024_rev) (Hstk 105 1024 ltac:(lia)) L3) as (t4 & c4 & -> & L4). cbn [bind].
  destruct (speed_fine clk (stk 106 1024) 1024 ntt_then_mul1024 t4 c4 ltac:(lia) (lin1024 _ asm_ntt_then_mul1024) (Hstk 106 1024 ltac:(lia)) L4) as (t5 & c5 & -> & L5). cbn [bind].
  destruct (speed_fine clk (stk 107 1024) 1024 combined_nttmul1024 t5 c5 ltac:(lia) (lin1024 _ asm_combined_nttmul1024) (Hstk 107 1024 ltac:(lia)) L5) as (t6 & c6 & -> & L6). cbn [bind].
  destruct (speed_fine clk (stk 108 1024) 1024 ntt_then_mul1024_rev t6 c6 ltac:(lia) (lin1024 _ asm_ntt_then_mul1024_rev) (Hstk 108 1024 ltac:(lia)) L6) as (t7 & c7 & -> & L7). cbn [bind].
  exact (speed_fine clk (stk 109 1024) 1024 combined_nttmul1024_rev t7 c7 ltac:(lia) (lin1024 _ asm_combined_nttmul1024_rev) (Hstk 109 1024 ltac:(lia)) L7).
Qed.

Lemma main_ok : main clk stk = Ok 0.
Proof.
  unfold main.
  rewrite tests16_ok. cbn [bind].
  rewrite tests256_ok. cbn [bind].
  rewrite tests512_ok. cbn [bind].
  rewrite tests1024_ok. cbn [bind].
  rewrite cross_1_ok. cbn [bind].
  rewrite cross_2_ok. cbn [bind].
  rewrite cross_3_ok. cbn [bind].
  rewrite cross_4_ok. cbn [bind].
  assert (L0 : zlen (repeat 0 (Z.to_nat NTESTS)) = NTESTS).
  { unfold zlen. rewrite repeat_length. apply Z2Nat.id. assert (X := NTESTS_range). lia. }
  destruct (speeds16_ok _ 0 L0) as (t1 & c1 & -> & L1). cbn [bind].
  destruct (speeds256_ok t1 c1 L1) as (t2 & c2 & -> & L2). cbn [bind].
  destruct (speeds512_ok t2 c2 L2) as (t3 & c3 & -> & L3). cbn [bind].
  destruct (speeds1024_ok t3 c3 L3) as (t4 & c4 & -> & L4). cbn [bind].
  destruct (speeds16_mul_ok t4 c4 L4) as (t5 & c5 & -> & L5). cbn [bind].
  destruct (speeds256_mul_ok t5 c5 L5) as (t6 & c6 & -> & L6). cbn [bind].
  destruct (speeds512_mul_ok t6 c6 L6) as (t7 & c7 & -> & L7). cbn [bind].
  destruct (speeds1024_mul_ok t7 c7 L7) as (t8 & c8 & -> & L8). cbn [bind].
  reflexivity.
Qed.
End Program.

Lemma test_ntt_functions_right_L :
  (forall n omega W, In (n, omega, W)
  [(16, 6553, ntt16_v1); (16, 6553, ntt16_v2); (16, 6553, ntt16_v3);
   (16, 6553, ntt16_v4); (16, 6553, ntt16_v5); (16, 6553, ntt16_v6);
   (16, 6553, ntt16_v7); (16, 6553, ntt16_v8); (16, 6553, ntt16_v9);
   (256, 8595, ntt256_v1); (256, 8595, ntt256_v2); (256, 8595, ntt256_v3);
   (256, 8595, ntt256_v4); (256, 8595, ntt256_v5); (512, 10600, ntt512_v1);
   (512, 10600, ntt512_v2); (512, 10600, ntt512_v3); (512, 10600, ntt512_v4);
   (512, 10600, ntt512_v5); (1024, 8209, ntt1024_v1); (1024, 8209, ntt1024_v2);
   (1024, 8209, ntt1024_v3); (1024, 8209, ntt1024_v4); (1024, 8209, ntt1024_v5)] -> computes_ntt n omega W)
  /\ (forall n f g, In (n, f, g)
  [(16, combined_mulntt16, mul_then_ntt16); (16, combined_mulntt16_rev, mul_then_ntt16_rev);
   (16, combined_nttmul16, ntt_then_mul16); (16, combined_nttmul16_rev, ntt_then_mul16_rev);
   (256, combined_mulntt256, mul_then_ntt256); (256, combined_mulntt256_rev, mul_then_ntt256_rev);
   (256, combined_nttmul256, ntt_then_mul256); (256, combined_nttmul256_rev, ntt_then_mul256_rev);
   (512, combined_mulntt512, mul_then_ntt512); (512, combined_mulntt512_rev, mul_then_ntt512_rev);
   (512, combined_nttmul512, ntt_then_mul512); (512, combined_nttmul512_rev, ntt_then_mul512_rev);
   (1024, combined_mulntt1024, mul_then_ntt1024); (1024, combined_mulntt1024_rev, mul_then_ntt1024_rev);
   (1024, combined_nttmul1024, ntt_then_mul1024); (1024, combined_nttmul1024_rev, ntt_then_mul1024_rev)] ->
   forall a, zlen a = n -> all_in 0 (Q - 1) a -> f a = g a).
Proof.
  destruct right16 as (R1 & C1), right256 as (R2 & C2), right512 as (R3 & C3), right1024 as (R4 & C4).
  repeat match goal with H : _ /\ _ |- _ => destruct H end.
  split.
  - intros n omega W HI. cbn [In] in HI.
    repeat (destruct HI as [HI|HI]; [injection HI as <- <- <-; assumption|]). destruct HI.
  - intros n f g HI. cbn [In] in HI.
    repeat (destruct HI as [HI|HI]; [injection HI as <- <- <-; assumption|]). destruct HI.
Qed.
