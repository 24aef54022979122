(** Lemmas behind [PropTestNttAvx]. *)

From Coq Require Import ZArith List Bool Lia.
From Verif Require Import CSem Spec Loops AvxSem ModelRed ModelAvx ModelSort ModelTests TestsElem TestsSound TestsRun ModelTestAvx
  TestAvxElem AvxNttFinal ModelTestTables TestNttRedFinal FineAll FineTabs ModelTestNttAvx TestNttAvxElem Repeat Calm.
From Verif Require AvxArrays TestAvxFinal.
Import ListNotations.
Open Scope Z_scope.

(** ** The bounds *)
Lemma ctA_plain_bound k p : In (k, p)
  [(4%nat, shoup_sred_ntt16_12289);
   (7%nat, shoup_sred_ntt128_12289);
   (8%nat, shoup_sred_ntt256_12289);
   (9%nat, shoup_sred_ntt512_12289);
   (10%nat, shoup_sred_ntt1024_12289);
   (11%nat, shoup_sred_ntt2048_12289)] ->
  all_small 1000000000 (ctA_levels k p 200000) = true.
Proof.
  intros H. cbn [In] in H. destruct H as [E|[E|[E|[E|[E|[E|[]]]]]]]; injection E as <- <-; vm_compute; reflexivity.
Qed.
Lemma ctB_rev_bound k p : In (k, p)
  [(4%nat, rev_shoup_sred_ntt16_12289);
   (7%nat, rev_shoup_sred_ntt128_12289);
   (8%nat, rev_shoup_sred_ntt256_12289);
   (9%nat, rev_shoup_sred_ntt512_12289);
   (10%nat, rev_shoup_sred_ntt1024_12289);
   (11%nat, rev_shoup_sred_ntt2048_12289)] ->
  all_small 1000000000 (ctB_levels k p 200000) = true.
Proof.
  intros H. cbn [In] in H. destruct H as [E|[E|[E|[E|[E|[E|[]]]]]]]; injection E as <- <-; vm_compute; reflexivity.
Qed.
Lemma ctB_rev_scaled_bound k p : In (k, p)
  [(4%nat, rev_shoup_sred_scaled_ntt16_12289);
   (7%nat, rev_shoup_sred_scaled_ntt128_12289);
   (8%nat, rev_shoup_sred_scaled_ntt256_12289);
   (9%nat, rev_shoup_sred_scaled_ntt512_12289);
   (10%nat, rev_shoup_sred_scaled_ntt1024_12289);
   (11%nat, rev_shoup_sred_scaled_ntt2048_12289)] ->
  all_small 1000000000 (ctB_levels k p 200000) = true.
Proof.
  intros H. cbn [In] in H. destruct H as [E|[E|[E|[E|[E|[E|[]]]]]]]; injection E as <- <-; vm_compute; reflexivity.
Qed.
Lemma gsB_rev_bound k p : In (k, p)
  [(4%nat, rev_shoup_sred_ntt16_12289);
   (7%nat, rev_shoup_sred_ntt128_12289);
   (8%nat, rev_shoup_sred_ntt256_12289);
   (9%nat, rev_shoup_sred_ntt512_12289);
   (10%nat, rev_shoup_sred_ntt1024_12289);
   (11%nat, rev_shoup_sred_ntt2048_12289)] ->
  all_small 1000000000 (gsB_levels k p 200000) = true.
Proof.
  intros H. cbn [In] in H. destruct H as [E|[E|[E|[E|[E|[E|[]]]]]]]; injection E as <- <-; vm_compute; reflexivity.
Qed.
Lemma gsB_rev_scaled_bound k p : In (k, p)
  [(4%nat, rev_shoup_sred_scaled_ntt16_12289);
   (7%nat, rev_shoup_sred_scaled_ntt128_12289);
   (8%nat, rev_shoup_sred_scaled_ntt256_12289);
   (9%nat, rev_shoup_sred_scaled_ntt512_12289);
   (10%nat, rev_shoup_sred_scaled_ntt1024_12289);
   (11%nat, rev_shoup_sred_scaled_ntt2048_12289)] ->
  all_small 1000000000 (gsB_levels k p 200000) = true.
Proof.
  intros H. cbn [In] in H. destruct H as [E|[E|[E|[E|[E|[E|[]]]]]]]; injection E as <- <-; vm_compute; reflexivity.
Qed.
Lemma gsA_plain_bound k p : In (k, p)
  [(4%nat, shoup_sred_ntt16_12289);
   (7%nat, shoup_sred_ntt128_12289);
   (8%nat, shoup_sred_ntt256_12289);
   (9%nat, shoup_sred_ntt512_12289);
   (10%nat, shoup_sred_ntt1024_12289);
   (11%nat, shoup_sred_ntt2048_12289)] ->
  all_small 1000000000 (gsA_levels k p 200000) = true.
Proof.
  intros H. cbn [In] in H. destruct H as [E|[E|[E|[E|[E|[E|[]]]]]]]; injection E as <- <-; vm_compute; reflexivity.
Qed.
Lemma gsA_scaled_bound k p : In (k, p)
  [(4%nat, shoup_sred_scaled_ntt16_12289);
   (7%nat, shoup_sred_scaled_ntt128_12289);
   (8%nat, shoup_sred_scaled_ntt256_12289);
   (9%nat, shoup_sred_scaled_ntt512_12289);
   (10%nat, shoup_sred_scaled_ntt1024_12289);
   (11%nat, shoup_sred_scaled_ntt2048_12289)] ->
  all_small 1000000000 (gsA_levels k p 200000) = true.
Proof.
  intros H. cbn [In] in H. destruct H as [E|[E|[E|[E|[E|[E|[]]]]]]]; injection E as <- <-; vm_compute; reflexivity.
Qed.

(** ** The tables *)
Definition good (k : nat) (p : list Z) : Prop := (4 <= k <= 31)%nat /\ zlen p = 2 ^ Z.of_nat k /\ all_in (-6144) 6144 p.
Lemma entries k p : zlen p = 2 ^ k -> all_in (-6144) 6144 p -> forall i, 1 <= i < 2 ^ k -> -6144 <= at_ p i <= 6144.
Proof. intros L H i Hi. apply all_in_at; [exact H|lia]. Qed.
Lemma plain_good k p : In (k, p)
  [(4%nat, shoup_sred_ntt16_12289);
   (7%nat, shoup_sred_ntt128_12289);
   (8%nat, shoup_sred_ntt256_12289);
   (9%nat, shoup_sred_ntt512_12289);
   (10%nat, shoup_sred_ntt1024_12289);
   (11%nat, shoup_sred_ntt2048_12289)] ->
  good k p /\ unit_rows (Z.of_nat k) p.
Proof.
  intros H. cbn [In] in H. destruct H as [E|[E|[E|[E|[E|[E|[]]]]]]]; injection E as <- <-.
  - destruct (sred_omega_table 4 6553 _ ltac:(cbn [In]; tauto)) as (H1 & H2).
    assert (L : zlen shoup_sred_ntt16_12289 = 2 ^ Z.of_nat 4) by (vm_compute; reflexivity).
    split; [split; [lia|split; [exact L|exact H2]]|exact (omega_unit 4 6553 _ H1 (entries _ _ L H2))].
  - destruct (sred_omega_table 7 12208 _ ltac:(cbn [In]; tauto)) as (H1 & H2).
    assert (L : zlen shoup_sred_ntt128_12289 = 2 ^ Z.of_nat 7) by (vm_compute; reflexivity).
    split; [split; [lia|split; [exact L|exact H2]]|exact (omega_unit 7 12208 _ H1 (entries _ _ L H2))].
  - destruct (sred_omega_table 8 8595 _ ltac:(cbn [In]; tauto)) as (H1 & H2).
    assert (L : zlen shoup_sred_ntt256_12289 = 2 ^ Z.of_nat 8) by (vm_compute; reflexivity).
    split; [split; [lia|split; [exact L|exact H2]]|exact (omega_unit 8 8595 _ H1 (entries _ _ L H2))].
  - destruct (sred_omega_table 9 10600 _ ltac:(cbn [In]; tauto)) as (H1 & H2).
    assert (L : zlen shoup_sred_ntt512_12289 = 2 ^ Z.of_nat 9) by (vm_compute; reflexivity).
    split; [split; [lia|split; [exact L|exact H2]]|exact (omega_unit 9 10600 _ H1 (entries _ _ L H2))].
  - destruct (sred_omega_table 10 8209 _ ltac:(cbn [In]; tauto)) as (H1 & H2).
    assert (L : zlen shoup_sred_ntt1024_12289 = 2 ^ Z.of_nat 10) by (vm_compute; reflexivity).
    split; [split; [lia|split; [exact L|exact H2]]|exact (omega_unit 10 8209 _ H1 (entries _ _ L H2))].
  - destruct (sred_omega_table 11 12269 _ ltac:(cbn [In]; tauto)) as (H1 & H2).
    assert (L : zlen shoup_sred_ntt2048_12289 = 2 ^ Z.of_nat 11) by (vm_compute; reflexivity).
    split; [split; [lia|split; [exact L|exact H2]]|exact (omega_unit 11 12269 _ H1 (entries _ _ L H2))].
Qed.
Lemma rev_good k p : In (k, p)
  [(4%nat, rev_shoup_sred_ntt16_12289);
   (7%nat, rev_shoup_sred_ntt128_12289);
   (8%nat, rev_shoup_sred_ntt256_12289);
   (9%nat, rev_shoup_sred_ntt512_12289);
   (10%nat, rev_shoup_sred_ntt1024_12289);
   (11%nat, rev_shoup_sred_ntt2048_12289)] ->
  good k p /\ unit_rows (Z.of_nat k) p.
Proof.
  intros H. cbn [In] in H. destruct H as [E|[E|[E|[E|[E|[E|[]]]]]]]; injection E as <- <-.
  - destruct (sred_omega_table_rev 4 6553 _ ltac:(cbn [In]; tauto)) as (H1 & H2).
    assert (L : zlen rev_shoup_sred_ntt16_12289 = 2 ^ Z.of_nat 4) by (vm_compute; reflexivity).
    split; [split; [lia|split; [exact L|exact H2]]|exact (omega_rev_unit 4 6553 _ H1 (entries _ _ L H2))].
  - destruct (sred_omega_table_rev 7 12208 _ ltac:(cbn [In]; tauto)) as (H1 & H2).
    assert (L : zlen rev_shoup_sred_ntt128_12289 = 2 ^ Z.of_nat 7) by (vm_compute; reflexivity).
    split; [split; [lia|split; [exact L|exact H2]]|exact (omega_rev_unit 7 12208 _ H1 (entries _ _ L H2))].
  - destruct (sred_omega_table_rev 8 8595 _ ltac:(cbn [In]; tauto)) as (H1 & H2).
    assert (L : zlen rev_shoup_sred_ntt256_12289 = 2 ^ Z.of_nat 8) by (vm_compute; reflexivity).
    split; [split; [lia|split; [exact L|exact H2]]|exact (omega_rev_unit 8 8595 _ H1 (entries _ _ L H2))].
  - destruct (sred_omega_table_rev 9 10600 _ ltac:(cbn [In]; tauto)) as (H1 & H2).
    assert (L : zlen rev_shoup_sred_ntt512_12289 = 2 ^ Z.of_nat 9) by (vm_compute; reflexivity).
    split; [split; [lia|split; [exact L|exact H2]]|exact (omega_rev_unit 9 10600 _ H1 (entries _ _ L H2))].
  - destruct (sred_omega_table_rev 10 8209 _ ltac:(cbn [In]; tauto)) as (H1 & H2).
    assert (L : zlen rev_shoup_sred_ntt1024_12289 = 2 ^ Z.of_nat 10) by (vm_compute; reflexivity).
    split; [split; [lia|split; [exact L|exact H2]]|exact (omega_rev_unit 10 8209 _ H1 (entries _ _ L H2))].
  - destruct (sred_omega_table_rev 11 12269 _ ltac:(cbn [In]; tauto)) as (H1 & H2).
    assert (L : zlen rev_shoup_sred_ntt2048_12289 = 2 ^ Z.of_nat 11) by (vm_compute; reflexivity).
    split; [split; [lia|split; [exact L|exact H2]]|exact (omega_rev_unit 11 12269 _ H1 (entries _ _ L H2))].
Qed.
Lemma scaled_good k p : In (k, p)
  [(4%nat, shoup_sred_scaled_ntt16_12289);
   (7%nat, shoup_sred_scaled_ntt128_12289);
   (8%nat, shoup_sred_scaled_ntt256_12289);
   (9%nat, shoup_sred_scaled_ntt512_12289);
   (10%nat, shoup_sred_scaled_ntt1024_12289);
   (11%nat, shoup_sred_scaled_ntt2048_12289)] ->
  good k p.
Proof.
  intros H. cbn [In] in H. destruct H as [E|[E|[E|[E|[E|[E|[]]]]]]]; injection E as <- <-.
  - destruct (sred_mixed_table 4 1212 _ ltac:(cbn [In]; tauto)) as (H1 & H2).
    assert (L : zlen shoup_sred_scaled_ntt16_12289 = 2 ^ Z.of_nat 4) by (vm_compute; reflexivity).
    split; [lia|split; [exact L|exact H2]].
  - destruct (sred_mixed_table 7 1022 _ ltac:(cbn [In]; tauto)) as (H1 & H2).
    assert (L : zlen shoup_sred_scaled_ntt128_12289 = 2 ^ Z.of_nat 7) by (vm_compute; reflexivity).
    split; [lia|split; [exact L|exact H2]].
  - destruct (sred_mixed_table 8 1002 _ ltac:(cbn [In]; tauto)) as (H1 & H2).
    assert (L : zlen shoup_sred_scaled_ntt256_12289 = 2 ^ Z.of_nat 8) by (vm_compute; reflexivity).
    split; [lia|split; [exact L|exact H2]].
  - destruct (sred_mixed_table 9 1003 _ ltac:(cbn [In]; tauto)) as (H1 & H2).
    assert (L : zlen shoup_sred_scaled_ntt512_12289 = 2 ^ Z.of_nat 9) by (vm_compute; reflexivity).
    split; [lia|split; [exact L|exact H2]].
  - destruct (sred_mixed_table 10 1014 _ ltac:(cbn [In]; tauto)) as (H1 & H2).
    assert (L : zlen shoup_sred_scaled_ntt1024_12289 = 2 ^ Z.of_nat 10) by (vm_compute; reflexivity).
    split; [lia|split; [exact L|exact H2]].
  - destruct (sred_mixed_table 11 1016 _ ltac:(cbn [In]; tauto)) as (H1 & H2).
    assert (L : zlen shoup_sred_scaled_ntt2048_12289 = 2 ^ Z.of_nat 11) by (vm_compute; reflexivity).
    split; [lia|split; [exact L|exact H2]].
Qed.
Lemma rev_scaled_good k p : In (k, p)
  [(4%nat, rev_shoup_sred_scaled_ntt16_12289);
   (7%nat, rev_shoup_sred_scaled_ntt128_12289);
   (8%nat, rev_shoup_sred_scaled_ntt256_12289);
   (9%nat, rev_shoup_sred_scaled_ntt512_12289);
   (10%nat, rev_shoup_sred_scaled_ntt1024_12289);
   (11%nat, rev_shoup_sred_scaled_ntt2048_12289)] ->
  good k p.
Proof.
  intros H. cbn [In] in H. destruct H as [E|[E|[E|[E|[E|[E|[]]]]]]]; injection E as <- <-.
  - destruct (sred_mixed_table_rev 4 1212 _ ltac:(cbn [In]; tauto)) as (H1 & H2).
    assert (L : zlen rev_shoup_sred_scaled_ntt16_12289 = 2 ^ Z.of_nat 4) by (vm_compute; reflexivity).
    split; [lia|split; [exact L|exact H2]].
  - destruct (sred_mixed_table_rev 7 1022 _ ltac:(cbn [In]; tauto)) as (H1 & H2).
    assert (L : zlen rev_shoup_sred_scaled_ntt128_12289 = 2 ^ Z.of_nat 7) by (vm_compute; reflexivity).
    split; [lia|split; [exact L|exact H2]].
  - destruct (sred_mixed_table_rev 8 1002 _ ltac:(cbn [In]; tauto)) as (H1 & H2).
    assert (L : zlen rev_shoup_sred_scaled_ntt256_12289 = 2 ^ Z.of_nat 8) by (vm_compute; reflexivity).
    split; [lia|split; [exact L|exact H2]].
  - destruct (sred_mixed_table_rev 9 1003 _ ltac:(cbn [In]; tauto)) as (H1 & H2).
    assert (L : zlen rev_shoup_sred_scaled_ntt512_12289 = 2 ^ Z.of_nat 9) by (vm_compute; reflexivity).
    split; [lia|split; [exact L|exact H2]].
  - destruct (sred_mixed_table_rev 10 1014 _ ltac:(cbn [In]; tauto)) as (H1 & H2).
    assert (L : zlen rev_shoup_sred_scaled_ntt1024_12289 = 2 ^ Z.of_nat 10) by (vm_compute; reflexivity).
    split; [lia|split; [exact L|exact H2]].
  - destruct (sred_mixed_table_rev 11 1016 _ ltac:(cbn [In]; tauto)) as (H1 & H2).
    assert (L : zlen rev_shoup_sred_scaled_ntt2048_12289 = 2 ^ Z.of_nat 11) by (vm_compute; reflexivity).
    split; [lia|split; [exact L|exact H2]].
Qed.

(** ** The comparisons *)
Lemma comparisons_agree n f g : In (n, f, g)
  [(16, ntt_ct_rev2std16_asm, ntt_ct_rev2std16_base);
   (16, mulntt_ct_rev2std16_asm, mulntt_ct_rev2std16_base);
   (16, ntt_ct_std2rev16_asm, ntt_ct_std2rev16_base);
   (16, mulntt_ct_std2rev16_asm, mulntt_ct_std2rev16_base);
   (16, ntt_gs_rev2std16_asm, ntt_gs_rev2std16_base);
   (16, nttmul_gs_rev2std16_asm, nttmul_gs_rev2std16_base);
   (16, ntt_gs_std2rev16_asm, ntt_gs_std2rev16_base);
   (16, nttmul_gs_std2rev16_asm, nttmul_gs_std2rev16_base);
   (128, ntt_ct_rev2std128_asm, ntt_ct_rev2std128_base);
   (128, mulntt_ct_rev2std128_asm, mulntt_ct_rev2std128_base);
   (128, ntt_ct_std2rev128_asm, ntt_ct_std2rev128_base);
   (128, mulntt_ct_std2rev128_asm, mulntt_ct_std2rev128_base);
   (128, ntt_gs_rev2std128_asm, ntt_gs_rev2std128_base);
   (128, nttmul_gs_rev2std128_asm, nttmul_gs_rev2std128_base);
   (128, ntt_gs_std2rev128_asm, ntt_gs_std2rev128_base);
   (128, nttmul_gs_std2rev128_asm, nttmul_gs_std2rev128_base);
   (256, ntt_ct_rev2std256_asm, ntt_ct_rev2std256_base);
   (256, mulntt_ct_rev2std256_asm, mulntt_ct_rev2std256_base);
   (256, ntt_ct_std2rev256_asm, ntt_ct_std2rev256_base);
   (256, mulntt_ct_std2rev256_asm, mulntt_ct_std2rev256_base);
   (256, ntt_gs_rev2std256_asm, ntt_gs_rev2std256_base);
   (256, nttmul_gs_rev2std256_asm, nttmul_gs_rev2std256_base);
   (256, ntt_gs_std2rev256_asm, ntt_gs_std2rev256_base);
   (256, nttmul_gs_std2rev256_asm, nttmul_gs_std2rev256_base);
   (512, ntt_ct_rev2std512_asm, ntt_ct_rev2std512_base);
   (512, mulntt_ct_rev2std512_asm, mulntt_ct_rev2std512_base);
   (512, ntt_ct_std2rev512_asm, ntt_ct_std2rev512_base);
   (512, mulntt_ct_std2rev512_asm, mulntt_ct_std2rev512_base);
   (512, ntt_gs_rev2std512_asm, ntt_gs_rev2std512_base);
   (512, nttmul_gs_rev2std512_asm, nttmul_gs_rev2std512_base);
   (512, ntt_gs_std2rev512_asm, ntt_gs_std2rev512_base);
   (512, nttmul_gs_std2rev512_asm, nttmul_gs_std2rev512_base);
   (1024, ntt_ct_rev2std1024_asm, ntt_ct_rev2std1024_base);
   (1024, mulntt_ct_rev2std1024_asm, mulntt_ct_rev2std1024_base);
   (1024, ntt_ct_std2rev1024_asm, ntt_ct_std2rev1024_base);
   (1024, mulntt_ct_std2rev1024_asm, mulntt_ct_std2rev1024_base);
   (1024, ntt_gs_rev2std1024_asm, ntt_gs_rev2std1024_base);
   (1024, nttmul_gs_rev2std1024_asm, nttmul_gs_rev2std1024_base);
   (1024, ntt_gs_std2rev1024_asm, ntt_gs_std2rev1024_base);
   (1024, nttmul_gs_std2rev1024_asm, nttmul_gs_std2rev1024_base);
   (2048, ntt_ct_rev2std2048_asm, ntt_ct_rev2std2048_base);
   (2048, mulntt_ct_rev2std2048_asm, mulntt_ct_rev2std2048_base);
   (2048, ntt_ct_std2rev2048_asm, ntt_ct_std2rev2048_base);
   (2048, mulntt_ct_std2rev2048_asm, mulntt_ct_std2rev2048_base);
   (2048, ntt_gs_rev2std2048_asm, ntt_gs_rev2std2048_base);
   (2048, nttmul_gs_rev2std2048_asm, nttmul_gs_rev2std2048_base);
   (2048, ntt_gs_std2rev2048_asm, ntt_gs_std2rev2048_base);
   (2048, nttmul_gs_std2rev2048_asm, nttmul_gs_std2rev2048_base)] ->
  0 <= n < 4294967296 /\ agree2 n f g.
Proof.
  intros H. cbn [In] in H.
  destruct H as [E|H].
  { injection E as <- <- <-. split; [lia|].
    destruct (plain_good 4 shoup_sred_ntt16_12289 ltac:(cbn [In]; tauto)) as ((Hk & Lp & Ip) & U).
    exact (proj1 (ctA_same 4 shoup_sred_ntt16_12289 Hk Lp Ip U (ctA_plain_bound 4 shoup_sred_ntt16_12289 ltac:(cbn [In]; tauto)))). }
  destruct H as [E|H].
  { injection E as <- <- <-. split; [lia|].
    destruct (plain_good 4 shoup_sred_ntt16_12289 ltac:(cbn [In]; tauto)) as ((Hk & Lp & Ip) & U).
    exact (proj2 (ctA_same 4 shoup_sred_ntt16_12289 Hk Lp Ip U (ctA_plain_bound 4 shoup_sred_ntt16_12289 ltac:(cbn [In]; tauto)))). }
  destruct H as [E|H].
  { injection E as <- <- <-. split; [lia|].
    destruct (rev_good 4 rev_shoup_sred_ntt16_12289 ltac:(cbn [In]; tauto)) as ((Hk & Lp & Ip) & U).
    exact (ctB_same 4 rev_shoup_sred_ntt16_12289 Hk Lp Ip U (ctB_rev_bound 4 rev_shoup_sred_ntt16_12289 ltac:(cbn [In]; tauto))). }
  destruct H as [E|H].
  { injection E as <- <- <-. split; [lia|].
    destruct (rev_scaled_good 4 rev_shoup_sred_scaled_ntt16_12289 ltac:(cbn [In]; tauto)) as (Hk & Lp & Ip).
    exact (mulctB_same 4 rev_shoup_sred_scaled_ntt16_12289 Hk Lp Ip (ctB_rev_scaled_bound 4 rev_shoup_sred_scaled_ntt16_12289 ltac:(cbn [In]; tauto))). }
  destruct H as [E|H].
  { injection E as <- <- <-. split; [lia|].
    destruct (rev_good 4 rev_shoup_sred_ntt16_12289 ltac:(cbn [In]; tauto)) as ((Hk & Lp & Ip) & U).
    exact (gsB_same 4 rev_shoup_sred_ntt16_12289 Hk Lp Ip U (gsB_rev_bound 4 rev_shoup_sred_ntt16_12289 ltac:(cbn [In]; tauto))). }
  destruct H as [E|H].
  { injection E as <- <- <-. split; [lia|].
    destruct (rev_scaled_good 4 rev_shoup_sred_scaled_ntt16_12289 ltac:(cbn [In]; tauto)) as (Hk & Lp & Ip).
    exact (mulgsB_same 4 rev_shoup_sred_scaled_ntt16_12289 Hk Lp Ip (gsB_rev_scaled_bound 4 rev_shoup_sred_scaled_ntt16_12289 ltac:(cbn [In]; tauto))). }
  destruct H as [E|H].
  { injection E as <- <- <-. split; [lia|].
    destruct (plain_good 4 shoup_sred_ntt16_12289 ltac:(cbn [In]; tauto)) as ((Hk & Lp & Ip) & U).
    exact (gsA_same 4 shoup_sred_ntt16_12289 Hk Lp Ip U (gsA_plain_bound 4 shoup_sred_ntt16_12289 ltac:(cbn [In]; tauto))). }
  destruct H as [E|H].
  { injection E as <- <- <-. split; [lia|].
    destruct (scaled_good 4 shoup_sred_scaled_ntt16_12289 ltac:(cbn [In]; tauto)) as (Hk & Lp & Ip).
    exact (mulgsA_same 4 shoup_sred_scaled_ntt16_12289 Hk Lp Ip (gsA_scaled_bound 4 shoup_sred_scaled_ntt16_12289 ltac:(cbn [In]; tauto))). }
  destruct H as [E|H].
  { injection E as <- <- <-. split; [lia|].
    destruct (plain_good 7 shoup_sred_ntt128_12289 ltac:(cbn [In]; tauto)) as ((Hk & Lp & Ip) & U).
    exact (proj1 (ctA_same 7 shoup_sred_ntt128_12289 Hk Lp Ip U (ctA_plain_bound 7 shoup_sred_ntt128_12289 ltac:(cbn [In]; tauto)))). }
  destruct H as [E|H].
  { injection E as <- <- <-. split; [lia|].
    destruct (plain_good 7 shoup_sred_ntt128_12289 ltac:(cbn [In]; tauto)) as ((Hk & Lp & Ip) & U).
    exact (proj2 (ctA_same 7 shoup_sred_ntt128_12289 Hk Lp Ip U (ctA_plain_bound 7 shoup_sred_ntt128_12289 ltac:(cbn [In]; tauto)))). }
  destruct H as [E|H].
  { injection E as <- <- <-. split; [lia|].
    destruct (rev_good 7 rev_shoup_sred_ntt128_12289 ltac:(cbn [In]; tauto)) as ((Hk & Lp & Ip) & U).
    exact (ctB_same 7 rev_shoup_sred_ntt128_12289 Hk Lp Ip U (ctB_rev_bound 7 rev_shoup_sred_ntt128_12289 ltac:(cbn [In]; tauto))). }
  destruct H as [E|H].
  { injection E as <- <- <-. split; [lia|].
    destruct (rev_scaled_good 7 rev_shoup_sred_scaled_ntt128_12289 ltac:(cbn [In]; tauto)) as (Hk & Lp & Ip).
    exact (mulctB_same 7 rev_shoup_sred_scaled_ntt128_12289 Hk Lp Ip (ctB_rev_scaled_bound 7 rev_shoup_sred_scaled_ntt128_12289 ltac:(cbn [In]; tauto))). }
  destruct H as [E|H].
  { injection E as <- <- <-. split; [lia|].
    destruct (rev_good 7 rev_shoup_sred_ntt128_12289 ltac:(cbn [In]; tauto)) as ((Hk & Lp & Ip) & U).
    exact (gsB_same 7 rev_shoup_sred_ntt128_12289 Hk Lp Ip U (gsB_rev_bound 7 rev_shoup_sred_ntt128_12289 ltac:(cbn [In]; tauto))). }
  destruct H as [E|H].
  { injection E as <- <- <-. split; [lia|].
    destruct (rev_scaled_good 7 rev_shoup_sred_scaled_ntt128_12289 ltac:(cbn [In]; tauto)) as (Hk & Lp & Ip).
    exact (mulgsB_same 7 rev_shoup_sred_scaled_ntt128_12289 Hk Lp Ip (gsB_rev_scaled_bound 7 rev_shoup_sred_scaled_ntt128_12289 ltac:(cbn [In]; tauto))). }
  destruct H as [E|H].
  { injection E as <- <- <-. split; [lia|].
    destruct (plain_good 7 shoup_sred_ntt128_12289 ltac:(cbn [In]; tauto)) as ((Hk & Lp & Ip) & U).
    exact (gsA_same 7 shoup_sred_ntt128_12289 Hk Lp Ip U (gsA_plain_bound 7 shoup_sred_ntt128_12289 ltac:(cbn [In]; tauto))). }
  destruct H as [E|H].
  { injection E as <- <- <-. split; [lia|].
    destruct (scaled_good 7 shoup_sred_scaled_ntt128_12289 ltac:(cbn [In]; tauto)) as (Hk & Lp & Ip).
    exact (mulgsA_same 7 shoup_sred_scaled_ntt128_12289 Hk Lp Ip (gsA_scaled_bound 7 shoup_sred_scaled_ntt128_12289 ltac:(cbn [In]; tauto))). }
  destruct H as [E|H].
  { injection E as <- <- <-. split; [lia|].
    destruct (plain_good 8 shoup_sred_ntt256_12289 ltac:(cbn [In]; tauto)) as ((Hk & Lp & Ip) & U).
    exact (proj1 (ctA_same 8 shoup_sred_ntt256_12289 Hk Lp Ip U (ctA_plain_bound 8 shoup_sred_ntt256_12289 ltac:(cbn [In]; tauto)))). }
  destruct H as [E|H].
  { injection E as <- <- <-. split; [lia|].
    destruct (plain_good 8 shoup_sred_ntt256_12289 ltac:(cbn [In]; tauto)) as ((Hk & Lp & Ip) & U).
    exact (proj2 (ctA_same 8 shoup_sred_ntt256_12289 Hk Lp Ip U (ctA_plain_bound 8 shoup_sred_ntt256_12289 ltac:(cbn [In]; tauto)))). }
  destruct H as [E|H].
  { injection E as <- <- <-. split; [lia|].
    destruct (rev_good 8 rev_shoup_sred_ntt256_12289 ltac:(cbn [In]; tauto)) as ((Hk & Lp & Ip) & U).
    exact (ctB_same 8 rev_shoup_sred_ntt256_12289 Hk Lp Ip U (ctB_rev_bound 8 rev_shoup_sred_ntt256_12289 ltac:(cbn [In]; tauto))). }
  destruct H as [E|H].
  { injection E as <- <- <-. split; [lia|].
    destruct (rev_scaled_good 8 rev_shoup_sred_scaled_ntt256_12289 ltac:(cbn [In]; tauto)) as (Hk & Lp & Ip).
    exact (mulctB_same 8 rev_shoup_sred_scaled_ntt256_12289 Hk Lp Ip (ctB_rev_scaled_bound 8 rev_shoup_sred_scaled_ntt256_12289 ltac:(cbn [In]; tauto))). }
  destruct H as [E|H].
  { injection E as <- <- <-. split; [lia|].
    destruct (rev_good 8 rev_shoup_sred_ntt256_12289 ltac:(cbn [In]; tauto)) as ((Hk & Lp & Ip) & U).
    exact (gsB_same 8 rev_shoup_sred_ntt256_12289 Hk Lp Ip U (gsB_rev_bound 8 rev_shoup_sred_ntt256_12289 ltac:(cbn [In]; tauto))). }
  destruct H as [E|H].
  { injection E as <- <- <-. split; [lia|].
    destruct (rev_scaled_good 8 rev_shoup_sred_scaled_ntt256_12289 ltac:(cbn [In]; tauto)) as (Hk & Lp & Ip).
    exact (mulgsB_same 8 rev_shoup_sred_scaled_ntt256_12289 Hk Lp Ip (gsB_rev_scaled_bound 8 rev_shoup_sred_scaled_ntt256_12289 ltac:(cbn [In]; tauto))). }
  destruct H as [E|H].
  { injection E as <- <- <-. split; [lia|].
    destruct (plain_good 8 shoup_sred_ntt256_12289 ltac:(cbn [In]; tauto)) as ((Hk & Lp & Ip) & U).
    exact (gsA_same 8 shoup_sred_ntt256_12289 Hk Lp Ip U (gsA_plain_bound 8 shoup_sred_ntt256_12289 ltac:(cbn [In]; tauto))). }
  destruct H as [E|H].
  { injection E as <- <- <-. split; [lia|].
    destruct (scaled_good 8 shoup_sred_scaled_ntt256_12289 ltac:(cbn [In]; tauto)) as (Hk & Lp & Ip).
    exact (mulgsA_same 8 shoup_sred_scaled_ntt256_12289 Hk Lp Ip (gsA_scaled_bound 8 shoup_sred_scaled_ntt256_12289 ltac:(cbn [In]; tauto))). }
  destruct H as [E|H].
  { injection E as <- <- <-. split; [lia|].
    destruct (plain_good 9 shoup_sred_ntt512_12289 ltac:(cbn [In]; tauto)) as ((Hk & Lp & Ip) & U).
    exact (proj1 (ctA_same 9 shoup_sred_ntt512_12289 Hk Lp Ip U (ctA_plain_bound 9 shoup_sred_ntt512_12289 ltac:(cbn [In]; tauto)))). }
  destruct H as [E|H].
  { injection E as <- <- <-. split; [lia|].
    destruct (plain_good 9 shoup_sred_ntt512_12289 ltac:(cbn [In]; tauto)) as ((Hk & Lp & Ip) & U).
    exact (proj2 (ctA_same 9 shoup_sred_ntt512_12289 Hk Lp Ip U (ctA_plain_bound 9 shoup_sred_ntt512_12289 ltac:(cbn [In]; tauto)))). }
  destruct H as [E|H].
  { injection E as <- <- <-. split; [lia|].
    destruct (rev_good 9 rev_shoup_sred_ntt512_12289 ltac:(cbn [In]; tauto)) as ((Hk & Lp & Ip) & U).
    exact (ctB_same 9 rev_shoup_sred_ntt512_12289 Hk Lp Ip U (ctB_rev_bound 9 rev_shoup_sred_ntt512_12289 ltac:(cbn [In]; tauto))). }
  destruct H as [E|H].
  { injection E as <- <- <-. split; [lia|].
    destruct (rev_scaled_good 9 rev_shoup_sred_scaled_ntt512_12289 ltac:(cbn [In]; tauto)) as (Hk & Lp & Ip).
    exact (mulctB_same 9 rev_shoup_sred_scaled_ntt512_12289 Hk Lp Ip (ctB_rev_scaled_bound 9 rev_shoup_sred_scaled_ntt512_12289 ltac:(cbn [In]; tauto))). }
  destruct H as [E|H].
  { injection E as <- <- <-. split; [lia|].
    destruct (rev_good 9 rev_shoup_sred_ntt512_12289 ltac:(cbn [In]; tauto)) as ((Hk & Lp & Ip) & U).
    exact (gsB_same 9 rev_shoup_sred_ntt512_12289 Hk Lp Ip U (gsB_rev_bound 9 rev_shoup_sred_ntt512_12289 ltac:(cbn [In]; tauto))). }
  destruct H as [E|H].
  { injection E as <- <- <-. split; [lia|].
    destruct (rev_scaled_good 9 rev_shoup_sred_scaled_ntt512_12289 ltac:(cbn [In]; tauto)) as (Hk & Lp & Ip).
    exact (mulgsB_same 9 rev_shoup_sred_scaled_ntt512_12289 Hk Lp Ip (gsB_rev_scaled_bound 9 rev_shoup_sred_scaled_ntt512_12289 ltac:(cbn [In]; tauto))). }
  destruct H as [E|H].
  { injection E as <- <- <-. split; [lia|].
    destruct (plain_good 9 shoup_sred_ntt512_12289 ltac:(cbn [In]; tauto)) as ((Hk & Lp & Ip) & U).
    exact (gsA_same 9 shoup_sred_ntt512_12289 Hk Lp Ip U (gsA_plain_bound 9 shoup_sred_ntt512_12289 ltac:(cbn [In]; tauto))). }
  destruct H as [E|H].
  { injection E as <- <- <-. split; [lia|].
    destruct (scaled_good 9 shoup_sred_scaled_ntt512_12289 ltac:(cbn [In]; tauto)) as (Hk & Lp & Ip).
    exact (mulgsA_same 9 shoup_sred_scaled_ntt512_12289 Hk Lp Ip (gsA_scaled_bound 9 shoup_sred_scaled_ntt512_12289 ltac:(cbn [In]; tauto))). }
  destruct H as [E|H].
  { injection E as <- <- <-. split; [lia|].
    destruct (plain_good 10 shoup_sred_ntt1024_12289 ltac:(cbn [In]; tauto)) as ((Hk & Lp & Ip) & U).
    exact (proj1 (ctA_same 10 shoup_sred_ntt1024_12289 Hk Lp Ip U (ctA_plain_bound 10 shoup_sred_ntt1024_12289 ltac:(cbn [In]; tauto)))). }
  destruct H as [E|H].
  { injection E as <- <- <-. split; [lia|].
    destruct (plain_good 10 shoup_sred_ntt1024_12289 ltac:(cbn [In]; tauto)) as ((Hk & Lp & Ip) & U).
    exact (proj2 (ctA_same 10 shoup_sred_ntt1024_12289 Hk Lp Ip U (ctA_plain_bound 10 shoup_sred_ntt1024_12289 ltac:(cbn [In]; tauto)))). }
  destruct H as [E|H].
  { injection E as <- <- <-. split; [lia|].
    destruct (rev_good 10 rev_shoup_sred_ntt1024_12289 ltac:(cbn [In]; tauto)) as ((Hk & Lp & Ip) & U).
    exact (ctB_same 10 rev_shoup_sred_ntt1024_12289 Hk Lp Ip U (ctB_rev_bound 10 rev_shoup_sred_ntt1024_12289 ltac:(cbn [In]; tauto))). }
  destruct H as [E|H].
  { injection E as <- <- <-. split; [lia|].
    destruct (rev_scaled_good 10 rev_shoup_sred_scaled_ntt1024_12289 ltac:(cbn [In]; tauto)) as (Hk & Lp & Ip).
    exact (mulctB_same 10 rev_shoup_sred_scaled_ntt1024_12289 Hk Lp Ip (ctB_rev_scaled_bound 10 rev_shoup_sred_scaled_ntt1024_12289 ltac:(cbn [In]; tauto))). }
  destruct H as [E|H].
  { injection E as <- <- <-. split; [lia|].
    destruct (rev_good 10 rev_shoup_sred_ntt1024_12289 ltac:(cbn [In]; tauto)) as ((Hk & Lp & Ip) & U).
    exact (gsB_same 10 rev_shoup_sred_ntt1024_12289 Hk Lp Ip U (gsB_rev_bound 10 rev_shoup_sred_ntt1024_12289 ltac:(cbn [In]; tauto))). }
  destruct H as [E|H].
  { injection E as <- <- <-. split; [lia|].
    destruct (rev_scaled_good 10 rev_shoup_sred_scaled_ntt1024_12289 ltac:(cbn [In]; tauto)) as (Hk & Lp & Ip).
    exact (mulgsB_same 10 rev_shoup_sred_scaled_ntt1024_12289 Hk Lp Ip (gsB_rev_scaled_bound 10 rev_shoup_sred_scaled_ntt1024_12289 ltac:(cbn [In]; tauto))). }
  destruct H as [E|H].
  { injection E as <- <- <-. split; [lia|].
    destruct (plain_good 10 shoup_sred_ntt1024_12289 ltac:(cbn [In]; tauto)) as ((Hk & Lp & Ip) & U).
    exact (gsA_same 10 shoup_sred_ntt1024_12289 Hk Lp Ip U (gsA_plain_bound 10 shoup_sred_ntt1024_12289 ltac:(cbn [In]; tauto))). }
  destruct H as [E|H].
  { injection E as <- <- <-. split; [lia|].
    destruct (scaled_good 10 shoup_sred_scaled_ntt1024_12289 ltac:(cbn [In]; tauto)) as (Hk & Lp & Ip).
    exact (mulgsA_same 10 shoup_sred_scaled_ntt1024_12289 Hk Lp Ip (gsA_scaled_bound 10 shoup_sred_scaled_ntt1024_12289 ltac:(cbn [In]; tauto))). }
  destruct H as [E|H].
  { injection E as <- <- <-. split; [lia|].
    destruct (plain_good 11 shoup_sred_ntt2048_12289 ltac:(cbn [In]; tauto)) as ((Hk & Lp & Ip) & U).
    exact (proj1 (ctA_same 11 shoup_sred_ntt2048_12289 Hk Lp Ip U (ctA_plain_bound 11 shoup_sred_ntt2048_12289 ltac:(cbn [In]; tauto)))). }
  destruct H as [E|H].
  { injection E as <- <- <-. split; [lia|].
    destruct (plain_good 11 shoup_sred_ntt2048_12289 ltac:(cbn [In]; tauto)) as ((Hk & Lp & Ip) & U).
    exact (proj2 (ctA_same 11 shoup_sred_ntt2048_12289 Hk Lp Ip U (ctA_plain_bound 11 shoup_sred_ntt2048_12289 ltac:(cbn [In]; tauto)))). }
  destruct H as [E|H].
  { injection E as <- <- <-. split; [lia|].
    destruct (rev_good 11 rev_shoup_sred_ntt2048_12289 ltac:(cbn [In]; tauto)) as ((Hk & Lp & Ip) & U).
    exact (ctB_same 11 rev_shoup_sred_ntt2048_12289 Hk Lp Ip U (ctB_rev_bound 11 rev_shoup_sred_ntt2048_12289 ltac:(cbn [In]; tauto))). }
  destruct H as [E|H].
  { injection E as <- <- <-. split; [lia|].
    destruct (rev_scaled_good 11 rev_shoup_sred_scaled_ntt2048_12289 ltac:(cbn [In]; tauto)) as (Hk & Lp & Ip).
    exact (mulctB_same 11 rev_shoup_sred_scaled_ntt2048_12289 Hk Lp Ip (ctB_rev_scaled_bound 11 rev_shoup_sred_scaled_ntt2048_12289 ltac:(cbn [In]; tauto))). }
  destruct H as [E|H].
  { injection E as <- <- <-. split; [lia|].
    destruct (rev_good 11 rev_shoup_sred_ntt2048_12289 ltac:(cbn [In]; tauto)) as ((Hk & Lp & Ip) & U).
    exact (gsB_same 11 rev_shoup_sred_ntt2048_12289 Hk Lp Ip U (gsB_rev_bound 11 rev_shoup_sred_ntt2048_12289 ltac:(cbn [In]; tauto))). }
  destruct H as [E|H].
  { injection E as <- <- <-. split; [lia|].
    destruct (rev_scaled_good 11 rev_shoup_sred_scaled_ntt2048_12289 ltac:(cbn [In]; tauto)) as (Hk & Lp & Ip).
    exact (mulgsB_same 11 rev_shoup_sred_scaled_ntt2048_12289 Hk Lp Ip (gsB_rev_scaled_bound 11 rev_shoup_sred_scaled_ntt2048_12289 ltac:(cbn [In]; tauto))). }
  destruct H as [E|H].
  { injection E as <- <- <-. split; [lia|].
    destruct (plain_good 11 shoup_sred_ntt2048_12289 ltac:(cbn [In]; tauto)) as ((Hk & Lp & Ip) & U).
    exact (gsA_same 11 shoup_sred_ntt2048_12289 Hk Lp Ip U (gsA_plain_bound 11 shoup_sred_ntt2048_12289 ltac:(cbn [In]; tauto))). }
  destruct H as [E|H].
  { injection E as <- <- <-. split; [lia|].
    destruct (scaled_good 11 shoup_sred_scaled_ntt2048_12289 ltac:(cbn [In]; tauto)) as (Hk & Lp & Ip).
    exact (mulgsA_same 11 shoup_sred_scaled_ntt2048_12289 Hk Lp Ip (gsA_scaled_bound 11 shoup_sred_scaled_ntt2048_12289 ltac:(cbn [In]; tauto))). }
  destruct H.
Qed.

Lemma cross_checks_pass_L : forall rnd stk, (forall k, 0 <= rnd k < 2 ^ 31) -> (forall n r i, 0 <= n -> zlen (stk n r i) = n) ->
  forall n f g r, In (n, f, g)
  [(16, ntt_ct_rev2std16_asm, ntt_ct_rev2std16_base);
   (16, mulntt_ct_rev2std16_asm, mulntt_ct_rev2std16_base);
   (16, ntt_ct_std2rev16_asm, ntt_ct_std2rev16_base);
   (16, mulntt_ct_std2rev16_asm, mulntt_ct_std2rev16_base);
   (16, ntt_gs_rev2std16_asm, ntt_gs_rev2std16_base);
   (16, nttmul_gs_rev2std16_asm, nttmul_gs_rev2std16_base);
   (16, ntt_gs_std2rev16_asm, ntt_gs_std2rev16_base);
   (16, nttmul_gs_std2rev16_asm, nttmul_gs_std2rev16_base);
   (128, ntt_ct_rev2std128_asm, ntt_ct_rev2std128_base);
   (128, mulntt_ct_rev2std128_asm, mulntt_ct_rev2std128_base);
   (128, ntt_ct_std2rev128_asm, ntt_ct_std2rev128_base);
   (128, mulntt_ct_std2rev128_asm, mulntt_ct_std2rev128_base);
   (128, ntt_gs_rev2std128_asm, ntt_gs_rev2std128_base);
   (128, nttmul_gs_rev2std128_asm, nttmul_gs_rev2std128_base);
   (128, ntt_gs_std2rev128_asm, ntt_gs_std2rev128_base);
   (128, nttmul_gs_std2rev128_asm, nttmul_gs_std2rev128_base);
   (256, ntt_ct_rev2std256_asm, ntt_ct_rev2std256_base);
   (256, mulntt_ct_rev2std256_asm, mulntt_ct_rev2std256_base);
   (256, ntt_ct_std2rev256_asm, ntt_ct_std2rev256_base);
   (256, mulntt_ct_std2rev256_asm, mulntt_ct_std2rev256_base);
   (256, ntt_gs_rev2std256_asm, ntt_gs_rev2std256_base);
   (256, nttmul_gs_rev2std256_asm, nttmul_gs_rev2std256_base);
   (256, ntt_gs_std2rev256_asm, ntt_gs_std2rev256_base);
   (256, nttmul_gs_std2rev256_asm, nttmul_gs_std2rev256_base);
   (512, ntt_ct_rev2std512_asm, ntt_ct_rev2std512_base);
   (512, mulntt_ct_rev2std512_asm, mulntt_ct_rev2std512_base);
   (512, ntt_ct_std2rev512_asm, ntt_ct_std2rev512_base);
   (512, mulntt_ct_std2rev512_asm, mulntt_ct_std2rev512_base);
   (512, ntt_gs_rev2std512_asm, ntt_gs_rev2std512_base);
   (512, nttmul_gs_rev2std512_asm, nttmul_gs_rev2std512_base);
   (512, ntt_gs_std2rev512_asm, ntt_gs_std2rev512_base);
   (512, nttmul_gs_std2rev512_asm, nttmul_gs_std2rev512_base);
   (1024, ntt_ct_rev2std1024_asm, ntt_ct_rev2std1024_base);
   (1024, mulntt_ct_rev2std1024_asm, mulntt_ct_rev2std1024_base);
   (1024, ntt_ct_std2rev1024_asm, ntt_ct_std2rev1024_base);
   (1024, mulntt_ct_std2rev1024_asm, mulntt_ct_std2rev1024_base);
   (1024, ntt_gs_rev2std1024_asm, ntt_gs_rev2std1024_base);
   (1024, nttmul_gs_rev2std1024_asm, nttmul_gs_rev2std1024_base);
   (1024, ntt_gs_std2rev1024_asm, ntt_gs_std2rev1024_base);
   (1024, nttmul_gs_std2rev1024_asm, nttmul_gs_std2rev1024_base);
   (2048, ntt_ct_rev2std2048_asm, ntt_ct_rev2std2048_base);
   (2048, mulntt_ct_rev2std2048_asm, mulntt_ct_rev2std2048_base);
   (2048, ntt_ct_std2rev2048_asm, ntt_ct_std2rev2048_base);
   (2048, mulntt_ct_std2rev2048_asm, mulntt_ct_std2rev2048_base);
   (2048, ntt_gs_rev2std2048_asm, ntt_gs_rev2std2048_base);
   (2048, nttmul_gs_rev2std2048_asm, nttmul_gs_rev2std2048_base);
   (2048, ntt_gs_std2rev2048_asm, ntt_gs_std2rev2048_base);
   (2048, nttmul_gs_std2rev2048_asm, nttmul_gs_std2rev2048_base)] ->
  cross_check rnd stk n f g r = Ok (r + 100000 * n).
Proof.
  intros rnd stk Hrnd Hstk n f g r H. destruct (comparisons_agree n f g H) as (Hn & HA).
  apply (cross_check_ok rnd Hrnd stk n f g r Hn); [intros i; apply Hstk; lia|exact HA].
Qed.

(** ** The program never reports a difference *)

Definition fine : err -> Prop := fun e => e <> Exited.
Definition sane (s : globals) : Prop := let '(t, _, _, _, _) := s in zlen t = NTESTS.

Lemma calm_ends {A} (m : res A) : calm m -> ends fine m (fun _ => True).
Proof. destruct m as [x|e]; cbn; [auto|]. unfold calm, fine. intros H ->. now apply H. Qed.

Section Program.
Variables (rnd clk : Z -> Z) (stk : Z -> Z -> Z -> list Z).
Hypothesis Hrnd : forall k, 0 <= rnd k < 2 ^ 31.
Hypothesis Hstk : forall n r i, 0 <= n -> zlen (stk n r i) = n.

Lemma calm_coeff tw n r : (forall x, calm (tw x)) -> calm (random_coeff rnd tw n r).
Proof.
  intros H. unfold random_coeff. repeat (calm_step || apply H).
  - unfold rem64. calm_case.
Qed.
Lemma calm_random_array a n r : calm (random_array rnd a n r).
Proof. unfold random_array, loop. repeat calm_step; try apply calm_coeff; intros; repeat calm_step. Qed.
Lemma calm_random_array16 a n r : calm (random_array16 rnd (mul32 2) a n r).
Proof. unfold random_array16, loop. repeat calm_step; try apply calm_coeff; intros; repeat calm_step. Qed.

Lemma speed_sane n f s : (forall a p, calm (f a n p)) -> sane s -> ends fine (speed_test2 rnd clk n f s) sane.
Proof.
  intros Hf. destruct s as [[[[t a] p] r] c]. intros Ht. cbn [sane] in Ht. unfold speed_test2.
  eapply ends_bind; [apply calm_ends, calm_random_array|]. clear a. intros (a & r1) _.
  eapply ends_bind; [apply calm_ends, calm_random_array16|]. clear p. intros (p & r2) _.
  match goal with |- context [loop NTESTS ?B ?s0] =>
    assert (X := loop_ends fine (fun _ s => zlen (fst (fst s)) = NTESTS) NTESTS B s0) end.
  eapply ends_bind; [apply X|].
  - assert (HN := NTESTS_range). lia.
  - exact Ht.
  - intros i ((t' & a') & c') Hi Lt. cbn [fst] in Lt. rewrite wr_ok by lia. cbn [bind].
    eapply ends_bind; [apply calm_ends, Hf|]. intros b _. cbn [ends fst]. rewrite aset_len. exact Lt.
  - intros ((t' & a') & c') Lt. cbn [fst] in Lt.
    destruct (TestsRun.report_ok clk (fun _ => []) 0 (fun _ => eq_refl) t' c' Lt) as (t2 & -> & L2). cbn [bind ends sane]. exact L2.
Qed.

Lemma compare_sane n f g s : In (n, f, g)
  [(16, ntt_ct_rev2std16_asm, ntt_ct_rev2std16_base);
   (16, mulntt_ct_rev2std16_asm, mulntt_ct_rev2std16_base);
   (16, ntt_ct_std2rev16_asm, ntt_ct_std2rev16_base);
   (16, mulntt_ct_std2rev16_asm, mulntt_ct_std2rev16_base);
   (16, ntt_gs_rev2std16_asm, ntt_gs_rev2std16_base);
   (16, nttmul_gs_rev2std16_asm, nttmul_gs_rev2std16_base);
   (16, ntt_gs_std2rev16_asm, ntt_gs_std2rev16_base);
   (16, nttmul_gs_std2rev16_asm, nttmul_gs_std2rev16_base);
   (128, ntt_ct_rev2std128_asm, ntt_ct_rev2std128_base);
   (128, mulntt_ct_rev2std128_asm, mulntt_ct_rev2std128_base);
   (128, ntt_ct_std2rev128_asm, ntt_ct_std2rev128_base);
   (128, mulntt_ct_std2rev128_asm, mulntt_ct_std2rev128_base);
   (128, ntt_gs_rev2std128_asm, ntt_gs_rev2std128_base);
   (128, nttmul_gs_rev2std128_asm, nttmul_gs_rev2std128_base);
   (128, ntt_gs_std2rev128_asm, ntt_gs_std2rev128_base);
   (128, nttmul_gs_std2rev128_asm, nttmul_gs_std2rev128_base);
   (256, ntt_ct_rev2std256_asm, ntt_ct_rev2std256_base);
   (256, mulntt_ct_rev2std256_asm, mulntt_ct_rev2std256_base);
   (256, ntt_ct_std2rev256_asm, ntt_ct_std2rev256_base);
   (256, mulntt_ct_std2rev256_asm, mulntt_ct_std2rev256_base);
   (256, ntt_gs_rev2std256_asm, ntt_gs_rev2std256_base);
   (256, nttmul_gs_rev2std256_asm, nttmul_gs_rev2std256_base);
   (256, ntt_gs_std2rev256_asm, ntt_gs_std2rev256_base);
   (256, nttmul_gs_std2rev256_asm, nttmul_gs_std2rev256_base);
   (512, ntt_ct_rev2std512_asm, ntt_ct_rev2std512_base);
   (512, mulntt_ct_rev2std512_asm, mulntt_ct_rev2std512_base);
   (512, ntt_ct_std2rev512_asm, ntt_ct_std2rev512_base);
   (512, mulntt_ct_std2rev512_asm, mulntt_ct_std2rev512_base);
   (512, ntt_gs_rev2std512_asm, ntt_gs_rev2std512_base);
   (512, nttmul_gs_rev2std512_asm, nttmul_gs_rev2std512_base);
   (512, ntt_gs_std2rev512_asm, ntt_gs_std2rev512_base);
   (512, nttmul_gs_std2rev512_asm, nttmul_gs_std2rev512_base);
   (1024, ntt_ct_rev2std1024_asm, ntt_ct_rev2std1024_base);
   (1024, mulntt_ct_rev2std1024_asm, mulntt_ct_rev2std1024_base);
   (1024, ntt_ct_std2rev1024_asm, ntt_ct_std2rev1024_base);
   (1024, mulntt_ct_std2rev1024_asm, mulntt_ct_std2rev1024_base);
   (1024, ntt_gs_rev2std1024_asm, ntt_gs_rev2std1024_base);
   (1024, nttmul_gs_rev2std1024_asm, nttmul_gs_rev2std1024_base);
   (1024, ntt_gs_std2rev1024_asm, ntt_gs_std2rev1024_base);
   (1024, nttmul_gs_std2rev1024_asm, nttmul_gs_std2rev1024_base);
   (2048, ntt_ct_rev2std2048_asm, ntt_ct_rev2std2048_base);
   (2048, mulntt_ct_rev2std2048_asm, mulntt_ct_rev2std2048_base);
   (2048, ntt_ct_std2rev2048_asm, ntt_ct_std2rev2048_base);
   (2048, mulntt_ct_std2rev2048_asm, mulntt_ct_std2rev2048_base);
   (2048, ntt_gs_rev2std2048_asm, ntt_gs_rev2std2048_base);
   (2048, nttmul_gs_rev2std2048_asm, nttmul_gs_rev2std2048_base);
   (2048, ntt_gs_std2rev2048_asm, ntt_gs_std2rev2048_base);
   (2048, nttmul_gs_std2rev2048_asm, nttmul_gs_std2rev2048_base)] ->
  sane s -> ends fine (compare rnd stk n f g s) sane.
Proof.
  intros H. destruct s as [[[[t a] p] r] c]. intros Ht. unfold compare.
  rewrite (cross_checks_pass_L rnd stk Hrnd Hstk n f g r H). exact Ht.
Qed.
Lemma tests16_sane s : sane s -> ends fine (tests16 rnd clk stk s) sane.
Proof.
  intros H. unfold tests16.
  eapply ends_bind; [apply (compare_sane 16 ntt_ct_rev2std16_asm ntt_ct_rev2std16_base); [apply (nth_error_In _ 0%nat); reflexivity|exact H]|]. clear s H. intros s H.
  eapply ends_bind; [apply speed_sane; [intros; apply calm_ntt_red_ct_rev2std|exact H]|]. clear s H. intros s H.
  eapply ends_bind; [apply speed_sane; [intros; apply calm_ntt_red_ct_rev2std_asm|exact H]|]. clear s H. intros s H.
  eapply ends_bind; [apply (compare_sane 16 mulntt_ct_rev2std16_asm mulntt_ct_rev2std16_base); [apply (nth_error_In _ 1%nat); reflexivity|exact H]|]. clear s H. intros s H.
  eapply ends_bind; [apply speed_sane; [intros; apply calm_mulntt_red_ct_rev2std|exact H]|]. clear s H. intros s H.
  eapply ends_bind; [apply speed_sane; [intros; apply calm_mulntt_red_ct_rev2std_asm|exact H]|]. clear s H. intros s H.
  eapply ends_bind; [apply (compare_sane 16 ntt_ct_std2rev16_asm ntt_ct_std2rev16_base); [apply (nth_error_In _ 2%nat); reflexivity|exact H]|]. clear s H. intros s H.
  eapply ends_bind; [apply speed_sane; [intros; apply calm_ntt_red_ct_std2rev|exact H]|]. clear s H. intros s H.
  eapply ends_bind; [apply speed_sane; [intros; apply calm_ntt_red_ct_std2rev_asm|exact H]|]. clear s H. intros s H.
  eapply ends_bind; [apply (compare_sane 16 mulntt_ct_std2rev16_asm mulntt_ct_std2rev16_base); [apply (nth_error_In _ 3%nat); reflexivity|exact H]|]. clear s H. intros s H.
  eapply ends_bind; [apply speed_sane; [intros; apply calm_mulntt_red_ct_std2rev|exact H]|]. clear s H. intros s H.
  eapply ends_bind; [apply speed_sane; [intros; apply calm_mulntt_red_ct_std2rev_asm|exact H]|]. clear s H. intros s H.
  eapply ends_bind; [apply (compare_sane 16 ntt_gs_rev2std16_asm ntt_gs_rev2std16_base); [apply (nth_error_In _ 4%nat); reflexivity|exact H]|]. clear s H. intros s H.
  eapply ends_bind; [apply speed_sane; [intros; apply calm_ntt_red_gs_rev2std|exact H]|]. clear s H. intros s H.
  eapply ends_bind; [apply speed_sane; [intros; apply calm_ntt_red_gs_rev2std_asm|exact H]|]. clear s H. intros s H.
  eapply ends_bind; [apply (compare_sane 16 nttmul_gs_rev2std16_asm nttmul_gs_rev2std16_base); [apply (nth_error_In _ 5%nat); reflexivity|exact H]|]. clear s H. intros s H.
  eapply ends_bind; [apply speed_sane; [intros; apply calm_nttmul_red_gs_rev2std|exact H]|]. clear s H. intros s H.
  eapply ends_bind; [apply speed_sane; [intros; apply calm_nttmul_red_gs_rev2std_asm|exact H]|]. clear s H. intros s H.
  eapply ends_bind; [apply (compare_sane 16 ntt_gs_std2rev16_asm ntt_gs_std2rev16_base); [apply (nth_error_In _ 6%nat); reflexivity|exact H]|]. clear s H. intros s H.
  eapply ends_bind; [apply speed_sane; [intros; apply calm_ntt_red_gs_std2rev|exact H]|]. clear s H. intros s H.
  eapply ends_bind; [apply speed_sane; [intros; apply calm_ntt_red_gs_std2rev_asm|exact H]|]. clear s H. intros s H.
  eapply ends_bind; [apply (compare_sane 16 nttmul_gs_std2rev16_asm nttmul_gs_std2rev16_base); [apply (nth_error_In _ 7%nat); reflexivity|exact H]|]. clear s H. intros s H.
  eapply ends_bind; [apply speed_sane; [intros; apply calm_nttmul_red_gs_std2rev|exact H]|]. clear s H. intros s H.
  apply speed_sane; [intros; apply calm_nttmul_red_gs_std2rev_asm|exact H].
Qed.
Lemma tests128_sane s : sane s -> ends fine (tests128 rnd clk stk s) sane.
Proof.
  intros H. unfold tests128.
  eapply ends_bind; [apply (compare_sane 128 ntt_ct_rev2std128_asm ntt_ct_rev2std128_base); [apply (nth_error_In _ 8%nat); reflexivity|exact H]|]. clear s H. intros s H.
  eapply ends_bind; [apply speed_sane; [intros; apply calm_ntt_red_ct_rev2std|exact H]|]. clear s H. intros s H.
  eapply ends_bind; [apply speed_sane; [intros; apply calm_ntt_red_ct_rev2std_asm|exact H]|]. clear s H. intros s H.
  eapply ends_bind; [apply (compare_sane 128 mulntt_ct_rev2std128_asm mulntt_ct_rev2std128_base); [apply (nth_error_In _ 9%nat); reflexivity|exact H]|]. clear s H. intros s H.
  eapply ends_bind; [apply speed_sane; [intros; apply calm_mulntt_red_ct_rev2std|exact H]|]. clear s H. intros s H.
  eapply ends_bind; [apply speed_sane; [intros; apply calm_mulntt_red_ct_rev2std_asm|exact H]|]. clear s H. intros s H.
  eapply ends_bind; [apply (compare_sane 128 ntt_ct_std2rev128_asm ntt_ct_std2rev128_base); [apply (nth_error_In _ 10%nat); reflexivity|exact H]|]. clear s H. intros s H.
  eapply ends_bind; [apply speed_sane; [intros; apply calm_ntt_red_ct_std2rev|exact H]|]. clear s H. intros s H.
  eapply ends_bind; [apply speed_sane; [intros; apply calm_ntt_red_ct_std2rev_asm|exact H]|]. clear s H. intros s H.
  eapply ends_bind; [apply (compare_sane 128 mulntt_ct_std2rev128_asm mulntt_ct_std2rev128_base); [apply (nth_error_In _ 11%nat); reflexivity|exact H]|]. clear s H. intros s H.
  eapply ends_bind; [apply speed_sane; [intros; apply calm_mulntt_red_ct_std2rev|exact H]|]. clear s H. intros s H.
  eapply ends_bind; [apply speed_sane; [intros; apply calm_mulntt_red_ct_std2rev_asm|exact H]|]. clear s H. intros s H.
  eapply ends_bind; [apply (compare_sane 128 ntt_gs_rev2std128_asm ntt_gs_rev2std128_base); [apply (nth_error_In _ 12%nat); reflexivity|exact H]|]. clear s H. intros s H.
  eapply ends_bind; [apply speed_sane; [intros; apply calm_ntt_red_gs_rev2std|exact H]|]. clear s H. intros s H.
  eapply ends_bind; [apply speed_sane; [intros; apply calm_ntt_red_gs_rev2std_asm|exact H]|]. clear s H. intros s H.
  eapply ends_bind; [apply (compare_sane 128 nttmul_gs_rev2std128_asm nttmul_gs_rev2std128_base); [apply (nth_error_In _ 13%nat); reflexivity|exact H]|]. clear s H. intros s H.
  eapply ends_bind; [apply speed_sane; [intros; apply calm_nttmul_red_gs_rev2std|exact H]|]. clear s H. intros s H.
  eapply ends_bind; [apply speed_sane; [intros; apply calm_nttmul_red_gs_rev2std_asm|exact H]|]. clear s H. intros s H.
  eapply ends_bind; [apply (compare_sane 128 ntt_gs_std2rev128_asm ntt_gs_std2rev128_base); [apply (nth_error_In _ 14%nat); reflexivity|exact H]|]. clear s H. intros s H.
  eapply ends_bind; [apply speed_sane; [intros; apply calm_ntt_red_gs_std2rev|exact H]|]. clear s H. intros s H.
  eapply ends_bind; [apply speed_sane; [intros; apply calm_ntt_red_gs_std2rev_asm|exact H]|]. clear s H. intros s H.
  eapply ends_bind; [apply (compare_sane 128 nttmul_gs_std2rev128_asm nttmul_gs_std2rev128_base); [apply (nth_error_In _ 15%nat); reflexivity|exact H]|]. clear s H. intros s H.
  eapply ends_bind; [apply speed_sane; [intros; apply calm_nttmul_red_gs_std2rev|exact H]|]. clear s H. intros s H.
  apply speed_sane; [intros; apply calm_nttmul_red_gs_std2rev_asm|exact H].
Qed.
Lemma tests256_sane s : sane s -> ends fine (tests256 rnd clk stk s) sane.
Proof.
  intros H. unfold tests256.
  eapply ends_bind; [apply (compare_sane 256 ntt_ct_rev2std256_asm ntt_ct_rev2std256_base); [apply (nth_error_In _ 16%nat); reflexivity|exact H]|]. clear s H. intros s H.
  eapply ends_bind; [apply speed_sane; [intros; apply calm_ntt_red_ct_rev2std|exact H]|]. clear s H. intros s H.
  eapply ends_bind; [apply speed_sane; [intros; apply calm_ntt_red_ct_rev2std_asm|exact H]|]. clear s H. intros s H.
  eapply ends_bind; [apply (compare_sane 256 mulntt_ct_rev2std256_asm mulntt_ct_rev2std256_base); [apply (nth_error_In _ 17%nat); reflexivity|exact H]|]. clear s H. intros s H.
  eapply ends_bind; [apply speed_sane; [intros; apply calm_mulntt_red_ct_rev2std|exact H]|]. clear s H. intros s H.
  eapply ends_bind; [apply speed_sane; [intros; apply calm_mulntt_red_ct_rev2std_asm|exact H]|]. clear s H. intros s H.
  eapply ends_bind; [apply (compare_sane 256 ntt_ct_std2rev256_asm ntt_ct_std2rev256_base); [apply (nth_error_In _ 18%nat); reflexivity|exact H]|]. clear s H. intros s H.
  eapply ends_bind; [apply speed_sane; [intros; apply calm_ntt_red_ct_std2rev|exact H]|]. clear s H. intros s H.
  eapply ends_bind; [apply speed_sane; [intros; apply calm_ntt_red_ct_std2rev_asm|exact H]|]. clear s H. intros s H.
  eapply ends_bind; [apply (compare_sane 256 mulntt_ct_std2rev256_asm mulntt_ct_std2rev256_base); [apply (nth_error_In _ 19%nat); reflexivity|exact H]|]. clear s H. intros s H.
  eapply ends_bind; [apply speed_sane; [intros; apply calm_mulntt_red_ct_std2rev|exact H]|]. clear s H. intros s H.
  eapply ends_bind; [apply speed_sane; [intros; apply calm_mulntt_red_ct_std2rev_asm|exact H]|]. clear s H. intros s H.
  eapply ends_bind; [apply (compare_sane 256 ntt_gs_rev2std256_asm ntt_gs_rev2std256_base); [apply (nth_error_In _ 20%nat); reflexivity|exact H]|]. clear s H. intros s H.
  eapply ends_bind; [apply speed_sane; [intros; apply calm_ntt_red_gs_rev2std|exact H]|]. clear s H. intros s H.
  eapply ends_bind; [apply speed_sane; [intros; apply calm_ntt_red_gs_rev2std_asm|exact H]|]. clear s H. intros s H.
  eapply ends_bind; [apply (compare_sane 256 nttmul_gs_rev2std256_asm nttmul_gs_rev2std256_base); [apply (nth_error_In _ 21%nat); reflexivity|exact H]|]. clear s H. intros s H.
  eapply ends_bind; [apply speed_sane; [intros; apply calm_nttmul_red_gs_rev2std|exact H]|]. clear s H. intros s H.
  eapply ends_bind; [apply speed_sane; [intros; apply calm_nttmul_red_gs_rev2std_asm|exact H]|]. clear s H. intros s H.
  eapply ends_bind; [apply (compare_sane 256 ntt_gs_std2rev256_asm ntt_gs_std2rev256_base); [apply (nth_error_In _ 22%nat); reflexivity|exact H]|]. clear s H. intros s H.
  eapply ends_bind; [apply speed_sane; [intros; apply calm_ntt_red_gs_std2rev|exact H]|]. clear s H. intros s H.
  eapply ends_bind; [apply speed_sane; [intros; apply calm_ntt_red_gs_std2rev_asm|exact H]|]. clear s H. intros s H.
  eapply ends_bind; [apply (compare_sane 256 nttmul_gs_std2rev256_asm nttmul_gs_std2rev256_base); [apply (nth_error_In _ 23%nat); reflexivity|exact H]|]. clear s H. intros s H.
  eapply ends_bind; [apply speed_sane; [intros; apply calm_nttmul_red_gs_std2rev|exact H]|]. clear s H. intros s H.
  apply speed_sane; [intros; apply calm_nttmul_red_gs_std2rev_asm|exact H].
Qed.
Lemma tests512_sane s : sane s -> ends fine (tests512 rnd clk stk s) sane.
Proof.
  intros H. unfold tests512.
  eapply ends_bind; [apply (compare_sane 512 ntt_ct_rev2std512_asm ntt_ct_rev2std512_base); [apply (nth_error_In _ 24%nat); reflexivity|exact H]|]. clear s H. intros s H.
  eapply ends_bind; [apply speed_sane; [intros; apply calm_ntt_red_ct_rev2std|exact H]|]. clear s H. intros s H.
  eapply ends_bind; [apply speed_sane; [intros; apply calm_ntt_red_ct_rev2std_asm|exact H]|]. clear s H. intros s H.
  eapply ends_bind; [apply (compare_sane 512 mulntt_ct_rev2std512_asm mulntt_ct_rev2std512_base); [apply (nth_error_In _ 25%nat); reflexivity|exact H]|]. clear s H. intros s H.
  eapply ends_bind; [apply speed_sane; [intros; apply calm_mulntt_red_ct_rev2std|exact H]|]. clear s H. intros s H.
  eapply ends_bind; [apply speed_sane; [intros; apply calm_mulntt_red_ct_rev2std_asm|exact H]|]. clear s H. intros s H.
  eapply ends_bind; [apply (compare_sane 512 ntt_ct_std2rev512_asm ntt_ct_std2rev512_base); [apply (nth_error_In _ 26%nat); reflexivity|exact H]|]. clear s H. intros s H.
  eapply ends_bind; [apply speed_sane; [intros; apply calm_ntt_red_ct_std2rev|exact H]|]. clear s H. intros s H.
  eapply ends_bind; [apply speed_sane; [intros; apply calm_ntt_red_ct_std2rev_asm|exact H]|]. clear s H. intros s H.
  eapply ends_bind; [apply (compare_sane 512 mulntt_ct_std2rev512_asm mulntt_ct_std2rev512_base); [apply (nth_error_In _ 27%nat); reflexivity|exact H]|]. clear s H. intros s H.
  eapply ends_bind; [apply speed_sane; [intros; apply calm_mulntt_red_ct_std2rev|exact H]|]. clear s H. intros s H.
  eapply ends_bind; [apply speed_sane; [intros; apply calm_mulntt_red_ct_std2rev_asm|exact H]|]. clear s H. intros s H.
  eapply ends_bind; [apply (compare_sane 512 ntt_gs_rev2std512_asm ntt_gs_rev2std512_base); [apply (nth_error_In _ 28%nat); reflexivity|exact H]|]. clear s H. intros s H.
  eapply ends_bind; [apply speed_sane; [intros; apply calm_ntt_red_gs_rev2std|exact H]|]. clear s H. intros s H.
  eapply ends_bind; [apply speed_sane; [intros; apply calm_ntt_red_gs_rev2std_asm|exact H]|]. clear s H. intros s H.
  eapply ends_bind; [apply (compare_sane 512 nttmul_gs_rev2std512_asm nttmul_gs_rev2std512_base); [apply (nth_error_In _ 29%nat); reflexivity|exact H]|]. clear s H. intros s H.
  eapply ends_bind; [apply speed_sane; [intros; apply calm_nttmul_red_gs_rev2std|exact H]|]. clear s H. intros s H.
  eapply ends_bind; [apply speed_sane; [intros; apply calm_nttmul_red_gs_rev2std_asm|exact H]|]. clear s H. intros s H.
  eapply ends_bind; [apply (compare_sane 512 ntt_gs_std2rev512_asm ntt_gs_std2rev512_base); [apply (nth_error_In _ 30%nat); reflexivity|exact H]|]. clear s H. intros s H.
  eapply ends_bind; [apply speed_sane; [intros; apply calm_ntt_red_gs_std2rev|exact H]|]. clear s H. intros s H.
  eapply ends_bind; [apply speed_sane; [intros; apply calm_ntt_red_gs_std2rev_asm|exact H]|]. clear s H. intros s H.
  eapply ends_bind; [apply (compare_sane 512 nttmul_gs_std2rev512_asm nttmul_gs_std2rev512_base); [apply (nth_error_In _ 31%nat); reflexivity|exact H]|]. clear s H. intros s H.
  eapply ends_bind; [apply speed_sane; [intros; apply calm_nttmul_red_gs_std2rev|exact H]|]. clear s H. intros s H.
  apply speed_sane; [intros; apply calm_nttmul_red_gs_std2rev_asm|exact H].
Qed.
Lemma tests1024_sane s : sane s -> ends fine (tests1024 rnd clk stk s) sane.
Proof.
  intros H. unfold tests1024.
  eapply ends_bind; [apply (compare_sane 1024 ntt_ct_rev2std1024_asm ntt_ct_rev2std1024_base); [apply (nth_error_In _ 32%nat); reflexivity|exact H]|]. clear s H. intros s H.
  eapply ends_bind; [apply speed_sane; [intros; apply calm_ntt_red_ct_rev2std|exact H]|]. clear s H. intros s H.
  eapply ends_bind; [apply speed_sane; [intros; apply calm_ntt_red_ct_rev2std_asm|exact H]|]. clear s H. intros s H.
  eapply ends_bind; [apply (compare_sane 1024 mulntt_ct_rev2std1024_asm mulntt_ct_rev2std1024_base); [apply (nth_error_In _ 33%nat); reflexivity|exact H]|]. clear s H. intros s H.
  eapply ends_bind; [apply speed_sane; [intros; apply calm_mulntt_red_ct_rev2std|exact H]|]. clear s H. intros s H.
  eapply ends_bind; [apply speed_sane; [intros; apply calm_mulntt_red_ct_rev2std_asm|exact H]|]. clear s H. intros s H.
  eapply ends_bind; [apply (compare_sane 1024 ntt_ct_std2rev1024_asm ntt_ct_std2rev1024_base); [apply (nth_error_In _ 34%nat); reflexivity|exact H]|]. clear s H. intros s H.
  eapply ends_bind; [apply speed_sane; [intros; apply calm_ntt_red_ct_std2rev|exact H]|]. clear s H. intros s H.
  eapply ends_bind; [apply speed_sane; [intros; apply calm_ntt_red_ct_std2rev_asm|exact H]|]. clear s H. intros s H.
  eapply ends_bind; [apply (compare_sane 1024 mulntt_ct_std2rev1024_asm mulntt_ct_std2rev1024_base); [apply (nth_error_In _ 35%nat); reflexivity|exact H]|]. clear s H. intros s H.
  eapply ends_bind; [apply speed_sane; [intros; apply calm_mulntt_red_ct_std2rev|exact H]|]. clear s H. intros s H.
  eapply ends_bind; [apply speed_sane; [intros; apply calm_mulntt_red_ct_std2rev_asm|exact H]|]. clear s H. intros s H.
  eapply ends_bind; [apply (compare_sane 1024 ntt_gs_rev2std1024_asm ntt_gs_rev2std1024_base); [apply (nth_error_In _ 36%nat); reflexivity|exact H]|]. clear s H. intros s H.
  eapply ends_bind; [apply speed_sane; [intros; apply calm_ntt_red_gs_rev2std|exact H]|]. clear s H. intros s H.
  eapply ends_bind; [apply speed_sane; [intros; apply calm_ntt_red_gs_rev2std_asm|exact H]|]. clear s H. intros s H.
  eapply ends_bind; [apply (compare_sane 1024 nttmul_gs_rev2std1024_asm nttmul_gs_rev2std1024_base); [apply (nth_error_In _ 37%nat); reflexivity|exact H]|]. clear s H. intros s H.
  eapply ends_bind; [apply speed_sane; [intros; apply calm_nttmul_red_gs_rev2std|exact H]|]. clear s H. intros s H.
  eapply ends_bind; [apply speed_sane; [intros; apply calm_nttmul_red_gs_rev2std_asm|exact H]|]. clear s H. intros s H.
  eapply ends_bind; [apply (compare_sane 1024 ntt_gs_std2rev1024_asm ntt_gs_std2rev1024_base); [apply (nth_error_In _ 38%nat); reflexivity|exact H]|]. clear s H. intros s H.
  eapply ends_bind; [apply speed_sane; [intros; apply calm_ntt_red_gs_std2rev|exact H]|]. clear s H. intros s H.
  eapply ends_bind; [apply speed_sane; [intros; apply calm_ntt_red_gs_std2rev_asm|exact H]|]. clear s H. intros s H.
  eapply ends_bind; [apply (compare_sane 1024 nttmul_gs_std2rev1024_asm nttmul_gs_std2rev1024_base); [apply (nth_error_In _ 39%nat); reflexivity|exact H]|]. clear s H. intros s H.
  eapply ends_bind; [apply speed_sane; [intros; apply calm_nttmul_red_gs_std2rev|exact H]|]. clear s H. intros s H.
  apply speed_sane; [intros; apply calm_nttmul_red_gs_std2rev_asm|exact H].
Qed.
Lemma tests2048_sane s : sane s -> ends fine (tests2048 rnd clk stk s) sane.
Proof.
  intros H. unfold tests2048.
  eapply ends_bind; [apply (compare_sane 2048 ntt_ct_rev2std2048_asm ntt_ct_rev2std2048_base); [apply (nth_error_In _ 40%nat); reflexivity|exact H]|]. clear s H. intros s H.
  eapply ends_bind; [apply speed_sane; [intros; apply calm_ntt_red_ct_rev2std|exact H]|]. clear s H. intros s H.
  eapply ends_bind; [apply speed_sane; [intros; apply calm_ntt_red_ct_rev2std_asm|exact H]|]. clear s H. intros s H.
  eapply ends_bind; [apply (compare_sane 2048 mulntt_ct_rev2std2048_asm mulntt_ct_rev2std2048_base); [apply (nth_error_In _ 41%nat); reflexivity|exact H]|]. clear s H. intros s H.
  eapply ends_bind; [apply speed_sane; [intros; apply calm_mulntt_red_ct_rev2std|exact H]|]. clear s H. intros s H.
  eapply ends_bind; [apply speed_sane; [intros; apply calm_mulntt_red_ct_rev2std_asm|exact H]|]. clear s H. intros s H.
  eapply ends_bind; [apply (compare_sane 2048 ntt_ct_std2rev2048_asm ntt_ct_std2rev2048_base); [apply (nth_error_In _ 42%nat); reflexivity|exact H]|]. clear s H. intros s H.
  eapply ends_bind; [apply speed_sane; [intros; apply calm_ntt_red_ct_std2rev|exact H]|]. clear s H. intros s H.
  eapply ends_bind; [apply speed_sane; [intros; apply calm_ntt_red_ct_std2rev_asm|exact H]|]. clear s H. intros s H.
  eapply ends_bind; [apply (compare_sane 2048 mulntt_ct_std2rev2048_asm mulntt_ct_std2rev2048_base); [apply (nth_error_In _ 43%nat); reflexivity|exact H]|]. clear s H. intros s H.
  eapply ends_bind; [apply speed_sane; [intros; apply calm_mulntt_red_ct_std2rev|exact H]|]. clear s H. intros s H.
  eapply ends_bind; [apply speed_sane; [intros; apply calm_mulntt_red_ct_std2rev_asm|exact H]|]. clear s H. intros s H.
  eapply ends_bind; [apply (compare_sane 2048 ntt_gs_rev2std2048_asm ntt_gs_rev2std2048_base); [apply (nth_error_In _ 44%nat); reflexivity|exact H]|]. clear s H. intros s H.
  eapply ends_bind; [apply speed_sane; [intros; apply calm_ntt_red_gs_rev2std|exact H]|]. clear s H. intros s H.
  eapply ends_bind; [apply speed_sane; [intros; apply calm_ntt_red_gs_rev2std_asm|exact H]|]. clear s H. intros s H.
  eapply ends_bind; [apply (compare_sane 2048 nttmul_gs_rev2std2048_asm nttmul_gs_rev2std2048_base); [apply (nth_error_In _ 45%nat); reflexivity|exact H]|]. clear s H. intros s H.
  eapply ends_bind; [apply speed_sane; [intros; apply calm_nttmul_red_gs_rev2std|exact H]|]. clear s H. intros s H.
  eapply ends_bind; [apply speed_sane; [intros; apply calm_nttmul_red_gs_rev2std_asm|exact H]|]. clear s H. intros s H.
  eapply ends_bind; [apply (compare_sane 2048 ntt_gs_std2rev2048_asm ntt_gs_std2rev2048_base); [apply (nth_error_In _ 46%nat); reflexivity|exact H]|]. clear s H. intros s H.
  eapply ends_bind; [apply speed_sane; [intros; apply calm_ntt_red_gs_std2rev|exact H]|]. clear s H. intros s H.
  eapply ends_bind; [apply speed_sane; [intros; apply calm_ntt_red_gs_std2rev_asm|exact H]|]. clear s H. intros s H.
  eapply ends_bind; [apply (compare_sane 2048 nttmul_gs_std2rev2048_asm nttmul_gs_std2rev2048_base); [apply (nth_error_In _ 47%nat); reflexivity|exact H]|]. clear s H. intros s H.
  eapply ends_bind; [apply speed_sane; [intros; apply calm_nttmul_red_gs_std2rev|exact H]|]. clear s H. intros s H.
  apply speed_sane; [intros; apply calm_nttmul_red_gs_std2rev_asm|exact H].
Qed.
Lemma main_sane b : ends fine (main rnd clk stk b) (fun v => v = 0).
Proof.
  unfold main. destruct b; [|reflexivity]. unfold run_tests.
  assert (H0 : sane (zeros NTESTS, zeros 2048, zeros 2048, 0, 0)).
  { cbn [sane]. unfold zlen, zeros. rewrite repeat_length. apply Z2Nat.id. exact (proj1 NTESTS_range). }
  assert (X : ends fine (do s <- tests16 rnd clk stk (zeros NTESTS, zeros 2048, zeros 2048, 0, 0); do s <- tests128 rnd clk stk s;
    do s <- tests256 rnd clk stk s; do s <- tests512 rnd clk stk s; do s <- tests1024 rnd clk stk s; tests2048 rnd clk stk s) sane).
  { eapply ends_bind; [apply tests16_sane, H0|]. clear H0. intros s H.
    eapply ends_bind; [apply tests128_sane, H|]. clear s H. intros s H.
    eapply ends_bind; [apply tests256_sane, H|]. clear s H. intros s H.
    eapply ends_bind; [apply tests512_sane, H|]. clear s H. intros s H.
    eapply ends_bind; [apply tests1024_sane, H|]. clear s H. intros s H.
    apply tests2048_sane, H. }
  revert X. set (m := do s <- tests16 _ _ _ _; _). destruct m as [s|e]; cbn; auto.
Qed.
End Program.

Lemma never_reports_L : forall rnd clk stk, (forall k, 0 <= rnd k < 2 ^ 31) -> (forall n r i, 0 <= n -> zlen (stk n r i) = n) ->
  main rnd clk stk true <> Err Exited /\ main rnd clk stk false = Ok 0.
Proof.
  intros rnd clk stk Hr Hs. split; [|reflexivity]. intros E. assert (X := main_sane rnd clk stk Hr Hs true). rewrite E in X.
  exact (X eq_refl).
Qed.

(** ** When random() always returns 0 *)

Definition a0 : list Z := repeat (-200000) 16 ++ repeat 0 2032.
Definition p0 : list Z := repeat (-32768) 16 ++ repeat 0 2032.
Definition first_speed (a : list Z) : res (list Z) := ntt_red_ct_rev2std a 16 p0.

Lemma loop_fails {S} (J : Z -> S -> Prop) n N e body (st : S) : 0 <= N < n -> n < 4294967296 -> J 0 st ->
  (forall i st, 0 <= i < N -> J i st -> exists st', body i st = Ok st' /\ J (i + 1) st') ->
  (forall st, J N st -> body N st = Err e) -> loop n body st = Err e.
Proof.
  intros HN Hn H0 Hb He. unfold loop.
  assert (G : forall f c st, 0 <= c <= N -> (Z.to_nat (N - c) < f)%nat -> J c st ->
    cfor f c (fun i => i <? n) (fun i => u32 (i + 1)) body st = Err e).
  { induction f as [|f IH]; intros c st' Hc Hf HJ; [lia|]. cbn [cfor].
    destruct (Z.ltb_spec c n); [|lia]. destruct (Z.eq_dec c N) as [->|]; [rewrite He by exact HJ; reflexivity|].
    destruct (Hb c st') as (s2 & -> & HJ2); [lia|exact HJ|]. cbn [bind]. rewrite u32_small by lia.
    apply IH; [lia|lia|exact HJ2]. }
  apply G; [lia|unfold fuel; lia|exact H0].
Qed.

Lemma nth_repeat_lt (x : Z) (m i : nat) : (i < m)%nat -> nth i (repeat x m) 0 = x.
Proof. revert i. induction m as [|m IH]; intros [|i] H; cbn [repeat nth]; [lia|lia|reflexivity|apply IH; lia]. Qed.
Lemma two_parts (x y : Z) (m l : nat) i : 0 <= i < Z.of_nat m + Z.of_nat l ->
  at_ (repeat x m ++ repeat y l) i = if i <? Z.of_nat m then x else y.
Proof.
  intros Hi. unfold at_. destruct (Z.ltb_spec i (Z.of_nat m)).
  - rewrite app_nth1 by (rewrite repeat_length; lia). apply nth_repeat_lt. lia.
  - rewrite app_nth2 by (rewrite repeat_length; lia). rewrite repeat_length. apply nth_repeat_lt. lia.
Qed.
Lemma refills_at b x : refills (zeros 2048) b 16 (fun _ => x) -> b = repeat x 16 ++ repeat 0 2032.
Proof.
  assert (L0 : zlen (zeros 2048) = 2048) by (unfold zlen, zeros; rewrite repeat_length; reflexivity).
  intros (Lb & V & W). rewrite L0 in *. apply list_ext; [rewrite Lb; unfold zlen; rewrite app_length, !repeat_length; reflexivity|rewrite Lb].
  intros i Hi. rewrite two_parts by lia. destruct (Z.ltb_spec i (Z.of_nat 16)).
  - apply V. lia.
  - rewrite W by lia. unfold at_, zeros. apply nth_repeat_lt. lia.
Qed.

Lemma seven_calls : exists b, times first_speed 6 a0 = Ok b /\ first_speed b = Err SignedOverflow.
Proof. eexists. split; [vm_compute; reflexivity|vm_compute; reflexivity]. Qed.
Lemma six_calls (i : Z) b : 0 <= i < 6 -> times first_speed (Z.to_nat i) a0 = Ok b -> exists r, first_speed b = Ok r.
Proof.
  intros Hi E. destruct (first_speed b) as [r|e] eqn:F; [exists r; reflexivity|exfalso].
  assert (X : forall m, (Z.to_nat i < m)%nat -> times first_speed m a0 = Err e).
  { induction m as [|m IH]; intros Hm; [lia|]. cbn [times]. destruct (Nat.eq_dec m (Z.to_nat i)) as [->|].
    - rewrite E. exact F.
    - rewrite IH by lia. reflexivity. }
  destruct seven_calls as (c & C & _). rewrite X in C by lia. discriminate.
Qed.

Section Zero.
Variables (clk : Z -> Z) (stk : Z -> Z -> Z -> list Z).
Hypothesis Hs : forall n r i, 0 <= n -> zlen (stk n r i) = n.
Let rnd0 (k : Z) : Z := 0.
Lemma rnd0_range k : 0 <= rnd0 k < 2 ^ 31.
Proof. unfold rnd0. lia. Qed.

Lemma first_loop t c : zlen t = NTESTS ->
  loop NTESTS (fun i '(t, a, c) => do t <- wr t i (clk c); do a <- ntt_red_ct_rev2std a 16 p0; Ok (t, a, c + 1)) (t, a0, c)
  = Err SignedOverflow.
Proof.
  intros LT. assert (HN := NTESTS_range). assert (HN12 : 12 <= NTESTS) by discriminate.
  match goal with |- loop NTESTS ?B ?s0 = _ =>
    apply (loop_fails (fun i (s : list Z * list Z * Z) => zlen (fst (fst s)) = NTESTS
      /\ times first_speed (Z.to_nat i) a0 = Ok (snd (fst s))) NTESTS 6 SignedOverflow B s0) end.
  + split; [discriminate|lia].
  + exact (proj2 HN).
  + cbn [fst snd]. split; [exact LT|reflexivity].
  + intros i [[u b] d] Hi (Lu & Pb). cbn [fst snd] in *. rewrite wr_ok by lia. cbn [bind].
    destruct (six_calls i b Hi Pb) as [q Eq]. change (ntt_red_ct_rev2std b 16 p0) with (first_speed b). rewrite Eq.
    cbn [bind]. eexists. split; [reflexivity|]. cbn [fst snd]. rewrite aset_len. split; [exact Lu|].
    replace (Z.to_nat (i + 1)) with (S (Z.to_nat i)) by lia. cbn [times]. rewrite Pb. exact Eq.
  + intros [[u b] d] (Lu & Pb). cbn [fst snd] in *. rewrite wr_ok by lia. cbn [bind].
    destruct seven_calls as (b' & Eb & Fb). change (Z.to_nat 6) with 6%nat in Pb. rewrite Eb in Pb.
    injection Pb as <-. change (ntt_red_ct_rev2std b' 16 p0) with (first_speed b'). rewrite Fb. reflexivity.
Qed.

Lemma zeros_2048 : zlen (zeros 2048) = 2048.
Proof. unfold zlen, zeros. rewrite repeat_length. reflexivity. Qed.

Lemma first_overflows t r c : zlen t = NTESTS ->
  speed_test2 rnd0 clk 16 ntt_red_ct_rev2std (t, zeros 2048, zeros 2048, r, c) = Err SignedOverflow.
Proof.
  intros LT. unfold speed_test2. assert (L0 := zeros_2048).
  destruct (random_array_ok rnd0 rnd0_range 16 (zeros 2048) r) as (a & Ea & Ra); [lia|lia|]. rewrite Ea. cbn [bind].
  destruct (random_array16_ok rnd0 rnd0_range 16 (zeros 2048) (r + 16)) as (p & Ep & Rp); [lia|lia|]. rewrite Ep. cbn [bind].
  rewrite (refills_at a (-200000) Ra), (refills_at p (-32768) Rp). fold a0 p0. rewrite first_loop by exact LT. reflexivity.
Qed.

Lemma first_compare t a p r c :
  compare rnd0 stk 16 ntt_ct_rev2std16_asm ntt_ct_rev2std16_base (t, a, p, r, c) = Ok (t, a, p, r + 100000 * 16, c).
Proof.
  unfold compare.
  rewrite (cross_checks_pass_L rnd0 stk rnd0_range Hs 16 ntt_ct_rev2std16_asm ntt_ct_rev2std16_base);
    [reflexivity|apply (nth_error_In _ 0%nat); reflexivity].
Qed.

Lemma bind_Ok {A B} (x : A) (f : A -> res B) : bind (Ok x) f = f x.
Proof. reflexivity. Qed.
Lemma bind_Err {A B} e (f : A -> res B) : bind (Err e) f = Err e.
Proof. reflexivity. Qed.

Lemma tests16_overflow t : zlen t = NTESTS ->
  tests16 rnd0 clk stk (t, zeros 2048, zeros 2048, 0, 0) = Err SignedOverflow.
Proof.
  intros LT. unfold tests16. rewrite first_compare, bind_Ok. rewrite first_overflows by exact LT. apply bind_Err.
Qed.

Lemma main_overflows : main rnd0 clk stk true = Err SignedOverflow.
Proof.
  unfold main, run_tests. rewrite tests16_overflow; [reflexivity|].
  unfold zlen, zeros. rewrite repeat_length. apply Z2Nat.id. exact (proj1 NTESTS_range).
Qed.
End Zero.

Lemma overflows_L : forall clk stk, (forall n r i, 0 <= n -> zlen (stk n r i) = n) ->
  main (fun _ => 0) clk stk true = Err SignedOverflow.
Proof. intros clk stk Hs. exact (main_overflows clk stk Hs). Qed.

(** ** What a successful cross check means *)

Lemma avx_cross_check_certifies_L : forall rnd stk n f g r r', (forall k, 0 <= rnd k < 2 ^ 31) -> 0 <= n < 2 ^ 32 ->
  (forall n r i, 0 <= n -> zlen (stk n r i) = n) ->
  (forall a b, zlen a = n -> f a = Ok b \/ g a = Ok b -> zlen b = n) ->
  cross_check rnd stk n f g r = Ok r' ->
  r' = r + 100000 * n /\ forall j, 0 <= j < 100000 -> exists a x y, zlen a = n
    /\ (forall i, 0 <= i < n -> at_ a i = rnd (r + n * j + i) mod 400000 - 200000)
    /\ f a = Ok x /\ g a = Ok y /\ forall i, 0 <= i < n -> at_ x i = at_ y i.
Proof.
  intros rnd stk n f g r r' Hrnd Hn HS HF E. unfold cross_check in E. apply AvxArrays.bind_inv in E.
  destruct E as ((((a & b) & c) & s) & E & Es).
  assert (I : s = r + n * 100000 /\ zlen a = n /\ zlen b = n /\ zlen c = n
    /\ forall j, 0 <= j < 100000 -> exists a x y, zlen a = n
    /\ (forall i, 0 <= i < n -> at_ a i = rnd (r + n * j + i) mod 400000 - 200000)
    /\ f a = Ok x /\ g a = Ok y /\ forall i, 0 <= i < n -> at_ x i = at_ y i).
  { refine (loop_inv (fun m (s : list Z * list Z * list Z * Z) => let '(a, b, c, s) := s in
      s = r + n * m /\ zlen a = n /\ zlen b = n /\ zlen c = n
      /\ forall j, 0 <= j < m -> exists a x y, zlen a = n
    /\ (forall i, 0 <= i < n -> at_ a i = rnd (r + n * j + i) mod 400000 - 200000)
    /\ f a = Ok x /\ g a = Ok y /\ forall i, 0 <= i < n -> at_ x i = at_ y i) 100000 _ _ _ E ltac:(lia) _ _).
    - split; [lia|]. split; [apply HS; lia|]. split; [apply HS; lia|]. split; [apply HS; lia|]. intros; lia.
    - clear E a b c s Es. intros m (((a & b) & c) & s) (((a' & b') & c') & s') Hm (-> & La & Lb & Lc & V) E.
      destruct (random_array_ok rnd Hrnd n a (r + n * m) ltac:(lia) ltac:(lia)) as (a1 & E1 & L1 & V1 & _). rewrite E1 in E.
      cbn [bind] in E. rewrite La in L1.
      rewrite !(copy_array_ok rnd Hrnd) in E by (assumption || lia). cbn [bind] in E.
      apply AvxArrays.bind_inv in E. destruct E as (x & Ex & E). apply AvxArrays.bind_inv in E. destruct E as (y & Ey & E).
      apply AvxArrays.bind_inv in E. destruct E as (ok & Eok & E). destruct ok; [|discriminate]. cbn [expect bind] in E.
      injection E as <- <- <- <-. split; [lia|]. split; [apply (HF a1 x L1); auto|]. split; [apply (HF a1 y L1); auto|].
      split; [exact L1|].
      intros j Hj. destruct (Z.eq_dec j m) as [->|]; [|apply V; lia].
      exists a1, x, y. split; [exact L1|]. split.
      + intros i Hi. rewrite V1 by lia. reflexivity.
      + split; [exact Ex|]. split; [exact Ey|]. apply (TestAvxFinal.equal_arrays_inv x y n Eok ltac:(lia)). }
  destruct I as (-> & _ & _ & _ & I). injection Es as <-. split; [lia|exact I].
Qed.

(** ** Examples *)

Definition rnd_ex (k : Z) : Z := (k * 7919) mod 2147483648.
Definition stk_ex (n r i : Z) : list Z := repeat (1000000 * i - r) (Z.to_nat n).
Lemma rnd_ex_range k : 0 <= rnd_ex k < 2 ^ 31.
Proof. unfold rnd_ex. change (2 ^ 31) with 2147483648. apply Z.mod_pos_bound. lia. Qed.
Lemma stk_ex_len n r i : 0 <= n -> zlen (stk_ex n r i) = n.
Proof. intros H. unfold zlen, stk_ex. rewrite repeat_length. apply Z2Nat.id, H. Qed.
