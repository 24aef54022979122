(** Lemmas behind [PropCpu]. *)

From Coq Require Import ZArith List Bool Lia.
From Verif Require Import ModelCpu.
Import ListNotations.
Open Scope Z_scope.

Lemma land_bit x b : 0 <= b < 32 -> Z.land (lo32 x) (2 ^ b) = if Z.testbit x b then 2 ^ b else 0.
Proof.
  intros Hb. apply Z.bits_inj'. intros i Hi. rewrite Z.land_spec. unfold lo32.
  rewrite Z.pow2_bits_eqb by lia.
  destruct (Z.eqb_spec b i) as [<-|Hne].
  - rewrite Z.mod_pow2_bits_low by lia. rewrite andb_true_r.
    destruct (Z.testbit x b); [rewrite Z.pow2_bits_true by lia|rewrite Z.bits_0]; reflexivity.
  - rewrite andb_false_r. destruct (Z.testbit x b); [rewrite Z.pow2_bits_false by lia|rewrite Z.bits_0]; reflexivity.
Qed.

Lemma land_two x a b : 0 <= a < 32 -> 0 <= b < 32 -> a <> b ->
  (Z.land (lo32 x) (Z.lor (2 ^ a) (2 ^ b)) =? Z.lor (2 ^ a) (2 ^ b)) = Z.testbit x a && Z.testbit x b.
Proof.
  intros Ha Hb Hab.
  assert (Ta : Z.testbit (Z.lor (2 ^ a) (2 ^ b)) a = true).
  { rewrite Z.lor_spec, Z.pow2_bits_true by lia. reflexivity. }
  assert (Tb : Z.testbit (Z.lor (2 ^ a) (2 ^ b)) b = true).
  { rewrite Z.lor_spec, (Z.pow2_bits_true b) by lia. apply orb_true_r. }
  rewrite Z.land_lor_distr_r. rewrite !land_bit by lia.
  destruct (Z.testbit x a), (Z.testbit x b); cbn [andb].
  - apply Z.eqb_refl.
  - apply Z.eqb_neq. intros E. rewrite <- E in Tb. rewrite Z.lor_0_r, Z.pow2_bits_false in Tb by lia. discriminate.
  - apply Z.eqb_neq. intros E. rewrite <- E in Ta. rewrite Z.lor_0_l, Z.pow2_bits_false in Ta by lia. discriminate.
  - apply Z.eqb_neq. intros E. rewrite <- E in Ta. rewrite Z.lor_0_l, Z.bits_0 in Ta. discriminate.
Qed.

Lemma land_one x b : 0 <= b < 32 -> (Z.land (lo32 x) (2 ^ b) =? 2 ^ b) = Z.testbit x b.
Proof.
  intros Hb. assert (Pb : 0 < 2 ^ b) by (apply Z.pow_pos_nonneg; lia).
  rewrite land_bit by lia. destruct (Z.testbit x b); [apply Z.eqb_refl|]. apply Z.eqb_neq. lia.
Qed.

Lemma lo32_lo32 x : lo32 (lo32 x) = lo32 x.
Proof. unfold lo32. apply Z.mod_mod. discriminate. Qed.
(** a processor with AVX2, run by a system that enables xmm and ymm state, or not *)
Definition exCpu (xcr0 : Z) : cpu := {|
  cpuid_eax := fun _ _ => 0; cpuid_ebx := fun l _ => if l =? 7 then 0x219c91a9 else 0;
  cpuid_ecx := fun l _ => if l =? 1 then 0x7ffafbff else 0; cpuid_edx := fun _ _ => 0xbfebfbff;
  xcr_eax := fun _ => xcr0; xcr_edx := fun _ => 0; cr4_osxsave := true |}.
Definition exRegs : regs := {| rax := 99; rbx := 123456789012; rcx := 5; rdx := 6; stack := [42] |}.

Lemma avx2_supported_correct_L :
forall c s, reports_osxsave c ->
  exists s', avx2_supported c s = Done s'
  /\ rax s' = (if Z.testbit (cpuid_ecx c 1 (lo32 (rcx s))) 27 && Z.testbit (cpuid_ecx c 1 (lo32 (rcx s))) 28
                  && Z.testbit (cpuid_ebx c 7 0) 5
                  && Z.testbit (xcr_eax c 0) 1 && Z.testbit (xcr_eax c 0) 2 then 1 else 0)
  /\ rbx s' = rbx s /\ stack s' = stack s.
Proof.
  intros c s HR. unfold avx2_supported.
  cbn [push_rbx mov_eax cpuid and_ecx rax rbx rcx rdx stack].
  change (lo32 (lo32 1)) with 1. rewrite lo32_lo32. set (k := lo32 (rcx s)).
  change 0x18000000 with (Z.lor (2 ^ 27) (2 ^ 28)). rewrite land_two by lia.
  assert (H27 := HR k).
  destruct (Z.testbit (cpuid_ecx c 1 k) 27) eqn:E27; cbn [andb negb].
  2:{ eexists. split; [reflexivity|]. auto. }
  destruct (Z.testbit (cpuid_ecx c 1 k) 28) eqn:E28; cbn [andb negb].
  2:{ eexists. split; [reflexivity|]. auto. }
  cbn [mov_eax clear_ecx cpuid and_ebx rax rbx rcx rdx stack].
  change (lo32 (lo32 7)) with 7. change (lo32 0) with 0. rewrite lo32_lo32.
  change 0x20 with (2 ^ 5). rewrite land_one by lia.
  destruct (Z.testbit (cpuid_ebx c 7 0) 5) eqn:E5; cbn [andb negb].
  2:{ eexists. split; [reflexivity|]. auto. }
  unfold xgetbv. rewrite <- H27. cbn [bind clear_ecx and_eax rax rbx rcx rdx stack].
  change (lo32 0) with 0. rewrite lo32_lo32.
  change 0x06 with (Z.lor (2 ^ 1) (2 ^ 2)). rewrite land_two by lia.
  destruct (Z.testbit (xcr_eax c 0) 1 && Z.testbit (xcr_eax c 0) 2) eqn:EX; rewrite ?EX; cbn [andb negb];
    (eexists; split; [reflexivity|auto]).
Qed.

Lemma avx2_supported_needs_osxsave_L :
forall c s s', avx2_supported c s = Done s' -> rax s' = 1 -> cr4_osxsave c = true.
Proof.
  intros c s s' E E1. unfold avx2_supported in E.
  assert (HN : forall t, not_supported t = Done s' -> False).
  { intros t Ht. unfold not_supported, pop_rbx in Ht. destruct (stack (clear_eax t)) in Ht; [discriminate|].
    injection Ht as <-. discriminate E1. }
  destruct (negb _) in E; [destruct (HN _ E)|].
  destruct (negb _) in E; [destruct (HN _ E)|].
  unfold xgetbv in E. destruct (cr4_osxsave c); [reflexivity|discriminate E].
Qed.
