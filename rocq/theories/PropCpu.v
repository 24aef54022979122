(** Property C57: detection of AVX2. *)

From Coq Require Import ZArith List Bool Lia.
From Verif Require Import ModelCpu CpuFinal.
Import ListNotations.
Open Scope Z_scope.

(** C57: the routine returns 1 when CPUID reports OSXSAVE, AVX and AVX2 and the system enabled the
    xmm and ymm state, and 0 otherwise; it never raises #UD, and restores rbx and the stack *)
Theorem avx2_supported_correct :
forall c s, reports_osxsave c ->
  exists s', avx2_supported c s = Done s'
  /\ rax s' = (if Z.testbit (cpuid_ecx c 1 (lo32 (rcx s))) 27 && Z.testbit (cpuid_ecx c 1 (lo32 (rcx s))) 28
                  && Z.testbit (cpuid_ebx c 7 0) 5
                  && Z.testbit (xcr_eax c 0) 1 && Z.testbit (xcr_eax c 0) 2 then 1 else 0)
  /\ rbx s' = rbx s /\ stack s' = stack s.
Proof. exact avx2_supported_correct_L. Qed.
Print Assumptions avx2_supported_correct.

Example avx2_supported_ex :
  reports_osxsave (exCpu 7) /\ reports_osxsave (exCpu 3)
  /\ avx2_supported (exCpu 7) exRegs = Done {| rax := 1; rbx := 123456789012; rcx := 0; rdx := 0; stack := [42] |}
  /\ avx2_supported (exCpu 3) exRegs = Done {| rax := 0; rbx := 123456789012; rcx := 0; rdx := 0; stack := [42] |}.
Proof. split; [intros sub; reflexivity|]. split; [intros sub; reflexivity|]. split; vm_compute; reflexivity. Qed.

(** C57: whatever the processor reports, the answer is 1 only if CR4.OSXSAVE is set: on a system that does
    not save the ymm registers the AVX2 routines are never announced *)
Theorem avx2_supported_needs_osxsave :
forall c s s', avx2_supported c s = Done s' -> rax s' = 1 -> cr4_osxsave c = true.
Proof. exact avx2_supported_needs_osxsave_L. Qed.
Print Assumptions avx2_supported_needs_osxsave.

Example avx2_supported_needs_osxsave_ex :
  exists s', avx2_supported (exCpu 7) exRegs = Done s' /\ rax s' = 1.
Proof. eexists. split; vm_compute; reflexivity. Qed.
