(** Model of avx2_supported (src/ntt_asm.S:84-117).

    The processor is a parameter: what CPUID returns for a leaf and a subleaf,
    and what XGETBV returns for a control register.  XGETBV raises #UD when the
    operating system has not set CR4.OSXSAVE, which CPUID reports as bit 27 of
    ecx for leaf 1. *)

From Coq Require Import ZArith List.
Import ListNotations.
Open Scope Z_scope.

(** The processor, as seen by src/ntt_asm.S:84-117 *)
Record cpu := {
  cpuid_eax : Z -> Z -> Z;
  cpuid_ebx : Z -> Z -> Z;
  cpuid_ecx : Z -> Z -> Z;
  cpuid_edx : Z -> Z -> Z;
  xcr_eax : Z -> Z;      (* low half of an extended control register *)
  xcr_edx : Z -> Z;      (* its high half *)
  cr4_osxsave : bool
}.

(** CPUID mirrors CR4.OSXSAVE. *)
Definition reports_osxsave (c : cpu) : Prop :=
  forall sub, Z.testbit (cpuid_ecx c 1 sub) 27 = cr4_osxsave c.

(** The registers the routine touches (64 bits), and the stack below the
    return address. *)
Record regs := { rax : Z; rbx : Z; rcx : Z; rdx : Z; stack : list Z }.

(** What stops the routine, and its outcome *)
Inductive fault := InvalidOpcode | StackUnderflow.
Inductive outcome (A : Type) := Done (a : A) | Fault (e : fault).
Arguments Done {A} a.
Arguments Fault {A} e.

(** The next instruction runs if the one before did not fault. *)
Definition bind {A B} (m : outcome A) (f : A -> outcome B) : outcome B :=
  match m with Done a => f a | Fault e => Fault e end.
Notation "'do' x <- m ; k" := (bind m (fun x => k))
  (at level 200, x name, m at level 100, k at level 200, right associativity).

(** Low 32 bits; writing a 32-bit register clears the upper half. *)
Definition lo32 (x : Z) : Z := x mod 2 ^ 32.

(** The instructions of src/ntt_asm.S:93-117: [mov eax, v] *)
Definition mov_eax (v : Z) (s : regs) : regs :=
  {| rax := lo32 v; rbx := rbx s; rcx := rcx s; rdx := rdx s; stack := stack s |}.
(** [xor ecx, ecx], [xor eax, eax] *)
Definition clear_ecx (s : regs) : regs :=
  {| rax := rax s; rbx := rbx s; rcx := 0; rdx := rdx s; stack := stack s |}.
Definition clear_eax (s : regs) : regs :=
  {| rax := 0; rbx := rbx s; rcx := rcx s; rdx := rdx s; stack := stack s |}.
(** [and eax, v], [and ebx, v], [and ecx, v] *)
Definition and_eax (v : Z) (s : regs) : regs :=
  {| rax := Z.land (lo32 (rax s)) v; rbx := rbx s; rcx := rcx s; rdx := rdx s; stack := stack s |}.
Definition and_ebx (v : Z) (s : regs) : regs :=
  {| rax := rax s; rbx := Z.land (lo32 (rbx s)) v; rcx := rcx s; rdx := rdx s; stack := stack s |}.
Definition and_ecx (v : Z) (s : regs) : regs :=
  {| rax := rax s; rbx := rbx s; rcx := Z.land (lo32 (rcx s)) v; rdx := rdx s; stack := stack s |}.
(** [push rbx], [pop rbx] *)
Definition push_rbx (s : regs) : regs :=
  {| rax := rax s; rbx := rbx s; rcx := rcx s; rdx := rdx s; stack := rbx s :: stack s |}.
Definition pop_rbx (s : regs) : outcome regs :=
  match stack s with
  | v :: t => Done {| rax := rax s; rbx := v; rcx := rcx s; rdx := rdx s; stack := t |}
  | [] => Fault StackUnderflow
  end.

(** CPUID: leaf in eax, subleaf in ecx, results in eax, ebx, ecx, edx. *)
Definition cpuid (c : cpu) (s : regs) : regs :=
  let l := lo32 (rax s) in
  let k := lo32 (rcx s) in
  {| rax := lo32 (cpuid_eax c l k); rbx := lo32 (cpuid_ebx c l k);
     rcx := lo32 (cpuid_ecx c l k); rdx := lo32 (cpuid_edx c l k); stack := stack s |}.

(** XGETBV: register number in ecx, result in edx:eax. *)
Definition xgetbv (c : cpu) (s : regs) : outcome regs :=
  if cr4_osxsave c then
    Done {| rax := lo32 (xcr_eax c (lo32 (rcx s))); rbx := rbx s; rcx := rcx s;
            rdx := lo32 (xcr_edx c (lo32 (rcx s))); stack := stack s |}
  else Fault InvalidOpcode.

(** src/ntt_asm.S:114-117 *)
Definition not_supported (s : regs) : outcome regs :=
  pop_rbx (clear_eax s).

(** src/ntt_asm.S:93-117 *)
Definition avx2_supported (c : cpu) (s : regs) : outcome regs :=
  let s := push_rbx s in
  let s := mov_eax 1 s in
  let s := cpuid c s in
  let s := and_ecx 0x18000000 s in
  if negb (rcx s =? 0x18000000) then not_supported s else
  let s := mov_eax 7 s in
  let s := clear_ecx s in
  let s := cpuid c s in
  let s := and_ebx 0x20 s in
  if negb (rbx s =? 0x20) then not_supported s else
  let s := clear_ecx s in
  do s <- xgetbv c s;
  let s := and_eax 0x06 s in
  if negb (rax s =? 0x06) then not_supported s else
  let s := mov_eax 1 s in
  pop_rbx s.
