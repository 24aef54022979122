(** ModelAvx (/repo/src/ntt_asm.S) read with the semantics of TraceSem: same text,
    each access names its array, each conditional jump is [branch] or a loop test.
    The constants of ModelAvx are used; they are loaded from fixed addresses. *)

From Coq Require Import ZArith List Bool.
From Verif Require Import CSem AvxSem TraceSem TraceAvxSem.
From Verif Require ModelAvx.
Import ListNotations.
Open Scope Z_scope.

Notation mask := ModelAvx.mask (only parsing).
Notation q_x8 := ModelAvx.q_x8 (only parsing).
Notation q_minus1_x8 := ModelAvx.q_minus1_x8 (only parsing).
Notation half_q_x8 := ModelAvx.half_q_x8 (only parsing).
Notation perm0246 := ModelAvx.perm0246 (only parsing).
Notation perm5 := ModelAvx.perm5 (only parsing).
Notation perm4 := ModelAvx.perm4 (only parsing).
Notation perm3 := ModelAvx.perm3 (only parsing).
Notation perm2020 := ModelAvx.perm2020 (only parsing).
Notation perm0426 := ModelAvx.perm0426 (only parsing).
Notation perm04152637 := ModelAvx.perm04152637 (only parsing).
Notation perm5070 := ModelAvx.perm5070 (only parsing).
Notation perm4060 := ModelAvx.perm4060 (only parsing).
Notation perm_bdcst1 := ModelAvx.perm_bdcst1 (only parsing).
Notation perm_bdcst2 := ModelAvx.perm_bdcst2 (only parsing).
Notation perm_bdcst3 := ModelAvx.perm_bdcst3 (only parsing).

(** reduce_array_asm, src/ntt_asm.S 132-160 *)
Definition reduce_array_asm (a : list Z) (n : Z) : tr (list Z) :=
  let rdi := 0 in
  let rsi := n in
  let ymm3 := mask in
  let rax := rdi in
  let rsi := rdi + 4 * rsi in
  do '(a, rax) <- cdowhile (fuel n) (fun '(a, rax) =>
      do ymm0 <- ld8 Arg a rax;
      do ymm1 <- ld8 Arg a (rax + 32);
      let ymm2 := vpsrad ymm0 12 in
      let ymm0 := vpand ymm0 ymm3 in
      let ymm4 := vpslld ymm0 1 in
      let ymm0 := vpaddd ymm0 ymm4 in
      let ymm0 := vpsubd ymm0 ymm2 in
      do a <- st8 Arg a rax ymm0;
      let ymm2 := vpsrad ymm1 12 in
      let ymm1 := vpand ymm1 ymm3 in
      let ymm4 := vpslld ymm1 1 in
      let ymm1 := vpaddd ymm1 ymm4 in
      let ymm1 := vpsubd ymm1 ymm2 in
      do a <- st8 Arg a (rax + 32) ymm1;
      let rax := rax + 64 in
      ret (a, rax))
    (fun '(a, rax) => rax <? rsi) (a, rax);
  ret a.

(** reduce_array_asm2, src/ntt_asm.S 168-187 *)
Definition reduce_array_asm2 (a : list Z) (n : Z) : tr (list Z) :=
  let rdi := 0 in
  let rsi := n in
  let ymm3 := mask in
  let rax := rdi in
  let rsi := rdi + 4 * rsi in
  do '(a, rax) <- cdowhile (fuel n) (fun '(a, rax) =>
      do ymm0 <- ld8 Arg a rax;
      let ymm2 := vpsrad ymm0 12 in
      let ymm0 := vpand ymm0 ymm3 in
      let ymm4 := vpslld ymm0 1 in
      let ymm0 := vpaddd ymm0 ymm4 in
      let ymm0 := vpsubd ymm0 ymm2 in
      do a <- st8 Arg a rax ymm0;
      let rax := rax + 32 in
      ret (a, rax))
    (fun '(a, rax) => rax <? rsi) (a, rax);
  ret a.

(** reduce_array_twice_asm, src/ntt_asm.S 201-243 *)
Definition reduce_array_twice_asm (a : list Z) (n : Z) : tr (list Z) :=
  let rdi := 0 in
  let rsi := n in
  let ymm3 := mask in
  let rax := rdi in
  let rsi := rdi + 4 * rsi in
  do '(a, rax) <- cdowhile (fuel n) (fun '(a, rax) =>
      do ymm0 <- ld8 Arg a rax;
      do ymm1 <- ld8 Arg a (rax + 32);
      let ymm2 := vpsrad ymm0 12 in
      let ymm0 := vpand ymm0 ymm3 in
      let ymm4 := vpslld ymm0 1 in
      let ymm0 := vpaddd ymm0 ymm4 in
      let ymm0 := vpsubd ymm0 ymm2 in
      let ymm2 := vpsrad ymm0 12 in
      let ymm0 := vpand ymm0 ymm3 in
      let ymm4 := vpslld ymm0 1 in
      let ymm0 := vpaddd ymm0 ymm4 in
      let ymm0 := vpsubd ymm0 ymm2 in
      do a <- st8 Arg a rax ymm0;
      let ymm2 := vpsrad ymm1 12 in
      let ymm1 := vpand ymm1 ymm3 in
      let ymm4 := vpslld ymm1 1 in
      let ymm1 := vpaddd ymm1 ymm4 in
      let ymm1 := vpsubd ymm1 ymm2 in
      let ymm2 := vpsrad ymm1 12 in
      let ymm1 := vpand ymm1 ymm3 in
      let ymm4 := vpslld ymm1 1 in
      let ymm1 := vpaddd ymm1 ymm4 in
      let ymm1 := vpsubd ymm1 ymm2 in
      do a <- st8 Arg a (rax + 32) ymm1;
      let rax := rax + 64 in
      ret (a, rax))
    (fun '(a, rax) => rax <? rsi) (a, rax);
  ret a.

(** reduce_array_twice_asm2, src/ntt_asm.S 251-277 *)
Definition reduce_array_twice_asm2 (a : list Z) (n : Z) : tr (list Z) :=
  let rdi := 0 in
  let rsi := n in
  let ymm3 := mask in
  let rax := rdi in
  let rsi := rdi + 4 * rsi in
  do '(a, rax) <- cdowhile (fuel n) (fun '(a, rax) =>
      do ymm0 <- ld8 Arg a rax;
      let ymm2 := vpsrad ymm0 12 in
      let ymm0 := vpand ymm0 ymm3 in
      let ymm4 := vpslld ymm0 1 in
      let ymm0 := vpaddd ymm0 ymm4 in
      let ymm0 := vpsubd ymm0 ymm2 in
      let ymm2 := vpsrad ymm0 12 in
      let ymm0 := vpand ymm0 ymm3 in
      let ymm4 := vpslld ymm0 1 in
      let ymm0 := vpaddd ymm0 ymm4 in
      let ymm0 := vpsubd ymm0 ymm2 in
      do a <- st8 Arg a rax ymm0;
      let rax := rax + 32 in
      ret (a, rax))
    (fun '(a, rax) => rax <? rsi) (a, rax);
  ret a.

(** correct_asm, src/ntt_asm.S 293-324 *)
Definition correct_asm (a : list Z) (n : Z) : tr (list Z) :=
  let rdi := 0 in
  let rsi := n in
  let ymm3 := q_x8 in
  let ymm4 := q_minus1_x8 in
  let rax := rdi in
  let rsi := rdi + 4 * rsi in
  do '(a, rax) <- cdowhile (fuel n) (fun '(a, rax) =>
      do ymm0 <- ld8 Arg a rax;
      do ymm1 <- ld8 Arg a (rax + 32);
      let ymm2 := vpsrad ymm0 31 in
      let ymm5 := vpcmpgtd ymm0 ymm4 in
      let ymm2 := vpand ymm2 ymm3 in
      let ymm5 := vpand ymm5 ymm3 in
      let ymm0 := vpaddd ymm0 ymm2 in
      let ymm0 := vpsubd ymm0 ymm5 in
      do a <- st8 Arg a rax ymm0;
      let ymm2 := vpsrad ymm1 31 in
      let ymm5 := vpcmpgtd ymm1 ymm4 in
      let ymm2 := vpand ymm2 ymm3 in
      let ymm5 := vpand ymm5 ymm3 in
      let ymm1 := vpaddd ymm1 ymm2 in
      let ymm1 := vpsubd ymm1 ymm5 in
      do a <- st8 Arg a (rax + 32) ymm1;
      let rax := rax + 64 in
      ret (a, rax))
    (fun '(a, rax) => rax <? rsi) (a, rax);
  ret a.

(** shift_array_asm, src/ntt_asm.S 339-364 *)
Definition shift_array_asm (a : list Z) (n : Z) : tr (list Z) :=
  let rdi := 0 in
  let rsi := n in
  let ymm3 := q_x8 in
  let ymm4 := half_q_x8 in
  let rax := rdi in
  let rsi := rdi + 4 * rsi in
  do '(a, rax) <- cdowhile (fuel n) (fun '(a, rax) =>
      do ymm0 <- ld8 Arg a rax;
      do ymm1 <- ld8 Arg a (rax + 32);
      let ymm2 := vpcmpgtd ymm0 ymm4 in
      let ymm2 := vpand ymm2 ymm3 in
      let ymm0 := vpsubd ymm0 ymm2 in
      do a <- st8 Arg a rax ymm0;
      let ymm2 := vpcmpgtd ymm1 ymm4 in
      let ymm2 := vpand ymm2 ymm3 in
      let ymm1 := vpsubd ymm1 ymm2 in
      do a <- st8 Arg a (rax + 32) ymm1;
      let rax := rax + 64 in
      ret (a, rax))
    (fun '(a, rax) => rax <? rsi) (a, rax);
  ret a.

(** mul_reduce_array16_asm, src/ntt_asm.S 412-446 *)
Definition mul_reduce_array16_asm (a : list Z) (n : Z) (p : list Z) : tr (list Z) :=
  let rdi := 0 in
  let rsi := n in
  let rdx := 0 in
  let ymm4 := mask in
  let rax := rdi in
  let rsi := rdi + 4 * rsi in
  do '(a, rax, rdx) <- cdowhile (fuel n) (fun '(a, rax, rdx) =>
      do ymm0 <- ld8 Arg a rax;
      do ymm1 <- vpmovsxwd p rdx;
      let ymm2 := vpmuldq ymm0 ymm1 in
      let ymm0 := vpshufd ymm0 49 in
      let ymm1 := vpshufd ymm1 49 in
      let ymm3 := vpmuldq ymm0 ymm1 in
      let ymm0 := vpslldq ymm3 4 in
      let ymm0 := vpblendd ymm0 ymm2 85 in
      let ymm0 := vpand ymm0 ymm4 in
      let ymm3 := vpsrlq ymm3 12 in
      let ymm2 := vpsrlq ymm2 12 in
      let ymm3 := vpslldq ymm3 4 in
      let ymm1 := vpblendd ymm3 ymm2 85 in
      let ymm2 := vpslld ymm0 1 in
      let ymm0 := vpaddd ymm0 ymm2 in
      let ymm0 := vpsubd ymm0 ymm1 in
      do a <- st8 Arg a rax ymm0;
      let rax := rax + 32 in
      let rdx := rdx + 16 in
      ret (a, rax, rdx))
    (fun '(a, rax, rdx) => rax <? rsi) (a, rax, rdx);
  ret a.

(** mul_reduce_array16_asm2, src/ntt_asm.S 453-479 *)
Definition mul_reduce_array16_asm2 (a : list Z) (n : Z) (p : list Z) : tr (list Z) :=
  let rdi := 0 in
  let rsi := n in
  let rdx := 0 in
  let ymm5 := perm0246 in
  let ymm6 := mask in
  let rax := rdi in
  let rsi := rdi + 4 * rsi in
  do '(a, rax, rdx) <- cdowhile (fuel n) (fun '(a, rax, rdx) =>
      do ymm0 <- vpmovsxdq Arg a rax;
      do ymm1 <- vpmovsxwq p rdx;
      let ymm0 := vpmuldq ymm1 ymm0 in
      let ymm3 := ymm0 in
      let ymm0 := vpand ymm6 ymm0 in
      let ymm3 := vpsrlq ymm3 12 in
      let ymm4 := vpslld ymm0 1 in
      let ymm3 := vpsubd ymm0 ymm3 in
      let ymm0 := vpaddd ymm3 ymm4 in
      let ymm0 := vpermd ymm5 ymm0 in
      do a <- st4 Arg a rax ymm0;
      let rax := rax + 16 in
      let rdx := rdx + 8 in
      ret (a, rax, rdx))
    (fun '(a, rax, rdx) => rax <? rsi) (a, rax, rdx);
  ret a.

(** mul_reduce_array_asm, src/ntt_asm.S 497-532, on a heap: [ra], [rb], [rc] name the
    arrays that rdi, rdx, rcx point to, which may be the same *)
Definition mul_reduce_array_asm_h (h : heap) (ra n rb rc : Z) : tr heap :=
  let rdi := 0 in
  let rsi := n in
  let rdx := 0 in
  let rcx := 0 in
  let ymm4 := mask in
  let rax := rdi in
  let rsi := rdi + 4 * rsi in
  do '(h, rax, rdx, rcx) <- cdowhile (fuel n) (fun '(h, rax, rdx, rcx) =>
      do ymm0 <- ld8 (Ptr rb) (h rb) rdx;
      do ymm1 <- ld8 (Ptr rc) (h rc) rcx;
      let ymm2 := vpmuldq ymm0 ymm1 in
      let ymm0 := vpshufd ymm0 49 in
      let ymm1 := vpshufd ymm1 49 in
      let ymm3 := vpmuldq ymm0 ymm1 in
      let ymm0 := vpslldq ymm3 4 in
      let ymm0 := vpblendd ymm0 ymm2 85 in
      let ymm0 := vpand ymm0 ymm4 in
      let ymm3 := vpsrlq ymm3 12 in
      let ymm2 := vpsrlq ymm2 12 in
      let ymm3 := vpslldq ymm3 4 in
      let ymm1 := vpblendd ymm3 ymm2 85 in
      let ymm2 := vpslld ymm0 1 in
      let ymm0 := vpaddd ymm0 ymm2 in
      let ymm0 := vpsubd ymm0 ymm1 in
      do l <- st8 (Ptr ra) (h ra) rax ymm0;
      let h := hset h ra l in
      let rax := rax + 32 in
      let rdx := rdx + 32 in
      let rcx := rcx + 32 in
      ret (h, rax, rdx, rcx))
    (fun '(h, rax, rdx, rcx) => rax <? rsi) (h, rax, rdx, rcx);
  ret h.

(** scalar_mul_reduce_array_asm, src/ntt_asm.S 547-580; rdx is the scalar *)
Definition scalar_mul_reduce_array_asm (a : list Z) (n : Z) (c : Z) : tr (list Z) :=
  let rdi := 0 in
  let rsi := n in
  let rdx := c in
  let ymm4 := mask in
  let rax := rdi in
  let rsi := rdi + 4 * rsi in
  let ymm0 := vmovd rdx in
  let ymm1 := vpbroadcastd ymm0 in
  do '(a, rax) <- cdowhile (fuel n) (fun '(a, rax) =>
      do ymm0 <- ld8 Arg a rax;
      let ymm2 := vpmuldq ymm0 ymm1 in
      let ymm0 := vpshufd ymm0 49 in
      let ymm3 := vpmuldq ymm0 ymm1 in
      let ymm0 := vpslldq ymm3 4 in
      let ymm0 := vpblendd ymm0 ymm2 85 in
      let ymm0 := vpand ymm0 ymm4 in
      let ymm3 := vpsrlq ymm3 12 in
      let ymm2 := vpsrlq ymm2 12 in
      let ymm3 := vpslldq ymm3 4 in
      let ymm3 := vpblendd ymm3 ymm2 85 in
      let ymm2 := vpslld ymm0 1 in
      let ymm0 := vpaddd ymm0 ymm2 in
      let ymm0 := vpsubd ymm0 ymm3 in
      do a <- st8 Arg a rax ymm0;
      let rax := rax + 32 in
      ret (a, rax))
    (fun '(a, rax) => rax <? rsi) (a, rax);
  ret a.

(** ct_r2s_size16_loop to ct_r2s_done, src/ntt_asm.S 737-842: the part shared by the two
    functions below.  The registers read there are the parameters. *)
Definition ct_r2s_size16 (a p : list Z) (rdi rsi rdx r9 rax : Z) (ymm4 ymm5 ymm6 : ymm)
  : tr (list Z) :=
  let n := r9 in
  do '(a, rax) <- cdowhile (fuel n) (fun '(a, rax) =>
      do ymm0 <- ld8 Arg a rax;
      do ymm1 <- ld8 Arg a (rax + 32);
      let ymm2 := vpmuldq ymm1 ymm6 in
      let ymm1 := vpshufd ymm1 49 in
      let ymm3 := vpmuldq ymm1 ymm5 in
      let ymm1 := vpslldq ymm3 4 in
      let ymm1 := vpblendd ymm1 ymm2 85 in
      let ymm1 := vpand ymm1 ymm4 in
      let ymm3 := vpsrlq ymm3 12 in
      let ymm2 := vpsrlq ymm2 12 in
      let ymm3 := vpslldq ymm3 4 in
      let ymm2 := vpblendd ymm3 ymm2 85 in
      let ymm3 := vpslld ymm1 1 in
      let ymm1 := vpaddd ymm1 ymm3 in
      let ymm1 := vpsubd ymm1 ymm2 in
      let ymm2 := vpaddd ymm0 ymm1 in
      let ymm3 := vpsubd ymm0 ymm1 in
      do a <- st8 Arg a rax ymm2;
      do a <- st8 Arg a (rax + 32) ymm3;
      let rax := rax + 64 in
      ret (a, rax))
    (fun '(a, rax) => rax <? rsi) (a, rax);
  branch r9 <=? 16 then ret a else
  let r10 := 32 in
  let r11 := rdx + 32 in
  do '(a, r10, r11) <- cdowhile (fuel n) (fun '(a, r10, r11) =>
      let rax := rdi in
      do '(a, rax) <- cdowhile (fuel n) (fun '(a, rax) =>
          let rcx := rax + 2 * r10 in
          let r8 := rax + 4 * r10 in
          let rdx := r11 in
          do '(a, rax, rcx, rdx) <- cdowhile (fuel n) (fun '(a, rax, rcx, rdx) =>
              do ymm0 <- ld8 Arg a rax;
              do ymm1 <- ld8 Arg a rcx;
              do ymm6 <- vpmovsxwd p rdx;
              let ymm2 := vpmuldq ymm1 ymm6 in
              let ymm1 := vpshufd ymm1 49 in
              let ymm6 := vpshufd ymm6 49 in
              let ymm3 := vpmuldq ymm1 ymm6 in
              let ymm1 := vpslldq ymm3 4 in
              let ymm1 := vpblendd ymm1 ymm2 85 in
              let ymm1 := vpand ymm1 ymm4 in
              let ymm3 := vpsrlq ymm3 12 in
              let ymm2 := vpsrlq ymm2 12 in
              let ymm3 := vpslldq ymm3 4 in
              let ymm2 := vpblendd ymm3 ymm2 85 in
              let ymm3 := vpslld ymm1 1 in
              let ymm1 := vpaddd ymm1 ymm3 in
              let ymm1 := vpsubd ymm1 ymm2 in
              let ymm2 := vpaddd ymm0 ymm1 in
              let ymm3 := vpsubd ymm0 ymm1 in
              do a <- st8 Arg a rax ymm2;
              do a <- st8 Arg a rcx ymm3;
              let rdx := rdx + 16 in
              let rax := rax + 32 in
              let rcx := rcx + 32 in
              ret (a, rax, rcx, rdx))
            (fun '(a, rax, rcx, rdx) => rcx <? r8) (a, rax, rcx, rdx);
          let rax := r8 in
          ret (a, rax))
        (fun '(a, rax) => rax <? rsi) (a, rax);
      let r11 := r11 + r10 in
      let r10 := Z.shiftl r10 1 in
      ret (a, r10, r11))
    (fun '(a, r10, r11) => r10 <=? r9) (a, r10, r11);
  ret a.

(** ntt_red_ct_rev2std_asm, src/ntt_asm.S 667-842 *)
Definition ntt_red_ct_rev2std_asm (a : list Z) (n : Z) (p : list Z) : tr (list Z) :=
  let rdi := 0 in
  let rsi := n in
  let rdx := 0 in
  let rax := rdi in
  let r9 := rsi in
  let rsi := rdi + 4 * rsi in
  do ymm4 <- vpmovsxwd p rdx;
  let ymm5 := perm5 in
  let ymm5 := vpermd ymm5 ymm4 in
  let ymm6 := perm4 in
  let ymm6 := vpermd ymm6 ymm4 in
  let ymm4 := mask in
  do '(a, rax) <- cdowhile (fuel n) (fun '(a, rax) =>
      do ymm0 <- ld8 Arg a rax;
      let ymm1 := vpsrldq ymm0 4 in
      let ymm2 := vpaddd ymm0 ymm1 in
      let ymm3 := vpsubd ymm0 ymm1 in
      let ymm0 := vshufps ymm2 ymm3 68 in
      let ymm1 := vshufps ymm2 ymm3 238 in
      let ymm1 := vpmuldq ymm1 ymm6 in
      let ymm2 := vpand ymm1 ymm4 in
      let ymm1 := vpsrlq ymm1 12 in
      let ymm3 := vpslld ymm2 1 in
      let ymm2 := vpaddd ymm2 ymm3 in
      let ymm1 := vpsubd ymm2 ymm1 in
      let ymm2 := vpaddd ymm0 ymm1 in
      let ymm3 := vpsubd ymm0 ymm1 in
      let ymm0 := vperm2i128 ymm2 ymm3 32 in
      let ymm1 := vperm2i128 ymm2 ymm3 49 in
      let ymm1 := vpmuldq ymm1 ymm5 in
      let ymm2 := vpand ymm1 ymm4 in
      let ymm1 := vpsrlq ymm1 12 in
      let ymm3 := vpslld ymm2 1 in
      let ymm2 := vpaddd ymm2 ymm3 in
      let ymm1 := vpsubd ymm2 ymm1 in
      let ymm2 := vpaddd ymm0 ymm1 in
      let ymm3 := vpsubd ymm0 ymm1 in
      let ymm0 := vperm2i128 ymm2 ymm3 32 in
      let ymm1 := vperm2i128 ymm2 ymm3 49 in
      let ymm0 := vshufps ymm0 ymm1 136 in
      do a <- st8 Arg a rax ymm0;
      let rax := rax + 32 in
      ret (a, rax))
    (fun '(a, rax) => rax <? rsi) (a, rax);
  let rax := rdi in
  do ymm6 <- vpmovsxwd p (rdx + 16);
  let ymm5 := vpshufd ymm6 49 in
  ct_r2s_size16 a p rdi rsi rdx r9 rax ymm4 ymm5 ymm6.

(** mulntt_red_ct_rev2std_asm, src/ntt_asm.S 866-945 *)
Definition mulntt_red_ct_rev2std_asm (a : list Z) (n : Z) (p : list Z) : tr (list Z) :=
  let rdi := 0 in
  let rsi := n in
  let rdx := 0 in
  let rax := rdi in
  let r9 := rsi in
  let rsi := rdi + 4 * rsi in
  do ymm4 <- vpmovsxwd p rdx;
  let ymm5 := perm5 in
  let ymm5 := vpermd ymm5 ymm4 in
  let ymm6 := perm4 in
  let ymm6 := vpermd ymm6 ymm4 in
  let ymm7 := perm3 in
  let ymm7 := vpermd ymm7 ymm4 in
  let ymm4 := mask in
  do '(a, rax) <- cdowhile (fuel n) (fun '(a, rax) =>
      do ymm0 <- ld8 Arg a rax;
      let ymm1 := vpsrldq ymm0 4 in
      let ymm1 := vpmuldq ymm1 ymm7 in
      let ymm2 := vpand ymm1 ymm4 in
      let ymm1 := vpsrlq ymm1 12 in
      let ymm3 := vpslld ymm2 1 in
      let ymm2 := vpaddd ymm2 ymm3 in
      let ymm1 := vpsubd ymm2 ymm1 in
      let ymm2 := vpaddd ymm0 ymm1 in
      let ymm3 := vpsubd ymm0 ymm1 in
      let ymm0 := vshufps ymm2 ymm3 68 in
      let ymm1 := vshufps ymm2 ymm3 238 in
      let ymm1 := vpmuldq ymm1 ymm6 in
      let ymm2 := vpand ymm1 ymm4 in
      let ymm1 := vpsrlq ymm1 12 in
      let ymm3 := vpslld ymm2 1 in
      let ymm2 := vpaddd ymm2 ymm3 in
      let ymm1 := vpsubd ymm2 ymm1 in
      let ymm2 := vpaddd ymm0 ymm1 in
      let ymm3 := vpsubd ymm0 ymm1 in
      let ymm0 := vperm2i128 ymm2 ymm3 32 in
      let ymm1 := vperm2i128 ymm2 ymm3 49 in
      let ymm1 := vpmuldq ymm1 ymm5 in
      let ymm2 := vpand ymm1 ymm4 in
      let ymm1 := vpsrlq ymm1 12 in
      let ymm3 := vpslld ymm2 1 in
      let ymm2 := vpaddd ymm2 ymm3 in
      let ymm1 := vpsubd ymm2 ymm1 in
      let ymm2 := vpaddd ymm0 ymm1 in
      let ymm3 := vpsubd ymm0 ymm1 in
      let ymm0 := vperm2i128 ymm2 ymm3 32 in
      let ymm1 := vperm2i128 ymm2 ymm3 49 in
      let ymm0 := vshufps ymm0 ymm1 136 in
      do a <- st8 Arg a rax ymm0;
      let rax := rax + 32 in
      ret (a, rax))
    (fun '(a, rax) => rax <? rsi) (a, rax);
  let rax := rdi in
  do ymm6 <- vpmovsxwd p (rdx + 16);
  let ymm5 := vpshufd ymm6 49 in
  ct_r2s_size16 a p rdi rsi rdx r9 rax ymm4 ymm5 ymm6.

(** ct_s2r_finish, src/ntt_asm.S 1082-1215; [n] only bounds the number of iterations *)
Definition ct_s2r_finish (a p : list Z) (n rdi rdx r8 : Z) (ymm4 : ymm) : tr (list Z) :=
  let rax := rdi in
  let ymm6 := perm2020 in
  do '(a, rax, rdx) <- cdowhile (fuel n) (fun '(a, rax, rdx) =>
      do ymm5 <- vpmovsxwq_x p rdx;
      let ymm5 := vpermd ymm6 ymm5 in
      do ymm0 <- ld8 Arg a rax;
      do ymm1 <- ld8 Arg a (rax + 32);
      let ymm2 := vperm2i128 ymm0 ymm1 32 in
      let ymm3 := vperm2i128 ymm0 ymm1 49 in
      let ymm0 := vpmuldq ymm3 ymm5 in
      let ymm3 := vpshufd ymm3 49 in
      let ymm1 := vpmuldq ymm3 ymm5 in
      let ymm3 := vpslldq ymm1 4 in
      let ymm3 := vpblendd ymm3 ymm0 85 in
      let ymm3 := vpand ymm3 ymm4 in
      let ymm1 := vpsrlq ymm1 12 in
      let ymm0 := vpsrlq ymm0 12 in
      let ymm1 := vpslldq ymm1 4 in
      let ymm1 := vpblendd ymm1 ymm0 85 in
      let ymm0 := vpslld ymm3 1 in
      let ymm3 := vpaddd ymm3 ymm0 in
      let ymm3 := vpsubd ymm3 ymm1 in
      let ymm0 := vpaddd ymm2 ymm3 in
      let ymm1 := vpsubd ymm2 ymm3 in
      let ymm2 := vperm2i128 ymm0 ymm1 32 in
      let ymm3 := vperm2i128 ymm0 ymm1 49 in
      do a <- st8 Arg a rax ymm2;
      do a <- st8 Arg a (rax + 32) ymm3;
      let rax := rax + 64 in
      let rdx := rdx + 4 in
      ret (a, rax, rdx))
    (fun '(a, rax, rdx) => rax <? r8) (a, rax, rdx);
  let rax := rdi in
  let ymm6 := perm0426 in
  do '(a, rax, rdx) <- cdowhile (fuel n) (fun '(a, rax, rdx) =>
      do ymm5 <- vpmovsxwq p rdx;
      let ymm5 := vpermd ymm6 ymm5 in
      do ymm0 <- ld8 Arg a rax;
      do ymm1 <- ld8 Arg a (rax + 32);
      let ymm2 := vshufpd ymm0 ymm1 0 in
      let ymm3 := vshufpd ymm0 ymm1 15 in
      let ymm0 := vpmuldq ymm3 ymm5 in
      let ymm3 := vpshufd ymm3 49 in
      let ymm1 := vpmuldq ymm3 ymm5 in
      let ymm3 := vpslldq ymm1 4 in
      let ymm3 := vpblendd ymm3 ymm0 85 in
      let ymm3 := vpand ymm3 ymm4 in
      let ymm1 := vpsrlq ymm1 12 in
      let ymm0 := vpsrlq ymm0 12 in
      let ymm1 := vpslldq ymm1 4 in
      let ymm1 := vpblendd ymm1 ymm0 85 in
      let ymm0 := vpslld ymm3 1 in
      let ymm3 := vpaddd ymm3 ymm0 in
      let ymm3 := vpsubd ymm3 ymm1 in
      let ymm0 := vpaddd ymm2 ymm3 in
      let ymm1 := vpsubd ymm2 ymm3 in
      let ymm2 := vshufpd ymm0 ymm1 0 in
      let ymm3 := vshufpd ymm0 ymm1 15 in
      do a <- st8 Arg a rax ymm2;
      do a <- st8 Arg a (rax + 32) ymm3;
      let rax := rax + 64 in
      let rdx := rdx + 8 in
      ret (a, rax, rdx))
    (fun '(a, rax, rdx) => rax <? r8) (a, rax, rdx);
  let rax := rdi in
  do '(a, rax, rdx) <- cdowhile (fuel n) (fun '(a, rax, rdx) =>
      do ymm5 <- vpmovsxwq p rdx;
      do ymm6 <- vpmovsxwq p (rdx + 8);
      do ymm0 <- ld8 Arg a rax;
      do ymm1 <- ld8 Arg a (rax + 32);
      let ymm2 := vpslldq ymm1 4 in
      let ymm2 := vpblendd ymm0 ymm2 170 in
      let ymm0 := vpsrldq ymm0 4 in
      let ymm0 := vpmuldq ymm0 ymm5 in
      let ymm1 := vpsrldq ymm1 4 in
      let ymm1 := vpmuldq ymm1 ymm6 in
      let ymm3 := vpslldq ymm1 4 in
      let ymm3 := vpblendd ymm3 ymm0 85 in
      let ymm3 := vpand ymm3 ymm4 in
      let ymm1 := vpsrlq ymm1 12 in
      let ymm0 := vpsrlq ymm0 12 in
      let ymm1 := vpslldq ymm1 4 in
      let ymm1 := vpblendd ymm1 ymm0 85 in
      let ymm0 := vpslld ymm3 1 in
      let ymm3 := vpaddd ymm3 ymm0 in
      let ymm3 := vpsubd ymm3 ymm1 in
      let ymm0 := vpaddd ymm2 ymm3 in
      let ymm1 := vpsubd ymm2 ymm3 in
      let ymm2 := vpslldq ymm1 4 in
      let ymm2 := vpblendd ymm0 ymm2 170 in
      let ymm0 := vpsrldq ymm0 4 in
      let ymm3 := vpblendd ymm0 ymm1 170 in
      do a <- st8 Arg a rax ymm2;
      do a <- st8 Arg a (rax + 32) ymm3;
      let rax := rax + 64 in
      let rdx := rdx + 16 in
      ret (a, rax, rdx))
    (fun '(a, rax, rdx) => rax <? r8) (a, rax, rdx);
  ret a.

(** ntt_red_ct_std2rev_asm, src/ntt_asm.S 963-1215 *)
Definition ntt_red_ct_std2rev_asm (a : list Z) (n : Z) (p : list Z) : tr (list Z) :=
  let rdi := 0 in
  let rsi := n in
  let rdx := 0 in
  let r8 := rdi + 4 * rsi in
  let ymm4 := mask in
  let rax := rdi in
  let rcx := rdi + 2 * rsi in
  do '(a, rax, rcx) <- cdowhile (fuel n) (fun '(a, rax, rcx) =>
      do ymm0 <- ld8 Arg a rax;
      do ymm1 <- ld8 Arg a rcx;
      let ymm2 := vpaddd ymm0 ymm1 in
      let ymm3 := vpsubd ymm0 ymm1 in
      do a <- st8 Arg a rax ymm2;
      do a <- st8 Arg a rcx ymm3;
      let rcx := rcx + 32 in
      let rax := rax + 32 in
      ret (a, rax, rcx))
    (fun '(a, rax, rcx) => rcx <? r8) (a, rax, rcx);
  let rdx := rdx + 4 in
  let rsi := Z.shiftr rsi 1 in
  branch rsi <=? 8 then ct_s2r_finish a p n rdi rdx r8 ymm4 else
  do '(a, rdx, rsi) <- cdowhile (fuel n) (fun '(a, rdx, rsi) =>
      let rax := rdi in
      let rcx := rdi + 2 * rsi in
      let r9 := rcx in
      do '(a, rax, rcx) <- cdowhile (fuel n) (fun '(a, rax, rcx) =>
          do ymm0 <- ld8 Arg a rax;
          do ymm1 <- ld8 Arg a rcx;
          let ymm2 := vpaddd ymm0 ymm1 in
          let ymm3 := vpsubd ymm0 ymm1 in
          do a <- st8 Arg a rax ymm2;
          do a <- st8 Arg a rcx ymm3;
          let rax := rax + 32 in
          let rcx := rcx + 32 in
          ret (a, rax, rcx))
        (fun '(a, rax, rcx) => rax <? r9) (a, rax, rcx);
      do '(a, rcx, rdx) <- cdowhile (fuel n) (fun '(a, rcx, rdx) =>
          let rdx := rdx + 2 in
          do ymm5 <- vpbroadcastw p rdx;
          let ymm5 := vpmovsxwq_r ymm5 in
          let rax := rcx in
          let rcx := rax + 2 * rsi in
          let r9 := rcx in
          do '(a, rax, rcx) <- cdowhile (fuel n) (fun '(a, rax, rcx) =>
              do ymm0 <- ld8 Arg a rax;
              do ymm1 <- ld8 Arg a rcx;
              let ymm2 := vpmuldq ymm1 ymm5 in
              let ymm1 := vpshufd ymm1 49 in
              let ymm3 := vpmuldq ymm1 ymm5 in
              let ymm1 := vpslldq ymm3 4 in
              let ymm1 := vpblendd ymm1 ymm2 85 in
              let ymm1 := vpand ymm1 ymm4 in
              let ymm3 := vpsrlq ymm3 12 in
              let ymm2 := vpsrlq ymm2 12 in
              let ymm3 := vpslldq ymm3 4 in
              let ymm3 := vpblendd ymm3 ymm2 85 in
              let ymm2 := vpslld ymm1 1 in
              let ymm1 := vpaddd ymm1 ymm2 in
              let ymm1 := vpsubd ymm1 ymm3 in
              let ymm2 := vpaddd ymm0 ymm1 in
              let ymm3 := vpsubd ymm0 ymm1 in
              do a <- st8 Arg a rax ymm2;
              do a <- st8 Arg a rcx ymm3;
              let rax := rax + 32 in
              let rcx := rcx + 32 in
              ret (a, rax, rcx))
            (fun '(a, rax, rcx) => rax <? r9) (a, rax, rcx);
          ret (a, rcx, rdx))
        (fun '(a, rcx, rdx) => rcx <? r8) (a, rcx, rdx);
      let rdx := rdx + 2 in
      let rsi := Z.shiftr rsi 1 in
      ret (a, rdx, rsi))
    (fun '(a, rdx, rsi) => rsi >? 8) (a, rdx, rsi);
  ct_s2r_finish a p n rdi rdx r8 ymm4.

(** mulntt_red_ct_std2rev_asm, src/ntt_asm.S 1235-1302 *)
Definition mulntt_red_ct_std2rev_asm (a : list Z) (n : Z) (p : list Z) : tr (list Z) :=
  let rdi := 0 in
  let rsi := n in
  let rdx := 0 in
  let r8 := rdi + 4 * rsi in
  let ymm4 := mask in
  do '(a, rdx, rsi) <- cdowhile (fuel n) (fun '(a, rdx, rsi) =>
      let rax := rdi in
      let rcx := rdi + 2 * rsi in
      let r9 := rcx in
      do '(a, rax, rcx, rdx, r9) <- cdowhile (fuel n) (fun '(a, rax, rcx, rdx, r9) =>
          let rdx := rdx + 2 in
          do ymm5 <- vpbroadcastw p rdx;
          let ymm5 := vpmovsxwq_r ymm5 in
          do '(a, rax, rcx) <- cdowhile (fuel n) (fun '(a, rax, rcx) =>
              do ymm0 <- ld8 Arg a rax;
              do ymm1 <- ld8 Arg a rcx;
              let ymm2 := vpmuldq ymm1 ymm5 in
              let ymm1 := vpshufd ymm1 49 in
              let ymm3 := vpmuldq ymm1 ymm5 in
              let ymm1 := vpslldq ymm3 4 in
              let ymm1 := vpblendd ymm1 ymm2 85 in
              let ymm1 := vpand ymm1 ymm4 in
              let ymm3 := vpsrlq ymm3 12 in
              let ymm2 := vpsrlq ymm2 12 in
              let ymm3 := vpslldq ymm3 4 in
              let ymm3 := vpblendd ymm3 ymm2 85 in
              let ymm2 := vpslld ymm1 1 in
              let ymm1 := vpaddd ymm1 ymm2 in
              let ymm1 := vpsubd ymm1 ymm3 in
              let ymm2 := vpaddd ymm0 ymm1 in
              let ymm3 := vpsubd ymm0 ymm1 in
              do a <- st8 Arg a rax ymm2;
              do a <- st8 Arg a rcx ymm3;
              let rax := rax + 32 in
              let rcx := rcx + 32 in
              ret (a, rax, rcx))
            (fun '(a, rax, rcx) => rax <? r9) (a, rax, rcx);
          let rax := rcx in
          let rcx := rax + 2 * rsi in
          let r9 := rcx in
          ret (a, rax, rcx, rdx, r9))
        (fun '(a, rax, rcx, rdx, r9) => rax <? r8) (a, rax, rcx, rdx, r9);
      let rsi := Z.shiftr rsi 1 in
      ret (a, rdx, rsi))
    (fun '(a, rdx, rsi) => rsi >? 8) (a, rdx, rsi);
  let rdx := rdx + 2 in
  ct_s2r_finish a p n rdi rdx r8 ymm4.

(** ntt_red_gs_rev2std_asm, src/ntt_asm.S 1320-1532.  The loop at gs_r2s_size32_loop is
    left from its middle (1485); the flag [again] says whether it was. *)
Definition ntt_red_gs_rev2std_asm (a : list Z) (n : Z) (p : list Z) : tr (list Z) :=
  let rdi := 0 in
  let rsi := n in
  let rdx := 0 in
  let rcx := rdi + 4 * rsi in
  let r8 := rdx + rsi in
  let rsi := Z.shiftr rsi 1 in
  let r9 := rdx + rsi in
  let rsi := Z.shiftr rsi 1 in
  let r10 := rdx + rsi in
  let rax := rdi in
  let ymm4 := mask in
  let ymm6 := perm2020 in
  do '(a, rax, r8, r9, r10) <- cdowhile (fuel n) (fun '(a, rax, r8, r9, r10) =>
      do ymm5 <- vpmovsxwq p r8;
      do ymm0 <- ld8 Arg a rax;
      let ymm1 := vpsrldq ymm0 4 in
      let ymm2 := vpsubd ymm0 ymm1 in
      let ymm0 := vpaddd ymm0 ymm1 in
      let ymm2 := vpmuldq ymm2 ymm5 in
      let ymm3 := vpand ymm2 ymm4 in
      let ymm2 := vpsrlq ymm2 12 in
      let ymm1 := vpslld ymm3 1 in
      let ymm3 := vpaddd ymm3 ymm1 in
      let ymm1 := vpsubd ymm3 ymm2 in
      do ymm5 <- vpmovsxwq_x p r9;
      let ymm5 := vpermd ymm6 ymm5 in
      let ymm2 := vshufps ymm0 ymm1 68 in
      let ymm3 := vshufps ymm0 ymm1 238 in
      let ymm1 := vpsubd ymm2 ymm3 in
      let ymm0 := vpaddd ymm2 ymm3 in
      let ymm1 := vpmuldq ymm1 ymm5 in
      let ymm3 := vpand ymm1 ymm4 in
      let ymm2 := vpsrlq ymm1 12 in
      let ymm1 := vpslld ymm3 1 in
      let ymm3 := vpaddd ymm3 ymm1 in
      let ymm1 := vpsubd ymm3 ymm2 in
      do ymm5 <- vpbroadcastw p r10;
      let ymm5 := vpmovsxwq_r ymm5 in
      let ymm2 := vperm2i128 ymm0 ymm1 32 in
      let ymm3 := vperm2i128 ymm0 ymm1 49 in
      let ymm1 := vpsubd ymm2 ymm3 in
      let ymm0 := vpaddd ymm2 ymm3 in
      let ymm1 := vpmuldq ymm1 ymm5 in
      let ymm3 := vpand ymm1 ymm4 in
      let ymm2 := vpsrlq ymm1 12 in
      let ymm1 := vpslld ymm3 1 in
      let ymm3 := vpaddd ymm3 ymm1 in
      let ymm1 := vpsubd ymm3 ymm2 in
      let ymm2 := vperm2i128 ymm0 ymm1 32 in
      let ymm3 := vperm2i128 ymm0 ymm1 49 in
      let ymm0 := vshufps ymm2 ymm3 136 in
      do a <- st8 Arg a rax ymm0;
      let rax := rax + 32 in
      let r8 := r8 + 8 in
      let r9 := r9 + 4 in
      let r10 := r10 + 2 in
      ret (a, rax, r8, r9, r10))
    (fun '(a, rax, r8, r9, r10) => rax <? rcx) (a, rax, r8, r9, r10);
  let rax := rdi in
  do ymm0 <- ld8 Arg a rax;
  do ymm1 <- ld8 Arg a (rax + 32);
  let ymm2 := vpsubd ymm0 ymm1 in
  let ymm0 := vpaddd ymm0 ymm1 in
  do a <- st8 Arg a rax ymm0;
  do a <- st8 Arg a (rax + 32) ymm2;
  let rax := rax + 64 in
  branch rax >=? rcx then ret a else
  let rsi := Z.shiftr rsi 1 in
  let r9 := rdx + rsi + 2 in
  do '(a, rax, r9) <- cdowhile (fuel n) (fun '(a, rax, r9) =>
      do ymm5 <- vpbroadcastw p r9;
      let ymm5 := vpmovsxwq_r ymm5 in
      do ymm0 <- ld8 Arg a rax;
      do ymm1 <- ld8 Arg a (rax + 32);
      let ymm2 := vpsubd ymm0 ymm1 in
      let ymm0 := vpaddd ymm0 ymm1 in
      let ymm1 := vpmuldq ymm2 ymm5 in
      let ymm2 := vpshufd ymm2 49 in
      let ymm3 := vpmuldq ymm2 ymm5 in
      let ymm2 := vpslldq ymm3 4 in
      let ymm2 := vpblendd ymm2 ymm1 85 in
      let ymm2 := vpand ymm2 ymm4 in
      let ymm1 := vpsrlq ymm1 12 in
      let ymm3 := vpsrlq ymm3 12 in
      let ymm3 := vpslldq ymm3 4 in
      let ymm1 := vpblendd ymm3 ymm1 85 in
      let ymm3 := vpslld ymm2 1 in
      let ymm2 := vpaddd ymm2 ymm3 in
      let ymm1 := vpsubd ymm2 ymm1 in
      do a <- st8 Arg a rax ymm0;
      do a <- st8 Arg a (rax + 32) ymm1;
      let rax := rax + 64 in
      let r9 := r9 + 2 in
      ret (a, rax, r9))
    (fun '(a, rax, r9) => rax <? rcx) (a, rax, r9);
  let r10 := rcx in
  let r11 := 64 in
  do '(a, rsi, r11, again) <- cdowhile (fuel n) (fun '(a, rsi, r11, again) =>
      let rax := rdi in
      let rcx := rax + r11 in
      let r8 := rcx in
      let rsi := Z.shiftr rsi 1 in
      let r9 := rdx + rsi in
      do '(a, rax, rcx) <- cdowhile (fuel n) (fun '(a, rax, rcx) =>
          do ymm0 <- ld8 Arg a rax;
          do ymm1 <- ld8 Arg a rcx;
          let ymm2 := vpsubd ymm0 ymm1 in
          let ymm0 := vpaddd ymm0 ymm1 in
          do a <- st8 Arg a rax ymm0;
          do a <- st8 Arg a rcx ymm2;
          let rax := rax + 32 in
          let rcx := rcx + 32 in
          ret (a, rax, rcx))
        (fun '(a, rax, rcx) => rax <? r8) (a, rax, rcx);
      branch rcx >=? r10 then ret (a, rsi, r11, false) else
      do '(a, rcx, r9) <- cdowhile (fuel n) (fun '(a, rcx, r9) =>
          let r9 := r9 + 2 in
          do ymm5 <- vpbroadcastw p r9;
          let ymm5 := vpmovsxwq_r ymm5 in
          let rax := rcx in
          let rcx := rcx + r11 in
          let r8 := rcx in
          do '(a, rax, rcx) <- cdowhile (fuel n) (fun '(a, rax, rcx) =>
              do ymm0 <- ld8 Arg a rax;
              do ymm1 <- ld8 Arg a rcx;
              let ymm2 := vpsubd ymm0 ymm1 in
              let ymm0 := vpaddd ymm0 ymm1 in
              let ymm1 := vpmuldq ymm2 ymm5 in
              let ymm2 := vpshufd ymm2 49 in
              let ymm3 := vpmuldq ymm2 ymm5 in
              let ymm2 := vpslldq ymm3 4 in
              let ymm2 := vpblendd ymm2 ymm1 85 in
              let ymm2 := vpand ymm2 ymm4 in
              let ymm1 := vpsrlq ymm1 12 in
              let ymm3 := vpsrlq ymm3 12 in
              let ymm3 := vpslldq ymm3 4 in
              let ymm1 := vpblendd ymm3 ymm1 85 in
              let ymm3 := vpslld ymm2 1 in
              let ymm2 := vpaddd ymm2 ymm3 in
              let ymm1 := vpsubd ymm2 ymm1 in
              do a <- st8 Arg a rax ymm0;
              do a <- st8 Arg a rcx ymm1;
              let rax := rax + 32 in
              let rcx := rcx + 32 in
              ret (a, rax, rcx))
            (fun '(a, rax, rcx) => rax <? r8) (a, rax, rcx);
          ret (a, rcx, r9))
        (fun '(a, rcx, r9) => rcx <? r10) (a, rcx, r9);
      let r11 := Z.shiftl r11 1 in
      ret (a, rsi, r11, true))
    (fun '(a, rsi, r11, again) => again) (a, rsi, r11, true);
  ret a.

(** nttmul_red_gs_rev2std_asm, src/ntt_asm.S 1551-1733 *)
Definition nttmul_red_gs_rev2std_asm (a : list Z) (n : Z) (p : list Z) : tr (list Z) :=
  let rdi := 0 in
  let rsi := n in
  let rdx := 0 in
  let rcx := rdi + 4 * rsi in
  let r8 := rdx + rsi in
  let rsi := Z.shiftr rsi 1 in
  let r9 := rdx + rsi in
  let rsi := Z.shiftr rsi 1 in
  let r10 := rdx + rsi in
  let rax := rdi in
  let ymm4 := mask in
  let ymm6 := perm2020 in
  do '(a, rax, r8, r9, r10) <- cdowhile (fuel n) (fun '(a, rax, r8, r9, r10) =>
      do ymm5 <- vpmovsxwq p r8;
      do ymm0 <- ld8 Arg a rax;
      let ymm1 := vpsrldq ymm0 4 in
      let ymm2 := vpsubd ymm0 ymm1 in
      let ymm0 := vpaddd ymm0 ymm1 in
      let ymm2 := vpmuldq ymm2 ymm5 in
      let ymm3 := vpand ymm2 ymm4 in
      let ymm2 := vpsrlq ymm2 12 in
      let ymm1 := vpslld ymm3 1 in
      let ymm3 := vpaddd ymm3 ymm1 in
      let ymm1 := vpsubd ymm3 ymm2 in
      do ymm5 <- vpmovsxwq_x p r9;
      let ymm5 := vpermd ymm6 ymm5 in
      let ymm2 := vshufps ymm0 ymm1 68 in
      let ymm3 := vshufps ymm0 ymm1 238 in
      let ymm1 := vpsubd ymm2 ymm3 in
      let ymm0 := vpaddd ymm2 ymm3 in
      let ymm1 := vpmuldq ymm1 ymm5 in
      let ymm3 := vpand ymm1 ymm4 in
      let ymm2 := vpsrlq ymm1 12 in
      let ymm1 := vpslld ymm3 1 in
      let ymm3 := vpaddd ymm3 ymm1 in
      let ymm1 := vpsubd ymm3 ymm2 in
      do ymm5 <- vpbroadcastw p r10;
      let ymm5 := vpmovsxwq_r ymm5 in
      let ymm2 := vperm2i128 ymm0 ymm1 32 in
      let ymm3 := vperm2i128 ymm0 ymm1 49 in
      let ymm1 := vpsubd ymm2 ymm3 in
      let ymm0 := vpaddd ymm2 ymm3 in
      let ymm1 := vpmuldq ymm1 ymm5 in
      let ymm3 := vpand ymm1 ymm4 in
      let ymm2 := vpsrlq ymm1 12 in
      let ymm1 := vpslld ymm3 1 in
      let ymm3 := vpaddd ymm3 ymm1 in
      let ymm1 := vpsubd ymm3 ymm2 in
      let ymm2 := vperm2i128 ymm0 ymm1 32 in
      let ymm3 := vperm2i128 ymm0 ymm1 49 in
      let ymm0 := vshufps ymm2 ymm3 136 in
      do a <- st8 Arg a rax ymm0;
      let rax := rax + 32 in
      let r8 := r8 + 8 in
      let r9 := r9 + 4 in
      let r10 := r10 + 2 in
      ret (a, rax, r8, r9, r10))
    (fun '(a, rax, r8, r9, r10) => rax <? rcx) (a, rax, r8, r9, r10);
  let rax := rdi in
  let rsi := Z.shiftr rsi 1 in
  let r9 := rdx + rsi in
  do '(a, rax, r9) <- cdowhile (fuel n) (fun '(a, rax, r9) =>
      do ymm5 <- vpbroadcastw p r9;
      let ymm5 := vpmovsxwq_r ymm5 in
      do ymm0 <- ld8 Arg a rax;
      do ymm1 <- ld8 Arg a (rax + 32);
      let ymm2 := vpsubd ymm0 ymm1 in
      let ymm0 := vpaddd ymm0 ymm1 in
      let ymm1 := vpmuldq ymm2 ymm5 in
      let ymm2 := vpshufd ymm2 49 in
      let ymm3 := vpmuldq ymm2 ymm5 in
      let ymm2 := vpslldq ymm3 4 in
      let ymm2 := vpblendd ymm2 ymm1 85 in
      let ymm2 := vpand ymm2 ymm4 in
      let ymm1 := vpsrlq ymm1 12 in
      let ymm3 := vpsrlq ymm3 12 in
      let ymm3 := vpslldq ymm3 4 in
      let ymm1 := vpblendd ymm3 ymm1 85 in
      let ymm3 := vpslld ymm2 1 in
      let ymm2 := vpaddd ymm2 ymm3 in
      let ymm1 := vpsubd ymm2 ymm1 in
      do a <- st8 Arg a rax ymm0;
      do a <- st8 Arg a (rax + 32) ymm1;
      let rax := rax + 64 in
      let r9 := r9 + 2 in
      ret (a, rax, r9))
    (fun '(a, rax, r9) => rax <? rcx) (a, rax, r9);
  branch rsi =? 2 then ret a else
  let r10 := rcx in
  let r11 := 64 in
  do '(a, rsi, r11) <- cdowhile (fuel n) (fun '(a, rsi, r11) =>
      let rax := rdi in
      let rcx := rax + r11 in
      let r8 := rcx in
      let rsi := Z.shiftr rsi 1 in
      let r9 := rdx + rsi in
      do '(a, rax, rcx, r8, r9) <- cdowhile (fuel n) (fun '(a, rax, rcx, r8, r9) =>
          do ymm5 <- vpbroadcastw p r9;
          let ymm5 := vpmovsxwq_r ymm5 in
          do '(a, rax, rcx) <- cdowhile (fuel n) (fun '(a, rax, rcx) =>
              do ymm0 <- ld8 Arg a rax;
              do ymm1 <- ld8 Arg a rcx;
              let ymm2 := vpsubd ymm0 ymm1 in
              let ymm0 := vpaddd ymm0 ymm1 in
              let ymm1 := vpmuldq ymm2 ymm5 in
              let ymm2 := vpshufd ymm2 49 in
              let ymm3 := vpmuldq ymm2 ymm5 in
              let ymm2 := vpslldq ymm3 4 in
              let ymm2 := vpblendd ymm2 ymm1 85 in
              let ymm2 := vpand ymm2 ymm4 in
              let ymm1 := vpsrlq ymm1 12 in
              let ymm3 := vpsrlq ymm3 12 in
              let ymm3 := vpslldq ymm3 4 in
              let ymm1 := vpblendd ymm3 ymm1 85 in
              let ymm3 := vpslld ymm2 1 in
              let ymm2 := vpaddd ymm2 ymm3 in
              let ymm1 := vpsubd ymm2 ymm1 in
              do a <- st8 Arg a rax ymm0;
              do a <- st8 Arg a rcx ymm1;
              let rax := rax + 32 in
              let rcx := rcx + 32 in
              ret (a, rax, rcx))
            (fun '(a, rax, rcx) => rax <? r8) (a, rax, rcx);
          let rax := rcx in
          let rcx := rcx + r11 in
          let r8 := rcx in
          let r9 := r9 + 2 in
          ret (a, rax, rcx, r8, r9))
        (fun '(a, rax, rcx, r8, r9) => rax <? r10) (a, rax, rcx, r8, r9);
      let r11 := Z.shiftl r11 1 in
      ret (a, rsi, r11))
    (fun '(a, rsi, r11) => negb (rsi =? 2)) (a, rsi, r11);
  ret a.

(** ntt_red_gs_std2rev_asm, src/ntt_asm.S 1751-1924 *)
Definition ntt_red_gs_std2rev_asm (a : list Z) (n : Z) (p : list Z) : tr (list Z) :=
  let rdi := 0 in
  let rsi := n in
  let rdx := 0 in
  let r11 := rdi + 4 * rsi in
  let ymm4 := mask in
  do '(a, rsi) <- cdowhile (fuel n) (fun '(a, rsi) =>
      let r8 := rdi in
      let r9 := rdx + rsi in
      let r10 := r8 + 2 * rsi in
      do '(a, r8, r9) <- cdowhile (fuel n) (fun '(a, r8, r9) =>
          do ymm5 <- vpmovsxwd p r9;
          let ymm6 := vpshufd ymm5 49 in
          let rax := r8 in
          let rcx := r8 + 2 * rsi in
          do '(a, rax, rcx) <- cdowhile (fuel n) (fun '(a, rax, rcx) =>
              do ymm0 <- ld8 Arg a rax;
              do ymm1 <- ld8 Arg a rcx;
              let ymm2 := vpaddd ymm0 ymm1 in
              let ymm0 := vpsubd ymm0 ymm1 in
              let ymm1 := vpmuldq ymm0 ymm5 in
              let ymm0 := vpshufd ymm0 49 in
              let ymm3 := vpmuldq ymm0 ymm6 in
              let ymm0 := vpslldq ymm3 4 in
              let ymm0 := vpblendd ymm0 ymm1 85 in
              let ymm0 := vpand ymm0 ymm4 in
              let ymm3 := vpsrlq ymm3 12 in
              let ymm1 := vpsrlq ymm1 12 in
              let ymm3 := vpslldq ymm3 4 in
              let ymm1 := vpblendd ymm3 ymm1 85 in
              let ymm3 := vpslld ymm0 1 in
              let ymm0 := vpaddd ymm0 ymm3 in
              let ymm0 := vpsubd ymm0 ymm1 in
              do a <- st8 Arg a rax ymm2;
              do a <- st8 Arg a rcx ymm0;
              let rax := rax + 4 * rsi in
              let rcx := rcx + 4 * rsi in
              ret (a, rax, rcx))
            (fun '(a, rax, rcx) => rax <? r11) (a, rax, rcx);
          let r8 := r8 + 32 in
          let r9 := r9 + 16 in
          ret (a, r8, r9))
        (fun '(a, r8, r9) => r8 <? r10) (a, r8, r9);
      let rsi := Z.shiftr rsi 1 in
      ret (a, rsi))
    (fun '(a, rsi) => rsi >=? 16) (a, rsi);
  do ymm5 <- vpmovsxwd p rdx;
  let ymm7 := vpsrldq ymm5 12 in
  let ymm7 := vpbroadcastq ymm7 in
  let ymm5 := vperm2i128 ymm5 ymm5 17 in
  let ymm6 := vpshufd ymm5 49 in
  let rax := rdi in
  let ymm9 := perm04152637 in
  do '(a, rax) <- cdowhile (fuel n) (fun '(a, rax) =>
      do ymm0 <- ld8 Arg a rax;
      do ymm1 <- ld8 Arg a (rax + 32);
      let ymm2 := vperm2i128 ymm0 ymm1 32 in
      let ymm3 := vperm2i128 ymm0 ymm1 49 in
      let ymm0 := vpaddd ymm2 ymm3 in
      let ymm1 := vpsubd ymm2 ymm3 in
      let ymm2 := vpmuldq ymm1 ymm5 in
      let ymm1 := vpshufd ymm1 49 in
      let ymm3 := vpmuldq ymm1 ymm6 in
      let ymm1 := vpslldq ymm3 4 in
      let ymm1 := vpblendd ymm1 ymm2 85 in
      let ymm1 := vpand ymm1 ymm4 in
      let ymm3 := vpsrlq ymm3 12 in
      let ymm2 := vpsrlq ymm2 12 in
      let ymm3 := vpslldq ymm3 4 in
      let ymm2 := vpblendd ymm3 ymm2 85 in
      let ymm3 := vpslld ymm1 1 in
      let ymm1 := vpaddd ymm1 ymm3 in
      let ymm1 := vpsubd ymm1 ymm2 in
      let ymm2 := vshufpd ymm0 ymm1 0 in
      let ymm3 := vshufpd ymm0 ymm1 15 in
      let ymm0 := vpaddd ymm2 ymm3 in
      let ymm1 := vpsubd ymm2 ymm3 in
      let ymm2 := vpshufd ymm1 49 in
      let ymm2 := vpmuldq ymm2 ymm7 in
      let ymm3 := vpand ymm2 ymm4 in
      let ymm2 := vpsrlq ymm2 12 in
      let ymm8 := vpslld ymm3 1 in
      let ymm3 := vpaddd ymm3 ymm8 in
      let ymm3 := vpsubd ymm3 ymm2 in
      let ymm3 := vpslldq ymm3 4 in
      let ymm1 := vpblendd ymm3 ymm1 85 in
      let ymm2 := vpslldq ymm1 4 in
      let ymm2 := vpblendd ymm2 ymm0 85 in
      let ymm3 := vpsrldq ymm0 4 in
      let ymm3 := vpblendd ymm1 ymm3 85 in
      let ymm0 := vpaddd ymm2 ymm3 in
      let ymm1 := vpsubd ymm2 ymm3 in
      let ymm2 := vperm2i128 ymm0 ymm1 32 in
      let ymm3 := vperm2i128 ymm0 ymm1 49 in
      let ymm0 := vpermd ymm9 ymm2 in
      let ymm1 := vpermd ymm9 ymm3 in
      do a <- st8 Arg a rax ymm0;
      do a <- st8 Arg a (rax + 32) ymm1;
      let rax := rax + 64 in
      ret (a, rax))
    (fun '(a, rax) => rax <? r11) (a, rax);
  ret a.

(** nttmul_red_gs_std2rev_asm, src/ntt_asm.S 1943-2142 *)
Definition nttmul_red_gs_std2rev_asm (a : list Z) (n : Z) (p : list Z) : tr (list Z) :=
  let rdi := 0 in
  let rsi := n in
  let rdx := 0 in
  let r11 := rdi + 4 * rsi in
  let ymm4 := mask in
  do '(a, rsi) <- cdowhile (fuel n) (fun '(a, rsi) =>
      let r8 := rdi in
      let r9 := rdx + rsi in
      let r10 := r8 + 2 * rsi in
      do '(a, r8, r9) <- cdowhile (fuel n) (fun '(a, r8, r9) =>
          do ymm5 <- vpmovsxwd p r9;
          let ymm6 := vpshufd ymm5 49 in
          let rax := r8 in
          let rcx := r8 + 2 * rsi in
          do '(a, rax, rcx) <- cdowhile (fuel n) (fun '(a, rax, rcx) =>
              do ymm0 <- ld8 Arg a rax;
              do ymm1 <- ld8 Arg a rcx;
              let ymm2 := vpaddd ymm0 ymm1 in
              let ymm0 := vpsubd ymm0 ymm1 in
              let ymm1 := vpmuldq ymm0 ymm5 in
              let ymm0 := vpshufd ymm0 49 in
              let ymm3 := vpmuldq ymm0 ymm6 in
              let ymm0 := vpslldq ymm3 4 in
              let ymm0 := vpblendd ymm0 ymm1 85 in
              let ymm0 := vpand ymm0 ymm4 in
              let ymm3 := vpsrlq ymm3 12 in
              let ymm1 := vpsrlq ymm1 12 in
              let ymm3 := vpslldq ymm3 4 in
              let ymm1 := vpblendd ymm3 ymm1 85 in
              let ymm3 := vpslld ymm0 1 in
              let ymm0 := vpaddd ymm0 ymm3 in
              let ymm0 := vpsubd ymm0 ymm1 in
              do a <- st8 Arg a rax ymm2;
              do a <- st8 Arg a rcx ymm0;
              let rax := rax + 4 * rsi in
              let rcx := rcx + 4 * rsi in
              ret (a, rax, rcx))
            (fun '(a, rax, rcx) => rax <? r11) (a, rax, rcx);
          let r8 := r8 + 32 in
          let r9 := r9 + 16 in
          ret (a, r8, r9))
        (fun '(a, r8, r9) => r8 <? r10) (a, r8, r9);
      let rsi := Z.shiftr rsi 1 in
      ret (a, rsi))
    (fun '(a, rsi) => rsi >=? 16) (a, rsi);
  do ymm0 <- vpmovsxwd p rdx;
  let ymm9 := perm_bdcst1 in
  let ymm9 := vpermd ymm9 ymm0 in
  let ymm8 := perm_bdcst3 in
  let ymm8 := vpermd ymm8 ymm0 in
  let ymm7 := perm_bdcst2 in
  let ymm7 := vpermd ymm7 ymm0 in
  let ymm6 := perm5070 in
  let ymm6 := vpermd ymm6 ymm0 in
  let ymm5 := perm4060 in
  let ymm5 := vpermd ymm5 ymm0 in
  let rax := rdi in
  let ymm10 := perm04152637 in
  do '(a, rax) <- cdowhile (fuel n) (fun '(a, rax) =>
      do ymm0 <- ld8 Arg a rax;
      do ymm1 <- ld8 Arg a (rax + 32);
      let ymm2 := vperm2i128 ymm0 ymm1 32 in
      let ymm3 := vperm2i128 ymm0 ymm1 49 in
      let ymm0 := vpaddd ymm2 ymm3 in
      let ymm1 := vpsubd ymm2 ymm3 in
      let ymm2 := vpmuldq ymm1 ymm5 in
      let ymm1 := vpshufd ymm1 49 in
      let ymm3 := vpmuldq ymm1 ymm6 in
      let ymm1 := vpslldq ymm3 4 in
      let ymm1 := vpblendd ymm1 ymm2 85 in
      let ymm1 := vpand ymm1 ymm4 in
      let ymm3 := vpsrlq ymm3 12 in
      let ymm2 := vpsrlq ymm2 12 in
      let ymm3 := vpslldq ymm3 4 in
      let ymm2 := vpblendd ymm3 ymm2 85 in
      let ymm3 := vpslld ymm1 1 in
      let ymm1 := vpaddd ymm1 ymm3 in
      let ymm1 := vpsubd ymm1 ymm2 in
      let ymm2 := vshufpd ymm0 ymm1 0 in
      let ymm3 := vshufpd ymm0 ymm1 15 in
      let ymm0 := vpaddd ymm2 ymm3 in
      let ymm1 := vpsubd ymm2 ymm3 in
      let ymm2 := vpmuldq ymm1 ymm7 in
      let ymm1 := vpshufd ymm1 49 in
      let ymm3 := vpmuldq ymm1 ymm8 in
      let ymm1 := vpslldq ymm3 4 in
      let ymm1 := vpblendd ymm1 ymm2 85 in
      let ymm1 := vpand ymm1 ymm4 in
      let ymm3 := vpsrlq ymm3 12 in
      let ymm2 := vpsrlq ymm2 12 in
      let ymm3 := vpslldq ymm3 4 in
      let ymm2 := vpblendd ymm3 ymm2 85 in
      let ymm3 := vpslld ymm1 1 in
      let ymm1 := vpaddd ymm1 ymm3 in
      let ymm1 := vpsubd ymm1 ymm2 in
      let ymm2 := vpslldq ymm1 4 in
      let ymm2 := vpblendd ymm2 ymm0 85 in
      let ymm3 := vpsrldq ymm0 4 in
      let ymm3 := vpblendd ymm1 ymm3 85 in
      let ymm0 := vpaddd ymm2 ymm3 in
      let ymm1 := vpsubd ymm2 ymm3 in
      let ymm2 := vpmuldq ymm1 ymm9 in
      let ymm1 := vpshufd ymm1 49 in
      let ymm3 := vpmuldq ymm1 ymm9 in
      let ymm1 := vpslldq ymm3 4 in
      let ymm1 := vpblendd ymm1 ymm2 85 in
      let ymm1 := vpand ymm1 ymm4 in
      let ymm3 := vpsrlq ymm3 12 in
      let ymm2 := vpsrlq ymm2 12 in
      let ymm3 := vpslldq ymm3 4 in
      let ymm2 := vpblendd ymm3 ymm2 85 in
      let ymm3 := vpslld ymm1 1 in
      let ymm1 := vpaddd ymm1 ymm3 in
      let ymm1 := vpsubd ymm1 ymm2 in
      let ymm2 := vperm2i128 ymm0 ymm1 32 in
      let ymm3 := vperm2i128 ymm0 ymm1 49 in
      let ymm0 := vpermd ymm10 ymm2 in
      let ymm1 := vpermd ymm10 ymm3 in
      do a <- st8 Arg a rax ymm0;
      do a <- st8 Arg a (rax + 32) ymm1;
      let rax := rax + 64 in
      ret (a, rax))
    (fun '(a, rax) => rax <? r11) (a, rax);
  ret a.
