(** The Gentleman-Sande transforms of the assembly, standard to bit-reversed order. *)

From Coq Require Import ZArith List Bool Lia.
From Verif Require Import CSem Spec Loops OuterLoops RedElem IntervalSound AvxSem ModelAvx AvxElem AvxArrays AvxRound
  AvxPairs AvxExec AvxBlocks.
Import ListNotations.
Open Scope Z_scope.

Ltac gsA_lo p F i :=
  let F1 := fresh "F1" in let F2 := fresh "F2" in
  set (F2 := gw 2 (mwA p 2) (gw 4 (mwA p 4) F));
  prs (gA p 1 F2 (i) (i + 1) 1);
  prs (gA p 1 F2 (i + 2) (i + 3) 1);
  prs (gA p 1 F2 (i + 4) (i + 5) 1);
  prs (gA p 1 F2 (i + 6) (i + 7) 1);
  subst F2; set (F1 := gw 4 (mwA p 4) F);
  prs (gA p 2 F1 (i) (i + 2) 2);
  prs (gA p 2 F1 (i + 1) (i + 3) 3);
  prs (gA p 2 F1 (i + 4) (i + 6) 2);
  prs (gA p 2 F1 (i + 5) (i + 7) 3);
  subst F1;
  prs (gA p 4 F (i) (i + 4) 4);
  prs (gA p 4 F (i + 1) (i + 5) 5);
  prs (gA p 4 F (i + 2) (i + 6) 6);
  prs (gA p 4 F (i + 3) (i + 7) 7).
Ltac gsA_hi p F i :=
  let F1 := fresh "F1" in let F2 := fresh "F2" in
  set (F2 := gw 2 (mwA p 2) (gw 4 (mwA p 4) F));
  prs (gA p 1 F2 (i + 8) (i + 9) 1);
  prs (gA p 1 F2 (i + 10) (i + 11) 1);
  prs (gA p 1 F2 (i + 12) (i + 13) 1);
  prs (gA p 1 F2 (i + 14) (i + 15) 1);
  subst F2; set (F1 := gw 4 (mwA p 4) F);
  prs (gA p 2 F1 (i + 8) (i + 10) 2);
  prs (gA p 2 F1 (i + 9) (i + 11) 3);
  prs (gA p 2 F1 (i + 12) (i + 14) 2);
  prs (gA p 2 F1 (i + 13) (i + 15) 3);
  subst F1;
  prs (gA p 4 F (i + 8) (i + 12) 4);
  prs (gA p 4 F (i + 9) (i + 13) 5);
  prs (gA p 4 F (i + 10) (i + 14) 6);
  prs (gA p 4 F (i + 11) (i + 15) 7).

Section T.
Variables (k n : Z) (p : list Z) (F0 : Z -> Z).
Hypothesis Hk : 4 <= k <= 31.
Hypothesis En : n = 2 ^ k.
Hypothesis Hp : n <= zlen p.

Let Tc := Tr (w_gsA p k) F0.

Lemma Tc_succ c : 0 <= c -> Tc (c + 1) = gw (2 ^ (k - 1 - c)) (mwA p (2 ^ (k - 1 - c))) (Tc c).
Proof. intros. apply Tr_succ. lia. Qed.

(** one column of vectors *)
Lemma gs_column a c u f w : 0 <= c <= k - 4 -> 0 <= u < 2 ^ (k - 1 - c - 3) -> n <= Z.of_nat f ->
  w = vec (fun l => at_ p (2 ^ (k - 1 - c) + 8 * u + l)) ->
  cols n (2 ^ (k - 1 - c)) (Tc c) (Tc (c + 1)) u a ->
  wp (let rsi := 2 * 2 ^ (k - 1 - c) in let ymm5 := w in let ymm6 := vpshufd w 49 in
      cdowhile f (fun '(a, rax, rcx) =>
              do ymm0 <- ld8 a rax;
              do ymm1 <- ld8 a rcx;
              let ymm2 := vpaddd ymm0 ymm1 in
              let ymm0 := vpsubd ymm0 ymm1 in
              let ymm1 := vpmuldq ymm0 ymm5 in
              let ymm0 := vpshufd ymm0 49 in
              let ymm3 := vpmuldq ymm0 ymm6 in
              let ymm0 := vpslldq ymm3 4 in
              let ymm0 := vpblendd ymm0 ymm1 85 in
              let ymm0 := vpand ymm0 mask in
              let ymm3 := vpsrlq ymm3 12 in
              let ymm1 := vpsrlq ymm1 12 in
              let ymm3 := vpslldq ymm3 4 in
              let ymm1 := vpblendd ymm3 ymm1 85 in
              let ymm3 := vpslld ymm0 1 in
              let ymm0 := vpaddd ymm0 ymm3 in
              let ymm0 := vpsubd ymm0 ymm1 in
              do a <- st8 a rax ymm2;
              do a <- st8 a rcx ymm0;
              let rax := rax + 4 * rsi in
              let rcx := rcx + 4 * rsi in
              Ok (a, rax, rcx))
        (fun '(a, rax, rcx) => rax <? 4 * n) (a, 32 * u, 32 * u + 2 * rsi))
    (fun '(a, rax, rcx) => cols n (2 ^ (k - 1 - c)) (Tc c) (Tc (c + 1)) (u + 1) a).
Proof.
  intros Hc Hu Hf -> Ha. assert (Hn := n_bounds k n Hk En). assert (Hs := n_split k n En c ltac:(lia)).
  assert (HT := Tc_succ c ltac:(lia)).
  assert (E8 := pow8 (k - 1 - c) ltac:(lia)). assert (Hp3 := pow_pos (k - 1 - c - 3) ltac:(lia)). assert (HD := pow_pos c ltac:(lia)).
  set (H := 2 ^ (k - 1 - c - 3)) in *. set (h := 2 ^ (k - 1 - c)) in *. set (D := 2 ^ c) in *. clearbody H h D.
  assert (Hn2 : n = 2 * h * D) by (rewrite Hs; ring). assert (2 * h <= n) by nia. assert (16 * D <= n) by nia.
  cbv zeta.
  eapply wp_weak.
  - apply (column n h (Tc c) (Tc (c + 1)) H D u) with (arr := fun s => fst (fst s))
      (P := fun q '(_, rax, rcx) => rax = 4 * (2 * h * q + 8 * u) /\ rcx = 4 * (2 * h * q + 8 * u + h));
      try assumption; try lia.
    intros q ((b & rax) & rcx) s Hq Es (Er1 & Er2) HL Hs0 Hs1 R1 R2. cbn [fst snd] in *.
    rewrite <- Es in *.
    eapply wp_bind; [apply (ld8_vec (Tc c) b _ s); [lia|lia|lia|exact R1]|]. cbv beta.
    eapply wp_bind; [apply (ld8_vec (Tc c) b _ (s + h)); [lia|lia|lia|exact R2]|]. cbv beta.
    vfold. rewrite vpaddd_vec, vpsubd_vec, vmrx_vec.
    eapply wp_pair with (G := Tc (c + 1)) (s := s) (h := h); [lia|lia|lia|lia|lia|reflexivity|reflexivity| |].
    + intros l Hl. rewrite HT. destruct (gwA_at p h (Tc c) q (8 * u + l) (s + l) (s + h + l)) as [-> ->]; [lia..|].
      rewrite Z.add_assoc. split; reflexivity.
    + intros b' HU. apply wp_ok. cbn [fst]. split; [lia|]. split; [|exact HU].
      replace (rax + 4 * (2 * h)) with (4 * (2 * h * (q + 1) + 8 * u)) by lia.
      rewrite Hn2. clear - Hq Hu E8 Hp3. destruct (Z.ltb_spec (q + 1) D); apply Z.ltb_lt || apply Z.ltb_ge; nia.
  - intros ((b & rax) & rcx) (_ & G2). exact G2.
Qed.

Lemma gs_nest a : isA n F0 a ->
  wp (cdowhile (fuel n) (fun '(a, rsi) =>
      let r8 := 0 in
      let r9 := 0 + rsi in
      let r10 := r8 + 2 * rsi in
      do '(a, r8, r9) <- cdowhile (fuel n) (fun '(a, r8, r9) =>
          do ymm5 <- vpmovsxwd p r9;
          let ymm6 := vpshufd ymm5 49 in
          let rax := r8 in
          let rcx := r8 + 2 * rsi in
          do '(a, rax, rcx) <- cdowhile (fuel n) (fun '(a, rax, rcx) =>
              do ymm0 <- ld8 a rax;
              do ymm1 <- ld8 a rcx;
              let ymm2 := vpaddd ymm0 ymm1 in
              let ymm0 := vpsubd ymm0 ymm1 in
              let ymm1 := vpmuldq ymm0 ymm5 in
              let ymm0 := vpshufd ymm0 49 in
              let ymm3 := vpmuldq ymm0 ymm6 in
              let ymm0 := vpslldq ymm3 4 in
              let ymm0 := vpblendd ymm0 ymm1 85 in
              let ymm0 := vpand ymm0 mask in
              let ymm3 := vpsrlq ymm3 12 in
              let ymm1 := vpsrlq ymm1 12 in
              let ymm3 := vpslldq ymm3 4 in
              let ymm1 := vpblendd ymm3 ymm1 85 in
              let ymm3 := vpslld ymm0 1 in
              let ymm0 := vpaddd ymm0 ymm3 in
              let ymm0 := vpsubd ymm0 ymm1 in
              do a <- st8 a rax ymm2;
              do a <- st8 a rcx ymm0;
              let rax := rax + 4 * rsi in
              let rcx := rcx + 4 * rsi in
              Ok (a, rax, rcx))
            (fun '(a, rax, rcx) => rax <? (4 * n)) (a, rax, rcx);
          let r8 := r8 + 32 in
          let r9 := r9 + 16 in
          Ok (a, r8, r9))
        (fun '(a, r8, r9) => r8 <? r10) (a, r8, r9);
      let rsi := Z.shiftr rsi 1 in
      Ok (a, rsi))
    (fun '(a, rsi) => rsi >=? 16)  (a, n)) (fun '(a, _) => isA n (Tc (k - 3)) a).
Proof.
  intros Ha. assert (Hn := n_bounds k n Hk En).
  eapply wp_weak.
  - apply (wp_loop (fun c '(a, rsi) => rsi = 2 ^ (k - c) /\ isA n (Tc c) a) (k - 3)).
    + lia.
    + unfold fuel. assert (X := k_lt_n k n Hk En). lia.
    + clear a Ha. intros c (a & rsi) Hc (-> & Ha).
      assert (Hs := n_split k n En c ltac:(lia)). assert (Hp1 := pow_pos c ltac:(lia)).
      assert (Hp2 := pow_pos (k - 1 - c) ltac:(lia)).
      assert (E8 := pow8 (k - 1 - c) ltac:(lia)). assert (Hp3 := pow_pos (k - 1 - c - 3) ltac:(lia)).
      assert (ER : 2 ^ (k - c) = 2 * 2 ^ (k - 1 - c)) by (rewrite <- pow_dbl by lia; f_equal; lia).
      assert (HD : 2 * 2 ^ (k - 1 - c) <= n) by (clear - Hs Hp1 Hp2; nia).
      cbv zeta. rewrite ER.
      eapply wp_seq with (R := fun '(a, _, _) => isA n (Tc (c + 1)) a).
      * eapply wp_weak.
        { apply (wp_loop (fun u '(a, r8, r9) => r8 = 32 * u /\ r9 = 2 * (2 ^ (k - 1 - c) + 8 * u)
            /\ cols n (2 ^ (k - 1 - c)) (Tc c) (Tc (c + 1)) u a) (2 ^ (k - 1 - c - 3))).
          - lia.
          - unfold fuel. lia.
          - intros u ((e & r8) & r9) Hu (-> & -> & He).
            eapply wp_bind; [apply (vpmovsxwd_vec p _ (2 ^ (k - 1 - c) + 8 * u)); lia|]. cbv beta.
            eapply wp_seq; [apply (gs_column e c u); [lia|lia|unfold fuel; lia|reflexivity|exact He]|].
            intros ((g & rax) & rcx) Hg. apply wp_ok.
            split; [split; [ring|split; [ring|exact Hg]]|]. lia.
          - split; [reflexivity|]. split; [ring|]. apply (cols_0 n _ (Tc c) (Tc (c + 1)) (2 ^ (k - 1 - c - 3)) (2 ^ c)); try exact Ha; lia. }
        intros ((e & r8) & r9) (_ & _ & He).
        apply (cols_end n (2 ^ (k - 1 - c)) (Tc c) (Tc (c + 1)) (2 ^ (k - 1 - c - 3)) (2 ^ c)); try exact He; lia.
      * intros ((e & r8) & r9) He. apply wp_ok. rewrite <- ER, pow_half by lia.
        replace (k - c - 1) with (k - (c + 1)) by ring. split; [split; [reflexivity|exact He]|].
        rewrite Z.geb_leb. change 16 with (2 ^ 4). rewrite pow_le_iff by lia. lia.
    + rewrite Z.sub_0_r. split; [exact En|exact Ha].
  - intros (b & rsi) (_ & Hb). exact Hb.
Qed.

Lemma Tc_last : Tc k = gw 1 (mwA p 1) (gw 2 (mwA p 2) (gw 4 (mwA p 4) (Tc (k - 3)))).
Proof.
  replace k with (k - 1 + 1) at 1 by lia. rewrite Tc_succ by lia. replace (k - 1 - (k - 1)) with 0 by lia. change (2 ^ 0) with 1.
  f_equal. replace (k - 1) with (k - 2 + 1) at 1 by lia. rewrite Tc_succ by lia. replace (k - 1 - (k - 2)) with 1 by lia. change (2 ^ 1) with 2.
  f_equal. replace (k - 2) with (k - 3 + 1) at 1 by lia. rewrite Tc_succ by lia. replace (k - 1 - (k - 3)) with 2 by lia. reflexivity.
Qed.

Lemma tab0 : vpmovsxwd p 0 = Ok (V (at_ p 0) (at_ p 1) (at_ p 2) (at_ p 3) (at_ p 4) (at_ p 5) (at_ p 6) (at_ p 7)).
Proof. assert (Hn := n_bounds k n Hk En). rewrite (vpmovsxwd_ok p 0 0) by lia. reflexivity. Qed.

Lemma nttmul_red_gs_std2rev_asm_ok a : isA n F0 a -> wp (nttmul_red_gs_std2rev_asm a n p) (isA n (Tc k)).
Proof.
  intros Ha. assert (Hn := n_bounds k n Hk En). cbv beta delta [nttmul_red_gs_std2rev_asm]. vs.
  eapply wp_seq; [apply (gs_nest a Ha)|].
  intros (b & rsi) Hb. clear a Ha rsi.
  eapply wp_bind; [exact tab0|]. cbv beta. vs.
  assert (Hs := n_split k n En 3 ltac:(lia)). change (2 * 2 ^ 3) with 16 in Hs. assert (Hp2 := pow_pos (k - 1 - 3) ltac:(lia)).
  set (C := 2 ^ (k - 1 - 3)) in *. clearbody C.
  eapply wp_seq.
  - apply (wp_chunks n 16 C (Tc (k - 3)) (Tc k) fst (fun c s => snd s = 64 * c)); [lia|lia|lia|unfold fuel; lia| |reflexivity|exact Hb].
    assert (E := Tc_last). set (T1 := Tc (k - 3)) in *. set (T4 := Tc k) in *. clearbody T1 T4. clear b Hb.
    intros c (b & rax) Hc Er HL H0 H1 Fb. cbv beta iota delta [fst snd] in *. subst rax.
    eapply wp_bind; [apply (ld8_V T1 b _ (16 * c)); [lia|lia|lia|intros; apply Fb; lia]|]. cbv beta.
    eapply wp_bind; [apply (ld8_V8 T1 b _ (16 * c)); [lia|lia|lia|exact Fb]|]. cbv beta. vs.
    apply (wp_st16 T4 b _ _ (16 * c)); [lia|lia|lia|lia| | |].
    { rewrite E. gsA_lo p T1 (16 * c). reflexivity. }
    { rewrite E. gsA_hi p T1 (16 * c). reflexivity. }
    intros b' L' H'. vs. apply wp_ok. cbn [fst snd]. split; [lia|]. split; [lia|]. split; [exact L'|exact H'].
  - intros (d & rax) (_ & Hd). now apply wp_ok.
Qed.

Lemma ntt_red_gs_std2rev_asm_ok a : (forall c, 0 <= c < k -> at_ p (2 ^ c) = -4096) ->
  isA n F0 a -> wp (ntt_red_gs_std2rev_asm a n p) (isA n (Tc k)).
Proof.
  intros H4 Ha. assert (Hn := n_bounds k n Hk En). cbv beta delta [ntt_red_gs_std2rev_asm]. vs.
  assert (W1 := H4 0 ltac:(lia)). change (2 ^ 0) with 1 in W1.
  assert (W2 := H4 1 ltac:(lia)). change (2 ^ 1) with 2 in W2. clear H4.
  eapply wp_seq; [apply (gs_nest a Ha)|].
  intros (b & rsi) Hb. clear a Ha rsi.
  eapply wp_bind; [exact tab0|]. cbv beta. vs.
  assert (Hs := n_split k n En 3 ltac:(lia)). change (2 * 2 ^ 3) with 16 in Hs. assert (Hp2 := pow_pos (k - 1 - 3) ltac:(lia)).
  set (C := 2 ^ (k - 1 - 3)) in *. clearbody C.
  eapply wp_seq.
  - apply (wp_chunks n 16 C (Tc (k - 3)) (Tc k) fst (fun c s => snd s = 64 * c)); [lia|lia|lia|unfold fuel; lia| |reflexivity|exact Hb].
    assert (E := Tc_last). set (T1 := Tc (k - 3)) in *. set (T4 := Tc k) in *. clearbody T1 T4. clear b Hb.
    intros c (b & rax) Hc Er HL H0 H1 Fb. cbv beta iota delta [fst snd] in *. subst rax.
    eapply wp_bind; [apply (ld8_V T1 b _ (16 * c)); [lia|lia|lia|intros; apply Fb; lia]|]. cbv beta.
    eapply wp_bind; [apply (ld8_V8 T1 b _ (16 * c)); [lia|lia|lia|exact Fb]|]. cbv beta. vs.
    apply (wp_st16 T4 b _ _ (16 * c)); [lia|lia|lia|lia| | |].
    { rewrite E. gsA_lo p T1 (16 * c). rewrite W1, W2, !gs_skip. reflexivity. }
    { rewrite E. gsA_hi p T1 (16 * c). rewrite W1, W2, !gs_skip. reflexivity. }
    intros b' L' H'. vs. apply wp_ok. cbn [fst snd]. split; [lia|]. split; [lia|]. split; [exact L'|exact H'].
  - intros (d & rax) (_ & Hd). now apply wp_ok.
Qed.
End T.
