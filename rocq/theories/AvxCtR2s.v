(** The Cooley-Tukey transforms of the assembly, bit-reversed to standard order. *)

From Coq Require Import ZArith List Bool Lia.
From Verif Require Import CSem Spec Loops OuterLoops RedElem IntervalSound AvxSem ModelAvx AvxElem AvxArrays AvxRound
  AvxPairs AvxExec AvxBlocks.
Import ListNotations.
Open Scope Z_scope.

(** ** Single rounds on small blocks *)

Section S.
Variable p : list Z.

Lemma cA1 F i j : j = i + 1 -> i mod 2 = 0 ->
  cw 1 (mwA p 1) F i = to_i32 (F i + mr (F j * at_ p 1)) /\ cw 1 (mwA p 1) F j = to_i32 (F i - mr (F j * at_ p 1)).
Proof. intros Hj Hi. apply (cwA_at p 1 F (i / 2) 0); lia. Qed.
Lemma cA2 F i j w : j = i + 2 -> i mod 4 + 2 = w -> w < 4 ->
  cw 2 (mwA p 2) F i = to_i32 (F i + mr (F j * at_ p w)) /\ cw 2 (mwA p 2) F j = to_i32 (F i - mr (F j * at_ p w)).
Proof. intros Hj <- Hw. replace (i mod 4 + 2) with (2 + i mod 4) by ring. apply (cwA_at p 2 F (i / 4) (i mod 4)); lia. Qed.
Lemma cA4 F i j w : j = i + 4 -> i mod 8 + 4 = w -> w < 8 ->
  cw 4 (mwA p 4) F i = to_i32 (F i + mr (F j * at_ p w)) /\ cw 4 (mwA p 4) F j = to_i32 (F i - mr (F j * at_ p w)).
Proof. intros Hj <- Hw. replace (i mod 8 + 4) with (4 + i mod 8) by ring. apply (cwA_at p 4 F (i / 8) (i mod 8)); lia. Qed.

(** three rounds on eight elements *)
Definition ct3 (F : Z -> Z) : Z -> Z := cw 4 (mwA p 4) (cw 2 (mwA p 2) (cw 1 (mwA p 1) F)).
End S.

Ltac ct3_values p F i :=
  unfold ct3;
  let F1 := fresh "F1" in let F2 := fresh "F2" in
  set (F2 := cw 2 (mwA p 2) (cw 1 (mwA p 1) F));
  prs (cA4 p F2 i (i + 4) 4); prs (cA4 p F2 (i + 1) (i + 5) 5);
  prs (cA4 p F2 (i + 2) (i + 6) 6); prs (cA4 p F2 (i + 3) (i + 7) 7);
  subst F2; set (F1 := cw 1 (mwA p 1) F);
  prs (cA2 p F1 i (i + 2) 2); prs (cA2 p F1 (i + 1) (i + 3) 3);
  prs (cA2 p F1 (i + 4) (i + 6) 2); prs (cA2 p F1 (i + 5) (i + 7) 3);
  subst F1;
  prs (cA1 p F i (i + 1)); prs (cA1 p F (i + 2) (i + 3)); prs (cA1 p F (i + 4) (i + 5)); prs (cA1 p F (i + 6) (i + 7)).

(** ** The transforms *)

Section T.
Variables (k n : Z) (p : list Z) (F0 : Z -> Z).
Hypothesis Hk : 4 <= k <= 31.
Hypothesis En : n = 2 ^ k.
Hypothesis Hp : n <= zlen p.

Let Tc := Tr (w_ctA p k) F0.

(** one vector of a multiplying round, table elements in order *)
Lemma ct_vec_loop a c q st f r8 : 4 <= c < k -> 0 <= q < 2 ^ (k - 1 - c) ->
  n <= Z.of_nat f -> r8 = 8 * 2 ^ c * (q + 1) ->
  blk n (2 ^ c) (Tc c) (Tc (c + 1)) q a -> st = (a, 8 * 2 ^ c * q, 8 * 2 ^ c * q + 4 * 2 ^ c, 2 * 2 ^ c) ->
  wp (cdowhile f (fun '(a, rax, rcx, rdx) =>
              do ymm0 <- ld8 a rax;
              do ymm1 <- ld8 a rcx;
              do ymm6 <- vpmovsxwd p rdx;
              let ymm2 := vpmuldq ymm1 ymm6 in
              let ymm1 := vpshufd ymm1 49 in
              let ymm6 := vpshufd ymm6 49 in
              let ymm3 := vpmuldq ymm1 ymm6 in
              let ymm1 := vpslldq ymm3 4 in
              let ymm1 := vpblendd ymm1 ymm2 85 in
              let ymm1 := vpand ymm1 mask in
              let ymm3 := vpsrlq ymm3 12 in
              let ymm2 := vpsrlq ymm2 12 in
              let ymm3 := vpslldq ymm3 4 in
              let ymm2 := vpblendd ymm3 ymm2 85 in
              let ymm3 := vpslld ymm1 1 in
              let ymm1 := vpaddd ymm1 ymm3 in
              let ymm1 := vpsubd ymm1 ymm2 in
              let ymm2 := vpaddd ymm0 ymm1 in
              let ymm3 := vpsubd ymm0 ymm1 in
              do a <- st8 a rax ymm2;
              do a <- st8 a rcx ymm3;
              let rdx := rdx + 16 in
              let rax := rax + 32 in
              let rcx := rcx + 32 in
              Ok (a, rax, rcx, rdx))
            (fun '(a, rax, rcx, rdx) => rcx <? r8) st)
    (fun '(a, _, _, _) => blk n (2 ^ c) (Tc c) (Tc (c + 1)) (q + 1) a).
Proof.
  intros Hc Hq Hf -> Ha ->. assert (Hn := n_bounds k n Hk En). assert (Hs := n_split k n En c ltac:(lia)).
  assert (HT : Tc (c + 1) = cw (2 ^ c) (mwA p (2 ^ c)) (Tc c)) by (apply Tr_succ; lia).
  assert (E8 : 2 ^ c = 8 * 2 ^ (c - 3)).
  { change 8 with (2 ^ 3). rewrite <- Z.pow_add_r by lia. f_equal. lia. }
  assert (Hp3 : 1 <= 2 ^ (c - 3)) by (assert (0 < 2 ^ (c - 3)) by (apply Z.pow_pos_nonneg; lia); lia).
  set (H := 2 ^ (c - 3)) in *. set (h := 2 ^ c) in *. set (D := 2 ^ (k - 1 - c)) in *. clearbody H h D.
  assert (Hq2 : 2 * h * (q + 1) <= n) by nia.
  eapply wp_weak.
  - apply (wp_inner n h (Tc c) (Tc (c + 1)) (fun s => fst (fst (fst s)))
      (fun c '(_, rax, rcx, rdx) => rax = 4 * (2 * h * q + 8 * c) /\ rcx = 4 * (2 * h * q + 8 * c + h) /\ rdx = 2 * (h + 8 * c)) H q);
      try assumption; try lia.
    + intros d (((b & rax) & rcx) & rdx) s Hd Es (Er1 & Er2 & Er3) HL Hs0 Hs1 R1 R2. cbn [fst snd] in *.
      rewrite <- Es in *.
      eapply wp_bind; [apply (ld8_vec (Tc c) b _ s); [lia|lia|lia|exact R1]|]. cbv beta.
      eapply wp_bind; [apply (ld8_vec (Tc c) b _ (s + h)); [lia|lia|lia|exact R2]|]. cbv beta.
      eapply wp_bind; [apply (vpmovsxwd_vec p _ (h + 8 * d)); lia|]. cbv beta.
      vfold. rewrite vmrx_vec, vpaddd_vec, vpsubd_vec.
      eapply wp_pair with (G := Tc (c + 1)) (s := s) (h := h); [lia|lia|lia|lia|lia|reflexivity|reflexivity| |].
      * intros l Hl. rewrite HT. destruct (cwA_at p h (Tc c) q (8 * d + l) (s + l) (s + h + l)) as [-> ->]; [lia..|].
        rewrite Z.add_assoc. split; reflexivity.
      * intros b' HU. apply wp_ok. cbn [fst]. split; [lia|]. split; [lia|]. exact HU.
  - intros (((b & rax) & rcx) & rdx) (_ & H1). exact H1.
Qed.

Lemma ct_r2s_size16_ok a : isA n (Tc 3) a ->
  wp (ct_r2s_size16 a p 0 (4 * n) 0 n 0 mask (vpshufd (vec (fun l => at_ p (8 + l))) 49) (vec (fun l => at_ p (8 + l))))
    (isA n (Tc k)).
Proof.
  intros Ha. assert (Hn := n_bounds k n Hk En). unfold ct_r2s_size16. cbv zeta.
  assert (Hs := n_split k n En 3 ltac:(lia)). change (2 * 2 ^ 3) with 16 in Hs.
  assert (HT : Tc (3 + 1) = cw 8 (mwA p 8) (Tc 3)) by (apply Tr_succ; lia).
  set (C := 2 ^ (k - 1 - 3)) in *. clearbody C.
  eapply wp_seq.
  - apply (wp_loop (fun q '(a, rax) => rax = 64 * q /\ blk n 8 (Tc 3) (Tc (3 + 1)) q a) C); [lia|unfold fuel; lia| |].
    + intros q (b & rax) Hq (-> & Hb). assert (HL : zlen b = n) by apply Hb.
      eapply wp_bind; [apply (ld8_vec (Tc 3) b _ (16 * q)); [lia|lia|lia|]|].
      { intros l Hl. apply (blk_reads _ _ _ _ _ _ _ Hb); lia. }
      eapply wp_bind; [apply (ld8_vec (Tc 3) b _ (16 * q + 8)); [lia|lia|lia|]|].
      { intros l Hl. apply (blk_reads _ _ _ _ _ _ _ Hb); lia. }
      vfold. rewrite vmrx_vec, vpaddd_vec, vpsubd_vec.
      eapply wp_pair with (G := Tc (3 + 1)) (s := 16 * q) (h := 8); [lia|lia|lia|lia|lia|reflexivity|reflexivity| |].
      * intros l Hl. rewrite HT. destruct (cwA_at p 8 (Tc 3) q l (16 * q + l) (16 * q + 8 + l)) as [-> ->]; [lia..|].
        split; reflexivity.
      * intros b' HU. apply wp_ok. split; [split; [lia|]|lia]. exact (blk_step n _ _ q b b' Hb ltac:(lia) HU).
    + split; [reflexivity|]. now apply blk_0.
  - intros (b & rax) (_ & Hb).
    assert (H4 : isA n (Tc 4) b).
    { apply (blk_end n 8 (Tc 3) (Tc 4) C); [lia|exact Hb]. }
    clear Hb a Ha HT C Hs rax. destruct (Z.leb_spec n 16) as [Hle|Hgt].
    + apply wp_ok. replace k with 4; [exact H4|]. apply Z.le_antisymm; [lia|].
      apply Z.pow_le_mono_r_iff with (a := 2); [lia|lia|]. rewrite <- En. lia.
    + assert (Hk5 : 5 <= k).
      { apply Z.lt_pred_le. apply (Z.pow_lt_mono_r_iff 2); [lia|lia|]. rewrite <- En. exact Hgt. }
      eapply wp_seq with (R := fun '(a, _, _) => isA n (Tc k) a).
      2:{ intros ((r & r1) & r2) Hr. now apply wp_ok. }
      eapply wp_weak.
      { apply (wp_loop (fun c '(a, r10, r11) => r10 = 2 * 2 ^ (4 + c) /\ r11 = 2 * 2 ^ (4 + c) /\ isA n (Tc (4 + c)) a) (k - 4));
          [lia|unfold fuel; assert (X := k_lt_n k n Hk En); lia| |].
        - intros c ((d & r10) & r11) Hc (-> & -> & Hd).
          assert (Hs := n_split k n En (4 + c) ltac:(lia)).
          assert (0 < 2 ^ (k - 1 - (4 + c))) by (apply Z.pow_pos_nonneg; lia).
          assert (0 < 2 ^ (4 + c)) by (apply Z.pow_pos_nonneg; lia).
          eapply wp_seq with (R := fun '(a, _) => blk n (2 ^ (4 + c)) (Tc (4 + c)) (Tc (4 + c + 1)) (2 ^ (k - 1 - (4 + c))) a).
          + eapply wp_weak.
            { apply (wp_loop (fun q '(a, rax) => rax = 8 * 2 ^ (4 + c) * q /\ blk n (2 ^ (4 + c)) (Tc (4 + c)) (Tc (4 + c + 1)) q a)
                (2 ^ (k - 1 - (4 + c)))).
              - lia.
              - unfold fuel. nia.
              - intros q (e & rax) Hq (-> & He).
                eapply wp_seq.
                { eapply (ct_vec_loop e (4 + c) q); [lia|exact Hq|unfold fuel; lia| |exact He|].
                  2:{ f_equal. f_equal. ring. }
                  ring. }
                intros (((g & x1) & x2) & x3) Hg. apply wp_ok. split; [split; [ring|exact Hg]|].
                nia.
              - split; [ring|]. now apply blk_0. }
            intros (e & rax) (_ & He). exact He.
          + intros (e & rax) He. apply wp_ok. rewrite Z.shiftl_mul_pow2 by lia.
            replace (4 + (c + 1)) with (4 + c + 1) by ring. rewrite (Z.pow_add_r 2 (4 + c) 1) by lia.
            split; [split; [ring|split; [ring|]]|].
            * apply (blk_end n (2 ^ (4 + c)) (Tc (4 + c)) _ (2 ^ (k - 1 - (4 + c)))); assumption.
            * rewrite En. replace (2 * 2 ^ (4 + c) * 2 ^ 1) with (2 ^ (6 + c)).
              2:{ rewrite <- (Z.pow_succ_r 2 (4 + c)), <- Z.pow_add_r by lia. f_equal. lia. }
              destruct (Z.ltb_spec (c + 1) (k - 4)); apply Z.leb_le || apply Z.leb_gt.
              -- apply Z.pow_le_mono_r; lia.
              -- apply Z.pow_lt_mono_r; lia.
        - split; [reflexivity|]. split; [reflexivity|exact H4]. }
      intros ((r & r1) & r2) (_ & _ & Hr). replace (4 + (k - 4)) with k in Hr by lia. exact Hr.
Qed.

Lemma Tc3 : Tc 3 = ct3 p F0.
Proof. reflexivity. Qed.

Lemma mulntt_red_ct_rev2std_asm_ok a : isA n F0 a -> wp (mulntt_red_ct_rev2std_asm a n p) (isA n (Tc k)).
Proof.
  intros Ha. assert (Hn := n_bounds k n Hk En). cbv beta delta [mulntt_red_ct_rev2std_asm]. vs.
  eapply wp_bind; [apply (vpmovsxwd_ok p _ 0); lia|]. cbv beta. vs.
  assert (Hs := n_split k n En 2 ltac:(lia)). change (2 * 2 ^ 2) with 8 in Hs. set (C := 2 ^ (k - 1 - 2)) in *. clearbody C.
  eapply wp_seq.
  - apply (wp_chunks n 8 C F0 (Tc 3) fst (fun c s => snd s = 32 * c)); [lia|lia|lia|unfold fuel; lia| |reflexivity|exact Ha].
    intros c (b & rax) Hc Er HL H0 H1 Fb. cbv beta iota delta [fst snd] in *. subst rax.
    eapply wp_bind; [apply (ld8_V F0 b _ (8 * c)); [lia|lia|lia|exact Fb]|]. cbv beta. vs.
    apply (wp_st8 (Tc 3) b _ (8 * c)); [lia|lia|lia| |].
    { rewrite Tc3. ct3_values p F0 (8 * c). reflexivity. }
    intros b' L' H'. vs. apply wp_ok. cbn [fst snd]. split; [lia|]. split; [lia|]. split; [exact L'|exact H'].
  - intros (b & rax) (_ & Hb). cbn [fst] in Hb. cbv zeta.
    eapply wp_bind; [apply (vpmovsxwd_vec p _ 8); lia|]. cbv beta.
    exact (ct_r2s_size16_ok b Hb).
Qed.

Lemma ntt_red_ct_rev2std_asm_ok a : (forall c, 0 <= c < k -> at_ p (2 ^ c) = -4096) ->
  isA n F0 a -> wp (ntt_red_ct_rev2std_asm a n p) (isA n (Tc k)).
Proof.
  intros H4 Ha. assert (Hn := n_bounds k n Hk En). cbv beta delta [ntt_red_ct_rev2std_asm]. vs.
  eapply wp_bind; [apply (vpmovsxwd_ok p _ 0); lia|]. cbv beta. vs.
  assert (Hs := n_split k n En 2 ltac:(lia)). change (2 * 2 ^ 2) with 8 in Hs. set (C := 2 ^ (k - 1 - 2)) in *. clearbody C.
  eapply wp_seq.
  - apply (wp_chunks n 8 C F0 (Tc 3) fst (fun c s => snd s = 32 * c)); [lia|lia|lia|unfold fuel; lia| |reflexivity|exact Ha].
    intros c (b & rax) Hc Er HL H0 H1 Fb. cbv beta iota delta [fst snd] in *. subst rax.
    eapply wp_bind; [apply (ld8_V F0 b _ (8 * c)); [lia|lia|lia|exact Fb]|]. cbv beta. vs.
    apply (wp_st8 (Tc 3) b _ (8 * c)); [lia|lia|lia| |].
    { rewrite Tc3. ct3_values p F0 (8 * c).
      assert (W := H4 0 ltac:(lia)). change (2 ^ 0) with 1 in W. rewrite W, !add_skip, !sub_skip. reflexivity. }
    intros b' L' H'. vs. apply wp_ok. cbn [fst snd]. split; [lia|]. split; [lia|]. split; [exact L'|exact H'].
  - intros (b & rax) (_ & Hb). cbn [fst] in Hb. cbv zeta.
    eapply wp_bind; [apply (vpmovsxwd_vec p _ 8); lia|]. cbv beta.
    exact (ct_r2s_size16_ok b Hb).
Qed.
End T.
