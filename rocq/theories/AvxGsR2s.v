(** The Gentleman-Sande transforms of the assembly, bit-reversed to standard order. *)

From Coq Require Import ZArith List Bool Lia.
From Verif Require Import CSem Spec Loops OuterLoops RedElem IntervalSound AvxSem ModelAvx AvxElem AvxArrays AvxRound
  AvxPairs AvxExec AvxBlocks.
Import ListNotations.
Open Scope Z_scope.

Ltac gs3_values p m F i c :=
  let F1 := fresh "F1" in let F2 := fresh "F2" in
  set (F2 := gw 2 (mwB p (2 * m) 2) (gw 1 (mwB p (4 * m) 1) F));
  prs (gB p m 4 F2 i (i + 4) (m + c)); prs (gB p m 4 F2 (i + 1) (i + 5) (m + c));
  prs (gB p m 4 F2 (i + 2) (i + 6) (m + c)); prs (gB p m 4 F2 (i + 3) (i + 7) (m + c));
  subst F2; set (F1 := gw 1 (mwB p (4 * m) 1) F);
  prs (gB p (2 * m) 2 F1 i (i + 2) (2 * m + 2 * c)); prs (gB p (2 * m) 2 F1 (i + 1) (i + 3) (2 * m + 2 * c));
  prs (gB p (2 * m) 2 F1 (i + 4) (i + 6) (2 * m + 2 * c + 1)); prs (gB p (2 * m) 2 F1 (i + 5) (i + 7) (2 * m + 2 * c + 1));
  subst F1;
  prs (gB p (4 * m) 1 F i (i + 1) (4 * m + 4 * c)); prs (gB p (4 * m) 1 F (i + 2) (i + 3) (4 * m + 4 * c + 1));
  prs (gB p (4 * m) 1 F (i + 4) (i + 5) (4 * m + 4 * c + 2)); prs (gB p (4 * m) 1 F (i + 6) (i + 7) (4 * m + 4 * c + 3)).

Section T.
Variables (k n : Z) (p : list Z) (F0 : Z -> Z).
Hypothesis Hk : 4 <= k <= 31.
Hypothesis En : n = 2 ^ k.
Hypothesis Hp : n <= zlen p.
Hypothesis Hp16 : forall i, 0 <= i < zlen p -> -32768 <= at_ p i <= 32767.

Let Tc := Tr (w_gsB p k) F0.

Lemma Tc_succ c : 0 <= c -> Tc (c + 1) = gw (2 ^ c) (mwB p (2 ^ (k - 1 - c)) (2 ^ c)) (Tc c).
Proof. intros. apply Tr_succ. lia. Qed.

(** the first three rounds, on eight elements at a time *)
Lemma gs_first3 a : isA n F0 a ->
  wp (cdowhile (fuel n) (fun '(a, rax, r8, r9, r10) =>
      do ymm5 <- vpmovsxwq p r8;
      do ymm0 <- ld8 a rax;
      let ymm1 := vpsrldq ymm0 4 in
      let ymm2 := vpsubd ymm0 ymm1 in
      let ymm0 := vpaddd ymm0 ymm1 in
      let ymm2 := vpmuldq ymm2 ymm5 in
      let ymm3 := vpand ymm2 mask in
      let ymm2 := vpsrlq ymm2 12 in
      let ymm1 := vpslld ymm3 1 in
      let ymm3 := vpaddd ymm3 ymm1 in
      let ymm1 := vpsubd ymm3 ymm2 in
      do ymm5 <- vpmovsxwq_x p r9;
      let ymm5 := vpermd perm2020 ymm5 in
      let ymm2 := vshufps ymm0 ymm1 68 in
      let ymm3 := vshufps ymm0 ymm1 238 in
      let ymm1 := vpsubd ymm2 ymm3 in
      let ymm0 := vpaddd ymm2 ymm3 in
      let ymm1 := vpmuldq ymm1 ymm5 in
      let ymm3 := vpand ymm1 mask in
      let ymm2 := vpsrlq ymm1 12 in
      let ymm1 := vpslld ymm3 1 in
      let ymm3 := vpaddd ymm3 ymm1 in
      let ymm1 := vpsubd ymm3 ymm2 in
      do ymm5 <- vpbroadcastw p r10;
      let ymm5 := vpmovsxwq_r ymm5 in
      let ymm2 := vperm2i128 ymm0 ymm1 32 in
      let ymm3 := vperm2i128 ymm0 ymm1 49 in
      let ymm1 := vpsubd ymm2 ymm3 in
      let ymm0 := vpaddd ymm2 ymm3 in
      let ymm1 := vpmuldq ymm1 ymm5 in
      let ymm3 := vpand ymm1 mask in
      let ymm2 := vpsrlq ymm1 12 in
      let ymm1 := vpslld ymm3 1 in
      let ymm3 := vpaddd ymm3 ymm1 in
      let ymm1 := vpsubd ymm3 ymm2 in
      let ymm2 := vperm2i128 ymm0 ymm1 32 in
      let ymm3 := vperm2i128 ymm0 ymm1 49 in
      let ymm0 := vshufps ymm2 ymm3 136 in
      do a <- st8 a rax ymm0;
      let rax := rax + 32 in
      let r8 := r8 + 8 in
      let r9 := r9 + 4 in
      let r10 := r10 + 2 in
      Ok (a, rax, r8, r9, r10))
      (fun '(a, rax, r8, r9, r10) => rax <? 4 * n) (a, 0, 8 * 2 ^ (k - 3), 4 * 2 ^ (k - 3), 2 * 2 ^ (k - 3)))
    (fun '(a, _, _, _, _) => isA n (Tc 3) a).
Proof.
  intros Ha. assert (Hn := n_bounds k n Hk En). assert (Hs := n_split k n En (k - 3) ltac:(lia)).
  replace (2 ^ (k - 1 - (k - 3))) with 4 in Hs by (replace (k - 1 - (k - 3)) with 2 by lia; reflexivity).
  assert (E3 : Tc 3 = gw 4 (mwB p (2 ^ (k - 3)) 4) (gw 2 (mwB p (2 * 2 ^ (k - 3)) 2) (gw 1 (mwB p (4 * 2 ^ (k - 3)) 1) F0))).
  { change 3 with (2 + 1) at 1. rewrite Tc_succ by lia. replace (k - 1 - 2) with (k - 3) by lia. change (2 ^ 2) with 4.
    f_equal. change 2 with (1 + 1) at 1. rewrite Tc_succ by lia.
    replace (k - 1 - 1) with (k - 3 + 1) by lia. rewrite pow_dbl by lia. change (2 ^ 1) with 2.
    f_equal. change 1 with (0 + 1) at 1. rewrite Tc_succ by lia.
    replace (k - 1 - 0) with (k - 3 + 1 + 1) by lia. rewrite !pow_dbl by lia. rewrite Z.mul_assoc. reflexivity. }
  set (T3 := Tc 3) in *. set (m := 2 ^ (k - 3)) in *. clearbody T3 m. clear Hk En.
  eapply wp_weak.
  - apply (wp_chunks n 8 m F0 T3 (fun '(a, _, _, _, _) => a)
      (fun c '(_, rax, r8, r9, r10) => rax = 32 * c /\ r8 = 2 * (4 * m + 4 * c) /\ r9 = 2 * (2 * m + 2 * c) /\ r10 = 2 * (m + c)));
      [lia|lia|lia|unfold fuel; lia| | |exact Ha]; [|lia].
    intros c ((((b & rax) & r8) & r9) & r10) Hc (-> & -> & -> & ->) HL H0 H1 Fb.
    eapply wp_bind; [apply (vpmovsxwq_w p Hp16 _ (4 * m + 4 * c)); lia|]. cbv beta.
    eapply wp_bind; [apply (ld8_V F0 b _ (8 * c)); [lia|lia|lia|exact Fb]|]. cbv beta. vs.
    eapply wp_bind; [apply (vpmovsxwq_x_w p Hp16 _ (2 * m + 2 * c)); lia|]. cbv beta. vs.
    assert (H16 : -32768 <= at_ p (m + c) <= 32767) by (apply Hp16; lia).
    eapply wp_bind; [apply (vpbroadcastw_ok p _ (m + c)); lia|]. cbv beta. bcv H16. vs.
    apply (wp_st8 T3 b _ (8 * c)); [lia|lia|lia| |].
    { rewrite E3. gs3_values p m F0 (8 * c) c. reflexivity. }
    intros b' L' H'. vs. apply wp_ok. split; [lia|]. split; [lia|]. split; [exact L'|exact H'].
  - intros ((((b & rax) & r8) & r9) & r10) (_ & Hb). exact Hb.
Qed.

(** blocks of sixteen elements, from block [q0] on *)
Lemma gs_size16 a q0 : 0 <= q0 < 2 ^ (k - 4) -> blk n 8 (Tc 3) (Tc 4) q0 a ->
  wp (cdowhile (fuel n) (fun '(a, rax, r9) =>
      do ymm5 <- vpbroadcastw p r9;
      let ymm5 := vpmovsxwq_r ymm5 in
      do ymm0 <- ld8 a rax;
      do ymm1 <- ld8 a (rax + 32);
      let ymm2 := vpsubd ymm0 ymm1 in
      let ymm0 := vpaddd ymm0 ymm1 in
      let ymm1 := vpmuldq ymm2 ymm5 in
      let ymm2 := vpshufd ymm2 49 in
      let ymm3 := vpmuldq ymm2 ymm5 in
      let ymm2 := vpslldq ymm3 4 in
      let ymm2 := vpblendd ymm2 ymm1 85 in
      let ymm2 := vpand ymm2 mask in
      let ymm1 := vpsrlq ymm1 12 in
      let ymm3 := vpsrlq ymm3 12 in
      let ymm3 := vpslldq ymm3 4 in
      let ymm1 := vpblendd ymm3 ymm1 85 in
      let ymm3 := vpslld ymm2 1 in
      let ymm2 := vpaddd ymm2 ymm3 in
      let ymm1 := vpsubd ymm2 ymm1 in
      do a <- st8 a rax ymm0;
      do a <- st8 a (rax + 32) ymm1;
      let rax := rax + 64 in
      let r9 := r9 + 2 in
      Ok (a, rax, r9))
      (fun '(a, rax, r9) => rax <? 4 * n) (a, 64 * q0, 2 * (2 ^ (k - 4) + q0)))
    (fun '(a, _, _) => isA n (Tc 4) a).
Proof.
  intros Hq0 Ha. assert (Hn := n_bounds k n Hk En). assert (Hs := n_split k n En 3 ltac:(lia)).
  change (2 * 2 ^ 3) with 16 in Hs. replace (k - 1 - 3) with (k - 4) in Hs by lia.
  assert (E4 : Tc 4 = gw 8 (mwB p (2 ^ (k - 4)) 8) (Tc 3)).
  { change 4 with (3 + 1) at 1. rewrite Tc_succ by lia. replace (k - 1 - 3) with (k - 4) by lia. reflexivity. }
  set (T3 := Tc 3) in *. set (T4 := Tc 4) in *. set (m := 2 ^ (k - 4)) in *. clearbody T3 T4 m. clear Hk En.
  eapply wp_weak.
  - apply (wp_loop (fun c '(a, rax, r9) => rax = 64 * (q0 + c) /\ r9 = 2 * (m + q0 + c) /\ blk n 8 T3 T4 (q0 + c) a) (m - q0));
      [lia|unfold fuel; lia| |].
    + intros c ((b & rax) & r9) Hc (-> & -> & Hb). assert (HL : zlen b = n) by apply Hb.
      assert (H16 : -32768 <= at_ p (m + q0 + c) <= 32767) by (apply Hp16; lia).
      eapply wp_bind; [apply (vpbroadcastw_ok p _ (m + q0 + c)); lia|]. cbv beta. fold (bcw (at_ p (m + q0 + c))).
      eapply wp_bind; [apply (ld8_vec T3 b _ (16 * (q0 + c))); [lia|lia|lia|]|].
      { intros l Hl. apply (blk_reads _ _ _ _ _ _ _ Hb); lia. }
      eapply wp_bind; [apply (ld8_vec T3 b _ (16 * (q0 + c) + 8)); [lia|lia|lia|]|].
      { intros l Hl. apply (blk_reads _ _ _ _ _ _ _ Hb); lia. }
      vfold. rewrite vpaddd_vec, vpsubd_vec, vmrx_bcw by exact H16.
      eapply wp_pair with (G := T4) (s := 16 * (q0 + c)) (h := 8); [lia|lia|lia|lia|lia|reflexivity|reflexivity| |].
      * intros l Hl. rewrite E4.
        destruct (gwB_at p m 8 T3 (q0 + c) l (16 * (q0 + c) + l) (16 * (q0 + c) + 8 + l)) as [-> ->]; [lia..|].
        rewrite Z.add_assoc. split; reflexivity.
      * intros b' HU. apply wp_ok. split; [|lia]. split; [lia|]. split; [lia|].
        rewrite Z.add_assoc. exact (blk_step n _ _ (q0 + c) b b' Hb ltac:(lia) HU).
    + rewrite !Z.add_0_r. auto.
  - intros ((b & rax) & r9) (_ & _ & Hb). apply (blk_end n 8 T3 T4 m); [lia|]. replace (q0 + (m - q0)) with m in Hb by ring. exact Hb.
Qed.

(** one block, multiplying by a table element *)
Lemma gs_bc_loop a c q X f : 3 <= c < k -> 0 <= q < 2 ^ (k - 1 - c) -> n <= Z.of_nat f ->
  X = 8 * 2 ^ c * q ->
  blk n (2 ^ c) (Tc c) (Tc (c + 1)) q a ->
  wp (let ymm5 := bcw (at_ p (2 ^ (k - 1 - c) + q)) in cdowhile f (fun '(a, rax, rcx) =>
              do ymm0 <- ld8 a rax;
              do ymm1 <- ld8 a rcx;
              let ymm2 := vpsubd ymm0 ymm1 in
              let ymm0 := vpaddd ymm0 ymm1 in
              let ymm1 := vpmuldq ymm2 ymm5 in
              let ymm2 := vpshufd ymm2 49 in
              let ymm3 := vpmuldq ymm2 ymm5 in
              let ymm2 := vpslldq ymm3 4 in
              let ymm2 := vpblendd ymm2 ymm1 85 in
              let ymm2 := vpand ymm2 mask in
              let ymm1 := vpsrlq ymm1 12 in
              let ymm3 := vpsrlq ymm3 12 in
              let ymm3 := vpslldq ymm3 4 in
              let ymm1 := vpblendd ymm3 ymm1 85 in
              let ymm3 := vpslld ymm2 1 in
              let ymm2 := vpaddd ymm2 ymm3 in
              let ymm1 := vpsubd ymm2 ymm1 in
              do a <- st8 a rax ymm0;
              do a <- st8 a rcx ymm1;
              let rax := rax + 32 in
              let rcx := rcx + 32 in
              Ok (a, rax, rcx))
        (fun '(a, rax, rcx) => rax <? X + 4 * 2 ^ c) (a, X, X + 4 * 2 ^ c))
    (fun '(a, rax, rcx) => rax = X + 4 * 2 ^ c /\ rcx = X + 8 * 2 ^ c
       /\ blk n (2 ^ c) (Tc c) (Tc (c + 1)) (q + 1) a).
Proof.
  intros Hc Hq Hf HX Ha. assert (Hn := n_bounds k n Hk En). assert (Hs := n_split k n En c ltac:(lia)).
  assert (HT := Tc_succ c ltac:(lia)).
  assert (E8 := pow8 c ltac:(lia)). assert (Hp3 := pow_pos (c - 3) ltac:(lia)).
  set (H := 2 ^ (c - 3)) in *. set (h := 2 ^ c) in *. set (D := 2 ^ (k - 1 - c)) in *. clearbody H h D.
  assert (Hq2 : 2 * h * (q + 1) <= n) by nia. assert (HD : 16 * D <= n) by nia.
  assert (H16 : -32768 <= at_ p (D + q) <= 32767) by (apply Hp16; lia).
  cbv zeta.
  eapply wp_weak.
  - apply (wp_inner n h (Tc c) (Tc (c + 1)) (fun s => fst (fst s))
      (fun c '(_, rax, rcx) => rax = 4 * (2 * h * q + 8 * c) /\ rcx = 4 * (2 * h * q + 8 * c + h)) H q);
      try assumption; try lia.
    intros d ((b & rax) & rcx) s Hd Es (Er1 & Er2) HL Hs0 Hs1 R1 R2. cbn [fst snd] in *.
    rewrite <- Es in *.
    eapply wp_bind; [apply (ld8_vec (Tc c) b _ s); [lia|lia|lia|exact R1]|]. cbv beta.
    eapply wp_bind; [apply (ld8_vec (Tc c) b _ (s + h)); [lia|lia|lia|exact R2]|]. cbv beta.
    vfold. rewrite vpaddd_vec, vpsubd_vec, vmrx_bcw by exact H16.
    eapply wp_pair with (G := Tc (c + 1)) (s := s) (h := h); [lia|lia|lia|lia|lia|reflexivity|reflexivity| |].
    + intros l Hl. rewrite HT. destruct (gwB_at p D h (Tc c) q (8 * d + l) (s + l) (s + h + l)) as [-> ->]; [lia..|].
      split; reflexivity.
    + intros b' HU. apply wp_ok. cbn [fst]. split; [lia|]. split; [lia|]. exact HU.
  - intros ((b & rax) & rcx) (H1 & H2). cbn [fst snd] in H2.
    split; [lia|]. split; [lia|exact H2].
Qed.

(** the first block, without a multiplication *)
Lemma gs_plain_loop a c f : at_ p (2 ^ (k - 1 - c)) = -4096 ->
  3 <= c < k -> n <= Z.of_nat f -> isA n (Tc c) a ->
  wp (cdowhile f (fun '(a, rax, rcx) =>
          do ymm0 <- ld8 a rax;
          do ymm1 <- ld8 a rcx;
          let ymm2 := vpsubd ymm0 ymm1 in
          let ymm0 := vpaddd ymm0 ymm1 in
          do a <- st8 a rax ymm0;
          do a <- st8 a rcx ymm2;
          let rax := rax + 32 in
          let rcx := rcx + 32 in
          Ok (a, rax, rcx))
      (fun '(a, rax, rcx) => rax <? 4 * 2 ^ c) (a, 0, 4 * 2 ^ c))
    (fun '(a, rax, rcx) => rcx = 8 * 2 ^ c /\ blk n (2 ^ c) (Tc c) (Tc (c + 1)) 1 a).
Proof.
  intros H4 Hc Hf Ha. assert (Hn := n_bounds k n Hk En). assert (Hs := n_split k n En c ltac:(lia)).
  assert (HT := Tc_succ c ltac:(lia)).
  assert (E8 := pow8 c ltac:(lia)). assert (Hp3 := pow_pos (c - 3) ltac:(lia)).
  assert (HD := pow_pos (k - 1 - c) ltac:(lia)).
  set (H := 2 ^ (c - 3)) in *. set (h := 2 ^ c) in *. set (D := 2 ^ (k - 1 - c)) in *. clearbody H h D.
  assert (Hq2 : 2 * h <= n) by nia.
  apply (blk_0 n h (Tc c) (Tc (c + 1))) in Ha.
  eapply wp_weak.
  - apply (wp_inner n h (Tc c) (Tc (c + 1)) (fun s => fst (fst s))
      (fun c '(_, rax, rcx) => rax = 32 * c /\ rcx = 32 * c + 4 * h) H 0);
      try assumption; try lia.
    intros d ((b & rax) & rcx) s Hd Es (Er1 & Er2) HL Hs0 Hs1 R1 R2. cbn [fst snd] in *.
    eapply wp_bind; [apply (ld8_vec (Tc c) b _ s); [lia|lia|lia|exact R1]|]. cbv beta.
    eapply wp_bind; [apply (ld8_vec (Tc c) b _ (s + h)); [lia|lia|lia|exact R2]|]. cbv beta.
    cbv zeta. rewrite vpaddd_vec, vpsubd_vec.
    eapply wp_pair with (G := Tc (c + 1)) (s := s) (h := h); [lia|lia|lia|lia|lia|reflexivity|reflexivity| |].
    + intros l Hl. rewrite HT. destruct (gwB_at p D h (Tc c) 0 (8 * d + l) (s + l) (s + h + l)) as [-> ->]; [lia..|].
      rewrite Z.add_0_r, H4, gs_skip. split; reflexivity.
    + intros b' HU. apply wp_ok. cbn [fst]. split; [lia|]. split; [lia|exact HU].
  - intros ((b & rax) & rcx) (H1 & H2). cbn [fst snd] in H2. split; [lia|exact H2].
Qed.

Lemma rsi_facts : 0 + n = 8 * 2 ^ (k - 3) /\ Z.shiftr n 1 = 4 * 2 ^ (k - 3)
  /\ Z.shiftr (Z.shiftr n 1) 1 = 2 * 2 ^ (k - 3) /\ Z.shiftr (Z.shiftr (Z.shiftr n 1) 1) 1 = 2 ^ (k - 3)
  /\ 2 ^ (k - 3) = 2 * 2 ^ (k - 4).
Proof.
  assert (E1 : Z.shiftr n 1 = 2 ^ (k - 1)) by (rewrite En; apply pow_half; lia).
  rewrite E1, pow_half by lia. rewrite pow_half by lia. replace (k - 1 - 1 - 1) with (k - 3) by lia.
  split; [rewrite Z.add_0_l, En; change 8 with (2 ^ 3); rewrite <- Z.pow_add_r by lia; f_equal; lia|].
  split; [change 4 with (2 ^ 2); rewrite <- Z.pow_add_r by lia; f_equal; lia|].
  split; [rewrite <- pow_dbl by lia; f_equal; lia|].
  split; [reflexivity|]. rewrite <- pow_dbl by lia; f_equal; lia.
Qed.

Lemma nttmul_red_gs_rev2std_asm_ok a : isA n F0 a -> wp (nttmul_red_gs_rev2std_asm a n p) (isA n (Tc k)).
Proof.
  intros Ha. assert (Hn := n_bounds k n Hk En). cbv beta delta [nttmul_red_gs_rev2std_asm]. cbv zeta.
  destruct rsi_facts as (R1 & R2 & R3 & R4 & R5). rewrite R4, R3, R2, R1.
  eapply wp_seq; [apply (gs_first3 a Ha)|].
  intros ((((b & x1) & x2) & x3) & x4) Hb. clear x1 x2 x3 x4 a Ha.
  assert (Hp4 := pow_pos (k - 4) ltac:(lia)).
  eapply wp_seq; [rewrite R5 at 1; replace (0 + 2 * 2 ^ (k - 4)) with (2 * (2 ^ (k - 4) + 0)) by ring; apply (gs_size16 b 0); [lia|now apply blk_0]|].
  intros ((d & x1) & x2) Hd. clear x1 x2 b Hb.
  destruct (Z.eqb_spec (2 ^ (k - 3)) 2) as [He|Hne].
  - apply wp_ok. replace k with 4; [exact Hd|].
    change 2 with (2 ^ 1) in He at 2. apply Z.pow_inj_r in He; lia.
  - assert (Hk5 : 5 <= k) by (destruct (Z.eq_dec k 4); [subst k; exfalso; apply Hne; reflexivity|lia]).
    eapply wp_seq with (R := fun '(a, _, _) => isA n (Tc k) a).
    2:{ intros ((r & r1) & r2) Hr. now apply wp_ok. }
    eapply wp_weak.
    { apply (wp_loop (fun c '(a, rsi, r11) => rsi = 2 ^ (k - 3 - c) /\ r11 = 4 * 2 ^ (4 + c) /\ isA n (Tc (4 + c)) a) (k - 4)).
      - lia.
      - unfold fuel. assert (X := k_lt_n k n Hk En). lia.
      - clear d Hd. intros c' ((b & rsi) & r11) Hc' (-> & -> & Hb).
        rewrite pow_half by lia. replace (k - 3 - c' - 1) with (k - 1 - (4 + c') + 1) by lia.
        replace (k - 3 - (c' + 1)) with (k - 1 - (4 + c') + 1) by lia.
        replace (c' + 1 <? k - 4) with (4 + c' + 1 <? k) by lia.
        replace (4 + (c' + 1)) with (4 + c' + 1) by lia.
        assert (Hc : 4 <= 4 + c' < k) by lia. remember (4 + c') as c eqn:Ec. clear c' Ec Hc'.
        assert (Hs := n_split k n En c ltac:(lia)). assert (Hp1 := pow_pos c ltac:(lia)).
        assert (Hp2 := pow_pos (k - 1 - c) ltac:(lia)).
        assert (HD : 2 * 2 ^ (k - 1 - c) <= n) by (clear - Hs Hp2 Hp1; nia).
        eapply wp_seq with (R := fun '(a, _, _, _, _) => isA n (Tc (c + 1)) a).
        + eapply wp_weak.
          { apply (wp_loop (fun q '(a, rax, rcx, r8, r9) => rax = 8 * 2 ^ c * q /\ rcx = rax + 4 * 2 ^ c /\ r8 = rcx
              /\ r9 = 2 * (2 ^ (k - 1 - c) + q) /\ blk n (2 ^ c) (Tc c) (Tc (c + 1)) q a) (2 ^ (k - 1 - c))).
            - lia.
            - unfold fuel. lia.
            - intros q ((((e & rax) & rcx) & r8) & r9) Hq (-> & -> & -> & -> & He).
              eapply wp_bind; [apply (vpbroadcastw_ok p _ (2 ^ (k - 1 - c) + q)); lia|]. cbv beta.
              fold (bcw (at_ p (2 ^ (k - 1 - c) + q))).
              eapply wp_seq; [apply (gs_bc_loop e c q (8 * 2 ^ c * q)); [lia|lia|unfold fuel; lia|reflexivity|exact He]|].
              intros ((g & rax) & rcx) (-> & -> & Hg). apply wp_ok.
              split; [split; [ring|split; [ring|split; [reflexivity|split; [ring|exact Hg]]]]|].
              clear - Hs Hp1 Hq. nia.
            - split; [ring|]. split; [ring|]. split; [reflexivity|]. split; [rewrite pow_dbl by lia; ring|]. now apply blk_0. }
          intros ((((e & rax) & rcx) & r8) & r9) (_ & _ & _ & _ & He).
          apply (blk_end n (2 ^ c) (Tc c) _ (2 ^ (k - 1 - c))); [lia|assumption].
        + intros ((((e & rax) & rcx) & r8) & r9) He. apply wp_ok.
          rewrite Z.shiftl_mul_pow2 by lia.
          split; [split; [reflexivity|split; [rewrite (pow_dbl c) by lia; ring|exact He]]|].
          destruct (Z.ltb_spec (c + 1) k) as [Hlt|Hge].
          * destruct (Z.eqb_spec (2 ^ (k - 1 - c + 1)) 2) as [He2|]; [|reflexivity].
            change 2 with (2 ^ 1) in He2 at 2. apply Z.pow_inj_r in He2; lia.
          * replace (k - 1 - c + 1) with 1 by lia. reflexivity.
      - rewrite Z.sub_0_r. split; [reflexivity|]. split; [reflexivity|exact Hd]. }
    intros ((r & r1) & r2) (_ & _ & Hr). replace (4 + (k - 4)) with k in Hr by lia. exact Hr.
Qed.

Lemma ntt_red_gs_rev2std_asm_ok a : (forall c, 0 <= c < k -> at_ p (2 ^ c) = -4096) ->
  isA n F0 a -> wp (ntt_red_gs_rev2std_asm a n p) (isA n (Tc k)).
Proof.
  intros H4 Ha. assert (Hn := n_bounds k n Hk En). cbv beta delta [ntt_red_gs_rev2std_asm]. cbv zeta.
  destruct rsi_facts as (R1 & R2 & R3 & R4 & R5). rewrite R4, R3, R2, R1.
  eapply wp_seq; [apply (gs_first3 a Ha)|].
  intros ((((b & x1) & x2) & x3) & x4) Hb. clear x1 x2 x3 x4 a Ha.
  assert (Hp4 := pow_pos (k - 4) ltac:(lia)).
  assert (HL : zlen b = n) by apply Hb.
  eapply wp_bind; [apply (ld8_vec (Tc 3) b _ 0); [lia|lia|lia|]|].
  { intros l Hl. apply Hb. lia. }
  eapply wp_bind; [apply (ld8_vec (Tc 3) b _ 8); [lia|lia|lia|]|].
  { intros l Hl. apply Hb. lia. }
  rewrite vpaddd_vec, vpsubd_vec.
  eapply wp_pair with (G := Tc 4) (s := 0) (h := 8); [lia|lia|lia|lia|lia|reflexivity|reflexivity| |].
  { intros l Hl. change 4 with (3 + 1). rewrite Tc_succ by lia. change (2 ^ 3) with 8.
    destruct (gwB_at p (2 ^ (k - 1 - 3)) 8 (Tc 3) 0 l (0 + l) (0 + 8 + l)) as [-> ->]; [lia..|].
    rewrite Z.add_0_r, H4, gs_skip by lia. split; reflexivity. }
  intros b' HU. assert (Hb' : blk n 8 (Tc 3) (Tc 4) 1 b').
  { apply (blk_step n _ _ 0 b b'); [now apply blk_0|lia|exact HU]. }
  assert (Hs := n_split k n En 3 ltac:(lia)). change (2 * 2 ^ 3) with 16 in Hs. replace (k - 1 - 3) with (k - 4) in Hs by lia.
  clear b Hb HU HL. rewrite Z.geb_leb. destruct (Z.leb_spec (0 + 4 * n) (0 + 64)) as [Hle|Hgt].
  { apply wp_ok. assert (n = 16) by lia. replace k with 4.
    - apply (blk_end n 8 (Tc 3) (Tc 4) 1); [lia|exact Hb'].
    - apply (Z.pow_inj_r 2); [lia|lia|lia|]. rewrite <- En. lia. }
  assert (Hk5 : 5 <= k).
  { apply Z.lt_pred_le. apply (Z.pow_lt_mono_r_iff 2); [lia|lia|]. rewrite <- En. change (2 ^ Z.pred 5) with 16. lia. }
  assert (Hp5 : 2 ^ (k - 4) = 2 * 2 ^ (k - 5)) by (rewrite <- pow_dbl by lia; f_equal; lia).
  assert (Hp6 := pow_pos (k - 5) ltac:(lia)).
  eapply wp_seq; [replace (0 + 2 ^ (k - 3) + 2) with (2 * (2 ^ (k - 4) + 1)) by lia; replace (0 + 64) with (64 * 1) by ring;
    apply (gs_size16 b' 1); [lia|exact Hb']|].
  intros ((d & x1) & x2) Hd. clear x1 x2 b' Hb'.
  eapply wp_seq with (R := fun '(a, _, _, _) => isA n (Tc k) a).
  2:{ intros (((r & r1) & r2) & r3) Hr. now apply wp_ok. }
  eapply wp_weak.
  { apply (wp_loop (fun c '(a, rsi, r11, again) => (c < k - 4 -> rsi = 2 ^ (k - 3 - c) /\ r11 = 4 * 2 ^ (4 + c)) /\ isA n (Tc (4 + c)) a) (k - 4)).
    - lia.
    - unfold fuel. assert (X := k_lt_n k n Hk En). lia.
    - clear d Hd. intros c' (((b & rsi) & r11) & again) Hc' (HR & Hb). destruct (HR ltac:(lia)) as (-> & ->). clear HR again.
      rewrite pow_half by lia. replace (k - 3 - c' - 1) with (k - 1 - (4 + c') + 1) by lia.
      replace (k - 3 - (c' + 1)) with (k - 1 - (4 + c') + 1) by lia.
      replace (c' + 1 <? k - 4) with (4 + c' + 1 <? k) by lia.
      replace (4 + (c' + 1)) with (4 + c' + 1) by lia.
      assert (Hlt : c' + 1 < k - 4 -> 4 + c' + 1 < k) by lia.
      assert (Hc : 4 <= 4 + c' < k) by lia. remember (4 + c') as c eqn:Ec.
      assert (Hs' := n_split k n En c ltac:(lia)). assert (Hp1 := pow_pos c ltac:(lia)).
      assert (Hp2 := pow_pos (k - 1 - c) ltac:(lia)).
      assert (HD : 2 * 2 ^ (k - 1 - c) <= n) by (clear - Hs' Hp2 Hp1; nia).
      cbn [Z.add].
      eapply wp_seq; [apply (gs_plain_loop b c); [apply H4; lia|lia|unfold fuel; lia|exact Hb]|].
      intros ((e & rax) & rcx) (-> & He). clear b Hb rax.
      rewrite Z.geb_leb. destruct (Z.leb_spec (4 * n) (8 * 2 ^ c)) as [Hle|Hgt2].
      + assert (Ek : k - 1 - c = 0).
        { destruct (Z.eq_dec (k - 1 - c) 0); [assumption|].
          assert (X := pow_pos (k - 1 - c - 1) ltac:(lia)).
          assert (2 ^ (k - 1 - c) = 2 * 2 ^ (k - 1 - c - 1)) by (rewrite <- pow_dbl by lia; f_equal; lia).
          exfalso. clear - Hs' Hle X H Hp1. nia. }
        apply wp_ok. split.
        * split; [intros; lia|]. apply (blk_end n (2 ^ c) (Tc c) _ 1); [rewrite Hs', Ek; change (2 ^ 0) with 1; lia|exact He].
        * lia.
      + assert (Ek : 1 <= k - 1 - c).
        { destruct (Z.eq_dec (k - 1 - c) 0) as [E|]; [|lia]. rewrite E in Hs'. change (2 ^ 0) with 1 in Hs'. lia. }
        assert (EH : 2 ^ (k - 1 - c) = 2 * 2 ^ (k - 1 - c - 1)) by (rewrite <- pow_dbl by lia; f_equal; lia).
        assert (Hp7 := pow_pos (k - 1 - c - 1) ltac:(lia)).
        eapply wp_seq with (R := fun '(a, _, _) => isA n (Tc (c + 1)) a).
        * eapply wp_weak.
          { apply (wp_loop (fun q '(a, rcx, r9) => rcx = 8 * 2 ^ c * (q + 1)
               /\ r9 = 2 * (2 ^ (k - 1 - c) + q) /\ blk n (2 ^ c) (Tc c) (Tc (c + 1)) (q + 1) a) (2 ^ (k - 1 - c) - 1)).
            - lia.
            - unfold fuel. lia.
            - intros q ((g & rcx) & r9) Hq (-> & -> & Hg).
              eapply wp_bind; [apply (vpbroadcastw_ok p _ (2 ^ (k - 1 - c) + (q + 1))); lia|]. cbv beta.
              fold (bcw (at_ p (2 ^ (k - 1 - c) + (q + 1)))).
              eapply wp_seq; [apply (gs_bc_loop g c (q + 1) (8 * 2 ^ c * (q + 1))); [lia|lia|unfold fuel; lia|reflexivity|exact Hg]|].
              intros ((b & rax) & rcx) (-> & -> & Hb). apply wp_ok.
              split; [split; [ring|split; [ring|exact Hb]]|].
              clear - Hs' Hp1 Hq. nia.
            - split; [ring|]. split; [rewrite pow_dbl by lia; ring|exact He]. }
          intros ((g & rcx) & r9) (_ & _ & Hg).
          apply (blk_end n (2 ^ c) (Tc c) _ (2 ^ (k - 1 - c))); [lia|].
          replace (2 ^ (k - 1 - c) - 1 + 1) with (2 ^ (k - 1 - c)) in Hg by ring. exact Hg.
        * intros ((g & rcx) & r9) Hg. apply wp_ok. rewrite Z.shiftl_mul_pow2 by lia.
          split; [split; [intros _; split; [reflexivity|rewrite (pow_dbl c) by lia; ring]|exact Hg]|]. lia.
    - split; [|exact Hd]. intros _. rewrite Z.sub_0_r. split; reflexivity. }
  intros (((r & r1) & r2) & r3) (_ & Hr). replace (4 + (k - 4)) with k in Hr by lia. exact Hr.
Qed.
End T.
