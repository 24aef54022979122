(** The Cooley-Tukey transforms of the assembly, standard to bit-reversed order. *)

From Coq Require Import ZArith List Bool Lia.
From Verif Require Import CSem Spec Loops OuterLoops RedElem IntervalSound AvxSem ModelAvx AvxElem AvxArrays AvxRound
  AvxPairs AvxExec AvxBlocks.
Import ListNotations.
Open Scope Z_scope.

Section T.
Variables (k n : Z) (p : list Z) (F0 : Z -> Z).
Hypothesis Hk : 4 <= k <= 31.
Hypothesis En : n = 2 ^ k.
Hypothesis Hp : n <= zlen p.
Hypothesis Hp16 : forall i, 0 <= i < zlen p -> -32768 <= at_ p i <= 32767.

Let Tc := Tr (w_ctB p k) F0.

Lemma Tc_succ c : 0 <= c -> Tc (c + 1) = cw (2 ^ (k - 1 - c)) (mwB p (2 ^ c) (2 ^ (k - 1 - c))) (Tc c).
Proof. intros. apply Tr_succ. lia. Qed.

(** the three rounds of small blocks *)
Lemma ct_s2r_finish_ok a : isA n (Tc (k - 3)) a ->
  wp (ct_s2r_finish a p n 0 (2 * 2 ^ (k - 3)) (4 * n) mask) (isA n (Tc k)).
Proof.
  intros Ha. assert (Hn := n_bounds k n Hk En). assert (Hs := n_split k n En (k - 3) ltac:(lia)).
  replace (2 ^ (k - 1 - (k - 3))) with 4 in Hs by (replace (k - 1 - (k - 3)) with 2 by lia; reflexivity).
  assert (E1 : Tc (k - 2) = cw 4 (mwB p (2 ^ (k - 3)) 4) (Tc (k - 3))).
  { replace (k - 2) with (k - 3 + 1) by lia. rewrite Tc_succ by lia. replace (k - 1 - (k - 3)) with 2 by lia. reflexivity. }
  assert (E2 : Tc (k - 1) = cw 2 (mwB p (2 ^ (k - 2)) 2) (Tc (k - 2))).
  { replace (k - 1) with (k - 2 + 1) at 1 by lia. rewrite Tc_succ by lia. replace (k - 1 - (k - 2)) with 1 by lia. reflexivity. }
  assert (E3 : Tc k = cw 1 (mwB p (2 ^ (k - 1)) 1) (Tc (k - 1))).
  { replace k with (k - 1 + 1) at 1 by lia. rewrite Tc_succ by lia. replace (k - 1 - (k - 1)) with 0 by lia. reflexivity. }
  assert (D1 : 2 ^ (k - 2) = 2 * 2 ^ (k - 3)) by (replace (k - 2) with (k - 3 + 1) by lia; apply pow_dbl; lia).
  assert (D2 : 2 ^ (k - 1) = 4 * 2 ^ (k - 3)).
  { change 4 with (2 ^ 2). rewrite <- Z.pow_add_r by lia. f_equal. lia. }
  rewrite D1 in E2. rewrite D2 in E3.
  assert (Ev : exists C, 2 ^ (k - 3) = 2 * C) by (exists (2 ^ (k - 4)); replace (k - 3) with (k - 4 + 1) by lia; apply pow_dbl; lia).
  destruct Ev as (C & EC).
  set (T1 := Tc (k - 3)) in *. set (T2 := Tc (k - 2)) in *. set (T3 := Tc (k - 1)) in *. set (T4 := Tc k) in *.
  set (t := 2 ^ (k - 3)) in *. clearbody T1 T2 T3 T4 t. clear D1 D2 Hk En Tc.
  cbv beta delta [ct_s2r_finish]. vs.
  eapply wp_seq.
  - apply (wp_chunks n 16 C T1 T2 (fun '(a, _, _) => a) (fun c '(_, rax, rdx) => rax = 64 * c /\ rdx = 2 * (t + 2 * c)));
      [lia|lia|lia|unfold fuel; lia| | |exact Ha]; [|split; lia].
    intros c ((b & rax) & rdx) Hc (-> & ->) HL H0 H1 Fb.
    eapply wp_bind; [apply (vpmovsxwq_x_w p Hp16 _ (t + 2 * c)); lia|]. cbv beta. vs.
    eapply wp_bind; [apply (ld8_V T1 b _ (16 * c)); [lia|lia|lia|intros; apply Fb; lia]|]. cbv beta.
    eapply wp_bind; [apply (ld8_V8 T1 b _ (16 * c)); [lia|lia|lia|exact Fb]|]. cbv beta. vs.
    apply (wp_st16 T2 b _ _ (16 * c)); [lia|lia|lia|lia| | |].
    1,2: rewrite E1.
    { prs (cB p t 4 T1 (16 * c) (16 * c + 4) (t + 2 * c)). prs (cB p t 4 T1 (16 * c + 1) (16 * c + 5) (t + 2 * c)).
      prs (cB p t 4 T1 (16 * c + 2) (16 * c + 6) (t + 2 * c)). prs (cB p t 4 T1 (16 * c + 3) (16 * c + 7) (t + 2 * c)). reflexivity. }
    { prs (cB p t 4 T1 (16 * c + 8) (16 * c + 12) (t + 2 * c + 1)). prs (cB p t 4 T1 (16 * c + 9) (16 * c + 13) (t + 2 * c + 1)).
      prs (cB p t 4 T1 (16 * c + 10) (16 * c + 14) (t + 2 * c + 1)). prs (cB p t 4 T1 (16 * c + 11) (16 * c + 15) (t + 2 * c + 1)). reflexivity. }
    intros b' L' H'. vs. apply wp_ok. split; [lia|]. split; [lia|]. split; [exact L'|exact H'].
  - intros ((b & rax) & rdx) ((_ & ->) & Hb). clear a Ha. vs.
    eapply wp_seq.
    + apply (wp_chunks n 16 C T2 T3 (fun '(a, _, _) => a) (fun c '(_, rax, rdx) => rax = 64 * c /\ rdx = 2 * (2 * t + 4 * c)));
        [lia|lia|lia|unfold fuel; lia| | |exact Hb]; [|split; lia].
      clear b rax Hb.
      intros c ((b & rax) & rdx) Hc (-> & ->) HL H0 H1 Fb.
      eapply wp_bind; [apply (vpmovsxwq_w p Hp16 _ (2 * t + 4 * c)); lia|]. cbv beta. vs.
      eapply wp_bind; [apply (ld8_V T2 b _ (16 * c)); [lia|lia|lia|intros; apply Fb; lia]|]. cbv beta.
      eapply wp_bind; [apply (ld8_V8 T2 b _ (16 * c)); [lia|lia|lia|exact Fb]|]. cbv beta. vs.
      apply (wp_st16 T3 b _ _ (16 * c)); [lia|lia|lia|lia| | |].
      1,2: rewrite E2.
      { prs (cB p (2 * t) 2 T2 (16 * c) (16 * c + 2) (2 * t + 4 * c)). prs (cB p (2 * t) 2 T2 (16 * c + 1) (16 * c + 3) (2 * t + 4 * c)).
        prs (cB p (2 * t) 2 T2 (16 * c + 4) (16 * c + 6) (2 * t + 4 * c + 1)). prs (cB p (2 * t) 2 T2 (16 * c + 5) (16 * c + 7) (2 * t + 4 * c + 1)). reflexivity. }
      { prs (cB p (2 * t) 2 T2 (16 * c + 8) (16 * c + 10) (2 * t + 4 * c + 2)). prs (cB p (2 * t) 2 T2 (16 * c + 9) (16 * c + 11) (2 * t + 4 * c + 2)).
        prs (cB p (2 * t) 2 T2 (16 * c + 12) (16 * c + 14) (2 * t + 4 * c + 3)). prs (cB p (2 * t) 2 T2 (16 * c + 13) (16 * c + 15) (2 * t + 4 * c + 3)). reflexivity. }
      intros b' L' H'. vs. apply wp_ok. split; [lia|]. split; [lia|]. split; [exact L'|exact H'].
    + clear b rax Hb. intros ((b & rax) & rdx) ((_ & ->) & Hb). vs.
      eapply wp_seq.
      * apply (wp_chunks n 16 C T3 T4 (fun '(a, _, _) => a) (fun c '(_, rax, rdx) => rax = 64 * c /\ rdx = 2 * (4 * t + 8 * c)));
          [lia|lia|lia|unfold fuel; lia| | |exact Hb]; [|split; lia].
        clear b rax Hb.
        intros c ((b & rax) & rdx) Hc (-> & ->) HL H0 H1 Fb.
        eapply wp_bind; [apply (vpmovsxwq_w p Hp16 _ (4 * t + 8 * c)); lia|]. cbv beta. vs.
        eapply wp_bind; [apply (vpmovsxwq_w p Hp16 _ (4 * t + 8 * c + 4)); lia|]. cbv beta. vs.
        eapply wp_bind; [apply (ld8_V T3 b _ (16 * c)); [lia|lia|lia|intros; apply Fb; lia]|]. cbv beta.
        eapply wp_bind; [apply (ld8_V8 T3 b _ (16 * c)); [lia|lia|lia|exact Fb]|]. cbv beta. vs.
        apply (wp_st16 T4 b _ _ (16 * c)); [lia|lia|lia|lia| | |].
        1,2: rewrite E3.
        { prs (cB p (4 * t) 1 T3 (16 * c) (16 * c + 1) (4 * t + 8 * c)). prs (cB p (4 * t) 1 T3 (16 * c + 2) (16 * c + 3) (4 * t + 8 * c + 1)).
          prs (cB p (4 * t) 1 T3 (16 * c + 4) (16 * c + 5) (4 * t + 8 * c + 2)). prs (cB p (4 * t) 1 T3 (16 * c + 6) (16 * c + 7) (4 * t + 8 * c + 3)). reflexivity. }
        { prs (cB p (4 * t) 1 T3 (16 * c + 8) (16 * c + 9) (4 * t + 8 * c + 4)). prs (cB p (4 * t) 1 T3 (16 * c + 10) (16 * c + 11) (4 * t + 8 * c + 4 + 1)).
          prs (cB p (4 * t) 1 T3 (16 * c + 12) (16 * c + 13) (4 * t + 8 * c + 4 + 2)). prs (cB p (4 * t) 1 T3 (16 * c + 14) (16 * c + 15) (4 * t + 8 * c + 4 + 3)). reflexivity. }
        intros b' L' H'. vs. apply wp_ok. split; [lia|]. split; [lia|]. split; [exact L'|exact H'].
      * clear b rax Hb. intros ((b & rax) & rdx) (_ & Hb). now apply wp_ok.
Qed.

(** one block, multiplying by a table element *)
Lemma ct_bc_loop a c q X f : 0 <= c -> c <= k - 4 -> 0 <= q < 2 ^ c -> n <= Z.of_nat f ->
  X = 8 * 2 ^ (k - 1 - c) * q ->
  blk n (2 ^ (k - 1 - c)) (Tc c) (Tc (c + 1)) q a ->
  wp (let ymm5 := bcw (at_ p (2 ^ c + q)) in cdowhile f (fun '(a, rax, rcx) =>
              do ymm0 <- ld8 a rax;
              do ymm1 <- ld8 a rcx;
              let ymm2 := vpmuldq ymm1 ymm5 in
              let ymm1 := vpshufd ymm1 49 in
              let ymm3 := vpmuldq ymm1 ymm5 in
              let ymm1 := vpslldq ymm3 4 in
              let ymm1 := vpblendd ymm1 ymm2 85 in
              let ymm1 := vpand ymm1 mask in
              let ymm3 := vpsrlq ymm3 12 in
              let ymm2 := vpsrlq ymm2 12 in
              let ymm3 := vpslldq ymm3 4 in
              let ymm3 := vpblendd ymm3 ymm2 85 in
              let ymm2 := vpslld ymm1 1 in
              let ymm1 := vpaddd ymm1 ymm2 in
              let ymm1 := vpsubd ymm1 ymm3 in
              let ymm2 := vpaddd ymm0 ymm1 in
              let ymm3 := vpsubd ymm0 ymm1 in
              do a <- st8 a rax ymm2;
              do a <- st8 a rcx ymm3;
              let rax := rax + 32 in
              let rcx := rcx + 32 in
              Ok (a, rax, rcx))
        (fun '(a, rax, rcx) => rax <? X + 4 * 2 ^ (k - 1 - c)) (a, X, X + 4 * 2 ^ (k - 1 - c)))
    (fun '(a, rax, rcx) => rax = X + 4 * 2 ^ (k - 1 - c) /\ rcx = X + 8 * 2 ^ (k - 1 - c)
       /\ blk n (2 ^ (k - 1 - c)) (Tc c) (Tc (c + 1)) (q + 1) a).
Proof.
  intros Hc Hc2 Hq Hf HX Ha. assert (Hn := n_bounds k n Hk En). assert (Hs := n_split k n En c ltac:(lia)).
  assert (HT := Tc_succ c Hc).
  assert (E8 := pow8 (k - 1 - c) ltac:(lia)). assert (Hp3 := pow_pos (k - 1 - c - 3) ltac:(lia)).
  set (H := 2 ^ (k - 1 - c - 3)) in *. set (h := 2 ^ (k - 1 - c)) in *. set (D := 2 ^ c) in *. clearbody H h D.
  assert (Hq2 : 2 * h * (q + 1) <= n) by nia. assert (HD : 16 * D <= n) by nia.
  assert (H16 : -32768 <= at_ p (D + q) <= 32767) by (apply Hp16; lia).
  cbv zeta.
  eapply wp_weak.
  - apply (wp_inner n h (Tc c) (Tc (c + 1)) (fun s => fst (fst s))
      (fun c '(_, rax, rcx) => rax = 4 * (2 * h * q + 8 * c) /\ rcx = 4 * (2 * h * q + 8 * c + h)) H q);
      try assumption; try lia.
    + intros d ((b & rax) & rcx) s Hd Es (Er1 & Er2) HL Hs0 Hs1 R1 R2. cbn [fst snd] in *.
      rewrite <- Es in *.
      eapply wp_bind; [apply (ld8_vec (Tc c) b _ s); [lia|lia|lia|exact R1]|]. cbv beta.
      eapply wp_bind; [apply (ld8_vec (Tc c) b _ (s + h)); [lia|lia|lia|exact R2]|]. cbv beta.
      vfold. rewrite vmrx_bcw, vpaddd_vec, vpsubd_vec by exact H16.
      eapply wp_pair with (G := Tc (c + 1)) (s := s) (h := h); [lia|lia|lia|lia|lia|reflexivity|reflexivity| |].
      * intros l Hl. rewrite HT. destruct (cwB_at p D h (Tc c) q (8 * d + l) (s + l) (s + h + l)) as [-> ->]; [lia..|].
        split; reflexivity.
      * intros b' HU. apply wp_ok. cbn [fst]. split; [lia|]. split; [lia|]. exact HU.
  - intros ((b & rax) & rcx) (H1 & H2). cbn [fst snd] in H2.
    split; [lia|]. split; [lia|exact H2].
Qed.

(** the first block, without a multiplication *)
Lemma ct_plain_loop a c f body (cond : list Z * Z * Z -> bool) : at_ p (2 ^ c) = -4096 ->
  (body = (fun '(a, rax, rcx) =>
      do ymm0 <- ld8 a rax;
      do ymm1 <- ld8 a rcx;
      let ymm2 := vpaddd ymm0 ymm1 in
      let ymm3 := vpsubd ymm0 ymm1 in
      do a <- st8 a rax ymm2;
      do a <- st8 a rcx ymm3;
      let rcx := rcx + 32 in
      let rax := rax + 32 in
      Ok (a, rax, rcx))
   \/ body = (fun '(a, rax, rcx) =>
          do ymm0 <- ld8 a rax;
          do ymm1 <- ld8 a rcx;
          let ymm2 := vpaddd ymm0 ymm1 in
          let ymm3 := vpsubd ymm0 ymm1 in
          do a <- st8 a rax ymm2;
          do a <- st8 a rcx ymm3;
          let rax := rax + 32 in
          let rcx := rcx + 32 in
          Ok (a, rax, rcx))) ->
  0 <= c -> c <= k - 4 -> n <= Z.of_nat f ->
  (forall b x, cond (b, x, x + 4 * 2 ^ (k - 1 - c)) = (x <? 4 * 2 ^ (k - 1 - c))) ->
  isA n (Tc c) a ->
  wp (cdowhile f body cond (a, 0, 4 * 2 ^ (k - 1 - c)))
    (fun '(a, rax, rcx) => rax = 4 * 2 ^ (k - 1 - c) /\ rcx = 8 * 2 ^ (k - 1 - c)
       /\ blk n (2 ^ (k - 1 - c)) (Tc c) (Tc (c + 1)) 1 a).
Proof.
  intros H4 HB Hc Hc2 Hf Hcond Ha. assert (Hn := n_bounds k n Hk En). assert (Hs := n_split k n En c ltac:(lia)).
  assert (HT := Tc_succ c Hc).
  assert (E8 := pow8 (k - 1 - c) ltac:(lia)). assert (Hp3 := pow_pos (k - 1 - c - 3) ltac:(lia)).
  assert (HD := pow_pos c Hc).
  set (H := 2 ^ (k - 1 - c - 3)) in *. set (h := 2 ^ (k - 1 - c)) in *. set (D := 2 ^ c) in *. clearbody H h D.
  assert (Hq2 : 2 * h <= n) by nia.
  apply (blk_0 n h (Tc c) (Tc (c + 1))) in Ha.
  eapply wp_weak.
  - apply (wp_inner n h (Tc c) (Tc (c + 1)) (fun s => fst (fst s))
      (fun c '(_, rax, rcx) => rax = 32 * c /\ rcx = 32 * c + 4 * h) H 0);
      try assumption; try lia.
    intros d ((b & rax) & rcx) s Hd Es (Er1 & Er2) HL Hs0 Hs1 R1 R2. cbn [fst snd] in *.
    assert (Cn := fun b => Hcond b (32 * (d + 1))).
    destruct HB as [-> | ->].
    all: eapply wp_bind; [apply (ld8_vec (Tc c) b _ s); [lia|lia|lia|exact R1]|]; cbv beta.
    all: eapply wp_bind; [apply (ld8_vec (Tc c) b _ (s + h)); [lia|lia|lia|exact R2]|]; cbv beta.
    all: cbv zeta; rewrite vpaddd_vec, vpsubd_vec.
    all: eapply wp_pair with (G := Tc (c + 1)) (s := s) (h := h); [lia|lia|lia|lia|lia|reflexivity|reflexivity| |].
    1, 3: intros l Hl; rewrite HT; destruct (cwB_at p D h (Tc c) 0 (8 * d + l) (s + l) (s + h + l)) as [-> ->]; [lia..|];
      rewrite Z.add_0_r, H4, add_skip, sub_skip; split; reflexivity.
    all: intros b' HU; apply wp_ok; cbn [fst]; split; [lia|]; split; [|exact HU].
    all: subst rax rcx; replace (32 * d + 32) with (32 * (d + 1)) by ring;
      replace (32 * d + 4 * h + 32) with (32 * (d + 1) + 4 * h) by ring; rewrite Cn; lia.
  - intros ((b & rax) & rcx) (H1 & H2). cbn [fst snd] in H2. split; [lia|]. split; [lia|exact H2].
Qed.

Lemma mulntt_red_ct_std2rev_asm_ok a : isA n F0 a -> wp (mulntt_red_ct_std2rev_asm a n p) (isA n (Tc k)).
Proof.
  intros Ha. assert (Hn := n_bounds k n Hk En). cbv beta delta [mulntt_red_ct_std2rev_asm]. cbv zeta.
  eapply wp_seq.
  - apply (wp_loop (fun c '(a, rdx, rsi) => rdx = 2 * (2 ^ c - 1) /\ rsi = 2 ^ (k - c) /\ isA n (Tc c) a) (k - 3)).
    + lia.
    + unfold fuel. assert (X := k_lt_n k n Hk En). lia.
    + intros c ((b & rdx) & rsi) Hc (-> & -> & Hb). cbn [Z.add].
      assert (Hs := n_split k n En c ltac:(lia)). assert (Hp1 := pow_pos c ltac:(lia)).
      assert (Hp2 := pow_pos (k - 1 - c) ltac:(lia)).
      assert (ER : 2 ^ (k - c) = 2 * 2 ^ (k - 1 - c)) by (rewrite <- pow_dbl by lia; f_equal; lia).
      assert (HD : 2 * 2 ^ c <= n) by (clear - Hs Hp2 Hp1; nia).
      eapply wp_seq with (R := fun '(a, _, _, rdx, _) => rdx = 2 * (2 * 2 ^ c - 1) /\ isA n (Tc (c + 1)) a).
      * eapply wp_weak.
        { apply (wp_loop (fun q '(a, rax, rcx, rdx, r9) => rax = 8 * 2 ^ (k - 1 - c) * q /\ rcx = rax + 4 * 2 ^ (k - 1 - c) /\ r9 = rcx
            /\ rdx = 2 * (2 ^ c - 1 + q) /\ blk n (2 ^ (k - 1 - c)) (Tc c) (Tc (c + 1)) q a) (2 ^ c)).
          - lia.
          - unfold fuel. lia.
          - intros q ((((e & rax) & rcx) & rdx) & r9) Hq (-> & -> & -> & -> & He).
            eapply wp_bind; [apply (vpbroadcastw_ok p _ (2 ^ c + q)); lia|]. cbv beta. fold (bcw (at_ p (2 ^ c + q))).
            eapply wp_seq; [apply (ct_bc_loop e c q (8 * 2 ^ (k - 1 - c) * q)); [lia|lia|lia|unfold fuel; lia|reflexivity|exact He]|].
            intros ((g & rax) & rcx) (-> & -> & Hg). apply wp_ok. rewrite ER.
            split; [split; [ring|split; [ring|split; [reflexivity|split; [ring|exact Hg]]]]|].
            nia.
          - split; [ring|]. split; [rewrite ER; ring|]. split; [reflexivity|]. split; [ring|]. now apply blk_0. }
        intros ((((e & rax) & rcx) & rdx) & r9) (_ & _ & _ & -> & He). split; [ring|].
        apply (blk_end n (2 ^ (k - 1 - c)) (Tc c) _ (2 ^ c)); [lia|assumption].
      * intros ((((e & rax) & rcx) & rdx) & r9) (-> & He). apply wp_ok.
        rewrite pow_half by lia. replace (k - c - 1) with (k - (c + 1)) by ring.
        split; [split; [rewrite pow_dbl by lia; ring|split; [reflexivity|exact He]]|].
        rewrite Z.gtb_ltb. change 8 with (2 ^ 3). rewrite pow_lt_iff by lia.
        destruct (Z.ltb_spec 3 (k - (c + 1))), (Z.ltb_spec (c + 1) (k - 3)); lia || reflexivity.
    + split; [reflexivity|]. split; [rewrite Z.sub_0_r; exact En|]. exact Ha.
  - intros ((b & rdx) & rsi) (-> & _ & Hb).
    replace (2 * (2 ^ (k - 3) - 1) + 2) with (2 * 2 ^ (k - 3)) by ring. now apply ct_s2r_finish_ok.
Qed.

Lemma ntt_red_ct_std2rev_asm_ok a : (forall c, 0 <= c < k -> at_ p (2 ^ c) = -4096) ->
  isA n F0 a -> wp (ntt_red_ct_std2rev_asm a n p) (isA n (Tc k)).
Proof.
  intros H4 Ha. assert (Hn := n_bounds k n Hk En). cbv beta delta [ntt_red_ct_std2rev_asm]. cbv zeta.
  assert (Hs0 := n_split k n En 0 ltac:(lia)). change (2 * 2 ^ 0) with 2 in Hs0.
  eapply wp_seq with (R := fun '(a, _, _) => isA n (Tc 1) a).
  { replace (0 + 2 * n) with (4 * 2 ^ (k - 1 - 0)) by lia. eapply wp_weak.
    - apply (ct_plain_loop a 0); [apply H4; lia|left; reflexivity|lia|lia|unfold fuel; lia| |exact Ha].
      intros b x. lia.
    - intros ((b & rax) & rcx) (_ & _ & Hb). apply (blk_end n (2 ^ (k - 1 - 0)) (Tc 0) _ 1); [lia|exact Hb]. }
  intros ((b & rax) & rcx) Hb. clear a Ha rax rcx.
  assert (E1 : Z.shiftr n 1 = 2 ^ (k - 1)) by (rewrite En; apply pow_half; lia). rewrite E1.
  change 8 with (2 ^ 3) at 1. rewrite pow_le_iff by lia.
  destruct (Z.leb_spec (k - 1) 3) as [Hle|Hgt].
  - assert (k = 4) by lia. replace (0 + 4) with (2 * 2 ^ (k - 3)) by (subst k; reflexivity).
    apply ct_s2r_finish_ok. replace (k - 3) with 1 by lia. exact Hb.
  - eapply wp_seq.
    + apply (wp_loop (fun c '(a, rdx, rsi) => rdx = 2 * 2 ^ (c + 1) /\ rsi = 2 ^ (k - (c + 1)) /\ isA n (Tc (c + 1)) a) (k - 4)).
      * lia.
      * unfold fuel. assert (X := k_lt_n k n Hk En). lia.
      * clear b Hb. intros c' ((b & rdx) & rsi) Hc (-> & -> & Hb). cbn [Z.add].
        assert (Hc1 : 1 <= c' + 1 <= k - 4) by lia. remember (c' + 1) as c eqn:Ec'. clear Ec' Hc.
        assert (Hs := n_split k n En c ltac:(lia)). assert (Hp1 := pow_pos (c - 1) ltac:(lia)).
        assert (Hp2 := pow_pos (k - 1 - c) ltac:(lia)).
        assert (ER : 2 * 2 ^ (k - c) = 4 * 2 ^ (k - 1 - c)).
        { replace (k - c) with (k - 1 - c + 1) by lia. rewrite pow_dbl by lia. ring. }
        assert (EC : 2 ^ c = 2 * 2 ^ (c - 1)) by (rewrite <- pow_dbl by lia; f_equal; lia).
        assert (HD : 2 * 2 ^ c <= n) by (clear - Hs Hp2 Hp1 EC; nia). rewrite ER.
        eapply wp_seq; [apply (ct_plain_loop b c); [apply H4; lia|right; reflexivity|lia|lia|unfold fuel; lia| |exact Hb]|].
        { intros. reflexivity. }
        intros ((d & rax) & rcx) (_ & -> & Hd). clear b Hb rax.
        eapply wp_seq with (R := fun '(a, _, rdx) => rdx = 2 * (2 * 2 ^ c - 1) /\ isA n (Tc (c + 1)) a).
        -- eapply wp_weak.
           { apply (wp_loop (fun q '(a, rcx, rdx) => rcx = 8 * 2 ^ (k - 1 - c) * (q + 1)
                /\ rdx = 2 * (2 ^ c + q) /\ blk n (2 ^ (k - 1 - c)) (Tc c) (Tc (c + 1)) (q + 1) a) (2 ^ c - 1)).
             - lia.
             - unfold fuel. lia.
             - intros q ((e & rcx) & rdx) Hq (-> & -> & He).
               eapply wp_bind; [apply (vpbroadcastw_ok p _ (2 ^ c + (q + 1))); lia|]. cbv beta. fold (bcw (at_ p (2 ^ c + (q + 1)))).
               eapply wp_seq; [apply (ct_bc_loop e c (q + 1) (8 * 2 ^ (k - 1 - c) * (q + 1))); [lia|lia|lia|unfold fuel; lia|reflexivity|exact He]|].
               intros ((g & rax) & rcx) (-> & -> & Hg). apply wp_ok.
               split; [split; [ring|split; [ring|exact Hg]]|].
               clear - Hs Hp2 Hq. nia.
             - split; [ring|]. split; [ring|exact Hd]. }
           intros ((e & rcx) & rdx) (_ & -> & He). split; [ring|].
           apply (blk_end n (2 ^ (k - 1 - c)) (Tc c) _ (2 ^ c)); [lia|]. replace (2 ^ c - 1 + 1) with (2 ^ c) in He by ring. exact He.
        -- intros ((e & rcx) & rdx) (-> & He). apply wp_ok.
           rewrite pow_half by lia. replace (k - c - 1) with (k - (c + 1)) by ring.
           split; [split; [rewrite (pow_dbl c) by lia; ring|split; [reflexivity|exact He]]|].
           rewrite Z.gtb_ltb. change 8 with (2 ^ 3). rewrite pow_lt_iff by lia.
           destruct (Z.ltb_spec 3 (k - (c + 1))), (Z.ltb_spec c (k - 4)); lia || reflexivity.
      * split; [reflexivity|]. split; [reflexivity|]. exact Hb.
    + intros ((d & rdx) & rsi) (-> & _ & Hd). replace (k - 4 + 1) with (k - 3) in * by ring. now apply ct_s2r_finish_ok.
Qed.
End T.
