(** The abstract transforms finish, and the bounds they print: proofs. *)

From Coq Require Import ZArith List Bool Lia.
From Verif Require Import CSem Spec Loops Stages OuterLoops RedElem NttElem NaiveElem BoundsElem
  ModelInterval IntervalElem IntervalLoops IntervalSound IntervalTotal.
Import ListNotations.
Open Scope Z_scope.

(** A non-empty interval with bounds at most [B] in absolute value. *)
Definition wb (B : Z) (V : itv) : Prop := - B <= fst V /\ fst V <= snd V /\ snd V <= B.

(** ** Butterflies *)

Section TBfly.
Variables (n h s B B' : Z).
Hypothesis Hn : n <= 2147483648.
Hypothesis Hs : 0 <= s.
Hypothesis Hh : 0 < h.
Hypothesis Hsh : s + h < n.
Hypothesis HB0 : 0 <= B.
Hypothesis HB' : B' <= 4611686018427387904.

Let P := fun _ : Z => wb B.
Let P' := fun _ : Z => wb B'.

Lemma wb_wfi V C : wb C V -> C <= 4611686018427387904 -> wfi V.
Proof. unfold wb, wfi, i64r. lia. Qed.

Lemma abfly0_tot : 2 * B <= B' -> tbspec n h P P' s (abfly0 s h).
Proof.
  intros HBB a HL Y X. unfold P, P' in *.
  unfold abfly0. rewrite (pair_idx n s h) by lia.
  rewrite rdi_ok by lia. cbn [bind]. rewrite rdi_ok by lia. cbn [bind].
  set (x := ati a (s + h)) in *. set (y := ati a s) in *.
  assert (WX := wb_wfi _ _ X ltac:(lia)). assert (WY := wb_wfi _ _ Y ltac:(lia)).
  unfold wb in X, Y.
  rewrite sub_ok by (try assumption; unfold i64r; lia). cbn [bind].
  rewrite wri_ok by lia. cbn [bind].
  rewrite add_ok by (try assumption; unfold i64r; lia). cbn [bind].
  rewrite wri_ok by (rewrite iset_len; lia). eexists. split; [reflexivity|].
  do 2 eexists. split; [reflexivity|]. unfold wb. cbn [fst snd]. lia.
Qed.

(** Twice the largest absolute value of a product of a constant of at most 6144 in
    absolute value. *)
Lemma redz_scaled C w v : -6144 <= w <= 6144 -> - C <= v <= C ->
  2 * - redz (w * v) <= 3 * C + 24572 /\ 2 * redz (w * v) <= 3 * C + 24572.
Proof.
  intros Hw Hv. assert (- (6144 * C) <= w * v <= 6144 * C) by nia. unfold redz. lia.
Qed.

Lemma act_tot w : w <> 0 -> -6144 <= w <= 6144 -> 5 * B + 24572 <= 2 * B' ->
  6144 * B <= 4611686018427387904 ->
  tbspec n h P P' s (act_bfly red_scale w s h).
Proof.
  intros W0 Hw HBB H62 a HL Y X. unfold P, P' in *.
  unfold act_bfly. rewrite (pair_idx n s h) by lia.
  rewrite rdi_ok by lia. cbn [bind]. rewrite rdi_ok by lia. cbn [bind].
  set (x := ati a (s + h)) in *. set (y := ati a s) in *.
  assert (WX := wb_wfi _ _ X ltac:(lia)). assert (WY := wb_wfi _ _ Y ltac:(lia)).
  unfold wb in X, Y. clearbody x y.
  assert (MW : forall v, - B <= v <= B -> - (6144 * B) <= w * v <= 6144 * B) by (clear - Hw; intros; nia).
  destruct (red_scale_ok w x) as (u & v & Eu & Mu & Mv & HR); try assumption; try lia;
    try (unfold sbnd; specialize (MW (fst x)); lia); try (unfold sbnd; specialize (MW (snd x)); lia).
  rewrite Eu. cbn [bind]. unfold mem in Mu, Mv.
  assert (Bu := redz_scaled B w u Hw ltac:(lia)). assert (Bv := redz_scaled B w v Hw ltac:(lia)).
  assert (Huv : redz (w * u) <= redz (w * v)) by (apply (HR v Mv)).
  assert (Wz : wfi (redz (w * u), redz (w * v))) by (unfold wfi, i64r; cbn [fst snd]; lia).
  rewrite sub_ok by (try assumption; unfold i64r; cbn [fst snd]; lia). cbn [bind].
  rewrite wri_ok by lia. cbn [bind].
  rewrite add_ok by (try assumption; unfold i64r; cbn [fst snd]; lia). cbn [bind].
  rewrite wri_ok by (rewrite iset_len; lia). eexists. split; [reflexivity|].
  do 2 eexists. split; [reflexivity|]. unfold wb. cbn [fst snd]. lia.
Qed.

Lemma ags_tot w : w <> 0 -> -6144 <= w <= 6144 -> 3 * B + 12286 <= B' ->
  12288 * B <= 4611686018427387904 ->
  tbspec n h P P' s (ags_bfly red_scale w s h).
Proof.
  intros W0 Hw HBB H62 a HL Y X. unfold P, P' in *.
  unfold ags_bfly. rewrite (pair_idx n s h) by lia.
  rewrite rdi_ok by lia. cbn [bind]. rewrite rdi_ok by lia. cbn [bind].
  set (x := ati a (s + h)) in *. set (y := ati a s) in *.
  assert (WX := wb_wfi _ _ X ltac:(lia)). assert (WY := wb_wfi _ _ Y ltac:(lia)).
  unfold wb in X, Y. clearbody x y.
  rewrite sub_ok by (try assumption; unfold i64r; lia). cbn [bind].
  set (z := (fst y - snd x, snd y - fst x)) in *.
  assert (Z0 : fst z <= snd z) by (unfold z; cbn [fst snd]; lia).
  assert (Z1 : - (2 * B) <= fst z) by (unfold z; cbn [fst snd]; lia).
  assert (Z2 : snd z <= 2 * B) by (unfold z; cbn [fst snd]; lia).
  clearbody z.
  assert (MW : forall v, - (2 * B) <= v <= 2 * B -> - (12288 * B) <= w * v <= 12288 * B) by (clear - Hw; intros; nia).
  destruct (red_scale_ok w z) as (u & v & Eu & Mu & Mv & HR); try assumption; try lia;
    try (unfold sbnd; specialize (MW (fst z)); lia); try (unfold sbnd; specialize (MW (snd z)); lia).
  rewrite Eu. cbn [bind]. unfold mem in Mu, Mv.
  assert (Bu := redz_scaled (2 * B) w u Hw ltac:(lia)). assert (Bv := redz_scaled (2 * B) w v Hw ltac:(lia)).
  assert (Huv : redz (w * u) <= redz (w * v)) by (apply (HR v Mv)).
  rewrite wri_ok by lia. cbn [bind].
  rewrite add_ok by (try assumption; unfold i64r; cbn [fst snd]; lia). cbn [bind].
  rewrite wri_ok by (rewrite iset_len; lia). eexists. split; [reflexivity|].
  do 2 eexists. split; [reflexivity|]. unfold wb. cbn [fst snd]. lia.
Qed.

End TBfly.

(** ** Rounds *)

Section TRounds.
Variables (k n Bmax : Z) (W : Z -> Z) (A : list itv).
Hypothesis Hk : 0 <= k <= 31.
Hypothesis Hn : n = 2 ^ k.
Hypothesis HW : forall c, 0 <= c <= k -> 0 <= W c <= Bmax.

(** No warnings, if all the bounds are 32-bit values; display [m] is within [W m]. *)
Definition quiet (out : list shown) : Prop :=
  (Bmax <= 2147483647 -> forall sh, In sh out -> snd sh = [])
  /\ forall m sh V, nth_error out m = Some sh -> In V (fst sh) ->
     - W (Z.of_nat m) <= fst V /\ snd V <= W (Z.of_nat m).

(** After [c] rounds. *)
Definition JT (c : Z) (out : list shown) (a : list itv) : Prop :=
  ilen a = n /\ (forall i, 0 <= i < n -> wb (W c) (ati a i))
  /\ Z.of_nat (length out) = c /\ hd a (map fst out) = A /\ rows Bmax out /\ quiet out.

Lemma JT_show c out a : 0 <= c <= k -> JT c out a -> exists sh, show_intervals a n = Ok sh
  /\ Z.of_nat (length (out ++ [sh])) = c + 1 /\ hd A (map fst (out ++ [sh])) = A /\ fst sh = a
  /\ (rows Bmax (out ++ [sh]) /\ quiet (out ++ [sh])) /\ (forall b, hd b (map fst (out ++ [sh])) = A).
Proof.
  intros Hc (HL & HP & HO & HH & HR & HQ & HS). assert (Hn31 := n_le k n (fun _ _ _ => True) Hk Hn).
  destruct (show_ok a n HL) as (ws & Es & Hws). { assert (X := ilen_nonneg a). lia. }
  exists (a, ws). split; [exact Es|]. rewrite app_length, Nat2Z.inj_add, HO.
  assert (X : forall b, hd b (map fst (out ++ [(a, ws)])) = A).
  { intros b. destruct out; [|exact HH]. exact HH. }
  specialize (HW c Hc). split; [reflexivity|]. split; [apply X|]. split; [reflexivity|].
  split; [split; [|split]|exact X].
  - intros sh V H H0. apply in_app_iff in H. destruct H as [H|[<-|[]]]; [eapply HR; eassumption|].
    cbn [fst] in H0. destruct (In_nth a V (0, 0) H0) as (m & Hm & EV).
    assert (Hi : 0 <= Z.of_nat m < n) by (unfold ilen in HL; lia). specialize (HP _ Hi).
    unfold ati in HP. rewrite Nat2Z.id, EV in HP. unfold wb in HP. lia.
  - intros HB sh H. apply in_app_iff in H. destruct H as [H|[<-|[]]]; [apply HQ; assumption|].
    cbn [snd]. destruct ws as [|i ws]; [reflexivity|]. exfalso.
    destruct (proj1 (Hws i) (or_introl eq_refl)) as [Hi HV]. specialize (HP i Hi). unfold wb in HP. lia.
  - intros m sh V Hm HV. destruct (Nat.lt_ge_cases m (length out)) as [L|L].
    + rewrite nth_error_app1 in Hm by exact L. apply (HS m sh V Hm HV).
    + rewrite nth_error_app2 in Hm by exact L.
      destruct (m - length out)%nat as [|q] eqn:Eq; [|destruct q; discriminate].
      injection Hm as <-. cbn [fst] in HV. replace (Z.of_nat m) with c by lia.
      destruct (In_nth a V (0, 0) HV) as (q & Hq & EV).
      assert (Hi : 0 <= Z.of_nat q < n) by (unfold ilen in HL; lia). specialize (HP _ Hi).
      unfold ati in HP. rewrite Nat2Z.id, EV in HP. unfold wb in HP. lia.
Qed.

Lemma JT_start : ilen A = n -> (forall i, 0 <= i < n -> wb (W 0) (ati A i)) -> JT 0 [] A.
Proof.
  intros HL HP. split; [exact HL|]. split; [exact HP|]. split; [reflexivity|]. split; [reflexivity|].
  split; [intros sh V []|]. split; [intros _ sh []|]. intros [|m] sh V H; discriminate.
Qed.

Lemma k_fuel : (Z.to_nat k < fuel n)%nat.
Proof.
  assert (k < 2 ^ k) by (apply Z.pow_gt_lin_r; lia). unfold fuel. lia.
Qed.

Lemma up_tc (body : Z -> list shown * list itv -> res (list shown * list itv)) :
  (forall c out a, 0 <= c < k -> JT c out a ->
     tc (body (2 ^ c) (out, a)) (fun '(out, a) => JT (c + 1) out a)) ->
  JT 0 [] A ->
  tc (cfor (fuel n) 1 (fun t => t <? n) (fun t => u32 (t * 2)) body ([], A)) (fun '(out, a) => JT k out a).
Proof.
  intros Hb Ha. assert (Hf := k_fuel).
  apply (cfor_tc (fun c '(out, a) => JT c out a) k (fun c => 2 ^ c)); try lia.
  - intros l Hl. apply Z.ltb_lt, (pow_lt_n k n (fun _ _ _ => True)); auto; lia.
  - intros l Hl. apply (pow_next k n (fun _ _ _ => True)); auto; lia.
  - intros c [out b] Hc HJ. apply Hb; assumption.
  - exact Ha.
Qed.

Lemma down_tc (body : Z -> list shown * list itv -> res (list shown * list itv)) :
  (forall c out a, 0 <= c < k -> JT c out a ->
     tc (body (2 ^ (k - 1 - c)) (out, a)) (fun '(out, a) => JT (c + 1) out a)) ->
  JT 0 [] A ->
  tc (cfor (fuel n) (Z.shiftr n 1) (fun t => 0 <? t) (fun t => Z.shiftr t 1) body ([], A))
     (fun '(out, a) => JT k out a).
Proof.
  intros Hb Ha. assert (Hf := k_fuel).
  apply (cfor_tc (fun c '(out, a) => JT c out a) k (fun c => 2 ^ (k - 1 - c))); try lia.
  - replace (k - 1 - k) with (-1) by lia. reflexivity.
  - intros c Hc. rewrite halfpow. f_equal. lia.
  - intros c [out b] Hc HJ. apply Hb; assumption.
  - rewrite Hn, halfpow. f_equal. lia.
  - exact Ha.
Qed.

Lemma upd_tc (body : Z -> list shown * Z * list itv -> res (list shown * Z * list itv)) :
  (forall c out a, 0 <= c < k -> JT c out a ->
     tc (body (2 ^ c) (out, 2 ^ (k - c), a))
        (fun '(out, d, a) => d = 2 ^ (k - 1 - c) /\ JT (c + 1) out a)) ->
  JT 0 [] A ->
  tc (cfor (fuel n) 1 (fun t => t <? n) (fun t => u32 (t * 2)) body ([], n, A)) (fun '(out, _, a) => JT k out a).
Proof.
  intros Hb Ha. assert (Hf := k_fuel).
  apply tc_weak with (R := fun '(out, d, a) => d = 2 ^ (k - k) /\ JT k out a).
  2:{ intros [[out d] b] [_ H]. exact H. }
  apply (cfor_tc (fun c '(out, d, a) => d = 2 ^ (k - c) /\ JT c out a) k (fun c => 2 ^ c)); try lia.
  - intros l Hl. apply Z.ltb_lt, (pow_lt_n k n (fun _ _ _ => True)); auto; lia.
  - intros l Hl. apply (pow_next k n (fun _ _ _ => True)); auto; lia.
  - intros c [[out d] b] Hc [-> HJ]. replace (k - (c + 1)) with (k - 1 - c) by lia.
    apply Hb; assumption.
  - split; [|exact Ha]. rewrite Hn. f_equal. lia.
Qed.

(** What the run returns: [k + 1] displays, the first of the argument and the last of the
    result, all within [Bmax]. *)
Definition finished (r : list shown * list itv) : Prop :=
  let '(out, a) := r in
  ilen a = n /\ Z.of_nat (length out) = k + 1 /\ hd a (map fst out) = A
  /\ last (map fst out) [] = a /\ (rows Bmax out /\ quiet out)
  /\ (forall i, 0 <= i < n -> wb (W k) (ati a i)).

Lemma finish_tc out a : JT k out a ->
  tc (do sh <- show_intervals a n; Ok (out ++ [sh], a)) finished.
Proof.
  intros HJ. destruct (JT_show k out a ltac:(lia) HJ) as (sh & Es & H1 & H2 & H3 & H4 & H5).
  rewrite Es. cbn [bind]. apply tc_ok. destruct HJ as (HL & HP & _).
  split; [exact HL|]. split; [exact H1|]. split; [apply H5|].
  split; [rewrite map_app; cbn [map]; rewrite last_last; exact H3|]. split; assumption.
Qed.

Lemma JT_step c out sh a' : Z.of_nat (length (out ++ [sh])) = c + 1 ->
  (forall b, hd b (map fst (out ++ [sh])) = A) -> rows Bmax (out ++ [sh]) /\ quiet (out ++ [sh]) ->
  ilen a' = n -> (forall i, 0 <= i < n -> wb (W (c + 1)) (ati a' i)) ->
  JT (c + 1) (out ++ [sh]) a'.
Proof. intros H1 H2 H3 H4 H5. split; [exact H4|]. split; [exact H5|]. split; [exact H1|]. split; [apply H2|exact H3]. Qed.

End TRounds.

(** ** The eight transforms *)

Section Runs.
Variables (k n Bmax : Z) (W : Z -> Z) (p : list Z) (A : list itv).
Hypothesis Hk : 0 <= k <= 31.
Hypothesis Hn : n = 2 ^ k.
Hypothesis HpL : zlen p = n.
Hypothesis Hp : forall i, 0 < i < n -> at_ p i <> 0 /\ -6144 <= at_ p i <= 6144.
Hypothesis HAL : ilen A = n.
Hypothesis HA : forall i, 0 <= i < n -> wb (W 0) (ati A i).
Hypothesis HW : forall c, 0 <= c <= k -> 0 <= W c <= Bmax.
Hypothesis HBm : Bmax <= 4611686018427387904.

Definition ct_grows : Prop := forall c, 0 <= c < k ->
  5 * W c + 24572 <= 2 * W (c + 1) /\ 6144 * W c <= 4611686018427387904.
Definition gs_grows : Prop := forall c, 0 <= c < k ->
  3 * W c + 12286 <= W (c + 1) /\ 12288 * W c <= 4611686018427387904.

Ltac facts c :=
  assert (Hn31 := n_le k n (fun _ _ _ => True) Hk Hn);
  assert (0 < 2 ^ c) by (apply Z.pow_pos_nonneg; lia);
  assert (0 < 2 ^ (k - 1 - c)) by (apply Z.pow_pos_nonneg; lia);
  assert (Hsp := pow_split k n (fun _ _ _ => True) Hn c ltac:(lia)).

Lemma rd_const t j : 0 < t -> 0 <= j < t -> 2 * t <= n ->
  rd p (t + j) = Ok (at_ p (t + j)) /\ at_ p (t + j) <> 0 /\ -6144 <= at_ p (t + j) <= 6144.
Proof. intros. split; [apply rd_ok; lia|apply Hp; lia]. Qed.

Lemma fuels t m : 0 < t -> 0 < m -> n = 2 * t * m -> (Z.to_nat t < fuel n)%nat /\ (Z.to_nat m < fuel n)%nat
  /\ 2 * t <= n.
Proof. intros. unfold fuel. assert (t <= n /\ m <= n /\ 2 * t <= n) by nia. lia. Qed.

Lemma tot_ntt_red_ct_rev2std : ct_grows -> tc (abstract_ntt_red_ct_rev2std A n p) (finished k n Bmax W A).
Proof.
  intros HG. unfold abstract_ntt_red_ct_rev2std, ai_ntt_ct_rev2std.
  apply tc_bind with (T := fun '(out, a) => JT n Bmax W A k out a).
  2:{ intros [out b] HJ. apply finish_tc; assumption. }
  apply (up_tc k n Bmax W A Hk Hn HW); [|exact (JT_start n Bmax W A HAL HA)].
  intros c out b Hc HJ. facts c.
  destruct (JT_show k n Bmax W A Hk Hn HW c out b ltac:(lia) HJ) as (sh & Es & O1 & _ & _ & O2 & O3).
  rewrite Es. cbn [bind]. destruct HJ as (HLb & HPb & _). clear Es.
  destruct (HG c Hc) as [G1 G2]. assert (W0 := HW c ltac:(lia)). assert (W1 := HW (c + 1) ltac:(lia)).
  set (T := 2 ^ c) in *. set (M := 2 ^ (k - 1 - c)) in *. assert (H1 : 0 < T) by assumption. assert (H2 : 0 < M) by assumption.
  assert (Hsp' : n = 2 * T * M) by (rewrite Hsp; ring).
  destruct (fuels T M H1 H2 Hsp') as (F1 & F2 & F3).
  assert (posR := posA_range n T M (fun _ _ => True) (fun _ _ => True) H1 H2 Hsp' Hn31).
  assert (ST := t_stageA_plain n T M (fun _ => wb (W c)) (fun _ => wb (W (c + 1))) H1 H2 Hsp' Hn31 (rd p) (fun s => abfly0 s T) (fun w s => act_bfly red_scale w s T) (fuel n) (fuel n) (fuel n) b).
  cbv beta in ST.
  specialize (ST ltac:(intros x Hx; destruct (posR 0 x ltac:(lia) Hx) as [R1 R2];
    apply abfly0_tot; lia)).
  specialize (ST ltac:(intros j Hj; destruct (rd_const T j H1 ltac:(lia) F3) as (E & C1 & C2);
    exists (at_ p (T + j)); split; [exact E|]; intros x Hx;
    destruct (posR j x ltac:(lia) Hx) as [R1 R2]; apply act_tot; (assumption || lia))).
  specialize (ST F2 F1 F2 HLb HPb).
  destruct ST as (r & Er & HR).
  match type of Er with bind ?m _ = _ => destruct m as [b1|] eqn:E1 end; [|discriminate]. cbn [bind] in Er |- *.
  rewrite Er. cbn [bind]. revert r HR Er. intros r HR _. revert r HR. 
  intros b2 [HL2 HP2]. apply tc_ok. apply JT_step; assumption.
Qed.

Lemma tot_mulntt_red_ct_rev2std : ct_grows -> tc (abstract_mulntt_red_ct_rev2std A n p) (finished k n Bmax W A).
Proof.
  intros HG. unfold abstract_mulntt_red_ct_rev2std, ai_mulntt_ct_rev2std.
  apply tc_bind with (T := fun '(out, a) => JT n Bmax W A k out a).
  2:{ intros [out b] HJ. apply finish_tc; assumption. }
  apply (up_tc k n Bmax W A Hk Hn HW); [|exact (JT_start n Bmax W A HAL HA)].
  intros c out b Hc HJ. facts c.
  destruct (JT_show k n Bmax W A Hk Hn HW c out b ltac:(lia) HJ) as (sh & Es & O1 & _ & _ & O2 & O3).
  rewrite Es. cbn [bind]. destruct HJ as (HLb & HPb & _). clear Es.
  destruct (HG c Hc) as [G1 G2]. assert (W0 := HW c ltac:(lia)). assert (W1 := HW (c + 1) ltac:(lia)).
  set (T := 2 ^ c) in *. set (M := 2 ^ (k - 1 - c)) in *. assert (H1 : 0 < T) by assumption. assert (H2 : 0 < M) by assumption.
  assert (Hsp' : n = 2 * T * M) by (rewrite Hsp; ring).
  destruct (fuels T M H1 H2 Hsp') as (F1 & F2 & F3).
  assert (posR := posA_range n T M (fun _ _ => True) (fun _ _ => True) H1 H2 Hsp' Hn31).
  assert (ST := t_stageA_mul n T M (fun _ => wb (W c)) (fun _ => wb (W (c + 1))) H1 H2 Hsp' Hn31 (rd p) (fun w s => act_bfly red_scale w s T) (fuel n) (fuel n) b).
  cbv beta in ST.
  specialize (ST ltac:(intros j Hj; destruct (rd_const T j H1 ltac:(lia) F3) as (E & C1 & C2);
    exists (at_ p (T + j)); split; [exact E|]; intros x Hx;
    destruct (posR j x ltac:(lia) Hx) as [R1 R2]; apply act_tot; (assumption || lia))).
  specialize (ST F1 F2 HLb HPb).
  eapply tc_bind; [exact ST|].
  intros b2 [HL2 HP2]. apply tc_ok. apply JT_step; assumption.
Qed.

Lemma tot_ntt_red_ct_std2rev : ct_grows -> tc (abstract_ntt_red_ct_std2rev A n p) (finished k n Bmax W A).
Proof.
  intros HG. unfold abstract_ntt_red_ct_std2rev, ai_ntt_ct_std2rev.
  apply tc_bind with (T := fun '(out, _, a) => JT n Bmax W A k out a).
  2:{ intros [[out d] b] HJ. apply finish_tc; assumption. }
  apply (upd_tc k n Bmax W A Hk Hn HW); [|exact (JT_start n Bmax W A HAL HA)].
  intros c out b Hc HJ. facts c.
  destruct (JT_show k n Bmax W A Hk Hn HW c out b ltac:(lia) HJ) as (sh & Es & O1 & _ & _ & O2 & O3).
  rewrite Es. cbn [bind]. destruct HJ as (HLb & HPb & _). clear Es.
  cbv zeta. rewrite halfpow. replace (k - c - 1) with (k - 1 - c) by lia.
  destruct (HG c Hc) as [G1 G2]. assert (W0 := HW c ltac:(lia)). assert (W1 := HW (c + 1) ltac:(lia)).
  set (T := 2 ^ c) in *. set (M := 2 ^ (k - 1 - c)) in *. assert (H1 : 0 < T) by assumption. assert (H2 : 0 < M) by assumption.
  assert (Hsp' : n = 2 * T * M) by (rewrite Hsp; ring).
  destruct (fuels T M H1 H2 Hsp') as (F1 & F2 & F3).
  assert (posR := posB_range n T M (fun _ _ => True) (fun _ _ => True) H1 H2 Hsp' Hn31).
  assert (ST := t_stageB_plain_ct n T M (fun _ => wb (W c)) (fun _ => wb (W (c + 1))) H1 H2 Hsp' Hn31 (rd p) (fun s => abfly0 s M) (fun w s => act_bfly red_scale w s M) (fuel n) (fuel n) (fuel n) b).
  cbv beta in ST.
  specialize (ST ltac:(intros x Hx; destruct (posR 0 x ltac:(lia) Hx) as [R1 R2];
    apply abfly0_tot; lia)).
  specialize (ST ltac:(intros j Hj; destruct (rd_const T j H1 ltac:(lia) F3) as (E & C1 & C2);
    exists (at_ p (T + j)); split; [exact E|]; intros x Hx;
    destruct (posR j x ltac:(lia) Hx) as [R1 R2]; apply act_tot; (assumption || lia))).
  specialize (ST F2 F1 F2 HLb HPb).
  destruct ST as (r & Er & HR).
  match type of Er with bind ?m _ = _ => destruct m as [b1|] eqn:E1 end; [|discriminate]. cbn [bind] in Er |- *.
  rewrite Er. cbn [bind]. revert r HR Er. intros r HR _. revert r HR. 
  intros [u2 b2] [HL2 HP2]. apply tc_ok. split; [reflexivity|]. apply JT_step; assumption.
Qed.

Lemma tot_mulntt_red_ct_std2rev : ct_grows -> tc (abstract_mulntt_red_ct_std2rev A n p) (finished k n Bmax W A).
Proof.
  intros HG. unfold abstract_mulntt_red_ct_std2rev, ai_mulntt_ct_std2rev.
  apply tc_bind with (T := fun '(out, _, a) => JT n Bmax W A k out a).
  2:{ intros [[out d] b] HJ. apply finish_tc; assumption. }
  apply (upd_tc k n Bmax W A Hk Hn HW); [|exact (JT_start n Bmax W A HAL HA)].
  intros c out b Hc HJ. facts c.
  destruct (JT_show k n Bmax W A Hk Hn HW c out b ltac:(lia) HJ) as (sh & Es & O1 & _ & _ & O2 & O3).
  rewrite Es. cbn [bind]. destruct HJ as (HLb & HPb & _). clear Es.
  cbv zeta. rewrite halfpow. replace (k - c - 1) with (k - 1 - c) by lia.
  destruct (HG c Hc) as [G1 G2]. assert (W0 := HW c ltac:(lia)). assert (W1 := HW (c + 1) ltac:(lia)).
  set (T := 2 ^ c) in *. set (M := 2 ^ (k - 1 - c)) in *. assert (H1 : 0 < T) by assumption. assert (H2 : 0 < M) by assumption.
  assert (Hsp' : n = 2 * T * M) by (rewrite Hsp; ring).
  destruct (fuels T M H1 H2 Hsp') as (F1 & F2 & F3).
  assert (posR := posB_range n T M (fun _ _ => True) (fun _ _ => True) H1 H2 Hsp' Hn31).
  assert (ST := t_stageB_mul n T M (fun _ => wb (W c)) (fun _ => wb (W (c + 1))) H1 H2 Hsp' Hn31 (rd p) (fun w s => act_bfly red_scale w s M) (fuel n) (fuel n) b).
  cbv beta in ST.
  specialize (ST ltac:(intros j Hj; destruct (rd_const T j H1 ltac:(lia) F3) as (E & C1 & C2);
    exists (at_ p (T + j)); split; [exact E|]; intros x Hx;
    destruct (posR j x ltac:(lia) Hx) as [R1 R2]; apply act_tot; (assumption || lia))).
  specialize (ST F1 F2 HLb HPb).
  eapply tc_bind; [exact ST|].
  intros [u2 b2] [HL2 HP2]. apply tc_ok. split; [reflexivity|]. apply JT_step; assumption.
Qed.

Lemma tot_ntt_red_gs_std2rev : gs_grows -> tc (abstract_ntt_red_gs_std2rev A n p) (finished k n Bmax W A).
Proof.
  intros HG. unfold abstract_ntt_red_gs_std2rev, ai_ntt_gs_std2rev.
  apply tc_bind with (T := fun '(out, a) => JT n Bmax W A k out a).
  2:{ intros [out b] HJ. apply finish_tc; assumption. }
  apply (down_tc k n Bmax W A Hk Hn HW); [|exact (JT_start n Bmax W A HAL HA)].
  intros c out b Hc HJ. facts c.
  destruct (JT_show k n Bmax W A Hk Hn HW c out b ltac:(lia) HJ) as (sh & Es & O1 & _ & _ & O2 & O3).
  rewrite Es. cbn [bind]. destruct HJ as (HLb & HPb & _). clear Es.
  destruct (HG c Hc) as [G1 G2]. assert (W0 := HW c ltac:(lia)). assert (W1 := HW (c + 1) ltac:(lia)).
  set (T := 2 ^ (k - 1 - c)) in *. set (M := 2 ^ c) in *. assert (H1 : 0 < T) by assumption. assert (H2 : 0 < M) by assumption.
  assert (Hsp' : n = 2 * T * M) by (rewrite Hsp; ring).
  destruct (fuels T M H1 H2 Hsp') as (F1 & F2 & F3).
  assert (posR := posA_range n T M (fun _ _ => True) (fun _ _ => True) H1 H2 Hsp' Hn31).
  assert (ST := t_stageA_plain n T M (fun _ => wb (W c)) (fun _ => wb (W (c + 1))) H1 H2 Hsp' Hn31 (rd p) (fun s => abfly0 s T) (fun w s => ags_bfly red_scale w s T) (fuel n) (fuel n) (fuel n) b).
  cbv beta in ST.
  specialize (ST ltac:(intros x Hx; destruct (posR 0 x ltac:(lia) Hx) as [R1 R2];
    apply abfly0_tot; lia)).
  specialize (ST ltac:(intros j Hj; destruct (rd_const T j H1 ltac:(lia) F3) as (E & C1 & C2);
    exists (at_ p (T + j)); split; [exact E|]; intros x Hx;
    destruct (posR j x ltac:(lia) Hx) as [R1 R2]; apply ags_tot; (assumption || lia))).
  specialize (ST F2 F1 F2 HLb HPb).
  destruct ST as (r & Er & HR).
  match type of Er with bind ?m _ = _ => destruct m as [b1|] eqn:E1 end; [|discriminate]. cbn [bind] in Er |- *.
  rewrite Er. cbn [bind]. revert r HR Er. intros r HR _. revert r HR. 
  intros b2 [HL2 HP2]. apply tc_ok. apply JT_step; assumption.
Qed.

Lemma tot_nttmul_red_gs_std2rev : gs_grows -> tc (abstract_nttmul_red_gs_std2rev A n p) (finished k n Bmax W A).
Proof.
  intros HG. unfold abstract_nttmul_red_gs_std2rev, ai_nttmul_gs_std2rev.
  apply tc_bind with (T := fun '(out, a) => JT n Bmax W A k out a).
  2:{ intros [out b] HJ. apply finish_tc; assumption. }
  apply (down_tc k n Bmax W A Hk Hn HW); [|exact (JT_start n Bmax W A HAL HA)].
  intros c out b Hc HJ. facts c.
  destruct (JT_show k n Bmax W A Hk Hn HW c out b ltac:(lia) HJ) as (sh & Es & O1 & _ & _ & O2 & O3).
  rewrite Es. cbn [bind]. destruct HJ as (HLb & HPb & _). clear Es.
  destruct (HG c Hc) as [G1 G2]. assert (W0 := HW c ltac:(lia)). assert (W1 := HW (c + 1) ltac:(lia)).
  set (T := 2 ^ (k - 1 - c)) in *. set (M := 2 ^ c) in *. assert (H1 : 0 < T) by assumption. assert (H2 : 0 < M) by assumption.
  assert (Hsp' : n = 2 * T * M) by (rewrite Hsp; ring).
  destruct (fuels T M H1 H2 Hsp') as (F1 & F2 & F3).
  assert (posR := posA_range n T M (fun _ _ => True) (fun _ _ => True) H1 H2 Hsp' Hn31).
  assert (ST := t_stageA_mul n T M (fun _ => wb (W c)) (fun _ => wb (W (c + 1))) H1 H2 Hsp' Hn31 (rd p) (fun w s => ags_bfly red_scale w s T) (fuel n) (fuel n) b).
  cbv beta in ST.
  specialize (ST ltac:(intros j Hj; destruct (rd_const T j H1 ltac:(lia) F3) as (E & C1 & C2);
    exists (at_ p (T + j)); split; [exact E|]; intros x Hx;
    destruct (posR j x ltac:(lia) Hx) as [R1 R2]; apply ags_tot; (assumption || lia))).
  specialize (ST F1 F2 HLb HPb).
  eapply tc_bind; [exact ST|].
  intros b2 [HL2 HP2]. apply tc_ok. apply JT_step; assumption.
Qed.

Lemma tot_ntt_red_gs_rev2std : gs_grows -> tc (abstract_ntt_red_gs_rev2std A n p) (finished k n Bmax W A).
Proof.
  intros HG. unfold abstract_ntt_red_gs_rev2std, ai_ntt_gs_rev2std.
  apply tc_bind with (T := fun '(out, _, a) => JT n Bmax W A k out a).
  2:{ intros [[out d] b] HJ. apply finish_tc; assumption. }
  apply (upd_tc k n Bmax W A Hk Hn HW); [|exact (JT_start n Bmax W A HAL HA)].
  intros c out b Hc HJ. facts c.
  destruct (JT_show k n Bmax W A Hk Hn HW c out b ltac:(lia) HJ) as (sh & Es & O1 & _ & _ & O2 & O3).
  rewrite Es. cbn [bind]. destruct HJ as (HLb & HPb & _). clear Es.
  cbv zeta. rewrite halfpow. replace (k - c - 1) with (k - 1 - c) by lia.
  destruct (HG c Hc) as [G1 G2]. assert (W0 := HW c ltac:(lia)). assert (W1 := HW (c + 1) ltac:(lia)).
  set (T := 2 ^ (k - 1 - c)) in *. set (M := 2 ^ c) in *. assert (H1 : 0 < T) by assumption. assert (H2 : 0 < M) by assumption.
  assert (Hsp' : n = 2 * T * M) by (rewrite Hsp; ring).
  destruct (fuels T M H1 H2 Hsp') as (F1 & F2 & F3).
  assert (posR := posB_range n T M (fun _ _ => True) (fun _ _ => True) H1 H2 Hsp' Hn31).
  assert (ST := t_stageB_plain_gs n T M (fun _ => wb (W c)) (fun _ => wb (W (c + 1))) H1 H2 Hsp' Hn31 (rd p) (fun s => abfly0 s M) (fun w s => ags_bfly red_scale w s M) (fuel n) (fuel n) (fuel n) b).
  cbv beta in ST.
  specialize (ST ltac:(intros x Hx; destruct (posR 0 x ltac:(lia) Hx) as [R1 R2];
    apply abfly0_tot; lia)).
  specialize (ST ltac:(intros j Hj; destruct (rd_const T j H1 ltac:(lia) F3) as (E & C1 & C2);
    exists (at_ p (T + j)); split; [exact E|]; intros x Hx;
    destruct (posR j x ltac:(lia) Hx) as [R1 R2]; apply ags_tot; (assumption || lia))).
  specialize (ST F2 F1 F2 HLb HPb).
  destruct ST as (r & Er & HR).
  match type of Er with bind ?m _ = _ => destruct m as [b1|] eqn:E1 end; [|discriminate]. cbn [bind] in Er |- *.
  rewrite Er. cbn [bind]. revert r HR Er. intros r HR _. revert r HR. 
  intros [u2 b2] [HL2 HP2]. apply tc_ok. split; [reflexivity|]. apply JT_step; assumption.
Qed.

Lemma tot_nttmul_red_gs_rev2std : gs_grows -> tc (abstract_nttmul_red_gs_rev2std A n p) (finished k n Bmax W A).
Proof.
  intros HG. unfold abstract_nttmul_red_gs_rev2std, ai_nttmul_gs_rev2std.
  apply tc_bind with (T := fun '(out, _, a) => JT n Bmax W A k out a).
  2:{ intros [[out d] b] HJ. apply finish_tc; assumption. }
  apply (upd_tc k n Bmax W A Hk Hn HW); [|exact (JT_start n Bmax W A HAL HA)].
  intros c out b Hc HJ. facts c.
  destruct (JT_show k n Bmax W A Hk Hn HW c out b ltac:(lia) HJ) as (sh & Es & O1 & _ & _ & O2 & O3).
  rewrite Es. cbn [bind]. destruct HJ as (HLb & HPb & _). clear Es.
  cbv zeta. rewrite halfpow. replace (k - c - 1) with (k - 1 - c) by lia.
  destruct (HG c Hc) as [G1 G2]. assert (W0 := HW c ltac:(lia)). assert (W1 := HW (c + 1) ltac:(lia)).
  set (T := 2 ^ (k - 1 - c)) in *. set (M := 2 ^ c) in *. assert (H1 : 0 < T) by assumption. assert (H2 : 0 < M) by assumption.
  assert (Hsp' : n = 2 * T * M) by (rewrite Hsp; ring).
  destruct (fuels T M H1 H2 Hsp') as (F1 & F2 & F3).
  assert (posR := posB_range n T M (fun _ _ => True) (fun _ _ => True) H1 H2 Hsp' Hn31).
  assert (ST := t_stageB_mul n T M (fun _ => wb (W c)) (fun _ => wb (W (c + 1))) H1 H2 Hsp' Hn31 (rd p) (fun w s => ags_bfly red_scale w s M) (fuel n) (fuel n) b).
  cbv beta in ST.
  specialize (ST ltac:(intros j Hj; destruct (rd_const T j H1 ltac:(lia) F3) as (E & C1 & C2);
    exists (at_ p (T + j)); split; [exact E|]; intros x Hx;
    destruct (posR j x ltac:(lia) Hx) as [R1 R2]; apply ags_tot; (assumption || lia))).
  specialize (ST F1 F2 HLb HPb).
  eapply tc_bind; [exact ST|].
  intros [u2 b2] [HL2 HP2]. apply tc_ok. split; [reflexivity|]. apply JT_step; assumption.
Qed.

End Runs.
