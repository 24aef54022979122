(** Runs of the abstract Cooley-Tukey transforms with a predicate on each position: the
    lemmas behind the programs of src/tests_in_paper that use intervals of constants. *)

From Coq Require Import ZArith List Bool Lia.
From Verif Require Import CSem Spec Loops Stages OuterLoops RedElem NttElem NaiveElem BoundsElem BoundsRound
  ModelInterval IntervalElem IntervalLoops IntervalSound IntervalTotal IntervalRuns RunsFinal.
Import ListNotations.
Open Scope Z_scope.

(** ** Butterflies *)

Lemma abfly0_run n h s B a : n <= 2147483648 -> 0 <= s -> 0 < h -> s + h < n -> B <= 2305843009213693951 ->
  ilen a = n -> wb B (ati a s) -> wb B (ati a (s + h)) ->
  let y := ati a s in let x := ati a (s + h) in
  abfly0 s h a = Ok (iset (iset a (s + h) (fst y - snd x, snd y - fst x)) s (fst y + fst x, snd y + snd x)).
Proof.
  intros Hn Hs Hh Hsh HB HL Y X y x. unfold abfly0. rewrite (pair_idx n s h) by lia.
  rewrite rdi_ok by lia. cbn [bind]. rewrite rdi_ok by lia. cbn [bind]. fold x y in X, Y |- *.
  assert (WX := wb_wfi 0 0 _ _ X ltac:(lia)). assert (WY := wb_wfi 0 0 _ _ Y ltac:(lia)). unfold wb in X, Y.
  rewrite sub_ok by (try assumption; unfold i64r; lia). cbn [bind].
  rewrite wri_ok by lia. cbn [bind].
  rewrite add_ok by (try assumption; unfold i64r; lia). cbn [bind].
  rewrite wri_ok by (rewrite iset_len; lia). reflexivity.
Qed.

Lemma act_run {W} (scale : W -> itv -> res itv) w n h s B a z : n <= 2147483648 -> 0 <= s -> 0 < h -> s + h < n ->
  B <= 2305843009213693951 -> ilen a = n -> wb B (ati a s) -> wb B (ati a (s + h)) ->
  scale w (ati a (s + h)) = Ok z -> wb B z ->
  let y := ati a s in
  act_bfly scale w s h a = Ok (iset (iset a (s + h) (fst y - snd z, snd y - fst z)) s (fst y + fst z, snd y + snd z)).
Proof.
  intros Hn Hs Hh Hsh HB HL Y X E Z y. unfold act_bfly. rewrite (pair_idx n s h) by lia.
  rewrite rdi_ok by lia. cbn [bind]. rewrite rdi_ok by lia. cbn [bind]. fold y in Y |- *. rewrite E. cbn [bind].
  assert (WZ := wb_wfi 0 0 _ _ Z ltac:(lia)). assert (WY := wb_wfi 0 0 _ _ Y ltac:(lia)). unfold wb in Z, Y.
  rewrite sub_ok by (try assumption; unfold i64r; lia). cbn [bind].
  rewrite wri_ok by lia. cbn [bind].
  rewrite add_ok by (try assumption; unfold i64r; lia). cbn [bind].
  rewrite wri_ok by (rewrite iset_len; lia). reflexivity.
Qed.

(** ** Runs *)

Section Pos.
Context {C : Type} (scale : C -> itv -> res itv) (rdw : Z -> res C).
Variables (k n Bmax : Z) (W : Z -> Z) (A : list itv) (P : Z -> Z -> itv -> Prop).
Hypothesis Hk : 0 <= k <= 31.
Hypothesis Hn : n = 2 ^ k.
Hypothesis HW : forall c, 0 <= c <= k -> 0 <= W c <= Bmax.
Hypothesis HPW : forall c i V, 0 <= c <= k -> 0 <= i < n -> P c i V -> wb (W c) V.
Hypothesis HAL : ilen A = n.
Hypothesis HA : forall i, 0 <= i < n -> P 0 i (ati A i).

Let JP (c : Z) (out : list shown) (a : list itv) : Prop :=
  JT n Bmax W A c out a /\ forall i, 0 <= i < n -> P c i (ati a i).

Let JP_start : JP 0 [] A.
Proof.
  split; [|exact HA]. apply (JT_start n Bmax W A HAL). intros i Hi. apply (HPW 0 i); try lia. apply HA, Hi.
Qed.

Let JP_step c out sh a' : 0 <= c < k -> Z.of_nat (length (out ++ [sh])) = c + 1 ->
  (forall b, hd b (map fst (out ++ [sh])) = A) ->
  rows Bmax (out ++ [sh]) /\ quiet Bmax W (out ++ [sh]) ->
  ilen a' = n -> (forall i, 0 <= i < n -> P (c + 1) i (ati a' i)) -> JP (c + 1) (out ++ [sh]) a'.
Proof.
  intros Hc H1 H2 H3 H4 H5. split; [|exact H5]. apply JT_step; try assumption.
  intros i Hi. apply (HPW (c + 1) i); try lia. apply H5, Hi.
Qed.

Let split_facts c : 0 <= c < k -> n <= 2147483648 /\ 0 < 2 ^ c /\ 0 < 2 ^ (k - 1 - c) /\ n = 2 * 2 ^ c * 2 ^ (k - 1 - c)
  /\ (Z.to_nat (2 ^ c) < fuel n)%nat /\ (Z.to_nat (2 ^ (k - 1 - c)) < fuel n)%nat /\ 2 * 2 ^ c <= n.
Proof.
  intros Hc. assert (Hn31 := n_le k n (fun _ _ _ => True) Hk Hn).
  assert (H1 : 0 < 2 ^ c) by (apply Z.pow_pos_nonneg; lia).
  assert (H2 : 0 < 2 ^ (k - 1 - c)) by (apply Z.pow_pos_nonneg; lia).
  assert (Hsp := pow_split k n (fun _ _ _ => True) Hn c ltac:(lia)).
  assert (Hsp' : n = 2 * 2 ^ c * 2 ^ (k - 1 - c)) by (rewrite Hsp; ring).
  clear - Hn31 H1 H2 Hsp'. unfold fuel. set (t := 2 ^ c) in *. set (m := 2 ^ (k - 1 - c)) in *. clearbody t m.
  assert (t <= n /\ m <= n /\ 2 * t <= n) by nia. lia.
Qed.

Lemma pos_rev2std :
  (forall c j x, 0 <= c < k -> j = 0 -> 0 <= x < 2 ^ (k - 1 - c) ->
     tbspec n (2 ^ c) (P c) (P (c + 1)) (posA (2 ^ c) j x) (abfly0 (posA (2 ^ c) j x) (2 ^ c))) ->
  (forall c j, 0 <= c < k -> 0 < j < 2 ^ c -> exists w, rdw (2 ^ c + j) = Ok w /\ forall x, 0 <= x < 2 ^ (k - 1 - c) ->
     tbspec n (2 ^ c) (P c) (P (c + 1)) (posA (2 ^ c) j x) (act_bfly scale w (posA (2 ^ c) j x) (2 ^ c))) ->
  tc (ai_ntt_ct_rev2std scale rdw A n)
     (fun r => finished k n Bmax W A r /\ forall i, 0 <= i < n -> P k i (ati (snd r) i)).
Proof.
  intros H0 HM. unfold ai_ntt_ct_rev2std. assert (Hf := k_fuel k n Bmax W Hk Hn HW).
  apply tc_bind with (T := fun '(out, a) => JP k out a).
  2:{ intros [out b] [HJ HP]. destruct (finish_tc k n Bmax W A Hk Hn HW out b HJ) as (r & E & HF).
      exists r. split; [exact E|]. split; [exact HF|]. destruct (show_intervals b n); [|discriminate].
      cbn [bind] in E. injection E as <-. exact HP. }
  apply (cfor_tc (fun c '(out, a) => JP c out a) k (fun c => 2 ^ c)); try lia.
  - intros l Hl. apply Z.ltb_lt, (pow_lt_n k n (fun _ _ _ => True)); auto; lia.
  - intros l Hl. apply (pow_next k n (fun _ _ _ => True)); auto; lia.
  - intros c [out b] Hc [HJ HPb].
    destruct (JT_show k n Bmax W A Hk Hn HW c out b ltac:(lia) HJ) as (sh & Es & O1 & _ & _ & O2 & O3).
    rewrite Es. cbn [bind]. assert (HLb := proj1 HJ). clear Es HJ.
    destruct (split_facts c Hc) as (Hn31 & T0 & M0 & Hsp & F1 & F2 & F3).
    destruct (t_stageA_plain n (2 ^ c) (2 ^ (k - 1 - c)) (P c) (P (c + 1)) T0 M0 Hsp Hn31 rdw (fun s => abfly0 s (2 ^ c))
      (fun w s => act_bfly scale w s (2 ^ c)) (fuel n) (fuel n) (fuel n) b) as (r & Er & HLr & HPr); try assumption.
    + intros x Hx. apply H0; auto.
    + intros j Hj. apply HM; assumption.
    + match type of Er with bind ?m _ = _ => destruct m as [b1|] eqn:E1 end; [|discriminate]. cbn [bind] in Er |- *.
      rewrite Er. cbn [bind]. apply tc_ok. apply JP_step; assumption.
  - exact JP_start.
Qed.

Lemma pos_std2rev :
  (forall c j x, 0 <= c < k -> j = 0 -> 0 <= x < 2 ^ (k - 1 - c) ->
     tbspec n (2 ^ (k - 1 - c)) (P c) (P (c + 1)) (posB (2 ^ (k - 1 - c)) j x)
       (abfly0 (posB (2 ^ (k - 1 - c)) j x) (2 ^ (k - 1 - c)))) ->
  (forall c j, 0 <= c < k -> 0 < j < 2 ^ c -> exists w, rdw (2 ^ c + j) = Ok w /\ forall x, 0 <= x < 2 ^ (k - 1 - c) ->
     tbspec n (2 ^ (k - 1 - c)) (P c) (P (c + 1)) (posB (2 ^ (k - 1 - c)) j x)
       (act_bfly scale w (posB (2 ^ (k - 1 - c)) j x) (2 ^ (k - 1 - c)))) ->
  tc (ai_ntt_ct_std2rev scale rdw A n)
     (fun r => finished k n Bmax W A r /\ forall i, 0 <= i < n -> P k i (ati (snd r) i)).
Proof.
  intros H0 HM. unfold ai_ntt_ct_std2rev. assert (Hf := k_fuel k n Bmax W Hk Hn HW).
  apply tc_bind with (T := fun '(out, d, a) => d = 2 ^ (k - k) /\ JP k out a).
  2:{ intros [[out d] b] [_ [HJ HP]]. destruct (finish_tc k n Bmax W A Hk Hn HW out b HJ) as (r & E & HF).
      exists r. split; [exact E|]. split; [exact HF|]. destruct (show_intervals b n); [|discriminate].
      cbn [bind] in E. injection E as <-. exact HP. }
  apply (cfor_tc (fun c '(out, d, a) => d = 2 ^ (k - c) /\ JP c out a) k (fun c => 2 ^ c)); try lia.
  - intros l Hl. apply Z.ltb_lt, (pow_lt_n k n (fun _ _ _ => True)); auto; lia.
  - intros l Hl. apply (pow_next k n (fun _ _ _ => True)); auto; lia.
  - intros c [[out d] b] Hc [-> [HJ HPb]].
    destruct (JT_show k n Bmax W A Hk Hn HW c out b ltac:(lia) HJ) as (sh & Es & O1 & _ & _ & O2 & O3).
    rewrite Es. cbn [bind]. assert (HLb := proj1 HJ). clear Es HJ. cbv zeta. rewrite halfpow.
    replace (k - c - 1) with (k - 1 - c) by lia. replace (k - (c + 1)) with (k - 1 - c) by lia.
    destruct (split_facts c Hc) as (Hn31 & T0 & M0 & Hsp & F1 & F2 & F3).
    destruct (t_stageB_plain_ct n (2 ^ c) (2 ^ (k - 1 - c)) (P c) (P (c + 1)) T0 M0 Hsp Hn31 rdw (fun s => abfly0 s (2 ^ (k - 1 - c)))
      (fun w s => act_bfly scale w s (2 ^ (k - 1 - c))) (fuel n) (fuel n) (fuel n) b) as ([u r] & Er & HLr & HPr); try assumption.
    + intros x Hx. apply H0; auto.
    + intros j Hj. apply HM; assumption.
    + match type of Er with bind ?m _ = _ => destruct m as [b1|] eqn:E1 end; [|discriminate]. cbn [bind] in Er |- *.
      rewrite Er. cbn [bind]. apply tc_ok. split; [reflexivity|]. apply JP_step; assumption.
  - split; [rewrite Hn; f_equal; lia|exact JP_start].
Qed.

End Pos.
