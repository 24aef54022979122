(** Lemmas behind the last theorems of [PropHarness]: the programs of src/tests_in_paper with
    intervals of constants. *)

From Coq Require Import ZArith List Bool Lia.
From Verif Require Import CSem Spec SpecInterval Loops Stages RedElem BoundsElem ModelInterval IntervalElem
  IntervalLoops IntervalSound IntervalTotal IntervalRuns IntervalFinal RunsFinal PaperElem ModelHarness HarnessFinal.
From Verif Require ModelRed.
Import ListNotations.
Open Scope Z_scope.

(** ** The bounds after c rounds *)

Lemma W_pos c : 0 <= c -> 12288 <= Wct 12288 c.
Proof. intros Hc. apply Wct_pos; lia. Qed.

Lemma W_max c : 0 <= c <= 10 -> Wct 12288 c <= 200000000.
Proof.
  intros Hc. assert (M := Wct_mono 12288 c 10 ltac:(lia) Hc).
  assert (Wct 12288 10 <= 200000000) by (vm_compute; discriminate). lia.
Qed.

Lemma W_grows c : 0 <= c -> 5 * Wct 12288 c + 24572 <= 2 * Wct 12288 (c + 1).
Proof. intros Hc. rewrite Wct_succ by lia. lia. Qed.

Lemma redz_scaled6 C w v : -6144 <= w <= 6144 -> - C <= v <= C ->
  2 * - redz (w * v) <= 3 * C + 24572 /\ 2 * redz (w * v) <= 3 * C + 24572.
Proof.
  intros Hw Hv. assert (- (6144 * C) <= w * v <= 6144 * C) by nia. unfold redz. lia.
Qed.

(** ** The tracked values *)

Definition W6 : itv := (-6144, 6144).

(** The interval of the tracked element after c rounds. *)
Definition ch (c : Z) : itv := nth (Z.to_nat c)
  [(0, 12288); (-12288, 12288); (-42997, 30720); (-113637, 95214); (-290237, 265668); (-731737, 701022);
   (-1835487, 1798626); (-4594862, 4551855); (-11493298, 11444148); (-28739388, 28684095); (-71854613, 71793177)] (0, 0).

Lemma ten c : 1 <= c < 10 -> c = 1 \/ c = 2 \/ c = 3 \/ c = 4 \/ c = 5 \/ c = 6 \/ c = 7 \/ c = 8 \/ c = 9.
Proof. lia. Qed.

Lemma ch_next c : 1 <= c < 10 -> exists z, red_mul (ch c) W6 = Ok z
  /\ ch (c + 1) = (fst (ch c) - snd z, snd (ch c) - fst z).
Proof.
  intros Hc. destruct (ten c Hc) as [->|[->|[->|[->|[->|[->|[->|[->| ->]]]]]]]].
  - exists (-18432, 30709). split; [lazy; reflexivity|reflexivity].
  - exists (-64494, 70640). split; [lazy; reflexivity|reflexivity].
  - exists (-170454, 176600). split; [lazy; reflexivity|reflexivity].
  - exists (-435354, 441500). split; [lazy; reflexivity|reflexivity].
  - exists (-1097604, 1103750). split; [lazy; reflexivity|reflexivity].
  - exists (-2753229, 2759375). split; [lazy; reflexivity|reflexivity].
  - exists (-6892293, 6898436). split; [lazy; reflexivity|reflexivity].
  - exists (-17239947, 17246090). split; [lazy; reflexivity|reflexivity].
  - exists (-43109082, 43115225). split; [lazy; reflexivity|reflexivity].
Qed.

(** The table of constants. *)
Definition pw (i : Z) : Z :=
  if i =? 3 then -6143 else if i =? 7 then 6143 else if i =? 15 then 6140 else if i =? 31 then 6134
  else if i =? 63 then 6143 else if i =? 127 then 6143 else if i =? 255 then 6144 else if i =? 511 then 6144
  else if i =? 1023 then 6144 else 1.

(** The values of the input and of the tracked element after c rounds. *)
Definition va (key : Z) : Z := if key =? 0 then 0 else if key =? 3 then 2 else 12288.
Definition cv (c key : Z) : Z :=
  if c =? 0 then va key else if c =? 1 then (if key =? 3 then 12286 else -12288)
  else nth (Z.to_nat c) [0; 0; -42997; -119738; -310677; -788085; -1981124; -4960595; -12407632; -31019080; -77547700] 0.

Lemma cv_next c ky kx : 1 <= c < 10 -> (c = 1 -> ky <> 3 /\ kx = 3) ->
  cv (c + 1) kx = cv c ky - redz (pw (2 ^ (c + 1) - 1) * cv c kx).
Proof.
  intros Hc HK. destruct (ten c Hc) as [->|[->|[->|[->|[->|[->|[->|[->| ->]]]]]]]]; try reflexivity.
  destruct (HK eq_refl) as [K1 ->]. unfold cv. replace (ky =? 3) with false by lia. reflexivity.
Qed.

Lemma cv_first ky kx : (ky = 0 /\ kx <> 3 /\ kx <> 0) \/ (ky <> 0 /\ ky <> 3 /\ kx = 3) ->
  cv 1 kx = cv 0 ky - cv 0 kx.
Proof.
  unfold cv, va. cbn. intros [(-> & H1 & H2)|(H1 & H2 & ->)].
  - replace (kx =? 3) with false by lia. replace (kx =? 0) with false by lia. reflexivity.
  - replace (ky =? 0) with false by lia. replace (ky =? 3) with false by lia. reflexivity.
Qed.

Lemma pw_range i : pw i <> 0 /\ -6144 <= pw i <= 6144.
Proof. unfold pw. repeat match goal with |- context [if ?b then _ else _] => destruct b end; lia. Qed.

(** ** One butterfly *)

Section Track.
Variables (tr : Z -> Z -> Prop) (key : Z -> Z).

Definition Pa (c i : Z) (V : itv) : Prop :=
  wb (Wct 12288 c) V /\ 12288 <= snd V - fst V /\ (tr c i -> V = ch c).
Definition Pc (c i : Z) (V : itv) : Prop :=
  wb (Wct 12288 c) V /\ (tr c i -> V = (cv c (key i), cv c (key i))).

(** What is needed of a position. *)
Definition good (c j s h : Z) : Prop :=
  0 <= s /\ 0 < h /\ s + h < 1024 /\ ~ tr (c + 1) s
  /\ (tr (c + 1) (s + h) -> j = 2 ^ c - 1 /\ tr c s /\ tr c (s + h))
  /\ (c = 0 -> (key s = 0 /\ key (s + h) <> 3 /\ key (s + h) <> 0)
       \/ (key s <> 0 /\ key s <> 3 /\ key (s + h) = 3))
  /\ (c = 1 -> tr 2 (s + h) -> key s <> 3 /\ key (s + h) = 3).

Lemma pow_one c : 0 <= c -> 0 = 2 ^ c - 1 -> c = 0.
Proof.
  intros Hc H. destruct (Z.eq_dec c 0) as [|N]; [assumption|].
  assert (2 ^ 1 <= 2 ^ c) by (apply Z.pow_le_mono_r; lia). lia.
Qed.

Lemma pa_first c s h : 0 <= c < 10 -> good c 0 s h -> tbspec 1024 h (Pa c) (Pa (c + 1)) s (abfly0 s h).
Proof.
  intros Hc (G1 & G2 & G3 & G4 & G5 & _) a HL (Y1 & Y2 & Y3) (X1 & X2 & X3).
  assert (W1 := W_max c ltac:(lia)). assert (W2 := W_grows c ltac:(lia)). assert (W3 := W_pos c ltac:(lia)).
  rewrite (abfly0_run 1024 h s (Wct 12288 c)) by (assumption || lia). apply tc_ok. do 2 eexists. split; [reflexivity|].
  unfold wb in *. unfold Pa, wb. cbn [fst snd]. split.
  - split; [lia|]. split; [lia|]. intros H. elim (G4 H).
  - split; [lia|]. split; [lia|]. intros H. destruct (G5 H) as (H1 & H2 & H3). apply pow_one in H1; [|lia]. subst c.
    rewrite (Y3 H2), (X3 H3). reflexivity.
Qed.

Lemma pa_next c j s h : 0 <= c < 10 -> 0 < j -> good c j s h ->
  tbspec 1024 h (Pa c) (Pa (c + 1)) s (act_bfly (fun w x => red_mul x w) W6 s h).
Proof.
  intros Hc Hj (G1 & G2 & G3 & G4 & G5 & _) a HL (Y1 & Y2 & Y3) (X1 & X2 & X3).
  assert (W1 := W_max c ltac:(lia)). assert (W2 := W_grows c ltac:(lia)). assert (W3 := W_pos c ltac:(lia)).
  set (x := ati a (s + h)) in *. set (y := ati a s) in *.
  destruct (interval_red_mul_exact_L x W6 (Wct 12288 c)) as (z & Ez & _ & Z0 & Z1 & Z2 & _);
    try (unfold wb in X1; unfold proper, W6; cbn [fst snd];
         change (2 ^ 63) with 9223372036854775808; change (2 ^ 62) with 4611686018427387904;
         change (2 ^ 61) with 2305843009213693952; clear - X1 X2 W1 W3; lia).
  assert (B1 : - (3 * Wct 12288 c + 24572) <= 2 * fst z).
  { clear - Z1 X1 W3 Hc. destruct Z1 as [->|(u & v & Mu & Mv & <-)]; [lia|]. unfold member, W6, wb in *. cbn [fst snd] in Mv.
    assert (B := redz_scaled6 (Wct 12288 c) v u Mv ltac:(lia)). change (ln_red (u * v)) with (redz (u * v)).
    rewrite (Z.mul_comm u v). lia. }
  assert (B2 : 2 * snd z <= 3 * Wct 12288 c + 24572).
  { clear - Z2 X1 W3 Hc. destruct Z2 as [->|(u & v & Mu & Mv & <-)]; [lia|]. unfold member, W6, wb in *. cbn [fst snd] in Mv.
    assert (B := redz_scaled6 (Wct 12288 c) v u Mv ltac:(lia)). change (ln_red (u * v)) with (redz (u * v)).
    rewrite (Z.mul_comm u v). lia. }
  assert (Y1' : wb (3 * Wct 12288 c + 24572) y) by (clear - Y1 W3; unfold wb in *; lia).
  assert (X1' : wb (3 * Wct 12288 c + 24572) x) by (clear - X1 W3; unfold wb in *; lia).
  assert (Zw : wb (3 * Wct 12288 c + 24572) z) by (clear - B1 B2 Z0 W3; unfold wb; lia).
  rewrite (act_run (fun w x => red_mul x w) W6 1024 h s (3 * Wct 12288 c + 24572) a z) by (assumption || (clear - G1 G2 G3 W1; lia)).
  fold y. apply tc_ok. do 2 eexists. split; [reflexivity|].
  unfold wb in *. unfold Pa, wb. cbn [fst snd]. clear Zw X1' Y1'. split.
  - split; [lia|]. split; [lia|]. intros H. elim (G4 H).
  - split; [lia|]. split; [lia|]. intros H. destruct (G5 H) as (H1 & H2 & H3).
    assert (C1 : 1 <= c). { destruct (Z.eq_dec c 0) as [->|]; [cbn in H1; lia|lia]. }
    destruct (ch_next c ltac:(lia)) as (z' & Ez' & ->). rewrite (X3 H3) in Ez. rewrite Ez in Ez'. injection Ez' as <-.
    rewrite (Y3 H2). reflexivity.
Qed.

Lemma pc_first c s h : 0 <= c < 10 -> good c 0 s h -> tbspec 1024 h (Pc c) (Pc (c + 1)) s (abfly0 s h).
Proof.
  intros Hc (G1 & G2 & G3 & G4 & G5 & G6 & _) a HL (Y1 & Y3) (X1 & X3).
  assert (W1 := W_max c ltac:(lia)). assert (W2 := W_grows c ltac:(lia)). assert (W3 := W_pos c ltac:(lia)).
  rewrite (abfly0_run 1024 h s (Wct 12288 c)) by (assumption || lia). apply tc_ok. do 2 eexists. split; [reflexivity|].
  unfold wb in *. unfold Pc, wb. cbn [fst snd]. split.
  - split; [lia|]. intros H. elim (G4 H).
  - split; [lia|]. intros H. destruct (G5 H) as (H1 & H2 & H3). apply pow_one in H1; [|lia]. subst c.
    rewrite (Y3 H2), (X3 H3). cbn [fst snd]. change (0 + 1) with 1. rewrite (cv_first (key s) (key (s + h)) (G6 eq_refl)).
    reflexivity.
Qed.

Lemma pc_next c j s h : 0 <= c < 10 -> 0 < j -> good c j s h ->
  tbspec 1024 h (Pc c) (Pc (c + 1)) s (act_bfly red_scale (pw (2 ^ c + j)) s h).
Proof.
  intros Hc Hj (G1 & G2 & G3 & G4 & G5 & _ & G7) a HL (Y1 & Y3) (X1 & X3).
  assert (W1 := W_max c ltac:(lia)). assert (W2 := W_grows c ltac:(lia)). assert (W3 := W_pos c ltac:(lia)).
  set (x := ati a (s + h)) in *. set (y := ati a s) in *. set (w := pw (2 ^ c + j)) in *.
  destruct (pw_range (2 ^ c + j)) as [N Rw]. fold w in N, Rw.
  assert (MW : forall v, - Wct 12288 c <= v <= Wct 12288 c -> - (6144 * Wct 12288 c) <= w * v <= 6144 * Wct 12288 c)
    by (clear - Rw; intros; nia).
  destruct (red_scale_ok w x) as (u & v & Ez & Mu & Mv & HR); try (unfold wb in X1; clear - X1 N Rw; lia);
    try (unfold wb in X1; unfold sbnd; assert (M1 := MW (fst x)); assert (M2 := MW (snd x)); clear - X1 M1 M2 W1; lia).
  assert (Bu := redz_scaled6 (Wct 12288 c) w u Rw ltac:(clear - Mu X1; unfold mem, wb in *; lia)).
  assert (Bv := redz_scaled6 (Wct 12288 c) w v Rw ltac:(clear - Mv X1; unfold mem, wb in *; lia)).
  assert (Bo := HR u Mu).
  assert (Y1' : wb (3 * Wct 12288 c + 24572) y) by (clear - Y1 W3; unfold wb in *; lia).
  assert (X1' : wb (3 * Wct 12288 c + 24572) x) by (clear - X1 W3; unfold wb in *; lia).
  assert (Zw : wb (3 * Wct 12288 c + 24572) (redz (w * u), redz (w * v))).
  { clear - Bu Bv Bo W3. unfold wb. cbn [fst snd]. lia. }
  rewrite (act_run red_scale w 1024 h s (3 * Wct 12288 c + 24572) a _) by (eassumption || (clear - G1 G2 G3 W1; lia)).
  fold y. apply tc_ok. do 2 eexists. split; [reflexivity|].
  unfold wb in *. unfold Pc, wb. cbn [fst snd]. clear Zw X1' Y1' MW HR. split.
  - split; [lia|]. intros H. elim (G4 H).
  - split; [lia|]. intros H. destruct (G5 H) as (H1 & H2 & H3).
    assert (C1 : 1 <= c). { destruct (Z.eq_dec c 0) as [->|]; [cbn in H1; lia|lia]. }
    rewrite (cv_next c (key s) (key (s + h))); [|lia|].
    2:{ intros ->. apply G7; [reflexivity|exact H]. }
    rewrite (X3 H3) in Mu, Mv. unfold mem in Mu, Mv. cbn [fst snd] in Mu, Mv. rewrite (Y3 H2). cbn [fst snd].
    assert (Eu : u = cv c (key (s + h))) by lia. assert (Ev : v = cv c (key (s + h))) by lia. rewrite Eu, Ev.
    unfold w. replace (2 ^ c + j) with (2 ^ (c + 1) - 1) by (rewrite Z.pow_add_r by lia; lia). reflexivity.
Qed.

End Track.

(** ** Positions *)

Definition trA (c i : Z) : Prop := i mod 2 ^ c = 2 ^ c - 1.
Definition trB (c i : Z) : Prop := 1024 - 2 ^ (10 - c) <= i.
Definition keyA (i : Z) : Z := i mod 4.
Definition keyB (i : Z) : Z := i / 256.

Lemma goodA c j x : 0 <= c < 10 -> 0 <= j < 2 ^ c -> 0 <= x < 2 ^ (9 - c) -> good trA keyA c j (posA (2 ^ c) j x) (2 ^ c).
Proof.
  intros Hc Hj Hx. assert (T0 : 0 < 2 ^ c) by (apply Z.pow_pos_nonneg; lia).
  assert (HT : 1024 = 2 * 2 ^ c * 2 ^ (9 - c)).
  { change 1024 with (2 ^ 10). replace 10 with (1 + c + (9 - c)) at 1 by lia. rewrite !Z.pow_add_r by lia. reflexivity. }
  assert (HS : 2 ^ (c + 1) = 2 * 2 ^ c) by (rewrite Z.pow_add_r by lia; lia).
  assert (M1 : posA (2 ^ c) j x mod 2 ^ (c + 1) = j).
  { unfold posA. rewrite HS, Z_mod_plus_full. apply Z.mod_small. lia. }
  assert (M2 : (posA (2 ^ c) j x + 2 ^ c) mod 2 ^ (c + 1) = j + 2 ^ c).
  { unfold posA. rewrite HS. replace (j + x * (2 * 2 ^ c) + 2 ^ c) with (j + 2 ^ c + x * (2 * 2 ^ c)) by ring.
    rewrite Z_mod_plus_full. apply Z.mod_small. lia. }
  assert (M3 : posA (2 ^ c) j x mod 2 ^ c = j).
  { unfold posA. replace (x * (2 * 2 ^ c)) with (x * 2 * 2 ^ c) by ring. rewrite Z_mod_plus_full. apply Z.mod_small. lia. }
  assert (M4 : (posA (2 ^ c) j x + 2 ^ c) mod 2 ^ c = j).
  { unfold posA. replace (j + x * (2 * 2 ^ c) + 2 ^ c) with (j + (x * 2 + 1) * 2 ^ c) by ring.
    rewrite Z_mod_plus_full. apply Z.mod_small. lia. }
  unfold good, trA. rewrite M1, M2, M3, M4, HS. split; [unfold posA; nia|]. split; [lia|].
  split; [unfold posA; nia|]. split; [lia|]. split; [lia|]. split.
  - intros ->. unfold keyA, posA in *. change (2 ^ 0) with 1 in *. assert (j = 0) by lia. lia.
  - intros ->. change (1 + 1) with 2 in *. unfold keyA. change (2 ^ 2) with 4 in *. change (2 ^ 1) with 2 in *. lia.
Qed.

Lemma goodB c j x : 0 <= c < 10 -> 0 <= j < 2 ^ c -> 0 <= x < 2 ^ (9 - c) ->
  good trB keyB c j (posB (2 ^ (9 - c)) j x) (2 ^ (9 - c)).
Proof.
  intros Hc Hj Hx. assert (T0 : 0 < 2 ^ c) by (apply Z.pow_pos_nonneg; lia).
  assert (D0 : 0 < 2 ^ (9 - c)) by (apply Z.pow_pos_nonneg; lia).
  assert (HT : 1024 = 2 * 2 ^ (9 - c) * 2 ^ c).
  { change 1024 with (2 ^ 10). replace 10 with (1 + (9 - c) + c) at 1 by lia. rewrite !Z.pow_add_r by lia. reflexivity. }
  assert (HS : 2 ^ (10 - c) = 2 * 2 ^ (9 - c)) by (replace (10 - c) with (1 + (9 - c)) by lia; rewrite Z.pow_add_r by lia; reflexivity).
  assert (R : posB (2 ^ (9 - c)) j x + 2 ^ (9 - c) < 1024) by (unfold posB; nia).
  unfold good, trB. replace (10 - (c + 1)) with (9 - c) by lia. rewrite HS.
  split; [unfold posB; nia|]. split; [lia|]. split; [exact R|]. split; [lia|]. split.
  - intros H. assert (J : j = 2 ^ c - 1) by (unfold posB in H; clear HS R; nia). split; [exact J|].
    split; [|lia]. unfold posB in *. lia.
  - split.
    + intros ->. unfold keyB, posB in *. change (2 ^ 0) with 1 in *. change (2 ^ (9 - 0)) with 512 in *. assert (j = 0) by lia. subst j. lia.
    + intros ->. unfold keyB, posB in *. change (2 ^ 1) with 2 in *. change (2 ^ (9 - 1)) with 256 in *.
      change (2 ^ (10 - 2)) with 256. lia.
Qed.

(** ** The two programs and the two runs *)

Definition exPaperA : list itv := repeat (0, 12288) (Z.to_nat 1024).
Definition exPaperP : list itv := repeat (-6144, 6144) (Z.to_nat 1024).
Definition exPaperTable : list Z := map pw (map Z.of_nat (seq 0 1024)).
Definition exPaperInput (key : Z -> Z) : list Z := map (fun i => va (key i)) (map Z.of_nat (seq 0 1024)).
Definition points (a : list Z) : list itv := map (fun v => (v, v)) a.

Lemma map_at (f : Z -> Z) i : 0 <= i < 1024 -> at_ (map f (map Z.of_nat (seq 0 1024))) i = f i.
Proof.
  intros Hi. unfold at_. rewrite map_map. rewrite (nth_indep _ 0 (f (Z.of_nat 0))) by (rewrite map_length, seq_length; lia).
  rewrite (map_nth (fun x => f (Z.of_nat x))). rewrite seq_nth by lia. f_equal. lia.
Qed.

Lemma map_len (f : Z -> Z) : zlen (map f (map Z.of_nat (seq 0 1024))) = 1024.
Proof. unfold zlen. rewrite !map_length, seq_length. reflexivity. Qed.

Lemma repeat_ati (V : itv) i : 0 <= i < 1024 -> ati (repeat V (Z.to_nat 1024)) i = V.
Proof.
  intros Hi. unfold ati. assert (H : In (nth (Z.to_nat i) (repeat V (Z.to_nat 1024)) (0, 0)) (repeat V (Z.to_nat 1024))).
  { apply nth_In. rewrite repeat_length. lia. }
  apply repeat_spec in H. exact H.
Qed.

Lemma points_ati a i : 0 <= i < zlen a -> ati (points a) i = (at_ a i, at_ a i).
Proof.
  unfold ati, at_, points, zlen. intros Hi. rewrite (nth_indep _ (0, 0) ((fun v : Z => (v, v)) 0)) by (rewrite map_length; lia).
  rewrite (map_nth (fun v : Z => (v, v))). reflexivity.
Qed.

Lemma points_len a : ilen (points a) = zlen a.
Proof. unfold ilen, points, zlen. now rewrite map_length. Qed.

Lemma points_encloses a : encloses (points a) a.
Proof. unfold encloses, points. induction a; constructor; [unfold member; cbn; lia|assumption]. Qed.

Lemma encloses_at A a i : encloses A a -> 0 <= i < zlen a -> member (at_ a i) (ati A i).
Proof.
  unfold encloses, zlen, at_, ati. intros H. rewrite <- (Nat2Z.id (Z.to_nat i)). 
  intros Hi. assert (L : (Z.to_nat i < length a)%nat) by lia. rewrite !Nat2Z.id. clear Hi. revert L. generalize (Z.to_nat i).
  induction H as [|V x A a HV HF IH]; intros m Hm; [cbn in Hm; lia|].
  destruct m; [exact HV|]. cbn [nth]. apply IH. cbn in Hm. lia.
Qed.

Lemma encloses_len A a : encloses A a -> ilen A = zlen a.
Proof. unfold encloses, ilen, zlen. intros H. f_equal. induction H; cbn; congruence. Qed.

Lemma last_nth {X} (l : list X) d : last l d = nth (length l - 1) l d.
Proof.
  induction l as [|x [|y l] IH]; [reflexivity|reflexivity|].
  change (last (x :: y :: l) d) with (last (y :: l) d). rewrite IH. cbn [length]. replace (S (S (length l)) - 1)%nat with (S (S (length l) - 1)) by lia. reflexivity.
Qed.

Lemma Wb c : 0 <= c <= 10 -> 0 <= Wct 12288 c <= 200000000.
Proof. intros Hc. assert (H1 := W_pos c ltac:(lia)). assert (H2 := W_max c Hc). lia. Qed.

Lemma PA_len : ilen exPaperA = 1024.
Proof. unfold ilen, exPaperA. rewrite repeat_length. reflexivity. Qed.

Lemma rdi_P i : 0 <= i < 1024 -> rdi exPaperP i = Ok W6.
Proof.
  intros Hi. rewrite rdi_ok. { unfold exPaperP. rewrite repeat_ati by exact Hi. reflexivity. }
  unfold ilen, exPaperP. rewrite repeat_length. lia.
Qed.

Lemma rd_table i : 0 <= i < 1024 -> rd exPaperTable i = Ok (pw i).
Proof.
  intros Hi. unfold exPaperTable. rewrite rd_ok by (rewrite map_len; lia). rewrite map_at by lia. reflexivity.
Qed.

Lemma va_range c : 0 <= va c <= 12288.
Proof. unfold va. destruct (c =? 0), (c =? 3); lia. Qed.

Section Start.
Variables (tr : Z -> Z -> Prop) (key : Z -> Z).

Lemma start_a i : 0 <= i < 1024 -> Pa tr 0 i (ati exPaperA i).
Proof.
  intros Hi. unfold exPaperA. rewrite repeat_ati by exact Hi. unfold Pa, wb. change (Wct 12288 0) with 12288.
  cbn [fst snd]. split; [lia|]. split; [lia|]. reflexivity.
Qed.

Lemma start_c i : 0 <= i < 1024 -> Pc tr key 0 i (ati (points (exPaperInput key)) i).
Proof.
  intros Hi. unfold exPaperInput. rewrite points_ati by (rewrite map_len; lia).
  rewrite (map_at (fun i => va (key i))) by exact Hi. unfold Pc, wb. change (Wct 12288 0) with 12288. assert (V := va_range (key i)).
  cbn [fst snd]. split; [lia|]. reflexivity.
Qed.
End Start.

Lemma pw_lt c j : 0 <= c < 10 -> 0 < j < 2 ^ c -> 0 <= 2 ^ c + j < 1024.
Proof.
  intros Hc Hj. assert (2 ^ c * 2 ^ (10 - c) = 1024) by (rewrite <- Z.pow_add_r by lia; replace (c + (10 - c)) with 10 by lia; reflexivity).
  assert (2 ^ 1 <= 2 ^ (10 - c)) by (apply Z.pow_le_mono_r; lia). change (2 ^ 1) with 2 in *. nia.
Qed.

Definition ran (tr : Z -> Z -> Prop) (P : Z -> Z -> itv -> Prop) (A : list itv) (r : list shown * list itv) : Prop :=
  finished 10 (2 ^ 10) 200000000 (Wct 12288) A r /\ forall i, 0 <= i < 1024 -> P 10 i (ati (snd r) i).

Lemma run_aA : tc (abstract2_ntt_red_ct_rev2std exPaperA (2 ^ 10) exPaperP) (ran trA (Pa trA) exPaperA).
Proof.
  apply (pos_rev2std (fun w x => red_mul x w) (rdi exPaperP) 10 1024 200000000 (Wct 12288) exPaperA (Pa trA));
    [lia|reflexivity|exact Wb|intros c i V _ _ HP; apply HP|exact PA_len|exact (start_a trA keyA)| |].
  - intros c j x Hc -> Hx. replace (10 - 1 - c) with (9 - c) in Hx by lia. apply pa_first with (key := keyA); [exact Hc|].
    apply goodA; [exact Hc| |exact Hx]. split; [lia|apply Z.pow_pos_nonneg; lia].
  - intros c j Hc Hj. exists W6. split; [apply rdi_P, pw_lt; assumption|]. intros x Hx.
    replace (10 - 1 - c) with (9 - c) in Hx by lia. apply pa_next with (key := keyA) (j := j); [exact Hc|lia|].
    apply goodA; [exact Hc|lia|exact Hx].
Qed.

Lemma run_aB : tc (abstract2_ntt_red_ct_std2rev exPaperA (2 ^ 10) exPaperP) (ran trB (Pa trB) exPaperA).
Proof.
  apply (pos_std2rev (fun w x => red_mul x w) (rdi exPaperP) 10 1024 200000000 (Wct 12288) exPaperA (Pa trB));
    [lia|reflexivity|exact Wb|intros c i V _ _ HP; apply HP|exact PA_len|exact (start_a trB keyB)| |].
  - intros c j x Hc -> Hx. replace (10 - 1 - c) with (9 - c) in Hx |- * by lia. apply pa_first with (key := keyB); [exact Hc|].
    apply goodB; [exact Hc| |exact Hx]. split; [lia|apply Z.pow_pos_nonneg; lia].
  - intros c j Hc Hj. exists W6. split; [apply rdi_P, pw_lt; assumption|]. intros x Hx.
    replace (10 - 1 - c) with (9 - c) in Hx |- * by lia. apply pa_next with (key := keyB) (j := j); [exact Hc|lia|].
    apply goodB; [exact Hc|lia|exact Hx].
Qed.

Lemma run_cA : tc (abstract_ntt_red_ct_rev2std (points (exPaperInput keyA)) (2 ^ 10) exPaperTable)
  (ran trA (Pc trA keyA) (points (exPaperInput keyA))).
Proof.
  apply (pos_rev2std red_scale (rd exPaperTable) 10 1024 200000000 (Wct 12288) (points (exPaperInput keyA)) (Pc trA keyA));
    [lia|reflexivity|exact Wb|intros c i V _ _ HP; apply HP|rewrite points_len; apply map_len|exact (start_c trA keyA)| |].
  - intros c j x Hc -> Hx. replace (10 - 1 - c) with (9 - c) in Hx by lia. apply pc_first; [exact Hc|].
    apply goodA; [exact Hc| |exact Hx]. split; [lia|apply Z.pow_pos_nonneg; lia].
  - intros c j Hc Hj. exists (pw (2 ^ c + j)). split; [apply rd_table, pw_lt; assumption|]. intros x Hx.
    replace (10 - 1 - c) with (9 - c) in Hx by lia. apply pc_next; [exact Hc|lia|].
    apply goodA; [exact Hc|lia|exact Hx].
Qed.

Lemma run_cB : tc (abstract_ntt_red_ct_std2rev (points (exPaperInput keyB)) (2 ^ 10) exPaperTable)
  (ran trB (Pc trB keyB) (points (exPaperInput keyB))).
Proof.
  apply (pos_std2rev red_scale (rd exPaperTable) 10 1024 200000000 (Wct 12288) (points (exPaperInput keyB)) (Pc trB keyB));
    [lia|reflexivity|exact Wb|intros c i V _ _ HP; apply HP|rewrite points_len; apply map_len|exact (start_c trB keyB)| |].
  - intros c j x Hc -> Hx. replace (10 - 1 - c) with (9 - c) in Hx |- * by lia. apply pc_first; [exact Hc|].
    apply goodB; [exact Hc| |exact Hx]. split; [lia|apply Z.pow_pos_nonneg; lia].
  - intros c j Hc Hj. exists (pw (2 ^ c + j)). split; [apply rd_table, pw_lt; assumption|]. intros x Hx.
    replace (10 - 1 - c) with (9 - c) in Hx |- * by lia. apply pc_next; [exact Hc|lia|].
    apply goodB; [exact Hc|lia|exact Hx].
Qed.

Lemma table_facts : zlen exPaperTable = 2 ^ 10 /\ all_in (-6144) 6144 exPaperTable /\ Forall (fun w => w <> 0) (tl exPaperTable).
Proof.
  split; [apply map_len|]. split.
  - intros v Hv. unfold exPaperTable in Hv. apply in_map_iff in Hv. destruct Hv as (i & <- & _). apply pw_range.
  - apply Forall_forall. intros v Hv. assert (H : In v exPaperTable) by (destruct exPaperTable; [exact Hv|right; exact Hv]).
    unfold exPaperTable in H. apply in_map_iff in H. destruct H as (i & <- & _). apply pw_range.
Qed.

Lemma paper_refuted_at (tr : Z -> Z -> Prop) (key : Z -> Z) main f2 f g :
  main = paper2 f2 -> tr 10 1023 ->
  tc (f2 exPaperA (2 ^ 10) exPaperP) (ran tr (Pa tr) exPaperA) ->
  tc (f (points (exPaperInput key)) (2 ^ 10) exPaperTable) (ran tr (Pc tr key) (points (exPaperInput key))) ->
  (forall k b A p, 0 <= k <= 31 -> 0 <= b -> 5 ^ k * (b + 8191) <= 2 ^ k * 2147479553 ->
     zlen p = 2 ^ k -> all_in (-6144) 6144 p -> Forall (fun w => w <> 0) (tl p) ->
     Z.of_nat (length A) = 2 ^ k -> Forall (fun V => - b <= fst V /\ fst V <= snd V /\ snd V <= b) A ->
     exists out A', f A (2 ^ k) p = Ok (out, A') /\ no_warning out /\ printed_within 2147471362 out
       /\ forall a, encloses A a -> exists r, g a (2 ^ k) p = Ok r /\ encloses A' r) ->
  exists out A' a p r, main = Ok (out, A') /\ length out = 11%nat /\ no_warning out
    /\ last A' (0, 0) = (-71854613, 71793177)
    /\ zlen a = 1024 /\ all_in 0 12288 a /\ zlen p = 1024 /\ all_in (-6144) 6144 p
    /\ g a 1024 p = Ok r /\ last r 0 = -77547700 /\ ~ encloses A' r.
Proof.
  intros -> H10 TA TC HG.
  assert (RA := run_of 10 _ _ _ _ ltac:(destruct TA as (r & E & H & _); exists r; split; [exact E|exact H])).
  destruct RA as (out & A' & EA & _ & NW & LA & LO & _). specialize (NW ltac:(lia)).
  destruct TA as (r0 & E0 & _ & PA). rewrite EA in E0. injection E0 as <-. cbn [snd] in PA.
  destruct table_facts as (T1 & T2 & T3).
  assert (LI : zlen (exPaperInput key) = 1024) by apply map_len.
  assert (II : all_in 0 12288 (exPaperInput key)).
  { intros v Hv. unfold exPaperInput in Hv. apply in_map_iff in Hv. destruct Hv as (i & <- & _). apply va_range. }
  destruct (HG 10 12288 (points (exPaperInput key)) exPaperTable) as (out2 & A2 & EC & _ & _ & HC);
    [lia|lia| |exact T1|exact T2|exact T3| | |].
  { change (5 ^ 10) with 9765625. change (2 ^ 10) with 1024. lia. }
  { exact (eq_trans (points_len _) LI). }
  { apply Forall_forall. intros V HV. unfold points in HV. apply in_map_iff in HV. destruct HV as (v & <- & Hv).
    specialize (II v Hv). cbn [fst snd]. lia. }
  destruct TC as (r2 & E2 & HF & PC). rewrite EC in E2. injection E2 as <-. cbn [snd] in PC. destruct HF as [LA2 _].
  destruct (HC (exPaperInput key) (points_encloses _)) as (r & Er & HE).
  assert (L2 := encloses_len _ _ HE).
  assert (VA : ati A' 1023 = (-71854613, 71793177)) by (apply (PA 1023); [lia|exact H10]).
  assert (VC : ati A2 1023 = (-77547700, -77547700)) by (apply (PC 1023); [lia|exact H10]).
  assert (LR : zlen r = 1024) by (rewrite <- L2; exact LA2).
  exists out, A', (exPaperInput key), exPaperTable, r. unfold paper2, Q. rewrite fill_ok by lia. cbn [bind].
  change (Z.quot (- (12289 - 1)) 2) with (-6144). change (Z.quot (12289 - 1) 2) with 6144.
  rewrite fill_ok by lia. cbn [bind]. change (12289 - 1) with 12288.
  assert (RV : at_ r 1023 = -77547700).
  { assert (M := encloses_at _ _ 1023 HE ltac:(lia)). rewrite VC in M. unfold member in M. cbn [fst snd] in M. lia. }
  split; [exact EA|]. split; [clear - LO; unfold shown, itv in *; lia|]. split; [exact NW|]. split.
  { rewrite last_nth. replace (length A' - 1)%nat with (Z.to_nat 1023) by (unfold itv in *; change (2 ^ 10) with 1024 in LA; lia). exact VA. }
  split; [exact LI|]. split; [exact II|]. split; [exact T1|]. split; [exact T2|]. split; [exact Er|]. split.
  { rewrite last_nth. replace (length r - 1)%nat with (Z.to_nat 1023) by (unfold zlen in LR; lia). exact RV. }
  intros HX. assert (M := encloses_at _ _ 1023 HX ltac:(lia)). rewrite VA, RV in M. unfold member in M. cbn [fst snd] in M. lia.
Qed.

Lemma paper_interval_tests_refuted_L :
  forall main g, In (main, g)
    [(test_ntt_red1024c, ModelRed.ntt_red_ct_std2rev); (test_ntt_red1024d, ModelRed.ntt_red_ct_rev2std)] ->
  exists out A' a p r, main = Ok (out, A') /\ length out = 11%nat /\ no_warning out
    /\ last A' (0, 0) = (-71854613, 71793177)
    /\ zlen a = 1024 /\ all_in 0 12288 a /\ zlen p = 1024 /\ all_in (-6144) 6144 p
    /\ g a 1024 p = Ok r /\ last r 0 = -77547700 /\ ~ encloses A' r.
Proof.
  intros main g Hin. destruct Hin as [H|[H|[]]]; apply pair_equal_spec in H; destruct H as [<- <-].
  - apply (paper_refuted_at trB keyB test_ntt_red1024c abstract2_ntt_red_ct_std2rev abstract_ntt_red_ct_std2rev ModelRed.ntt_red_ct_std2rev);
      [reflexivity|unfold trB; change (2 ^ (10 - 10)) with 1; lia|exact run_aB|exact run_cB|].
    apply (abstract_ct_run_L abstract_ntt_red_ct_std2rev ModelRed.ntt_red_ct_std2rev). right; right; left; reflexivity.
  - apply (paper_refuted_at trA keyA test_ntt_red1024d abstract2_ntt_red_ct_rev2std abstract_ntt_red_ct_rev2std ModelRed.ntt_red_ct_rev2std);
      [reflexivity|reflexivity|exact run_aA|exact run_cA|].
    apply (abstract_ct_run_L abstract_ntt_red_ct_rev2std ModelRed.ntt_red_ct_rev2std). left; reflexivity.
Qed.
