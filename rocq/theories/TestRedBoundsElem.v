(** The functions of src/test_red_bounds.c. *)

From Coq Require Import ZArith List Bool Lia.
From Verif Require Import CSem Spec Loops ModQ ModelBounds ModelTestRedBounds RedElem BoundsElem BoundsRound SpecRedBounds.
Import ListNotations.
Open Scope Z_scope.

Lemma bind_Ok {A B} (x : A) (f : A -> res B) : bind (Ok x) f = f x.
Proof. reflexivity. Qed.

(** ** red(w*x) for w in [0, 12288] *)

Lemma redz_12288 x : redz (12288 * x) = -3 * x.
Proof. unfold redz. lia. Qed.

Lemma redz_low v z b : 0 <= v <= 12288 -> - b <= z <= b -> - 3 * b <= redz (v * z).
Proof.
  intros Hv Hz. assert (v * z <= 12288 * b); [|unfold redz; lia].
  assert (H := abs_mul_range v z b Hz). assert (Z.abs v * b <= 12288 * b) by (apply Z.mul_le_mono_nonneg_r; lia). lia.
Qed.

Lemma divd_12288 b : divd (12288 * b) = 3 * b.
Proof. unfold divd. rewrite shiftr12. lia. Qed.

Lemma min_zero_ok b : 0 <= b <= 8589934592 ->
  exists x w, min_red_mul_interval (- b) b 0 12288 = Ok (- 3 * b, x, w).
Proof.
  intros Hb. unfold min_red_mul_interval. replace ((- b <=? b) && (0 <=? 12288)) with true by lia. cbn [cassert].
  rewrite bind_Ok. replace (0 <? 0) with false by reflexivity. replace (0 <? 12288) with true by reflexivity.
  rewrite bind_Ok. unfold fuel. cbn [cwhile negb andb]. replace (0 <? 0) with false by reflexivity. rewrite bind_Ok.
  unfold sub64 at 1. rewrite i64_ok by lia. rewrite bind_Ok. replace (0 - 1) with (-1) by reflexivity.
  replace (Z.to_nat (12288 - -1)) with (S (S (Z.to_nat 12287))) by lia.
  set (g := Z.to_nat 12287). clearbody g.
  assert (E1 : min_interval_body false (- b) b (false, 12288, 0, 0, 0) = if 0 <? b then Ok (false, 12287, -3 * b, b, 12288) else Ok (true, 12288, 0, 0, 0)).
  { unfold min_interval_body. replace (0 <? 12288) with true by reflexivity. cbn [cassert]. rewrite bind_Ok.
    unfold mul64, neg64, sub64 at 1. rewrite i64_ok by lia. rewrite bind_Ok. rewrite divd_12288.
    rewrite i64_ok by lia. rewrite bind_Ok.
    destruct (Z.ltb_spec 0 b).
    - replace (0 <=? 0 - 3 * b) with false by lia.
      destruct (min_red_mul_ok (- b) b 12288) as (x & -> & Hx & HM); try (unfold sbnd; lia).
      rewrite bind_Ok. unfold sub64. rewrite i64_ok by lia. rewrite bind_Ok.
      specialize (HM b ltac:(lia)). rewrite !redz_12288 in *. assert (x = b) as -> by lia.
      replace (-3 * b <? 0) with true by lia. reflexivity.
    - replace (0 <=? 0 - 3 * b) with true by lia. reflexivity. }
  cbn [cwhile negb andb]. replace (-1 <? 12288) with true by reflexivity. rewrite E1.
  destruct (Z.ltb_spec 0 b).
  - rewrite bind_Ok. cbn [cwhile negb andb]. replace (-1 <? 12287) with true by reflexivity.
    assert (E2 : min_interval_body false (- b) b (false, 12287, -3 * b, b, 12288) = Ok (true, 12287, -3 * b, b, 12288)).
    { unfold min_interval_body. replace (0 <? 12287) with true by reflexivity. cbn [cassert]. rewrite bind_Ok.
      unfold mul64, neg64, sub64 at 1. rewrite i64_ok by lia. rewrite bind_Ok. unfold divd. rewrite shiftr12.
      rewrite i64_ok by lia. rewrite bind_Ok. replace (-3 * b <=? 0 - 12287 * b / 4096) with true by lia. reflexivity. }
    rewrite E2, bind_Ok. destruct g; cbn [cwhile negb andb]; rewrite bind_Ok; exists b, 12288; reflexivity.
  - rewrite bind_Ok. cbn [cwhile negb andb]. rewrite bind_Ok. exists 0, 0. repeat f_equal. lia.
Qed.

(** The intervals of constants: the two that are used, among others. *)
Definition consts (low high : Z) : Prop :=
  (low = 0 /\ high = 12288) \/ (low <> 0 /\ high <> 0 /\ -12288 <= low <= high /\ high <= 12288).

Lemma consts_range low high : consts low high -> -12288 <= low <= high /\ high <= 12288.
Proof. unfold consts. lia. Qed.

Lemma interval_ext' b low high : 0 <= b <= 8589934592 -> consts low high ->
  exists mn mx x1 w1 x2 w2, min_red_mul_interval (- b) b low high = Ok (mn, x1, w1)
  /\ max_red_mul_interval (- b) b low high = Ok (mx, x2, w2)
  /\ (exists y v, - b <= y <= b /\ low <= v <= high /\ mn = redz (v * y))
  /\ (exists y v, - b <= y <= b /\ low <= v <= high /\ mx = redz (v * y))
  /\ (forall y v, - b <= y <= b -> low <= v <= high -> mn <= redz (v * y) <= mx)
  /\ - 1125899906842624 <= mn /\ mx <= 1125899906854912.
Proof.
  intros Hb HC. destruct HC as [[-> ->]|(Hl & Hh & H1 & H2)].
  - destruct (min_zero_ok b Hb) as (x1 & w1 & E1).
    destruct (max_red_mul_interval_ok b 0 12288) as (mx & x2 & w2 & E2 & A2 & M2); [unfold wrange; lia|].
    exists (- 3 * b), mx, x1, w1, x2, w2. split; [exact E1|]. split; [exact E2|].
    split; [exists b, 12288; rewrite redz_12288; lia|]. split; [exact A2|]. split.
    + intros y v Hy Hv. split; [apply redz_low; assumption|apply M2; assumption].
    + split; [lia|]. destruct A2 as (y & v & Hy & Hv & ->).
      assert (H := abs_mul_range v y b Hy). assert (Z.abs v * b <= 12288 * b) by (apply Z.mul_le_mono_nonneg_r; lia).
      unfold redz. lia.
  - apply interval_ext; try assumption.
    assert (Z.abs low * b <= 12288 * b) by (apply Z.mul_le_mono_nonneg_r; lia).
    assert (Z.abs high * b <= 12288 * b) by (apply Z.mul_le_mono_nonneg_r; lia).
    unfold cbnd. lia.
Qed.

(** ** One round *)

Lemma mul_small v y b low high : -12288 <= low -> high <= 12288 -> low <= v <= high -> - b <= y <= b ->
  - (3 * b) <= redz (v * y) <= 3 * b + 12286.
Proof.
  intros Hl Hh Hv Hy. assert (H := abs_mul_range v y b Hy).
  assert (Z.abs v * b <= 12288 * b) by (apply Z.mul_le_mono_nonneg_r; lia). unfold redz. lia.
Qed.

Lemma ct_round b low high : 0 <= b <= 4294967296 -> consts low high ->
  exists c, ct_bound b low high = Ok c /\ ct_exact low high b c /\ b <= c <= 4 * b + 12286.
Proof.
  intros Hb HC. destruct (interval_ext' b low high) as (mn & mx & x1 & w1 & x2 & w2 & E1 & E2 & A1 & A2 & HB & B1 & B2); [lia|exact HC|].
  assert (HR := consts_range low high HC).
  unfold ct_bound, neg64, sub64. replace ((0 <=? b) && (low <=? high)) with true by lia. cbn [cassert bind].
  rewrite i64_ok by lia. cbn [bind]. replace (0 - b) with (- b) by ring. rewrite E1. cbn [bind]. rewrite E2. cbn [bind].
  destruct (ct_combine_ok b mn mx (fun w => low <= w <= high)) as (c & Ec & S & T & Hc & H0); try assumption; try lia.
  { exists low. lia. }
  exists c. split; [exact Ec|]. split; [split; [exact S|exact T]|].
  destruct A1 as (y1 & v1 & Hy1 & Hv1 & A1). destruct A2 as (y2 & v2 & Hy2 & Hv2 & A2).
  assert (M1 := mul_small v1 y1 b low high ltac:(lia) ltac:(lia) Hv1 Hy1).
  assert (M2 := mul_small v2 y2 b low high ltac:(lia) ltac:(lia) Hv2 Hy2). lia.
Qed.

Lemma gs_round b low high : 0 <= b <= 4294967296 -> consts low high ->
  exists c, gs_bound b low high = Ok c /\ gs_exact low high b c /\ b <= c <= 6 * b + 12286.
Proof.
  intros Hb HC. destruct (interval_ext' (2 * b) low high) as (mn & mx & x1 & w1 & x2 & w2 & E1 & E2 & A1 & A2 & HB & B1 & B2); [lia|exact HC|].
  assert (HR := consts_range low high HC).
  unfold gs_bound, mul64. replace ((0 <=? b) && (low <=? high)) with true by lia. cbn [cassert bind].
  rewrite i64_ok by lia. cbn [bind]. rewrite i64_ok by lia. cbn [bind]. replace (-2 * b) with (- (2 * b)) by ring. rewrite E1. cbn [bind]. rewrite E2. cbn [bind].
  destruct (gs_combine_ok b mn mx (fun w => low <= w <= high)) as (c & Ec & S & T & Hc); try assumption; try lia.
  { exists low. lia. }
  exists c. split; [exact Ec|]. split; [split; [exact S|exact T]|].
  destruct A1 as (y1 & v1 & Hy1 & Hv1 & A1). destruct A2 as (y2 & v2 & Hy2 & Hv2 & A2).
  assert (M1 := mul_small v1 y1 (2 * b) low high ltac:(lia) ltac:(lia) Hv1 Hy1).
  assert (M2 := mul_small v2 y2 (2 * b) low high ltac:(lia) ltac:(lia) Hv2 Hy2). lia.
Qed.

Lemma max_abs_red_ok b : 0 <= b <= 2147483647 ->
  exists c, max_abs_red b = Ok c /\ abs_exact b c /\ 0 <= c <= 536574.
Proof.
  intros Hb. unfold max_abs_red, neg64, sub64. rewrite i64_ok by lia. cbn [bind]. replace (0 - b) with (- b) by ring.
  destruct (min_red_ok (- b) b) as (m1 & -> & H1 & M1); [unfold i64r; lia|unfold i64r; lia|lia|].
  destruct (max_red_ok (- b) b) as (m2 & -> & H2 & M2); [unfold i64r; lia|unfold i64r; lia|lia|]. cbn [bind].
  assert (Z1 := M1 0 ltac:(lia)). assert (Z2 := M2 0 ltac:(lia)). rewrite redz_0 in Z1, Z2.
  replace (redz m2 <? 0) with false by lia. replace (0 <? redz m1) with false by lia.
  assert (B1 := redz_bounds (- b) b m1 H1). assert (B2 := redz_bounds (- b) b m2 H2).
  rewrite i64_ok by lia. cbn [bind]. eexists. split; [reflexivity|].
  change ln_red with redz. unfold abs_exact. change ln_red with redz.
  destruct (Z.ltb_spec (0 - redz m1) (redz m2)).
  - split; [split|lia]; [|exists m2; lia]. intros x Hx. specialize (M1 x Hx). specialize (M2 x Hx). lia.
  - split; [split|lia]; [|exists m1; lia]. intros x Hx. specialize (M1 x Hx). specialize (M2 x Hx). lia.
Qed.

(** ** The iterations *)

Section Iteration.
Variables (bound : Z -> Z -> Z -> res Z) (low high : Z) (exact : Z -> Z -> Prop).
Hypothesis round : forall b, 0 <= b <= 4294967296 ->
  exists c, bound b low high = Ok c /\ exact b c /\ b <= c <= 6 * b + 12286.

(** The lines printed and the bound after them *)
Definition lines_ok (lines : list line) (last : Z) : Prop :=
  forall i b reduced b', nth_error lines i = Some (b, reduced) -> nth_error (map fst lines ++ [last]) (S i) = Some b' ->
     0 <= b <= 2147483647 /\ 0 <= b' <= 2147483647
     /\ match reduced with
        | None => exact b b'
        | Some c => (exists d, exact b d /\ 2147483647 < d) /\ abs_exact b c /\ exact c b'
        end.

Lemma lines_snoc lines b o c : lines_ok lines b -> 0 <= b <= 2147483647 -> 0 <= c <= 2147483647 ->
  match o with None => exact b c
    | Some r => (exists d, exact b d /\ 2147483647 < d) /\ abs_exact b r /\ exact r c end ->
  lines_ok (lines ++ [(b, o)]) c.
Proof.
  intros HL Hb Hc HR i b1 o1 b2 H1 H2. rewrite map_app in H2. cbn [map fst] in H2.
  destruct (Nat.lt_ge_cases i (length lines)) as [Hi|Hi].
  - rewrite nth_error_app1 in H1 by exact Hi. rewrite nth_error_app1 in H2 by (rewrite app_length, map_length; cbn [length]; lia).
    exact (HL i b1 o1 b2 H1 H2).
  - rewrite nth_error_app2 in H1 by exact Hi. destruct (i - length lines)%nat as [|[|]] eqn:Ei; cbn [nth_error] in H1; try discriminate.
    injection H1 as <- <-. rewrite nth_error_app2 in H2 by (rewrite app_length, map_length; cbn [length]; lia).
    rewrite app_length, map_length in H2. cbn [length] in H2. replace (S i - (length lines + 1))%nat with 0%nat in H2 by lia.
    cbn [nth_error] in H2. injection H2 as <-. auto.
Qed.

Lemma iteration_ok b0 : 0 <= b0 <= 2147483647 ->
  exists last lines, iteration bound b0 low high = Ok (last, lines) /\ rounds_exact exact b0 (last, lines)
    /\ 0 <= last <= 2147483647.
Proof.
  intros Hb0. unfold iteration.
  destruct (cfor_count (fun m '(b, out) => 0 <= b <= 2147483647 /\ length out = Z.to_nat m
      /\ nth_error (map fst out ++ [b]) 0 = Some b0 /\ lines_ok out b) 20 (fun m => m) (fun i => i <? 20) (fun i => u32 (i + 1))
    (fun (_ : Z) '(b, out) =>
    do nb <- bound b low high;
    if INT32_MAX <? nb then
      do c <- max_abs_red b;
      do nb <- bound c low high;
      Ok (nb, out ++ [(b, Some c)])
    else Ok (nb, out ++ [(b, None)]))) with (f := fuel 20) (i0 := 0) (st := (b0, @nil line)) as ([last lines] & E & H1 & H2 & H3 & H4).
  - lia.
  - intros. lia.
  - reflexivity.
  - intros. apply u32_small. lia.
  - intros m [b out] Hm (Hb & HL & H0 & HO).
    assert (H0' : forall o c, nth_error (map fst (out ++ [(b, o)]) ++ [c]) 0 = Some b0).
    { intros o c. rewrite map_app. cbn [map fst]. destruct out; exact H0. }
    assert (HL' : forall x : line, length (out ++ [x]) = Z.to_nat (m + 1)) by (intros x; rewrite app_length; cbn [length]; lia).
    destruct (round b ltac:(lia)) as (c & -> & HE & HB). cbn [bind]. unfold INT32_MAX.
    destruct (Z.ltb_spec 2147483647 c).
    + destruct (max_abs_red_ok b Hb) as (r & -> & HA & Hr). cbn [bind].
      destruct (round r ltac:(lia)) as (d & -> & HD & HBd). cbn [bind].
      eexists. split; [reflexivity|]. split; [lia|]. split; [apply HL'|]. split; [apply H0'|].
      apply lines_snoc; [exact HO|exact Hb|lia|]. split; [exists c; auto|]. auto.
    + eexists. split; [reflexivity|]. split; [lia|]. split; [apply HL'|]. split; [apply H0'|].
      apply lines_snoc; [exact HO|exact Hb|lia|]. exact HE.
  - reflexivity.
  - unfold fuel. lia.
  - split; [exact Hb0|]. split; [reflexivity|]. split; [reflexivity|]. intros i b o b' H. destruct i; discriminate.
  - exists last, lines. split; [exact E|]. split; [|exact H1]. split; [exact H2|]. split; [exact H3|exact H4].
Qed.
End Iteration.

Lemma ct_iteration_ok b0 low high : 0 <= b0 <= 2147483647 -> consts low high ->
  exists r, ct_iteration b0 low high = Ok r /\ rounds_exact (ct_exact low high) b0 r.
Proof.
  intros Hb HC. destruct (iteration_ok ct_bound low high (ct_exact low high)) with (b0 := b0) as (l & ls & E & H & _).
  - intros b Hb'. destruct (ct_round b low high Hb' HC) as (c & E & H1 & H2). exists c. split; [exact E|]. split; [exact H1|lia].
  - exact Hb.
  - exists (l, ls). split; [exact E|exact H].
Qed.

Lemma gs_iteration_ok b0 low high : 0 <= b0 <= 2147483647 -> consts low high ->
  exists r, gs_iteration b0 low high = Ok r /\ rounds_exact (gs_exact low high) b0 r.
Proof.
  intros Hb HC. destruct (iteration_ok gs_bound low high (gs_exact low high)) with (b0 := b0) as (l & ls & E & H & _).
  - intros b Hb'. apply (gs_round b low high Hb' HC).
  - exact Hb.
  - exists (l, ls). split; [exact E|exact H].
Qed.
