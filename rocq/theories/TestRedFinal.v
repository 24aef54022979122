(** Proofs about src/test_red.c (property C70). *)

From Coq Require Import ZArith List Bool Lia.
From Verif Require Import CSem ModelTestRed.
Import ListNotations.
Open Scope Z_scope.

(** ** red *)

Definition zred (x : Z) : Z := 3 * (x mod 4096) - x / 4096.

Lemma in_i64_true z : -9223372036854775808 <= z <= 9223372036854775807 -> in_i64 z = true.
Proof. intros H; apply andb_true_intro; split; apply Z.leb_le; lia. Qed.

Lemma i64_ok z : -9223372036854775808 <= z <= 9223372036854775807 -> i64 z = Ok z.
Proof. intros H; unfold i64; rewrite in_i64_true by assumption; reflexivity. Qed.

Lemma red_ok x : -9223372036854775808 <= x <= 9223372036854775807 -> red x = Ok (zred x).
Proof.
  intros H. unfold red, zred, mul64, sub64.
  change 4095 with (Z.ones 12). rewrite Z.land_ones by lia. rewrite Z.shiftr_div_pow2 by lia.
  change (2 ^ 12) with 4096.
  pose proof (Z.div_mod x 4096 ltac:(lia)). pose proof (Z.mod_pos_bound x 4096 ltac:(lia)).
  rewrite i64_ok by lia. cbn [bind]. rewrite i64_ok by lia. reflexivity.
Qed.

Definition outside (r : Z) : bool := (INT32_MAX <? r) || (r <? INT32_MIN).

Lemma test_overflow_ok x :
  -9223372036854775808 <= x <= 9223372036854775807 -> test_overflow x = Ok (outside (zred x)).
Proof. intros H. unfold test_overflow. rewrite red_ok by assumption. reflexivity. Qed.

Lemma outside_true r : 2147483647 < r \/ r < -2147483648 -> outside r = true.
Proof.
  intros H. unfold outside, INT32_MAX, INT32_MIN. apply orb_true_iff. rewrite !Z.ltb_lt. lia.
Qed.
Lemma outside_false r : -2147483648 <= r <= 2147483647 -> outside r = false.
Proof.
  intros H. unfold outside, INT32_MAX, INT32_MIN. apply orb_false_iff. rewrite !Z.ltb_ge. lia.
Qed.

Lemma zred_block q w : 0 <= w < 4096 -> zred (q * 4096 + w) = 3 * w - q.
Proof.
  intros Hw. unfold zred.
  rewrite <- (Z.div_unique (q * 4096 + w) 4096 q w) by lia.
  rewrite <- (Z.mod_unique (q * 4096 + w) 4096 q w) by lia. lia.
Qed.

(** ** Blocks of 4096 values *)

Definition block_overflows (q : Z) : bool := (q <? -2147471362) || (2147483648 <? q).

Lemma overflow_loop_false f q w :
  -2251799813685248 <= q < 2251799813685248 -> 0 <= w <= 4096 -> 4096 - w < Z.of_nat f ->
  (forall v, w <= v < 4096 -> outside (3 * v - q) = false) ->
  overflow_loop f (q * 4096) w = Ok false.
Proof.
  revert w. induction f as [|f IH]; intros w Hq Hw Hf H; [lia|].
  cbn [overflow_loop]. destruct (Z.ltb_spec w 4096) as [L|L]; [|reflexivity].
  unfold add64. rewrite i64_ok by lia. cbn [bind].
  rewrite test_overflow_ok by lia. cbn [bind]. rewrite zred_block by lia.
  rewrite H by lia. rewrite i64_ok by lia. cbn [bind].
  apply IH; [lia|lia|lia|]. intros v Hv. apply H; lia.
Qed.

Lemma overflow_loop_true f q w v :
  -2251799813685248 <= q < 2251799813685248 -> 0 <= w <= v -> v < 4096 -> 4096 - w < Z.of_nat f ->
  outside (3 * v - q) = true ->
  overflow_loop f (q * 4096) w = Ok true.
Proof.
  revert w. induction f as [|f IH]; intros w Hq Hw Hv Hf H; [lia|].
  cbn [overflow_loop]. destruct (Z.ltb_spec w 4096) as [L|L]; [|lia].
  unfold add64. rewrite i64_ok by lia. cbn [bind].
  rewrite test_overflow_ok by lia. cbn [bind]. rewrite zred_block by lia.
  destruct (outside (3 * w - q)) eqn:E; [reflexivity|].
  rewrite i64_ok by lia. cbn [bind].
  assert (w <> v) by congruence.
  apply IH; try lia; assumption.
Qed.

Lemma test_overflow2_ok q :
  -2251799813685248 <= q < 2251799813685248 -> test_overflow2 q = Ok (block_overflows q).
Proof.
  intros Hq. unfold test_overflow2, mul64. rewrite i64_ok by lia. cbn [bind].
  assert (HF : Z.of_nat (fuel 4096) = 4097) by reflexivity.
  unfold block_overflows.
  destruct (Z.ltb_spec q (-2147471362)) as [L|L]; cbn [orb].
  { apply overflow_loop_true with 4095; [assumption|lia|lia|rewrite HF; lia|]. apply outside_true; lia. }
  destruct (Z.ltb_spec 2147483648 q) as [L'|L'].
  { apply overflow_loop_true with 0; [assumption|lia|lia|rewrite HF; lia|]. apply outside_true; lia. }
  apply overflow_loop_false; [assumption|lia|rewrite HF; lia|].
  intros v Hv. apply outside_false; lia.
Qed.

(** ** The binary searches *)

Lemma cwhile_same {S} (I : S -> Prop) f cond (body body' : S -> res S) st :
  I st -> (forall s, I s -> cond s = true -> body s = body' s) ->
  (forall s s', I s -> cond s = true -> body' s = Ok s' -> I s') ->
  cwhile f cond body st = cwhile f cond body' st.
Proof.
  revert st. induction f as [|f IH]; intros st Hst Hb Hi; [reflexivity|].
  cbn [cwhile]. destruct (cond st) eqn:E; [|reflexivity].
  rewrite Hb by assumption. destruct (body' st) as [s'|e] eqn:E'; [|reflexivity].
  cbn [bind]. apply IH; [|assumption|assumption]. apply Hi with st; assumption.
Qed.

Definition lower_step' '(l, h) : res (Z * Z) :=
  do _ <- cassert ((l <? Z.quot (l + h) 2) && (Z.quot (l + h) 2 <=? h));
  Ok (if block_overflows (Z.quot (l + h) 2) then (Z.quot (l + h) 2, h) else (l, Z.quot (l + h) 2)).
Definition upper_step' '(l, h) : res (Z * Z) :=
  do _ <- cassert ((l <=? Z.quot (l + h) 2) && (Z.quot (l + h) 2 <? h));
  Ok (if block_overflows (Z.quot (l + h) 2) then (l, Z.quot (l + h) 2) else (Z.quot (l + h) 2, h)).

Definition in_range '((l, h) : Z * Z) : Prop := -2251799813685248 <= l < 2251799813685248 /\ -2251799813685248 <= h < 2251799813685248.

Lemma quot2_range l h : in_range (l, h) -> -2251799813685248 <= Z.quot (l + h) 2 < 2251799813685248.
Proof.
  intros H. unfold in_range in H.
  pose proof (Z.quot_rem (l + h) 2 ltac:(lia)). pose proof (Z.rem_bound_abs (l + h) 2 ltac:(lia)).
  destruct (Z_le_gt_dec 0 (l + h)).
  - pose proof (Z.rem_nonneg (l + h) 2 ltac:(lia) ltac:(lia)). lia.
  - pose proof (Z.rem_nonpos (l + h) 2 ltac:(lia) ltac:(lia)). lia.
Qed.

Lemma lower_step_ok s : in_range s -> lower_step s = lower_step' s.
Proof.
  destruct s as [l h]. intros H. pose proof (quot2_range l h H) as Hq. unfold in_range in H.
  unfold lower_step, lower_step', add64. rewrite i64_ok by lia. cbn [bind]. unfold div64.
  change (2 =? 0) with false. change (2 =? -1) with false. rewrite andb_false_r. cbn [bind].
  rewrite test_overflow2_ok by assumption.
  destruct (cassert _); reflexivity.
Qed.

Lemma upper_step_ok s : in_range s -> upper_step s = upper_step' s.
Proof.
  destruct s as [l h]. intros H. pose proof (quot2_range l h H) as Hq. unfold in_range in H.
  unfold upper_step, upper_step', add64. rewrite i64_ok by lia. cbn [bind]. unfold div64.
  change (2 =? 0) with false. change (2 =? -1) with false. rewrite andb_false_r. cbn [bind].
  rewrite test_overflow2_ok by assumption.
  destruct (cassert _); reflexivity.
Qed.

Lemma lower_step_range s s' : in_range s -> lower_step' s = Ok s' -> in_range s'.
Proof.
  destruct s as [l h]. intros H E. pose proof (quot2_range l h H) as Hq. unfold in_range in H.
  unfold lower_step' in E. destruct (cassert _); [|discriminate]. cbn [bind] in E.
  injection E as <-. destruct (block_overflows _); cbn [in_range]; lia.
Qed.
Lemma upper_step_range s s' : in_range s -> upper_step' s = Ok s' -> in_range s'.
Proof.
  destruct s as [l h]. intros H E. pose proof (quot2_range l h H) as Hq. unfold in_range in H.
  unfold upper_step' in E. destruct (cassert _); [|discriminate]. cbn [bind] in E.
  injection E as <-. destruct (block_overflows _); cbn [in_range]; lia.
Qed.

Lemma find_lower_bound_ok : find_lower_bound = Ok (-8796042698752).
Proof.
  unfold find_lower_bound. change (div64 INT64_MIN 4096) with (Ok (-2251799813685248)). cbn [bind].
  unfold cdowhile.
  assert (R : in_range (-2251799813685248, -1)) by (unfold in_range; lia).
  rewrite (lower_step_ok _ R).
  destruct (lower_step' (-2251799813685248, -1)) as [s|e] eqn:E; [|vm_compute in E; discriminate].
  pose proof (lower_step_range _ _ R E) as R'.
  cbn [bind].
  rewrite (cwhile_same in_range (fuel 64) gap lower_step lower_step' s R');
    [|intros x Hx _; apply lower_step_ok; assumption|intros x y Hx _ Hy; apply lower_step_range with x; assumption].
  vm_compute in E. injection E as <-. vm_compute. reflexivity.
Qed.

Lemma find_upper_bound_ok : find_upper_bound = Ok 8796093026303.
Proof.
  unfold find_upper_bound. change (div64 INT64_MAX 4096) with (Ok 2251799813685247). cbn [bind].
  unfold cdowhile.
  assert (R : in_range (0, 2251799813685247)) by (unfold in_range; lia).
  rewrite (upper_step_ok _ R).
  destruct (upper_step' (0, 2251799813685247)) as [s|e] eqn:E; [|vm_compute in E; discriminate].
  pose proof (upper_step_range _ _ R E) as R'.
  cbn [bind].
  rewrite (cwhile_same in_range (fuel 64) gap upper_step upper_step' s R');
    [|intros x Hx _; apply upper_step_ok; assumption|intros x y Hx _ Hy; apply upper_step_range with x; assumption].
  vm_compute in E. injection E as <-. vm_compute. reflexivity.
Qed.

(** ** The bounds are safe, and cannot be improved *)

Lemma zred_safe x : -8796042698752 <= x <= 8796093026303 -> -2147483648 <= zred x <= 2147483647.
Proof.
  intros H. unfold zred.
  pose proof (Z.div_mod x 4096 ltac:(lia)). pose proof (Z.mod_pos_bound x 4096 ltac:(lia)). lia.
Qed.

(** ** The reports *)

Section Report.
Variables (bound hi : Z).
Hypothesis Hb : -8796093022208 - 1000000 <= bound <= 8796093022208 + 1000000.
Hypothesis Hhi : hi <= 1000000000.
Let body := fun (x : Z) (out : list Z) =>
    do y <- add64 bound x;
    do b <- test_overflow y;
    Ok (if b : bool then out ++ [x] else out).

Lemma report_step f x out :
  -1000000000 <= x < hi ->
  cfor (S f) x (fun x => x <? hi) (fun x => x + 1) body out
  = cfor f (x + 1) (fun x => x <? hi) (fun x => x + 1) body (if outside (zred (bound + x)) then out ++ [x] else out).
Proof.
  intros Hx. cbn [cfor]. replace (x <? hi) with true by (symmetry; apply Z.ltb_lt; lia).
  unfold body at 1. unfold add64. rewrite i64_ok by lia. cbn [bind]. rewrite test_overflow_ok by lia. reflexivity.
Qed.

Lemma report_gap k f x out :
  -1000000000 <= x -> x + Z.of_nat k <= hi ->
  (forall y, x <= y < x + Z.of_nat k -> outside (zred (bound + y)) = false) ->
  cfor (k + f) x (fun x => x <? hi) (fun x => x + 1) body out
  = cfor f (x + Z.of_nat k) (fun x => x <? hi) (fun x => x + 1) body out.
Proof.
  revert x. induction k as [|k IH]; intros x Hx Hk H.
  - cbn [Nat.add]. replace (x + Z.of_nat 0) with x by lia. reflexivity.
  - cbn [Nat.add]. rewrite report_step by lia. rewrite H by lia.
    rewrite IH; [|lia|lia|intros y Hy; apply H; lia].
    replace (x + 1 + Z.of_nat k) with (x + Z.of_nat (S k)) by lia. reflexivity.
Qed.

Lemma report_hit f x x' out :
  -1000000000 <= x < hi -> x' = x -> outside (zred (bound + x')) = true ->
  cfor (S f) x (fun x => x <? hi) (fun x => x + 1) body out
  = cfor f (x' + 1) (fun x => x <? hi) (fun x => x + 1) body (out ++ [x']).
Proof. intros Hx -> H. rewrite report_step by assumption. rewrite H. reflexivity. Qed.

Lemma report_end f out : cfor (S f) hi (fun x => x <? hi) (fun x => x + 1) body out = Ok out.
Proof. cbn [cfor]. rewrite Z.ltb_irrefl. reflexivity. Qed.
End Report.

Lemma outside_iff_lower y :
  -10000 <= y < 1000000000 -> y <> -8193 -> y <> -4097 -> y <> -1 -> outside (zred (-8796042698752 + y)) = false.
Proof.
  intros Hy N1 N2 N3. apply outside_false. unfold zred.
  pose proof (Z.div_mod (-8796042698752 + y) 4096 ltac:(lia)).
  pose proof (Z.mod_pos_bound (-8796042698752 + y) 4096 ltac:(lia)). lia.
Qed.

Lemma outside_iff_upper y :
  -1000000000 <= y < 10000 -> y <> 8193 -> y <> 4097 -> y <> 1 -> outside (zred (8796093026303 + y)) = false.
Proof.
  intros Hy N1 N2 N3. apply outside_false. unfold zred.
  pose proof (Z.div_mod (8796093026303 + y) 4096 ltac:(lia)).
  pose proof (Z.mod_pos_bound (8796093026303 + y) 4096 ltac:(lia)). lia.
Qed.

Lemma report_lower : report (-8796042698752) (-10000) 1000000000 = Ok [-8193; -4097; -1].
Proof.
  unfold report.
  replace (fuel (1000000000 - -10000))
    with (Z.to_nat 1807 + S (Z.to_nat 4095 + S (Z.to_nat 4095 + S (Z.to_nat 1000000000 + 1))))%nat
    by (unfold fuel; lia).
  rewrite report_gap; [|lia|lia|lia|rewrite Z2Nat.id by lia; lia|
    intros y Hy; rewrite Z2Nat.id in Hy by lia; apply outside_iff_lower; lia].
  rewrite Z2Nat.id by lia.
  rewrite (report_hit (-8796042698752) 1000000000) with (x' := -8193); [|lia|lia|lia|reflexivity|vm_compute; reflexivity].
  rewrite report_gap; [|lia|lia|lia|rewrite Z2Nat.id by lia; lia|
    intros y Hy; rewrite Z2Nat.id in Hy by lia; apply outside_iff_lower; lia].
  rewrite Z2Nat.id by lia.
  rewrite (report_hit (-8796042698752) 1000000000) with (x' := -4097); [|lia|lia|lia|reflexivity|vm_compute; reflexivity].
  rewrite report_gap; [|lia|lia|lia|rewrite Z2Nat.id by lia; lia|
    intros y Hy; rewrite Z2Nat.id in Hy by lia; apply outside_iff_lower; lia].
  rewrite Z2Nat.id by lia.
  rewrite (report_hit (-8796042698752) 1000000000) with (x' := -1); [|lia|lia|lia|reflexivity|vm_compute; reflexivity].
  rewrite report_gap; [|lia|lia|lia|rewrite Z2Nat.id by lia; lia|
    intros y Hy; rewrite Z2Nat.id in Hy by lia; apply outside_iff_lower; lia].
  rewrite Z2Nat.id by lia.
  change (-1 + 1 + 1000000000) with 1000000000.
  rewrite report_end. reflexivity.
Qed.

Lemma report_upper : report (8796093026303) (-1000000000) 10000 = Ok [1; 4097; 8193].
Proof.
  unfold report.
  replace (fuel (10000 - -1000000000))
    with (Z.to_nat 1000000001 + S (Z.to_nat 4095 + S (Z.to_nat 4095 + S (Z.to_nat 1806 + 1))))%nat
    by (unfold fuel; lia).
  rewrite report_gap; [|lia|lia|lia|rewrite Z2Nat.id by lia; lia|
    intros y Hy; rewrite Z2Nat.id in Hy by lia; apply outside_iff_upper; lia].
  rewrite Z2Nat.id by lia.
  rewrite (report_hit (8796093026303) 10000) with (x' := 1); [|lia|lia|lia|reflexivity|vm_compute; reflexivity].
  rewrite report_gap; [|lia|lia|lia|rewrite Z2Nat.id by lia; lia|
    intros y Hy; rewrite Z2Nat.id in Hy by lia; apply outside_iff_upper; lia].
  rewrite Z2Nat.id by lia.
  rewrite (report_hit (8796093026303) 10000) with (x' := 4097); [|lia|lia|lia|reflexivity|vm_compute; reflexivity].
  rewrite report_gap; [|lia|lia|lia|rewrite Z2Nat.id by lia; lia|
    intros y Hy; rewrite Z2Nat.id in Hy by lia; apply outside_iff_upper; lia].
  rewrite Z2Nat.id by lia.
  rewrite (report_hit (8796093026303) 10000) with (x' := 8193); [|lia|lia|lia|reflexivity|vm_compute; reflexivity].
  rewrite report_gap; [|lia|lia|lia|rewrite Z2Nat.id by lia; lia|
    intros y Hy; rewrite Z2Nat.id in Hy by lia; apply outside_iff_upper; lia].
  rewrite Z2Nat.id by lia.
  change (8193 + 1 + 1806) with 10000.
  rewrite report_end. reflexivity.
Qed.

(** ** The bounds on butterflies *)

(** The largest value of red on [-t, 0] and the smallest on [0, t] *)
Lemma zred_upper x t : - t <= x -> 0 <= t -> zred x <= 12285 + (t + 4095) / 4096.
Proof.
  intros H H'. unfold zred.
  pose proof (Z.div_mod x 4096 ltac:(lia)). pose proof (Z.mod_pos_bound x 4096 ltac:(lia)).
  assert (- ((t + 4095) / 4096) <= x / 4096).
  { apply Z.div_le_lower_bound; [lia|].
    pose proof (Z.div_mod (t + 4095) 4096 ltac:(lia)). pose proof (Z.mod_pos_bound (t + 4095) 4096 ltac:(lia)). lia. }
  lia.
Qed.
Lemma zred_lower x t : x <= t -> - (t / 4096) <= zred x.
Proof.
  intros H. unfold zred.
  pose proof (Z.mod_pos_bound x 4096 ltac:(lia)).
  pose proof (Z.div_le_mono x t 4096 ltac:(lia) H). lia.
Qed.

Lemma reduction_sound b x :
  0 <= b -> Z.abs x <= b -> Z.abs (zred x) <= b / 4096 + 12286.
Proof.
  intros Hb Hx.
  pose proof (zred_upper x b ltac:(lia) ltac:(lia)). pose proof (zred_lower x b ltac:(lia)).
  assert ((b + 4095) / 4096 <= b / 4096 + 1).
  { replace (b / 4096 + 1) with ((b + 1 * 4096) / 4096) by (apply Z.div_add; lia). apply Z.div_le_mono; lia. }
  pose proof (Z.div_pos b 4096 ltac:(lia) ltac:(lia)). lia.
Qed.

(** A product by a constant below Q *)
Lemma product_sound b y w :
  0 <= b -> Z.abs y <= b -> 0 <= w < 12289 ->
  Z.abs (zred (w * y)) <= Z.max (3 * b) (Z.max 12285 (3 * b + 12285 - b / 4096)).
Proof.
  intros Hb Hy Hw.
  assert (Hlo : - (3 * b) <= zred (w * y)).
  { pose proof (zred_lower (w * y) (12288 * b) ltac:(nia)) as L.
    replace (12288 * b) with (3 * b * 4096) in L by ring. rewrite Z.div_mul in L by lia. assumption. }
  destruct (Z_le_gt_dec 0 y) as [P|P].
  - pose proof (zred_upper (w * y) 0 ltac:(nia) ltac:(lia)) as U. change (12285 + (0 + 4095) / 4096) with 12285 in U. lia.
  - destruct (Z.eq_dec w 12288) as [->|Nw].
    + unfold zred in *. replace (12288 * y) with (3 * y * 4096) in * by ring.
      rewrite Z.mod_mul, Z.div_mul in * by lia. lia.
    + pose proof (zred_upper (w * y) (12287 * b) ltac:(nia) ltac:(lia)) as U.
      assert ((12287 * b + 4095) / 4096 <= 3 * b - b / 4096).
      { replace (12287 * b + 4095) with (4095 - b + 3 * b * 4096) by ring. rewrite Z.div_add by lia.
        assert ((4095 - b) / 4096 <= - (b / 4096)); [|lia].
        apply Z.lt_succ_r. apply Z.div_lt_upper_bound; [lia|].
        pose proof (Z.div_mod b 4096 ltac:(lia)). pose proof (Z.mod_pos_bound b 4096 ltac:(lia)). lia. }
      lia.
Qed.

Lemma div_succ b : 0 <= b -> b / 4096 <= (b + 1) / 4096 <= b / 4096 + 1 /\ 0 <= b / 4096 <= b.
Proof.
  intros H. repeat split.
  - apply Z.div_le_mono; lia.
  - replace (b / 4096 + 1) with ((b + 1 * 4096) / 4096) by (apply Z.div_add; lia). apply Z.div_le_mono; lia.
  - apply Z.div_pos; lia.
  - apply Z.div_le_upper_bound; lia.
Qed.

(** The value of ct_bound is 4b + max(0, ...), and that of gs_bound 3(2b) + max(0, ...) *)
Lemma div64_ok x : 0 <= x -> div64 x 4096 = Ok (x / 4096).
Proof.
  intros H. unfold div64. change (4096 =? 0) with false. change (4096 =? -1) with false. rewrite andb_false_r.
  cbn iota. rewrite Z.quot_div_nonneg by lia. reflexivity.
Qed.

Lemma ct_bound_value b :
  0 <= b <= 281474976710656 -> ct_bound b = Ok (4 * b + Z.max 0 (12286 - (b + 1) / 4096)).
Proof.
  intros Hb. pose proof (div_succ b ltac:(lia)) as D. unfold ct_bound, add64, sub64, mul64.
  rewrite i64_ok by lia. cbn [bind]. rewrite div64_ok by lia. cbn [bind]. unfold Q, K.
  rewrite i64_ok by lia. cbn [bind]. rewrite i64_ok by lia. cbn [bind].
  destruct (Z.ltb_spec (12289 - 3 - (b + 1) / 4096) 0).
  - f_equal. lia.
  - rewrite i64_ok by lia. f_equal. lia.
Qed.

Lemma gs_bound_value b :
  0 <= b <= 281474976710656 -> gs_bound b = Ok (6 * b + Z.max 0 (12286 - (2 * b + 1) / 4096)).
Proof.
  intros Hb. pose proof (div_succ (2 * b) ltac:(lia)) as D. unfold gs_bound, add64, sub64, mul64.
  rewrite i64_ok by lia. cbn [bind]. rewrite i64_ok by lia. cbn [bind]. rewrite div64_ok by lia. cbn [bind]. unfold Q, K.
  rewrite i64_ok by lia. cbn [bind]. rewrite i64_ok by lia. cbn [bind].
  destruct (Z.ltb_spec (12289 - 3 - (2 * b + 1) / 4096) 0).
  - f_equal. lia.
  - rewrite i64_ok by lia. f_equal. lia.
Qed.

Lemma ct_simple_value b : 0 <= b <= 281474976710656 -> ct_simple b = Ok (4 * b + 12286).
Proof.
  intros Hb. unfold ct_simple, add64, sub64, mul64, Q, K.
  rewrite i64_ok by lia. cbn [bind]. rewrite i64_ok by lia. cbn [bind]. rewrite i64_ok by lia. f_equal. lia.
Qed.
Lemma gs_simple_value b : 0 <= b <= 281474976710656 -> gs_simple b = Ok (6 * b + 12286).
Proof.
  intros Hb. unfold gs_simple, add64, sub64, mul64, Q, K.
  rewrite i64_ok by lia. cbn [bind]. rewrite i64_ok by lia. cbn [bind]. rewrite i64_ok by lia. f_equal. lia.
Qed.

Lemma ok_inj {A} (a b : A) : Ok a = Ok b -> b = a.
Proof. congruence. Qed.

(** Butterflies *)
Definition ct_round (b b' : Z) : Prop :=
  forall x y w, Z.abs x <= b -> Z.abs y <= b -> 0 <= w < 12289 ->
  exists r, red (w * y) = Ok r /\ Z.abs (x + r) <= b' /\ Z.abs (x - r) <= b'.
Definition gs_round (b b' : Z) : Prop :=
  forall x y w, Z.abs x <= b -> Z.abs y <= b -> 0 <= w < 12289 ->
  exists r, red (w * (x - y)) = Ok r /\ Z.abs (x + y) <= b' /\ Z.abs r <= b'.

Lemma ct_bound_sound b B : 0 <= b <= 281474976710656 -> ct_bound b = Ok B -> ct_round b B.
Proof.
  intros Hb HB x y w Hx Hy Hw. rewrite ct_bound_value in HB by assumption. apply ok_inj in HB. subst B.
  exists (zred (w * y)). split; [apply red_ok; nia|].
  pose proof (product_sound b y w ltac:(lia) Hy Hw) as P. pose proof (div_succ b ltac:(lia)) as D.
  clear - Hx P D Hb. lia.
Qed.

Lemma ct_simple_sound b B : 0 <= b <= 281474976710656 -> ct_simple b = Ok B -> ct_round b B.
Proof.
  intros Hb HB x y w Hx Hy Hw. rewrite ct_simple_value in HB by assumption. apply ok_inj in HB. subst B.
  exists (zred (w * y)). split; [apply red_ok; nia|].
  pose proof (product_sound b y w ltac:(lia) Hy Hw) as P. pose proof (div_succ b ltac:(lia)) as D.
  clear - Hx P D Hb. lia.
Qed.

Lemma gs_bound_sound b B : 0 <= b <= 281474976710656 -> gs_bound b = Ok B -> gs_round b B.
Proof.
  intros Hb HB x y w Hx Hy Hw. rewrite gs_bound_value in HB by assumption. apply ok_inj in HB. subst B.
  exists (zred (w * (x - y))). split; [apply red_ok; nia|].
  pose proof (product_sound (2 * b) (x - y) w ltac:(lia) ltac:(lia) Hw) as P. pose proof (div_succ (2 * b) ltac:(lia)) as D.
  clear - Hx Hy P D Hb. lia.
Qed.

Lemma gs_simple_sound b B : 0 <= b <= 281474976710656 -> gs_simple b = Ok B -> gs_round b B.
Proof.
  intros Hb HB x y w Hx Hy Hw. rewrite gs_simple_value in HB by assumption. apply ok_inj in HB. subst B.
  exists (zred (w * (x - y))). split; [apply red_ok; nia|].
  pose proof (product_sound (2 * b) (x - y) w ltac:(lia) ltac:(lia) Hw) as P. pose proof (div_succ (2 * b) ltac:(lia)) as D.
  clear - Hx Hy P D Hb. lia.
Qed.

(** ** The sequences of bounds *)

Definition res_is (r : res Z) (v : Z) : bool := match r with Ok z => z =? v | Err _ => false end.

(** The bound in a line, and the one in the next line, or [last] *)
Fixpoint steps_ok (next : Z -> res Z) (lines : list line) (last : Z) : bool :=
  match lines with
  | [] => (0 <=? last) && (last <=? 2147483647)
  | (b, o) :: tl =>
      let b' := match tl with [] => last | (b', _) :: _ => b' end in
      (0 <=? b) && (b <=? 2147483647)
      && match o with
         | None => res_is (next b) b'
         | Some c => (c =? b / 4096 + 12286) && res_is (next c) b'
         end
      && steps_ok next tl last
  end.

Definition round_sound (round : Z -> Z -> Prop) (b : Z) (o : option Z) (b' : Z) : Prop :=
  0 <= b <= 2147483647 /\
  match o with
  | None => round b b'
  | Some c => (forall x, Z.abs x <= b -> exists r, red x = Ok r /\ Z.abs r <= c) /\ round c b'
  end.

Lemma res_is_eq r v : res_is r v = true -> r = Ok v.
Proof. destruct r; cbn; [|discriminate]. intros H; apply Z.eqb_eq in H; congruence. Qed.

Lemma steps_sound next (round : Z -> Z -> Prop) lines last :
  (forall b B, 0 <= b <= 281474976710656 -> next b = Ok B -> round b B) ->
  steps_ok next lines last = true ->
  forall i b o b' o',
  nth_error (lines ++ [(last, None)]) i = Some (b, o) -> nth_error (lines ++ [(last, None)]) (S i) = Some (b', o') ->
  round_sound round b o b' /\ 0 <= b' <= 2147483647.
Proof.
  intros Hs. induction lines as [|[b0 o0] tl IH]; intros H i b o b' o' E1 E2.
  - cbn [app] in E2. destruct i; discriminate.
  - cbn [steps_ok] in H. rewrite !andb_true_iff, !Z.leb_le in H. destruct H as (((H1 & H2) & H3) & H4).
    destruct i as [|i].
    + cbn [app nth_error] in E1, E2. injection E1 as <- <-.
      assert (Hb' : b' = match tl with [] => last | (b', _) :: _ => b' end /\ 0 <= b' <= 2147483647).
      { destruct tl as [|[b1 o1] tl]; cbn [app] in E2; injection E2 as <- _; (split; [reflexivity|]);
          cbn [steps_ok] in H4; rewrite !andb_true_iff, !Z.leb_le in H4; lia. }
      destruct Hb' as [Hb' R]. rewrite <- Hb' in H3.
      split; [|assumption]. split; [lia|].
      destruct o0 as [c|].
      * apply andb_true_iff in H3. destruct H3 as [H3 H5]. apply Z.eqb_eq in H3. apply res_is_eq in H5.
        split.
        -- intros x Hx. exists (zred x). split; [apply red_ok; lia|]. rewrite H3. apply reduction_sound; lia.
        -- apply Hs; [|assumption]. rewrite H3. pose proof (div_succ b0 H1). lia.
      * apply res_is_eq in H3. apply Hs; [lia|assumption].
    + apply (IH H4 i b o b' o'); assumption.
Qed.

Definition ct_abs : Z * list line := (1207878998,
  [(12288, None); (61438, None); (258038, None); (1044438, None); (4190038, None); (16772438, None); (67102038, None);
   (268420438, None); (1073694038, Some 274418); (1109958, None); (4452118, None); (17820758, None); (71295318, None);
   (285193558, None); (1140786518, Some 290798); (1175478, None); (4714198, None); (18869078, None); (75488598, None);
   (301966678, None)]).
Definition gs_abs : Z * list line := (1004269498,
  [(12288, None); (86014, None); (528370, None); (3182506, None); (19107322, None); (114656218, None);
   (687949594, Some 180242); (1093738, None); (6574714, None); (39460570, None); (236775706, None);
   (1420666522, Some 359128); (2167054, None); (13014610, None); (78099946, None); (468611962, Some 126693);
   (772444, None); (4646950, None); (27893986, None); (167376202, None)]).
Definition ct_abs2 : Z * list line := (1206763584,
  [(12288, None); (61435, None); (258012, None); (1044272, None); (4189120, None); (16767744, None); (67079169, None);
   (268316676, None); (1073266704, Some 274314); (1109476, None); (4449920, None); (17810880, None); (71251458, None);
   (285005832, None); (1140023328, Some 290612); (1174664, None); (4710656, None); (18853760, None); (75422724, None);
   (301690896, None)]).
Definition gs_abs2 : Z * list line := (1003125168,
  [(12288, None); (86008, None); (528293, None); (3181787, None); (19101455, None); (114611690, None);
   (687670140, Some 180174); (1093243, None); (6571211, None); (39436344, None); (236618064, None);
   (1419708384, Some 358894); (2165475, None); (13004079, None); (78030411, None); (468182466, Some 126588);
   (771753, None); (4642428, None); (27864588, None); (167187528, None)]).

Lemma iter_bound_abs_value : iter_bound_abs = Ok (ct_abs, gs_abs).
Proof. vm_compute. reflexivity. Qed.
Lemma iter_bound_abs2_value : iter_bound_abs2 = Ok (ct_abs2, gs_abs2).
Proof. vm_compute. reflexivity. Qed.

Definition main_of (lo up : res Z) (rep : Z -> Z -> Z -> res (list Z)) (ia ia2 : res ((Z * list line) * (Z * list line))) :
  res printed :=
  do lower <- lo;
  do upper <- up;
  do l1 <- rep lower (-10000) 1000000000;
  do l2 <- rep upper (-1000000000) 10000;
  do a <- ia;
  do a2 <- ia2;
  Ok {| p_lower := lower; p_upper := upper; p_below := l1; p_above := l2; p_hex_lower := u64 lower; p_hex_upper := u64 upper;
        p_abs := a; p_abs2 := a2 |}.

Lemma main_of_eq lo up rep ia ia2 lower upper l1 l2 a a2 :
  lo = Ok lower -> up = Ok upper -> rep lower (-10000) 1000000000 = Ok l1 -> rep upper (-1000000000) 10000 = Ok l2 ->
  ia = Ok a -> ia2 = Ok a2 ->
  main_of lo up rep ia ia2 =
  Ok {| p_lower := lower; p_upper := upper; p_below := l1; p_above := l2; p_hex_lower := u64 lower; p_hex_upper := u64 upper;
        p_abs := a; p_abs2 := a2 |}.
Proof.
  intros -> -> H1 H2 -> ->. unfold main_of. cbn [bind]. rewrite H1. cbn [bind]. rewrite H2. reflexivity.
Qed.

Lemma main_main_of : main = main_of find_lower_bound find_upper_bound report iter_bound_abs iter_bound_abs2.
Proof.
  cbv delta [main main_of] beta.
  exact (eq_refl (
    do lower <- find_lower_bound;
    do upper <- find_upper_bound;
    do l1 <- report lower (-10000) 1000000000;
    do l2 <- report upper (-1000000000) 10000;
    do a <- iter_bound_abs;
    do a2 <- iter_bound_abs2;
    Ok {| p_lower := lower; p_upper := upper; p_below := l1; p_above := l2; p_hex_lower := u64 lower;
          p_hex_upper := u64 upper; p_abs := a; p_abs2 := a2 |})).
Qed.

Lemma main_value :
  main = Ok {| p_lower := -8796042698752; p_upper := 8796093026303; p_below := [-8193; -4097; -1]; p_above := [1; 4097; 8193];
    p_hex_lower := 18446735277666852864; p_hex_upper := 8796093026303;
    p_abs := (ct_abs, gs_abs); p_abs2 := (ct_abs2, gs_abs2) |}.
Proof.
  rewrite main_main_of.
  exact (main_of_eq _ _ _ _ _ _ _ _ _ _ _ find_lower_bound_ok find_upper_bound_ok report_lower report_upper
    iter_bound_abs_value iter_bound_abs2_value).
Qed.

(** ** Statements of the property *)

Lemma bounds_found_L : find_lower_bound = Ok (-8796042698752) /\ find_upper_bound = Ok 8796093026303.
Proof. exact (conj find_lower_bound_ok find_upper_bound_ok). Qed.

Lemma bounds_safe_L lo hi :
  find_lower_bound = Ok lo -> find_upper_bound = Ok hi ->
  (forall x, lo <= x <= hi -> exists r, red x = Ok r /\ - 2 ^ 31 <= r < 2 ^ 31)
  /\ (exists r, red (lo - 1) = Ok r /\ 2 ^ 31 <= r) /\ (exists r, red (hi + 1) = Ok r /\ r < - 2 ^ 31).
Proof.
  rewrite find_lower_bound_ok, find_upper_bound_ok. intros H1 H2. injection H1 as <-. injection H2 as <-.
  split; [|split].
  - intros x Hx. exists (zred x). split; [apply red_ok; lia|]. pose proof (zred_safe x Hx).
    change (2 ^ 31) with 2147483648. lia.
  - exists 2147483648. split; [vm_compute; reflexivity|vm_compute; discriminate].
  - exists (-2147483649). split; [vm_compute; reflexivity|vm_compute; reflexivity].
Qed.

Lemma test_overflow2_L q :
  - 2 ^ 51 <= q < 2 ^ 51 ->
  exists b, test_overflow2 q = Ok b /\
  (b = true <-> exists x r, 4096 * q <= x <= 4096 * q + 4095 /\ red x = Ok r /\ ~ (- 2 ^ 31 <= r < 2 ^ 31)).
Proof.
  intros Hq. change (2 ^ 51) with 2251799813685248 in Hq. change (2 ^ 31) with 2147483648.
  exists (block_overflows q). split; [apply test_overflow2_ok; assumption|].
  unfold block_overflows. rewrite orb_true_iff, !Z.ltb_lt. split.
  - intros [H|H].
    + exists (q * 4096 + 4095), (3 * 4095 - q). split; [lia|]. rewrite red_ok by lia. rewrite zred_block by lia.
      split; [reflexivity|lia].
    + exists (q * 4096 + 0), (3 * 0 - q). split; [lia|]. rewrite red_ok by lia. rewrite zred_block by lia.
      split; [reflexivity|lia].
  - intros (x & r & Hx & Hr & Ho). rewrite red_ok in Hr by lia. injection Hr as <-.
    replace x with (q * 4096 + (x - q * 4096)) in Ho by lia. rewrite zred_block in Ho by lia. lia.
Qed.

Lemma ct_bound_L b x y w :
  0 <= b <= 2 ^ 48 -> Z.abs x <= b -> Z.abs y <= b -> 0 <= w < 12289 ->
  exists B r, ct_bound b = Ok B /\ red (w * y) = Ok r /\ Z.abs (x + r) <= B /\ Z.abs (x - r) <= B.
Proof.
  intros Hb Hx Hy Hw. change (2 ^ 48) with 281474976710656 in Hb.
  destruct (ct_bound_sound b _ Hb (ct_bound_value b Hb) x y w Hx Hy Hw) as (r & E & H).
  eexists; exists r. split; [apply ct_bound_value; assumption|]. split; assumption.
Qed.

Lemma gs_bound_L b x y w :
  0 <= b <= 2 ^ 48 -> Z.abs x <= b -> Z.abs y <= b -> 0 <= w < 12289 ->
  exists B r, gs_bound b = Ok B /\ red (w * (x - y)) = Ok r /\ Z.abs (x + y) <= B /\ Z.abs r <= B.
Proof.
  intros Hb Hx Hy Hw. change (2 ^ 48) with 281474976710656 in Hb.
  destruct (gs_bound_sound b _ Hb (gs_bound_value b Hb) x y w Hx Hy Hw) as (r & E & H).
  eexists; exists r. split; [apply gs_bound_value; assumption|]. split; assumption.
Qed.

Lemma ct_rounds_L lines last g :
  iter_bound_abs = Ok ((last, lines), g) \/ iter_bound_abs2 = Ok ((last, lines), g) ->
  forall i b o b' o',
  nth_error (lines ++ [(last, None)]) i = Some (b, o) -> nth_error (lines ++ [(last, None)]) (S i) = Some (b', o') ->
  round_sound ct_round b o b' /\ 0 <= b' <= 2147483647.
Proof.
  rewrite iter_bound_abs_value, iter_bound_abs2_value.
  intros [H|H]; injection H as <- <- _.
  - apply steps_sound with ct_simple; [exact ct_simple_sound|vm_compute; reflexivity].
  - apply steps_sound with ct_bound; [exact ct_bound_sound|vm_compute; reflexivity].
Qed.

Lemma gs_rounds_L lines last c :
  iter_bound_abs = Ok (c, (last, lines)) \/ iter_bound_abs2 = Ok (c, (last, lines)) ->
  forall i b o b' o',
  nth_error (lines ++ [(last, None)]) i = Some (b, o) -> nth_error (lines ++ [(last, None)]) (S i) = Some (b', o') ->
  round_sound gs_round b o b' /\ 0 <= b' <= 2147483647.
Proof.
  rewrite iter_bound_abs_value, iter_bound_abs2_value.
  intros [H|H]; injection H as _ <- <-.
  - apply steps_sound with gs_simple; [exact gs_simple_sound|vm_compute; reflexivity].
  - apply steps_sound with gs_bound; [exact gs_bound_sound|vm_compute; reflexivity].
Qed.

Lemma ct_rounds_lt_L lines last g :
  iter_bound_abs = Ok ((last, lines), g) \/ iter_bound_abs2 = Ok ((last, lines), g) ->
  forall i b o b' o',
  nth_error (lines ++ [(last, None)]) i = Some (b, o) -> nth_error (lines ++ [(last, None)]) (S i) = Some (b', o') ->
  (0 <= b < 2 ^ 31 /\ match o with
   | None => ct_round b b'
   | Some c => (forall x, Z.abs x <= b -> exists r, red x = Ok r /\ Z.abs r <= c) /\ ct_round c b' end)
  /\ 0 <= b' < 2 ^ 31.
Proof.
  intros H i b o b' o' E1 E2. destruct (ct_rounds_L lines last g H i b o b' o' E1 E2) as ((R & S) & R').
  change (2 ^ 31) with 2147483648. split; [split; [lia|exact S]|lia].
Qed.

Lemma gs_rounds_lt_L lines last c :
  iter_bound_abs = Ok (c, (last, lines)) \/ iter_bound_abs2 = Ok (c, (last, lines)) ->
  forall i b o b' o',
  nth_error (lines ++ [(last, None)]) i = Some (b, o) -> nth_error (lines ++ [(last, None)]) (S i) = Some (b', o') ->
  (0 <= b < 2 ^ 31 /\ match o with
   | None => gs_round b b'
   | Some c => (forall x, Z.abs x <= b -> exists r, red x = Ok r /\ Z.abs r <= c) /\ gs_round c b' end)
  /\ 0 <= b' < 2 ^ 31.
Proof.
  intros H i b o b' o' E1 E2. destruct (gs_rounds_L lines last c H i b o b' o' E1 E2) as ((R & S) & R').
  change (2 ^ 31) with 2147483648. split; [split; [lia|exact S]|lia].
Qed.
