(** The tests of src/test_red_bounds.c that main does not run. *)

From Coq Require Import ZArith List Bool Lia.
From Verif Require Import CSem Spec Loops ModQ ModelBounds ModelTestRedBounds RedElem BoundsElem BoundsRound.
From Verif Require Import SpecRedBounds TestRedBoundsElem.
Import ListNotations.
Open Scope Z_scope.

(** ** Loops *)

(** Two bodies that agree on the indices that are reached *)
Lemma cfor_agree {S} (P : Z -> Prop) (cond : Z -> bool) (next : Z -> Z) (f g : Z -> S -> res S) :
  (forall i, P i -> cond i = true -> P (next i)) -> (forall i s, P i -> cond i = true -> f i s = g i s) ->
  forall fu i s, P i -> cfor fu i cond next f s = cfor fu i cond next g s.
Proof.
  intros HN HE. induction fu as [|fu IH]; intros i s HP; cbn [cfor]; [reflexivity|].
  destruct (cond i) eqn:EC; [|reflexivity]. rewrite HE by assumption. destruct (g i s); [|reflexivity]. rewrite !bind_Ok.
  apply IH. apply HN; assumption.
Qed.

(** Every value of b: 2^7, 2^8, .., 2^e *)
Lemma each_bound_ok {A} (e : Z) (body : Z -> list A -> res (list A)) (G : A -> Prop) (key : A -> Z) s : 7 <= e <= 32 ->
  (forall b s, 128 <= b <= 2 ^ e -> exists x, body b s = Ok (s ++ [x]) /\ G x /\ key x = b) ->
  exists l, each_bound (Z.shiftl 1 e) body s = Ok (s ++ l) /\ Forall G l /\ length l = Z.to_nat (e - 6)
    /\ forall m, 0 <= m < e - 6 -> exists x, In x l /\ key x = 2 ^ (7 + m).
Proof.
  intros He HB. unfold each_bound. rewrite Z.shiftl_1_l.
  destruct (cfor_count (fun m out => exists l, out = s ++ l /\ Forall G l /\ length l = Z.to_nat m
      /\ forall i, 0 <= i < m -> exists x, In x l /\ key x = 2 ^ (7 + i)) (e - 6) (fun m => 2 ^ (7 + m))
    (fun b => b <=? 2 ^ e) (fun b => b * 2) body) with (f := fuel 64) (i0 := 128) (st := s) as (r & E & l & -> & HF & HL & HC).
  - lia.
  - intros m Hm. apply Z.leb_le, Z.pow_le_mono_r; lia.
  - apply Z.leb_gt, Z.pow_lt_mono_r; lia.
  - intros m Hm. rewrite Z.mul_comm, <- Z.pow_succ_r by lia. f_equal. lia.
  - intros m st Hm (l & -> & HF & HL & HC). destruct (HB (2 ^ (7 + m)) (s ++ l)) as (x & E & Hx & Hk).
    { change 128 with (2 ^ 7). split; apply Z.pow_le_mono_r; lia. }
    exists ((s ++ l) ++ [x]). split; [exact E|]. exists (l ++ [x]). split; [rewrite app_assoc; reflexivity|].
    split; [apply Forall_app; auto|]. split; [rewrite app_length; cbn [length]; lia|].
    intros i Hi. destruct (Z.eq_dec i m) as [->|].
    + exists x. split; [apply in_or_app; right; left; reflexivity|exact Hk].
    + destruct (HC i ltac:(lia)) as (x' & HI & Hx'). exists x'. split; [apply in_or_app; left; exact HI|exact Hx'].
  - reflexivity.
  - unfold fuel. lia.
  - exists []. rewrite app_nil_r. split; [reflexivity|]. split; [constructor|]. split; [reflexivity|]. intros. lia.
  - exists l. auto.
Qed.

(** A loop that stops at the first x for which P does not hold *)
Lemma cfor_decides (P : Z -> Prop) (body : Z -> unit -> res unit) lo hi :
  (forall x, lo <= x <= hi -> (body x tt = Ok tt /\ P x) \/ (body x tt = Err Exited /\ ~ P x)) ->
  let r := cfor (fuel (hi - lo + 1)) lo (fun x => x <=? hi) (fun x => x + 1) body tt in
  (r = Ok tt /\ forall x, lo <= x <= hi -> P x) \/ (r = Err Exited /\ exists x, lo <= x <= hi /\ ~ P x).
Proof.
  cbv zeta. intros HB.
  assert (G : forall fu x, lo <= x <= hi + 1 -> hi - x + 1 < Z.of_nat fu -> let r := cfor fu x (fun x => x <=? hi) (fun x => x + 1) body tt in
    (r = Ok tt /\ forall y, x <= y <= hi -> P y) \/ (r = Err Exited /\ exists y, x <= y <= hi /\ ~ P y)).
  { cbv zeta. induction fu as [|fu IH]; intros x Hx Hf.
    { cbn [cfor]. lia. }
    cbn [cfor]. destruct (Z.leb_spec x hi) as [Hle|Hgt].
    - destruct (HB x ltac:(lia)) as [[-> HP]|[-> HP]].
      + rewrite bind_Ok. destruct (IH (x + 1) ltac:(lia) ltac:(lia)) as [[-> HA]|[-> (y & Hy & HE)]].
        * left. split; [reflexivity|]. intros y Hy. destruct (Z.eq_dec y x) as [->|]; [exact HP|]. apply HA. lia.
        * right. split; [reflexivity|]. exists y. split; [lia|exact HE].
      + cbn [bind]. right. split; [reflexivity|]. exists x. split; [lia|exact HP].
    - left. split; [reflexivity|]. intros. lia. }
  destruct (Z.le_gt_cases lo hi) as [Hle|Hgt].
  - apply G; [lia|unfold fuel; lia].
  - left. split; [|intros; lia]. unfold fuel. cbn [cfor]. replace (lo <=? hi) with false by lia. reflexivity.
Qed.

Lemma check_all_decides lo hi f min max : (forall x, lo <= x <= hi -> exists r, f x = Ok r) ->
  (check_all lo hi f min max = Ok tt <-> forall x r, lo <= x <= hi -> f x = Ok r -> min <= r <= max)
  /\ (check_all lo hi f min max = Ok tt \/ check_all lo hi f min max = Err Exited).
Proof.
  intros Hf. unfold check_all.
  destruct (cfor_decides (fun x => forall r, f x = Ok r -> min <= r <= max)
    (fun x (_ : unit) => do r <- f x; if (r <? min) || (max <? r) then Err Exited else Ok tt) lo hi) as [[-> HA]|[-> (x & Hx & HN)]].
  - intros x Hx. destruct (Hf x Hx) as (r & E). rewrite E, bind_Ok. destruct ((r <? min) || (max <? r)) eqn:EC; [right|left]; (split; [reflexivity|]).
    + intros H. specialize (H r eq_refl). lia.
    + intros r' H. injection H as <-. lia.
  - split; [|left; reflexivity]. split; [|reflexivity]. intros _ x r Hx. exact (HA x Hx r).
  - split; [|right; reflexivity]. split; [discriminate|]. intros H. exfalso. apply HN. intros r. exact (H x r Hx).
Qed.

Lemma check_all_ok lo hi f min max : lo <= hi -> (forall x, lo <= x <= hi -> exists r, f x = Ok r /\ min <= r <= max) ->
  check_all lo hi f min max = Ok tt.
Proof.
  intros _ Hf. apply check_all_decides.
  - intros x Hx. destruct (Hf x Hx) as (r & E & _). exists r. exact E.
  - intros x r Hx E. destruct (Hf x Hx) as (r' & E' & H). congruence.
Qed.

(** ** test_min_max_red *)

Definition red_entry (x : Z * Z * Z * Z * Z) : Prop :=
  let '(b, min, min_x, max, max_x) := x in red_extrema (- b) b min min_x max max_x.

Lemma test_min_max_red_ok : exists out, (forall d, test_min_max_red d = Ok out) /\ Forall red_entry out /\ length out = 26%nat
  /\ forall i, 0 <= i <= 25 -> exists min min_x max max_x, In (2 ^ (7 + i), min, min_x, max, max_x) out.
Proof.
  unfold test_min_max_red.
  assert (HB : forall d b out, 128 <= b <= 2 ^ 32 -> exists min min_x max max_x,
    (do nb <- neg64 b;
    do '(min, min_x) <- min_red nb b;
    do '(max, max_x) <- max_red nb b;
    do _ <- (if d : bool then check_all nb b red min max else Ok tt);
    Ok (out ++ [(b, min, min_x, max, max_x)])) = Ok (out ++ [(b, min, min_x, max, max_x)]) /\ min_red (- b) b = Ok (min, min_x)
    /\ max_red (- b) b = Ok (max, max_x) /\ red_entry (b, min, min_x, max, max_x)).
  { intros d b out Hb. change (2 ^ 32) with 4294967296 in Hb. unfold neg64, sub64. rewrite i64_ok by lia. rewrite bind_Ok. replace (0 - b) with (- b) by ring.
    destruct (min_red_ok (- b) b) as (m1 & E1 & H1 & M1); [unfold i64r; lia|unfold i64r; lia|lia|].
    destruct (max_red_ok (- b) b) as (m2 & E2 & H2 & M2); [unfold i64r; lia|unfold i64r; lia|lia|].
    exists (redz m1), m1, (redz m2), m2. rewrite E1, bind_Ok, E2, bind_Ok.
    split; [|split; [reflexivity|split; [reflexivity|]]].
    - replace (if d then check_all (- b) b red (redz m1) (redz m2) else Ok tt) with (Ok tt); [rewrite bind_Ok; reflexivity|].
      destruct d; [|reflexivity]. symmetry. apply check_all_ok; [lia|]. intros x Hx. exists (redz x). split; [|auto].
      apply red_ok64. unfold i64r. lia.
    - split; [exact H1|]. split; [reflexivity|]. split; [exact H2|]. split; [reflexivity|]. intros x Hx. split; [apply M1|apply M2]; exact Hx. }
  destruct (each_bound_ok 32 (fun b out =>
    do nb <- neg64 b;
    do '(min, min_x) <- min_red nb b;
    do '(max, max_x) <- max_red nb b;
    do _ <- Ok tt;
    Ok (out ++ [(b, min, min_x, max, max_x)])) red_entry (fun '(b, _, _, _, _) => b) []) as (l & E & HF & HL & HC).
  - lia.
  - intros b s Hb. destruct (HB false b s Hb) as (min & min_x & max & max_x & E & _ & _ & HE). eexists. split; [exact E|split; [exact HE|reflexivity]].
  - exists l. split; [|split; [exact HF|split; [exact HL|]]].
    2: { intros i Hi. destruct (HC i ltac:(lia)) as ([[[[b m1] x1] m2] x2] & HI & <-). exists m1, x1, m2, x2. exact HI. }
    intros d. etransitivity; [|exact E]. unfold each_bound.
    apply (cfor_agree (fun b => 128 <= b)).
    + intros. lia.
    + intros b s Hb Hc. rewrite Z.shiftl_1_l in Hc.
      destruct (HB d b s ltac:(lia)) as (min & min_x & max & max_x & -> & E1 & E2 & _).
      unfold neg64, sub64. rewrite i64_ok by (change (2 ^ 32) with 4294967296 in Hc; lia). rewrite bind_Ok. replace (0 - b) with (- b) by ring.
      rewrite E1, bind_Ok, E2, !bind_Ok. reflexivity.
    + lia.
Qed.

(** ** test_min_max_red_mul *)

Definition mul_entry (x : Z * Z * Z * Z * Z * Z) : Prop :=
  let '(b, w, min, min_x, max, max_x) := x in
  - b <= min_x <= b /\ min = ln_red (w * min_x) /\ - b <= max_x <= b /\ max = ln_red (w * max_x)
  /\ forall x, - b <= x <= b -> min <= ln_red (w * x) <= max.

Lemma test_constant_ok w out : w <> 0 -> -12288 <= w <= 12288 ->
  exists l, (forall d, test_constant d w out = Ok (out ++ l)) /\ Forall mul_entry l /\ length l = 17%nat
    /\ forall i, 0 <= i <= 16 -> exists min min_x max max_x, In (2 ^ (7 + i), w, min, min_x, max, max_x) l.
Proof.
  intros Hw0 Hw. unfold test_constant.
  assert (HB : forall d b out, 128 <= b <= 2 ^ 23 -> exists min min_x max max_x,
    (do nb <- neg64 b;
    do '(min, min_x) <- min_red_mul nb b w;
    do '(max, max_x) <- max_red_mul nb b w;
    do _ <- (if d : bool then check_all nb b (fun x => do y <- mul64 x w; red y) min max else Ok tt);
    Ok (out ++ [(b, w, min, min_x, max, max_x)])) = Ok (out ++ [(b, w, min, min_x, max, max_x)]) /\ min_red_mul (- b) b w = Ok (min, min_x)
    /\ max_red_mul (- b) b w = Ok (max, max_x) /\ mul_entry (b, w, min, min_x, max, max_x)).
  { clear out. intros d b out Hb. change (2 ^ 23) with 8388608 in Hb. unfold neg64, sub64. rewrite i64_ok by lia. rewrite bind_Ok. replace (0 - b) with (- b) by ring.
    assert (HM : forall x, - b <= x <= b -> -103079215104 <= w * x <= 103079215104).
    { intros x Hx. assert (H := abs_mul_range w x b Hx). assert (Z.abs w * b <= 12288 * 8388608) by (apply Z.mul_le_mono_nonneg; lia). lia. }
    assert (HM1 := HM (- b) ltac:(lia)). assert (HM2 := HM b ltac:(lia)).
    destruct (min_red_mul_ok (- b) b w) as (m1 & E1 & H1 & M1); [lia|exact Hw0|lia|unfold sbnd; lia|unfold sbnd; lia|].
    destruct (max_red_mul_ok (- b) b w) as (m2 & E2 & H2 & M2); [lia|exact Hw0|lia|unfold sbnd; lia|unfold sbnd; lia|].
    exists (redz (w * m1)), m1, (redz (w * m2)), m2. rewrite E1, bind_Ok, E2, bind_Ok.
    split; [|split; [reflexivity|split; [reflexivity|]]].
    - match goal with |- bind ?c _ = _ => replace c with (Ok tt) end; [rewrite bind_Ok; reflexivity|].
      destruct d; [|reflexivity]. symmetry. apply check_all_ok; [lia|]. intros x Hx. exists (redz (w * x)). split; [|auto].
      specialize (HM x Hx). unfold mul64. rewrite (Z.mul_comm x w), i64_ok by lia. rewrite bind_Ok. apply red_ok64. unfold i64r. lia.
    - split; [exact H1|]. split; [reflexivity|]. split; [exact H2|]. split; [reflexivity|]. intros x Hx. split; [apply M1|apply M2]; exact Hx. }
  destruct (each_bound_ok 23 (fun b out =>
    do nb <- neg64 b;
    do '(min, min_x) <- min_red_mul nb b w;
    do '(max, max_x) <- max_red_mul nb b w;
    do _ <- Ok tt;
    Ok (out ++ [(b, w, min, min_x, max, max_x)])) (fun x => mul_entry x /\ let '(_, v, _, _, _, _) := x in v = w)
    (fun '(b, _, _, _, _, _) => b) out) as (l & E & HF & HL & HC).
  - lia.
  - intros b s Hb. destruct (HB false b s Hb) as (min & min_x & max & max_x & E & _ & _ & HE). eexists. split; [exact E|split; [split; [exact HE|reflexivity]|reflexivity]].
  - rewrite Forall_forall in HF. exists l. split; [|split; [|split; [exact HL|]]].
    2: { apply Forall_forall. intros x HI. exact (proj1 (HF x HI)). }
    2: { intros i Hi. destruct (HC i ltac:(lia)) as ([[[[[b v] m1] x1] m2] x2] & HI & <-). destruct (HF _ HI) as [_ ->]. exists m1, x1, m2, x2. exact HI. }
    intros d. etransitivity; [|exact E]. unfold each_bound.
    apply (cfor_agree (fun b => 128 <= b)).
    + intros. lia.
    + intros b s Hb Hc. rewrite Z.shiftl_1_l in Hc.
      destruct (HB d b s ltac:(lia)) as (min & min_x & max & max_x & -> & E1 & E2 & _).
      unfold neg64, sub64. rewrite i64_ok by (change (2 ^ 23) with 8388608 in Hc; lia). rewrite bind_Ok. replace (0 - b) with (- b) by ring.
      rewrite E1, bind_Ok, E2, !bind_Ok. reflexivity.
    + lia.
Qed.

(** A loop on w *)
Lemma constants_ok (s : Z) out : s = 1 \/ s = -1 ->
  exists l, (forall d, cfor (fuel 12288) s (fun w => if 0 <? s then w <=? 12288 else -12288 <=? w) (fun w => w + s) (test_constant d) out = Ok (out ++ l))
    /\ Forall mul_entry l /\ length l = Z.to_nat 208896
    /\ forall i v, 0 <= i <= 16 -> 1 <= v <= 12288 -> exists min min_x max max_x, In (2 ^ (7 + i), s * v, min, min_x, max, max_x) l.
Proof.
  intros Hs.
  assert (HD : forall d, exists l, cfor (fuel 12288) s (fun w => if 0 <? s then w <=? 12288 else -12288 <=? w) (fun w => w + s) (test_constant d) out = Ok (out ++ l)
    /\ Forall mul_entry l /\ length l = Z.to_nat 208896
    /\ forall i v, 0 <= i <= 16 -> 1 <= v <= 12288 -> exists min min_x max max_x, In (2 ^ (7 + i), s * v, min, min_x, max, max_x) l).
  { intros d. destruct (cfor_count (fun m r => exists l, r = out ++ l /\ Forall mul_entry l /\ length l = Z.to_nat (m * 17)
      /\ forall i v, 0 <= i <= 16 -> 1 <= v <= m -> exists min min_x max max_x, In (2 ^ (7 + i), s * v, min, min_x, max, max_x) l) 12288 (fun m => s * (m + 1))
      (fun w => if 0 <? s then w <=? 12288 else -12288 <=? w) (fun w => w + s) (test_constant d)) with (f := fuel 12288) (i0 := s) (st := out)
      as (r & E & l & -> & HF & HL & HC).
    - lia.
    - intros m Hm. destruct Hs as [-> | ->]; [replace (0 <? 1) with true by reflexivity|replace (0 <? -1) with false by reflexivity]; lia.
    - destruct Hs as [-> | ->]; reflexivity.
    - intros m Hm. ring.
    - intros m st Hm (l & -> & HF & HL & HC). destruct (test_constant_ok (s * (m + 1)) (out ++ l)) as (l' & E & HF' & HL' & HC'); [lia|lia|].
      eexists. split; [apply E|]. exists (l ++ l'). split; [rewrite app_assoc; reflexivity|]. split; [apply Forall_app; auto|].
      split; [rewrite app_length; lia|]. intros i v Hi Hv. destruct (Z.eq_dec v (m + 1)) as [->|].
      + destruct (HC' i Hi) as (m1 & x1 & m2 & x2 & HI). exists m1, x1, m2, x2. apply in_or_app. right. exact HI.
      + destruct (HC i v Hi ltac:(lia)) as (m1 & x1 & m2 & x2 & HI). exists m1, x1, m2, x2. apply in_or_app. left. exact HI.
    - lia.
    - unfold fuel. lia.
    - exists []. rewrite app_nil_r. split; [reflexivity|]. split; [constructor|]. split; [reflexivity|]. intros. lia.
    - exists l. split; [exact E|]. split; [exact HF|]. split; [rewrite HL; reflexivity|exact HC]. }
  destruct (HD false) as (l & E & HF & HL & HC). exists l. split; [|split; [exact HF|split; [exact HL|exact HC]]].
  intros d. etransitivity; [|exact E]. apply (cfor_agree (fun w => w <> 0 /\ 0 < w * s)).
  - intros w [H1 H2] _. lia.
  - clear HC. intros w st [H1 H2] HC. destruct (test_constant_ok w st H1) as (l' & E' & _).
    { destruct Hs as [-> | ->]; [replace (0 <? 1) with true in HC by reflexivity|replace (0 <? -1) with false in HC by reflexivity]; lia. }
    rewrite !E'. reflexivity.
  - lia.
Qed.

Lemma test_min_max_red_mul_ok : exists out, (forall d, test_min_max_red_mul d = Ok out) /\ Forall mul_entry out
  /\ length out = Z.to_nat 417792
  /\ forall i w, 0 <= i <= 16 -> 1 <= Z.abs w <= 12288 -> exists min min_x max max_x, In (2 ^ (7 + i), w, min, min_x, max, max_x) out.
Proof.
  destruct (constants_ok 1 [] (or_introl eq_refl)) as (l1 & E1 & F1 & L1 & C1).
  destruct (constants_ok (-1) l1 (or_intror eq_refl)) as (l2 & E2 & F2 & L2 & C2).
  exists (l1 ++ l2). split; [|split; [apply Forall_app; auto|split; [rewrite app_length, L1, L2, <- Z2Nat.inj_add by lia; reflexivity|]]].
  2: { intros i w Hi Hw. destruct (Z.lt_ge_cases 0 w) as [Hp|Hn].
    - destruct (C1 i w Hi ltac:(lia)) as (m1 & x1 & m2 & x2 & HI). rewrite Z.mul_1_l in HI.
      exists m1, x1, m2, x2. apply in_or_app. left. exact HI.
    - destruct (C2 i (- w) Hi ltac:(lia)) as (m1 & x1 & m2 & x2 & HI). replace (-1 * - w) with w in HI by ring.
      exists m1, x1, m2, x2. apply in_or_app. right. exact HI. }
  intros d. unfold test_min_max_red_mul. specialize (E1 d). specialize (E2 d).
  replace (0 <? 1) with true in E1 by reflexivity. replace (0 <? -1) with false in E2 by reflexivity. cbn [app] in E1.
  rewrite E1, bind_Ok. exact E2.
Qed.

(** ** test_min_max_red_mul_interval *)

Definition interval_entry (x : Z * Z * (Z * Z * Z) * (Z * Z * Z)) : Prop :=
  let '(b, w, min, max) := x in mul_extrema_at (- b) b (- w) w min max.

Lemma check_products_ok b w min max : 128 <= b <= 4294967296 -> 1000 <= w <= 12288 ->
  (forall x y, - b <= x <= b -> - w <= y <= w -> min <= redz (x * y) <= max) -> check_products b w min max = Ok tt.
Proof.
  intros Hb Hw HM. unfold check_products. replace (w <? 1000) with false by lia. unfold sub64 at 1. rewrite i64_ok by lia. rewrite bind_Ok.
  assert (HP : forall x y, - b <= x <= b -> - w <= y <= w -> -52776558133248 <= x * y <= 52776558133248).
  { intros x y Hx Hy. assert (H := abs_mul_range x y w Hy). assert (Z.abs x * w <= 4294967296 * 12288) by (apply Z.mul_le_mono_nonneg; lia). lia. }
  destruct (cfor_count (fun _ (_ : unit) => True) (w - (w - 1000) + 1) (fun m => w - 1000 + m) (fun a => a <=? w) (fun a => a + 1) (fun a (_ : unit) =>
    do x <- (if b <? 30000 then neg64 b else sub64 b 30000);
    cfor (fuel (b - x + 1)) x (fun x => x <=? b) (fun x => x + 1) (fun x (_ : unit) =>
      do y <- mul64 x a;
      do r <- red y;
      do _ <- (if (r <? min) || (max <? r) then Err Exited else Ok tt);
      do nx <- neg64 x;
      do y <- mul64 nx a;
      do r <- red y;
      if (r <? min) || (max <? r) then Err Exited else Ok tt) tt)) with (f := fuel (w - (w - 1000) + 1)) (i0 := w - 1000) (st := tt) as ([] & E & _).
  - lia.
  - intros. lia.
  - lia.
  - intros. lia.
  - intros m st Hm _. set (x0 := if b <? 30000 then - b else b - 30000).
    assert (Hx0 : - b <= x0 <= b) by (unfold x0; destruct (Z.ltb_spec b 30000); lia).
    replace (if b <? 30000 then neg64 b else sub64 b 30000) with (Ok x0).
    2: { unfold x0, neg64, sub64. destruct (b <? 30000); rewrite i64_ok by lia; reflexivity. }
    rewrite bind_Ok.
    destruct (cfor_count (fun _ (_ : unit) => True) (b - x0 + 1) (fun m => x0 + m) (fun x => x <=? b) (fun x => x + 1) (fun x (_ : unit) =>
      do y <- mul64 x (w - 1000 + m);
      do r <- red y;
      do _ <- (if (r <? min) || (max <? r) then Err Exited else Ok tt);
      do nx <- neg64 x;
      do y <- mul64 nx (w - 1000 + m);
      do r <- red y;
      if (r <? min) || (max <? r) then Err Exited else Ok tt)) with (f := fuel (b - x0 + 1)) (i0 := x0) (st := tt) as ([] & E & _).
    + lia.
    + intros. lia.
    + lia.
    + intros. lia.
    + intros i st' Hi _. set (y := w - 1000 + m). assert (Hy : - w <= y <= w) by (unfold y; lia). clearbody y.
      set (x := x0 + i). assert (Hx : - b <= x <= b) by (unfold x; lia). clearbody x.
      assert (P1 := HP x y Hx Hy). assert (P2 := HP (- x) y ltac:(lia) Hy).
      assert (M1 := HM x y Hx Hy). assert (M2 := HM (- x) y ltac:(lia) Hy).
      unfold neg64, mul64, sub64. rewrite (i64_ok (x * y)) by lia. rewrite bind_Ok, red_ok64 by (unfold i64r; lia). rewrite bind_Ok.
      replace ((redz (x * y) <? min) || (max <? redz (x * y))) with false by lia. rewrite bind_Ok.
      rewrite (i64_ok (0 - x)) by lia. rewrite bind_Ok. replace (0 - x) with (- x) by ring. rewrite i64_ok by lia.
      rewrite bind_Ok, red_ok64 by (unfold i64r; lia). rewrite bind_Ok.
      replace ((redz (- x * y) <? min) || (max <? redz (- x * y))) with false by lia. exists tt. auto.
    + lia.
    + unfold fuel. lia.
    + exact I.
    + exists tt. split; [exact E|exact I].
  - lia.
  - unfold fuel. lia.
  - exact I.
  - exact E.
Qed.

Lemma interval_bodies b w : 128 <= b <= 4294967296 -> 1536 <= w <= 12288 ->
  exists mn mx, min_red_mul_interval (- b) b (- w) w = Ok mn /\ max_red_mul_interval (- b) b (- w) w = Ok mx
    /\ interval_entry (b, w, mn, mx).
Proof.
  intros Hb Hw.
  assert (HR : wrange b (- w) w).
  { assert (Z.abs (- w) * b <= 12288 * 4294967296) by (apply Z.mul_le_mono_nonneg; lia).
    assert (Z.abs w * b <= 12288 * 4294967296) by (apply Z.mul_le_mono_nonneg; lia). unfold wrange. lia. }
  destruct (min_red_mul_interval_gen (- b) b b (- w) w) as (r1 & x1 & w1 & E1 & H1 & V1 & P1 & M1); try assumption; try lia.
  destruct (max_red_mul_interval_gen (- b) b b (- w) w) as (r2 & x2 & w2 & E2 & H2 & V2 & P2 & M2); try assumption; try lia.
  exists (r1, x1, w1), (r2, x2, w2). split; [exact E1|]. split; [exact E2|]. unfold interval_entry, mul_extrema_at.
  specialize (M1 ltac:(lia)). specialize (M2 ltac:(lia)).
  assert (Hneg : r1 < 0).
  { assert (HZ := M1 32 128 ltac:(lia) ltac:(lia)). change (redz (128 * 32)) with (-1) in HZ. lia. }
  assert (Hpos : 0 < r2).
  { assert (HZ := M2 1 1 ltac:(lia) ltac:(lia)). change (redz (1 * 1)) with 3 in HZ. lia. }
  destruct P1 as [P1|[P1 P1']]; [lia|]. destruct P2 as [P2|[P2 P2']]; [lia|].
  split; [exact P1'|]. split; [exact P1|]. split; [rewrite Z.mul_comm; exact V1|].
  split; [exact P2'|]. split; [exact P2|]. split; [rewrite Z.mul_comm; exact V2|].
  intros x y Hx Hy. rewrite (Z.mul_comm x y). split; [apply M1|apply M2]; assumption.
Qed.

Lemma test_interval_ok : exists out, (forall d, test_min_max_red_mul_interval d = Ok out) /\ Forall interval_entry out
  /\ length out = 104%nat
  /\ forall i w, 0 <= i <= 25 -> In w [1536; 3072; 6144; 12288] -> exists min max, In (2 ^ (7 + i), w, min, max) out.
Proof.
  assert (HB : forall d b w out, 128 <= b <= 2 ^ 32 -> 1536 <= w <= 12288 -> exists mn mx,
      (do nb <- neg64 b;
      do nw <- neg64 w;
      do '(min, min_x, min_w) <- min_red_mul_interval nb b nw w;
      do '(max, max_x, max_w) <- max_red_mul_interval nb b nw w;
      do _ <- (if d : bool then check_products b w min max else Ok tt);
      Ok (out ++ [(b, w, (min, min_x, min_w), (max, max_x, max_w))])) = Ok (out ++ [(b, w, mn, mx)])
      /\ min_red_mul_interval (- b) b (- w) w = Ok mn /\ max_red_mul_interval (- b) b (- w) w = Ok mx
      /\ interval_entry (b, w, mn, mx)).
  { intros d b w out Hb Hw. change (2 ^ 32) with 4294967296 in Hb. unfold neg64, sub64. rewrite i64_ok by lia. rewrite bind_Ok.
    rewrite i64_ok by lia. rewrite bind_Ok. replace (0 - b) with (- b) by ring. replace (0 - w) with (- w) by ring.
    destruct (interval_bodies b w Hb Hw) as ([[m1 x1] y1] & [[m2 x2] y2] & E1 & E2 & HE).
    exists (m1, x1, y1), (m2, x2, y2). rewrite E1, bind_Ok, E2, bind_Ok. split; [|auto].
    replace (if d then check_products b w m1 m2 else Ok tt) with (Ok tt); [reflexivity|].
    destruct d; [|reflexivity]. symmetry. apply check_products_ok; [exact Hb|lia|].
    destruct HE as (_ & _ & _ & _ & _ & _ & HM). exact HM. }
  set (row := fun (d : bool) w out => each_bound (Z.shiftl 1 32) (fun b out =>
      do nb <- neg64 b;
      do nw <- neg64 w;
      do '(min, min_x, min_w) <- min_red_mul_interval nb b nw w;
      do '(max, max_x, max_w) <- max_red_mul_interval nb b nw w;
      do _ <- (if d : bool then check_products b w min max else Ok tt);
      Ok (out ++ [(b, w, (min, min_x, min_w), (max, max_x, max_w))])) out).
  assert (HR : forall w out, 1536 <= w <= 12288 -> exists l, (forall d, row d w out = Ok (out ++ l)) /\ Forall interval_entry l /\ length l = 26%nat
    /\ forall i, 0 <= i <= 25 -> exists min max, In (2 ^ (7 + i), w, min, max) l).
  { intros w out Hw. unfold row.
    destruct (each_bound_ok 32 (fun b out =>
      do nb <- neg64 b;
      do nw <- neg64 w;
      do '(min, min_x, min_w) <- min_red_mul_interval nb b nw w;
      do '(max, max_x, max_w) <- max_red_mul_interval nb b nw w;
      do _ <- Ok tt;
      Ok (out ++ [(b, w, (min, min_x, min_w), (max, max_x, max_w))])) (fun x => interval_entry x /\ let '(_, v, _, _) := x in v = w)
      (fun '(b, _, _, _) => b) out) as (l & E & HF & HL & HC).
    - lia.
    - intros b s Hb. destruct (HB false b w s Hb Hw) as (mn & mx & E & _ & _ & HE). eexists. split; [exact E|split; [split; [exact HE|reflexivity]|reflexivity]].
    - rewrite Forall_forall in HF. exists l. split; [|split; [|split; [exact HL|]]].
      2: { apply Forall_forall. intros x HI. exact (proj1 (HF x HI)). }
      2: { intros i Hi. destruct (HC i ltac:(lia)) as ([[[b v] mn] mx] & HI & <-). destruct (HF _ HI) as [_ ->]. exists mn, mx. exact HI. }
      intros d. etransitivity; [|exact E]. unfold each_bound.
      apply (cfor_agree (fun b => 128 <= b)).
      + intros. lia.
      + intros b s Hb Hc. rewrite Z.shiftl_1_l in Hc.
        destruct (HB d b w s ltac:(lia) Hw) as (mn & mx & -> & E1 & E2 & _).
        destruct (HB false b w s ltac:(lia) Hw) as (mn' & mx' & -> & E1' & E2' & _). congruence.
      + lia. }
  destruct (HR 12288 [] ltac:(lia)) as (l1 & E1 & F1 & L1 & C1).
  destruct (HR 6144 l1 ltac:(lia)) as (l2 & E2 & F2 & L2 & C2).
  destruct (HR 3072 (l1 ++ l2) ltac:(lia)) as (l3 & E3 & F3 & L3 & C3).
  destruct (HR 1536 ((l1 ++ l2) ++ l3) ltac:(lia)) as (l4 & E4 & F4 & L4 & C4).
  exists (((l1 ++ l2) ++ l3) ++ l4). split; [|split; [repeat (apply Forall_app; split); assumption|split; [rewrite !app_length; lia|]]].
  2: { intros i w Hi [<-|[<-|[<-|[<-|[]]]]].
    - destruct (C4 i Hi) as (mn & mx & HI). exists mn, mx. rewrite !in_app_iff. right. exact HI.
    - destruct (C3 i Hi) as (mn & mx & HI). exists mn, mx. rewrite !in_app_iff. left. right. exact HI.
    - destruct (C2 i Hi) as (mn & mx & HI). exists mn, mx. rewrite !in_app_iff. left. left. right. exact HI.
    - destruct (C1 i Hi) as (mn & mx & HI). exists mn, mx. rewrite !in_app_iff. left. left. left. exact HI. }
  intros d. unfold test_min_max_red_mul_interval. fold (row d).
  change (fuel 14) with (S (S (S (S (S 10%nat))))). cbn [cfor].
  change (Z.quot 12288 8 <=? 12288) with true. cbv iota. rewrite E1, bind_Ok. cbn [app].
  change (Z.quot 12288 2) with 6144. cbn [cfor]. change (Z.quot 12288 8 <=? 6144) with true. cbv iota. rewrite E2, bind_Ok.
  change (Z.quot 6144 2) with 3072. cbn [cfor]. change (Z.quot 12288 8 <=? 3072) with true. cbv iota. rewrite E3, bind_Ok.
  change (Z.quot 3072 2) with 1536. cbn [cfor]. change (Z.quot 12288 8 <=? 1536) with true. cbv iota. rewrite E4, bind_Ok.
  change (Z.quot 1536 2) with 768. cbn [cfor]. change (Z.quot 12288 8 <=? 768) with false. reflexivity.
Qed.

(** ** test_shift.c *)

Lemma shift_rows : exists out, shift_main = Ok out /\ length out = 1003%nat /\
  forall i, 0 <= i < 1003 -> nth_error out (Z.to_nat i) = Some
    (if i =? 0 then [0; 0; 0; 0; 0; 0; 0; 0] else [0; 0; -1; -1; 0; 0; 12289; 12289]).
Proof.
  unfold shift_main.
  destruct (cfor_count (fun m out => length out = Z.to_nat m /\ forall i, 0 <= i < m -> nth_error out (Z.to_nat i) = Some
    (if i =? 0 then [0; 0; 0; 0; 0; 0; 0; 0] else [0; 0; -1; -1; 0; 0; 12289; 12289])) 1003 (fun m => m) (fun i => i <? 1003) (fun i => i + 1)
    (fun i out => do ni <- sub32 0 i;
    Ok (out ++ [[Z.shiftr i 31; Z.shiftr i 11; Z.shiftr ni 31; Z.shiftr ni 11;
                 Z.land (Z.shiftr i 31) 12289; Z.land (Z.shiftr i 11) 12289;
                 Z.land (Z.shiftr ni 31) 12289; Z.land (Z.shiftr ni 11) 12289]]))) with (f := fuel 1003) (i0 := 0) (st := @nil (list Z))
    as (out & E & HL & HO).
  - lia.
  - intros. lia.
  - reflexivity.
  - intros. reflexivity.
  - intros m out Hm [HL HO]. unfold sub32. rewrite i32_ok by lia. rewrite bind_Ok. eexists. split; [reflexivity|].
    split; [rewrite app_length; cbn [length]; lia|]. intros i Hi.
    destruct (Z.eq_dec i m) as [->|].
    + rewrite nth_error_app2 by lia. replace (Z.to_nat m - length out)%nat with 0%nat by lia. cbn [nth_error]. f_equal.
      rewrite !Z.shiftr_div_pow2 by lia. change (2 ^ 31) with 2147483648. change (2 ^ 11) with 2048.
      replace (m / 2147483648) with 0 by lia. replace (m / 2048) with 0 by lia.
      destruct (Z.eqb_spec m 0) as [->|]; [reflexivity|].
      replace ((0 - m) / 2147483648) with (-1) by lia. replace ((0 - m) / 2048) with (-1) by lia. reflexivity.
    + rewrite nth_error_app1 by lia. apply HO. lia.
  - reflexivity.
  - unfold fuel. lia.
  - split; [reflexivity|]. intros. lia.
  - exists out. split; [exact E|]. split; [exact HL|exact HO].
Qed.

Lemma shift_L :
  exists out, shift_main = Ok out /\ length out = 1003%nat
  /\ forall i, 0 <= i < 1003 -> nth_error out (Z.to_nat i) = Some
      (if i =? 0 then [0; 0; 0; 0; 0; 0; 0; 0] else [0; 0; -1; -1; 0; 0; 12289; 12289]).
Proof. exact shift_rows. Qed.

Lemma checks_L :
  (exists out, (forall double_check, test_min_max_red double_check = Ok out) /\ length out = 26%nat
    /\ (forall i, 0 <= i <= 25 -> exists min min_x max max_x, In (2 ^ (7 + i), min, min_x, max, max_x) out)
    /\ forall b min min_x max max_x, In (b, min, min_x, max, max_x) out -> red_extrema (- b) b min min_x max max_x)
  /\ (exists out, (forall double_check, test_min_max_red_mul double_check = Ok out) /\ length out = Z.to_nat 417792
    /\ (forall i w, 0 <= i <= 16 -> 1 <= Z.abs w <= 12288 ->
        exists min min_x max max_x, In (2 ^ (7 + i), w, min, min_x, max, max_x) out)
    /\ forall b w min min_x max max_x, In (b, w, min, min_x, max, max_x) out ->
       - b <= min_x <= b /\ min = ln_red (w * min_x) /\ - b <= max_x <= b /\ max = ln_red (w * max_x)
       /\ forall x, - b <= x <= b -> min <= ln_red (w * x) <= max)
  /\ (exists out, (forall double_check, test_min_max_red_mul_interval double_check = Ok out) /\ length out = 104%nat
    /\ (forall i w, 0 <= i <= 25 -> In w [1536; 3072; 6144; 12288] -> exists min max, In (2 ^ (7 + i), w, min, max) out)
    /\ forall b w min max, In (b, w, min, max) out -> mul_extrema_at (- b) b (- w) w min max).
Proof.
  split; [|split].
  - destruct test_min_max_red_ok as (out & E & HF & HL & HC). exists out. split; [exact E|]. split; [exact HL|]. split; [exact HC|].
    rewrite Forall_forall in HF. intros b m1 x1 m2 x2 HI. exact (HF _ HI).
  - destruct test_min_max_red_mul_ok as (out & E & HF & HL & HC). exists out. split; [exact E|]. split; [exact HL|]. split; [exact HC|].
    rewrite Forall_forall in HF. intros b w m1 x1 m2 x2 HI. exact (HF _ HI).
  - destruct test_interval_ok as (out & E & HF & HL & HC). exists out. split; [exact E|]. split; [exact HL|]. split; [exact HC|].
    rewrite Forall_forall in HF. intros b w m1 m2 HI. exact (HF _ HI).
Qed.

Lemma checks_decide_L :
  (forall lo hi min max, - 2 ^ 60 <= lo -> hi <= 2 ^ 60 ->
    (check_all lo hi red min max = Ok tt <-> forall x, lo <= x <= hi -> min <= ln_red x <= max)
    /\ (check_all lo hi red min max = Ok tt \/ check_all lo hi red min max = Err Exited))
  /\ (forall b w min max, 128 <= b <= 2 ^ 32 -> 1 <= w <= 12288 ->
    (check_products b w min max = Ok tt <->
     forall x y, (if b <? 30000 then - b else b - 30000) <= Z.abs x <= b -> (if w <? 1000 then - w else w - 1000) <= y <= w ->
     min <= ln_red (x * y) <= max)
    /\ (check_products b w min max = Ok tt \/ check_products b w min max = Err Exited)).
Proof.
  change (2 ^ 60) with 1152921504606846976. change (2 ^ 32) with 4294967296. split.
  - intros lo hi min max Hlo Hhi.
    assert (HR : forall x, lo <= x <= hi -> red x = Ok (redz x)) by (intros x Hx; apply red_ok64; unfold i64r; lia).
    destruct (check_all_decides lo hi red min max) as [HD HO].
    + intros x Hx. exists (redz x). apply HR; exact Hx.
    + split; [|exact HO]. rewrite HD. split.
      * intros H x Hx. apply (H x (redz x) Hx). apply HR; exact Hx.
      * intros H x r Hx E. rewrite HR in E by exact Hx. injection E as <-. apply H; exact Hx.
  - intros b w min max Hb Hw. unfold check_products.
    set (a0 := if w <? 1000 then - w else w - 1000). set (x0 := if b <? 30000 then - b else b - 30000).
    assert (Ha0 : - w <= a0) by (unfold a0; destruct (w <? 1000) eqn:?; lia).
    assert (Hx0 : - b <= x0 <= b) by (unfold x0; destruct (Z.ltb_spec b 30000); lia).
    replace (if w <? 1000 then neg64 w else sub64 w 1000) with (Ok a0).
    2: { unfold a0, neg64, sub64. destruct (w <? 1000); rewrite i64_ok by lia; reflexivity. }
    rewrite bind_Ok.
    replace (if b <? 30000 then neg64 b else sub64 b 30000) with (Ok x0).
    2: { unfold x0, neg64, sub64. destruct (b <? 30000); rewrite i64_ok by lia; reflexivity. }
    match goal with |- context [cfor _ a0 _ _ ?B tt] =>
      destruct (cfor_decides (fun y => forall x, x0 <= x <= b -> min <= redz (x * y) <= max /\ min <= redz (- x * y) <= max) B a0 w) as [[-> HA]|[-> (y & Hy & HN)]] end.
    + intros y Hy. rewrite bind_Ok.
      match goal with |- context [cfor _ x0 _ _ ?B tt] =>
        destruct (cfor_decides (fun x => min <= redz (x * y) <= max /\ min <= redz (- x * y) <= max) B x0 b) as [[-> HA]|[-> (x & Hx & HN)]] end.
      * intros x Hx. assert (HP : forall x, - b <= x <= b -> -52776558133248 <= x * y <= 52776558133248).
        { clear - Hy Ha0 Hb Hw. intros x Hx. assert (H := abs_mul_range x y w ltac:(lia)). assert (Z.abs x * w <= 4294967296 * 12288) by (apply Z.mul_le_mono_nonneg; lia). lia. }
        assert (P1 := HP x ltac:(lia)). assert (P2 := HP (- x) ltac:(lia)).
        unfold neg64, mul64, sub64. rewrite (i64_ok (x * y)) by lia. rewrite bind_Ok, red_ok64 by (unfold i64r; lia). rewrite bind_Ok.
        destruct ((redz (x * y) <? min) || (max <? redz (x * y))) eqn:E1.
        { cbn [bind]. right. split; [reflexivity|]. lia. }
        rewrite bind_Ok, (i64_ok (0 - x)) by lia. rewrite bind_Ok. replace (0 - x) with (- x) by ring. rewrite i64_ok by lia.
        rewrite bind_Ok, red_ok64 by (unfold i64r; lia). rewrite bind_Ok.
        destruct ((redz (- x * y) <? min) || (max <? redz (- x * y))) eqn:E2; [right|left]; (split; [reflexivity|]); lia.
      * left. split; [reflexivity|exact HA].
      * right. split; [reflexivity|]. intros H. apply HN. apply H. exact Hx.
    + split; [|left; reflexivity]. split; [|reflexivity]. intros _ x y Hx Hy.
      destruct (Z.abs_eq_or_opp x) as [E|E].
      * rewrite E in Hx. exact (proj1 (HA y Hy x Hx)).
      * rewrite E in Hx. assert (H := proj2 (HA y Hy (- x) Hx)). rewrite Z.opp_involutive in H. exact H.
    + split; [|right; reflexivity]. split; [discriminate|]. intros H. exfalso. apply HN. intros x Hx.
      assert (K : forall x, x0 <= Z.abs x <= b -> min <= redz (x * y) <= max) by (intros x' Hx'; apply H; assumption).
      split; apply K; unfold x0 in *; destruct (b <? 30000) eqn:Eb; lia.
Qed.
