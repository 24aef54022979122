(** Lemmas behind [PropIdeal]: repeated calls. *)

From Coq Require Import ZArith List Bool Lia Setoid Morphisms.
From Verif Require Import CSem Spec Loops ModQ Exlib Forms TableSpec ModelGen ModelProducts ExTables
  GenMain GenFinal ProdGen NttElem RedElem RedTransforms ProdRed ProdFinal Conv ModelTests TestsElem TestsRun TestsFinal
  IdealRed IdealProd Repeat.
Import ListNotations.
Open Scope Z_scope.

Lemma loop_stops {S} (J : Z -> S -> Prop) n N body (st : S) : 0 <= N <= n -> n < 4294967296 -> J 0 st ->
  (forall i st, 0 <= i < n -> J i st -> (exists st', body i st = Ok st' /\ J (i + 1) st') \/ stops (body i st)) ->
  (forall st, ~ J N st) -> stops (loop n body st).
Proof.
  intros HN Hn H0 Hb He. unfold loop.
  assert (G : forall f c st, 0 <= c <= N -> (Z.to_nat (N - c) < f)%nat -> J c st ->
    stops (cfor f c (fun i => i <? n) (fun i => u32 (i + 1)) body st)).
  { induction f as [|f IH]; intros c st' Hc Hf HJ; [lia|]. cbn [cfor].
    assert (c <> N) by (intros ->; exact (He _ HJ)).
    destruct (Z.ltb_spec c n); [|lia].
    destruct (Hb c st') as [(s2 & -> & HJ2)|X]; [lia|exact HJ| |apply stops_bind, X]. cbn [bind]. rewrite u32_small by lia.
    apply IH; [lia|lia|exact HJ2]. }
  apply G; [lia|unfold fuel; lia|exact H0].
Qed.

Lemma ct_rev2std_exact_L :
  forall malloc size psi T, (forall n, 0 <= n -> zlen (malloc n) = n) ->
  make_red_tables malloc size psi = Ok (Written T) ->
  forall a r, zlen a = size -> r_ct_rev2std size T a = Ok r ->
  at_ r 0 = Sum size (at_ a) /\ Sum size (at_ r) = size * at_ a 0.
Proof.
  intros malloc size psi T HM E a r La Er.
  destruct (gen_red_tables _ _ _ _ HM E) as (k & Hk & -> & Hr & HT).
  destruct (rok_omega_powers _ _ _ HT) as [[HL _] _].
  unfold r_ct_rev2std in Er.
  destruct (ct_rev2std_sums k (red_omega_powers T) a ltac:(lia) HL La) as [(q & Eq & _ & H)|[X|X]];
    [rewrite Eq in Er; injection Er as <-; exact H|rewrite X in Er; discriminate..].
Qed.

Lemma repeated_calls_stop_L :
  forall malloc size psi T, (forall n, 0 <= n -> zlen (malloc n) = n) ->
  make_red_tables malloc size psi = Ok (Written T) ->
  forall a, zlen a = size -> all_in (- 2 ^ 31) (2 ^ 31 - 1) a -> at_ a 0 <> 0 \/ Sum size (at_ a) <> 0 ->
  calls (r_ct_rev2std size T) 65 a = Err SignedOverflow \/ calls (r_ct_rev2std size T) 65 a = Err AssertFail.
Proof.
  intros malloc size psi T HM E a La Aa Ha.
  destruct (gen_red_tables _ _ _ _ HM E) as (k & Hk & -> & Hr & HT).
  destruct (rok_omega_powers _ _ _ HT) as [[HL _] _].
  apply (times_stops k (red_omega_powers T) ltac:(lia) HL a La); [|exact Ha].
  intros i Hi. exact (all_in_at _ _ _ i Aa Hi).
Qed.

Lemma sum_iota n : 0 <= n -> 2 * Sum n (fun i => i) = n * (n - 1).
Proof.
  revert n. apply Sum_ind; [reflexivity|]. intros n Hn IH. rewrite Sum_succ by lia. lia.
Qed.

Lemma speed_test_stops malloc size psi T clk stk t c : (forall n, 0 <= n -> zlen (malloc n) = n) ->
  make_red_tables malloc size psi = Ok (Written T) -> zlen (stk 0) = size -> zlen t = NTESTS ->
  stops (speed_test clk stk size (r_ct_rev2std size T) t c).
Proof.
  intros HM E0 Hs Ht.
  destruct (gen_red_tables _ _ _ _ HM E0) as (k & Hk & -> & Hr & HT).
  assert (Hn : 2 <= 2 ^ k) by (change 2 with (2 ^ 1) at 1; apply Z.pow_le_mono_r; lia).
  assert (Hn2 : 2 ^ k <= 2048) by (change 2048 with (2 ^ 11); apply Z.pow_le_mono_r; lia).
  unfold speed_test.
  destruct (fill_ok (2 ^ k) (stk 0) (fun i => i) (fun i a => wr a i (to_i32 i))) as (a & E & La & Va).
  - lia.
  - exact Hs.
  - intros i b Hi _. rewrite to_i32_small by lia. reflexivity.
  - rewrite E. cbn [bind]. apply stops_bind.
    assert (SA : Sum (2 ^ k) (at_ a) <> 0).
    { rewrite (Sum_ext _ (at_ a) (fun i => i)) by exact Va. assert (X := sum_iota (2 ^ k) ltac:(lia)). nia. }
    assert (AA : all_in (- 2 ^ 31) (2 ^ 31 - 1) a).
    { apply all_in_of. intros i Hi. rewrite Va by lia. change (2 ^ 31) with 2147483648. lia. }
    assert (ST := repeated_calls_stop_L malloc (2 ^ k) psi T HM E0 a La AA (or_intror SA)).
    assert (HN := NTESTS_range). assert (HN65 : 65 <= NTESTS) by discriminate.
    set (f := r_ct_rev2std (2 ^ k) T) in *.
    assert (FC : forall b, zlen b = 2 ^ k -> (exists r, f b = Ok r /\ zlen r = 2 ^ k) \/ stops (f b)).
    { intros b Lb. destruct (rok_omega_powers _ _ _ HT) as [[HL _] _].
      destruct (ct_rev2std_sums k (red_omega_powers T) b ltac:(lia) HL Lb) as [(q & Eq & Lq & _)|X];
        [left; exists q; auto|right; exact X]. }
    clear - ST FC La Ht HN HN65.
    match goal with |- stops (loop NTESTS ?B ?s0) =>
      apply (loop_stops (fun i (s : list Z * list Z * Z) => zlen (fst (fst s)) = NTESTS /\ zlen (snd (fst s)) = 2 ^ k
        /\ calls f (Z.to_nat i) a = Ok (snd (fst s))) NTESTS 65 B s0) end.
    + split; [discriminate|exact HN65].
    + exact (proj2 HN).
    + cbn [fst snd]. split; [exact Ht|]. split; [exact La|reflexivity].
    + intros i [[u b] d] Hi (Lu & Lb & Pb). cbn [fst snd] in *. rewrite wr_ok by lia. cbn [bind].
      destruct (FC b Lb) as [(q & Eq & Lq)|X]; [left|right; apply stops_bind, X].
      rewrite Eq. cbn [bind]. eexists. split; [reflexivity|]. cbn [fst snd]. rewrite aset_len.
      split; [exact Lu|]. split; [exact Lq|].
      replace (Z.to_nat (i + 1)) with (S (Z.to_nat i)) by lia. cbn [calls]. rewrite Pb. exact Eq.
    + intros [[u b] d] (Lu & Lb & Pb). cbn [fst snd] in *. change (Z.to_nat 65) with 65%nat in Pb.
      rewrite Pb in ST. destruct ST; discriminate.
Qed.

Lemma test_ntt_red_main_refuted_L :
  forall malloc size psi T m bt rnd clk stk shi sh, (forall n, 0 <= n -> zlen (malloc n) = n) ->
  make_red_tables malloc size psi = Ok (Written T) -> size <= 1024 -> make_bitrev_table size = Ok (Written (m, bt)) ->
  (forall i, 0 <= rnd i < 2 ^ 31) -> (forall p, zlen (stk p) = size) ->
  test_ntt_red_main shi sh rnd clk stk size T bt m = Err SignedOverflow
  \/ test_ntt_red_main shi sh rnd clk stk size T bt m = Err AssertFail.
Proof.
  intros malloc size psi T m bt rnd clk stk shi sh HM E Hsz Eb Hr Hs.
  unfold test_ntt_red_main, main.
  destruct (test_ntt_red_tests_ok_L malloc size psi T m bt rnd stk shi sh HM E Hsz Eb Hr Hs) as [r ->]. cbn [bind].
  unfold speed_tests. cbn [red_functions f_ct_rev2std].
  do 2 apply stops_bind. apply (speed_test_stops malloc size psi T); [exact HM|exact E|apply Hs|].
  unfold zlen. rewrite repeat_length. apply Z2Nat.id. exact (proj1 NTESTS_range).
Qed.
