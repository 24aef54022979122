(** Lemmas behind [PropHarness]. *)

From Coq Require Import ZArith List Bool Lia.
From Verif Require Import CSem Spec Loops ModQ RedElem TableSpec ModelGen ModelInterval ProdFinal RedFinal RunsFinal IntervalFinal
  SpecInterval Exlib ExTables AvxProdFinal ModelHarness HarnessElem.
From Verif Require ModelRed.
Import ListNotations.
Open Scope Z_scope.

Lemma cfor_S {S} f i c nx (b : Z -> S -> res S) st :
  cfor (Datatypes.S f) i c nx b st = if c i then bind (b i st) (fun st' => cfor f (nx i) c nx b st') else Ok st.
Proof. reflexivity. Qed.

Lemma main1_spec f g p nd :
  (forall a, le (g a 1024 p) (f a 1024 p)) ->
  (forall a, zlen a = 1024 -> all_in 0 12288 a -> exists r, g a 1024 p = Ok r /\ zlen r = 1024 /\ all_in (- 2 ^ 31) (2 ^ 31 - 1) r) ->
  (main1 f p nd = Discarded <-> exists i, 0 <= i < 1024 /\ ~ (0 <= nd i < 12289))
  /\ (forall a, zlen a = 1024 -> all_in 0 12288 a -> (forall i, 0 <= i < 1024 -> nd i = at_ a i) ->
       exists r, main1 f p nd = Ran (Ok r) /\ g a 1024 p = Ok r /\ all_in (- 2 ^ 31) (2 ^ 31 - 1) r).
Proof.
  intros HF HG. unfold main1, Q.
  destruct (assume_spec nd 0 (fun x => x) static_array 1024 0 12289 ltac:(lia) static_len) as [[HB E]|[HI (r & E & HL & HR)]];
    rewrite E; clear E.
  - destruct HB as (i & Hi & HB). split.
    + split; [|reflexivity]. intros _. exists i. split; [exact Hi|exact HB].
    + intros a La Ia HA. exfalso. apply HB. rewrite Z.add_0_l, (HA i Hi).
      assert (X := all_in_at _ _ _ i Ia ltac:(lia)). lia.
  - split.
    + split; [discriminate|]. intros (i & Hi & HB). exfalso. apply HB. apply (HI i Hi).
    + intros a La Ia HA. assert (r = a).
      { apply Loops.list_ext; [lia|]. intros i Hi. rewrite HR by lia. rewrite Z.add_0_l. apply HA. lia. }
      subst r. destruct (HG a La Ia) as (r & Er & _ & Ir). exists r. split; [|split; assumption].
      f_equal. apply HF. exact Er.
Qed.

Lemma to_int16_small z : -32768 <= z <= 32767 -> to_int16 z = z.
Proof. intros H. unfold to_int16. cbv zeta. destruct (Z.ltb_spec (z mod 65536) 32768); Z.div_mod_to_equations; lia. Qed.

Lemma main2_spec f g nd :
  (forall a p, le (g a 1024 p) (f a 1024 p)) ->
  (forall a p, zlen a = 1024 -> zlen p = 1024 -> all_in 0 12288 a -> all_in (-6144) 6144 p ->
     exists r, g a 1024 p = Ok r /\ zlen r = 1024 /\ all_in (- 2 ^ 31) (2 ^ 31 - 1) r) ->
  (main2 f nd = Discarded <->
     exists i, 0 <= i < 1024 /\ (~ (0 <= nd i < 12289) \/ ~ (-6144 <= nd (1024 + i) < 6144)))
  /\ (forall a p, zlen a = 1024 -> zlen p = 1024 -> all_in 0 12288 a -> all_in (-6144) 6143 p ->
       (forall i, 0 <= i < 1024 -> nd i = at_ a i /\ nd (1024 + i) = at_ p i) ->
       exists r, main2 f nd = Ran (Ok r) /\ g a 1024 p = Ok r /\ all_in (- 2 ^ 31) (2 ^ 31 - 1) r).
Proof.
  intros HF HG. unfold main2, Q.
  destruct (assume_spec nd 0 (fun x => x) static_array 1024 0 12289 ltac:(lia) static_len) as [[HB E]|[HI (r & E & HL & HR)]];
    rewrite E; clear E.
  { destruct HB as (i & Hi & HB). split.
    - split; [|reflexivity]. intros _. exists i. split; [exact Hi|]. left. exact HB.
    - intros a p La Lp Ia Ip HA. exfalso. apply HB. rewrite Z.add_0_l, (proj1 (HA i Hi)).
      assert (X := all_in_at _ _ _ i Ia ltac:(lia)). lia. }
  destruct (assume_spec nd 1024 to_int16 static_array 1024 (-6144) 6144 ltac:(lia) static_len)
    as [[HB E]|[HI2 (r2 & E & HL2 & HR2)]]; rewrite E; clear E.
  { destruct HB as (i & Hi & HB). split.
    - split; [|reflexivity]. intros _. exists i. split; [exact Hi|]. right. exact HB.
    - intros a p La Lp Ia Ip HA. exfalso. apply HB. rewrite (proj2 (HA i Hi)).
      assert (X := all_in_at _ _ _ i Ip ltac:(lia)). lia. }
  split.
  - split; [discriminate|]. intros (i & Hi & [HB|HB]); exfalso; apply HB; [apply (HI i Hi)|apply (HI2 i Hi)].
  - intros a p La Lp Ia Ip HA. assert (r = a).
    { apply Loops.list_ext; [lia|]. intros i Hi. rewrite HR by lia. rewrite Z.add_0_l. apply HA. lia. }
    assert (r2 = p).
    { apply Loops.list_ext; [lia|]. intros i Hi. rewrite HR2 by lia.
      rewrite to_int16_small by (specialize (HI2 i ltac:(lia)); lia). apply HA. lia. }
    subst r r2. destruct (HG a p La Lp Ia) as (r & Er & _ & Ir).
    { apply all_in_of. intros i Hi. assert (X := all_in_at _ _ _ i Ip Hi). lia. }
    exists r. split; [|split; assumption]. f_equal. apply HF. exact Er.
Qed.

(** The tables of [make_red_tables 1024 1014]. *)
Lemma tables1024 malloc T : (forall n, 0 <= n -> zlen (malloc n) = n) ->
  make_red_tables malloc 1024 1014 = Ok (Written T) -> red_tables_ok 10 1014 T.
Proof.
  intros HM E. destruct (gen_red_tables _ _ _ _ HM E) as (k & Hk & Ek & _ & HT).
  assert (k = 10) by (change 1024 with (2 ^ 10) in Ek; apply Z.pow_inj_r in Ek; lia). subst k. exact HT.
Qed.

Lemma small21499 a : all_in 0 12288 a -> all_in (-21499) 21499 a.
Proof. intros H v Hv. specialize (H v Hv). lia. Qed.

Lemma safe1024 (g : list Z -> Z -> list Z -> res (list Z)) p :
  (forall a p, zlen a = 2 ^ 10 -> zlen p = 2 ^ 10 -> all_in (-21499) 21499 a -> all_in (-6144) 6144 p ->
     exists r, g a (2 ^ 10) p = Ok r /\ zlen r = 2 ^ 10 /\ all_in (- 2 ^ 31) (2 ^ 31 - 1) r) ->
  zlen p = 1024 -> all_in (-6144) 6144 p ->
  forall a, zlen a = 1024 -> all_in 0 12288 a -> exists r, g a 1024 p = Ok r /\ zlen r = 1024 /\ all_in (- 2 ^ 31) (2 ^ 31 - 1) r.
Proof. intros H Lp Ip a La Ia. apply (H a p); auto. apply small21499, Ia. Qed.

Lemma harnesses_verified_L :
  forall malloc T intrinsic, (forall n, 0 <= n -> zlen (malloc n) = n) ->
  make_red_tables malloc 1024 1014 = Ok (Written T) ->
  forall main g p, In (main, g, p)
    [(harness_intt_red1024 true intrinsic T, ModelRed.ntt_red_ct_std2rev, red_inv_omega_powers_rev T);
     (harness_intt_red1024b true intrinsic T, ModelRed.ntt_red_ct_rev2std, red_inv_omega_powers T);
     (harness_ntt_red1024 true intrinsic T, ModelRed.ntt_red_ct_std2rev, red_omega_powers_rev T);
     (harness_ntt_red1024b true intrinsic T, ModelRed.ntt_red_ct_rev2std, red_omega_powers T);
     (harness_ntt_red1024e true intrinsic T, ModelRed.ntt_red_gs_std2rev, red_omega_powers T);
     (harness_ntt_red1024f true intrinsic T, ModelRed.ntt_red_gs_rev2std, red_omega_powers_rev T)] ->
  forall nd,
  (main nd = Discarded <-> exists i, 0 <= i < 1024 /\ ~ (0 <= nd i < 12289))
  /\ (forall a, zlen a = 1024 -> all_in 0 12288 a -> (forall i, 0 <= i < 1024 -> nd i = at_ a i) ->
       exists r, main nd = Ran (Ok r) /\ g a 1024 p = Ok r /\ all_in (- 2 ^ 31) (2 ^ 31 - 1) r).
Proof.
  intros malloc T intr HM E main g p Hin nd. assert (HT := tables1024 malloc T HM E). clear E HM.
  cbn [In] in Hin. destruct Hin as [H|[H|[H|[H|[H|[H|[]]]]]]]; injection H as <- <- <-; apply main1_spec.
  - intros a. apply ct_std2rev_same.
  - destruct (rok_inv_omega_powers_rev _ _ _ HT) as [H1 H2]. apply safe1024; [|apply H1|exact H2].
    intros. apply ntt_red_ct_std2rev_safe_L; auto; lia.
  - intros a. apply ct_rev2std_same.
  - destruct (rok_inv_omega_powers _ _ _ HT) as [H1 H2]. apply safe1024; [|apply H1|exact H2].
    intros. apply ntt_red_ct_rev2std_safe_L; auto; lia.
  - intros a. apply ct_std2rev_same.
  - destruct (rok_omega_powers_rev _ _ _ HT) as [H1 H2]. apply safe1024; [|apply H1|exact H2].
    intros. apply ntt_red_ct_std2rev_safe_L; auto; lia.
  - intros a. apply ct_rev2std_same.
  - destruct (rok_omega_powers _ _ _ HT) as [H1 H2]. apply safe1024; [|apply H1|exact H2].
    intros. apply ntt_red_ct_rev2std_safe_L; auto; lia.
  - intros a. apply gs_std2rev_same.
  - destruct (rok_omega_powers _ _ _ HT) as [H1 H2]. apply safe1024; [|apply H1|exact H2].
    intros. apply ntt_red_gs_std2rev_safe_L; auto; lia.
  - intros a. apply gs_rev2std_same.
  - destruct (rok_omega_powers_rev _ _ _ HT) as [H1 H2]. apply safe1024; [|apply H1|exact H2].
    intros. apply ntt_red_gs_rev2std_safe_L; auto; lia.
Qed.

Lemma table_harnesses_verified_L :
  forall intrinsic main g, In (main, g)
    [(harness_ntt_red1024c true intrinsic, ModelRed.ntt_red_ct_std2rev);
     (harness_ntt_red1024d true intrinsic, ModelRed.ntt_red_ct_rev2std)] ->
  forall nd,
  (main nd = Discarded <->
     exists i, 0 <= i < 1024 /\ (~ (0 <= nd i < 12289) \/ ~ (-6144 <= nd (1024 + i) < 6144)))
  /\ (forall a p, zlen a = 1024 -> zlen p = 1024 -> all_in 0 12288 a -> all_in (-6144) 6143 p ->
       (forall i, 0 <= i < 1024 -> nd i = at_ a i /\ nd (1024 + i) = at_ p i) ->
       exists r, main nd = Ran (Ok r) /\ g a 1024 p = Ok r /\ all_in (- 2 ^ 31) (2 ^ 31 - 1) r).
Proof.
  intros intr main g Hin nd. cbn [In] in Hin. destruct Hin as [H|[H|[]]]; injection H as <- <-; apply main2_spec.
  - intros a p. apply ct_std2rev_same.
  - intros a p La Lp Ia Ip. apply (safe1024 ModelRed.ntt_red_ct_std2rev p); auto.
    intros. apply ntt_red_ct_std2rev_safe_L; auto; lia.
  - intros a p. apply ct_rev2std_same.
  - intros a p La Lp Ia Ip. apply (safe1024 ModelRed.ntt_red_ct_rev2std p); auto.
    intros. apply ntt_red_ct_rev2std_safe_L; auto; lia.
Qed.

Lemma intrinsic_is_mul_red_L :
  forall x y, -8796042698752 <= x * y <= 2 ^ 43 - 1 ->
  forall intrinsic, mul_red true intrinsic x y = Ok (3 * ((x * y) mod 4096) - (x * y) / 4096)
    /\ ModelRed.mul_red x y = mul_red true intrinsic x y.
Proof.
  intros x y H intr. change (2 ^ 43 - 1) with 8796093022207 in H. assert (E := mul_red_ok x y H).
  rewrite (mul_red_same intr x y _ E). split; [reflexivity|exact E].
Qed.

Lemma safe_assertion_refuted_L :
  exists x y v, -2147483648 <= x <= 2147483647 /\ -6144 <= y <= 6144 /\ x * y <= 8796093026303
    /\ mul_red true true x y = Ok v /\ mul_red true false x y = Err SignedOverflow.
Proof. exists (-2147483648), (-4096), (-2147483648). repeat split; try (vm_compute; discriminate). Qed.

(** The values used below: one element is 12288, the others 0. *)
Definition exND (i : Z) : Z := if i =? 513 then 12288 else 0.

Lemma omega513 T : red_tables_ok 10 1014 T -> at_ (red_omega_powers T) 513 = -1360.
Proof.
  intros HT. destruct (rok_omega_powers _ _ _ HT) as [[HL H] HI]. destruct (rok_omega _ _ _ HT) as [O1 O2].
  specialize (H 9 1 ltac:(lia) ltac:(lia)).
  assert (R := all_in_at _ _ _ 513 HI). rewrite HL in R. specialize (R ltac:(lia)).
  change (2 ^ 10 / (2 * 2 ^ 9)) with 1 in H. change (2 ^ 9 + 1) with 513 in H. rewrite !Z.pow_1_r in H.
  unfold eqQ, Spec.Q in *. change (1014 ^ 2 mod 12289) with 8209 in O1. rewrite Z.mod_small in O1 by lia.
  rewrite O1 in H. change (8193 * 8209 mod 12289) with 10929 in H.
  Z.div_mod_to_equations. lia.
Qed.

Lemma alternative_bounds_refuted_L :
  forall malloc T intrinsic, (forall n, 0 <= n -> zlen (malloc n) = n) ->
  make_red_tables malloc 1024 1014 = Ok (Written T) ->
  exists nd, (forall i, 0 <= nd i < 12289) /\ harness_ntt_red1024e false intrinsic T nd = Ran (Err AssertFail).
Proof.
  intros malloc T intr HM E. assert (HT := tables1024 malloc T HM E). clear E HM.
  assert (Hw := omega513 T HT). destruct (rok_omega_powers _ _ _ HT) as [[HL _] _]. change (2 ^ 10) with 1024 in HL.
  exists exND. split; [intros i; unfold exND; destruct (i =? 513); lia|].
  unfold harness_ntt_red1024e, main1.
  destruct (assume_spec exND 0 (fun x => x) static_array 1024 0 Q ltac:(lia) static_len) as [[(i & Hi & HB) _]|[_ (a & E & La & Ha)]].
  { exfalso. apply HB. unfold exND, Q. destruct (0 + i =? 513); lia. }
  rewrite E. clear E. f_equal.
  assert (A0 := Ha 0 ltac:(lia)). assert (A1 := Ha 1 ltac:(lia)). assert (A2 := Ha 512 ltac:(lia)). assert (A3 := Ha 513 ltac:(lia)).
  cbv beta in *. change (exND (0 + 0)) with 0 in A0. change (exND (0 + 1)) with 0 in A1.
  change (exND (0 + 512)) with 0 in A2. change (exND (0 + 513)) with 12288 in A3. clear Ha.
  unfold ntt_red_gs_std2rev, fuel. change (Z.shiftr 1024 1) with 512.
  rewrite cfor_S. change (0 <? 512) with true. cbv iota.
  rewrite (cfor_S _ 0 (fun s => s <? 1024)). change (0 <? 1024) with true. cbv iota.
  unfold bfly0. change (u32 (0 + 512)) with 512.
  rewrite rd_ok by lia. cbn [bind]. rewrite rd_ok by lia. cbn [bind]. rewrite A0, A2.
  change (sub32 0 0) with (Ok 0). cbn [bind]. rewrite wr_ok by lia. cbn [bind].
  rewrite rd_ok by (rewrite aset_len; lia). cbn [bind]. rewrite at_aset_other by lia. rewrite A0.
  change (add32 0 0) with (Ok 0). cbn [bind]. rewrite wr_ok by (rewrite aset_len; lia). cbn [bind].
  set (a1 := aset (aset a 512 0) 0 0).
  assert (L1 : zlen a1 = 1024) by (unfold a1; rewrite !aset_len; exact La).
  assert (B1 : at_ a1 1 = 0) by (unfold a1; rewrite !at_aset_other by (rewrite ?aset_len; lia); exact A1).
  assert (B2 : at_ a1 513 = 12288) by (unfold a1; rewrite !at_aset_other by (rewrite ?aset_len; lia); exact A3).
  clearbody a1. change (u32 (0 + u32 (512 + 512))) with 1024.
  replace (Z.to_nat 1024) with (S (Z.to_nat 1023)) by reflexivity.
  rewrite (cfor_S _ 1024 (fun s => s <? 1024)). change (1024 <? 1024) with false. cbv iota. cbn [bind].
  rewrite (cfor_S _ 1 (fun j => j <? 512)). change (1 <? 512) with true. cbv iota.
  change (u32 (512 + 1)) with 513. rewrite rd_ok by lia. cbn [bind].
  rewrite (cfor_S _ 1 (fun s => s <? 1024)). change (1 <? 1024) with true. cbv iota.
  unfold gs_bfly. change (u32 (1 + 512)) with 513. rewrite rd_ok by lia. cbn [bind]. rewrite rd_ok by lia. cbn [bind].
  rewrite B1, B2, Hw. change (sub32 0 12288) with (Ok (-12288)). cbn [bind].
  change (mul_red false intr (-12288) (-1360)) with (@Err Z AssertFail). reflexivity.
Qed.

(** ** The test programs *)

Lemma fill_ok lo hi : lo <= hi -> fill_intervals lo hi = Ok (repeat (lo, hi) (Z.to_nat 1024)).
Proof.
  intros H. unfold fill_intervals.
  match goal with |- cfor _ _ ?cd ?nx ?bd _ = _ =>
  destruct (cfor_count (fun c (a : list itv) => a = repeat (lo, hi) (Z.to_nat c)) 1024 (fun c => c) cd nx bd)
    with (f := fuel 1024) (i0 := 0) (st := @nil itv) as (st & E & J) end; try lia.
  - intros c Hc. apply u32_small. lia.
  - intros c st Hc ->. unfold interval, make_interval. destruct (Z.ltb_spec hi lo); [lia|].
    destruct (Z.leb_spec lo hi); [|lia]. cbn [cassert bind]. eexists. split; [reflexivity|].
    replace (Z.to_nat (c + 1)) with (Z.to_nat c + 1)%nat by lia. now rewrite repeat_app.
  - unfold fuel. lia.
  - reflexivity.
  - rewrite E, J. reflexivity.
Qed.

Lemma nonzero_tl k p f w w' : 0 <= k -> Spec.table_at k p f -> eqQ (w * w') 1 ->
  (forall l j, 0 <= l < k -> 0 <= j < 2 ^ l -> exists e, 0 <= e /\ f l j = 8193 * w ^ e) -> Forall (fun v => v <> 0) (tl p).
Proof.
  intros Hk [HL H] Hw Hf. apply Forall_forall. intros v Hv ->.
  destruct p as [|x p]; [exact Hv|]. cbn [tl] in Hv. destruct (In_nth p 0 0 Hv) as (m & Hm & E).
  set (i := Z.of_nat m + 1). assert (Hi : 0 < i < 2 ^ k) by (unfold zlen in HL; cbn [length] in HL; lia).
  assert (Ei : at_ (x :: p) i = 0).
  { unfold at_, i. replace (Z.to_nat (Z.of_nat m + 1)) with (S m) by lia. exact E. }
  assert (HG := Z.log2_spec i ltac:(lia)). assert (H0 := Z.log2_nonneg i).
  assert (Z.log2 i < k) by (apply Z.log2_lt_pow2; lia).
  assert (P2 : 2 ^ Z.succ (Z.log2 i) = 2 * 2 ^ Z.log2 i) by (apply Z.pow_succ_r; lia).
  specialize (H (Z.log2 i) (i - 2 ^ Z.log2 i) ltac:(lia) ltac:(lia)). cbv beta in H.
  replace (2 ^ Z.log2 i + (i - 2 ^ Z.log2 i)) with i in H by lia. rewrite Ei in H.
  destruct (Hf (Z.log2 i) (i - 2 ^ Z.log2 i) ltac:(lia) ltac:(lia)) as (e & He & Ef). rewrite Ef in H. clear Hf Ef.
  assert (X : eqQ ((w * w') ^ e) 1).
  { rewrite Hw. rewrite Z.pow_1_l by lia. reflexivity. }
  rewrite Z.pow_mul_l in X. unfold eqQ, Spec.Q in *.
  assert (Y : (8193 * (w ^ e * w' ^ e)) mod 12289 = 0).
  { replace (8193 * (w ^ e * w' ^ e)) with ((8193 * w ^ e) * w' ^ e) by ring.
    rewrite <- Z.mul_mod_idemp_l by lia. rewrite <- H. reflexivity. }
  rewrite <- Z.mul_mod_idemp_r in Y by lia. rewrite X in Y. discriminate.
Qed.

Lemma omega_nonzero k p w w' : 0 <= k -> omega_table k w 8193 p -> eqQ (w * w') 1 -> Forall (fun v => v <> 0) (tl p).
Proof.
  intros Hk H Hw. apply (nonzero_tl k p _ w w' Hk H Hw). intros l j Hl Hj.
  assert (0 < 2 ^ l) by (apply Z.pow_pos_nonneg; lia). assert (0 < 2 ^ k) by (apply Z.pow_pos_nonneg; lia).
  assert (D : 0 <= 2 ^ k / (2 * 2 ^ l)) by (apply Z.div_pos; lia).
  exists (2 ^ k / (2 * 2 ^ l) * j). split; [nia|]. rewrite Z.pow_mul_r by lia. reflexivity.
Qed.

Lemma omega_rev_nonzero k p w w' : 0 <= k -> omega_table_rev k w 8193 p -> eqQ (w * w') 1 ->
  Forall (fun v => v <> 0) (tl p).
Proof.
  intros Hk H Hw. apply (nonzero_tl k p _ w w' Hk H Hw). intros l j Hl Hj.
  assert (0 < 2 ^ l) by (apply Z.pow_pos_nonneg; lia). assert (0 < 2 ^ k) by (apply Z.pow_pos_nonneg; lia).
  assert (D : 0 <= 2 ^ k / (2 * 2 ^ l)) by (apply Z.div_pos; lia). assert (B := bitrev_range l j ltac:(lia)).
  exists (2 ^ k / (2 * 2 ^ l) * bitrev l j). split; [nia|]. rewrite Z.pow_mul_r by lia. reflexivity.
Qed.

Lemma encloses_const lo hi n a : zlen a = Z.of_nat n -> all_in lo hi a -> encloses (repeat (lo, hi) n) a.
Proof.
  unfold encloses, zlen. revert a. induction n as [|n IH]; intros [|x a] HL HI; cbn [length] in HL; try lia; [constructor|].
  cbn [repeat]. constructor; [cbn [fst snd]; apply HI; now left|]. apply IH; [lia|]. intros v Hv. apply HI. now right.
Qed.

Section Paper.
Variables (f : list itv -> Z -> list Z -> res (list shown * list itv)) (g : list Z -> Z -> list Z -> res (list Z)).
Variable p : list Z.

Lemma paper_spec :
  In f [abstract_ntt_red_ct_rev2std; abstract_mulntt_red_ct_rev2std;
     abstract_ntt_red_ct_std2rev; abstract_mulntt_red_ct_std2rev;
     abstract_ntt_red_gs_rev2std; abstract_nttmul_red_gs_rev2std;
     abstract_ntt_red_gs_std2rev; abstract_nttmul_red_gs_std2rev] ->
  zlen p = 1024 -> all_in (-6144) 6144 p -> Forall (fun v => v <> 0) (tl p) ->
  (forall b A, 0 <= b <= 12288 -> Z.of_nat (length A) = 2 ^ 10 ->
     Forall (fun V => - b <= fst V /\ fst V <= snd V /\ snd V <= b) A ->
     exists out A', f A (2 ^ 10) p = Ok (out, A') /\ no_warning out /\ printed_within 2147471362 out
       /\ forall a, encloses A a -> exists r, g a (2 ^ 10) p = Ok r /\ encloses A' r) ->
  exists out A', paper1 f p = Ok (out, A') /\ length out = 11%nat /\ no_warning out /\ printed_within 2147471362 out
    /\ forall a, zlen a = 1024 -> all_in 0 12288 a -> exists r, g a 1024 p = Ok r /\ encloses A' r.
Proof.
  intros Hin Lp Ip Np H. unfold paper1, Q. rewrite fill_ok by lia. cbn [bind].
  change (12289 - 1) with 12288. set (A := repeat (0, 12288) (Z.to_nat 1024)).
  assert (LA : Z.of_nat (length A) = 2 ^ 10) by (unfold A; rewrite repeat_length; reflexivity).
  assert (FA : forall V, In V A -> V = (0, 12288)) by (intros V HV; apply repeat_spec in HV; exact HV).
  destruct (H 12288 A) as (out & A' & E & H1 & H2 & H3); [lia|exact LA| |].
  { apply Forall_forall. intros V HV. rewrite (FA V HV). cbn [fst snd]. lia. }
  exists out, A'. split; [exact E|]. split; [|split; [exact H1|split; [exact H2|]]].
  - destruct (abstract_transforms_finish_L f Hin 10 A p ltac:(lia) Lp Ip Np LA) as (out' & A2 & E2 & _ & L2 & _).
    { apply Forall_forall. intros V HV. rewrite (FA V HV). cbn [fst snd]. split; [vm_compute; discriminate|].
      split; [lia|vm_compute; discriminate]. }
    rewrite E in E2. injection E2 as <- _. change (10 + 1) with 11 in L2. clear - L2. unfold shown, itv in *. lia.
  - intros a La Ia. apply H3. unfold A. apply encloses_const; [rewrite La; reflexivity|exact Ia].
Qed.
End Paper.

Lemma triple {A B C : Type} (a a' : A) (b b' : B) (c c' : C) : (a, b, c) = (a', b', c') -> a = a' /\ b = b' /\ c = c'.
Proof. intros H. injection H as -> -> ->. auto. Qed.

Lemma paper_tests_verified_L :
  forall malloc T, (forall n, 0 <= n -> zlen (malloc n) = n) ->
  make_red_tables malloc 1024 1014 = Ok (Written T) ->
  forall main g p, In (main, g, p)
    [(test_intt_red1024 T, ModelRed.ntt_red_ct_std2rev, red_inv_omega_powers_rev T);
     (test_intt_red1024b T, ModelRed.ntt_red_ct_rev2std, red_inv_omega_powers T);
     (test_ntt_red1024 T, ModelRed.ntt_red_ct_std2rev, red_omega_powers_rev T);
     (test_ntt_red1024b T, ModelRed.ntt_red_ct_rev2std, red_omega_powers T);
     (test_ntt_red1024e T, ModelRed.ntt_red_gs_std2rev, red_omega_powers T);
     (test_ntt_red1024f T, ModelRed.ntt_red_gs_rev2std, red_omega_powers_rev T)] ->
  exists out A', main = Ok (out, A') /\ length out = 11%nat /\ no_warning out /\ printed_within 2147471362 out
    /\ forall a, zlen a = 1024 -> all_in 0 12288 a -> exists r, g a 1024 p = Ok r /\ encloses A' r.
Proof.
  intros malloc T HM E main g p Hin. assert (HT := tables1024 malloc T HM E). clear E HM.
  destruct (rok_inv_omega _ _ _ HT) as [Ho _].
  assert (Ho' : eqQ (r_inv_omega T * r_omega T) 1) by (rewrite Z.mul_comm; exact Ho).
  destruct (rok_omega_powers _ _ _ HT) as [O1 O2]. destruct (rok_omega_powers_rev _ _ _ HT) as [O3 O4].
  destruct (rok_inv_omega_powers _ _ _ HT) as [O5 O6]. destruct (rok_inv_omega_powers_rev _ _ _ HT) as [O7 O8].
  assert (N1 := omega_nonzero 10 _ _ _ ltac:(lia) O1 Ho). assert (N3 := omega_rev_nonzero 10 _ _ _ ltac:(lia) O3 Ho).
  assert (N5 := omega_nonzero 10 _ _ _ ltac:(lia) O5 Ho'). assert (N7 := omega_rev_nonzero 10 _ _ _ ltac:(lia) O7 Ho').
  assert (CT : forall b, 0 <= b <= 12288 -> 5 ^ 10 * (b + 8191) <= 2 ^ 10 * 2147479553).
  { intros b Hb. change (5 ^ 10) with 9765625. change (2 ^ 10) with 1024. lia. }
  assert (GS : forall b, 0 <= b <= 12288 -> 3 ^ 10 * (b + 6143) <= 2147477505).
  { intros b Hb. change (3 ^ 10) with 59049. lia. }
  assert (K : 0 <= 10 <= 31) by lia.
  destruct Hin as [H|Hin]; [apply triple in H; destruct H as (<- & <- & <-)|].
  { apply (paper_spec abstract_ntt_red_ct_std2rev ModelRed.ntt_red_ct_std2rev); [right; right; left; reflexivity|apply O7|exact O8|exact N7|].
    intros b A Hb LA FA. apply (abstract_ct_run_L abstract_ntt_red_ct_std2rev ModelRed.ntt_red_ct_std2rev) with (b := b);
      [right; right; left; reflexivity|exact K|apply Hb|exact (CT b Hb)|apply O7|exact O8|exact N7|exact LA|exact FA]. }
  destruct Hin as [H|Hin]; [apply triple in H; destruct H as (<- & <- & <-)|].
  { apply (paper_spec abstract_ntt_red_ct_rev2std ModelRed.ntt_red_ct_rev2std); [left; reflexivity|apply O5|exact O6|exact N5|].
    intros b A Hb LA FA. apply (abstract_ct_run_L abstract_ntt_red_ct_rev2std ModelRed.ntt_red_ct_rev2std) with (b := b);
      [left; reflexivity|exact K|apply Hb|exact (CT b Hb)|apply O5|exact O6|exact N5|exact LA|exact FA]. }
  destruct Hin as [H|Hin]; [apply triple in H; destruct H as (<- & <- & <-)|].
  { apply (paper_spec abstract_ntt_red_ct_std2rev ModelRed.ntt_red_ct_std2rev); [right; right; left; reflexivity|apply O3|exact O4|exact N3|].
    intros b A Hb LA FA. apply (abstract_ct_run_L abstract_ntt_red_ct_std2rev ModelRed.ntt_red_ct_std2rev) with (b := b);
      [right; right; left; reflexivity|exact K|apply Hb|exact (CT b Hb)|apply O3|exact O4|exact N3|exact LA|exact FA]. }
  destruct Hin as [H|Hin]; [apply triple in H; destruct H as (<- & <- & <-)|].
  { apply (paper_spec abstract_ntt_red_ct_rev2std ModelRed.ntt_red_ct_rev2std); [left; reflexivity|apply O1|exact O2|exact N1|].
    intros b A Hb LA FA. apply (abstract_ct_run_L abstract_ntt_red_ct_rev2std ModelRed.ntt_red_ct_rev2std) with (b := b);
      [left; reflexivity|exact K|apply Hb|exact (CT b Hb)|apply O1|exact O2|exact N1|exact LA|exact FA]. }
  destruct Hin as [H|Hin]; [apply triple in H; destruct H as (<- & <- & <-)|].
  { apply (paper_spec abstract_ntt_red_gs_std2rev ModelRed.ntt_red_gs_std2rev); [right; right; right; right; right; right; left; reflexivity|apply O1|exact O2|exact N1|].
    intros b A Hb LA FA. apply (abstract_gs_run_L abstract_ntt_red_gs_std2rev ModelRed.ntt_red_gs_std2rev) with (b := b);
      [right; right; left; reflexivity|exact K|apply Hb|exact (GS b Hb)|apply O1|exact O2|exact N1|exact LA|exact FA]. }
  destruct Hin as [H|Hin]; [apply triple in H; destruct H as (<- & <- & <-)|].
  { apply (paper_spec abstract_ntt_red_gs_rev2std ModelRed.ntt_red_gs_rev2std); [right; right; right; right; left; reflexivity|apply O3|exact O4|exact N3|].
    intros b A Hb LA FA. apply (abstract_gs_run_L abstract_ntt_red_gs_rev2std ModelRed.ntt_red_gs_rev2std) with (b := b);
      [left; reflexivity|exact K|apply Hb|exact (GS b Hb)|apply O3|exact O4|exact N3|exact LA|exact FA]. }
  destruct Hin.
Qed.

(** ** For the examples *)

Definition exHA : list Z := map exND (map Z.of_nat (seq 0 1024)).

Lemma exHA_at i : 0 <= i < 1024 -> exND i = at_ exHA i.
Proof.
  intros H. unfold at_, exHA. rewrite map_map.
  rewrite (nth_indep _ 0 (exND (Z.of_nat 0))) by (rewrite map_length, seq_length; lia).
  rewrite (map_nth (fun m => exND (Z.of_nat m))). rewrite seq_nth by lia. f_equal. lia.
Qed.

Lemma exHA_len : zlen exHA = 1024.
Proof. unfold zlen, exHA. rewrite !map_length, seq_length. reflexivity. Qed.

Lemma exHA_in : all_in 0 12288 exHA.
Proof. check_all_in. Qed.

Lemma tables1024_made : exists T, make_red_tables malloc77 1024 1014 = Ok (Written T).
Proof.
  apply (proj2 (shipped_sizes_accepted_L malloc77 1024 1014 malloc77_len ltac:(right; right; right; left; reflexivity))).
Qed.
