(** Lemmas behind [PropTestRedBounds]. *)

From Coq Require Import ZArith List Bool Lia.
From Verif Require Import CSem Spec Loops ModQ ModelBounds ModelTestTables ModelTestRedBounds RedElem BoundsElem BoundsRound BoundsNtt.
From Verif Require Import SpecRedBounds TestRedBoundsElem TestRedBoundsTabs BoundsFinal.
From Verif Require ModelRed.
Import ListNotations.
Open Scope Z_scope.

(** ** The tables *)

Definition unit_ok (k : nat) (p : list Z) : bool := forallb (fun l => at_ p (2 ^ Z.of_nat l) =? -4096) (seq 0 k).

Definition tab_check (np : Z * list Z) : bool :=
  let (n, p) := np in
  let k := Z.to_nat (Z.log2 n) in
  (2 ^ Z.log2 n =? n) && (1 <=? Z.log2 n) && (Z.log2 n <=? 11) && table_ok k p
  && (gs_est k (if n =? 2048 then 30709 else 36864) p <? 2147471362).

Lemma tables_check : forallb tab_check tables = true.
Proof. vm_cast_no_check (eq_refl true). Qed.

Definition plain_tables : list (Z * list Z) :=
  [(16, shoup_sred_ntt16_12289); (16, rev_shoup_sred_ntt16_12289);
   (128, shoup_sred_ntt128_12289); (128, rev_shoup_sred_ntt128_12289);
   (256, shoup_sred_ntt256_12289); (256, rev_shoup_sred_ntt256_12289);
   (512, shoup_sred_ntt512_12289); (512, rev_shoup_sred_ntt512_12289);
   (1024, shoup_sred_ntt1024_12289); (1024, rev_shoup_sred_ntt1024_12289);
   (2048, shoup_sred_ntt2048_12289); (2048, rev_shoup_sred_ntt2048_12289)].

Lemma plain_check : forallb (fun '(n, p) => unit_ok (Z.to_nat (Z.log2 n)) p) plain_tables = true.
Proof. vm_cast_no_check (eq_refl true). Qed.

Lemma unit_ok_sound k p : unit_ok k p = true -> forall l, 0 <= l < Z.of_nat k -> at_ p (2 ^ l) = -4096.
Proof.
  intros H l Hl. unfold unit_ok in H. rewrite forallb_forall in H. specialize (H (Z.to_nat l)).
  rewrite Z2Nat.id in H by lia. apply Z.eqb_eq, H, in_seq. lia.
Qed.

(** Where the bound for Gentleman-Sande does not fit *)
Definition large : list (list Z * list (option (Z * Z))) :=
  [(shoup_sred_ntt2048_12289, [Some (1794, -73726); Some (795, 245467); Some (424, -760081); Some (212, -2265790); Some (106, -6705620);
      Some (53, -19797528); Some (20, 58401868); Some (10, 155268251); Some (5, 412758803); None; None]);
   (rev_shoup_sred_ntt2048_12289, [Some (1283, -73726); Some (945, 245467); Some (277, -760081); Some (149, -2265790); Some (85, -6705620);
      Some (53, -19797528); Some (18, 58401868); Some (10, 155268251); Some (6, 412758803); None; None]);
   (shoup_sred_scaled_ntt2048_12289, [Some (1288, -73726); Some (989, 245417); Some (448, -759806); Some (185, -2303200); Some (103, 6671939);
      Some (33, 18133217); Some (26, -50475242); Some (15, -148862350); Some (5, 383592117); Some (2, 812347705); None]);
   (rev_shoup_sred_scaled_ntt2048_12289, [Some (1090, -73726); Some (887, 245417); Some (259, -759806); Some (206, -2303200); Some (121, 6671939);
      Some (48, 18133217); Some (21, -50475242); Some (15, -148862350); Some (6, 383592117); Some (2, 812347705); None])].

Lemma large_check : forallb (fun '(p, ws) => match gs_low 11 ws 36864 p with Some r => 2147483647 <=? r | None => false end) large = true.
Proof. vm_cast_no_check (eq_refl true). Qed.

Lemma large_all p : In (2048, p) tables -> exists ws, In (p, ws) large.
Proof.
  intros H. unfold tables in H. cbn [In] in H.
  do 20 (destruct H as [H|H]; [exfalso; apply (f_equal fst) in H; cbn [fst] in H; discriminate H|]).
  destruct H as [H|[H|[H|[H|[]]]]]; apply (f_equal snd) in H; cbn [snd] in H; rewrite <- H; eexists.
  - apply (nth_error_In _ 0%nat). reflexivity.
  - apply (nth_error_In _ 1%nat). reflexivity.
  - apply (nth_error_In _ 2%nat). reflexivity.
  - apply (nth_error_In _ 3%nat). reflexivity.
Qed.

Definition inputs : list Z := [6144; 12288; 21499; 30709; 36864].

(** A row of what show_ct_bounds prints *)
Definition row_right (n : Z) (p : list Z) (r : row) : Prop :=
  let '(b0, c, g) := r in
  overflow_shown c = false
  /\ (overflow_shown g = true <-> n = 2048 /\ b0 = 36864)
  /\ (forall a, zlen a = n -> (forall i, 0 <= i < n -> Z.abs (at_ a i) <= b0) ->
      forall run, run = ModelRed.mulntt_red_ct_rev2std \/ run = ModelRed.mulntt_red_ct_std2rev
        \/ (In (n, p) plain_tables /\ (run = ModelRed.ntt_red_ct_rev2std \/ run = ModelRed.ntt_red_ct_std2rev)) ->
      exists r, run a n p = Ok r /\ zlen r = n /\ forall i, 0 <= i < n -> Z.abs (at_ r i) <= c)
  /\ (overflow_shown g = false ->
      forall a, zlen a = n -> (forall i, 0 <= i < n -> Z.abs (at_ a i) <= b0) ->
      forall run, run = ModelRed.nttmul_red_gs_rev2std \/ run = ModelRed.nttmul_red_gs_std2rev
        \/ run = ModelRed.ntt_red_gs_rev2std \/ run = ModelRed.ntt_red_gs_std2rev ->
      exists r, run a n p = Ok r /\ zlen r = n /\ forall i, 0 <= i < n -> Z.abs (at_ r i) <= g).

Lemma row_ok n p b0 bound : In (n, p) tables -> In b0 inputs -> zlen bound = 12 ->
  exists c bd g bd', ntt_ct_bounds b0 n p bound = Ok (c, bd) /\ ntt_gs_bounds b0 n p bd = Ok (g, bd') /\ zlen bd' = 12
    /\ row_right n p (b0, c, g).
Proof.
  intros HI Hb0 HB. assert (HC := tables_check). rewrite forallb_forall in HC. specialize (HC _ HI). unfold tab_check in HC.
  assert (Hb : 0 <= b0 <= 36864) by (cbn [In inputs] in Hb0; lia).
  apply andb_prop in HC as [HC Hest]. apply andb_prop in HC as [HC HT]. apply table_ok_sound in HT.
  set (k := Z.log2 n) in *. assert (Hk : 1 <= k <= 11) by lia. assert (Hn : 2 ^ k = n) by lia. clear HC.
  rewrite Z2Nat.id in HT by lia. clearbody k.
  destruct (ntt_ct_bounds_ok k b0 p bound ltac:(lia) ltac:(lia) HT ltac:(lia)) as (bd & E1 & HL1 & S1 & T1).
  destruct (ntt_gs_bounds_ok k b0 p bd ltac:(lia) ltac:(lia) HT ltac:(lia)) as (bd' & E2 & HL2 & S2 & T2).
  assert (HU := ct_upper k b0 p bd HT ltac:(lia) Hb S1 T1).
  assert (HG := gs_upper k b0 p bd' HT ltac:(lia) S2 T2).
  assert (HN : n = 2048 -> b0 <> 36864 -> b0 <= 30709) by (intros; cbn [In inputs] in Hb0; lia).
  assert (Hsmall : ~ (n = 2048 /\ b0 = 36864) -> at_ bd' k < 2147471362).
  { intros Hne. apply Z.ltb_lt in Hest. eapply Z.le_lt_trans; [exact HG|]. eapply Z.le_lt_trans; [|exact Hest].
    apply gs_est_mono. destruct (Z.eqb_spec n 2048); [|lia]. lia. }
  assert (Hlarge : n = 2048 -> b0 = 36864 -> 2147483647 <= at_ bd' k).
  { intros -> ->. destruct (large_all p HI) as (ws & HW). assert (HL := large_check). rewrite forallb_forall in HL.
    specialize (HL _ HW). cbv beta iota in HL. assert (k = 11) as ->.
    { apply (Z.pow_inj_r 2); lia. }
    destruct (gs_low 11 ws 36864 p) as [r|] eqn:EL; [|discriminate].
    assert (HR := gs_lower 11 36864 p bd' ws r HT ltac:(lia) S2 EL). lia. }
  exists (at_ bd k), bd, (at_ bd' k), bd'. rewrite <- Hn at 1 2. split; [exact E1|]. split; [exact E2|]. split; [lia|].
  unfold row_right, overflow_shown, INT32_MAX. split; [lia|].
  assert (HD : 2147483647 <= at_ bd' k <-> n = 2048 /\ b0 = 36864).
  { split; [|intros [H1 H2]; auto]. intros H. destruct (Z.eq_dec n 2048), (Z.eq_dec b0 36864); try (apply Hsmall in H; [destruct H|lia]); try lia; assert (at_ bd' k < 2147471362) by (apply Hsmall; lia); lia. }
  split; [rewrite Z.leb_le; exact HD|]. subst n. destruct HT as [HLp HP]. split.
  - destruct (ntt_ct_bounds_sound_L k b0 p bound) as (B & bd2 & E1' & _ & _ & _ & _ & _ & Hrun); try assumption; try lia.
    rewrite E1 in E1'. injection E1' as <- _. intros a HLa Ha run HR.
    apply Hrun; [lia|exact HLa|exact Ha|]. destruct HR as [->|[->|[HPl HR]]]; [left; reflexivity|right; left; reflexivity|].
    right. right. split; [|exact HR]. assert (HPC := plain_check). rewrite forallb_forall in HPC. specialize (HPC _ HPl).
    cbv beta iota in HPC. intros l Hl. apply (unit_ok_sound _ p HPC). rewrite Z.log2_pow2, Z2Nat.id by lia. exact Hl.
  - intros Hg. destruct (ntt_gs_bounds_sound_L k b0 p bd) as (B & bd2 & E2' & _ & _ & _ & _ & _ & Hrun); try assumption; try lia.
    rewrite E2 in E2'. injection E2' as <- _. intros a HLa Ha run HR.
    apply Hrun; [|exact HLa|exact Ha|exact HR]. change (2 ^ 31 - 12286) with 2147471362. apply Hsmall. intros H. apply HD in H. lia.
Qed.

Lemma show_ok n p bound : In (n, p) tables -> zlen bound = 12 ->
  exists rows, show_ct_bounds bound n p = Ok rows /\ map (fun r => fst (fst r)) rows = inputs /\ Forall (row_right n p) rows.
Proof.
  intros HI HB. unfold show_ct_bounds.
  assert (HC := tables_check). rewrite forallb_forall in HC. specialize (HC _ HI). unfold tab_check in HC.
  apply andb_prop in HC as [HC _]. apply andb_prop in HC as [HC _].
  assert (Hn : n <= 2 ^ 11).
  { replace n with (2 ^ Z.log2 n) by lia. apply Z.pow_le_mono_r; lia. }
  change (2 ^ 11) with 2048 in Hn. replace (n <=? 2048) with true by lia. cbn [cassert]. rewrite bind_Ok.
  assert (HM : forall i, (i < 5)%nat -> In (nth i inputs 0) inputs) by (intros i Hi; apply nth_In; exact Hi).
  destruct (row_ok n p 6144 bound HI (HM 0%nat ltac:(lia)) HB) as (c1 & bd1 & g1 & bd1' & -> & E & HL1 & R1). rewrite bind_Ok, E, bind_Ok. clear E. cbv zeta.
  destruct (row_ok n p 12288 bd1' HI (HM 1%nat ltac:(lia)) HL1) as (c2 & bd2 & g2 & bd2' & -> & E & HL2 & R2). rewrite bind_Ok, E, bind_Ok. clear E.
  destruct (row_ok n p 21499 bd2' HI (HM 2%nat ltac:(lia)) HL2) as (c3 & bd3 & g3 & bd3' & -> & E & HL3 & R3). rewrite bind_Ok, E, bind_Ok. clear E.
  destruct (row_ok n p 30709 bd3' HI (HM 3%nat ltac:(lia)) HL3) as (c4 & bd4 & g4 & bd4' & -> & E & HL4 & R4). rewrite bind_Ok, E, bind_Ok. clear E.
  destruct (row_ok n p 36864 bd4' HI (HM 4%nat ltac:(lia)) HL4) as (c5 & bd5 & g5 & bd5' & -> & E & HL5 & R5). rewrite bind_Ok, E, bind_Ok. clear E.
  eexists. split; [reflexivity|]. split; [reflexivity|]. repeat (constructor; [assumption|]). constructor.
Qed.

Lemma show_tables_ok stk l : forall i, (forall i, zlen (stk i) = 12) -> incl l tables ->
  exists rs, show_tables stk i l = Ok rs
    /\ Forall2 (fun '(n, p) rows => map (fun r => fst (fst r)) rows = inputs /\ Forall (row_right n p) rows) l rs.
Proof.
  induction l as [|[n p] l IH]; intros i Hs HI; cbn [show_tables].
  - exists []. split; [reflexivity|constructor].
  - destruct (show_ok n p (stk i)) as (rows & E & HR); [apply HI; left; reflexivity|apply Hs|]. rewrite E, bind_Ok.
    destruct (IH (i + 1) Hs) as (rs & E' & HF); [intros x Hx; apply HI; right; exact Hx|]. rewrite E', bind_Ok.
    exists (rows :: rs). split; [reflexivity|]. constructor; assumption.
Qed.

(** ** The repeated reductions *)

Definition red_rows : list (Z * Z * Z * Z * Z * Z) :=
  [(-2147483648, 2147483647, -524287, 2147479552, 536573, -2147479553);
   (-524287, 536573, -130, 532480, 12413, -520193); (-130, 12413, -3, 12288, 12286, -1);
   (-3, 12286, -2, 8192, 12286, -1); (-2, 12286, -2, 8192, 12286, -1)].
Definition abs_rows : list (Z * Z * Z * Z * Z * Z) :=
  [(-2147483648, 2147483647, -524287, 2147479552, 536573, -2147479553);
   (-536573, 536573, -130, 532480, 12416, -532481); (-12416, 12416, -3, 12288, 12289, -12289);
   (-12289, 12289, -3, 12288, 12289, -12289)].

Lemma reductions_ok : reductions = Ok red_rows.
Proof. vm_compute. reflexivity. Qed.
Lemma abs_reductions_ok : abs_reductions = Ok abs_rows.
Proof. vm_compute. reflexivity. Qed.

Definition row_extrema (r : Z * Z * Z * Z * Z * Z) : Prop := let '(a, b, min, min_x, max, max_x) := r in red_extrema a b min min_x max max_x.

Lemma red_rows_ok : Forall row_extrema red_rows /\ Forall row_extrema abs_rows.
Proof.
  split; unfold red_rows, abs_rows; repeat apply Forall_cons; try apply Forall_nil;
    (unfold row_extrema, red_extrema; split; [lia|split; [reflexivity|split; [lia|split; [reflexivity|]]]];
     intros x Hx; unfold ln_red; lia).
Qed.

(** ** Products *)

Lemma min_interval_at a b c d B : a <= b -> Z.abs a <= B -> Z.abs b <= B -> - b <= a -> c <= d -> c <> 0 -> d <> 0 -> B <= 2147483648 ->
  Z.abs c <= 2147483648 -> Z.abs d <= 2147483648 -> (exists x y, a <= x <= b /\ c <= y <= d /\ ln_red (x * y) < 0) ->
  exists m x y, min_red_mul_interval a b c d = Ok (m, x, y) /\ a <= x <= b /\ c <= y <= d /\ m = ln_red (x * y)
    /\ forall x y, a <= x <= b -> c <= y <= d -> m <= ln_red (x * y).
Proof.
  intros Hab HaB HbB Hba Hcd Hc Hd HB HcB HdB (x0 & y0 & Hx0 & Hy0 & H0).
  assert (Z.abs c * B <= 2147483648 * 2147483648) by (apply Z.mul_le_mono_nonneg; lia).
  assert (Z.abs d * B <= 2147483648 * 2147483648) by (apply Z.mul_le_mono_nonneg; lia).
  destruct (min_red_mul_interval_exact_L a b B c d) as (m & x & y & E & Hm & Em & HR & HM); try assumption; try lia.
  assert (HM' : forall x y, a <= x <= b -> c <= y <= d -> m <= ln_red (x * y)).
  { intros x1 y1 Hx Hy. rewrite (Z.mul_comm x1 y1). apply HM; assumption. }
  exists m, x, y. split; [exact E|]. specialize (HM' x0 y0 Hx0 Hy0) as Hneg.
  destruct HR as [HR|[HR1 HR2]]; [lia|]. split; [exact HR1|]. split; [exact HR2|]. split; [rewrite Z.mul_comm; exact Em|exact HM'].
Qed.

Lemma max_interval_at a b c d B : a <= b -> Z.abs a <= B -> Z.abs b <= B -> - b <= a -> c <= d -> B <= 2147483648 ->
  Z.abs c <= 2147483648 -> Z.abs d <= 2147483648 -> (exists x y, a <= x <= b /\ c <= y <= d /\ 0 < ln_red (x * y)) ->
  exists m x y, max_red_mul_interval a b c d = Ok (m, x, y) /\ a <= x <= b /\ c <= y <= d /\ m = ln_red (x * y)
    /\ forall x y, a <= x <= b -> c <= y <= d -> ln_red (x * y) <= m.
Proof.
  intros Hab HaB HbB Hba Hcd HB HcB HdB (x0 & y0 & Hx0 & Hy0 & H0).
  assert (Z.abs c * B <= 2147483648 * 2147483648) by (apply Z.mul_le_mono_nonneg; lia).
  assert (Z.abs d * B <= 2147483648 * 2147483648) by (apply Z.mul_le_mono_nonneg; lia).
  destruct (max_red_mul_interval_exact_L a b B c d) as (m & x & y & E & Hm & Em & HR & HM); try assumption; try lia.
  assert (HM' : forall x y, a <= x <= b -> c <= y <= d -> ln_red (x * y) <= m).
  { intros x1 y1 Hx Hy. rewrite (Z.mul_comm x1 y1). apply HM; assumption. }
  exists m, x, y. split; [exact E|]. specialize (HM' x0 y0 Hx0 Hy0) as Hneg.
  destruct HR as [HR|[HR1 HR2]]; [lia|]. split; [exact HR1|]. split; [exact HR2|]. split; [rewrite Z.mul_comm; exact Em|exact HM'].
Qed.

Lemma reduced_products_ok : exists m1 M1 m2 M2,
  reduced_products = Ok ((-524287, 536573, m1, M1), (-130, 12413, m2, M2))
  /\ mul_extrema (-524287) 536573 (-524287) 536573 m1 M1 /\ mul_extrema (-130) 12413 (-130) 12413 m2 M2.
Proof.
  unfold reduced_products.
  replace (min_red INT32_MIN INT32_MAX) with (Ok (-524287, 2147479552)) by (vm_compute; reflexivity). rewrite bind_Ok.
  replace (max_red INT32_MIN INT32_MAX) with (Ok (536573, -2147479553)) by (vm_compute; reflexivity). rewrite bind_Ok.
  destruct (min_interval_at (-524287) 536573 (-524287) 536573 536573) as (m1 & x1 & y1 & -> & X1 & Y1 & V1 & HM1);
    try lia; [exists 1, 4096; unfold ln_red; lia|].
  destruct (max_interval_at (-524287) 536573 (-524287) 536573 536573) as (m2 & x2 & y2 & -> & X2 & Y2 & V2 & HM2);
    try lia; [exists 1, 1; unfold ln_red; lia|]. rewrite !bind_Ok. cbv zeta.
  replace (min_red (-524287) 536573) with (Ok (-130, 532480)) by (vm_compute; reflexivity). rewrite bind_Ok.
  replace (max_red (-524287) 536573) with (Ok (12413, -520193)) by (vm_compute; reflexivity). rewrite bind_Ok.
  destruct (min_interval_at (-130) 12413 (-130) 12413 12413) as (m3 & x3 & y3 & -> & X3 & Y3 & V3 & HM3);
    try lia; [exists 1, 4096; unfold ln_red; lia|].
  destruct (max_interval_at (-130) 12413 (-130) 12413 12413) as (m4 & x4 & y4 & -> & X4 & Y4 & V4 & HM4);
    try lia; [exists 1, 1; unfold ln_red; lia|]. rewrite !bind_Ok.
  exists m1, m2, m3, m4. split; [reflexivity|]. split.
  - split; [exists x1, y1; auto|]. split; [exists x2, y2; auto|]. intros x y Hx Hy. split; [apply HM1|apply HM2]; assumption.
  - split; [exists x3, y3; auto|]. split; [exists x4, y4; auto|]. intros x y Hx Hy. split; [apply HM3|apply HM4]; assumption.
Qed.

(** What is printed for an option: x in [a, b], y in [c, d], constants in [low, high] *)
Definition option_right (a b c d low high B : Z) (o : option_printed) : Prop :=
  mul_extrema_at a b c d (o_min o) (o_max o)
  /\ (forall x y, a <= x <= b -> c <= y <= d -> Z.abs (ln_red (x * y)) <= B)
  /\ (exists x y, a <= x <= b /\ c <= y <= d /\ Z.abs (ln_red (x * y)) = B)
  /\ rounds_exact (ct_exact low high) B (o_ct o) /\ rounds_exact (gs_exact low high) B (o_gs o).

Lemma products_gen a b c d low high mn x1 y1 mx x2 y2 : consts low high ->
  min_red_mul_interval a b c d = Ok (mn, x1, y1) -> max_red_mul_interval a b c d = Ok (mx, x2, y2) ->
  mul_extrema_at a b c d (mn, x1, y1) (mx, x2, y2) -> -1000000 <= mn <= 0 -> 0 <= mx <= 1000000 ->
  exists o, products a b c d low high = Ok o /\ option_right a b c d low high (Z.max mx (- mn)) o.
Proof.
  intros HC E1 E2 HE Hmn Hmx. unfold products. rewrite E1, bind_Ok, E2, bind_Ok.
  replace (if mn <? 0 then neg64 mn else Ok mn) with (Ok (- mn)).
  2: { destruct (Z.ltb_spec mn 0); [unfold neg64, sub64; rewrite i64_ok by lia; reflexivity|f_equal; lia]. }
  rewrite bind_Ok. replace (mx <? 0) with false by lia. rewrite bind_Ok. cbv zeta.
  set (B := if - mn <? mx then mx else - mn).
  assert (HB : B = Z.max mx (- mn)) by (unfold B; destruct (Z.ltb_spec (- mn) mx); lia). rewrite <- HB. clearbody B.
  destruct (ct_iteration_ok B low high ltac:(lia) HC) as (r1 & -> & R1).
  destruct (gs_iteration_ok B low high ltac:(lia) HC) as (r2 & -> & R2). rewrite !bind_Ok.
  eexists. split; [reflexivity|]. split; [exact HE|]. destruct HE as (X1 & Y1 & V1 & X2 & Y2 & V2 & HM). split; [|split; [|split; assumption]].
  - intros x y Hx Hy. specialize (HM x y Hx Hy). lia.
  - destruct (Z.le_gt_cases mx (- mn)); [exists x1, y1|exists x2, y2]; (split; [assumption|split; [assumption|lia]]).
Qed.

Lemma mul_range x y : -12288 <= x <= 12288 -> -12288 <= y <= 12288 -> -36864 <= ln_red (x * y) <= 49151.
Proof.
  intros Hx Hy. assert (H := abs_mul_range x y 12288 Hy). assert (Z.abs x * 12288 <= 12288 * 12288) by (apply Z.mul_le_mono_nonneg_r; lia).
  unfold ln_red. lia.
Qed.

Lemma mul_range_half x y : -12288 <= x <= 12288 -> -6144 <= y <= 6144 -> -18432 <= ln_red (x * y).
Proof.
  intros Hx Hy. assert (H := abs_mul_range x y 6144 Hy). assert (Z.abs x * 6144 <= 12288 * 6144) by (apply Z.mul_le_mono_nonneg_r; lia).
  unfold ln_red. lia.
Qed.

Lemma products_ok a b c d low high : consts low high -> - b <= a -> a <= 1 <= b -> b <= 12288 -> c < 0 -> 4096 <= d ->
  -12288 <= c -> d <= 12288 ->
  forall B xB yB, max_red_mul_interval a b c d = Ok (B, xB, yB) -> (forall x y, a <= x <= b -> c <= y <= d -> - B <= ln_red (x * y)) ->
  exists o, products a b c d low high = Ok o /\ option_right a b c d low high B o.
Proof.
  intros HC Hba Ha Hb Hc Hd Hc' Hd' B xB yB EB HB.
  destruct (min_interval_at a b c d 12288) as (m1 & x1 & y1 & E1 & X1 & Y1 & V1 & HM1); try lia.
  { exists 1, 4096. unfold ln_red. lia. }
  destruct (max_interval_at a b c d 12288) as (m2 & x2 & y2 & E2 & X2 & Y2 & V2 & HM2); try lia.
  { exists 1, 1. unfold ln_red. lia. }
  assert (R1 := mul_range x1 y1 ltac:(lia) ltac:(lia)). assert (R2 := mul_range x2 y2 ltac:(lia) ltac:(lia)).
  assert (Z1 := HM1 1 0 ltac:(lia) ltac:(lia)). assert (Z2 := HM2 1 0 ltac:(lia) ltac:(lia)).
  change (ln_red (1 * 0)) with 0 in Z1, Z2.
  assert (m2 = B) as -> by congruence. specialize (HB x1 y1 X1 Y1). rewrite <- V1 in HB.
  replace B with (Z.max B (- m1)) by lia.
  apply (products_gen _ _ _ _ _ _ _ _ _ _ _ _ HC E1 E2); [|lia|lia].
  repeat (split; [assumption|]). intros x y Hx Hy. split; [apply HM1|apply HM2]; assumption.
Qed.

Lemma ln_red_nonneg v : 0 <= v -> ln_red v <= 36864.
Proof. unfold ln_red. lia. Qed.

Lemma products_first : exists o, products 0 12288 0 12288 0 12288 = Ok o /\ option_right 0 12288 0 12288 0 12288 36864 o.
Proof.
  assert (E1 : min_red_mul_interval 0 12288 0 12288 = Ok (-36864, 12288, 12288)) by (vm_compute; reflexivity).
  destruct (max_interval_at 0 12288 0 12288 12288) as (m2 & x2 & y2 & E2 & X2 & Y2 & V2 & HM2); try lia.
  { exists 1, 1. unfold ln_red. lia. }
  assert (Z2 := HM2 0 0 ltac:(lia) ltac:(lia)). change (ln_red (0 * 0)) with 0 in Z2.
  assert (H2 : m2 <= 36864).
  { rewrite V2. apply ln_red_nonneg, Z.mul_nonneg_nonneg; [apply X2|apply Y2]. }
  assert (EB : Z.max m2 (- -36864) = 36864) by lia.
  destruct (products_gen _ _ _ _ _ _ _ _ _ _ _ _ (or_introl (conj eq_refl eq_refl)) E1 E2) as (o & E & R); [|lia|lia|].
  - split; [lia|]. split; [lia|]. split; [reflexivity|]. repeat (split; [assumption|]).
    intros x y Hx Hy. split; [apply mul_range; lia|apply HM2; assumption].
  - exists o. split; [exact E|]. rewrite EB in R. exact R.
Qed.

(** ** main *)

Lemma main_ok stk : (forall i, zlen (stk i) = 12) -> exists out, main stk = Ok out
  /\ (p_red out = red_rows /\ p_abs out = abs_rows)
  /\ (exists m1 M1 m2 M2, p_products out = ((-524287, 536573, m1, M1), (-130, 12413, m2, M2))
      /\ mul_extrema (-524287) 536573 (-524287) 536573 m1 M1 /\ mul_extrema (-130) 12413 (-130) 12413 m2 M2)
  /\ (rounds_exact (ct_exact 0 12288) 12288 (p_ct1 out) /\ rounds_exact (ct_exact (-6144) 6144) 12288 (p_ct2 out)
      /\ rounds_exact (gs_exact 0 12288) 12288 (p_gs1 out) /\ rounds_exact (gs_exact (-6144) 6144) 12288 (p_gs2 out))
  /\ (option_right 0 12288 0 12288 0 12288 36864 (p_opt1 out)
      /\ option_right (-6144) 6144 (-6144) 6144 (-6144) 6144 21499 (p_opt2 out)
      /\ option_right 0 12288 (-6144) 6144 (-6144) 6144 30709 (p_opt3 out))
  /\ Forall2 (fun '(n, p) rows => map (fun r => fst (fst r)) rows = inputs /\ Forall (row_right n p) rows) tables (p_tables out).
Proof.
  intros Hs. unfold main. rewrite reductions_ok, abs_reductions_ok, !bind_Ok.
  destruct reduced_products_ok as (m1 & M1 & m2 & M2 & -> & HM1 & HM2). rewrite bind_Ok.
  assert (C1 : consts 0 12288) by (unfold consts; lia). assert (C2 : consts (-6144) 6144) by (unfold consts; lia).
  destruct (ct_iteration_ok 12288 0 12288 ltac:(lia) C1) as (r1 & -> & R1). rewrite bind_Ok.
  destruct (ct_iteration_ok 12288 (-6144) 6144 ltac:(lia) C2) as (r2 & -> & R2). rewrite bind_Ok.
  destruct (gs_iteration_ok 12288 0 12288 ltac:(lia) C1) as (r3 & -> & R3). rewrite bind_Ok.
  destruct (gs_iteration_ok 12288 (-6144) 6144 ltac:(lia) C2) as (r4 & -> & R4). rewrite bind_Ok.
  destruct products_first as (o1 & -> & O1). rewrite bind_Ok.
  destruct (products_ok (-6144) 6144 (-6144) 6144 (-6144) 6144 C2 ltac:(lia) ltac:(lia) ltac:(lia) ltac:(lia) ltac:(lia) ltac:(lia) ltac:(lia) 21499 6143 (-6143)) as (o2 & -> & O2);
    [vm_compute; reflexivity|intros x y Hx Hy; assert (H := mul_range_half x y); lia|]. rewrite bind_Ok.
  destruct (products_ok 0 12288 (-6144) 6144 (-6144) 6144 C2 ltac:(lia) ltac:(lia) ltac:(lia) ltac:(lia) ltac:(lia) ltac:(lia) ltac:(lia) 30709 12286 (-6143)) as (o3 & -> & O3);
    [vm_compute; reflexivity|intros x y Hx Hy; assert (H := mul_range_half x y); lia|]. rewrite bind_Ok.
  destruct (show_tables_ok stk tables 0 Hs (incl_refl _)) as (t & -> & HT). rewrite bind_Ok.
  eexists. split; [reflexivity|]. cbn [p_red p_abs p_products p_ct1 p_ct2 p_gs1 p_gs2 p_opt1 p_opt2 p_opt3 p_tables].
  split; [split; reflexivity|]. split; [exists m1, M1, m2, M2; auto|]. split; [auto|]. split; [auto|exact HT].
Qed.

(** ** The statements of [PropTestRedBounds] *)

Lemma reductions_L : forall stk, (forall i, zlen (stk i) = 12) -> exists out, main stk = Ok out
  /\ p_red out =
     [(-2147483648, 2147483647, -524287, 2147479552, 536573, -2147479553);
      (-524287, 536573, -130, 532480, 12413, -520193); (-130, 12413, -3, 12288, 12286, -1);
      (-3, 12286, -2, 8192, 12286, -1); (-2, 12286, -2, 8192, 12286, -1)]
  /\ p_abs out =
     [(-2147483648, 2147483647, -524287, 2147479552, 536573, -2147479553);
      (-536573, 536573, -130, 532480, 12416, -532481); (-12416, 12416, -3, 12288, 12289, -12289);
      (-12289, 12289, -3, 12288, 12289, -12289)]
  /\ (forall a b min min_x max max_x, In (a, b, min, min_x, max, max_x) (p_red out ++ p_abs out) ->
      red_extrema a b min min_x max max_x)
  /\ (exists m1 M1 m2 M2, p_products out = ((-524287, 536573, m1, M1), (-130, 12413, m2, M2))
      /\ mul_extrema (-524287) 536573 (-524287) 536573 m1 M1 /\ mul_extrema (-130) 12413 (-130) 12413 m2 M2).
Proof.
  intros stk Hs. destruct (main_ok stk Hs) as (out & E & (R1 & R2) & HP & _). exists out. split; [exact E|].
  split; [exact R1|]. split; [exact R2|]. split; [|exact HP]. rewrite R1, R2. intros a b mn mnx mx mxx HI.
  destruct red_rows_ok as [F1 F2]. assert (F := Forall_app row_extrema red_rows abs_rows). destruct F as [_ F].
  specialize (F (conj F1 F2)). rewrite Forall_forall in F. exact (F _ HI).
Qed.

Lemma iterations_L : forall stk, (forall i, zlen (stk i) = 12) -> exists out, main stk = Ok out
  /\ rounds_exact (ct_exact 0 12288) 12288 (p_ct1 out) /\ rounds_exact (ct_exact (-6144) 6144) 12288 (p_ct2 out)
  /\ rounds_exact (gs_exact 0 12288) 12288 (p_gs1 out) /\ rounds_exact (gs_exact (-6144) 6144) 12288 (p_gs2 out).
Proof.
  intros stk Hs. destruct (main_ok stk Hs) as (out & E & _ & _ & HR & _). exists out. split; [exact E|exact HR].
Qed.

Lemma options_L : forall stk, (forall i, zlen (stk i) = 12) -> exists out, main stk = Ok out
  /\ forall a b c d low high B o, In (a, b, c, d, low, high, B, o)
       [(0, 12288, 0, 12288, 0, 12288, 36864, p_opt1 out); (-6144, 6144, -6144, 6144, -6144, 6144, 21499, p_opt2 out);
        (0, 12288, -6144, 6144, -6144, 6144, 30709, p_opt3 out)] ->
     mul_extrema_at a b c d (o_min o) (o_max o)
     /\ (forall x y, a <= x <= b -> c <= y <= d -> Z.abs (ln_red (x * y)) <= B)
     /\ (exists x y, a <= x <= b /\ c <= y <= d /\ Z.abs (ln_red (x * y)) = B)
     /\ rounds_exact (ct_exact low high) B (o_ct o) /\ rounds_exact (gs_exact low high) B (o_gs o).
Proof.
  intros stk Hs. destruct (main_ok stk Hs) as (out & E & _ & _ & _ & (O1 & O2 & O3) & _). exists out. split; [exact E|].
  intros a b c d low high B o [H|[H|[H|[]]]]; injection H as <- <- <- <- <- <- <- <-; assumption.
Qed.

Lemma forall2_length {A B} (R : A -> B -> Prop) l r : Forall2 R l r -> length l = length r.
Proof. induction 1; cbn [length]; congruence. Qed.

Lemma tables_L : forall stk, (forall i, zlen (stk i) = 12) -> exists out, main stk = Ok out
  /\ length (p_tables out) = 24%nat
  /\ forall j n p rows, nth_error tables j = Some (n, p) -> nth_error (p_tables out) j = Some rows ->
     map (fun '(b0, _, _) => b0) rows = [6144; 12288; 21499; 30709; 36864]
     /\ forall b0 c g, In (b0, c, g) rows ->
        overflow_shown c = false
        /\ (overflow_shown g = true <-> n = 2048 /\ b0 = 36864)
        /\ (forall a, zlen a = n -> (forall i, 0 <= i < n -> Z.abs (at_ a i) <= b0) ->
            forall run, run = ModelRed.mulntt_red_ct_rev2std \/ run = ModelRed.mulntt_red_ct_std2rev
              \/ (In (n, p)
                  [(16, shoup_sred_ntt16_12289); (16, rev_shoup_sred_ntt16_12289);
                   (128, shoup_sred_ntt128_12289); (128, rev_shoup_sred_ntt128_12289);
                   (256, shoup_sred_ntt256_12289); (256, rev_shoup_sred_ntt256_12289);
                   (512, shoup_sred_ntt512_12289); (512, rev_shoup_sred_ntt512_12289);
                   (1024, shoup_sred_ntt1024_12289); (1024, rev_shoup_sred_ntt1024_12289);
                   (2048, shoup_sred_ntt2048_12289); (2048, rev_shoup_sred_ntt2048_12289)]
                  /\ (run = ModelRed.ntt_red_ct_rev2std \/ run = ModelRed.ntt_red_ct_std2rev)) ->
            exists r, run a n p = Ok r /\ zlen r = n /\ forall i, 0 <= i < n -> Z.abs (at_ r i) <= c)
        /\ (overflow_shown g = false ->
            forall a, zlen a = n -> (forall i, 0 <= i < n -> Z.abs (at_ a i) <= b0) ->
            forall run, run = ModelRed.nttmul_red_gs_rev2std \/ run = ModelRed.nttmul_red_gs_std2rev
              \/ run = ModelRed.ntt_red_gs_rev2std \/ run = ModelRed.ntt_red_gs_std2rev ->
            exists r, run a n p = Ok r /\ zlen r = n /\ forall i, 0 <= i < n -> Z.abs (at_ r i) <= g).
Proof.
  intros stk Hs. destruct (main_ok stk Hs) as (out & E & _ & _ & _ & _ & HT). exists out. split; [exact E|].
  split; [symmetry; exact (forall2_length _ _ _ HT)|]. clear E. revert HT. generalize (p_tables out). generalize tables.
  induction l as [|[n0 p0] l IH]; intros rs HF j n p rows H1 H2; [destruct j; discriminate|].
  inversion HF as [|x y l1 l2 HMR HF' E1 E2]. subst. destruct HMR as [HM HR]. destruct j as [|j]; cbn [nth_error] in H1, H2.
  - apply (f_equal (fun o => match o with Some x => x | None => (n, p) end)) in H1. cbv beta iota in H1.
    injection H2 as <-. assert (n0 = n) as <- by exact (f_equal fst H1). assert (p0 = p) as <- by exact (f_equal snd H1).
    split.
    + etransitivity; [|exact HM]. apply map_ext. intros [[b0 c] g]. reflexivity.
    + rewrite Forall_forall in HR. intros b0 c g HI. exact (HR _ HI).
  - exact (IH l2 HF' j n p rows H1 H2).
Qed.

Definition stk_ex (i : Z) : list Z := repeat i 12.
Lemma stk_ex_ok : forall i, zlen (stk_ex i) = 12.
Proof. intros i. unfold zlen, stk_ex. rewrite repeat_length. reflexivity. Qed.
