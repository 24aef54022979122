(** ntt_ct_bounds and ntt_gs_bounds of src/red_bounds.c bound the arrays computed by
    the transforms of src/ntt_red.c. *)

From Coq Require Import ZArith List Bool Lia.
From Verif Require Import CSem Spec Loops ModQ Stages OuterLoops Tower TransformGen Forms ModelBounds.
From Verif Require Import RedElem NttElem NaiveElem BoundsElem BoundsRound.
From Verif Require ModelRed RedRange.
Import ListNotations.
Open Scope Z_scope.

(** ** One row of constants *)

Lemma row_bound_ok bnd n b t p (d : Z -> Z) :
  0 < t -> 2 * t <= n -> n <= 2147483648 -> zlen p = n ->
  (forall j, 0 <= j < t -> bnd b (at_ p (t + j)) = Ok (d j)) ->
  exists c, row_bound bnd n b t p = Ok c /\ (forall j, 0 <= j < t -> d j <= c)
    /\ exists j, 0 <= j < t /\ c = d j.
Proof.
  intros Ht Htn Hn Hp Hd. unfold row_bound. rewrite rd_ok by lia. cbn [bind].
  assert (H0 := Hd 0 ltac:(lia)). replace (t + 0) with t in H0 by lia. rewrite H0. cbn [bind].
  destruct (cfor_count (fun m c => (forall j, 0 <= j < m + 1 -> d j <= c) /\ exists j, 0 <= j < t /\ c = d j)
    (t - 1) (fun m => m + 1) (fun j => j <? t) (fun j => u32 (j + 1)) (fun j c =>
    do w <- rd p (u32 (t + j));
    do d <- bnd b w;
    Ok (if c <? d then d else c))) with (f := fuel n) (i0 := 1) (st := d 0) as (c & E & H1 & H2).
  - lia.
  - intros. lia.
  - lia.
  - intros. apply u32_small. lia.
  - intros m c Hm [H1 H2]. rewrite u32_small by lia. rewrite rd_ok by lia. cbn [bind].
    rewrite Hd by lia. cbn [bind]. eexists. split; [reflexivity|]. 
    destruct (Z.ltb_spec c (d (m + 1))).
    + split; [|exists (m + 1); split; [lia|reflexivity]]. intros j Hj.
      destruct (Z.eq_dec j (m + 1)) as [->|]; [lia|]. specialize (H1 j ltac:(lia)). lia.
    + split; [|exact H2]. intros j Hj. destruct (Z.eq_dec j (m + 1)) as [->|]; [lia|]. apply H1. lia.
  - reflexivity.
  - unfold fuel. lia.
  - split; [|exists 0; split; [lia|reflexivity]]. intros j Hj. replace j with 0 by lia. lia.
  - exists c. split; [exact E|]. replace (t - 1 + 1) with t in H1 by lia. split; assumption.
Qed.

(** ** All rounds *)

Definition bnd_table (k : Z) (p : list Z) : Prop :=
  zlen p = 2 ^ k /\ forall i, 1 <= i < 2 ^ k -> at_ p i <> 0 /\ -6144 <= at_ p i <= 6144.

Lemma pow3_step m : 0 <= m -> 3 ^ (m + 1) = 3 * 3 ^ m.
Proof. intros. rewrite Z.pow_add_r, Z.pow_1_r by lia. ring. Qed.

Lemma pow3_le m : 0 <= m <= 12 -> 1 <= 3 ^ m <= 531441.
Proof.
  intros. split; [change 1 with (3 ^ 0); apply Z.pow_le_mono_r; lia|].
  change 531441 with (3 ^ 12). apply Z.pow_le_mono_r; lia.
Qed.

Section Rounds.
Variables (bnd : Z -> Z -> res Z) (good tgt : Z -> Z -> Z -> Prop) (k b0 : Z) (p : list Z).
Hypothesis Hk : 0 <= k <= 12.
Hypothesis Hb0 : 0 <= b0 <= 536870912.
Hypothesis Hp : bnd_table k p.
Hypothesis Hbnd : forall b w, 0 <= b <= 187649984471040 -> w <> 0 -> -6144 <= w <= 6144 ->
  exists c, bnd b w = Ok c /\ good b w c /\ tgt b w c /\ b <= c <= 3 * b + 12286.
Hypothesis Hgood : forall b w c c', good b w c -> c <= c' -> good b w c'.

(** Bounds at the start of round [m] and at its end. *)
Definition seq_ok (lev : Z -> Z) (m : Z) (bd : list Z) : Prop :=
  at_ bd 0 = b0 /\ (forall i, 0 <= i <= m -> 0 <= at_ bd i /\ at_ bd i + 6143 <= 3 ^ i * (b0 + 6143)) /\
  forall i, 0 <= i < m -> at_ bd i <= at_ bd (i + 1) /\
    forall j, 0 <= j < 2 ^ lev i -> good (at_ bd i) (at_ p (2 ^ lev i + j)) (at_ bd (i + 1)).
(** The bound at the end of each round is the one for a constant of the round. *)
Definition seq_tgt (lev : Z -> Z) (m : Z) (bd : list Z) : Prop :=
  forall i, 0 <= i < m -> exists j, 0 <= j < 2 ^ lev i /\ tgt (at_ bd i) (at_ p (2 ^ lev i + j)) (at_ bd (i + 1)).

Lemma row_step b l : 0 <= l < k -> 0 <= b <= 187649984471040 ->
  exists c, row_bound bnd (2 ^ k) b (2 ^ l) p = Ok c /\ b <= c <= 3 * b + 12286
    /\ (forall j, 0 <= j < 2 ^ l -> good b (at_ p (2 ^ l + j)) c)
    /\ exists j, 0 <= j < 2 ^ l /\ tgt b (at_ p (2 ^ l + j)) c.
Proof.
  intros Hl Hb. assert (Hn := pow31 k ltac:(lia)). assert (0 < 2 ^ l) by (apply pow2_pos; lia).
  assert (Ht : 2 * 2 ^ l <= 2 ^ k).
  { replace (2 * 2 ^ l) with (2 ^ (l + 1)) by (rewrite pow2_succ by lia; ring). apply Z.pow_le_mono_r; lia. }
  destruct Hp as [HL HP].
  assert (HD : forall j, 0 <= j < 2 ^ l -> exists c, bnd b (at_ p (2 ^ l + j)) = Ok c
      /\ good b (at_ p (2 ^ l + j)) c /\ tgt b (at_ p (2 ^ l + j)) c /\ b <= c <= 3 * b + 12286).
  { intros j Hj. destruct (HP (2 ^ l + j)) as [H0 H1]; [apply entry_range; lia|]. apply Hbnd; assumption. }
  set (d := fun j => match bnd b (at_ p (2 ^ l + j)) with Ok c => c | Err _ => 0 end).
  destruct (row_bound_ok bnd (2 ^ k) b (2 ^ l) p d) as (c & E & H1 & (j & Hj & Ec)); try lia.
  { intros j Hj. unfold d. destruct (HD j Hj) as (c & -> & _). reflexivity. }
  exists c. split; [exact E|]. split.
  - destruct (HD j Hj) as (c' & E' & _ & _ & HB). unfold d in Ec. rewrite E' in Ec. subst c. exact HB.
  - split; [|exists j; split; [exact Hj|]; destruct (HD j Hj) as (c' & E' & _ & HT & _); unfold d in Ec; rewrite E' in Ec; subst c; exact HT].
    intros i Hi. destruct (HD i Hi) as (c' & E' & G & _). specialize (H1 i Hi). unfold d in H1. rewrite E' in H1.
    eapply Hgood; eassumption.
Qed.

(** The body of the loops of ntt_ct_bounds and ntt_gs_bounds. *)
Lemma round_step lev m b kk bd : 0 <= m < k -> 0 <= lev m < k -> k < zlen bd -> b = at_ bd m -> kk = m ->
  seq_ok lev m bd -> seq_tgt lev m bd ->
  exists c, row_bound bnd (2 ^ k) b (2 ^ lev m) p = Ok c
    /\ wr bd (u32 (kk + 1)) c = Ok (aset bd (m + 1) c)
    /\ at_ (aset bd (m + 1) c) (m + 1) = c
    /\ seq_ok lev (m + 1) (aset bd (m + 1) c) /\ seq_tgt lev (m + 1) (aset bd (m + 1) c).
Proof.
  intros Hm Hl HL -> -> (H0 & HB & HS) HT.
  destruct (HB m ltac:(lia)) as [Hb1 Hb2].
  assert (H3 := pow3_le m ltac:(lia)). assert (H3' : 3 ^ m <= 3 ^ 11) by (apply Z.pow_le_mono_r; lia).
  change (3 ^ 11) with 177147 in H3'.
  assert (Hmul : 3 ^ m * (b0 + 6143) <= 177147 * (b0 + 6143)) by (apply Z.mul_le_mono_nonneg_r; lia).
  destruct (row_step (at_ bd m) (lev m) Hl) as (c & E & HC & HG & HJ); [lia|].
  exists c. split; [exact E|]. rewrite u32_small by lia. rewrite wr_ok by lia. split; [reflexivity|].
  assert (Hs : at_ (aset bd (m + 1) c) (m + 1) = c) by (apply at_aset_same; lia).
  split; [exact Hs|]. split; [split; [rewrite at_aset_other by lia; exact H0|]; split|].
  - intros i Hi. destruct (Z.eq_dec i (m + 1)) as [->|].
    + rewrite Hs, pow3_step by lia. split; [lia|]. rewrite <- Z.mul_assoc. lia.
    + rewrite at_aset_other by lia. apply HB. lia.
  - intros i Hi. destruct (Z.eq_dec i m) as [->|].
    + rewrite Hs, at_aset_other by lia. split; [lia|exact HG].
    + rewrite !at_aset_other by lia. apply HS. lia.
  - intros i Hi. destruct (Z.eq_dec i m) as [->|].
    + rewrite Hs, at_aset_other by lia. exact HJ.
    + rewrite !at_aset_other by lia. apply HT. lia.
Qed.
End Rounds.

Definition good_ct (b w c : Z) : Prop := ct_sound b c (eq w) /\ b + Z.abs w * b / 4096 <= c.
Definition good_gs (b w c : Z) : Prop := gs_sound b c (eq w) /\ 2 * b <= c /\ Z.abs w * (2 * b) / 4096 <= c.
Definition tgt_ct (b w c : Z) : Prop := ct_tight b c (eq w) /\ c <= b + Z.abs w * b / 4096 + 12286.
Definition tgt_gs (b w c : Z) : Prop := gs_tight b c (eq w) /\ c <= Z.max (2 * b) (Z.abs w * (2 * b) / 4096 + 12286).

Lemma good_ct_bnd b w : 0 <= b <= 187649984471040 -> w <> 0 -> -6144 <= w <= 6144 ->
  exists c, ct_bound_fixed b w = Ok c /\ good_ct b w c /\ tgt_ct b w c /\ b <= c <= 3 * b + 12286.
Proof.
  intros Hb Hw HW. assert (HM : 0 <= Z.abs w * b <= 6144 * b) by (split; [apply Z.mul_nonneg_nonneg; lia|apply Z.mul_le_mono_nonneg_r; lia]).
  destruct (ct_bound_fixed_ok b w) as (c & E & S & T & H1 & H2).
  { unfold fixed_range. lia. }
  exists c. split; [exact E|]. split; [split; assumption|]. split; [split; [exact T|apply H1]|]. clear - H1 HM Hb. lia.
Qed.

Lemma good_gs_bnd b w : 0 <= b <= 187649984471040 -> w <> 0 -> -6144 <= w <= 6144 ->
  exists c, gs_bound_fixed b w = Ok c /\ good_gs b w c /\ tgt_gs b w c /\ b <= c <= 3 * b + 12286.
Proof.
  intros Hb Hw HW. assert (HM : 0 <= Z.abs w * (2 * b) <= 6144 * (2 * b)) by (split; [apply Z.mul_nonneg_nonneg; lia|apply Z.mul_le_mono_nonneg_r; lia]).
  destruct (gs_bound_fixed_ok b w) as (c & E & S & T & H1 & H2).
  { unfold fixed_range. lia. }
  exists c. split; [exact E|]. split; [split; [assumption|lia]|]. split; [split; [exact T|apply H1]|]. clear - H1 HM Hb. lia.
Qed.

Lemma good_ct_mono b w c c' : good_ct b w c -> c <= c' -> good_ct b w c'.
Proof.
  intros [S H] Hc. split; [|lia]. intros x y v Hx Hy Hv. destruct (S x y v Hx Hy Hv). lia.
Qed.
Lemma good_gs_mono b w c c' : good_gs b w c -> c <= c' -> good_gs b w c'.
Proof.
  intros (S & H1 & H2) Hc. split; [|lia]. intros x y v Hx Hy Hv. destruct (S x y v Hx Hy Hv). lia.
Qed.

Lemma shiftl1 t : Z.shiftl t 1 = t * 2.
Proof. rewrite Z.shiftl_mul_pow2 by lia. reflexivity. Qed.

Lemma ntt_ct_bounds_ok k b0 p bound : 0 <= k <= 12 -> 0 <= b0 <= 536870912 -> bnd_table k p -> k < zlen bound ->
  exists bd, ntt_ct_bounds b0 (2 ^ k) p bound = Ok (at_ bd k, bd) /\ zlen bd = zlen bound
    /\ seq_ok good_ct b0 p (fun m => m) k bd /\ seq_tgt tgt_ct p (fun m => m) k bd.
Proof.
  intros Hk Hb0 Hp HL. unfold ntt_ct_bounds. rewrite wr_ok by lia. cbn [bind].
  set (body := fun t '(b, k0, bound) => _).
  destruct (cfor_count (fun m '(b, kk, bd) => zlen bd = zlen bound /\ kk = m /\ b = at_ bd m /\
      seq_ok good_ct b0 p (fun m => m) m bd /\ seq_tgt tgt_ct p (fun m => m) m bd) k (fun m => 2 ^ m) (fun t => t <? 2 ^ k)
      (fun t => u32 (Z.shiftl t 1)) body) with (f := fuel (2 ^ k)) (i0 := 1) (st := (b0, 0, aset bound 0 b0))
      as ([[b kk] bd] & E & HLb & Hkk & Hb & HS & HT).
  - lia.
  - intros m Hm. apply Z.ltb_lt, Z.pow_lt_mono_r; lia.
  - apply Z.ltb_irrefl.
  - intros m Hm. rewrite shiftl1. apply (pow_next k (2 ^ k) (fun _ _ _ => True) ltac:(lia) eq_refl m Hm).
  - intros m [[b kk] bd] Hm (HLb & Hkk & Hb & HS & HT).
    destruct (round_step ct_bound_fixed good_ct tgt_ct k b0 p Hk Hb0 Hp good_ct_bnd good_ct_mono (fun m => m) m b kk bd)
      as (c & Er & Ew & Hat & HS' & HT'); try assumption; try lia.
    cbv beta in Er. unfold body. rewrite Er. cbn [bind]. rewrite Ew. cbn [bind].
    eexists. split; [reflexivity|]. cbv beta iota. rewrite aset_len. split; [exact HLb|].
    split; [rewrite u32_small by lia; lia|]. split; [symmetry; exact Hat|split; [exact HS'|exact HT']].
  - reflexivity.
  - exact (k_fuel k (2 ^ k) (fun _ _ _ => True) ltac:(lia) eq_refl).
  - rewrite aset_len. split; [reflexivity|]. split; [reflexivity|].
    assert (H0 : at_ (aset bound 0 b0) 0 = b0) by (apply at_aset_same; lia).
    split; [symmetry; exact H0|]. split; [|intros i Hi; lia]. split; [exact H0|]. split; [|intros; lia].
    intros i Hi. replace i with 0 by lia. rewrite H0. change (3 ^ 0) with 1. lia.
  - cbv zeta in E. rewrite E. cbn [bind]. exists bd. subst b. auto.
Qed.

Lemma ntt_gs_bounds_ok k b0 p bound : 0 <= k <= 12 -> 0 <= b0 <= 536870912 -> bnd_table k p -> k < zlen bound ->
  exists bd, ntt_gs_bounds b0 (2 ^ k) p bound = Ok (at_ bd k, bd) /\ zlen bd = zlen bound
    /\ seq_ok good_gs b0 p (fun m => k - 1 - m) k bd /\ seq_tgt tgt_gs p (fun m => k - 1 - m) k bd.
Proof.
  intros Hk Hb0 Hp HL. unfold ntt_gs_bounds. rewrite wr_ok by lia. cbn [bind].
  set (body := fun t '(b, k0, bound) => _).
  destruct (cfor_count (fun m '(b, kk, bd) => zlen bd = zlen bound /\ kk = m /\ b = at_ bd m /\
      seq_ok good_gs b0 p (fun m => k - 1 - m) m bd /\ seq_tgt tgt_gs p (fun m => k - 1 - m) m bd) k (fun m => 2 ^ (k - 1 - m)) (fun t => 0 <? t)
      (fun t => Z.shiftr t 1) body) with (f := fuel (2 ^ k)) (i0 := 2 ^ k / 2) (st := (b0, 0, aset bound 0 b0))
      as ([[b kk] bd] & E & HLb & Hkk & Hb & HS & HT).
  - lia.
  - intros m Hm. apply Z.ltb_lt, Z.pow_pos_nonneg; lia.
  - replace (k - 1 - k) with (-1) by lia. reflexivity.
  - intros m Hm. rewrite (pow_half 0 (fun _ _ _ => True)). f_equal. clear. lia.
  - intros m [[b kk] bd] Hm (HLb & Hkk & Hb & HS & HT).
    destruct (round_step gs_bound_fixed good_gs tgt_gs k b0 p Hk Hb0 Hp good_gs_bnd good_gs_mono (fun m => k - 1 - m) m b kk bd)
      as (c & Er & Ew & Hat & HS' & HT'); try assumption; try lia.
    cbv beta in Er. unfold body. rewrite Er. cbn [bind]. rewrite Ew. cbn [bind].
    eexists. split; [reflexivity|]. cbv beta iota. rewrite aset_len. split; [exact HLb|].
    split; [rewrite u32_small by lia; lia|]. split; [symmetry; exact Hat|split; [exact HS'|exact HT']].
  - change (2 ^ k / 2) with (2 ^ k / 2 ^ 1). rewrite <- Z.shiftr_div_pow2 by lia. rewrite (pow_half 0 (fun _ _ _ => True)). f_equal. lia.
  - exact (k_fuel k (2 ^ k) (fun _ _ _ => True) ltac:(lia) eq_refl).
  - rewrite aset_len. split; [reflexivity|]. split; [reflexivity|].
    assert (H0 : at_ (aset bound 0 b0) 0 = b0) by (apply at_aset_same; lia).
    split; [symmetry; exact H0|]. split; [|intros i Hi; lia]. split; [exact H0|]. split; [|intros; lia].
    intros i Hi. replace i with 0 by lia. rewrite H0. change (3 ^ 0) with 1. lia.
  - cbv zeta in E. rewrite E. cbn [bind]. exists bd. subst b. auto.
Qed.

(** ** The transforms *)

Section Run.
Variables (n : Z).
Hypothesis Hn : n <= 2147483648.

Lemma ct_bspec_bound h s w b c : 0 <= s -> 0 < h -> s + h < n -> 0 <= b -> -6144 <= w <= 6144 ->
  c <= 2147483647 -> good_ct b w c ->
  bspec n h (fun _ v => Z.abs v <= b) (fun _ v => Z.abs v <= c) s (ModelRed.ct_bfly_red w s h).
Proof.
  intros Hs Hh Hsh Hb Hw Hc [S HM] a HL Hx Hy. unfold ModelRed.ct_bfly_red. rewrite (pair_idx n s h) by lia.
  set (x := at_ a s) in *. set (y := at_ a (s + h)) in *.
  destruct (S x y w ltac:(lia) ltac:(lia) eq_refl) as [S1 S2].
  assert (HW : - (Z.abs w * b) <= w * y <= Z.abs w * b) by (apply abs_mul_range; lia).
  assert (HM' : 0 <= Z.abs w * b <= 6144 * b) by (split; [apply Z.mul_nonneg_nonneg; lia|apply Z.mul_le_mono_nonneg_r; lia]).
  assert (HR : -8796042698752 <= y * w <= 8796042698752) by (rewrite Z.mul_comm; clear - HM HM' HW Hc Hb; lia).
  step_rd. fold y. rewrite mul_red_ok by lia. cbn [bind]. rewrite (Z.mul_comm y w) in *.
  step_rd. fold x. unfold sub32, add32. rewrite i32_ok by lia. cbn [bind].
  next_wr. next_rd. rewrite at_aset_other by lia. fold x.
  rewrite i32_ok by lia. cbn [bind]. next_wr.
  do 2 eexists. split; [reflexivity|]. split; assumption.
Qed.

Lemma gs_bspec_bound h s w b c : 0 <= s -> 0 < h -> s + h < n -> 0 <= b -> -6144 <= w <= 6144 ->
  c <= 2147471361 -> good_gs b w c ->
  bspec n h (fun _ v => Z.abs v <= b) (fun _ v => Z.abs v <= c) s (ModelRed.gs_bfly_red w s h).
Proof.
  intros Hs Hh Hsh Hb Hw Hc (S & H2b & HM) a HL Hx Hy. unfold ModelRed.gs_bfly_red. rewrite (pair_idx n s h) by lia.
  set (x := at_ a s) in *. set (y := at_ a (s + h)) in *.
  destruct (S x y w ltac:(lia) ltac:(lia) eq_refl) as [S1 S2].
  assert (HW : - (Z.abs w * (2 * b)) <= w * (x - y) <= Z.abs w * (2 * b)) by (apply abs_mul_range; lia).
  assert (HM' : 0 <= Z.abs w * (2 * b) <= 6144 * (2 * b)) by (split; [apply Z.mul_nonneg_nonneg; lia|apply Z.mul_le_mono_nonneg_r; lia]).
  step_rd. fold y. step_rd. fold x. unfold sub32, add32. rewrite i32_ok by lia. cbn [bind].
  rewrite (Z.mul_comm w (x - y)) in *.
  rewrite mul_red_ok by (clear - HM HM' HW Hc Hb; lia).
  cbn [bind].
  next_wr. next_rd. rewrite at_aset_other by lia. fold x.
  rewrite i32_ok by lia. cbn [bind]. next_wr.
  do 2 eexists. split; [reflexivity|]. split; assumption.
Qed.

Lemma bfly0_bspec_bound h s b c : 0 <= s -> 0 < h -> s + h < n -> 2 * b <= c -> c <= 2147483647 ->
  bspec n h (fun _ v => Z.abs v <= b) (fun _ v => Z.abs v <= c) s (ModelRed.bfly0_red s h).
Proof.
  intros Hs Hh Hsh Hb Hc a HL Hx Hy. unfold ModelRed.bfly0_red. rewrite (pair_idx n s h) by lia.
  set (x := at_ a s) in *. set (y := at_ a (s + h)) in *.
  step_rd. fold y. step_rd. fold x. unfold sub32, add32. rewrite i32_ok by lia. cbn [bind].
  next_wr. next_rd. rewrite at_aset_other by lia. fold x.
  rewrite i32_ok by lia. cbn [bind]. next_wr.
  do 2 eexists. split; [reflexivity|]. lia.
Qed.
End Run.

(** Without a multiplication for j = 0: then the constant stands for 1, that is, it
    is -4096. *)
Definition unit_rows (k : Z) (p : list Z) : Prop := forall l, 0 <= l < k -> at_ p (2 ^ l) = -4096.

Definition range_table (k : Z) (p : list Z) : Prop :=
  zlen p = 2 ^ k /\ forall i, 1 <= i < 2 ^ k -> -6144 <= at_ p i <= 6144.
Lemma bnd_range k p : bnd_table k p -> range_table k p.
Proof. intros [HL HP]. split; [exact HL|]. intros i Hi. apply HP. exact Hi. Qed.

(** Every bound is at least twice the one before. *)
Definition doubling (k : Z) (bd : list Z) : Prop := forall l, 0 <= l < k -> 2 * at_ bd l <= at_ bd (l + 1).

Lemma unit_doubling k b0 p bd : seq_ok good_ct b0 p (fun m => m) k bd -> unit_rows k p -> doubling k bd.
Proof.
  intros HS HU l Hl. destruct HS as (_ & _ & HG). destruct (HG l Hl) as [_ HG'].
  assert (0 < 2 ^ l) by (apply pow2_pos; lia).
  destruct (HG' 0 ltac:(lia)) as [_ HM]. replace (2 ^ l + 0) with (2 ^ l) in HM by lia. rewrite HU in HM by lia.
  clear - HM. change (Z.abs (-4096)) with 4096 in HM. lia.
Qed.

Definition bounded (B : Z) (m : res (list Z)) (n : Z) : Prop :=
  exists r, m = Ok r /\ zlen r = n /\ forall i, 0 <= i < n -> Z.abs (at_ r i) <= B.

Section Transforms.
Variables (k b0 : Z) (p a bd : list Z).
Hypothesis Hk : 0 <= k <= 12.
Hypothesis Hp : range_table k p.
Hypothesis HL : zlen a = 2 ^ k.
Hypothesis Ha : forall i, 0 <= i < 2 ^ k -> Z.abs (at_ a i) <= b0.

Let Hn : 2 ^ k <= 2147483648.
Proof. apply pow31. lia. Qed.

Let PA l j c : 0 <= l < k -> 0 <= j < 2 ^ l -> 0 <= c < 2 ^ (k - 1 - l) ->
  0 <= posA (2 ^ l) j c /\ 0 < 2 ^ l /\ posA (2 ^ l) j c + 2 ^ l < 2 ^ k.
Proof.
  intros Hl Hj Hc. assert (Hs : 2 ^ k = 2 * 2 ^ l * 2 ^ (k - 1 - l)) by (apply RedRange.pow_three; lia).
  assert (0 < 2 ^ l) by (apply pow2_pos; lia). unfold posA.
  assert (2 * 2 ^ l * c <= 2 * 2 ^ l * (2 ^ (k - 1 - l) - 1)) by (apply Z.mul_le_mono_nonneg_l; lia).
  nia.
Qed.

Let PB l j c : 0 <= l < k -> 0 <= j < 2 ^ l -> 0 <= c < 2 ^ (k - 1 - l) ->
  0 <= posB (2 ^ (k - 1 - l)) j c /\ 0 < 2 ^ (k - 1 - l)
  /\ posB (2 ^ (k - 1 - l)) j c + 2 ^ (k - 1 - l) < 2 ^ k.
Proof.
  intros Hl Hj Hc. assert (Hs : 2 ^ k = 2 * 2 ^ l * 2 ^ (k - 1 - l)) by (apply RedRange.pow_three; lia).
  assert (0 < 2 ^ (k - 1 - l)) by (apply pow2_pos; lia). unfold posB.
  assert (2 ^ (k - 1 - l) * j <= 2 ^ (k - 1 - l) * (2 ^ l - 1)) by (apply Z.mul_le_mono_nonneg_l; lia).
  nia.
Qed.

Lemma seq_mono good lev : seq_ok good b0 p lev k bd -> forall i, 0 <= i <= k -> 0 <= at_ bd i <= at_ bd k.
Proof.
  intros (H0 & HB & HS) i Hi. split; [apply HB; lia|].
  assert (G : forall d, 0 <= d -> forall i, 0 <= i -> i + d <= k -> at_ bd i <= at_ bd (i + d)).
  { apply (natlike_ind (fun d => forall i, 0 <= i -> i + d <= k -> at_ bd i <= at_ bd (i + d))).
    - intros j _ _. replace (j + 0) with j by lia. lia.
    - intros d Hd IH j Hj Hjd. specialize (IH j Hj ltac:(lia)).
      destruct (HS (j + d) ltac:(lia)) as [H _]. replace (j + Z.succ d) with (j + d + 1) by lia. lia. }
  specialize (G (k - i) ltac:(lia) i ltac:(lia) ltac:(lia)). replace (i + (k - i)) with k in G by lia. exact G.
Qed.

Section CT.
Hypothesis HS : seq_ok good_ct b0 p (fun m => m) k bd.
Hypothesis HB : at_ bd k <= 2147483647.

Let P l (_ v : Z) := Z.abs v <= at_ bd l.

Let ctA l j c : 0 <= l < k -> 0 <= j < 2 ^ l -> 0 <= c < 2 ^ (k - 1 - l) ->
  bspec (2 ^ k) (2 ^ l) (P l) (P (l + 1)) (posA (2 ^ l) j c)
        (ModelRed.ct_bfly_red (at_ p (2 ^ l + j)) (posA (2 ^ l) j c) (2 ^ l)).
Proof.
  intros Hl Hj Hc. destruct (PA l j c) as (H1 & H2 & H3); auto.
  assert (M1 := seq_mono _ _ HS l ltac:(lia)). assert (M2 := seq_mono _ _ HS (l + 1) ltac:(lia)).
  destruct HS as (_ & _ & HG). destruct Hp as [_ HP].
  apply ct_bspec_bound; try lia; [apply HP, entry_range; lia|]. apply HG; assumption.
Qed.

Let ctB l j c : 0 <= l < k -> 0 <= j < 2 ^ l -> 0 <= c < 2 ^ (k - 1 - l) ->
  bspec (2 ^ k) (2 ^ (k - 1 - l)) (P l) (P (l + 1)) (posB (2 ^ (k - 1 - l)) j c)
        (ModelRed.ct_bfly_red (at_ p (2 ^ l + j)) (posB (2 ^ (k - 1 - l)) j c) (2 ^ (k - 1 - l))).
Proof.
  intros Hl Hj Hc. destruct (PB l j c) as (H1 & H2 & H3); auto.
  assert (M1 := seq_mono _ _ HS l ltac:(lia)). assert (M2 := seq_mono _ _ HS (l + 1) ltac:(lia)).
  destruct HS as (_ & _ & HG). destruct Hp as [_ HP].
  apply ct_bspec_bound; try lia; [apply HP, entry_range; lia|]. apply HG; assumption.
Qed.

Let start : At (2 ^ k) P 0 a.
Proof. split; [exact HL|]. intros i Hi. unfold P. destruct HS as (-> & _). apply Ha; exact Hi. Qed.

Lemma bound_mul_ct_rev2std : bounded (at_ bd k) (ModelRed.mulntt_red_ct_rev2std a (2 ^ k) p) (2 ^ k).
Proof.
  destruct (nest_A_up_mul k (2 ^ k) P ltac:(lia) eq_refl ModelRed.bfly0_red ModelRed.ct_bfly_red p a) as (r & E & HA);
    auto; [apply Hp|]. destruct HA. exists r; auto.
Qed.

Lemma bound_mul_ct_std2rev : bounded (at_ bd k) (ModelRed.mulntt_red_ct_std2rev a (2 ^ k) p) (2 ^ k).
Proof.
  destruct (nest_B_up_mul k (2 ^ k) P ltac:(lia) eq_refl ModelRed.bfly0_red ModelRed.ct_bfly_red p a) as (r & E & HA);
    auto; [apply Hp|]. destruct HA. exists r; auto.
Qed.

Lemma bound_ct_rev2std : doubling k bd -> bounded (at_ bd k) (ModelRed.ntt_red_ct_rev2std a (2 ^ k) p) (2 ^ k).
Proof.
  intros HU.
  destruct (nest_A_up_plain k (2 ^ k) P ltac:(lia) eq_refl ModelRed.bfly0_red ModelRed.ct_bfly_red p a) as (r & E & HA);
    auto.
  - apply Hp.
  - intros l c Hl Hc. assert (0 < 2 ^ l) by (apply pow2_pos; lia). destruct (PA l 0 c) as (H1 & H2 & H3); [lia|lia|lia|].
    assert (M2 := seq_mono _ _ HS (l + 1) ltac:(lia)). apply bfly0_bspec_bound; try lia. apply HU; lia.
  - intros. apply ctA; lia.
  - destruct HA. exists r; auto.
Qed.

Lemma bound_ct_std2rev : doubling k bd -> bounded (at_ bd k) (ModelRed.ntt_red_ct_std2rev a (2 ^ k) p) (2 ^ k).
Proof.
  intros HU.
  destruct (nest_B_up_plain k (2 ^ k) P ltac:(lia) eq_refl ModelRed.bfly0_red ModelRed.ct_bfly_red p a) as (r & E & HA);
    auto.
  - apply Hp.
  - intros l c Hl Hc. assert (0 < 2 ^ l) by (apply pow2_pos; lia). destruct (PB l 0 c) as (H1 & H2 & H3); [lia|lia|lia|].
    assert (M2 := seq_mono _ _ HS (l + 1) ltac:(lia)). apply bfly0_bspec_bound; try lia. apply HU; lia.
  - intros. apply ctB; lia.
  - destruct HA. exists r; auto.
Qed.
End CT.

Section GS.
Hypothesis HS : seq_ok good_gs b0 p (fun m => k - 1 - m) k bd.
Hypothesis HB : at_ bd k <= 2147471361.

Let P l (_ v : Z) := Z.abs v <= at_ bd (k - l).

Let step l j : 0 <= l < k -> 0 <= j < 2 ^ l ->
  good_gs (at_ bd (k - (l + 1))) (at_ p (2 ^ l + j)) (at_ bd (k - l)).
Proof.
  intros Hl Hj. destruct HS as (_ & _ & HG). destruct (HG (k - (l + 1)) ltac:(lia)) as [_ HG'].
  replace (k - 1 - (k - (l + 1))) with l in HG' by lia.
  replace (k - (l + 1) + 1) with (k - l) in HG' by lia. apply HG'. exact Hj.
Qed.

Let gsA l j c : 0 <= l < k -> 0 <= j < 2 ^ l -> 0 <= c < 2 ^ (k - 1 - l) ->
  bspec (2 ^ k) (2 ^ l) (P (l + 1)) (P l) (posA (2 ^ l) j c)
        (ModelRed.gs_bfly_red (at_ p (2 ^ l + j)) (posA (2 ^ l) j c) (2 ^ l)).
Proof.
  intros Hl Hj Hc. destruct (PA l j c) as (H1 & H2 & H3); auto.
  assert (M1 := seq_mono _ _ HS (k - l) ltac:(lia)). assert (M2 := seq_mono _ _ HS (k - (l + 1)) ltac:(lia)).
  destruct Hp as [_ HP].
  apply gs_bspec_bound; try lia; [apply HP, entry_range; lia|]. apply step; assumption.
Qed.

Let gsB l j c : 0 <= l < k -> 0 <= j < 2 ^ l -> 0 <= c < 2 ^ (k - 1 - l) ->
  bspec (2 ^ k) (2 ^ (k - 1 - l)) (P (l + 1)) (P l) (posB (2 ^ (k - 1 - l)) j c)
        (ModelRed.gs_bfly_red (at_ p (2 ^ l + j)) (posB (2 ^ (k - 1 - l)) j c) (2 ^ (k - 1 - l))).
Proof.
  intros Hl Hj Hc. destruct (PB l j c) as (H1 & H2 & H3); auto.
  assert (M1 := seq_mono _ _ HS (k - l) ltac:(lia)). assert (M2 := seq_mono _ _ HS (k - (l + 1)) ltac:(lia)).
  destruct Hp as [_ HP].
  apply gs_bspec_bound; try lia; [apply HP, entry_range; lia|]. apply step; assumption.
Qed.

Let start : At (2 ^ k) P k a.
Proof.
  split; [exact HL|]. intros i Hi. unfold P. replace (k - k) with 0 by lia. destruct HS as (-> & _). apply Ha; exact Hi.
Qed.

Let finish r : At (2 ^ k) P 0 r -> zlen r = 2 ^ k /\ forall i, 0 <= i < 2 ^ k -> Z.abs (at_ r i) <= at_ bd k.
Proof. intros [H1 H2]. split; [exact H1|]. intros i Hi. specialize (H2 i Hi). unfold P in H2. now replace (k - 0) with k in H2 by lia. Qed.

Lemma bound_mul_gs_rev2std : bounded (at_ bd k) (ModelRed.nttmul_red_gs_rev2std a (2 ^ k) p) (2 ^ k).
Proof.
  destruct (nest_B_down_mul k (2 ^ k) P ltac:(lia) eq_refl ModelRed.bfly0_red ModelRed.gs_bfly_red p a) as (r & E & HA);
    auto; [apply Hp|]. destruct (finish r HA). exists r; auto.
Qed.

Lemma bound_mul_gs_std2rev : bounded (at_ bd k) (ModelRed.nttmul_red_gs_std2rev a (2 ^ k) p) (2 ^ k).
Proof.
  destruct (nest_A_down_mul k (2 ^ k) P ltac:(lia) eq_refl ModelRed.bfly0_red ModelRed.gs_bfly_red p a) as (r & E & HA);
    auto; [apply Hp|]. destruct (finish r HA). exists r; auto.
Qed.

Let unit2 l : 0 <= l < k -> 2 * at_ bd (k - (l + 1)) <= at_ bd (k - l).
Proof.
  intros Hl. assert (0 < 2 ^ l) by (apply pow2_pos; lia). destruct (step l 0 Hl ltac:(lia)) as (_ & H2 & _). exact H2.
Qed.

Lemma bound_gs_rev2std : bounded (at_ bd k) (ModelRed.ntt_red_gs_rev2std a (2 ^ k) p) (2 ^ k).
Proof.
  destruct (nest_B_down_plain k (2 ^ k) P ltac:(lia) eq_refl ModelRed.bfly0_red ModelRed.gs_bfly_red p a) as (r & E & HA);
    auto.
  - apply Hp.
  - intros l c Hl Hc. assert (0 < 2 ^ l) by (apply pow2_pos; lia). destruct (PB l 0 c) as (H1 & H2 & H3); [lia|lia|lia|].
    assert (M2 := seq_mono _ _ HS (k - l) ltac:(lia)). apply bfly0_bspec_bound; try lia. apply unit2; assumption.
  - intros. apply gsB; lia.
  - destruct (finish r HA). exists r; auto.
Qed.

Lemma bound_gs_std2rev : bounded (at_ bd k) (ModelRed.ntt_red_gs_std2rev a (2 ^ k) p) (2 ^ k).
Proof.
  destruct (nest_A_down_plain k (2 ^ k) P ltac:(lia) eq_refl ModelRed.bfly0_red ModelRed.gs_bfly_red p a) as (r & E & HA);
    auto.
  - apply Hp.
  - intros l c Hl Hc. assert (0 < 2 ^ l) by (apply pow2_pos; lia). destruct (PA l 0 c) as (H1 & H2 & H3); [lia|lia|lia|].
    assert (M2 := seq_mono _ _ HS (k - l) ltac:(lia)). apply bfly0_bspec_bound; try lia. apply unit2; assumption.
  - intros. apply gsA; lia.
  - destruct (finish r HA). exists r; auto.
Qed.
End GS.
End Transforms.
