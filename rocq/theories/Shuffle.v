(** The two bit-reversal shuffles, and the table of make_bitrev_table. *)

From Coq Require Import ZArith List Bool Lia.
From Verif Require Import CSem Spec ModelNtt ModelGen Loops ModQ GenElem.
Import ListNotations.
Open Scope Z_scope.

(** ** Partial shuffles: the pairs whose smaller member is below [m] are swapped *)

Definition part (k m : Z) (a r : list Z) : Prop :=
  zlen r = 2 ^ k
  /\ forall p, 0 <= p < 2 ^ k ->
       at_ r p = at_ a (if Z.min p (bitrev k p) <? m then bitrev k p else p).

Definition swap (a : list Z) (j k : Z) : res (list Z) :=
  do x <- rd a j; do y <- rd a k; do a <- wr a j y; wr a k x.

Lemma part_0 k a : 0 <= k -> zlen a = 2 ^ k -> part k 0 a a.
Proof.
  intros Hk HL. split; [exact HL|]. intros p Hp. assert (HR := bitrev_range k p Hk).
  destruct (Z.ltb_spec (Z.min p (bitrev k p)) 0); [lia|reflexivity].
Qed.

Lemma part_skip k m a r : 0 <= k -> 0 <= m < 2 ^ k -> bitrev k m <= m -> part k m a r -> part k (m + 1) a r.
Proof.
  intros Hk Hm Hle [HL H]. split; [exact HL|]. intros p Hp. rewrite H by exact Hp. f_equal.
  assert (HR := bitrev_range k p Hk).
  destruct (Z.ltb_spec (Z.min p (bitrev k p)) m), (Z.ltb_spec (Z.min p (bitrev k p)) (m + 1)); try reflexivity; [lia|].
  assert (Z.min p (bitrev k p) = m) as E by lia.
  destruct (Z.min_spec p (bitrev k p)) as [[Hlt E']|[Hlt E']].
  - assert (p = m) by lia. subst p. lia.
  - assert (E2 : bitrev k p = m) by lia. assert (bitrev k m = p) by (rewrite <- E2; apply bitrev_invol; lia). lia.
Qed.

Lemma part_swap k m a r : 0 <= k -> 0 <= m < 2 ^ k -> m < bitrev k m -> part k m a r ->
  exists r', swap r m (bitrev k m) = Ok r' /\ part k (m + 1) a r'.
Proof.
  intros Hk Hm Hlt [HL H]. assert (HRm := bitrev_range k m Hk). unfold swap.
  rewrite !rd_ok by lia. cbn [bind]. rewrite wr_ok by lia. cbn [bind].
  rewrite wr_ok by (rewrite aset_len; lia). eexists. split; [reflexivity|].
  split; [rewrite !aset_len; exact HL|]. intros p Hp. assert (HR := bitrev_range k p Hk).
  assert (HI : bitrev k (bitrev k m) = m) by (apply bitrev_invol; lia).
  destruct (Z.eq_dec p (bitrev k m)) as [->|Hp1].
  - rewrite at_aset_same by (rewrite aset_len; lia). rewrite HI. rewrite H by exact Hm.
    destruct (Z.ltb_spec (Z.min m (bitrev k m)) m); [lia|].
    destruct (Z.ltb_spec (Z.min (bitrev k m) m) (m + 1)); [reflexivity|lia].
  - rewrite at_aset_other by (rewrite ?aset_len; lia). destruct (Z.eq_dec p m) as [->|Hp2].
    + rewrite at_aset_same by lia. rewrite H by lia. rewrite HI.
      destruct (Z.ltb_spec (Z.min (bitrev k m) m) m); [lia|].
      destruct (Z.ltb_spec (Z.min m (bitrev k m)) (m + 1)); [reflexivity|lia].
    + rewrite at_aset_other by lia. rewrite H by lia. f_equal.
      assert (bitrev k p <> m).
      { intros E. apply Hp1. rewrite <- E. symmetry. apply bitrev_invol; lia. }
      destruct (Z.ltb_spec (Z.min p (bitrev k p)) m), (Z.ltb_spec (Z.min p (bitrev k p)) (m + 1)); try reflexivity; lia.
Qed.

Lemma part_end k m a r : 0 <= k -> 2 ^ k - 1 <= m -> part k m a r ->
  zlen r = 2 ^ k /\ forall p, 0 <= p < 2 ^ k -> at_ r p = at_ a (bitrev k p).
Proof.
  intros Hk Hm [HL H]. split; [exact HL|]. intros p Hp. rewrite H by exact Hp. f_equal.
  assert (HR := bitrev_range k p Hk). destruct (Z.ltb_spec (Z.min p (bitrev k p)) m); [reflexivity|lia].
Qed.

(** ** The bit-reversed counter of bitrev_shuffle *)

Lemma lxor_top k j : 0 <= k -> 0 <= j < 2 ^ k -> Z.lxor j (2 ^ k) = 2 ^ k + j.
Proof.
  intros Hk Hj. rewrite Z.add_comm. symmetry. apply Z.add_nocarry_lxor.
  apply Z.bits_inj'. intros i Hi. rewrite Z.land_spec, Z.bits_0, Z.pow2_bits_eqb by lia.
  destruct (Z.eqb_spec k i) as [->|]; [|apply andb_false_r].
  rewrite (proj2 (Z.testbit_false j i Hi)); [reflexivity|]. rewrite Z.div_small by lia. reflexivity.
Qed.

Lemma land_top_0 k j : 0 <= k -> 0 <= j < 2 ^ k -> Z.land j (2 ^ k) = 0.
Proof.
  intros Hk Hj. apply Z.bits_inj'. intros i Hi. rewrite Z.land_spec, Z.bits_0, Z.pow2_bits_eqb by lia.
  destruct (Z.eqb_spec k i) as [->|]; [|apply andb_false_r].
  rewrite (proj2 (Z.testbit_false j i Hi)); [reflexivity|]. rewrite Z.div_small by lia. reflexivity.
Qed.

Lemma land_top_1 k j : 0 <= k -> 0 <= j < 2 ^ k -> Z.land (2 ^ k + j) (2 ^ k) = 2 ^ k.
Proof.
  intros Hk Hj. rewrite <- lxor_top by assumption. apply Z.bits_inj'. intros i Hi.
  rewrite Z.land_spec, Z.lxor_spec, Z.pow2_bits_eqb by lia.
  destruct (Z.eqb_spec k i) as [->|]; [|apply andb_false_r].
  rewrite (proj2 (Z.testbit_false j i Hi)); [reflexivity|]. rewrite Z.div_small by lia. reflexivity.
Qed.

Lemma pow2_half k : 0 <= k -> Z.shiftr (2 ^ (k + 1)) 1 = 2 ^ k.
Proof. intros Hk. rewrite shiftr1, Z.pow_add_r by lia. change (2 ^ 1) with 2. apply Z.div_mul. lia. Qed.

Lemma counter k : 0 <= k -> forall f i, (Z.to_nat k <= f)%nat -> 0 <= i < 2 ^ k - 1 ->
  exists kk, cdowhile f (fun '(k, j) => let k := Z.shiftr k 1 in Ok (k, Z.lxor j k))
    (fun '(k, j) => Z.land j k =? 0) (2 ^ k, bitrev k i) = Ok (kk, bitrev k (i + 1)).
Proof.
  intros Hk. revert k Hk.
  apply (natlike_ind (fun k => forall f i, (Z.to_nat k <= f)%nat -> 0 <= i < 2 ^ k - 1 ->
    exists kk, cdowhile f (fun '(k, j) => let k := Z.shiftr k 1 in Ok (k, Z.lxor j k))
    (fun '(k, j) => Z.land j k =? 0) (2 ^ k, bitrev k i) = Ok (kk, bitrev k (i + 1)))).
  - intros f i Hf Hi. change (2 ^ 0) with 1 in Hi. lia.
  - intros k Hk IH f i Hf Hi. unfold Z.succ in *. destruct f as [|f]; [lia|].
    assert (HP : 0 < 2 ^ k) by (apply Z.pow_pos_nonneg; lia).
    assert (HP2 : 2 ^ (k + 1) = 2 * 2 ^ k) by (rewrite Z.pow_add_r by lia; lia).
    unfold cdowhile. cbn [bind]. rewrite pow2_half by lia. cbv zeta.
    assert (HR := bitrev_range k (i / 2) Hk).
    destruct (Z.eq_dec (i mod 2) 0) as [He|Ho].
    + rewrite bitrev_succ by lia. rewrite He, Z.mul_0_l, Z.add_0_l. rewrite lxor_top by lia.
      cbn [cwhile]. rewrite land_top_1 by lia. destruct (Z.eqb_spec (2 ^ k) 0); [lia|].
      exists (2 ^ k). do 2 f_equal. rewrite bitrev_succ by lia.
      replace ((i + 1) mod 2) with 1 by lia. replace ((i + 1) / 2) with (i / 2) by lia. lia.
    + rewrite bitrev_succ by lia. replace (i mod 2) with 1 by lia. rewrite Z.mul_1_l.
      rewrite <- (lxor_top k (bitrev k (i / 2))) by lia. rewrite Z.lxor_assoc, Z.lxor_nilpotent, Z.lxor_0_r.
      cbn [cwhile]. rewrite land_top_0 by lia. cbn [Z.eqb].
      destruct (IH f (i / 2)) as [kk Hkk]; [lia|lia|]. exists kk.
      unfold cdowhile in Hkk. rewrite Hkk. do 2 f_equal.
      rewrite bitrev_succ by lia. replace ((i + 1) mod 2) with 0 by lia.
      replace ((i + 1) / 2) with (i / 2 + 1) by lia. lia.
Qed.

Lemma pow2_land k : 0 <= k -> Z.land (2 ^ k) (2 ^ k - 1) = 0.
Proof.
  intros Hk. rewrite Z.sub_1_r, <- Z.ones_equiv, Z.land_ones by lia. apply Z.mod_same.
  apply Z.pow_nonzero; lia.
Qed.

Lemma bitrev_shuffle_ok k a : 0 <= k <= 31 -> zlen a = 2 ^ k ->
  exists r, bitrev_shuffle a (2 ^ k) = Ok r /\ zlen r = 2 ^ k
    /\ forall p, 0 <= p < 2 ^ k -> at_ r p = at_ a (bitrev k p).
Proof.
  intros Hk HL. assert (HP : 0 < 2 ^ k) by (apply Z.pow_pos_nonneg; lia).
  assert (HB : 2 ^ k <= 2 ^ 31) by (apply Z.pow_le_mono_r; lia). change (2 ^ 31) with 2147483648 in HB.
  unfold bitrev_shuffle. rewrite u32_small by lia. rewrite pow2_land by lia.
  replace (0 <? 2 ^ k) with true by lia. cbn [andb Z.eqb cassert bind].
  assert (HX : part k 1 a a).
  { apply (part_skip k 0); [lia|lia|rewrite bitrev_zero; lia|apply part_0; lia]. }
  destruct (Z.eq_dec k 0) as [->|Hk0].
  { exists a. cbn [fuel cfor]. change (2 ^ 0) with 1 in *. cbn -[at_]. split; [reflexivity|].
    split; [exact HL|]. intros p Hp. change (at_ a p = at_ a (bitrev 0 p)). rewrite bitrev_0. f_equal. lia. }
  assert (HP2 : 2 <= 2 ^ k).
  { change 2 with (2 ^ 1) at 1. apply Z.pow_le_mono_r; lia. }
  destruct (cfor_count (fun c '(j, r) => j = bitrev k (c + 1) /\ part k (c + 1) a r)
    (2 ^ k - 2) (fun c => c + 1) (fun i => i <? 2 ^ k - 1) (fun i => u32 (i + 1))
    (fun i '(j, a) =>
      do a <- (if i <? j then
                 do x <- rd a i;
                 do y <- rd a j;
                 do a <- wr a i y;
                 wr a j x
               else Ok a);
      do '(_, j) <- cdowhile (fuel 32)
                      (fun '(k, j) => let k := Z.shiftr k 1 in Ok (k, Z.lxor j k))
                      (fun '(k, j) => Z.land j k =? 0) (2 ^ k, j);
      Ok (j, a))) with (f := fuel (2 ^ k)) (i0 := 1) (st := (Z.shiftr (2 ^ k) 1, a))
    as ([j r] & E & Hj & Hr).
  - lia.
  - intros. lia.
  - lia.
  - intros. apply u32_small. lia.
  - intros c [j r] Hc [-> Hr].
    assert (HS : exists r', (if c + 1 <? bitrev k (c + 1) then swap r (c + 1) (bitrev k (c + 1)) else Ok r) = Ok r'
      /\ part k (c + 1 + 1) a r').
    { destruct (Z.ltb_spec (c + 1) (bitrev k (c + 1))).
      - apply part_swap; try assumption; lia.
      - exists r. split; [reflexivity|]. apply part_skip; try assumption; lia. }
    destruct HS as (r' & E & HR). unfold swap in E. rewrite E. cbn [bind].
    destruct (counter k ltac:(lia) (fuel 32) (c + 1)) as [kk Hkk]; [unfold fuel; lia|lia|].
    cbv zeta in Hkk |- *. rewrite Hkk. cbn [bind]. eexists. split; [reflexivity|]. split; [reflexivity|exact HR].
  - reflexivity.
  - unfold fuel. lia.
  - split; [|exact HX]. rewrite Z.add_0_l. replace k with (k - 1 + 1) by lia.
    rewrite pow2_half by lia. rewrite bitrev_succ by lia. change (1 mod 2) with 1.
    change (1 / 2) with 0. rewrite bitrev_zero by lia. lia.
  - cbv zeta in E |- *. rewrite E. cbn [bind]. exists r. split; [reflexivity|]. apply (part_end k (2 ^ k - 2 + 1)); [lia|lia|exact Hr].
Qed.

(** ** shuffle_with_table runs over the pairs in order *)

Definition swaps (t : list (Z * Z)) (a : list Z) : res (list Z) :=
  fold_left (fun ra '(j, k) => do a <- ra; swap a j k) t (Ok a).

Definition tlen (t : list (Z * Z)) : Z := Z.of_nat (length t).

Lemma swaps_snoc t p a : swaps (t ++ [p]) a = (do b <- swaps t a; let '(j, k) := p in swap b j k).
Proof. unfold swaps. rewrite fold_left_app. cbn [fold_left]. destruct p. reflexivity. Qed.

Lemma shuffle_with_table_eq t a r : tlen t < 4294967296 -> swaps t a = Ok r ->
  shuffle_with_table a t (tlen t) = Ok r.
Proof.
  intros HT HE. unfold shuffle_with_table.
  assert (HF : forall m, 0 <= m <= tlen t -> exists b, swaps (firstn (Z.to_nat m) t) a = Ok b).
  { intros m Hm. rewrite <- (firstn_skipn (Z.to_nat m) t) in HE. unfold swaps in *.
    rewrite fold_left_app in HE. destruct (fold_left _ (firstn _ t) _) as [b|e]; [eauto|].
    exfalso. revert HE. clear. induction (skipn (Z.to_nat m) t) as [|[j k] l IH]; cbn; [discriminate|exact IH]. }
  destruct (cfor_count (fun m b => swaps (firstn (Z.to_nat m) t) a = Ok b) (tlen t) (fun c => c)
    (fun i => i <? tlen t) (fun i => u32 (i + 1))
    (fun i a => do '(j, k) <- match nth_error t (Z.to_nat i) with
                  | Some pr => Ok pr
                  | None => Err OutOfBounds
                  end;
    do x <- rd a j;
    do y <- rd a k;
    do a <- wr a j y;
    wr a k x)) with (f := fuel (tlen t)) (i0 := 0) (st := a) as (b & E & Hb).
  - unfold tlen. lia.
  - intros. lia.
  - lia.
  - intros. apply u32_small. lia.
  - intros m b Hm Hb. destruct (HF (m + 1) ltac:(lia)) as [b' Hb'].
    unfold tlen in Hm. destruct (nth_error t (Z.to_nat m)) as [[j k]|] eqn:EN.
    2:{ apply nth_error_None in EN. lia. }
    exists b'. split; [|exact Hb'].
    replace (Z.to_nat (m + 1)) with (S (Z.to_nat m)) in Hb' by lia.
    assert (EF : firstn (S (Z.to_nat m)) t = firstn (Z.to_nat m) t ++ [(j, k)]).
    { clear -EN. revert t EN. induction (Z.to_nat m) as [|n IH]; intros [|x t] EN; cbn in *; try discriminate.
      - injection EN as ->. reflexivity.
      - f_equal. apply IH, EN. }
    rewrite EF, swaps_snoc, Hb in Hb'. exact Hb'.
  - reflexivity.
  - unfold fuel. lia.
  - reflexivity.
  - rewrite E. rewrite <- Hb, <- HE. unfold tlen. rewrite Nat2Z.id, firstn_all. reflexivity.
Qed.

(** ** make_bitrev_table *)

Definition good_pair (k : Z) (p : Z * Z) : Prop :=
  0 <= fst p < snd p /\ snd p < 2 ^ k /\ snd p = bitrev k (fst p).

Lemma print_bitrev_table_ok k : 0 <= k <= 31 ->
  exists t, print_bitrev_table (2 ^ k) k = Ok t /\ rev_table_npairs (2 ^ k) k = Ok (tlen t) /\ tlen t <= 2 ^ k
    /\ Forall (good_pair k) t
    /\ (forall i, 0 <= i < 2 ^ k -> i < bitrev k i -> In (i, bitrev k i) t)
    /\ forall a, zlen a = 2 ^ k -> exists r, swaps t a = Ok r /\ part k (2 ^ k) a r.
Proof.
  intros Hk. assert (HP : 0 < 2 ^ k) by (apply Z.pow_pos_nonneg; lia).
  assert (HB : 2 ^ k <= 2 ^ 31) by (apply Z.pow_le_mono_r; lia). change (2 ^ 31) with 2147483648 in HB.
  unfold print_bitrev_table, rev_table_npairs.
  destruct (cfor_count (fun m t => tlen t <= m /\ Forall (good_pair k) t
      /\ (forall i, 0 <= i < m -> i < bitrev k i -> In (i, bitrev k i) t)
      /\ (forall a, zlen a = 2 ^ k -> exists r, swaps t a = Ok r /\ part k m a r)
      /\ (forall (body : Z -> Z -> res Z) f', body = (fun i c =>
            do r <- reverse i k; Ok (u32 (c + (if i <? r then 1 else 0)))) ->
          cfor (f' + Z.to_nat m) 0 (fun i => i <? 2 ^ k) (fun i => u32 (i + 1)) body 0
          = cfor f' m (fun i => i <? 2 ^ k) (fun i => u32 (i + 1)) body (tlen t)))
    (2 ^ k) (fun c => c) (fun i => i <? 2 ^ k) (fun i => u32 (i + 1))
    (fun i out => do j <- reverse i k; Ok (if i <? j then out ++ [(i, j)] else out)))
    with (f := fuel (2 ^ k)) (i0 := 0) (st := @nil (Z * Z)) as (t & E & H1 & H2 & H3 & H4 & H5).
  - lia.
  - intros. lia.
  - lia.
  - intros. apply u32_small. lia.
  - intros m t Hm (H1 & H2 & H3 & H4 & H5). rewrite reverse_ok by lia. cbn [bind].
    eexists. split; [reflexivity|]. assert (HR := bitrev_range k m ltac:(lia)).
    assert (HT : tlen (if m <? bitrev k m then t ++ [(m, bitrev k m)] else t)
      = tlen t + (if m <? bitrev k m then 1 else 0)).
    { unfold tlen. destruct (m <? bitrev k m); [rewrite app_length; cbn [length]; lia|lia]. }
    assert (0 <= tlen t) by (unfold tlen; lia).
    split; [rewrite HT; destruct (m <? bitrev k m); lia|]. split.
    { destruct (Z.ltb_spec m (bitrev k m)); [|exact H2]. apply Forall_app. split; [exact H2|].
      constructor; [|constructor]. unfold good_pair. cbn [fst snd]. lia. }
    split.
    { intros i Hi Hlt. destruct (Z.eq_dec i m) as [->|].
      - destruct (Z.ltb_spec m (bitrev k m)); [|lia]. apply in_or_app. right. left. reflexivity.
      - assert (In (i, bitrev k i) t) by (apply H3; lia).
        destruct (m <? bitrev k m); [apply in_or_app; left|]; assumption. }
    split.
    { intros a Ha. destruct (H4 a Ha) as (r & Er & Hr). destruct (Z.ltb_spec m (bitrev k m)).
      - rewrite swaps_snoc, Er. cbn [bind]. apply part_swap; try assumption; lia.
      - exists r. split; [exact Er|]. apply part_skip; try assumption; lia. }
    intros body f' Hbody. replace (f' + Z.to_nat (m + 1))%nat with (S f' + Z.to_nat m)%nat by lia.
    rewrite H5 by exact Hbody. cbn [cfor]. replace (m <? 2 ^ k) with true by lia.
    assert (EB : body m (tlen t) = Ok (u32 (tlen t + (if m <? bitrev k m then 1 else 0))))
      by (rewrite Hbody, reverse_ok by lia; reflexivity).
    rewrite EB. cbn [bind]. rewrite HT, (u32_small (m + 1)), u32_small; [reflexivity| |lia].
    destruct (m <? bitrev k m); lia.
  - reflexivity.
  - unfold fuel. lia.
  - split; [reflexivity|]. split; [constructor|]. split; [intros; lia|]. split.
    + intros a Ha. exists a. split; [reflexivity|]. apply part_0; [lia|exact Ha].
    + intros body f' _. rewrite Nat.add_0_r. reflexivity.
  - exists t. split; [exact E|]. split.
    + unfold fuel. change (S (Z.to_nat (2 ^ k))) with (1 + Z.to_nat (2 ^ k))%nat. rewrite (H5 _ 1%nat eq_refl).
      cbn [cfor]. replace (2 ^ k <? 2 ^ k) with false by lia. reflexivity.
    + auto.
Qed.

Lemma make_bitrev_table_cases size :
  (exists k t, 1 <= k <= 15 /\ size = 2 ^ k /\ make_bitrev_table size = Ok (Written (tlen t, t)) /\ tlen t <= 2 ^ k
    /\ Forall (good_pair k) t
    /\ (forall i, 0 <= i < 2 ^ k -> i < bitrev k i -> In (i, bitrev k i) t)
    /\ forall a, zlen a = 2 ^ k -> exists r, swaps t a = Ok r /\ part k (2 ^ k) a r)
  \/ (~ (exists k, 1 <= k <= 15 /\ size = 2 ^ k) /\ exists why, make_bitrev_table size = Ok (Exit why)).
Proof.
  unfold make_bitrev_table.
  assert (HB : forall k, 1 <= k <= 15 -> 2 <= 2 ^ k <= 32768).
  { intros k Hk. split; [change 2 with (2 ^ 1) at 1|change 32768 with (2 ^ 15)]; apply Z.pow_le_mono_r; lia. }
  destruct (Z.leb_spec size 1) as [H|H].
  { right. split; [|eauto]. intros (k & Hk & ->). specialize (HB k Hk). lia. }
  destruct (Z.leb_spec 65535 size) as [H'|H'].
  { right. split; [|eauto]. intros (k & Hk & ->). specialize (HB k Hk). lia. }
  cbv zeta. destruct (logtwo_ok size ltac:(lia)) as [(k & Hk & Es & El)|[HN El]]; rewrite El; cbn [bind].
  - left. assert (Hk15 : 1 <= k <= 15).
    { split.
      - destruct (Z.eq_dec k 0) as [->|]; [|lia]. change (2 ^ 0) with 1 in Es. lia.
      - destruct (Z.leb_spec k 15); [lia|]. assert (2 ^ 16 <= 2 ^ k) by (apply Z.pow_le_mono_r; lia).
        change (2 ^ 16) with 65536 in *. lia. }
    destruct (print_bitrev_table_ok k ltac:(lia)) as (t & E1 & E2 & H1 & H2 & H3 & H4).
    exists k, t. split; [exact Hk15|]. split; [exact Es|]. rewrite Es, E1, E2. cbn [bind]. auto.
  - right. split; [|eauto]. intros (k & Hk & E). apply (HN k); [lia|exact E].
Qed.

