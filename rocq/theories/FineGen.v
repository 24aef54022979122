(** The bounds of FineBounds for other tables and other bounds on the input, and for the
    transform of shape Gentleman-Sande. *)

From Coq Require Import ZArith List Bool Lia Setoid Morphisms.
From Verif Require Import CSem Spec Loops ModQ Stages OuterLoops Tower TransformGen Forms ModelRed
  NttElem NaiveElem RedElem RedBfly FineBounds.
Import ListNotations.
Open Scope Z_scope.

Definition small_to (C b : Z) : bool := (0 <=? b) && (b <=? C).

(** ** Cooley-Tukey: row [m] of the table is [R m], the input is at most [M], all values
    are at most [C] *)
Section Ct.
Variables (R : nat -> list Z) (M C : Z).
Hypothesis R_len : forall m, zlen (R m) = 2 ^ Z.of_nat m.
Hypothesis R_rng : forall m i, 0 <= i < 2 ^ Z.of_nat m -> -6144 <= at_ (R m) i <= 6144.

Fixpoint cbnd (m : nat) : list Z :=
  match m with O => [M] | S m => bnd_next (cbnd m) (R m) end.
Fixpoint ccheck (f m : nat) (b : list Z) : bool :=
  forallb (small_to C) b && match f with O => true | S f => ccheck f (S m) (bnd_next b (R m)) end.

Hypothesis HC : ccheck 10 0 [M] = true.
Hypothesis HC2 : C <= 1000000000.

Lemma cbnd_len m : zlen (cbnd m) = 2 ^ Z.of_nat m.
Proof.
  induction m as [|m IH]; [reflexivity|]. rewrite Nat2Z.inj_succ, Z.pow_succ_r by lia.
  cbn [cbnd]. unfold bnd_next. rewrite dup_len, map2_len; [lia|]. rewrite IH, R_len. reflexivity.
Qed.
Lemma ccheck_small f : forall m, ccheck f m (cbnd m) = true ->
  forall m', (m <= m' <= m + f)%nat -> forallb (small_to C) (cbnd m') = true.
Proof.
  clear HC. induction f as [|f IH]; intros m H m' Hm'; cbn [ccheck] in H; apply andb_prop in H as [H1 H2].
  - replace m' with m by lia. exact H1.
  - destruct (Nat.eq_dec m' m) as [->|Hne]; [exact H1|]. apply (IH (S m)); [exact H2|lia].
Qed.
Lemma cbnd_small m i : (m <= 10)%nat -> 0 <= i < 2 ^ Z.of_nat m -> 0 <= at_ (cbnd m) i <= C.
Proof.
  intros Hm Hi. assert (H := ccheck_small 10 0 HC m ltac:(clear - Hm; lia)).
  rewrite forallb_forall in H. assert (L := cbnd_len m). unfold zlen in L.
  assert (X : small_to C (at_ (cbnd m) i) = true).
  { apply H. unfold at_. apply nth_In. clear - L Hi. lia. }
  unfold small_to in X. clear - X. lia.
Qed.
Lemma cbnd_step m j e : 0 <= j < 2 ^ Z.of_nat m -> 0 <= e <= 1 ->
  at_ (cbnd (S m)) (2 * j + e) = grow (at_ (cbnd m) j) (at_ (R m) j).
Proof.
  intros Hj He. assert (L := cbnd_len m). assert (L' := R_len m).
  cbn [cbnd]. unfold bnd_next. rewrite at_dup; [|rewrite map2_len by (clear - L L'; lia); clear - L Hj; lia|exact He].
  apply at_map2; clear - L L' Hj; lia.
Qed.

Definition cbd (l i v : Z) : Prop := within (at_ (cbnd (Z.to_nat l)) (i / 2 ^ (10 - l))) v.

Lemma cbd_pair l j c body z : 0 <= l < 10 -> 0 <= j < 2 ^ l -> 0 <= c < 2 ^ (9 - l) ->
  ct_pair 1024 (2 ^ (9 - l)) z (within (at_ (cbnd (Z.to_nat l)) j))
    (within (grow (at_ (cbnd (Z.to_nat l)) j) (at_ (R (Z.to_nat l)) j))) (posB (2 ^ (9 - l)) j c) body ->
  bspec 1024 (2 ^ (9 - l)) (cbd l) (cbd (l + 1)) (posB (2 ^ (9 - l)) j c) body.
Proof.
  intros Hl Hj Hc H a HL H1 H2. set (d := 2 ^ (9 - l)) in *.
  assert (Hd : 0 < d) by (apply Z.pow_pos_nonneg; lia).
  destruct (pos_block d j c Hd Hc) as (D1 & D2 & D3 & D4).
  assert (E1 : 2 ^ (10 - l) = 2 * d).
  { unfold d. replace (10 - l) with (Z.succ (9 - l)) by lia. apply Z.pow_succ_r. lia. }
  assert (E2 : 2 ^ (10 - (l + 1)) = d) by (unfold d; f_equal; lia).
  unfold cbd in *. rewrite E1 in H1, H2. rewrite E2. rewrite D1 in H1. rewrite D2 in H2. rewrite D3, D4.
  assert (N : 2 ^ l * (2 * d) = 1024).
  { rewrite <- E1, <- Z.pow_add_r by lia. replace (l + (10 - l)) with 10 by lia. reflexivity. }
  destruct (H a HL) as (x & y & E & _ & _ & Hx & Hy); try assumption.
  { unfold posB. clear - Hd Hj Hc. nia. }
  { unfold posB. clear - Hd Hj Hc N. nia. }
  exists x, y. split; [exact E|].
  replace (Z.to_nat (l + 1)) with (S (Z.to_nat l)) by (clear - Hl; lia).
  assert (J : 0 <= j < 2 ^ Z.of_nat (Z.to_nat l)) by (rewrite Z2Nat.id by lia; exact Hj).
  rewrite (cbnd_step _ j 1 J) by lia. rewrite <- (Z.add_0_r (2 * j)), (cbnd_step _ j 0 J) by lia. auto.
Qed.

Lemma cbfly l j : 0 <= l < 10 -> 0 <= j < 2 ^ l ->
  forall s, ct_pair 1024 (2 ^ (9 - l)) (3 * at_ (R (Z.to_nat l)) j) (within (at_ (cbnd (Z.to_nat l)) j))
    (within (grow (at_ (cbnd (Z.to_nat l)) j) (at_ (R (Z.to_nat l)) j))) s
    (ct_bfly_red (at_ (R (Z.to_nat l)) j) s (2 ^ (9 - l))).
Proof.
  intros Hl Hj s.
  assert (J : 0 <= j < 2 ^ Z.of_nat (Z.to_nat l)) by (rewrite Z2Nat.id by lia; exact Hj).
  assert (X := cbnd_small (Z.to_nat l) j ltac:(clear - Hl; lia) J).
  assert (Y := cbnd_small (S (Z.to_nat l)) (2 * j + 0) ltac:(clear - Hl; lia)).
  rewrite Nat2Z.inj_succ, Z.pow_succ_r in Y by lia. rewrite (cbnd_step _ j 0 J) in Y by lia.
  assert (W := R_rng (Z.to_nat l) j J).
  specialize (Y ltac:(clear - J; lia)). clear HC.
  apply ct_bfly_fine; try exact W; clear - X Y HC2; lia.
Qed.

Lemma ct_fine p a : (forall m, at_ (R m) 0 = -4096) -> zlen p = 1024 ->
  (forall l j, 0 <= l < 10 -> 0 <= j < 2 ^ l -> at_ p (2 ^ l + j) = at_ (R (Z.to_nat l)) j) ->
  zlen a = 1024 -> (forall i, 0 <= i < 1024 -> Z.abs (at_ a i) <= M) ->
  exists r, ntt_red_ct_std2rev a 1024 p = Ok r /\ zlen r = 1024
    /\ forall i, 0 <= i < 1024 -> Z.abs (at_ r i) <= C.
Proof.
  intros R0 HP Hp HL Ha.
  destruct (nest_B_up_plain 10 1024 cbd) with (body0 := bfly0_red) (body := ct_bfly_red) (p := p) (a := a)
    as (r' & E' & HLr & Hr'); try reflexivity; try (clear; lia).
  - exact HP.
  - intros l c Hl Hc. change (10 - 1) with 9 in *.
    assert (J : 0 <= 0 < 2 ^ l) by (split; [lia|apply Z.pow_pos_nonneg; lia]).
    apply cbd_pair with (z := 1); [exact Hl|exact J|exact Hc|].
    apply bfly0_fine; [lia|]. rewrite R0. unfold grow. rewrite Z.eqb_refl.
    assert (J' : 0 <= 0 < 2 ^ Z.of_nat (Z.to_nat l)) by (rewrite Z2Nat.id by lia; exact J).
    assert (X := cbnd_small (Z.to_nat l) 0 ltac:(clear - Hl; lia) J'). clear - X HC2. lia.
  - intros l j c Hl Hj Hc. change (10 - 1) with 9 in *. rewrite Hp by lia.
    eapply cbd_pair; [exact Hl|lia|exact Hc|]. apply cbfly; lia.
  - split; [exact HL|]. intros i Hi. unfold cbd. change (2 ^ (10 - 0)) with 1024.
    rewrite Z.div_small by lia. apply Ha. exact Hi.
  - exists r'. split; [exact E'|]. split; [exact HLr|].
    intros i Hi. specialize (Hr' i Hi). unfold cbd, within in Hr'. change (2 ^ (10 - 10)) with 1 in Hr'.
    rewrite Z.div_1_r in Hr'. assert (X := cbnd_small (Z.to_nat 10) i ltac:(clear; lia) Hi). clear - Hr' X. lia.
Qed.

Lemma mulct_fine p a : zlen p = 1024 ->
  (forall l j, 0 <= l < 10 -> 0 <= j < 2 ^ l -> at_ p (2 ^ l + j) = at_ (R (Z.to_nat l)) j) ->
  zlen a = 1024 -> (forall i, 0 <= i < 1024 -> Z.abs (at_ a i) <= M) ->
  exists r, mulntt_red_ct_std2rev a 1024 p = Ok r /\ zlen r = 1024
    /\ forall i, 0 <= i < 1024 -> Z.abs (at_ r i) <= C.
Proof.
  intros HP Hp HL Ha.
  destruct (nest_B_up_mul 10 1024 cbd ltac:(lia) eq_refl bfly0_red ct_bfly_red p a)
    as (r' & E' & HLr & Hr'); try reflexivity; try (clear; lia).
  - exact HP.
  - intros l j c Hl Hj Hc. change (10 - 1) with 9 in *. rewrite Hp by lia.
    eapply cbd_pair; [exact Hl|lia|exact Hc|]. apply cbfly; lia.
  - split; [exact HL|]. intros i Hi. unfold cbd. change (2 ^ (10 - 0)) with 1024.
    rewrite Z.div_small by lia. apply Ha. exact Hi.
  - exists r'. split; [exact E'|]. split; [exact HLr|].
    intros i Hi. specialize (Hr' i Hi). unfold cbd, within in Hr'. change (2 ^ (10 - 10)) with 1 in Hr'.
    rewrite Z.div_1_r in Hr'. assert (X := cbnd_small (Z.to_nat 10) i ltac:(clear; lia) Hi). clear - Hr' X. lia.
Qed.
End Ct.

(** ** Gentleman-Sande *)

(** Bound after one butterfly with factor [w], from the bound [s] on the sum. *)
Definition keep (s w : Z) : Z := Z.max s (grow s w - s).

Lemma gs_bfly_fine n h s w b1 b2 b' : n <= 2147483648 -> -6144 <= w <= 6144 ->
  keep (b1 + b2) w <= b' <= 1000000000 ->
  forall a, zlen a = n -> 0 <= s -> 0 < h -> s + h < n -> within b1 (at_ a s) -> within b2 (at_ a (s + h)) ->
  exists x y, gs_bfly_red w s h a = Ok (aset (aset a (s + h) y) s x) /\ within b' x /\ within b' y.
Proof.
  intros Hn Hw Hb a HL Hs Hh Hsh H1 H2. unfold gs_bfly_red, within, keep in *.
  assert (U : u32 (s + h) = s + h) by (apply u32_small; lia). rewrite U.
  assert (K1 : b1 + b2 <= b') by lia. assert (K2 : grow (b1 + b2) w - (b1 + b2) <= b') by lia.
  assert (D : Z.abs (at_ a s - at_ a (s + h)) <= b1 + b2) by (clear - H1 H2; lia).
  repeat step_rd. unfold sub32, add32. rewrite i32_ok by (clear - D K1 Hb; lia). cbn [bind].
  rewrite mul_red_ok.
  2: { assert (X : Z.abs ((at_ a s - at_ a (s + h)) * w) <= 1000000000 * 6144).
       { rewrite Z.abs_mul. apply Z.mul_le_mono_nonneg; clear - D K1 Hb Hw; lia. } clear - X. lia. }
  assert (G := redz_grow _ w _ D Hw). cbn [bind].
  rewrite (wr_ok a (s + h)) by lia. cbn [bind]. rewrite rd_ok by (rewrite aset_len; lia). cbn [bind].
  rewrite at_aset_other by lia. rewrite i32_ok by (clear - H1 H2 K1 Hb; lia). cbn [bind].
  rewrite wr_ok by (rewrite aset_len; lia).
  do 2 eexists. split; [reflexivity|]. clear - G K1 K2 H1 H2. lia.
Qed.
Lemma gs_bfly0_fine n h s b1 b2 b' : n <= 2147483648 -> b1 + b2 <= b' <= 2147483647 ->
  forall a, zlen a = n -> 0 <= s -> 0 < h -> s + h < n -> within b1 (at_ a s) -> within b2 (at_ a (s + h)) ->
  exists x y, bfly0_red s h a = Ok (aset (aset a (s + h) y) s x) /\ within b' x /\ within b' y.
Proof.
  intros Hn Hb a HL Hs Hh Hsh H1 H2. unfold bfly0_red, within in *.
  assert (U : u32 (s + h) = s + h) by (apply u32_small; lia). rewrite U.
  repeat step_rd. unfold sub32, add32. rewrite i32_ok by (clear - H1 H2 Hb; lia). cbn [bind].
  rewrite (wr_ok a (s + h)) by lia. cbn [bind]. rewrite rd_ok by (rewrite aset_len; lia). cbn [bind].
  rewrite at_aset_other by lia. rewrite i32_ok by (clear - H1 H2 Hb; lia). cbn [bind].
  rewrite wr_ok by (rewrite aset_len; lia).
  do 2 eexists. split; [reflexivity|]. clear - H1 H2 Hb. lia.
Qed.

Lemma at_firstn (x : list Z) h i : 0 <= i < Z.of_nat h -> at_ (firstn h x) i = at_ x i.
Proof.
  intros Hi. unfold at_. revert x i Hi. induction h as [|h IH]; intros x i Hi; [lia|].
  destruct x as [|a x]; [reflexivity|]. cbn [firstn].
  destruct (Z.eq_dec i 0) as [->|Hne]; [reflexivity|].
  replace (Z.to_nat i) with (S (Z.to_nat (i - 1))) by lia. cbn [nth]. apply IH. lia.
Qed.
Lemma at_skipn (x : list Z) h i : 0 <= i -> at_ (skipn h x) i = at_ x (i + Z.of_nat h).
Proof.
  intros Hi. unfold at_. replace (Z.to_nat (i + Z.of_nat h)) with (h + Z.to_nat i)%nat by lia.
  generalize (Z.to_nat i). clear. revert x. induction h as [|h IH]; intros x i; [reflexivity|].
  destruct x as [|a x]; [destruct i; reflexivity|]. apply IH.
Qed.

Section Gs.
Variables (R : nat -> list Z) (M C : Z).
Hypothesis R_len : forall m, zlen (R m) = 2 ^ Z.of_nat m.
Hypothesis R_rng : forall m i, 0 <= i < 2 ^ Z.of_nat m -> -6144 <= at_ (R m) i <= 6144.

(** From the bounds for the offsets in a block of twice the length of [r]. *)
Definition gs_next (b r : list Z) : list Z :=
  let h := length r in map2 keep (map2 Z.add (firstn h b) (skipn h b)) r.
(** Bounds after [m] rounds, by offset in a block of length [2^(10-m)]. *)
Fixpoint gbnd (m : nat) : list Z :=
  match m with O => repeat M 1024 | S m => gs_next (gbnd m) (R (9 - m)) end.
Fixpoint gcheck (f m : nat) (b : list Z) : bool :=
  forallb (small_to C) b && match f with O => true | S f => gcheck f (S m) (gs_next b (R (9 - m))) end.

Hypothesis HC : gcheck 10 0 (repeat M 1024) = true.
Hypothesis HC2 : C <= 1000000000.

Lemma gs_next_at b r j : zlen b = 2 * zlen r -> 0 <= j < zlen r ->
  at_ (gs_next b r) j = keep (at_ b j + at_ b (j + zlen r)) (at_ r j).
Proof.
  intros Hb Hj. unfold gs_next. unfold zlen in *.
  assert (L1 : length (firstn (length r) b) = length r) by (rewrite firstn_length; lia).
  assert (L2 : length (skipn (length r) b) = length r) by (rewrite skipn_length; lia).
  assert (L3 : zlen (map2 Z.add (firstn (length r) b) (skipn (length r) b)) = zlen r).
  { rewrite map2_len; unfold zlen; lia. }
  unfold zlen in L3.
  rewrite at_map2 by (unfold zlen; lia). rewrite at_map2 by (unfold zlen; lia).
  rewrite at_firstn, at_skipn by lia. reflexivity.
Qed.
Lemma gs_next_len b r : zlen b = 2 * zlen r -> zlen (gs_next b r) = zlen r.
Proof.
  intros Hb. unfold gs_next, zlen in *.
  assert (L1 : length (firstn (length r) b) = length r) by (rewrite firstn_length; lia).
  assert (L2 : length (skipn (length r) b) = length r) by (rewrite skipn_length; lia).
  assert (L3 : zlen (map2 Z.add (firstn (length r) b) (skipn (length r) b)) = zlen r).
  { rewrite map2_len; unfold zlen; lia. }
  unfold zlen in L3. pose proof (map2_len keep (map2 Z.add (firstn (length r) b) (skipn (length r) b)) r) as X.
  unfold zlen in X. rewrite X by lia. exact L3.
Qed.
Lemma gbnd_len m : (m <= 10)%nat -> zlen (gbnd m) = 2 ^ (10 - Z.of_nat m).
Proof.
  clear HC. induction m as [|m IH]; intros Hm.
  - cbn [gbnd]. unfold zlen. rewrite repeat_length. reflexivity.
  - cbn [gbnd]. rewrite gs_next_len; rewrite R_len.
    + f_equal. lia.
    + rewrite IH by lia. rewrite <- Z.pow_succ_r by lia. f_equal. lia.
Qed.
Lemma gcheck_small f : forall m, gcheck f m (gbnd m) = true ->
  forall m', (m <= m' <= m + f)%nat -> forallb (small_to C) (gbnd m') = true.
Proof.
  clear HC. induction f as [|f IH]; intros m H m' Hm'; cbn [gcheck] in H; apply andb_prop in H as [H1 H2].
  - replace m' with m by lia. exact H1.
  - destruct (Nat.eq_dec m' m) as [->|Hne]; [exact H1|]. apply (IH (S m)); [exact H2|lia].
Qed.
Lemma gbnd_small m i : (m <= 10)%nat -> 0 <= i < 2 ^ (10 - Z.of_nat m) -> 0 <= at_ (gbnd m) i <= C.
Proof.
  intros Hm Hi. assert (H := gcheck_small 10 0 HC m ltac:(clear - Hm; lia)).
  rewrite forallb_forall in H. assert (L := gbnd_len m Hm). unfold zlen in L.
  assert (X : small_to C (at_ (gbnd m) i) = true).
  { apply H. unfold at_. apply nth_In. clear - L Hi. lia. }
  unfold small_to in X. clear - X. lia.
Qed.

Definition gbd (l i v : Z) : Prop := within (at_ (gbnd (Z.to_nat (10 - l))) (i mod 2 ^ l)) v.

Lemma gbnd_step l j : 0 <= l < 10 -> 0 <= j < 2 ^ l ->
  at_ (gbnd (Z.to_nat (10 - l))) j =
  keep (at_ (gbnd (Z.to_nat (10 - (l + 1)))) j + at_ (gbnd (Z.to_nat (10 - (l + 1)))) (j + 2 ^ l))
    (at_ (R (Z.to_nat l)) j).
Proof.
  clear HC. intros Hl Hj. replace (Z.to_nat (10 - l)) with (S (Z.to_nat (10 - (l + 1)))) by lia. cbn [gbnd].
  replace (9 - Z.to_nat (10 - (l + 1)))%nat with (Z.to_nat l) by lia.
  assert (E := R_len (Z.to_nat l)). rewrite Z2Nat.id in E by lia.
  rewrite gs_next_at; rewrite ?E.
  - reflexivity.
  - rewrite gbnd_len by lia. rewrite <- Z.pow_succ_r by lia. f_equal. lia.
  - exact Hj.
Qed.

Lemma gbd_pair l j c body : 0 <= l < 10 -> 0 <= j < 2 ^ l -> 0 <= c < 2 ^ (9 - l) ->
  (forall b1 b2 b', b' = keep (b1 + b2) (at_ (R (Z.to_nat l)) j) -> b' <= C ->
   forall a, zlen a = 1024 -> 0 <= posA (2 ^ l) j c -> 0 < 2 ^ l -> posA (2 ^ l) j c + 2 ^ l < 1024 ->
   within b1 (at_ a (posA (2 ^ l) j c)) -> within b2 (at_ a (posA (2 ^ l) j c + 2 ^ l)) ->
   exists x y, body a = Ok (aset (aset a (posA (2 ^ l) j c + 2 ^ l) y) (posA (2 ^ l) j c) x)
     /\ within b' x /\ within b' y) ->
  bspec 1024 (2 ^ l) (gbd (l + 1)) (gbd l) (posA (2 ^ l) j c) body.
Proof.
  intros Hl Hj Hc H a HL H1 H2. unfold gbd in *. set (t := 2 ^ l) in *.
  assert (Ht : 0 < t) by (apply Z.pow_pos_nonneg; lia).
  assert (E1 : 2 ^ (l + 1) = 2 * t) by (unfold t; rewrite Z.add_1_r; apply Z.pow_succ_r; lia).
  assert (N : 2 ^ (9 - l) * (2 * t) = 1024).
  { rewrite <- E1, <- Z.pow_add_r by lia. replace (9 - l + (l + 1)) with 10 by lia. reflexivity. }
  rewrite E1 in H1, H2.
  assert (M1 : posA t j c mod (2 * t) = j).
  { unfold posA. rewrite Z.mod_add by lia. apply Z.mod_small. lia. }
  assert (M2 : (posA t j c + t) mod (2 * t) = j + t).
  { unfold posA. replace (j + c * (2 * t) + t) with (j + t + c * (2 * t)) by ring.
    rewrite Z.mod_add by lia. apply Z.mod_small. lia. }
  assert (M3 : posA t j c mod t = j).
  { unfold posA. replace (j + c * (2 * t)) with (j + (2 * c) * t) by ring.
    rewrite Z.mod_add by lia. apply Z.mod_small. lia. }
  assert (M4 : (posA t j c + t) mod t = j).
  { unfold posA. replace (j + c * (2 * t) + t) with (j + (2 * c + 1) * t) by ring.
    rewrite Z.mod_add by lia. apply Z.mod_small. lia. }
  rewrite M1 in H1. rewrite M2 in H2. rewrite M3, M4.
  assert (S := gbnd_step l j Hl Hj). fold t in S.
  assert (X := gbnd_small (Z.to_nat (10 - l)) j ltac:(clear - Hl; lia)).
  replace (10 - Z.of_nat (Z.to_nat (10 - l))) with l in X by (clear - Hl; lia). specialize (X Hj).
  eapply H; [exact S|apply X|exact HL| |exact Ht| |exact H1|exact H2].
  - unfold posA. clear - Ht Hj Hc. nia.
  - unfold posA. clear - Ht Hj Hc N. nia.
Qed.

Lemma gs_fine p a : zlen p = 1024 -> (forall m, at_ (R m) 0 = -4096) ->
  (forall l j, 0 <= l < 10 -> 0 <= j < 2 ^ l -> at_ p (2 ^ l + j) = at_ (R (Z.to_nat l)) j) ->
  zlen a = 1024 -> (forall i, 0 <= i < 1024 -> Z.abs (at_ a i) <= M) ->
  exists r, ntt_red_gs_std2rev a 1024 p = Ok r /\ zlen r = 1024
    /\ forall i, 0 <= i < 1024 -> Z.abs (at_ r i) <= C.
Proof.
  intros HP R0 Hp HL Ha.
  destruct (nest_A_down_plain 10 1024 gbd) with (body0 := bfly0_red) (body := gs_bfly_red) (p := p) (a := a)
    as (r' & E' & HLr & Hr'); try reflexivity; try (clear; lia).
  - exact HP.
  - intros l c Hl Hc. change (10 - 1) with 9 in *.
    apply gbd_pair; [exact Hl|split; [lia|apply Z.pow_pos_nonneg; lia]|exact Hc|].
    intros b1 b2 b' Eb Hb. apply gs_bfly0_fine; [lia|]. rewrite R0 in Eb. unfold keep in Eb. clear - Eb Hb HC2. lia.
  - intros l j c Hl Hj Hc. change (10 - 1) with 9 in *. rewrite Hp by (clear - Hl Hj; lia).
    apply gbd_pair; [exact Hl|clear - Hj; lia|exact Hc|].
    intros b1 b2 b' Eb Hb. apply gs_bfly_fine; [clear; lia| |clear - Eb Hb HC2; lia].
    apply R_rng. rewrite Z2Nat.id by (clear - Hl; lia). clear - Hj; lia.
  - split; [exact HL|]. intros i Hi. unfold gbd. change (2 ^ 10) with 1024.
    rewrite Z.mod_small by lia. change (Z.to_nat (10 - 10)) with O. cbn [gbnd].
    assert (E : at_ (repeat M 1024) i = M).
    { unfold at_. rewrite (nth_indep _ 0 M) by (rewrite repeat_length; clear - Hi; lia).
      apply nth_repeat. }
    rewrite E. apply Ha, Hi.
  - exists r'. split; [exact E'|]. split; [exact HLr|].
    intros i Hi. specialize (Hr' i Hi). unfold gbd, within in Hr'. change (2 ^ 0) with 1 in Hr'.
    rewrite Z.mod_1_r in Hr'. assert (X := gbnd_small 10 0 ltac:(clear; lia) ltac:(cbn; clear; lia)).
    change (Z.to_nat (10 - 0)) with 10%nat in Hr'. clear - Hr' X. lia.
Qed.
End Gs.
