(** The transforms of src/ntt_red.c are linear modulo Q, whatever the table: the
    coefficients of the result do not depend on the input. *)

From Coq Require Import ZArith List Bool Lia Setoid Morphisms.
From Verif Require Import CSem Spec Loops ModQ Stages OuterLoops Tower TransformGen Forms ModelRed
  RedElem RedBfly RedRange.
Import ListNotations.
Open Scope Z_scope.

(** Coefficients after [l] rounds.  In round [L] the positions [i] and [i + h L] are
    combined with the factor [z L i]. *)
Section Coef.
Variables (h : Z -> Z) (z : Z -> Z -> Z).

Definition ct_coef (L : Z) (F : Z -> Z -> Z) (i x : Z) : Z :=
  if (i / h L) mod 2 =? 0 then F i x + z L i * F (i + h L) x
  else F (i - h L) x - z L (i - h L) * F i x.
Definition gs_coef (L : Z) (F : Z -> Z -> Z) (i x : Z) : Z :=
  if (i / h L) mod 2 =? 0 then F i x + F (i + h L) x
  else z L (i - h L) * (F (i - h L) x - F i x).

Definition unit_coef (i x : Z) : Z := if x =? i then 1 else 0.
Fixpoint upc (m : nat) : Z -> Z -> Z :=
  match m with O => unit_coef | S m => ct_coef (Z.of_nat m) (upc m) end.
Variable k : Z.
Fixpoint downc (m : nat) : Z -> Z -> Z :=
  match m with O => unit_coef | S m => gs_coef (k - 1 - Z.of_nat m) (downc m) end.
End Coef.

Definition lin (n : Z) (F : Z -> Z -> Z) (a : list Z) (i : Z) : Z := Sum n (fun x => F i x * at_ a x).

Lemma lin_unit n a i : 0 <= i < n -> eqQ (lin n unit_coef a i) (at_ a i).
Proof.
  intros Hi. unfold lin, unit_coef.
  rewrite (Sum_single n i _ Hi); [rewrite Z.eqb_refl, Z.mul_1_l; reflexivity|].
  intros x Hx Hne. apply Z.eqb_neq in Hne. rewrite Hne. reflexivity.
Qed.

Lemma lin_comb n F G c a i j :
  Sum n (fun x => (F i x + c * G j x) * at_ a x) = lin n F a i + c * lin n G a j.
Proof.
  unfold lin. rewrite <- Sum_mul_l, <- Sum_add. apply Sum_ext. intros x _. ring.
Qed.

Lemma half_hi s h : 0 < h -> (s / h) mod 2 = 0 -> ((s + h) / h) mod 2 = 1.
Proof. intros Hh Hs. replace (s + h) with (s + 1 * h) by ring. rewrite Z.div_add by lia. lia. Qed.

Lemma ct_coef_lo h z L F n a s : (s / h L) mod 2 = 0 ->
  lin n (ct_coef h z L F) a s = lin n F a s + z L s * lin n F a (s + h L).
Proof.
  intros Hs. rewrite <- lin_comb. apply Sum_ext. intros x _. unfold ct_coef. rewrite Hs. reflexivity.
Qed.
Lemma ct_coef_hi h z L F n a s : 0 < h L -> (s / h L) mod 2 = 0 ->
  lin n (ct_coef h z L F) a (s + h L) = lin n F a s - z L s * lin n F a (s + h L).
Proof.
  intros Hh Hs. replace (lin n F a s - z L s * lin n F a (s + h L)) with (lin n F a s + - z L s * lin n F a (s + h L)) by ring.
  rewrite <- lin_comb. apply Sum_ext. intros x _. unfold ct_coef. rewrite half_hi by assumption. cbn [Z.eqb].
  replace (s + h L - h L) with s by ring. ring.
Qed.
Lemma gs_coef_lo h z L F n a s : (s / h L) mod 2 = 0 ->
  lin n (gs_coef h z L F) a s = lin n F a s + lin n F a (s + h L).
Proof.
  intros Hs. replace (lin n F a (s + h L)) with (1 * lin n F a (s + h L)) by ring.
  rewrite <- lin_comb. apply Sum_ext. intros x _. unfold gs_coef. rewrite Hs. cbn [Z.eqb]. ring.
Qed.
Lemma gs_coef_hi h z L F n a s : 0 < h L -> (s / h L) mod 2 = 0 ->
  lin n (gs_coef h z L F) a (s + h L) = z L s * (lin n F a s - lin n F a (s + h L)).
Proof.
  intros Hh Hs. unfold lin at 1. rewrite (Sum_ext n _ (fun x => z L s * ((F s x + -1 * F (s + h L) x) * at_ a x))).
  - rewrite Sum_mul_l. f_equal. rewrite lin_comb. ring.
  - intros x _. unfold gs_coef. rewrite half_hi by assumption. cbn [Z.eqb].
    replace (s + h L - h L) with s by ring. ring.
Qed.

Lemma to_nat_up l : 0 <= l -> Z.to_nat (l + 1) = S (Z.to_nat l).
Proof. lia. Qed.
Lemma to_nat_down k l : 0 <= l < k -> Z.to_nat (k - l) = S (Z.to_nat (k - (l + 1))).
Proof. lia. Qed.

(** The factor of the table, or none *)
Definition zf (p : list Z) (plain : bool) (T j : Z) : Z := if plain && (j =? 0) then 1 else 3 * at_ p (T + j).

Section Linear.
Variables (k : Z) (p : list Z).
Hypothesis Hk : 0 <= k <= 31.
Hypothesis Hlp : zlen p = 2 ^ k.
Hypothesis Hp : forall i, 1 <= i < 2 ^ k -> -6144 <= at_ p i <= 6144.

Let n := 2 ^ k.
Let Hn : 2 ^ k <= 2147483648.
Proof. apply pow31. exact Hk. Qed.

Definition hA (l : Z) : Z := 2 ^ l.
Definition hB (l : Z) : Z := 2 ^ (k - 1 - l).
Definition zA (plain : bool) (l i : Z) : Z := zf p plain (2 ^ l) (i mod 2 ^ l).
Definition zB (plain : bool) (l i : Z) : Z := zf p plain (2 ^ l) (i / (2 * 2 ^ (k - 1 - l))).

Let PA l j c : 0 <= l < k -> 0 <= j < 2 ^ l -> 0 <= c < 2 ^ (k - 1 - l) ->
  0 <= posA (2 ^ l) j c /\ 0 < 2 ^ l /\ posA (2 ^ l) j c + 2 ^ l < 2 ^ k
  /\ (posA (2 ^ l) j c / 2 ^ l) mod 2 = 0 /\ posA (2 ^ l) j c mod 2 ^ l = j.
Proof.
  intros Hl Hj Hc. assert (Hs : 2 ^ k = 2 * 2 ^ l * 2 ^ (k - 1 - l)) by (apply pow_three; lia).
  assert (0 < 2 ^ l) by (apply pow2_pos; lia). unfold posA.
  assert (2 * 2 ^ l * c <= 2 * 2 ^ l * (2 ^ (k - 1 - l) - 1)) by (apply Z.mul_le_mono_nonneg_l; lia).
  split; [nia|]. split; [lia|]. split; [nia|].
  replace (j + c * (2 * 2 ^ l)) with (j + (2 * c) * 2 ^ l) by ring.
  split; [|rewrite Z.mod_add by lia; apply Z.mod_small; lia].
  rewrite Z.div_add, Z.div_small by lia. rewrite Z.add_0_l, Z.mul_comm. apply Z.mod_mul. lia.
Qed.

Let PB l j c : 0 <= l < k -> 0 <= j < 2 ^ l -> 0 <= c < 2 ^ (k - 1 - l) ->
  0 <= posB (2 ^ (k - 1 - l)) j c /\ 0 < 2 ^ (k - 1 - l)
  /\ posB (2 ^ (k - 1 - l)) j c + 2 ^ (k - 1 - l) < 2 ^ k
  /\ (posB (2 ^ (k - 1 - l)) j c / 2 ^ (k - 1 - l)) mod 2 = 0
  /\ posB (2 ^ (k - 1 - l)) j c / (2 * 2 ^ (k - 1 - l)) = j.
Proof.
  intros Hl Hj Hc. assert (Hs : 2 ^ k = 2 * 2 ^ l * 2 ^ (k - 1 - l)) by (apply pow_three; lia).
  assert (0 < 2 ^ (k - 1 - l)) by (apply pow2_pos; lia). unfold posB.
  assert (2 ^ (k - 1 - l) * j <= 2 ^ (k - 1 - l) * (2 ^ l - 1)) by (apply Z.mul_le_mono_nonneg_l; lia).
  split; [nia|]. split; [lia|]. split; [nia|]. split.
  - replace (2 * 2 ^ (k - 1 - l) * j + c) with (c + (2 * j) * 2 ^ (k - 1 - l)) by ring.
    rewrite Z.div_add, Z.div_small by lia. rewrite Z.add_0_l, Z.mul_comm. apply Z.mod_mul. lia.
  - replace (2 * 2 ^ (k - 1 - l) * j + c) with (c + j * (2 * 2 ^ (k - 1 - l))) by ring.
    rewrite Z.div_add, Z.div_small by lia. reflexivity.
Qed.

Lemma zA_at plain l j c : 0 <= l < k -> 0 <= j < 2 ^ l -> 0 <= c < 2 ^ (k - 1 - l) ->
  zA plain l (posA (2 ^ l) j c) = zf p plain (2 ^ l) j.
Proof. intros Hl Hj Hc. destruct (PA l j c Hl Hj Hc) as (_ & _ & _ & _ & E). unfold zA. rewrite E. reflexivity. Qed.
Lemma zB_at plain l j c : 0 <= l < k -> 0 <= j < 2 ^ l -> 0 <= c < 2 ^ (k - 1 - l) ->
  zB plain l (posB (2 ^ (k - 1 - l)) j c) = zf p plain (2 ^ l) j.
Proof. intros Hl Hj Hc. destruct (PB l j c Hl Hj Hc) as (_ & _ & _ & _ & E). unfold zB. rewrite E. reflexivity. Qed.

Section Run.
Variables (lo hi : Z -> Z) (a : list Z).
Hypothesis HL : zlen a = 2 ^ k.

(** The result of a run: its range and its coefficients *)
Definition lin_result (m : res (list Z)) (l : Z) (F : Z -> Z -> Z) : Prop :=
  exists r, m = Ok r /\ zlen r = 2 ^ k
    /\ forall i, 0 <= i < 2 ^ k -> rng lo hi l (at_ r i) /\ eqQ (at_ r i) (lin (2 ^ k) F a i).

Let Pu h z l (i v : Z) := rng lo hi l v /\ eqQ v (lin n (upc h z (Z.to_nat l)) a i).
Let Pd h z l (i v : Z) := rng lo hi l v /\ eqQ v (lin n (downc h z k (Z.to_nat (k - l))) a i).

Lemma up_step h z l s body zz : 0 <= l -> 0 <= s -> 0 < h l -> s + h l < n -> (s / h l) mod 2 = 0 -> z l s = zz ->
  ct_pair n (h l) zz (rng lo hi l) (rng lo hi (l + 1)) s body ->
  bspec n (h l) (Pu h z l) (Pu h z (l + 1)) s body.
Proof.
  intros Hl Hs Hh Hsh Hlow <- H b Lb [R1 E1] [R2 E2].
  destruct (H b Lb Hs Hh Hsh R1 R2) as (x & y & E & Ex & Ey & Bx & By).
  exists x, y. split; [exact E|]. unfold Pu. rewrite to_nat_up by exact Hl.
  cbn [upc]. rewrite Z2Nat.id by lia. split; (split; [assumption|]).
  - rewrite ct_coef_lo, Ex, E1, E2 by assumption. reflexivity.
  - rewrite ct_coef_hi, Ey, E1, E2 by assumption. reflexivity.
Qed.

Lemma down_step h z l s body zz : 0 <= l < k -> 0 <= s -> 0 < h l -> s + h l < n -> (s / h l) mod 2 = 0 -> z l s = zz ->
  gs_pair n (h l) zz (rng lo hi (l + 1)) (rng lo hi l) s body ->
  bspec n (h l) (Pd h z (l + 1)) (Pd h z l) s body.
Proof.
  intros Hl Hs Hh Hsh Hlow <- H b Lb [R1 E1] [R2 E2].
  destruct (H b Lb Hs Hh Hsh R1 R2) as (x & y & E & Ex & Ey & Bx & By).
  exists x, y. split; [exact E|]. unfold Pd. rewrite to_nat_down by exact Hl.
  cbn [downc]. rewrite Z2Nat.id by lia. replace (k - 1 - (k - (l + 1))) with l by ring.
  split; (split; [assumption|]).
  - rewrite gs_coef_lo, Ex, E1, E2 by assumption. reflexivity.
  - rewrite gs_coef_hi, Ey, E1, E2 by assumption. reflexivity.
Qed.

Let zf_mul T j : zf p false T j = 3 * at_ p (T + j).
Proof. reflexivity. Qed.
Let zf_plain T j : 0 < j -> zf p true T j = 3 * at_ p (T + j).
Proof. intros. unfold zf. replace (j =? 0) with false by lia. reflexivity. Qed.

Section CT.
Hypothesis Hg : forall l, 0 <= l < k -> ct_grow lo hi l.
Hypothesis Ha : forall i, 0 <= i < 2 ^ k -> rng lo hi 0 (at_ a i).

Let start h z : At n (Pu h z) 0 a.
Proof.
  split; [exact HL|]. intros i Hi. split; [apply Ha, Hi|]. cbn [upc Z.to_nat]. rewrite lin_unit by exact Hi. reflexivity.
Qed.

Let fin m h z r : m = Ok r -> At n (Pu h z) k r -> lin_result m k (upc h z (Z.to_nat k)).
Proof. intros E [H1 H2]. exists r. split; [exact E|]. split; [exact H1|]. intros i Hi. apply H2, Hi. Qed.

Lemma lin_ct_rev2std : lin_result (ntt_red_ct_rev2std a (2 ^ k) p) k (upc hA (zA true) (Z.to_nat k)).
Proof.
  destruct (nest_A_up_plain k n (Pu hA (zA true)) Hk eq_refl bfly0_red ct_bfly_red p a) as (r & E & HA);
    [exact Hlp| | |apply start|exact (fin _ _ _ r E HA)].
  - intros l c Hl Hc. assert (Hj : 0 <= 0 < 2 ^ l) by (split; [lia|apply pow2_pos; lia]).
    destruct (PA l 0 c Hl Hj Hc) as (H1 & H2 & H3 & H4 & _).
    apply up_step with (h := hA) (zz := 1); auto; [lia|rewrite zA_at by assumption; reflexivity|].
    apply bfly0_red_ct; auto.
  - intros l j c Hl Hj Hc. destruct (PA l j c Hl ltac:(lia) Hc) as (H1 & H2 & H3 & H4 & _).
    apply up_step with (h := hA) (zz := 3 * at_ p (2 ^ l + j)); auto;
      [lia|rewrite zA_at by lia; apply zf_plain; lia|].
    apply ct_bfly_red_ct; auto; [|reflexivity]. apply Hp. apply entry_range; lia.
Qed.

Lemma lin_mul_ct_rev2std : lin_result (mulntt_red_ct_rev2std a (2 ^ k) p) k (upc hA (zA false) (Z.to_nat k)).
Proof.
  destruct (nest_A_up_mul k n (Pu hA (zA false)) Hk eq_refl bfly0_red ct_bfly_red p a) as (r & E & HA);
    [exact Hlp| |apply start|exact (fin _ _ _ r E HA)].
  intros l j c Hl Hj Hc. destruct (PA l j c Hl ltac:(lia) Hc) as (H1 & H2 & H3 & H4 & _).
  apply up_step with (h := hA) (zz := 3 * at_ p (2 ^ l + j)); auto; [lia|rewrite zA_at by lia; apply zf_mul|].
  apply ct_bfly_red_ct; auto; [|reflexivity]. apply Hp. apply entry_range; lia.
Qed.

Lemma lin_ct_std2rev : lin_result (ntt_red_ct_std2rev a (2 ^ k) p) k (upc hB (zB true) (Z.to_nat k)).
Proof.
  destruct (nest_B_up_plain k n (Pu hB (zB true)) Hk eq_refl bfly0_red ct_bfly_red p a) as (r & E & HA);
    [exact Hlp| | |apply start|exact (fin _ _ _ r E HA)].
  - intros l c Hl Hc. assert (Hj : 0 <= 0 < 2 ^ l) by (split; [lia|apply pow2_pos; lia]).
    destruct (PB l 0 c Hl Hj Hc) as (H1 & H2 & H3 & H4 & _).
    apply up_step with (h := hB) (zz := 1); auto; [lia|rewrite zB_at by assumption; reflexivity|].
    apply bfly0_red_ct; auto.
  - intros l j c Hl Hj Hc. destruct (PB l j c Hl ltac:(lia) Hc) as (H1 & H2 & H3 & H4 & _).
    apply up_step with (h := hB) (zz := 3 * at_ p (2 ^ l + j)); auto;
      [lia|rewrite zB_at by lia; apply zf_plain; lia|].
    apply ct_bfly_red_ct; auto; [|reflexivity]. apply Hp. apply entry_range; lia.
Qed.

Lemma lin_mul_ct_std2rev : lin_result (mulntt_red_ct_std2rev a (2 ^ k) p) k (upc hB (zB false) (Z.to_nat k)).
Proof.
  destruct (nest_B_up_mul k n (Pu hB (zB false)) Hk eq_refl bfly0_red ct_bfly_red p a) as (r & E & HA);
    [exact Hlp| |apply start|exact (fin _ _ _ r E HA)].
  intros l j c Hl Hj Hc. destruct (PB l j c Hl ltac:(lia) Hc) as (H1 & H2 & H3 & H4 & _).
  apply up_step with (h := hB) (zz := 3 * at_ p (2 ^ l + j)); auto; [lia|rewrite zB_at by lia; apply zf_mul|].
  apply ct_bfly_red_ct; auto; [|reflexivity]. apply Hp. apply entry_range; lia.
Qed.
End CT.

Section GS.
Hypothesis Ha : forall i, 0 <= i < 2 ^ k -> rng lo hi k (at_ a i).

Let start h z : At n (Pd h z) k a.
Proof.
  split; [exact HL|]. intros i Hi. split; [apply Ha, Hi|]. rewrite Z.sub_diag. cbn [downc Z.to_nat].
  rewrite lin_unit by exact Hi. reflexivity.
Qed.

Let fin m h z r : m = Ok r -> At n (Pd h z) 0 r -> lin_result m 0 (downc h z k (Z.to_nat k)).
Proof.
  intros E [H1 H2]. exists r. split; [exact E|]. split; [exact H1|]. intros i Hi.
  destruct (H2 i Hi) as [R X]. rewrite Z.sub_0_r in X. split; [exact R|exact X].
Qed.

Let l_pos l j : 0 <= l -> 0 < j < 2 ^ l -> 1 <= l.
Proof. intros Hl Hj. destruct (Z.eq_dec l 0) as [->|]; [cbn in Hj; lia|lia]. Qed.

Lemma lin_gs_rev2std :
  (forall l, 0 <= l < k -> gs_grow0 lo hi l) -> (forall l, 1 <= l < k -> gs_grow lo hi l) ->
  lin_result (ntt_red_gs_rev2std a (2 ^ k) p) 0 (downc hB (zB true) k (Z.to_nat k)).
Proof.
  intros Hg0 Hg.
  destruct (nest_B_down_plain k n (Pd hB (zB true)) Hk eq_refl bfly0_red gs_bfly_red p a) as (r & E & HA);
    [exact Hlp| | |apply start|exact (fin _ _ _ r E HA)].
  - intros l c Hl Hc. assert (Hj : 0 <= 0 < 2 ^ l) by (split; [lia|apply pow2_pos; lia]).
    destruct (PB l 0 c Hl Hj Hc) as (H1 & H2 & H3 & H4 & _).
    apply down_step with (h := hB) (zz := 1); auto; [rewrite zB_at by assumption; reflexivity|].
    apply bfly0_red_gs; auto.
  - intros l j c Hl Hj Hc. destruct (PB l j c Hl ltac:(lia) Hc) as (H1 & H2 & H3 & H4 & _).
    assert (1 <= l) by (eapply l_pos; eauto; lia).
    apply down_step with (h := hB) (zz := 3 * at_ p (2 ^ l + j)); auto;
      [rewrite zB_at by lia; apply zf_plain; lia|].
    apply gs_bfly_red_gs; auto; [|reflexivity|apply Hg; lia]. apply Hp. apply entry_range; lia.
Qed.

Lemma lin_gs_std2rev :
  (forall l, 0 <= l < k -> gs_grow0 lo hi l) -> (forall l, 1 <= l < k -> gs_grow lo hi l) ->
  lin_result (ntt_red_gs_std2rev a (2 ^ k) p) 0 (downc hA (zA true) k (Z.to_nat k)).
Proof.
  intros Hg0 Hg.
  destruct (nest_A_down_plain k n (Pd hA (zA true)) Hk eq_refl bfly0_red gs_bfly_red p a) as (r & E & HA);
    [exact Hlp| | |apply start|exact (fin _ _ _ r E HA)].
  - intros l c Hl Hc. assert (Hj : 0 <= 0 < 2 ^ l) by (split; [lia|apply pow2_pos; lia]).
    destruct (PA l 0 c Hl Hj Hc) as (H1 & H2 & H3 & H4 & _).
    apply down_step with (h := hA) (zz := 1); auto; [rewrite zA_at by assumption; reflexivity|].
    apply bfly0_red_gs; auto.
  - intros l j c Hl Hj Hc. destruct (PA l j c Hl ltac:(lia) Hc) as (H1 & H2 & H3 & H4 & _).
    assert (1 <= l) by (eapply l_pos; eauto; lia).
    apply down_step with (h := hA) (zz := 3 * at_ p (2 ^ l + j)); auto;
      [rewrite zA_at by lia; apply zf_plain; lia|].
    apply gs_bfly_red_gs; auto; [|reflexivity|apply Hg; lia]. apply Hp. apply entry_range; lia.
Qed.

Lemma lin_mul_gs_rev2std : (forall l, 0 <= l < k -> gs_grow lo hi l) ->
  lin_result (nttmul_red_gs_rev2std a (2 ^ k) p) 0 (downc hB (zB false) k (Z.to_nat k)).
Proof.
  intros Hg.
  destruct (nest_B_down_mul k n (Pd hB (zB false)) Hk eq_refl bfly0_red gs_bfly_red p a) as (r & E & HA);
    [exact Hlp| |apply start|exact (fin _ _ _ r E HA)].
  intros l j c Hl Hj Hc. destruct (PB l j c Hl ltac:(lia) Hc) as (H1 & H2 & H3 & H4 & _).
  apply down_step with (h := hB) (zz := 3 * at_ p (2 ^ l + j)); auto; [rewrite zB_at by lia; apply zf_mul|].
  apply gs_bfly_red_gs; auto; [|reflexivity]. apply Hp. apply entry_range; lia.
Qed.

Lemma lin_mul_gs_std2rev : (forall l, 0 <= l < k -> gs_grow lo hi l) ->
  lin_result (nttmul_red_gs_std2rev a (2 ^ k) p) 0 (downc hA (zA false) k (Z.to_nat k)).
Proof.
  intros Hg.
  destruct (nest_A_down_mul k n (Pd hA (zA false)) Hk eq_refl bfly0_red gs_bfly_red p a) as (r & E & HA);
    [exact Hlp| |apply start|exact (fin _ _ _ r E HA)].
  intros l j c Hl Hj Hc. destruct (PA l j c Hl ltac:(lia) Hc) as (H1 & H2 & H3 & H4 & _).
  apply down_step with (h := hA) (zz := 3 * at_ p (2 ^ l + j)); auto; [rewrite zA_at by lia; apply zf_mul|].
  apply gs_bfly_red_gs; auto; [|reflexivity]. apply Hp. apply entry_range; lia.
Qed.
End GS.
End Run.
End Linear.
