(** The transforms of src/ntt.c, bitrev_shuffle and mul_array16 are linear modulo Q on
    canonical arrays, whatever the table. *)

From Coq Require Import ZArith List Bool Lia Setoid Morphisms.
From Verif Require Import CSem Spec Loops ModQ Stages OuterLoops Tower TransformGen Forms ModelNtt
  NttElem RedRange AvxArrays ProdFinal Shuffle LinRed BasisElem.
Import Spec.
Import ListNotations.
Open Scope Z_scope.

Lemma can_in a n : zlen a = n -> all_in 0 (Q - 1) a -> forall i, 0 <= i < n -> can (at_ a i).
Proof. intros La Ia i Hi. assert (X := all_in_at 0 (Q - 1) a i Ia ltac:(lia)). unfold can, Q in *. lia. Qed.

Section Linear.
Variables (k : Z) (p : list Z).
Hypothesis Hk : 0 <= k <= 31.
Hypothesis Hlp : zlen p = 2 ^ k.
Hypothesis Hp : all_in 0 (Q - 1) p.

Let n := 2 ^ k.
Let Hn : 2 ^ k <= 2147483648.
Proof. apply pow31. exact Hk. Qed.
Let tab i : 1 <= i < 2 ^ k -> can (at_ p i).
Proof. intros Hi. apply (can_in p (2 ^ k) Hlp Hp). lia. Qed.

(** The factor of the table, or none *)
Definition nzf (plain : bool) (T j : Z) : Z := if plain && (j =? 0) then 1 else at_ p (T + j).
Definition nzA (plain : bool) (l i : Z) : Z := nzf plain (2 ^ l) (i mod 2 ^ l).
Definition nzB (plain : bool) (l i : Z) : Z := nzf plain (2 ^ l) (i / (2 * 2 ^ (k - 1 - l))).
Definition nz1 (l i : Z) : Z := if i mod 2 ^ l =? 0 then 1 else at_ p (i mod 2 ^ l * 2 ^ (k - l)).
Let hB := LinRed.hB k.

Let PA l j c : 0 <= l < k -> 0 <= j < 2 ^ l -> 0 <= c < 2 ^ (k - 1 - l) ->
  0 <= posA (2 ^ l) j c /\ 0 < 2 ^ l /\ posA (2 ^ l) j c + 2 ^ l < 2 ^ k
  /\ (posA (2 ^ l) j c / 2 ^ l) mod 2 = 0 /\ posA (2 ^ l) j c mod 2 ^ l = j.
Proof.
  intros Hl Hj Hc. assert (Hs : 2 ^ k = 2 * 2 ^ l * 2 ^ (k - 1 - l)) by (apply pow_three; lia).
  assert (0 < 2 ^ l) by (apply pow2_pos; lia). unfold posA.
  assert (2 * 2 ^ l * c <= 2 * 2 ^ l * (2 ^ (k - 1 - l) - 1)) by (apply Z.mul_le_mono_nonneg_l; lia).
  split; [nia|]. split; [lia|]. split; [nia|].
  replace (j + c * (2 * 2 ^ l)) with (j + (2 * c) * 2 ^ l) by ring.
  split; [|rewrite Z.mod_add by lia; apply Z.mod_small; lia].
  rewrite Z.div_add, Z.div_small by lia. rewrite Z.add_0_l, Z.mul_comm. apply Z.mod_mul. lia.
Qed.

Let PB l j c : 0 <= l < k -> 0 <= j < 2 ^ l -> 0 <= c < 2 ^ (k - 1 - l) ->
  0 <= posB (2 ^ (k - 1 - l)) j c /\ 0 < 2 ^ (k - 1 - l)
  /\ posB (2 ^ (k - 1 - l)) j c + 2 ^ (k - 1 - l) < 2 ^ k
  /\ (posB (2 ^ (k - 1 - l)) j c / 2 ^ (k - 1 - l)) mod 2 = 0
  /\ posB (2 ^ (k - 1 - l)) j c / (2 * 2 ^ (k - 1 - l)) = j.
Proof.
  intros Hl Hj Hc. assert (Hs : 2 ^ k = 2 * 2 ^ l * 2 ^ (k - 1 - l)) by (apply pow_three; lia).
  assert (0 < 2 ^ (k - 1 - l)) by (apply pow2_pos; lia). unfold posB.
  assert (2 ^ (k - 1 - l) * j <= 2 ^ (k - 1 - l) * (2 ^ l - 1)) by (apply Z.mul_le_mono_nonneg_l; lia).
  split; [nia|]. split; [lia|]. split; [nia|]. split.
  - replace (2 * 2 ^ (k - 1 - l) * j + c) with (c + (2 * j) * 2 ^ (k - 1 - l)) by ring.
    rewrite Z.div_add, Z.div_small by lia. rewrite Z.add_0_l, Z.mul_comm. apply Z.mod_mul. lia.
  - replace (2 * 2 ^ (k - 1 - l) * j + c) with (c + j * (2 * 2 ^ (k - 1 - l))) by ring.
    rewrite Z.div_add, Z.div_small by lia. reflexivity.
Qed.

Let zA_at plain l j c : 0 <= l < k -> 0 <= j < 2 ^ l -> 0 <= c < 2 ^ (k - 1 - l) ->
  nzA plain l (posA (2 ^ l) j c) = nzf plain (2 ^ l) j.
Proof. intros Hl Hj Hc. destruct (PA l j c Hl Hj Hc) as (_ & _ & _ & _ & E). unfold nzA. rewrite E. reflexivity. Qed.
Let zB_at plain l j c : 0 <= l < k -> 0 <= j < 2 ^ l -> 0 <= c < 2 ^ (k - 1 - l) ->
  nzB plain l (posB (2 ^ (k - 1 - l)) j c) = nzf plain (2 ^ l) j.
Proof. intros Hl Hj Hc. destruct (PB l j c Hl Hj Hc) as (_ & _ & _ & _ & E). unfold nzB. rewrite E. reflexivity. Qed.
Let zf_mul T j : nzf false T j = at_ p (T + j).
Proof. reflexivity. Qed.
Let zf_plain T j : 0 < j -> nzf true T j = at_ p (T + j).
Proof. intros. unfold nzf. replace (j =? 0) with false by lia. reflexivity. Qed.

Section Run.
Variable a : list Z.
Hypothesis HL : zlen a = 2 ^ k.
Hypothesis Ha : forall i, 0 <= i < 2 ^ k -> can (at_ a i).

Definition nlin_result (m : res (list Z)) (F : Z -> Z -> Z) : Prop :=
  exists r, m = Ok r /\ zlen r = 2 ^ k
    /\ forall i, 0 <= i < 2 ^ k -> can (at_ r i) /\ eqQ (at_ r i) (lin (2 ^ k) F a i).

Let Pu h z l (i v : Z) := can v /\ eqQ v (lin n (upc h z (Z.to_nat l)) a i).
Let Pd h z l (i v : Z) := can v /\ eqQ v (lin n (downc h z k (Z.to_nat (k - l))) a i).

Let up_step h z l s body zz : 0 <= l -> 0 <= s -> 0 < h l -> s + h l < n -> (s / h l) mod 2 = 0 -> z l s = zz ->
  ct_pair n (h l) zz can can s body ->
  bspec n (h l) (Pu h z l) (Pu h z (l + 1)) s body.
Proof.
  intros Hl Hs Hh Hsh Hlow <- H b Lb [R1 E1] [R2 E2].
  destruct (H b Lb Hs Hh Hsh R1 R2) as (x & y & E & Ex & Ey & Bx & By).
  exists x, y. split; [exact E|]. unfold Pu. rewrite to_nat_up by exact Hl.
  cbn [upc]. rewrite Z2Nat.id by lia. split; (split; [assumption|]).
  - rewrite ct_coef_lo, Ex, E1, E2 by assumption. reflexivity.
  - rewrite ct_coef_hi, Ey, E1, E2 by assumption. reflexivity.
Qed.

Let down_step h z l s body zz : 0 <= l < k -> 0 <= s -> 0 < h l -> s + h l < n -> (s / h l) mod 2 = 0 -> z l s = zz ->
  gs_pair n (h l) zz can can s body ->
  bspec n (h l) (Pd h z (l + 1)) (Pd h z l) s body.
Proof.
  intros Hl Hs Hh Hsh Hlow <- H b Lb [R1 E1] [R2 E2].
  destruct (H b Lb Hs Hh Hsh R1 R2) as (x & y & E & Ex & Ey & Bx & By).
  exists x, y. split; [exact E|]. unfold Pd. rewrite to_nat_down by exact Hl.
  cbn [downc]. rewrite Z2Nat.id by lia. replace (k - 1 - (k - (l + 1))) with l by ring.
  split; (split; [assumption|]).
  - rewrite gs_coef_lo, Ex, E1, E2 by assumption. reflexivity.
  - rewrite gs_coef_hi, Ey, E1, E2 by assumption. reflexivity.
Qed.

Let startu h z : At n (Pu h z) 0 a.
Proof.
  split; [exact HL|]. intros i Hi. split; [apply Ha, Hi|]. cbn [upc Z.to_nat]. rewrite lin_unit by exact Hi. reflexivity.
Qed.
Let finu m h z r : m = Ok r -> At n (Pu h z) k r -> nlin_result m (upc h z (Z.to_nat k)).
Proof. intros E [H1 H2]. exists r. split; [exact E|]. split; [exact H1|]. intros i Hi. apply H2, Hi. Qed.
Let startd h z : At n (Pd h z) k a.
Proof.
  split; [exact HL|]. intros i Hi. split; [apply Ha, Hi|]. rewrite Z.sub_diag. cbn [downc Z.to_nat].
  rewrite lin_unit by exact Hi. reflexivity.
Qed.
Let find m h z r : m = Ok r -> At n (Pd h z) 0 r -> nlin_result m (downc h z k (Z.to_nat k)).
Proof.
  intros E [H1 H2]. exists r. split; [exact E|]. split; [exact H1|]. intros i Hi.
  destruct (H2 i Hi) as [R X]. rewrite Z.sub_0_r in X. split; [exact R|exact X].
Qed.

Lemma nlin_ntt_ct_rev2std : nlin_result (ntt_ct_rev2std a (2 ^ k) p) (upc hA (nzA true) (Z.to_nat k)).
Proof.
  destruct (nest_A_up_plain k n (Pu hA (nzA true)) Hk eq_refl bfly0 ct_bfly p a) as (r & E & HA);
    [exact Hlp| | |apply startu|exact (finu _ _ _ r E HA)].
  - intros l c Hl Hc. assert (Hj : 0 <= 0 < 2 ^ l) by (split; [lia|apply pow2_pos; lia]).
    destruct (PA l 0 c Hl Hj Hc) as (H1 & H2 & H3 & H4 & _).
    apply up_step with (h := hA) (zz := 1); auto; [lia|rewrite zA_at by assumption; reflexivity|].
    apply bfly0_ct; auto.
  - intros l j c Hl Hj Hc. destruct (PA l j c Hl ltac:(lia) Hc) as (H1 & H2 & H3 & H4 & _).
    apply up_step with (h := hA) (zz := at_ p (2 ^ l + j)); auto; [lia|rewrite zA_at by lia; apply zf_plain; lia|].
    apply ct_bfly_ct; auto; [|reflexivity]. apply tab. apply entry_range; lia.
Qed.

Lemma nlin_mulntt_ct_rev2std : nlin_result (mulntt_ct_rev2std a (2 ^ k) p) (upc hA (nzA false) (Z.to_nat k)).
Proof.
  destruct (nest_A_up_mul k n (Pu hA (nzA false)) Hk eq_refl bfly0 ct_bfly p a) as (r & E & HA);
    [exact Hlp| |apply startu|exact (finu _ _ _ r E HA)].
  intros l j c Hl Hj Hc. destruct (PA l j c Hl ltac:(lia) Hc) as (H1 & H2 & H3 & H4 & _).
    apply up_step with (h := hA) (zz := at_ p (2 ^ l + j)); auto; [lia|rewrite zA_at by lia; apply zf_mul|].
    apply ct_bfly_ct; auto; [|reflexivity]. apply tab. apply entry_range; lia.
Qed.

Lemma nlin_ntt_ct_std2rev : nlin_result (ntt_ct_std2rev a (2 ^ k) p) (upc hB (nzB true) (Z.to_nat k)).
Proof.
  destruct (nest_B_up_plain k n (Pu hB (nzB true)) Hk eq_refl bfly0 ct_bfly p a) as (r & E & HA);
    [exact Hlp| | |apply startu|exact (finu _ _ _ r E HA)].
  - intros l c Hl Hc. assert (Hj : 0 <= 0 < 2 ^ l) by (split; [lia|apply pow2_pos; lia]).
    destruct (PB l 0 c Hl Hj Hc) as (H1 & H2 & H3 & H4 & _).
    apply up_step with (h := hB) (zz := 1); auto; [lia|rewrite zB_at by assumption; reflexivity|].
    apply bfly0_ct; auto.
  - intros l j c Hl Hj Hc. destruct (PB l j c Hl ltac:(lia) Hc) as (H1 & H2 & H3 & H4 & _).
    apply up_step with (h := hB) (zz := at_ p (2 ^ l + j)); auto; [lia|rewrite zB_at by lia; apply zf_plain; lia|].
    apply ct_bfly_ct; auto; [|reflexivity]. apply tab. apply entry_range; lia.
Qed.

Lemma nlin_mulntt_ct_std2rev : nlin_result (mulntt_ct_std2rev a (2 ^ k) p) (upc hB (nzB false) (Z.to_nat k)).
Proof.
  destruct (nest_B_up_mul k n (Pu hB (nzB false)) Hk eq_refl bfly0 ct_bfly p a) as (r & E & HA);
    [exact Hlp| |apply startu|exact (finu _ _ _ r E HA)].
  intros l j c Hl Hj Hc. destruct (PB l j c Hl ltac:(lia) Hc) as (H1 & H2 & H3 & H4 & _).
    apply up_step with (h := hB) (zz := at_ p (2 ^ l + j)); auto; [lia|rewrite zB_at by lia; apply zf_mul|].
    apply ct_bfly_ct; auto; [|reflexivity]. apply tab. apply entry_range; lia.
Qed.

Lemma nlin_ntt_gs_rev2std : nlin_result (ntt_gs_rev2std a (2 ^ k) p) (downc hB (nzB true) k (Z.to_nat k)).
Proof.
  destruct (nest_B_down_plain k n (Pd hB (nzB true)) Hk eq_refl bfly0 gs_bfly p a) as (r & E & HA);
    [exact Hlp| | |apply startd|exact (find _ _ _ r E HA)].
  - intros l c Hl Hc. assert (Hj : 0 <= 0 < 2 ^ l) by (split; [lia|apply pow2_pos; lia]).
    destruct (PB l 0 c Hl Hj Hc) as (H1 & H2 & H3 & H4 & _).
    apply down_step with (h := hB) (zz := 1); auto; [rewrite zB_at by assumption; reflexivity|].
    apply bfly0_gs; auto.
  - intros l j c Hl Hj Hc. destruct (PB l j c Hl ltac:(lia) Hc) as (H1 & H2 & H3 & H4 & _).
    apply down_step with (h := hB) (zz := at_ p (2 ^ l + j)); auto; [rewrite zB_at by lia; apply zf_plain; lia|].
    apply gs_bfly_gs; auto; [|reflexivity]. apply tab. apply entry_range; lia.
Qed.

Lemma nlin_nttmul_gs_rev2std : nlin_result (nttmul_gs_rev2std a (2 ^ k) p) (downc hB (nzB false) k (Z.to_nat k)).
Proof.
  destruct (nest_B_down_mul k n (Pd hB (nzB false)) Hk eq_refl bfly0 gs_bfly p a) as (r & E & HA);
    [exact Hlp| |apply startd|exact (find _ _ _ r E HA)].
  intros l j c Hl Hj Hc. destruct (PB l j c Hl ltac:(lia) Hc) as (H1 & H2 & H3 & H4 & _).
    apply down_step with (h := hB) (zz := at_ p (2 ^ l + j)); auto; [rewrite zB_at by lia; apply zf_mul|].
    apply gs_bfly_gs; auto; [|reflexivity]. apply tab. apply entry_range; lia.
Qed.

Lemma nlin_ntt_gs_std2rev : nlin_result (ntt_gs_std2rev a (2 ^ k) p) (downc hA (nzA true) k (Z.to_nat k)).
Proof.
  destruct (nest_A_down_plain k n (Pd hA (nzA true)) Hk eq_refl bfly0 gs_bfly p a) as (r & E & HA);
    [exact Hlp| | |apply startd|exact (find _ _ _ r E HA)].
  - intros l c Hl Hc. assert (Hj : 0 <= 0 < 2 ^ l) by (split; [lia|apply pow2_pos; lia]).
    destruct (PA l 0 c Hl Hj Hc) as (H1 & H2 & H3 & H4 & _).
    apply down_step with (h := hA) (zz := 1); auto; [rewrite zA_at by assumption; reflexivity|].
    apply bfly0_gs; auto.
  - intros l j c Hl Hj Hc. destruct (PA l j c Hl ltac:(lia) Hc) as (H1 & H2 & H3 & H4 & _).
    apply down_step with (h := hA) (zz := at_ p (2 ^ l + j)); auto; [rewrite zA_at by lia; apply zf_plain; lia|].
    apply gs_bfly_gs; auto; [|reflexivity]. apply tab. apply entry_range; lia.
Qed.

Lemma nlin_nttmul_gs_std2rev : nlin_result (nttmul_gs_std2rev a (2 ^ k) p) (downc hA (nzA false) k (Z.to_nat k)).
Proof.
  destruct (nest_A_down_mul k n (Pd hA (nzA false)) Hk eq_refl bfly0 gs_bfly p a) as (r & E & HA);
    [exact Hlp| |apply startd|exact (find _ _ _ r E HA)].
  intros l j c Hl Hj Hc. destruct (PA l j c Hl ltac:(lia) Hc) as (H1 & H2 & H3 & H4 & _).
    apply down_step with (h := hA) (zz := at_ p (2 ^ l + j)); auto; [rewrite zA_at by lia; apply zf_mul|].
    apply gs_bfly_gs; auto; [|reflexivity]. apply tab. apply entry_range; lia.
Qed.

Lemma nlin_ntt_ct_rev2std_v1 : nlin_result (ntt_ct_rev2std_v1 a (2 ^ k) p) (upc hA nz1 (Z.to_nat k)).
Proof.
  destruct (nest_A_v1 k n (Pu hA nz1) Hk eq_refl bfly0 ct_bfly p a) as (r & E & HA);
    [exact Hlp| | |apply startu|exact (finu _ _ _ r E HA)].
  - intros l c Hl Hc. assert (Hj : 0 <= 0 < 2 ^ l) by (split; [lia|apply pow2_pos; lia]).
    destruct (PA l 0 c Hl Hj Hc) as (H1 & H2 & H3 & H4 & H5).
    apply up_step with (h := hA) (zz := 1); auto; [lia|unfold nz1; rewrite H5; reflexivity|].
    apply bfly0_ct; auto.
  - intros l j c Hl Hj Hc. destruct (PA l j c Hl ltac:(lia) Hc) as (H1 & H2 & H3 & H4 & H5).
    assert (0 < 2 ^ (k - l)) by (apply pow2_pos; lia).
    assert (1 <= j * 2 ^ (k - l) < 2 ^ k).
    { replace (2 ^ k) with (2 ^ l * 2 ^ (k - l)) by (rewrite <- Z.pow_add_r by lia; f_equal; lia).
      split; [apply (Z.mul_le_mono_nonneg 1 j 1); lia|apply Z.mul_lt_mono_pos_r; lia]. }
    apply up_step with (h := hA) (zz := at_ p (j * 2 ^ (k - l))); auto;
      [lia|unfold nz1; rewrite H5; replace (j =? 0) with false by lia; reflexivity|].
    apply ct_bfly_ct; auto. reflexivity.
Qed.
End Run.

(** Any of the transforms of src/ntt.c *)
Lemma transform_linear f : In f
  [ntt_ct_rev2std_v1; ntt_ct_rev2std; mulntt_ct_rev2std; ntt_ct_std2rev; mulntt_ct_std2rev;
   ntt_gs_rev2std; nttmul_gs_rev2std; ntt_gs_std2rev; nttmul_gs_std2rev] -> linear_map (2 ^ k) (fun a => f a (2 ^ k) p).
Proof.
  assert (G : forall g F, (forall a, zlen a = 2 ^ k -> (forall i, 0 <= i < 2 ^ k -> can (at_ a i)) -> nlin_result a (g a (2 ^ k) p) F) ->
    linear_map (2 ^ k) (fun a => g a (2 ^ k) p)).
  { intros g F H. exists F. intros a La Ia. destruct (H a La (can_in a _ La Ia)) as (r & E & Lr & V).
    exists r. split; [exact E|]. split; [exact Lr|]. intros i Hi. destruct (V i Hi) as [B X].
    unfold eqQ in X. rewrite <- X. symmetry. apply Z.mod_small. exact B. }
  intros Hf. cbn [In] in Hf.
  destruct Hf as [<-|Hf]; [exact (G _ _ nlin_ntt_ct_rev2std_v1)|].
  destruct Hf as [<-|Hf]; [exact (G _ _ nlin_ntt_ct_rev2std)|].
  destruct Hf as [<-|Hf]; [exact (G _ _ nlin_mulntt_ct_rev2std)|].
  destruct Hf as [<-|Hf]; [exact (G _ _ nlin_ntt_ct_std2rev)|].
  destruct Hf as [<-|Hf]; [exact (G _ _ nlin_mulntt_ct_std2rev)|].
  destruct Hf as [<-|Hf]; [exact (G _ _ nlin_ntt_gs_rev2std)|].
  destruct Hf as [<-|Hf]; [exact (G _ _ nlin_nttmul_gs_rev2std)|].
  destruct Hf as [<-|Hf]; [exact (G _ _ nlin_ntt_gs_std2rev)|].
  destruct Hf as [<-|Hf]; [exact (G _ _ nlin_nttmul_gs_std2rev)|].
  destruct Hf.
Qed.

(** mul_array16 *)
Lemma mul_array16_linear : linear_map (2 ^ k) (fun a => mul_array16 a (2 ^ k) p).
Proof.
  exists (fun i x => if x =? i then at_ p i else 0). intros a La Ia.
  assert (Ca := can_in a _ La Ia). assert (Cp := can_in p _ Hlp Hp).
  destruct (mul_array16_spec a (2 ^ k) p) as (r & E & Lr & V & _); [lia|lia|lia| |].
  { intros i Hi. assert (X := mul_can _ _ (Ca i Hi) (Cp i Hi)). lia. }
  exists r. split; [exact E|]. split; [lia|]. intros i Hi. rewrite V by exact Hi.
  change (eqQ (at_ a i * at_ p i) (lin (2 ^ k) (fun i x => if x =? i then at_ p i else 0) a i)). unfold lin.
  symmetry. rewrite (Sum_single (2 ^ k) i _ Hi).
  - rewrite Z.eqb_refl. qring.
  - intros x Hx Hne. apply Z.eqb_neq in Hne. rewrite Hne. reflexivity.
Qed.
End Linear.

(** bitrev_shuffle *)
Lemma shuffle_linear k : 0 <= k <= 31 -> linear_map (2 ^ k) (fun a => bitrev_shuffle a (2 ^ k)).
Proof.
  intros Hk. exists (fun i x => if x =? bitrev k i then 1 else 0). intros a La Ia.
  destruct (bitrev_shuffle_ok k a Hk La) as (r & E & Lr & V). exists r. split; [exact E|]. split; [exact Lr|].
  intros i Hi. assert (B := bitrev_range k i ltac:(lia)). rewrite V by exact Hi.
  assert (C := can_in a _ La Ia _ B). unfold can in C.
  rewrite <- (Z.mod_small (at_ a (bitrev k i)) Q) by exact C.
  change (eqQ (at_ a (bitrev k i)) (lin (2 ^ k) (fun i x => if x =? bitrev k i then 1 else 0) a i)). unfold lin.
  symmetry. rewrite (Sum_single (2 ^ k) (bitrev k i) _ B).
  - rewrite Z.eqb_refl. qring.
  - intros x Hx Hne. apply Z.eqb_neq in Hne. rewrite Hne. reflexivity.
Qed.

Lemma linear_ext n V W : (forall a, zlen a = n -> V a = W a) -> linear_map n W -> linear_map n V.
Proof. intros H [F HF]. exists F. intros a La Ia. rewrite H by exact La. exact (HF a La Ia). Qed.

(** One after the other *)
Lemma seq_linear n V W : linear_map n V -> linear_map n W -> linear_map n (fun a => do a <- V a; W a).
Proof.
  intros [F HF] [G HG]. exists (fun i x => Sum n (fun y => G i y * F y x)). intros a La Ia.
  destruct (HF a La Ia) as (b & Eb & Lb & Vb). rewrite Eb. cbn [bind].
  destruct (HG b Lb (canon_in n _ b Lb Vb)) as (r & Er & Lr & Vr). exists r. split; [exact Er|]. split; [exact Lr|].
  intros i Hi. rewrite Vr by exact Hi.
  change (eqQ (lin n G b i) (lin n (fun i x => Sum n (fun y => G i y * F y x)) a i)). unfold lin.
  transitivity (Sum n (fun y => Sum n (fun x => G i y * F y x * at_ a x))).
  - apply Sum_extQ. intros y Hy. rewrite Vb by exact Hy. rewrite eqQ_modn. unfold lin. rewrite <- Sum_mul_l.
    apply Sum_extQ. intros x _. qring.
  - rewrite Sum_swap. apply Sum_extQ. intros x _. rewrite (Z.mul_comm (Sum n _)). rewrite <- Sum_mul_l.
    apply Sum_extQ. intros y _. qring.
Qed.
