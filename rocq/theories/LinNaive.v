(** The transforms of src/naive_ntt.c and the operations around them are linear modulo Q, whatever the table. *)

From Coq Require Import ZArith List Bool Lia Setoid Morphisms.
From Verif Require Import CSem Spec Loops ModQ Stages OuterLoops Tower TransformGen Forms ModelNaive
  NttElem NaiveElem HeapElem RedRange AvxArrays ProdFinal Shuffle LinRed BasisElem LinNtt TestsLin.
Import Spec.
Import ListNotations.
Open Scope Z_scope.

Lemma can1_in a n : zlen a = n -> all_in (- (Q - 1)) (Q - 1) a -> forall i, 0 <= i < n -> can1 (at_ a i).
Proof. intros La Ia i Hi. assert (X := all_in_at _ _ a i Ia ltac:(lia)). unfold can1, Q in *. lia. Qed.

Section Linear.
Variables (k : Z) (p : list Z).
Hypothesis Hk : 0 <= k <= 31.
Hypothesis Hlp : zlen p = 2 ^ k.
Hypothesis Hp : all_in 0 (Q - 1) p.

Let n := 2 ^ k.
Let Hn : 2 ^ k <= 2147483648.
Proof. apply pow31. exact Hk. Qed.
Let tab i : 1 <= i < 2 ^ k -> can (at_ p i).
Proof. intros Hi. apply (can_in p (2 ^ k) Hlp Hp). lia. Qed.

(** The factor of the table, or none *)
Definition vzf (plain : bool) (T j : Z) : Z := if plain && (j =? 0) then 1 else at_ p (T + j).
Definition vzA (plain : bool) (l i : Z) : Z := vzf plain (2 ^ l) (i mod 2 ^ l).
Definition vzB (plain : bool) (l i : Z) : Z := vzf plain (2 ^ l) (i / (2 * 2 ^ (k - 1 - l))).
Let hB := LinRed.hB k.

Let PA l j c : 0 <= l < k -> 0 <= j < 2 ^ l -> 0 <= c < 2 ^ (k - 1 - l) ->
  0 <= posA (2 ^ l) j c /\ 0 < 2 ^ l /\ posA (2 ^ l) j c + 2 ^ l < 2 ^ k
  /\ (posA (2 ^ l) j c / 2 ^ l) mod 2 = 0 /\ posA (2 ^ l) j c mod 2 ^ l = j.
Proof.
  intros Hl Hj Hc. assert (Hs : 2 ^ k = 2 * 2 ^ l * 2 ^ (k - 1 - l)) by (apply pow_three; lia).
  assert (0 < 2 ^ l) by (apply pow2_pos; lia). unfold posA.
  assert (2 * 2 ^ l * c <= 2 * 2 ^ l * (2 ^ (k - 1 - l) - 1)) by (apply Z.mul_le_mono_nonneg_l; lia).
  split; [nia|]. split; [lia|]. split; [nia|].
  replace (j + c * (2 * 2 ^ l)) with (j + (2 * c) * 2 ^ l) by ring.
  split; [|rewrite Z.mod_add by lia; apply Z.mod_small; lia].
  rewrite Z.div_add, Z.div_small by lia. rewrite Z.add_0_l, Z.mul_comm. apply Z.mod_mul. lia.
Qed.

Let PB l j c : 0 <= l < k -> 0 <= j < 2 ^ l -> 0 <= c < 2 ^ (k - 1 - l) ->
  0 <= posB (2 ^ (k - 1 - l)) j c /\ 0 < 2 ^ (k - 1 - l)
  /\ posB (2 ^ (k - 1 - l)) j c + 2 ^ (k - 1 - l) < 2 ^ k
  /\ (posB (2 ^ (k - 1 - l)) j c / 2 ^ (k - 1 - l)) mod 2 = 0
  /\ posB (2 ^ (k - 1 - l)) j c / (2 * 2 ^ (k - 1 - l)) = j.
Proof.
  intros Hl Hj Hc. assert (Hs : 2 ^ k = 2 * 2 ^ l * 2 ^ (k - 1 - l)) by (apply pow_three; lia).
  assert (0 < 2 ^ (k - 1 - l)) by (apply pow2_pos; lia). unfold posB.
  assert (2 ^ (k - 1 - l) * j <= 2 ^ (k - 1 - l) * (2 ^ l - 1)) by (apply Z.mul_le_mono_nonneg_l; lia).
  split; [nia|]. split; [lia|]. split; [nia|]. split.
  - replace (2 * 2 ^ (k - 1 - l) * j + c) with (c + (2 * j) * 2 ^ (k - 1 - l)) by ring.
    rewrite Z.div_add, Z.div_small by lia. rewrite Z.add_0_l, Z.mul_comm. apply Z.mod_mul. lia.
  - replace (2 * 2 ^ (k - 1 - l) * j + c) with (c + j * (2 * 2 ^ (k - 1 - l))) by ring.
    rewrite Z.div_add, Z.div_small by lia. reflexivity.
Qed.

Let zA_at plain l j c : 0 <= l < k -> 0 <= j < 2 ^ l -> 0 <= c < 2 ^ (k - 1 - l) ->
  vzA plain l (posA (2 ^ l) j c) = vzf plain (2 ^ l) j.
Proof. intros Hl Hj Hc. destruct (PA l j c Hl Hj Hc) as (_ & _ & _ & _ & E). unfold vzA. rewrite E. reflexivity. Qed.
Let zB_at plain l j c : 0 <= l < k -> 0 <= j < 2 ^ l -> 0 <= c < 2 ^ (k - 1 - l) ->
  vzB plain l (posB (2 ^ (k - 1 - l)) j c) = vzf plain (2 ^ l) j.
Proof. intros Hl Hj Hc. destruct (PB l j c Hl Hj Hc) as (_ & _ & _ & _ & E). unfold vzB. rewrite E. reflexivity. Qed.
Let zf_mul T j : vzf false T j = at_ p (T + j).
Proof. reflexivity. Qed.
Let zf_plain T j : 0 < j -> vzf true T j = at_ p (T + j).
Proof. intros. unfold vzf. replace (j =? 0) with false by lia. reflexivity. Qed.

Section Run.
Variable a : list Z.
Hypothesis HL : zlen a = 2 ^ k.
Hypothesis Ha : forall i, 0 <= i < 2 ^ k -> can1 (at_ a i).

Definition vlin_result (m : res (list Z)) (F : Z -> Z -> Z) : Prop :=
  exists r, m = Ok r /\ zlen r = 2 ^ k
    /\ forall i, 0 <= i < 2 ^ k -> can1 (at_ r i) /\ eqQ (at_ r i) (lin (2 ^ k) F a i).

Let Pu h z l (i v : Z) := can1 v /\ eqQ v (lin n (upc h z (Z.to_nat l)) a i).
Let Pd h z l (i v : Z) := can1 v /\ eqQ v (lin n (downc h z k (Z.to_nat (k - l))) a i).

Let up_step h z l s body zz : 0 <= l -> 0 <= s -> 0 < h l -> s + h l < n -> (s / h l) mod 2 = 0 -> z l s = zz ->
  ct_pair n (h l) zz can1 can1 s body ->
  bspec n (h l) (Pu h z l) (Pu h z (l + 1)) s body.
Proof.
  intros Hl Hs Hh Hsh Hlow <- H b Lb [R1 E1] [R2 E2].
  destruct (H b Lb Hs Hh Hsh R1 R2) as (x & y & E & Ex & Ey & Bx & By).
  exists x, y. split; [exact E|]. unfold Pu. rewrite to_nat_up by exact Hl.
  cbn [upc]. rewrite Z2Nat.id by lia. split; (split; [assumption|]).
  - rewrite ct_coef_lo, Ex, E1, E2 by assumption. reflexivity.
  - rewrite ct_coef_hi, Ey, E1, E2 by assumption. reflexivity.
Qed.

Let down_step h z l s body zz : 0 <= l < k -> 0 <= s -> 0 < h l -> s + h l < n -> (s / h l) mod 2 = 0 -> z l s = zz ->
  gs_pair n (h l) zz can1 can1 s body ->
  bspec n (h l) (Pd h z (l + 1)) (Pd h z l) s body.
Proof.
  intros Hl Hs Hh Hsh Hlow <- H b Lb [R1 E1] [R2 E2].
  destruct (H b Lb Hs Hh Hsh R1 R2) as (x & y & E & Ex & Ey & Bx & By).
  exists x, y. split; [exact E|]. unfold Pd. rewrite to_nat_down by exact Hl.
  cbn [downc]. rewrite Z2Nat.id by lia. replace (k - 1 - (k - (l + 1))) with l by ring.
  split; (split; [assumption|]).
  - rewrite gs_coef_lo, Ex, E1, E2 by assumption. reflexivity.
  - rewrite gs_coef_hi, Ey, E1, E2 by assumption. reflexivity.
Qed.

Let startu h z : At n (Pu h z) 0 a.
Proof.
  split; [exact HL|]. intros i Hi. split; [apply Ha, Hi|]. cbn [upc Z.to_nat]. rewrite lin_unit by exact Hi. reflexivity.
Qed.
Let finu m h z r : m = Ok r -> At n (Pu h z) k r -> vlin_result m (upc h z (Z.to_nat k)).
Proof. intros E [H1 H2]. exists r. split; [exact E|]. split; [exact H1|]. intros i Hi. apply H2, Hi. Qed.
Let startd h z : At n (Pd h z) k a.
Proof.
  split; [exact HL|]. intros i Hi. split; [apply Ha, Hi|]. rewrite Z.sub_diag. cbn [downc Z.to_nat].
  rewrite lin_unit by exact Hi. reflexivity.
Qed.
Let find m h z r : m = Ok r -> At n (Pd h z) 0 r -> vlin_result m (downc h z k (Z.to_nat k)).
Proof.
  intros E [H1 H2]. exists r. split; [exact E|]. split; [exact H1|]. intros i Hi.
  destruct (H2 i Hi) as [R X]. rewrite Z.sub_0_r in X. split; [exact R|exact X].
Qed.

Lemma vlin_ntt_ct_rev2std : vlin_result (ntt_ct_rev2std_naive a (2 ^ k) p 12289) (upc hA (vzA true) (Z.to_nat k)).
Proof.
  destruct (nest_A_up_plain k n (Pu hA (vzA true)) Hk eq_refl (bfly0_naive 12289) (ct_bfly_naive 12289) p a) as (r & E & HA);
    [exact Hlp| | |apply startu|exact (finu _ _ _ r E HA)].
  - intros l c Hl Hc. assert (Hj : 0 <= 0 < 2 ^ l) by (split; [lia|apply pow2_pos; lia]).
    destruct (PA l 0 c Hl Hj Hc) as (H1 & H2 & H3 & H4 & _).
    apply up_step with (h := hA) (zz := 1); auto; [lia|rewrite zA_at by assumption; reflexivity|].
    apply bfly0_naive_ct; auto.
  - intros l j c Hl Hj Hc. destruct (PA l j c Hl ltac:(lia) Hc) as (H1 & H2 & H3 & H4 & _).
    apply up_step with (h := hA) (zz := at_ p (2 ^ l + j)); auto; [lia|rewrite zA_at by lia; apply zf_plain; lia|].
    apply ct_bfly_naive_ct; auto; [|reflexivity]. apply tab. apply entry_range; lia.
Qed.

Lemma vlin_mulntt_ct_rev2std : vlin_result (mulntt_ct_rev2std_naive a (2 ^ k) p 12289) (upc hA (vzA false) (Z.to_nat k)).
Proof.
  destruct (nest_A_up_mul k n (Pu hA (vzA false)) Hk eq_refl (bfly0_naive 12289) (ct_bfly_naive 12289) p a) as (r & E & HA);
    [exact Hlp| |apply startu|exact (finu _ _ _ r E HA)].
  intros l j c Hl Hj Hc. destruct (PA l j c Hl ltac:(lia) Hc) as (H1 & H2 & H3 & H4 & _).
    apply up_step with (h := hA) (zz := at_ p (2 ^ l + j)); auto; [lia|rewrite zA_at by lia; apply zf_mul|].
    apply ct_bfly_naive_ct; auto; [|reflexivity]. apply tab. apply entry_range; lia.
Qed.

Lemma vlin_ntt_ct_std2rev : vlin_result (ntt_ct_std2rev_naive a (2 ^ k) p 12289) (upc hB (vzB true) (Z.to_nat k)).
Proof.
  destruct (nest_B_up_plain k n (Pu hB (vzB true)) Hk eq_refl (bfly0_naive 12289) (ct_bfly_naive 12289) p a) as (r & E & HA);
    [exact Hlp| | |apply startu|exact (finu _ _ _ r E HA)].
  - intros l c Hl Hc. assert (Hj : 0 <= 0 < 2 ^ l) by (split; [lia|apply pow2_pos; lia]).
    destruct (PB l 0 c Hl Hj Hc) as (H1 & H2 & H3 & H4 & _).
    apply up_step with (h := hB) (zz := 1); auto; [lia|rewrite zB_at by assumption; reflexivity|].
    apply bfly0_naive_ct; auto.
  - intros l j c Hl Hj Hc. destruct (PB l j c Hl ltac:(lia) Hc) as (H1 & H2 & H3 & H4 & _).
    apply up_step with (h := hB) (zz := at_ p (2 ^ l + j)); auto; [lia|rewrite zB_at by lia; apply zf_plain; lia|].
    apply ct_bfly_naive_ct; auto; [|reflexivity]. apply tab. apply entry_range; lia.
Qed.

Lemma vlin_mulntt_ct_std2rev : vlin_result (mulntt_ct_std2rev_naive a (2 ^ k) p 12289) (upc hB (vzB false) (Z.to_nat k)).
Proof.
  destruct (nest_B_up_mul k n (Pu hB (vzB false)) Hk eq_refl (bfly0_naive 12289) (ct_bfly_naive 12289) p a) as (r & E & HA);
    [exact Hlp| |apply startu|exact (finu _ _ _ r E HA)].
  intros l j c Hl Hj Hc. destruct (PB l j c Hl ltac:(lia) Hc) as (H1 & H2 & H3 & H4 & _).
    apply up_step with (h := hB) (zz := at_ p (2 ^ l + j)); auto; [lia|rewrite zB_at by lia; apply zf_mul|].
    apply ct_bfly_naive_ct; auto; [|reflexivity]. apply tab. apply entry_range; lia.
Qed.

Lemma vlin_ntt_gs_rev2std : vlin_result (ntt_gs_rev2std_naive a (2 ^ k) p 12289) (downc hB (vzB true) k (Z.to_nat k)).
Proof.
  destruct (nest_B_down_plain k n (Pd hB (vzB true)) Hk eq_refl (bfly0_naive 12289) (gs_bfly_naive 12289) p a) as (r & E & HA);
    [exact Hlp| | |apply startd|exact (find _ _ _ r E HA)].
  - intros l c Hl Hc. assert (Hj : 0 <= 0 < 2 ^ l) by (split; [lia|apply pow2_pos; lia]).
    destruct (PB l 0 c Hl Hj Hc) as (H1 & H2 & H3 & H4 & _).
    apply down_step with (h := hB) (zz := 1); auto; [rewrite zB_at by assumption; reflexivity|].
    apply bfly0_naive_gs; auto.
  - intros l j c Hl Hj Hc. destruct (PB l j c Hl ltac:(lia) Hc) as (H1 & H2 & H3 & H4 & _).
    apply down_step with (h := hB) (zz := at_ p (2 ^ l + j)); auto; [rewrite zB_at by lia; apply zf_plain; lia|].
    apply gs_bfly_naive_gs; auto; [|reflexivity]. apply tab. apply entry_range; lia.
Qed.

Lemma vlin_nttmul_gs_rev2std : vlin_result (nttmul_gs_rev2std_naive a (2 ^ k) p 12289) (downc hB (vzB false) k (Z.to_nat k)).
Proof.
  destruct (nest_B_down_mul k n (Pd hB (vzB false)) Hk eq_refl (bfly0_naive 12289) (gs_bfly_naive 12289) p a) as (r & E & HA);
    [exact Hlp| |apply startd|exact (find _ _ _ r E HA)].
  intros l j c Hl Hj Hc. destruct (PB l j c Hl ltac:(lia) Hc) as (H1 & H2 & H3 & H4 & _).
    apply down_step with (h := hB) (zz := at_ p (2 ^ l + j)); auto; [rewrite zB_at by lia; apply zf_mul|].
    apply gs_bfly_naive_gs; auto; [|reflexivity]. apply tab. apply entry_range; lia.
Qed.

Lemma vlin_ntt_gs_std2rev : vlin_result (ntt_gs_std2rev_naive a (2 ^ k) p 12289) (downc hA (vzA true) k (Z.to_nat k)).
Proof.
  destruct (nest_A_down_plain k n (Pd hA (vzA true)) Hk eq_refl (bfly0_naive 12289) (gs_bfly_naive 12289) p a) as (r & E & HA);
    [exact Hlp| | |apply startd|exact (find _ _ _ r E HA)].
  - intros l c Hl Hc. assert (Hj : 0 <= 0 < 2 ^ l) by (split; [lia|apply pow2_pos; lia]).
    destruct (PA l 0 c Hl Hj Hc) as (H1 & H2 & H3 & H4 & _).
    apply down_step with (h := hA) (zz := 1); auto; [rewrite zA_at by assumption; reflexivity|].
    apply bfly0_naive_gs; auto.
  - intros l j c Hl Hj Hc. destruct (PA l j c Hl ltac:(lia) Hc) as (H1 & H2 & H3 & H4 & _).
    apply down_step with (h := hA) (zz := at_ p (2 ^ l + j)); auto; [rewrite zA_at by lia; apply zf_plain; lia|].
    apply gs_bfly_naive_gs; auto; [|reflexivity]. apply tab. apply entry_range; lia.
Qed.

Lemma vlin_nttmul_gs_std2rev : vlin_result (nttmul_gs_std2rev_naive a (2 ^ k) p 12289) (downc hA (vzA false) k (Z.to_nat k)).
Proof.
  destruct (nest_A_down_mul k n (Pd hA (vzA false)) Hk eq_refl (bfly0_naive 12289) (gs_bfly_naive 12289) p a) as (r & E & HA);
    [exact Hlp| |apply startd|exact (find _ _ _ r E HA)].
  intros l j c Hl Hj Hc. destruct (PA l j c Hl ltac:(lia) Hc) as (H1 & H2 & H3 & H4 & _).
    apply down_step with (h := hA) (zz := at_ p (2 ^ l + j)); auto; [rewrite zA_at by lia; apply zf_mul|].
    apply gs_bfly_naive_gs; auto; [|reflexivity]. apply tab. apply entry_range; lia.
Qed.

End Run.

(** Any of the transforms *)
Lemma naive_transform_lmap f : In f
  [ntt_ct_rev2std_naive; mulntt_ct_rev2std_naive; ntt_ct_std2rev_naive; mulntt_ct_std2rev_naive; ntt_gs_rev2std_naive; nttmul_gs_rev2std_naive; ntt_gs_std2rev_naive; nttmul_gs_std2rev_naive] ->
  lmap (2 ^ k) (- (Q - 1)) (Q - 1) (- (Q - 1)) (Q - 1) (fun a => f a (2 ^ k) p 12289).
Proof.
  assert (G : forall g F, (forall a, zlen a = 2 ^ k -> (forall i, 0 <= i < 2 ^ k -> can1 (at_ a i)) -> vlin_result a (g a (2 ^ k) p 12289) F) ->
    lmap (2 ^ k) (- (Q - 1)) (Q - 1) (- (Q - 1)) (Q - 1) (fun a => g a (2 ^ k) p 12289)).
  { intros g F H. exists F. intros a La Ia. destruct (H a La (can1_in a _ La Ia)) as (r & E & Lr & V).
    exists r. split; [exact E|]. split; [exact Lr|]. split; [|intros i Hi; exact (proj2 (V i Hi))].
    apply all_in_of. intros i Hi. destruct (V i ltac:(lia)) as [B _]. unfold can1, Q in *. lia. }
  intros Hf. cbn [In] in Hf.
  destruct Hf as [<-|Hf]; [exact (G _ _ vlin_ntt_ct_rev2std)|].
  destruct Hf as [<-|Hf]; [exact (G _ _ vlin_mulntt_ct_rev2std)|].
  destruct Hf as [<-|Hf]; [exact (G _ _ vlin_ntt_ct_std2rev)|].
  destruct Hf as [<-|Hf]; [exact (G _ _ vlin_mulntt_ct_std2rev)|].
  destruct Hf as [<-|Hf]; [exact (G _ _ vlin_ntt_gs_rev2std)|].
  destruct Hf as [<-|Hf]; [exact (G _ _ vlin_nttmul_gs_rev2std)|].
  destruct Hf as [<-|Hf]; [exact (G _ _ vlin_ntt_gs_std2rev)|].
  destruct Hf as [<-|Hf]; [exact (G _ _ vlin_nttmul_gs_std2rev)|].
  destruct Hf.
Qed.

Lemma mul_array16_naive_lmap :
  lmap (2 ^ k) (- (Q - 1)) (Q - 1) (- (Q - 1)) (Q - 1) (fun a => mul_array16_naive a (2 ^ k) p 12289).
Proof.
  exists (fun i x => if x =? i then at_ p i else 0). intros a La Ia.
  assert (Ca := can1_in a _ La Ia). assert (Cp := can_in p _ Hlp Hp).
  destruct (mul_array16_naive_spec a (2 ^ k) p) as (r & E & Lr & V & _); [lia|lia|lia| |].
  { intros i Hi. assert (X := mul_can1 _ _ (Ca i Hi) (can_can1 _ (Cp i Hi))). lia. }
  exists r. split; [exact E|]. split; [lia|]. split.
  - apply all_in_of. intros i Hi. rewrite V by lia. assert (B := can1_rem (at_ a i * at_ p i)). unfold can1, Q in *. lia.
  - intros i Hi. rewrite V by exact Hi. rewrite eqQ_rem. unfold lin.
    symmetry. rewrite (Sum_single (2 ^ k) i _ Hi).
    + rewrite Z.eqb_refl. qring.
    + intros x Hx Hne. apply Z.eqb_neq in Hne. rewrite Hne. reflexivity.
Qed.
End Linear.

Lemma scalar_naive_lmap k c : 0 <= k <= 31 -> 0 <= c < Q ->
  lmap (2 ^ k) (- (Q - 1)) (Q - 1) (- (Q - 1)) (Q - 1) (fun a => scalar_mul_array_naive a (2 ^ k) c 12289).
Proof.
  intros Hk Hc. exists (fun i x => if x =? i then c else 0). intros a La Ia.
  assert (Hn : 0 <= 2 ^ k < 4294967296) by (split; [apply Z.pow_nonneg; lia|change 4294967296 with (2 ^ 32); apply Z.pow_lt_mono_r; lia]).
  assert (Ca := can1_in a _ La Ia).
  destruct (scalar_mul_array_naive_spec a (2 ^ k) c) as (r & E & Lr & V & _); [lia|lia| |].
  { intros i Hi. assert (X := mul_can1 _ c (Ca i Hi) ltac:(unfold can1, Q in *; lia)). lia. }
  exists r. split; [exact E|]. split; [lia|]. split.
  - apply all_in_of. intros i Hi. rewrite V by lia. assert (B := can1_rem (at_ a i * c)). unfold can1, Q in *. lia.
  - intros i Hi. rewrite V by exact Hi. rewrite eqQ_rem. unfold lin.
    symmetry. rewrite (Sum_single (2 ^ k) i _ Hi).
    + rewrite Z.eqb_refl. qring.
    + intros x Hx Hne. apply Z.eqb_neq in Hne. rewrite Hne. reflexivity.
Qed.

Lemma mul_array_naive_mul_ok n : 0 <= n < 2 ^ 32 ->
  mul_ok n (- (Q - 1)) (Q - 1) (- (Q - 1)) (Q - 1) 1 (fun h c a b => mul_array_naive_h h c n a b 12289).
Proof.
  intros Hn h c a b Lc La Lb Ia Ib. change (2 ^ 32) with 4294967296 in Hn.
  destruct (mul_array_naive_h_spec n h c a b) as (h' & E & L & V & _); try lia.
  { intros i Hi. split; [exact (can1_in (h a) n La Ia i Hi)|exact (can1_in (h b) n Lb Ib i Hi)]. }
  exists h'. split; [exact E|]. split; [lia|]. split.
  - apply all_in_of. intros i Hi. rewrite V by lia. assert (B := can1_rem (at_ (h a) i * at_ (h b) i)). unfold can1, Q in *. lia.
  - intros i Hi. rewrite V by exact Hi. rewrite Z.mul_1_l. apply eqQ_rem.
Qed.
