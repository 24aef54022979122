(** Bounds that follow the entries of the table, as in FineGen, for the four shapes of
    transform, with and without multiplication, and for any size. *)

From Coq Require Import ZArith List Bool Lia Setoid Morphisms.
From Verif Require Import CSem Spec Loops ModQ Stages OuterLoops Tower TransformGen Forms ModelRed
  NttElem NaiveElem RedElem RedBfly FineBounds FineGen.
Import ListNotations.
Open Scope Z_scope.

(** ** One butterfly: from bounds [b1] and [b2] to the bound [b'] *)
Definition body_ok (n s h b1 b2 b' : Z) (body : list Z -> res (list Z)) : Prop :=
  forall a, zlen a = n -> 0 <= s -> 0 < h -> s + h < n -> within b1 (at_ a s) -> within b2 (at_ a (s + h)) ->
  exists x y, body a = Ok (aset (aset a (s + h) y) s x) /\ within b' x /\ within b' y.

Lemma ct0_body n s h b : n <= 2147483648 -> 0 <= b -> 2 * b <= 1000000000 -> body_ok n s h b b (2 * b) (bfly0_red s h).
Proof.
  intros Hn Hb Hc a HL Hs Hh Hsh H1 H2.
  destruct (bfly0_fine n h s b (2 * b) Hn ltac:(lia) a HL Hs Hh Hsh H1 H2) as (x & y & E & _ & _ & X & Y). eauto.
Qed.
Lemma ct_body n s h w b : n <= 2147483648 -> -6144 <= w <= 6144 -> 0 <= b -> grow b w <= 1000000000 ->
  body_ok n s h b b (grow b w) (ct_bfly_red w s h).
Proof.
  intros Hn Hw Hb Hc a HL Hs Hh Hsh H1 H2. assert (G := grow_ge b w Hb).
  destruct (ct_bfly_fine n h s w b (grow b w) Hn Hw Hb ltac:(lia) ltac:(lia) a HL Hs Hh Hsh H1 H2)
    as (x & y & E & _ & _ & X & Y). eauto.
Qed.
Lemma gs0_body n s h b1 b2 : n <= 2147483648 -> b1 + b2 <= 1000000000 ->
  body_ok n s h b1 b2 (b1 + b2) (bfly0_red s h).
Proof. intros Hn Hc. exact (gs_bfly0_fine n h s b1 b2 (b1 + b2) Hn ltac:(lia)). Qed.
Lemma gs_body n s h w b1 b2 : n <= 2147483648 -> -6144 <= w <= 6144 -> keep (b1 + b2) w <= 1000000000 ->
  body_ok n s h b1 b2 (keep (b1 + b2) w) (gs_bfly_red w s h).
Proof. intros Hn Hw Hc. exact (gs_bfly_fine n h s w b1 b2 (keep (b1 + b2) w) Hn Hw ltac:(lia)). Qed.

Lemma within_le b b' v : within b v -> b <= b' -> within b' v.
Proof. unfold within. lia. Qed.

Lemma posA_mods t j c : 0 < t -> 0 <= j < t ->
  posA t j c mod (2 * t) = j /\ (posA t j c + t) mod (2 * t) = j + t /\ posA t j c mod t = j /\ (posA t j c + t) mod t = j.
Proof.
  intros Ht Hj. unfold posA. split; [|split; [|split]].
  - rewrite Z.mod_add by lia. apply Z.mod_small. lia.
  - replace (j + c * (2 * t) + t) with (j + t + c * (2 * t)) by ring. rewrite Z.mod_add by lia. apply Z.mod_small. lia.
  - replace (j + c * (2 * t)) with (j + (2 * c) * t) by ring. rewrite Z.mod_add by lia. apply Z.mod_small. lia.
  - replace (j + c * (2 * t) + t) with (j + (2 * c + 1) * t) by ring. rewrite Z.mod_add by lia. apply Z.mod_small. lia.
Qed.
Lemma level_split k l : 0 <= l < k -> 0 < 2 ^ l /\ 0 < 2 ^ (k - 1 - l) /\ 2 ^ (k - 1 - l) * (2 * 2 ^ l) = 2 ^ k
  /\ 2 ^ (l + 1) = 2 * 2 ^ l /\ 2 ^ (k - l) = 2 * 2 ^ (k - 1 - l) /\ 2 ^ (k - (l + 1)) = 2 ^ (k - 1 - l).
Proof.
  intros Hl. split; [apply Z.pow_pos_nonneg; lia|]. split; [apply Z.pow_pos_nonneg; lia|].
  assert (E : 2 ^ (l + 1) = 2 * 2 ^ l) by (rewrite Z.add_1_r; apply Z.pow_succ_r; lia).
  split; [|split; [exact E|split]].
  - rewrite <- E, <- Z.pow_add_r by lia. f_equal. lia.
  - rewrite <- Z.pow_succ_r by lia. f_equal. lia.
  - f_equal. lia.
Qed.
Lemma posA_in k l j c : 0 <= l < k -> 0 <= j < 2 ^ l -> 0 <= c < 2 ^ (k - 1 - l) ->
  0 <= posA (2 ^ l) j c /\ posA (2 ^ l) j c + 2 ^ l < 2 ^ k.
Proof.
  intros Hl Hj Hc. destruct (level_split k l Hl) as (A & B & E & _). rewrite <- E. unfold posA.
  clear - A B Hj Hc. split; nia.
Qed.
Lemma posB_in k l j c : 0 <= l < k -> 0 <= j < 2 ^ l -> 0 <= c < 2 ^ (k - 1 - l) ->
  0 <= posB (2 ^ (k - 1 - l)) j c /\ posB (2 ^ (k - 1 - l)) j c + 2 ^ (k - 1 - l) < 2 ^ k.
Proof.
  intros Hl Hj Hc. destruct (level_split k l Hl) as (A & B & E & _). rewrite <- E. unfold posB.
  clear - A B Hj Hc. split; nia.
Qed.

(** ** The four shapes: [bd l j] bounds the values of offset or block [j] at level [l] *)
Section Shapes.
Variables (k : Z) (bd : Z -> Z -> Z).

Definition PA (l i v : Z) : Prop := within (bd l (i mod 2 ^ l)) v.
Definition PB (l i v : Z) : Prop := within (bd l (i / 2 ^ (k - l))) v.

Lemma A_up l j c b' body : 0 <= l < k -> 0 <= j < 2 ^ l -> 0 <= c < 2 ^ (k - 1 - l) ->
  b' <= bd (l + 1) j -> b' <= bd (l + 1) (j + 2 ^ l) ->
  body_ok (2 ^ k) (posA (2 ^ l) j c) (2 ^ l) (bd l j) (bd l j) b' body ->
  bspec (2 ^ k) (2 ^ l) (PA l) (PA (l + 1)) (posA (2 ^ l) j c) body.
Proof.
  intros Hl Hj Hc B1 B2 H a HL H1 H2. destruct (level_split k l Hl) as (Ht & _ & _ & E1 & _).
  destruct (posA_in k l j c Hl Hj Hc) as (I1 & I2). destruct (posA_mods (2 ^ l) j c Ht Hj) as (M1 & M2 & M3 & M4).
  unfold PA in *. rewrite M3 in H1. rewrite M4 in H2. rewrite E1, M1, M2.
  destruct (H a HL I1 Ht I2 H1 H2) as (x & y & E & X & Y). exists x, y. split; [exact E|].
  split; [exact (within_le _ _ _ X B1)|exact (within_le _ _ _ Y B2)].
Qed.
Lemma A_down l j c b' body : 0 <= l < k -> 0 <= j < 2 ^ l -> 0 <= c < 2 ^ (k - 1 - l) -> b' <= bd l j ->
  body_ok (2 ^ k) (posA (2 ^ l) j c) (2 ^ l) (bd (l + 1) j) (bd (l + 1) (j + 2 ^ l)) b' body ->
  bspec (2 ^ k) (2 ^ l) (PA (l + 1)) (PA l) (posA (2 ^ l) j c) body.
Proof.
  intros Hl Hj Hc B1 H a HL H1 H2. destruct (level_split k l Hl) as (Ht & _ & _ & E1 & _).
  destruct (posA_in k l j c Hl Hj Hc) as (I1 & I2). destruct (posA_mods (2 ^ l) j c Ht Hj) as (M1 & M2 & M3 & M4).
  unfold PA in *. rewrite E1, M1 in H1. rewrite E1, M2 in H2. rewrite M3, M4.
  destruct (H a HL I1 Ht I2 H1 H2) as (x & y & E & X & Y). exists x, y. split; [exact E|].
  split; [exact (within_le _ _ _ X B1)|exact (within_le _ _ _ Y B1)].
Qed.
Lemma B_up l j c b' body : 0 <= l < k -> 0 <= j < 2 ^ l -> 0 <= c < 2 ^ (k - 1 - l) ->
  b' <= bd (l + 1) (2 * j) -> b' <= bd (l + 1) (2 * j + 1) ->
  body_ok (2 ^ k) (posB (2 ^ (k - 1 - l)) j c) (2 ^ (k - 1 - l)) (bd l j) (bd l j) b' body ->
  bspec (2 ^ k) (2 ^ (k - 1 - l)) (PB l) (PB (l + 1)) (posB (2 ^ (k - 1 - l)) j c) body.
Proof.
  intros Hl Hj Hc B1 B2 H a HL H1 H2. destruct (level_split k l Hl) as (_ & Hd & _ & _ & E1 & E2).
  destruct (posB_in k l j c Hl Hj Hc) as (I1 & I2). destruct (pos_block (2 ^ (k - 1 - l)) j c Hd Hc) as (M1 & M2 & M3 & M4).
  unfold PB in *. rewrite E1, M1 in H1. rewrite E1, M2 in H2. rewrite E2, M3, M4.
  destruct (H a HL I1 Hd I2 H1 H2) as (x & y & E & X & Y). exists x, y. split; [exact E|].
  split; [exact (within_le _ _ _ X B1)|exact (within_le _ _ _ Y B2)].
Qed.
Lemma B_down l j c b' body : 0 <= l < k -> 0 <= j < 2 ^ l -> 0 <= c < 2 ^ (k - 1 - l) -> b' <= bd l j ->
  body_ok (2 ^ k) (posB (2 ^ (k - 1 - l)) j c) (2 ^ (k - 1 - l)) (bd (l + 1) (2 * j)) (bd (l + 1) (2 * j + 1)) b' body ->
  bspec (2 ^ k) (2 ^ (k - 1 - l)) (PB (l + 1)) (PB l) (posB (2 ^ (k - 1 - l)) j c) body.
Proof.
  intros Hl Hj Hc B1 H a HL H1 H2. destruct (level_split k l Hl) as (_ & Hd & _ & _ & E1 & E2).
  destruct (posB_in k l j c Hl Hj Hc) as (I1 & I2). destruct (pos_block (2 ^ (k - 1 - l)) j c Hd Hc) as (M1 & M2 & M3 & M4).
  unfold PB in *. rewrite E2, M3 in H1. rewrite E2, M4 in H2. rewrite E1, M1, M2.
  destruct (H a HL I1 Hd I2 H1 H2) as (x & y & E & X & Y). exists x, y. split; [exact E|].
  split; [exact (within_le _ _ _ X B1)|exact (within_le _ _ _ Y B1)].
Qed.
End Shapes.

(** ** The transforms, for bounds that satisfy the inequalities *)
Section Transforms.
Variables (k : Z) (bd : Z -> Z -> Z) (p a : list Z) (M C : Z).
Hypothesis Hk : 0 <= k <= 31.
Hypothesis Lp : zlen p = 2 ^ k.
Hypothesis Ip : forall i, 1 <= i < 2 ^ k -> -6144 <= at_ p i <= 6144.
Hypothesis La : zlen a = 2 ^ k.
Hypothesis Ia : forall i, 0 <= i < 2 ^ k -> Z.abs (at_ a i) <= M.
Hypothesis bd_small : forall l j, 0 <= l <= k -> 0 <= j < 2 ^ l -> 0 <= bd l j <= C.
Hypothesis HC : C <= 1000000000.

Lemma n_small : 2 ^ k <= 2147483648.
Proof. change 2147483648 with (2 ^ 31). apply Z.pow_le_mono_r; lia. Qed.
Lemma entry_ok l j : 0 <= l < k -> 0 <= j < 2 ^ l -> -6144 <= at_ p (2 ^ l + j) <= 6144.
Proof.
  intros Hl Hj. apply Ip. destruct (level_split k l Hl) as (A & B & E & _). rewrite <- E. clear - A B Hj. nia.
Qed.
Lemma bd_next l j : 0 <= l < k -> 0 <= j < 2 * 2 ^ l -> 0 <= bd (l + 1) j <= C.
Proof. intros Hl Hj. apply bd_small; [lia|]. destruct (level_split k l Hl) as (_ & _ & _ & E & _). lia. Qed.

Definition unit_rows : Prop := forall l, 0 <= l < k -> at_ p (2 ^ l) = -4096.
Definition done (r : res (list Z)) : Prop :=
  exists d, r = Ok d /\ zlen d = 2 ^ k /\ forall i, 0 <= i < 2 ^ k -> Z.abs (at_ d i) <= C.

(** Cooley-Tukey *)
Section Ct.
Hypothesis start : M <= bd 0 0.

Lemma up_start (P : Z -> Z -> Z -> Prop) : (forall i, 0 <= i < 2 ^ k -> within (bd 0 0) (at_ a i) -> P 0 i (at_ a i)) ->
  zlen a = 2 ^ k /\ forall i, 0 <= i < 2 ^ k -> P 0 i (at_ a i).
Proof. intros H. split; [exact La|]. intros i Hi. apply H; [exact Hi|]. specialize (Ia i Hi). unfold within. lia. Qed.

Section A.
Hypothesis step : forall l j, 0 <= l < k -> 0 <= j < 2 ^ l ->
  grow (bd l j) (at_ p (2 ^ l + j)) <= bd (l + 1) j /\ grow (bd l j) (at_ p (2 ^ l + j)) <= bd (l + 1) (j + 2 ^ l).

Lemma ctA_end d : zlen d = 2 ^ k /\ (forall i, 0 <= i < 2 ^ k -> PA bd k i (at_ d i)) -> done (Ok d).
Proof.
  intros [L H]. exists d. split; [reflexivity|]. split; [exact L|]. intros i Hi. specialize (H i Hi).
  unfold PA, within in H. rewrite Z.mod_small in H by exact Hi. assert (X := bd_small k i ltac:(lia) Hi). lia.
Qed.
Lemma ctA_start : zlen a = 2 ^ k /\ forall i, 0 <= i < 2 ^ k -> PA bd 0 i (at_ a i).
Proof. apply up_start. intros i Hi H. unfold PA. change (2 ^ 0) with 1. rewrite Z.mod_1_r. exact H. Qed.
Lemma ctA_body l j c : 0 <= l < k -> 0 <= j < 2 ^ l -> 0 <= c < 2 ^ (k - 1 - l) ->
  bspec (2 ^ k) (2 ^ l) (PA bd l) (PA bd (l + 1)) (posA (2 ^ l) j c)
    (ct_bfly_red (at_ p (2 ^ l + j)) (posA (2 ^ l) j c) (2 ^ l)).
Proof.
  intros Hl Hj Hc. destruct (step l j Hl Hj) as (S1 & S2). assert (X := bd_next l j Hl ltac:(lia)).
  eapply (A_up k bd); [exact Hl|exact Hj|exact Hc|exact S1|exact S2|].
  apply ct_body; [exact n_small|exact (entry_ok l j Hl Hj)|apply bd_small; lia|lia].
Qed.
Lemma ctA_body0 l c : unit_rows -> 0 <= l < k -> 0 <= c < 2 ^ (k - 1 - l) ->
  bspec (2 ^ k) (2 ^ l) (PA bd l) (PA bd (l + 1)) (posA (2 ^ l) 0 c) (bfly0_red (posA (2 ^ l) 0 c) (2 ^ l)).
Proof.
  intros U Hl Hc. assert (J : 0 <= 0 < 2 ^ l) by (split; [lia|apply Z.pow_pos_nonneg; lia]).
  destruct (step l 0 Hl J) as (S1 & S2). rewrite Z.add_0_r, U in S1, S2 by exact Hl.
  unfold grow in S1, S2. rewrite Z.eqb_refl in S1, S2. assert (X := bd_next l 0 Hl ltac:(lia)).
  eapply (A_up k bd); [exact Hl|exact J|exact Hc|exact S1|exact S2|].
  apply ct0_body; [exact n_small|apply bd_small; [lia|exact J]|lia].
Qed.
Lemma ct_r2s_fine : unit_rows -> done (ntt_red_ct_rev2std a (2 ^ k) p).
Proof.
  intros U. destruct (nest_A_up_plain k (2 ^ k) (PA bd) Hk eq_refl bfly0_red ct_bfly_red p a Lp) as (d & E & HP).
  - intros l c Hl Hc. apply ctA_body0; assumption.
  - intros l j c Hl Hj Hc. apply ctA_body; [exact Hl|lia|exact Hc].
  - exact ctA_start.
  - replace (ntt_red_ct_rev2std a (2 ^ k) p) with (Ok d : res (list Z)) by (symmetry; exact E). exact (ctA_end d HP).
Qed.
Lemma mulct_r2s_fine : done (mulntt_red_ct_rev2std a (2 ^ k) p).
Proof.
  destruct (nest_A_up_mul k (2 ^ k) (PA bd) Hk eq_refl bfly0_red ct_bfly_red p a Lp) as (d & E & HP).
  - intros l j c Hl Hj Hc. apply ctA_body; assumption.
  - exact ctA_start.
  - replace (mulntt_red_ct_rev2std a (2 ^ k) p) with (Ok d : res (list Z)) by (symmetry; exact E). exact (ctA_end d HP).
Qed.
End A.

Section B.
Hypothesis step : forall l j, 0 <= l < k -> 0 <= j < 2 ^ l ->
  grow (bd l j) (at_ p (2 ^ l + j)) <= bd (l + 1) (2 * j) /\ grow (bd l j) (at_ p (2 ^ l + j)) <= bd (l + 1) (2 * j + 1).

Lemma ctB_end d : zlen d = 2 ^ k /\ (forall i, 0 <= i < 2 ^ k -> PB k bd k i (at_ d i)) -> done (Ok d).
Proof.
  intros [L H]. exists d. split; [reflexivity|]. split; [exact L|]. intros i Hi. specialize (H i Hi).
  unfold PB, within in H. rewrite Z.sub_diag in H. change (2 ^ 0) with 1 in H. rewrite Z.div_1_r in H.
  assert (X := bd_small k i ltac:(lia) Hi). lia.
Qed.
Lemma ctB_start : zlen a = 2 ^ k /\ forall i, 0 <= i < 2 ^ k -> PB k bd 0 i (at_ a i).
Proof. apply up_start. intros i Hi H. unfold PB. rewrite Z.sub_0_r, Z.div_small by exact Hi. exact H. Qed.
Lemma ctB_body l j c : 0 <= l < k -> 0 <= j < 2 ^ l -> 0 <= c < 2 ^ (k - 1 - l) ->
  bspec (2 ^ k) (2 ^ (k - 1 - l)) (PB k bd l) (PB k bd (l + 1)) (posB (2 ^ (k - 1 - l)) j c)
    (ct_bfly_red (at_ p (2 ^ l + j)) (posB (2 ^ (k - 1 - l)) j c) (2 ^ (k - 1 - l))).
Proof.
  intros Hl Hj Hc. destruct (step l j Hl Hj) as (S1 & S2). assert (X := bd_next l (2 * j) Hl ltac:(lia)).
  eapply (B_up k bd); [exact Hl|exact Hj|exact Hc|exact S1|exact S2|].
  apply ct_body; [exact n_small|exact (entry_ok l j Hl Hj)|apply bd_small; lia|lia].
Qed.
Lemma ctB_body0 l c : unit_rows -> 0 <= l < k -> 0 <= c < 2 ^ (k - 1 - l) ->
  bspec (2 ^ k) (2 ^ (k - 1 - l)) (PB k bd l) (PB k bd (l + 1)) (posB (2 ^ (k - 1 - l)) 0 c)
    (bfly0_red (posB (2 ^ (k - 1 - l)) 0 c) (2 ^ (k - 1 - l))).
Proof.
  intros U Hl Hc. assert (J : 0 <= 0 < 2 ^ l) by (split; [lia|apply Z.pow_pos_nonneg; lia]).
  destruct (step l 0 Hl J) as (S1 & S2). rewrite Z.add_0_r, U in S1 by exact Hl. rewrite Z.add_0_r, U in S2 by exact Hl.
  unfold grow in S1, S2. rewrite Z.eqb_refl in S1, S2. assert (X := bd_next l (2 * 0) Hl ltac:(lia)).
  eapply (B_up k bd); [exact Hl|exact J|exact Hc|exact S1|exact S2|].
  apply ct0_body; [exact n_small|apply bd_small; [lia|exact J]|lia].
Qed.
Lemma ct_s2r_fine : unit_rows -> done (ntt_red_ct_std2rev a (2 ^ k) p).
Proof.
  intros U. destruct (nest_B_up_plain k (2 ^ k) (PB k bd) Hk eq_refl bfly0_red ct_bfly_red p a Lp) as (d & E & HP).
  - intros l c Hl Hc. apply ctB_body0; assumption.
  - intros l j c Hl Hj Hc. apply ctB_body; [exact Hl|lia|exact Hc].
  - exact ctB_start.
  - replace (ntt_red_ct_std2rev a (2 ^ k) p) with (Ok d : res (list Z)) by (symmetry; exact E). exact (ctB_end d HP).
Qed.
Lemma mulct_s2r_fine : done (mulntt_red_ct_std2rev a (2 ^ k) p).
Proof.
  destruct (nest_B_up_mul k (2 ^ k) (PB k bd) Hk eq_refl bfly0_red ct_bfly_red p a Lp) as (d & E & HP).
  - intros l j c Hl Hj Hc. apply ctB_body; assumption.
  - exact ctB_start.
  - replace (mulntt_red_ct_std2rev a (2 ^ k) p) with (Ok d : res (list Z)) by (symmetry; exact E). exact (ctB_end d HP).
Qed.
End B.
End Ct.

(** Gentleman-Sande *)
Section Gs.
Hypothesis start : forall j, 0 <= j < 2 ^ k -> M <= bd k j.

Section A.
Hypothesis step : forall l j, 0 <= l < k -> 0 <= j < 2 ^ l ->
  keep (bd (l + 1) j + bd (l + 1) (j + 2 ^ l)) (at_ p (2 ^ l + j)) <= bd l j.

Lemma gsA_end d : zlen d = 2 ^ k /\ (forall i, 0 <= i < 2 ^ k -> PA bd 0 i (at_ d i)) -> done (Ok d).
Proof.
  intros [L H]. exists d. split; [reflexivity|]. split; [exact L|]. intros i Hi. specialize (H i Hi).
  unfold PA, within in H. change (2 ^ 0) with 1 in H. rewrite Z.mod_1_r in H.
  assert (X := bd_small 0 0 ltac:(lia) ltac:(change (2 ^ 0) with 1; lia)). lia.
Qed.
Lemma gsA_start : zlen a = 2 ^ k /\ forall i, 0 <= i < 2 ^ k -> PA bd k i (at_ a i).
Proof.
  split; [exact La|]. intros i Hi. unfold PA, within. rewrite Z.mod_small by exact Hi.
  specialize (Ia i Hi). specialize (start i Hi). lia.
Qed.
Lemma gsA_body l j c : 0 <= l < k -> 0 <= j < 2 ^ l -> 0 <= c < 2 ^ (k - 1 - l) ->
  bspec (2 ^ k) (2 ^ l) (PA bd (l + 1)) (PA bd l) (posA (2 ^ l) j c)
    (gs_bfly_red (at_ p (2 ^ l + j)) (posA (2 ^ l) j c) (2 ^ l)).
Proof.
  intros Hl Hj Hc. assert (S1 := step l j Hl Hj). assert (X := bd_small l j ltac:(lia) Hj).
  eapply (A_down k bd); [exact Hl|exact Hj|exact Hc|exact S1|].
  apply gs_body; [exact n_small|exact (entry_ok l j Hl Hj)|lia].
Qed.
Lemma gsA_body0 l c : 0 <= l < k -> 0 <= c < 2 ^ (k - 1 - l) ->
  bspec (2 ^ k) (2 ^ l) (PA bd (l + 1)) (PA bd l) (posA (2 ^ l) 0 c) (bfly0_red (posA (2 ^ l) 0 c) (2 ^ l)).
Proof.
  intros Hl Hc. assert (J : 0 <= 0 < 2 ^ l) by (split; [lia|apply Z.pow_pos_nonneg; lia]).
  assert (S1 := step l 0 Hl J). assert (X := bd_small l 0 ltac:(lia) J). unfold keep in S1.
  eapply (A_down k bd); [exact Hl|exact J|exact Hc| |apply gs0_body; [exact n_small|]]; lia.
Qed.
Lemma gs_s2r_fine : done (ntt_red_gs_std2rev a (2 ^ k) p).
Proof.
  destruct (nest_A_down_plain k (2 ^ k) (PA bd) Hk eq_refl bfly0_red gs_bfly_red p a Lp) as (d & E & HP).
  - intros l c Hl Hc. apply gsA_body0; assumption.
  - intros l j c Hl Hj Hc. apply gsA_body; [exact Hl|lia|exact Hc].
  - exact gsA_start.
  - replace (ntt_red_gs_std2rev a (2 ^ k) p) with (Ok d : res (list Z)) by (symmetry; exact E). exact (gsA_end d HP).
Qed.
Lemma mulgs_s2r_fine : done (nttmul_red_gs_std2rev a (2 ^ k) p).
Proof.
  destruct (nest_A_down_mul k (2 ^ k) (PA bd) Hk eq_refl bfly0_red gs_bfly_red p a Lp) as (d & E & HP).
  - intros l j c Hl Hj Hc. apply gsA_body; assumption.
  - exact gsA_start.
  - replace (nttmul_red_gs_std2rev a (2 ^ k) p) with (Ok d : res (list Z)) by (symmetry; exact E). exact (gsA_end d HP).
Qed.
End A.

Section B.
Hypothesis step : forall l j, 0 <= l < k -> 0 <= j < 2 ^ l ->
  keep (bd (l + 1) (2 * j) + bd (l + 1) (2 * j + 1)) (at_ p (2 ^ l + j)) <= bd l j.

Lemma gsB_end d : zlen d = 2 ^ k /\ (forall i, 0 <= i < 2 ^ k -> PB k bd 0 i (at_ d i)) -> done (Ok d).
Proof.
  intros [L H]. exists d. split; [reflexivity|]. split; [exact L|]. intros i Hi. specialize (H i Hi).
  unfold PB, within in H. rewrite Z.sub_0_r, Z.div_small in H by exact Hi.
  assert (X := bd_small 0 0 ltac:(lia) ltac:(change (2 ^ 0) with 1; lia)). lia.
Qed.
Lemma gsB_start : zlen a = 2 ^ k /\ forall i, 0 <= i < 2 ^ k -> PB k bd k i (at_ a i).
Proof.
  split; [exact La|]. intros i Hi. unfold PB, within. rewrite Z.sub_diag. change (2 ^ 0) with 1. rewrite Z.div_1_r.
  specialize (Ia i Hi). specialize (start i Hi). lia.
Qed.
Lemma gsB_body l j c : 0 <= l < k -> 0 <= j < 2 ^ l -> 0 <= c < 2 ^ (k - 1 - l) ->
  bspec (2 ^ k) (2 ^ (k - 1 - l)) (PB k bd (l + 1)) (PB k bd l) (posB (2 ^ (k - 1 - l)) j c)
    (gs_bfly_red (at_ p (2 ^ l + j)) (posB (2 ^ (k - 1 - l)) j c) (2 ^ (k - 1 - l))).
Proof.
  intros Hl Hj Hc. assert (S1 := step l j Hl Hj). assert (X := bd_small l j ltac:(lia) Hj).
  eapply (B_down k bd); [exact Hl|exact Hj|exact Hc|exact S1|].
  apply gs_body; [exact n_small|exact (entry_ok l j Hl Hj)|lia].
Qed.
Lemma gsB_body0 l c : 0 <= l < k -> 0 <= c < 2 ^ (k - 1 - l) ->
  bspec (2 ^ k) (2 ^ (k - 1 - l)) (PB k bd (l + 1)) (PB k bd l) (posB (2 ^ (k - 1 - l)) 0 c)
    (bfly0_red (posB (2 ^ (k - 1 - l)) 0 c) (2 ^ (k - 1 - l))).
Proof.
  intros Hl Hc. assert (J : 0 <= 0 < 2 ^ l) by (split; [lia|apply Z.pow_pos_nonneg; lia]).
  assert (S1 := step l 0 Hl J). assert (X := bd_small l 0 ltac:(lia) J). unfold keep in S1.
  eapply (B_down k bd); [exact Hl|exact J|exact Hc| |apply gs0_body; [exact n_small|]]; lia.
Qed.
Lemma gs_r2s_fine : done (ntt_red_gs_rev2std a (2 ^ k) p).
Proof.
  destruct (nest_B_down_plain k (2 ^ k) (PB k bd) Hk eq_refl bfly0_red gs_bfly_red p a Lp) as (d & E & HP).
  - intros l c Hl Hc. apply gsB_body0; assumption.
  - intros l j c Hl Hj Hc. apply gsB_body; [exact Hl|lia|exact Hc].
  - exact gsB_start.
  - replace (ntt_red_gs_rev2std a (2 ^ k) p) with (Ok d : res (list Z)) by (symmetry; exact E). exact (gsB_end d HP).
Qed.
Lemma mulgs_r2s_fine : done (nttmul_red_gs_rev2std a (2 ^ k) p).
Proof.
  destruct (nest_B_down_mul k (2 ^ k) (PB k bd) Hk eq_refl bfly0_red gs_bfly_red p a Lp) as (d & E & HP).
  - intros l j c Hl Hj Hc. apply gsB_body; assumption.
  - exact gsB_start.
  - replace (nttmul_red_gs_rev2std a (2 ^ k) p) with (Ok d : res (list Z)) by (symmetry; exact E). exact (gsB_end d HP).
Qed.
End B.
End Gs.
End Transforms.
