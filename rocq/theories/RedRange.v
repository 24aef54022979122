(** Concrete bounds for the rounds of the transforms of src/ntt_red.c, and the
    absence of overflow for arbitrary tables. *)

From Coq Require Import ZArith List Bool Lia Setoid Morphisms.
From Verif Require Import CSem Spec Loops ModQ Stages OuterLoops Tower TransformGen Forms ModelRed
  RedElem RedBfly.
Import ListNotations.
Open Scope Z_scope.

(** ** Bounds after [m] rounds *)

Fixpoint ctb (b : Z) (m : nat) : Z :=
  match m with
  | O => b
  | S m' => let c := ctb b m' in c + mr_hi c
  end.

Definition gs_next (r : Z * Z) : Z * Z :=
  let '(lo, hi) := r in
  (Z.min (Z.min (2 * lo) (lo - hi)) (mr_lo (hi - lo)),
   Z.max (Z.max (2 * hi) (hi - lo)) (mr_hi (hi - lo))).
Fixpoint gsb (r : Z * Z) (m : nat) : Z * Z :=
  match m with
  | O => r
  | S m' => gs_next (gsb r m')
  end.

(** Last round of the plain Gentleman-Sande transforms: no multiplication. *)
Definition gs_last (r : Z * Z) : Z * Z :=
  let '(lo, hi) := r in (Z.min (2 * lo) (lo - hi), Z.max (2 * hi) (hi - lo)).

Definition ct_check (b : Z) (m : nat) : bool :=
  (0 <=? ctb b m) && (6144 * ctb b m <=? 8796042698752) && (ctb b (S m) <=? 2147483647).
Definition gs_check (r : Z * Z) (m : nat) : bool :=
  let '(lo, hi) := gsb r m in
  let '(lo', hi') := gsb r (S m) in
  (-2147483648 <=? lo') && (hi' <=? 2147483647) && (6144 * (hi - lo) <=? 8796042698752).
Definition gs_check_last (r : Z * Z) (m : nat) : bool :=
  let '(lo', hi') := gs_last (gsb r m) in
  (-2147483648 <=? lo') && (hi' <=? 2147483647).

(** Levels. *)
Definition ct_hi (b l : Z) : Z := ctb b (Z.to_nat l).
Definition ct_lo (b l : Z) : Z := - ctb b (Z.to_nat l).
Definition gs_lo (r : Z * Z) (k l : Z) : Z := fst (gsb r (Z.to_nat (k - l))).
Definition gs_hi (r : Z * Z) (k l : Z) : Z := snd (gsb r (Z.to_nat (k - l))).
Definition gsp_lo (r : Z * Z) (k l : Z) : Z :=
  if l <=? 0 then fst (gs_last (gsb r (Z.to_nat (k - 1)))) else gs_lo r k l.
Definition gsp_hi (r : Z * Z) (k l : Z) : Z :=
  if l <=? 0 then snd (gs_last (gsb r (Z.to_nat (k - 1)))) else gs_hi r k l.

Lemma check_seq (f : nat -> bool) (K : nat) :
  forallb f (seq 0 K) = true -> forall m, (m < K)%nat -> f m = true.
Proof.
  intros H m Hm. rewrite forallb_forall in H. apply H. apply in_seq. lia.
Qed.

Lemma ct_grow_ok b K l :
  forallb (ct_check b) (seq 0 K) = true -> 0 <= l < Z.of_nat K ->
  ct_grow (ct_lo b) (ct_hi b) l.
Proof.
  intros H Hl. apply check_seq with (m := Z.to_nat l) in H; [|lia].
  unfold ct_check in H. unfold ct_grow, ct_lo, ct_hi.
  replace (Z.to_nat (l + 1)) with (S (Z.to_nat l)) by lia.
  exists (ctb b (Z.to_nat l)). cbn [ctb] in *. lia.
Qed.

Lemma gs_grow_ok r K k l :
  forallb (gs_check r) (seq 0 K) = true -> k <= Z.of_nat K -> 0 <= l < k ->
  gs_grow (gs_lo r k) (gs_hi r k) l.
Proof.
  intros H Hk Hl. apply check_seq with (m := Z.to_nat (k - (l + 1))) in H; [|lia].
  unfold gs_check in H. unfold gs_grow, gs_lo, gs_hi, gs_step.
  replace (Z.to_nat (k - l)) with (S (Z.to_nat (k - (l + 1)))) by lia.
  cbn [gsb] in *. destruct (gsb r (Z.to_nat (k - (l + 1)))) as [lo hi].
  cbn [gs_next fst snd] in *. lia.
Qed.

Lemma gs_grow0_ok r K k l :
  forallb (gs_check r) (seq 0 K) = true -> k <= Z.of_nat K -> 0 <= l < k ->
  gs_grow0 (gs_lo r k) (gs_hi r k) l.
Proof.
  intros H Hk Hl. apply check_seq with (m := Z.to_nat (k - (l + 1))) in H; [|lia].
  unfold gs_check in H. unfold gs_grow0, gs_lo, gs_hi, gs_step0.
  replace (Z.to_nat (k - l)) with (S (Z.to_nat (k - (l + 1)))) by lia.
  cbn [gsb] in *. destruct (gsb r (Z.to_nat (k - (l + 1)))) as [lo hi].
  cbn [gs_next fst snd] in *. lia.
Qed.

(** Plain variants: [K] rounds with multiplications and one without. *)
Lemma gsp_grow_ok r K k l :
  forallb (gs_check r) (seq 0 K) = true -> k <= Z.of_nat K + 1 -> 1 <= l < k ->
  gs_grow (gsp_lo r k) (gsp_hi r k) l.
Proof.
  intros H Hk Hl.
  assert (G : gs_grow (gs_lo r (k - 1)) (gs_hi r (k - 1)) (l - 1))
    by (eapply gs_grow_ok; eauto; lia).
  unfold gs_grow, gsp_lo, gsp_hi, gs_lo, gs_hi in *.
  replace (l <=? 0) with false by lia. replace (l + 1 <=? 0) with false by lia.
  replace (k - 1 - (l - 1)) with (k - l) in G by lia.
  replace (k - 1 - (l - 1 + 1)) with (k - (l + 1)) in G by lia. exact G.
Qed.

Lemma gsp_grow0_ok r K k l :
  forallb (gs_check r) (seq 0 K) = true ->
  forallb (gs_check_last r) (seq 0 (S K)) = true ->
  k <= Z.of_nat K + 1 -> 0 <= l < k ->
  gs_grow0 (gsp_lo r k) (gsp_hi r k) l.
Proof.
  intros H HL Hk Hl. destruct (Z.eq_dec l 0) as [->|Hne].
  - unfold gs_grow0, gsp_lo, gsp_hi, gs_lo, gs_hi, gs_step0. cbn [Z.leb Z.compare Z.add].
    apply check_seq with (m := Z.to_nat (k - 1)) in HL; [|lia]. unfold gs_check_last in HL.
    replace (0 + 1 <=? 0) with false by lia. replace (k - (0 + 1)) with (k - 1) by lia.
    destruct (gsb r (Z.to_nat (k - 1))) as [lo hi]. cbn [gs_last fst snd] in *. lia.
  - assert (G : gs_grow0 (gs_lo r (k - 1)) (gs_hi r (k - 1)) (l - 1))
      by (eapply gs_grow0_ok; eauto; lia).
    unfold gs_grow0, gsp_lo, gsp_hi, gs_lo, gs_hi in *.
    replace (l <=? 0) with false by lia. replace (l + 1 <=? 0) with false by lia.
    replace (k - 1 - (l - 1)) with (k - l) in G by lia.
    replace (k - 1 - (l - 1 + 1)) with (k - (l + 1)) in G by lia. exact G.
Qed.

(** ** No overflow, whatever the table *)

Lemma pow_three k l : 0 <= l < k -> 2 ^ k = 2 * 2 ^ l * 2 ^ (k - 1 - l).
Proof.
  intros. replace k with (1 + l + (k - 1 - l)) at 1 by lia.
  rewrite !Z.pow_add_r by lia. reflexivity.
Qed.

Section Safe.
Variables (k : Z) (lo hi : Z -> Z) (a p : list Z).
Hypothesis Hk : 0 <= k <= 31.
Hypothesis HL : zlen a = 2 ^ k.
Hypothesis Hlp : zlen p = 2 ^ k.
Hypothesis Hp : forall i, 1 <= i < 2 ^ k -> -6144 <= at_ p i <= 6144.

Let Hn : 2 ^ k <= 2147483648.
Proof. apply pow31. exact Hk. Qed.

Let PA l j c : 0 <= l < k -> 0 <= j < 2 ^ l -> 0 <= c < 2 ^ (k - 1 - l) ->
  0 <= posA (2 ^ l) j c /\ 0 < 2 ^ l /\ posA (2 ^ l) j c + 2 ^ l < 2 ^ k.
Proof.
  intros Hl Hj Hc. assert (Hs : 2 ^ k = 2 * 2 ^ l * 2 ^ (k - 1 - l)) by (apply pow_three; lia).
  assert (0 < 2 ^ l) by (apply pow2_pos; lia). unfold posA.
  assert (2 * 2 ^ l * c <= 2 * 2 ^ l * (2 ^ (k - 1 - l) - 1)) by (apply Z.mul_le_mono_nonneg_l; lia).
  nia.
Qed.

Let PB l j c : 0 <= l < k -> 0 <= j < 2 ^ l -> 0 <= c < 2 ^ (k - 1 - l) ->
  0 <= posB (2 ^ (k - 1 - l)) j c /\ 0 < 2 ^ (k - 1 - l)
  /\ posB (2 ^ (k - 1 - l)) j c + 2 ^ (k - 1 - l) < 2 ^ k.
Proof.
  intros Hl Hj Hc. assert (Hs : 2 ^ k = 2 * 2 ^ l * 2 ^ (k - 1 - l)) by (apply pow_three; lia).
  assert (0 < 2 ^ (k - 1 - l)) by (apply pow2_pos; lia). unfold posB.
  assert (2 ^ (k - 1 - l) * j <= 2 ^ (k - 1 - l) * (2 ^ l - 1)) by (apply Z.mul_le_mono_nonneg_l; lia).
  nia.
Qed.

Let P l (_ v : Z) := rng lo hi l v.

Ltac conclude :=
  match goal with H : At _ _ _ _ |- _ => destruct H as [? ?] end; eauto.

Section CT.
Hypothesis Hg : forall l, 0 <= l < k -> ct_grow lo hi l.
Hypothesis Ha : forall i, 0 <= i < 2 ^ k -> rng lo hi 0 (at_ a i).

Let b0A l c : 0 <= l < k -> 0 <= c < 2 ^ (k - 1 - l) ->
  bspec (2 ^ k) (2 ^ l) (P l) (P (l + 1)) (posA (2 ^ l) 0 c) (bfly0_red (posA (2 ^ l) 0 c) (2 ^ l)).
Proof.
  intros Hl Hc. destruct (PA l 0 c) as (H1 & H2 & H3); auto; [split; [lia|apply pow2_pos; lia]|].
  eapply ct_pair_bounds; auto. apply bfly0_red_ct; auto.
Qed.

Let bA l j c : 0 <= l < k -> 0 <= j < 2 ^ l -> 0 <= c < 2 ^ (k - 1 - l) ->
  bspec (2 ^ k) (2 ^ l) (P l) (P (l + 1)) (posA (2 ^ l) j c)
        (ct_bfly_red (at_ p (2 ^ l + j)) (posA (2 ^ l) j c) (2 ^ l)).
Proof.
  intros Hl Hj Hc. destruct (PA l j c) as (H1 & H2 & H3); auto.
  eapply ct_pair_bounds; auto. eapply ct_bfly_red_ct; auto; [|reflexivity].
  apply Hp. apply entry_range; lia.
Qed.

Let b0B l c : 0 <= l < k -> 0 <= c < 2 ^ (k - 1 - l) ->
  bspec (2 ^ k) (2 ^ (k - 1 - l)) (P l) (P (l + 1)) (posB (2 ^ (k - 1 - l)) 0 c)
        (bfly0_red (posB (2 ^ (k - 1 - l)) 0 c) (2 ^ (k - 1 - l))).
Proof.
  intros Hl Hc. destruct (PB l 0 c) as (H1 & H2 & H3); auto; [split; [lia|apply pow2_pos; lia]|].
  eapply ct_pair_bounds; auto. apply bfly0_red_ct; auto.
Qed.

Let bB l j c : 0 <= l < k -> 0 <= j < 2 ^ l -> 0 <= c < 2 ^ (k - 1 - l) ->
  bspec (2 ^ k) (2 ^ (k - 1 - l)) (P l) (P (l + 1)) (posB (2 ^ (k - 1 - l)) j c)
        (ct_bfly_red (at_ p (2 ^ l + j)) (posB (2 ^ (k - 1 - l)) j c) (2 ^ (k - 1 - l))).
Proof.
  intros Hl Hj Hc. destruct (PB l j c) as (H1 & H2 & H3); auto.
  eapply ct_pair_bounds; auto. eapply ct_bfly_red_ct; auto; [|reflexivity].
  apply Hp. apply entry_range; lia.
Qed.

Definition safe_result (m : res (list Z)) (l : Z) : Prop :=
  exists r, m = Ok r /\ zlen r = 2 ^ k /\ forall i, 0 <= i < 2 ^ k -> rng lo hi l (at_ r i).

Lemma safe_ct_rev2std : safe_result (ntt_red_ct_rev2std a (2 ^ k) p) k.
Proof.
  destruct (nest_A_up_plain k (2 ^ k) P Hk eq_refl bfly0_red ct_bfly_red p a) as (r & E & HA);
    auto; [intros; apply bA; lia | split; auto|]. destruct HA. exists r; auto.
Qed.

Lemma safe_mul_ct_rev2std : safe_result (mulntt_red_ct_rev2std a (2 ^ k) p) k.
Proof.
  destruct (nest_A_up_mul k (2 ^ k) P Hk eq_refl bfly0_red ct_bfly_red p a) as (r & E & HA);
    auto; [split; auto|]. destruct HA. exists r; auto.
Qed.

Lemma safe_ct_std2rev : safe_result (ntt_red_ct_std2rev a (2 ^ k) p) k.
Proof.
  destruct (nest_B_up_plain k (2 ^ k) P Hk eq_refl bfly0_red ct_bfly_red p a) as (r & E & HA);
    auto; [intros; apply bB; lia | split; auto|]. destruct HA. exists r; auto.
Qed.

Lemma safe_mul_ct_std2rev : safe_result (mulntt_red_ct_std2rev a (2 ^ k) p) k.
Proof.
  destruct (nest_B_up_mul k (2 ^ k) P Hk eq_refl bfly0_red ct_bfly_red p a) as (r & E & HA);
    auto; [split; auto|]. destruct HA. exists r; auto.
Qed.
End CT.

Section GS.
Hypothesis Ha : forall i, 0 <= i < 2 ^ k -> rng lo hi k (at_ a i).

Let b0A l c : (forall l, 0 <= l < k -> gs_grow0 lo hi l) ->
  0 <= l < k -> 0 <= c < 2 ^ (k - 1 - l) ->
  bspec (2 ^ k) (2 ^ l) (P (l + 1)) (P l) (posA (2 ^ l) 0 c) (bfly0_red (posA (2 ^ l) 0 c) (2 ^ l)).
Proof.
  intros Hg Hl Hc. destruct (PA l 0 c) as (H1 & H2 & H3); auto; [split; [lia|apply pow2_pos; lia]|].
  eapply gs_pair_bounds; auto. apply bfly0_red_gs; auto.
Qed.

Let b0B l c : (forall l, 0 <= l < k -> gs_grow0 lo hi l) ->
  0 <= l < k -> 0 <= c < 2 ^ (k - 1 - l) ->
  bspec (2 ^ k) (2 ^ (k - 1 - l)) (P (l + 1)) (P l) (posB (2 ^ (k - 1 - l)) 0 c)
        (bfly0_red (posB (2 ^ (k - 1 - l)) 0 c) (2 ^ (k - 1 - l))).
Proof.
  intros Hg Hl Hc. destruct (PB l 0 c) as (H1 & H2 & H3); auto; [split; [lia|apply pow2_pos; lia]|].
  eapply gs_pair_bounds; auto. apply bfly0_red_gs; auto.
Qed.

Let bA l j c : gs_grow lo hi l ->
  0 <= l < k -> 0 <= j < 2 ^ l -> 0 <= c < 2 ^ (k - 1 - l) ->
  bspec (2 ^ k) (2 ^ l) (P (l + 1)) (P l) (posA (2 ^ l) j c)
        (gs_bfly_red (at_ p (2 ^ l + j)) (posA (2 ^ l) j c) (2 ^ l)).
Proof.
  intros Hg Hl Hj Hc. destruct (PA l j c) as (H1 & H2 & H3); auto.
  eapply gs_pair_bounds; auto. eapply gs_bfly_red_gs; auto; [|reflexivity].
  apply Hp. apply entry_range; lia.
Qed.

Let bB l j c : gs_grow lo hi l ->
  0 <= l < k -> 0 <= j < 2 ^ l -> 0 <= c < 2 ^ (k - 1 - l) ->
  bspec (2 ^ k) (2 ^ (k - 1 - l)) (P (l + 1)) (P l) (posB (2 ^ (k - 1 - l)) j c)
        (gs_bfly_red (at_ p (2 ^ l + j)) (posB (2 ^ (k - 1 - l)) j c) (2 ^ (k - 1 - l))).
Proof.
  intros Hg Hl Hj Hc. destruct (PB l j c) as (H1 & H2 & H3); auto.
  eapply gs_pair_bounds; auto. eapply gs_bfly_red_gs; auto; [|reflexivity].
  apply Hp. apply entry_range; lia.
Qed.

Let l_pos l j : 0 <= l -> 0 < j < 2 ^ l -> 1 <= l.
Proof. intros Hl Hj. destruct (Z.eq_dec l 0) as [->|]; [cbn in Hj; lia|lia]. Qed.

Lemma safe_gs_rev2std :
  (forall l, 0 <= l < k -> gs_grow0 lo hi l) -> (forall l, 1 <= l < k -> gs_grow lo hi l) ->
  safe_result (ntt_red_gs_rev2std a (2 ^ k) p) 0.
Proof.
  intros Hg0 Hg.
  destruct (nest_B_down_plain k (2 ^ k) P Hk eq_refl bfly0_red gs_bfly_red p a) as (r & E & HA);
    auto; [|split; auto|].
  - intros l j c Hl Hj Hc. assert (1 <= l) by (eapply l_pos; eauto; lia).
    apply bB; try lia. apply Hg; lia.
  - destruct HA. exists r; auto.
Qed.

Lemma safe_gs_std2rev :
  (forall l, 0 <= l < k -> gs_grow0 lo hi l) -> (forall l, 1 <= l < k -> gs_grow lo hi l) ->
  safe_result (ntt_red_gs_std2rev a (2 ^ k) p) 0.
Proof.
  intros Hg0 Hg.
  destruct (nest_A_down_plain k (2 ^ k) P Hk eq_refl bfly0_red gs_bfly_red p a) as (r & E & HA);
    auto; [|split; auto|].
  - intros l j c Hl Hj Hc. assert (1 <= l) by (eapply l_pos; eauto; lia).
    apply bA; try lia. apply Hg; lia.
  - destruct HA. exists r; auto.
Qed.

Lemma safe_mul_gs_rev2std :
  (forall l, 0 <= l < k -> gs_grow lo hi l) ->
  safe_result (nttmul_red_gs_rev2std a (2 ^ k) p) 0.
Proof.
  intros Hg.
  destruct (nest_B_down_mul k (2 ^ k) P Hk eq_refl bfly0_red gs_bfly_red p a) as (r & E & HA);
    auto; [split; auto|]. destruct HA. exists r; auto.
Qed.

Lemma safe_mul_gs_std2rev :
  (forall l, 0 <= l < k -> gs_grow lo hi l) ->
  safe_result (nttmul_red_gs_std2rev a (2 ^ k) p) 0.
Proof.
  intros Hg.
  destruct (nest_A_down_mul k (2 ^ k) P Hk eq_refl bfly0_red gs_bfly_red p a) as (r & E & HA);
    auto; [split; auto|]. destruct HA. exists r; auto.
Qed.
End GS.
End Safe.

(** ** The documented input range, -21499 .. 21499 *)

Lemma ct_doc : forallb (ct_check 21499) (seq 0 12) = true.
Proof. vm_compute. reflexivity. Qed.
Lemma gs_doc : forallb (gs_check (-21499, 21499)) (seq 0 10) = true.
Proof. vm_compute. reflexivity. Qed.
Lemma gs_doc9 : forallb (gs_check (-21499, 21499)) (seq 0 9) = true.
Proof. vm_compute. reflexivity. Qed.
Lemma gs_doc_last : forallb (gs_check_last (-21499, 21499)) (seq 0 10) = true.
Proof. vm_compute. reflexivity. Qed.

Lemma all_in_rng lo hi lo' hi' l n a : zlen a = n -> all_in lo hi a ->
  lo' l <= lo -> hi <= hi' l -> forall i, 0 <= i < n -> rng lo' hi' l (at_ a i).
Proof.
  intros HL HA H1 H2 i Hi. apply all_in_at with (i := i) in HA; [|lia]. unfold rng. lia.
Qed.

(** A transform that returns normally, and the range of its result. *)
Definition ok_range (m : res (list Z)) (n lo hi : Z) : Prop :=
  exists r, m = Ok r /\ zlen r = n /\ all_in lo hi r.

Lemma safe_ok k lo hi l m B1 B2 : 0 <= k -> safe_result k lo hi m l ->
  B1 <= lo l -> hi l <= B2 -> ok_range m (2 ^ k) B1 B2.
Proof.
  intros Hk (r & E & HL & H) H1 H2. exists r. split; [exact E|]. split; [exact HL|].
  apply all_in_of. intros i Hi. specialize (H i ltac:(lia)). unfold rng in H. lia.
Qed.
