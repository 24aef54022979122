(** One round of butterflies, for the runs that return: the rules of IntervalLoops.v for
    arrays of integers. *)

From Coq Require Import ZArith List Bool Lia.
From Verif Require Import CSem Spec Loops Stages IntervalLoops.
Import ListNotations.
Open Scope Z_scope.

(** ** One round *)

(** What a pair of statements does, if it returns. *)
Definition zbspec (n h : Z) (P P' : Z -> Z -> Prop)
           (s : Z) (body : list Z -> res (list Z)) : Prop :=
  forall a, zlen a = n -> P s (at_ a s) -> P (s + h) (at_ a (s + h)) ->
    pc (body a) (fun r => exists x y, r = aset (aset a (s + h) y) s x /\ P' s x /\ P' (s + h) y).

Section Stage.

Variables (n h J C : Z) (pos : Z -> Z -> Z) (P P' : Z -> Z -> Prop).
Hypothesis Hh : 0 < h.
Hypothesis HC : 0 <= C.
Hypothesis pos_range : forall j c, 0 <= j < J -> 0 <= c < C ->
  0 <= pos j c /\ pos j c + h < n.
Hypothesis pos_inj : forall j c e j' c' e',
  0 <= j < J -> 0 <= c < C -> 0 <= e <= 1 ->
  0 <= j' < J -> 0 <= c' < C -> 0 <= e' <= 1 ->
  pos j c + e * h = pos j' c' + e' * h -> j = j' /\ c = c' /\ e = e'.
Hypothesis pos_surj : forall i, 0 <= i < n ->
  exists j c e, 0 <= j < J /\ 0 <= c < C /\ 0 <= e <= 1 /\ i = pos j c + e * h.

Definition ZInv (j : Z) (a : list Z) : Prop :=
  zlen a = n /\
  forall j' c e, 0 <= j' < J -> 0 <= c < C -> 0 <= e <= 1 ->
    (if j' <? j then P' else P) (pos j' c + e * h) (at_ a (pos j' c + e * h)).

Lemma ZInv_start a : zlen a = n -> (forall i, 0 <= i < n -> P i (at_ a i)) -> ZInv 0 a.
Proof.
  intros HL HP. split; [assumption|]. intros j' c e Hj Hc He.
  destruct (Z.ltb_spec j' 0); [lia|].
  apply HP. destruct (pos_range j' c Hj Hc). nia.
Qed.

Lemma ZInv_end a : ZInv J a -> zlen a = n /\ forall i, 0 <= i < n -> P' i (at_ a i).
Proof.
  intros [HL H]. split; [assumption|]. intros i Hi.
  destruct (pos_surj i Hi) as (j & c & e & Hj & Hc & He & ->).
  specialize (H j c e Hj Hc He). destruct (Z.ltb_spec j J); [assumption|lia].
Qed.

Lemma z_inner_loop j (body : Z -> list Z -> res (list Z)) cond next f i0 a :
  0 <= j < J ->
  (forall c, 0 <= c < C -> zbspec n h P P' (pos j c) (body (pos j c))) ->
  (forall c, 0 <= c < C -> cond (pos j c) = true) ->
  cond (pos j C) = false ->
  (forall c, 0 <= c < C -> next (pos j c) = pos j (c + 1)) ->
  i0 = pos j 0 ->
  ZInv j a ->
  pc (cfor f i0 cond next body a) (ZInv (j + 1)).
Proof.
  intros Hj Hb Hc1 Hc2 Hnx Hi0 HI.
  apply pc_weak with (R := fun b => zlen b = n /\
     forall j' c' e, 0 <= j' < J -> 0 <= c' < C -> 0 <= e <= 1 ->
      (if (j' <? j) || ((j' =? j) && (c' <? C)) then P' else P)
        (pos j' c' + e * h) (at_ b (pos j' c' + e * h))).
  2:{ intros r (HL & HR). split; [assumption|].
    intros j' c' e Hj' Hc' He. specialize (HR j' c' e Hj' Hc' He).
    replace (c' <? C) with true in HR by lia. rewrite andb_true_r in HR.
    replace (j' <? j + 1) with ((j' <? j) || (j' =? j))%bool; [assumption|].
    destruct (Z.ltb_spec j' j), (Z.eqb_spec j' j), (Z.ltb_spec j' (j+1)); try lia; reflexivity. }
  apply (cfor_pc (fun c b => zlen b = n /\
     forall j' c' e, 0 <= j' < J -> 0 <= c' < C -> 0 <= e <= 1 ->
      (if (j' <? j) || ((j' =? j) && (c' <? c)) then P' else P)
        (pos j' c' + e * h) (at_ b (pos j' c' + e * h)))
     C (pos j) cond next body); try assumption.
  - intros c b Hc [HL H].
    assert (H0 := H j c 0 Hj Hc ltac:(lia)).
    assert (H1 := H j c 1 Hj Hc ltac:(lia)).
    rewrite Z.ltb_irrefl, Z.eqb_refl, Z.ltb_irrefl in H0, H1. cbn [orb andb] in H0, H1.
    replace (pos j c + 0 * h) with (pos j c) in H0 by lia.
    replace (pos j c + 1 * h) with (pos j c + h) in H1 by lia.
    intros r Er.
    destruct (Hb c Hc b HL H0 H1 r Er) as (x & y & Hxy & Hx & Hy). subst r.
    destruct (pos_range j c Hj Hc) as [Hp1 Hp2].
    split; [now rewrite !aset_len|].
    intros j' c' e Hj' Hc' He.
    destruct (pos_range j' c' Hj' Hc') as [Hp1' Hp2'].
    assert (Hee : 0 <= e * h <= h) by nia.
    destruct (Z.eq_dec (pos j' c' + e * h) (pos j c)) as [Heq|Hne].
    + destruct (pos_inj j' c' e j c 0) as (-> & -> & ->); try lia.
      rewrite Z.ltb_irrefl, Z.eqb_refl. replace (c <? c + 1) with true by lia.
      cbn [orb andb].
      replace (pos j c + 0 * h) with (pos j c) by lia.
      rewrite at_aset_same by (rewrite aset_len; lia). assumption.
    + rewrite at_aset_other by (rewrite ?aset_len; lia).
      destruct (Z.eq_dec (pos j' c' + e * h) (pos j c + h)) as [Heq2|Hne2].
      * destruct (pos_inj j' c' e j c 1) as (-> & -> & ->); try lia.
        rewrite Z.ltb_irrefl, Z.eqb_refl. replace (c <? c + 1) with true by lia.
        cbn [orb andb].
        replace (pos j c + 1 * h) with (pos j c + h) by lia.
        rewrite at_aset_same by lia. assumption.
      * rewrite at_aset_other by lia.
        specialize (H j' c' e Hj' Hc' He).
        assert (E : ((j' <? j) || ((j' =? j) && (c' <? c + 1)))%bool
                    = ((j' <? j) || ((j' =? j) && (c' <? c)))%bool).
        { destruct (Z.eqb_spec j' j) as [->|]; [|reflexivity].
          rewrite Z.ltb_irrefl. cbn [orb andb].
          destruct (Z.ltb_spec c' c), (Z.ltb_spec c' (c + 1)); try lia.
          exfalso. assert (c' = c) by lia. subst c'.
          assert (e = 0 \/ e = 1) as [-> | ->] by lia; lia. }
        rewrite E. assumption.
  - destruct HI as [HL H]. split; [assumption|].
    intros j' c' e Hj' Hc' He. specialize (H j' c' e Hj' Hc' He).
    replace (c' <? 0) with false by lia. rewrite andb_false_r, orb_false_r. assumption.
Qed.

End Stage.

(** ** Shape A *)

Section ShapeA.
Variables (n t m : Z) (P P' : Z -> Z -> Prop).
Hypothesis Ht : 0 < t.
Hypothesis Hm : 0 < m.
Hypothesis Hn : n = 2 * t * m.
Hypothesis Hn31 : n <= 2147483648.
Variable p : list Z.

Let X := fun _ _ : Z => True.
Let InvA := ZInv n t t m (posA t) P P'.

Let rng j c : 0 <= j < t -> 0 <= c < m -> 0 <= posA t j c /\ posA t j c + t < n.
Proof. exact (posA_range n t m X X Ht Hm Hn Hn31 j c). Qed.
Let inj j c e j' c' e' :
  0 <= j < t -> 0 <= c < m -> 0 <= e <= 1 ->
  0 <= j' < t -> 0 <= c' < m -> 0 <= e' <= 1 ->
  posA t j c + e * t = posA t j' c' + e' * t -> j = j' /\ c = c' /\ e = e'.
Proof. exact (posA_inj t m X X j c e j' c' e'). Qed.
Let surj i : 0 <= i < n ->
  exists j c e, 0 <= j < t /\ 0 <= c < m /\ 0 <= e <= 1 /\ i = posA t j c + e * t.
Proof. exact (posA_surj n t m X X Ht Hm Hn Hn31 i). Qed.

Lemma z_innerA j (body : Z -> list Z -> res (list Z)) f a :
  0 <= j < t ->
  (forall c, 0 <= c < m -> zbspec n t P P' (posA t j c) (body (posA t j c))) ->
  InvA j a ->
  pc (cfor f j (fun s => s <? n) (fun s => u32 (s + u32 (t + t))) body a) (InvA (j + 1)).
Proof.
  intros Hj Hb HI.
  apply (z_inner_loop n t t m (posA t) P P'); auto; try lia.
  - intros c Hc. assert (H := rng j c Hj Hc). lia.
  - unfold posA. assert (n <= j + m * (2 * t)) by nia. lia.
  - intros c Hc. assert (H := rng j c Hj Hc). unfold posA in *.
    assert (t <= n) by nia.
    rewrite (u32_small (t + t)) by lia. rewrite u32_small by lia. lia.
  - unfold posA. lia.
Qed.

(** Round with a multiplication for every [j]; [w j] is what reading the constant
    gives. *)
Lemma z_stageA_mul (body : Z -> Z -> list Z -> res (list Z)) f1 f2 a :
  (forall j c w, 0 <= j < t -> 0 <= c < m -> rd p (t + j) = Ok w ->
     zbspec n t P P' (posA t j c) (body w (posA t j c))) ->
  zlen a = n -> (forall i, 0 <= i < n -> P i (at_ a i)) ->
  pc (cfor f1 0 (fun j => j <? t) (fun j => u32 (j + 1)) (fun j a =>
      do w <- rd p (u32 (t + j));
      cfor f2 j (fun s => s <? n) (fun s => u32 (s + u32 (t + t)))
        (fun s a => body w s a) a) a)
    (fun a' => zlen a' = n /\ (forall i, 0 <= i < n -> P' i (at_ a' i))).
Proof.
  intros Hb HL HP. assert (Htn : 2 * t <= n) by nia.
  apply pc_weak with (R := InvA t).
  2:{ intros r HI. apply (ZInv_end n t t m (posA t) P P'); auto; lia. }
  apply (cfor_pc InvA t (fun c => c)); try lia.
  - intros. apply u32_small. lia.
  - intros j b Hj HI. rewrite u32_small by lia.
    intros r E. destruct (rd p (t + j)) as [w|] eqn:Ew; [|discriminate]. cbn [bind] in E.
    refine (z_innerA j (fun s a => body w s a) f2 b Hj _ HI r E). intros. apply Hb; assumption.
  - apply ZInv_start; auto; lia.
Qed.

(** Round whose [j = 0] column has no multiplication. *)
Lemma z_stageA_plain (body0 : Z -> list Z -> res (list Z))
      (body : Z -> Z -> list Z -> res (list Z)) f0 f1 f2 a :
  (forall c, 0 <= c < m -> zbspec n t P P' (posA t 0 c) (body0 (posA t 0 c))) ->
  (forall j c w, 0 < j < t -> 0 <= c < m -> rd p (t + j) = Ok w ->
     zbspec n t P P' (posA t j c) (body w (posA t j c))) ->
  zlen a = n -> (forall i, 0 <= i < n -> P i (at_ a i)) ->
  pc (do a <- cfor f0 0 (fun s => s <? n) (fun s => u32 (s + u32 (t + t)))
              (fun s a => body0 s a) a;
     cfor f1 1 (fun j => j <? t) (fun j => u32 (j + 1)) (fun j a =>
      do w <- rd p (u32 (t + j));
      cfor f2 j (fun s => s <? n) (fun s => u32 (s + u32 (t + t)))
        (fun s a => body w s a) a) a)
    (fun a' => zlen a' = n /\ (forall i, 0 <= i < n -> P' i (at_ a' i))).
Proof.
  intros Hb0 Hb HL HP. assert (Htn : 2 * t <= n) by nia.
  apply pc_bind with (T := InvA 1).
  { apply (z_innerA 0 (fun s a => body0 s a)); auto; try lia. apply ZInv_start; auto; lia. }
  intros a1 HI1.
  apply pc_weak with (R := InvA (t - 1 + 1)).
  2:{ intros r HI. replace (t - 1 + 1) with t in HI by lia.
      apply (ZInv_end n t t m (posA t) P P'); auto; lia. }
  apply (cfor_pc (fun c => InvA (c + 1)) (t - 1) (fun c => c + 1)); try lia; auto.
  - intros. apply u32_small. lia.
  - intros j b Hj HI. rewrite u32_small by lia.
    intros r E. destruct (rd p (t + (j + 1))) as [w|] eqn:Ew; [|discriminate]. cbn [bind] in E.
    refine (z_innerA (j + 1) (fun s a => body w s a) f2 b _ _ HI r E); [lia|].
    intros. apply Hb; try assumption; lia.
Qed.

End ShapeA.

(** ** Shape B *)

Section ShapeB.
Variables (n t d : Z) (P P' : Z -> Z -> Prop).
Hypothesis Ht : 0 < t.
Hypothesis Hd : 0 < d.
Hypothesis Hn : n = 2 * t * d.
Hypothesis Hn31 : n <= 2147483648.
Variable p : list Z.

Let X := fun _ _ : Z => True.
Let InvB := ZInv n d t d (posB d) P P'.

Let rng j c : 0 <= j < t -> 0 <= c < d -> 0 <= posB d j c /\ posB d j c + d < n.
Proof. exact (posB_range n t d X X Ht Hd Hn Hn31 j c). Qed.
Let inj j c e j' c' e' :
  0 <= j < t -> 0 <= c < d -> 0 <= e <= 1 ->
  0 <= j' < t -> 0 <= c' < d -> 0 <= e' <= 1 ->
  posB d j c + e * d = posB d j' c' + e' * d -> j = j' /\ c = c' /\ e = e'.
Proof. exact (posB_inj t d X X j c e j' c' e'). Qed.
Let surj i : 0 <= i < n ->
  exists j c e, 0 <= j < t /\ 0 <= c < d /\ 0 <= e <= 1 /\ i = posB d j c + e * d.
Proof. exact (posB_surj n t d X X Hd Hn Hn31 i). Qed.

Lemma z_innerB j u lim (body : Z -> list Z -> res (list Z)) f a :
  0 <= j < t -> u = 2 * d * j -> lim = u + d ->
  (forall c, 0 <= c < d -> zbspec n d P P' (posB d j c) (body (posB d j c))) ->
  InvB j a ->
  pc (cfor f u (fun s => s <? lim) (fun s => u32 (s + 1)) body a) (InvB (j + 1)).
Proof.
  intros Hj Hu Hlim Hb HI.
  apply (z_inner_loop n d t d (posB d) P P'); auto; try lia.
  - unfold posB. intros. lia.
  - unfold posB. lia.
  - unfold posB. intros. rewrite u32_small by nia. lia.
  - unfold posB. lia.
Qed.

(** [u] updated after the inner loop, all columns multiplied. *)
Lemma z_stageB_mul (body : Z -> Z -> list Z -> res (list Z)) f1 f2 a :
  (forall j c w, 0 <= j < t -> 0 <= c < d -> rd p (t + j) = Ok w ->
     zbspec n d P P' (posB d j c) (body w (posB d j c))) ->
  zlen a = n -> (forall i, 0 <= i < n -> P i (at_ a i)) ->
  pc (cfor f1 0 (fun j => j <? t) (fun j => u32 (j + 1)) (fun j '(u, a) =>
      do w <- rd p (u32 (t + j));
      do a <- cfor f2 u (fun s => s <? u32 (u + d)) (fun s => u32 (s + 1))
                (fun s a => body w s a) a;
      Ok (u32 (u + u32 (2 * d)), a)) (0, a))
    (fun '(_, a') => zlen a' = n /\ (forall i, 0 <= i < n -> P' i (at_ a' i))).
Proof.
  intros Hb HL HP. assert (Htn : 2 * t <= n) by nia.
  apply pc_weak with (R := fun '(u, a) => u = 2 * d * t /\ InvB t a).
  2:{ intros [u r] [_ HI]. apply (ZInv_end n d t d (posB d) P P'); auto; lia. }
  apply (cfor_pc (fun j '(u, a) => u = 2 * d * j /\ InvB j a) t (fun c => c)); try lia.
  - intros. apply u32_small. lia.
  - intros j [u b] Hj [Hu HI]. rewrite (u32_small (t + j)) by nia.
    assert (2 * d * j + 2 * d <= n) by nia.
    intros r E. destruct (rd p (t + j)) as [w|] eqn:Ew; [|discriminate]. cbn [bind] in E.
    revert r E. apply pc_bind with (T := InvB (j + 1)).
    + apply z_innerB; auto. rewrite u32_small; lia.
    + intros b' HI'. apply pc_ok. split; [|assumption].
      rewrite (u32_small (2 * d)) by lia. rewrite u32_small by lia. lia.
  - split; [lia|]. apply ZInv_start; auto; lia.
Qed.

(** First column without multiplication; [u] updated after the inner loop. *)
Lemma z_stageB_plain_gs (body0 : Z -> list Z -> res (list Z))
      (body : Z -> Z -> list Z -> res (list Z)) f0 f1 f2 a :
  (forall c, 0 <= c < d -> zbspec n d P P' (posB d 0 c) (body0 (posB d 0 c))) ->
  (forall j c w, 0 < j < t -> 0 <= c < d -> rd p (t + j) = Ok w ->
     zbspec n d P P' (posB d j c) (body w (posB d j c))) ->
  zlen a = n -> (forall i, 0 <= i < n -> P i (at_ a i)) ->
  pc (do a <- cfor f0 0 (fun s => s <? d) (fun s => u32 (s + 1))
              (fun s a => body0 s a) a;
     cfor f1 1 (fun j => j <? t) (fun j => u32 (j + 1)) (fun j '(u, a) =>
      do w <- rd p (u32 (t + j));
      do a <- cfor f2 u (fun s => s <? u32 (u + d)) (fun s => u32 (s + 1))
                (fun s a => body w s a) a;
      Ok (u32 (u + u32 (2 * d)), a)) (u32 (2 * d), a))
    (fun '(_, a') => zlen a' = n /\ (forall i, 0 <= i < n -> P' i (at_ a' i))).
Proof.
  intros Hb0 Hb HL HP. assert (Htn : 2 * t <= n) by nia.
  apply pc_bind with (T := InvB 1).
  { apply (z_innerB 0 0 d (fun s a => body0 s a)); auto; try lia. apply ZInv_start; auto; lia. }
  intros a1 HI1.
  apply pc_weak with (R := fun '(u, a) => u = 2 * d * (t - 1 + 1) /\ InvB (t - 1 + 1) a).
  2:{ intros [u r] [_ HI]. replace (t - 1 + 1) with t in HI by lia.
      apply (ZInv_end n d t d (posB d) P P'); auto; lia. }
  apply (cfor_pc (fun c '(u, a) => u = 2 * d * (c + 1) /\ InvB (c + 1) a) (t - 1) (fun c => c + 1));
    try lia.
  - intros. apply u32_small. lia.
  - intros j [u b] Hj [Hu HI]. rewrite (u32_small (t + (j + 1))) by nia.
    assert (2 * d * (j + 1) + 2 * d <= n) by nia.
    intros r E. destruct (rd p (t + (j + 1))) as [w|] eqn:Ew; [|discriminate]. cbn [bind] in E.
    revert r E. apply pc_bind with (T := InvB (j + 1 + 1)).
    + apply z_innerB; auto; try lia; [rewrite u32_small; lia|]. intros. apply Hb; try assumption; lia.
    + intros b' HI'. apply pc_ok. split; [|assumption].
      rewrite (u32_small (2 * d)) by lia. rewrite u32_small by lia. lia.
  - split; [rewrite u32_small; nia|]. exact HI1.
Qed.

(** First column without multiplication; [u] updated before the inner loop. *)
Lemma z_stageB_plain_ct (body0 : Z -> list Z -> res (list Z))
      (body : Z -> Z -> list Z -> res (list Z)) f0 f1 f2 a :
  (forall c, 0 <= c < d -> zbspec n d P P' (posB d 0 c) (body0 (posB d 0 c))) ->
  (forall j c w, 0 < j < t -> 0 <= c < d -> rd p (t + j) = Ok w ->
     zbspec n d P P' (posB d j c) (body w (posB d j c))) ->
  zlen a = n -> (forall i, 0 <= i < n -> P i (at_ a i)) ->
  pc (do a <- cfor f0 0 (fun s => s <? d) (fun s => u32 (s + 1))
              (fun s a => body0 s a) a;
     cfor f1 1 (fun j => j <? t) (fun j => u32 (j + 1)) (fun j '(u, a) =>
      do w <- rd p (u32 (t + j));
      let u := u32 (u + u32 (2 * d)) in
      do a <- cfor f2 u (fun s => s <? u32 (u + d)) (fun s => u32 (s + 1))
                (fun s a => body w s a) a;
      Ok (u, a)) (0, a))
    (fun '(_, a') => zlen a' = n /\ (forall i, 0 <= i < n -> P' i (at_ a' i))).
Proof.
  intros Hb0 Hb HL HP. assert (Htn : 2 * t <= n) by nia.
  apply pc_bind with (T := InvB 1).
  { apply (z_innerB 0 0 d (fun s a => body0 s a)); auto; try lia. apply ZInv_start; auto; lia. }
  intros a1 HI1.
  apply pc_weak with (R := fun '(u, a) => u = 2 * d * (t - 1) /\ InvB (t - 1 + 1) a).
  2:{ intros [u r] [_ HI]. replace (t - 1 + 1) with t in HI by lia.
      apply (ZInv_end n d t d (posB d) P P'); auto; lia. }
  apply (cfor_pc (fun c '(u, a) => u = 2 * d * c /\ InvB (c + 1) a) (t - 1) (fun c => c + 1));
    try lia.
  - intros. apply u32_small. lia.
  - intros j [u b] Hj [Hu HI]. rewrite (u32_small (t + (j + 1))) by nia.
    assert (2 * d * (j + 1) + 2 * d <= n) by nia.
    assert (Hu' : u32 (u + u32 (2 * d)) = 2 * d * (j + 1)).
    { rewrite (u32_small (2 * d)) by lia. rewrite u32_small by lia. lia. }
    rewrite Hu'. cbv zeta.
    intros r E. destruct (rd p (t + (j + 1))) as [w|] eqn:Ew; [|discriminate]. cbn [bind] in E.
    revert r E. apply pc_bind with (T := InvB (j + 1 + 1)).
    + apply z_innerB; auto; try lia; [rewrite u32_small; lia|]. intros. apply Hb; try assumption; lia.
    + intros b' HI'. apply pc_ok. split; [reflexivity|assumption].
  - split; [lia|]. exact HI1.
Qed.

End ShapeB.
