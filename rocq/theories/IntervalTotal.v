(** The loops of the abstract transforms finish: rules that also establish that there is a
    result.  Same shapes as in IntervalLoops.v. *)

From Coq Require Import ZArith List Bool Lia.
From Verif Require Import CSem Loops Stages OuterLoops ModelInterval IntervalElem IntervalLoops.
Import ListNotations.
Open Scope Z_scope.

(** The computation returns, and the result satisfies [R]. *)
Definition tc {A} (m : res A) (R : A -> Prop) : Prop := exists r, m = Ok r /\ R r.

Lemma tc_bind {A B} (m : res A) (f : A -> res B) R T :
  tc m T -> (forall x, T x -> tc (f x) R) -> tc (bind m f) R.
Proof. intros (x & -> & H1) H2. cbn [bind]. apply H2. exact H1. Qed.

Lemma tc_ok {A} (x : A) (R : A -> Prop) : R x -> tc (Ok x) R.
Proof. intros H. exists x. split; [reflexivity|exact H]. Qed.

Lemma tc_weak {A} (m : res A) (R T : A -> Prop) : tc m R -> (forall x, R x -> T x) -> tc m T.
Proof. intros (x & E & H1) H2. exists x. split; [exact E|auto]. Qed.

Lemma cfor_tc {S} (J : Z -> S -> Prop) (C : Z) (idx : Z -> Z)
      (cond : Z -> bool) (next : Z -> Z) (body : Z -> S -> res S) :
  0 <= C ->
  (forall c, 0 <= c < C -> cond (idx c) = true) ->
  cond (idx C) = false ->
  (forall c, 0 <= c < C -> next (idx c) = idx (c + 1)) ->
  (forall c st, 0 <= c < C -> J c st -> tc (body (idx c) st) (J (c + 1))) ->
  forall f i0 st, i0 = idx 0 -> (Z.to_nat C < f)%nat -> J 0 st -> tc (cfor f i0 cond next body st) (J C).
Proof. intros. apply (cfor_count J C idx); assumption. Qed.

(** ** One round *)

(** What a pair of statements does, if it returns. *)
Definition tbspec (n h : Z) (P P' : Z -> itv -> Prop)
           (s : Z) (body : list itv -> res (list itv)) : Prop :=
  forall a, ilen a = n -> P s (ati a s) -> P (s + h) (ati a (s + h)) ->
    tc (body a) (fun r => exists x y, r = iset (iset a (s + h) y) s x /\ P' s x /\ P' (s + h) y).

Section Stage.

Variables (n h J C : Z) (pos : Z -> Z -> Z) (P P' : Z -> itv -> Prop).
Hypothesis Hh : 0 < h.
Hypothesis HC : 0 <= C.
Hypothesis pos_range : forall j c, 0 <= j < J -> 0 <= c < C ->
  0 <= pos j c /\ pos j c + h < n.
Hypothesis pos_inj : forall j c e j' c' e',
  0 <= j < J -> 0 <= c < C -> 0 <= e <= 1 ->
  0 <= j' < J -> 0 <= c' < C -> 0 <= e' <= 1 ->
  pos j c + e * h = pos j' c' + e' * h -> j = j' /\ c = c' /\ e = e'.
Hypothesis pos_surj : forall i, 0 <= i < n ->
  exists j c e, 0 <= j < J /\ 0 <= c < C /\ 0 <= e <= 1 /\ i = pos j c + e * h.

Let IInv := IInv n h J C pos P P'.

Lemma t_inner_loop j (body : Z -> list itv -> res (list itv)) cond next f i0 a :
  0 <= j < J ->
  (forall c, 0 <= c < C -> tbspec n h P P' (pos j c) (body (pos j c))) ->
  (forall c, 0 <= c < C -> cond (pos j c) = true) ->
  cond (pos j C) = false ->
  (forall c, 0 <= c < C -> next (pos j c) = pos j (c + 1)) ->
  i0 = pos j 0 ->
  (Z.to_nat C < f)%nat ->
  IInv j a ->
  tc (cfor f i0 cond next body a) (IInv (j + 1)).
Proof.
  intros Hj Hb Hc1 Hc2 Hnx Hi0 Hf HI.
  apply tc_weak with (R := fun b => ilen b = n /\
     forall j' c' e, 0 <= j' < J -> 0 <= c' < C -> 0 <= e <= 1 ->
      (if (j' <? j) || ((j' =? j) && (c' <? C)) then P' else P)
        (pos j' c' + e * h) (ati b (pos j' c' + e * h))).
  2:{ intros r (HL & HR). split; [assumption|].
    intros j' c' e Hj' Hc' He. specialize (HR j' c' e Hj' Hc' He).
    replace (c' <? C) with true in HR by lia. rewrite andb_true_r in HR.
    replace (j' <? j + 1) with ((j' <? j) || (j' =? j))%bool; [assumption|].
    destruct (Z.ltb_spec j' j), (Z.eqb_spec j' j), (Z.ltb_spec j' (j+1)); try lia; reflexivity. }
  apply (cfor_tc (fun c b => ilen b = n /\
     forall j' c' e, 0 <= j' < J -> 0 <= c' < C -> 0 <= e <= 1 ->
      (if (j' <? j) || ((j' =? j) && (c' <? c)) then P' else P)
        (pos j' c' + e * h) (ati b (pos j' c' + e * h)))
     C (pos j) cond next body); try assumption.
  - intros c b Hc [HL H].
    assert (H0 := H j c 0 Hj Hc ltac:(lia)).
    assert (H1 := H j c 1 Hj Hc ltac:(lia)).
    rewrite Z.ltb_irrefl, Z.eqb_refl, Z.ltb_irrefl in H0, H1. cbn [orb andb] in H0, H1.
    replace (pos j c + 0 * h) with (pos j c) in H0 by lia.
    replace (pos j c + 1 * h) with (pos j c + h) in H1 by lia.
    destruct (Hb c Hc b HL H0 H1) as (r & Er & x & y & Hxy & Hx & Hy). subst r.
    eexists. split; [exact Er|].
    destruct (pos_range j c Hj Hc) as [Hp1 Hp2].
    split; [now rewrite !iset_len|].
    intros j' c' e Hj' Hc' He.
    destruct (pos_range j' c' Hj' Hc') as [Hp1' Hp2'].
    assert (Hee : 0 <= e * h <= h) by (clear - Hh He; nia).
    destruct (Z.eq_dec (pos j' c' + e * h) (pos j c)) as [Heq|Hne].
    + destruct (pos_inj j' c' e j c 0) as (-> & -> & ->); try lia.
      rewrite Z.ltb_irrefl, Z.eqb_refl. replace (c <? c + 1) with true by lia.
      cbn [orb andb].
      replace (pos j c + 0 * h) with (pos j c) by lia.
      rewrite ati_iset_same by (rewrite iset_len; lia). assumption.
    + rewrite ati_iset_other by (rewrite ?iset_len; lia).
      destruct (Z.eq_dec (pos j' c' + e * h) (pos j c + h)) as [Heq2|Hne2].
      * destruct (pos_inj j' c' e j c 1) as (-> & -> & ->); try lia.
        rewrite Z.ltb_irrefl, Z.eqb_refl. replace (c <? c + 1) with true by lia.
        cbn [orb andb].
        replace (pos j c + 1 * h) with (pos j c + h) by lia.
        rewrite ati_iset_same by lia. assumption.
      * rewrite ati_iset_other by lia.
        specialize (H j' c' e Hj' Hc' He).
        assert (E : ((j' <? j) || ((j' =? j) && (c' <? c + 1)))%bool
                    = ((j' <? j) || ((j' =? j) && (c' <? c)))%bool).
        { destruct (Z.eqb_spec j' j) as [->|]; [|reflexivity].
          rewrite Z.ltb_irrefl. cbn [orb andb].
          destruct (Z.ltb_spec c' c), (Z.ltb_spec c' (c + 1)); try lia.
          exfalso. assert (c' = c) by lia. subst c'.
          assert (e = 0 \/ e = 1) as [-> | ->] by lia; lia. }
        rewrite E. assumption.
  - destruct HI as [HL H]. split; [assumption|].
    intros j' c' e Hj' Hc' He. specialize (H j' c' e Hj' Hc' He).
    replace (c' <? 0) with false by lia. rewrite andb_false_r, orb_false_r. assumption.
Qed.

End Stage.

(** ** Shape A *)

Section ShapeA.
Variables (n t m : Z) (P P' : Z -> itv -> Prop).
Hypothesis Ht : 0 < t.
Hypothesis Hm : 0 < m.
Hypothesis Hn : n = 2 * t * m.
Hypothesis Hn31 : n <= 2147483648.
Context {W : Type} (rdw : Z -> res W).

Let X := fun _ _ : Z => True.
Let InvA := IInv n t t m (posA t) P P'.

Let rng j c : 0 <= j < t -> 0 <= c < m -> 0 <= posA t j c /\ posA t j c + t < n.
Proof. exact (posA_range n t m X X Ht Hm Hn Hn31 j c). Qed.
Let inj j c e j' c' e' :
  0 <= j < t -> 0 <= c < m -> 0 <= e <= 1 ->
  0 <= j' < t -> 0 <= c' < m -> 0 <= e' <= 1 ->
  posA t j c + e * t = posA t j' c' + e' * t -> j = j' /\ c = c' /\ e = e'.
Proof. exact (posA_inj t m X X j c e j' c' e'). Qed.
Let surj i : 0 <= i < n ->
  exists j c e, 0 <= j < t /\ 0 <= c < m /\ 0 <= e <= 1 /\ i = posA t j c + e * t.
Proof. exact (posA_surj n t m X X Ht Hm Hn Hn31 i). Qed.

Lemma t_innerA j (body : Z -> list itv -> res (list itv)) f a :
  0 <= j < t ->
  (forall c, 0 <= c < m -> tbspec n t P P' (posA t j c) (body (posA t j c))) ->
  (Z.to_nat m < f)%nat ->
  InvA j a ->
  tc (cfor f j (fun s => s <? n) (fun s => u32 (s + u32 (t + t))) body a) (InvA (j + 1)).
Proof.
  intros Hj Hb Hf HI.
  apply (t_inner_loop n t t m (posA t) P P'); auto; try lia.
  - intros c Hc. assert (H := rng j c Hj Hc). lia.
  - unfold posA. assert (n <= j + m * (2 * t)) by nia. lia.
  - intros c Hc. assert (H := rng j c Hj Hc). unfold posA in *.
    assert (t <= n) by nia.
    rewrite (u32_small (t + t)) by lia. rewrite u32_small by lia. lia.
  - unfold posA. lia.
Qed.

(** Round with a multiplication for every [j]; [w j] is what reading the constant
    gives. *)
Lemma t_stageA_mul (body : W -> Z -> list itv -> res (list itv)) f1 f2 a :
  (forall j, 0 <= j < t -> exists w, rdw (t + j) = Ok w /\ forall c, 0 <= c < m ->
     tbspec n t P P' (posA t j c) (body w (posA t j c))) ->
  (Z.to_nat t < f1)%nat -> (Z.to_nat m < f2)%nat ->
  ilen a = n -> (forall i, 0 <= i < n -> P i (ati a i)) ->
  tc (cfor f1 0 (fun j => j <? t) (fun j => u32 (j + 1)) (fun j a =>
      do w <- rdw (u32 (t + j));
      cfor f2 j (fun s => s <? n) (fun s => u32 (s + u32 (t + t)))
        (fun s a => body w s a) a) a)
    (fun a' => ilen a' = n /\ (forall i, 0 <= i < n -> P' i (ati a' i))).
Proof.
  intros Hb Hf1 Hf2 HL HP. assert (Htn : 2 * t <= n) by nia.
  apply tc_weak with (R := InvA t).
  2:{ intros r HI. apply (IInv_end n t t m (posA t) P P'); auto; lia. }
  apply (cfor_tc InvA t (fun c => c)); try lia.
  - intros. apply u32_small. lia.
  - intros j b Hj HI. rewrite u32_small by lia.
    destruct (Hb j Hj) as (w & Ew & Hw). rewrite Ew. cbn [bind].
    exact (t_innerA j (fun s a => body w s a) f2 b Hj Hw Hf2 HI).
  - apply IInv_start; auto; lia.
Qed.

(** Round whose [j = 0] column has no multiplication. *)
Lemma t_stageA_plain (body0 : Z -> list itv -> res (list itv))
      (body : W -> Z -> list itv -> res (list itv)) f0 f1 f2 a :
  (forall c, 0 <= c < m -> tbspec n t P P' (posA t 0 c) (body0 (posA t 0 c))) ->
  (forall j, 0 < j < t -> exists w, rdw (t + j) = Ok w /\ forall c, 0 <= c < m ->
     tbspec n t P P' (posA t j c) (body w (posA t j c))) ->
  (Z.to_nat m < f0)%nat ->  (Z.to_nat t < f1)%nat -> (Z.to_nat m < f2)%nat ->
  ilen a = n -> (forall i, 0 <= i < n -> P i (ati a i)) ->
  tc (do a <- cfor f0 0 (fun s => s <? n) (fun s => u32 (s + u32 (t + t)))
              (fun s a => body0 s a) a;
     cfor f1 1 (fun j => j <? t) (fun j => u32 (j + 1)) (fun j a =>
      do w <- rdw (u32 (t + j));
      cfor f2 j (fun s => s <? n) (fun s => u32 (s + u32 (t + t)))
        (fun s a => body w s a) a) a)
    (fun a' => ilen a' = n /\ (forall i, 0 <= i < n -> P' i (ati a' i))).
Proof.
  intros Hb0 Hb Hf0 Hf1 Hf2 HL HP. assert (Htn : 2 * t <= n) by nia.
  apply tc_bind with (T := InvA 1).
  { apply (t_innerA 0 (fun s a => body0 s a)); auto; try lia. apply IInv_start; auto; lia. }
  intros a1 HI1.
  apply tc_weak with (R := InvA (t - 1 + 1)).
  2:{ intros r HI. replace (t - 1 + 1) with t in HI by lia.
      apply (IInv_end n t t m (posA t) P P'); auto; lia. }
  apply (cfor_tc (fun c => InvA (c + 1)) (t - 1) (fun c => c + 1)); try lia; auto.
  - intros. apply u32_small. lia.
  - intros j b Hj HI. rewrite u32_small by lia.
    destruct (Hb (j + 1) ltac:(lia)) as (w & Ew & Hw). rewrite Ew. cbn [bind].
    exact (t_innerA (j + 1) (fun s a => body w s a) f2 b ltac:(lia) Hw Hf2 HI).
Qed.

End ShapeA.

(** ** Shape B *)

Section ShapeB.
Variables (n t d : Z) (P P' : Z -> itv -> Prop).
Hypothesis Ht : 0 < t.
Hypothesis Hd : 0 < d.
Hypothesis Hn : n = 2 * t * d.
Hypothesis Hn31 : n <= 2147483648.
Context {W : Type} (rdw : Z -> res W).

Let X := fun _ _ : Z => True.
Let InvB := IInv n d t d (posB d) P P'.

Let rng j c : 0 <= j < t -> 0 <= c < d -> 0 <= posB d j c /\ posB d j c + d < n.
Proof. exact (posB_range n t d X X Ht Hd Hn Hn31 j c). Qed.
Let inj j c e j' c' e' :
  0 <= j < t -> 0 <= c < d -> 0 <= e <= 1 ->
  0 <= j' < t -> 0 <= c' < d -> 0 <= e' <= 1 ->
  posB d j c + e * d = posB d j' c' + e' * d -> j = j' /\ c = c' /\ e = e'.
Proof. exact (posB_inj t d X X j c e j' c' e'). Qed.
Let surj i : 0 <= i < n ->
  exists j c e, 0 <= j < t /\ 0 <= c < d /\ 0 <= e <= 1 /\ i = posB d j c + e * d.
Proof. exact (posB_surj n t d X X Hd Hn Hn31 i). Qed.

Lemma t_innerB j u lim (body : Z -> list itv -> res (list itv)) f a :
  0 <= j < t -> u = 2 * d * j -> lim = u + d ->
  (forall c, 0 <= c < d -> tbspec n d P P' (posB d j c) (body (posB d j c))) ->
  (Z.to_nat d < f)%nat ->
  InvB j a ->
  tc (cfor f u (fun s => s <? lim) (fun s => u32 (s + 1)) body a) (InvB (j + 1)).
Proof.
  intros Hj Hu Hlim Hb Hf HI.
  apply (t_inner_loop n d t d (posB d) P P'); auto; try lia.
  - unfold posB. intros. lia.
  - unfold posB. lia.
  - unfold posB. intros. rewrite u32_small by nia. lia.
  - unfold posB. lia.
Qed.

(** [u] updated after the inner loop, all columns multiplied. *)
Lemma t_stageB_mul (body : W -> Z -> list itv -> res (list itv)) f1 f2 a :
  (forall j, 0 <= j < t -> exists w, rdw (t + j) = Ok w /\ forall c, 0 <= c < d ->
     tbspec n d P P' (posB d j c) (body w (posB d j c))) ->
  (Z.to_nat t < f1)%nat -> (Z.to_nat d < f2)%nat ->
  ilen a = n -> (forall i, 0 <= i < n -> P i (ati a i)) ->
  tc (cfor f1 0 (fun j => j <? t) (fun j => u32 (j + 1)) (fun j '(u, a) =>
      do w <- rdw (u32 (t + j));
      do a <- cfor f2 u (fun s => s <? u32 (u + d)) (fun s => u32 (s + 1))
                (fun s a => body w s a) a;
      Ok (u32 (u + u32 (2 * d)), a)) (0, a))
    (fun '(_, a') => ilen a' = n /\ (forall i, 0 <= i < n -> P' i (ati a' i))).
Proof.
  intros Hb Hf1 Hf2 HL HP. assert (Htn : 2 * t <= n) by nia.
  apply tc_weak with (R := fun '(u, a) => u = 2 * d * t /\ InvB t a).
  2:{ intros [u r] [_ HI]. apply (IInv_end n d t d (posB d) P P'); auto; lia. }
  apply (cfor_tc (fun j '(u, a) => u = 2 * d * j /\ InvB j a) t (fun c => c)); try lia.
  - intros. apply u32_small. lia.
  - intros j [u b] Hj [Hu HI]. rewrite (u32_small (t + j)) by nia.
    assert (2 * d * j + 2 * d <= n) by (clear - Hn Hd Hj; nia).
    destruct (Hb j Hj) as (w & Ew & Hw). rewrite Ew. cbn [bind].
    apply tc_bind with (T := InvB (j + 1)).
    + apply t_innerB; auto. rewrite u32_small; lia.
    + intros b' HI'. apply tc_ok. split; [|assumption].
      rewrite (u32_small (2 * d)) by lia. rewrite u32_small by lia. lia.
  - split; [lia|]. apply IInv_start; auto; lia.
Qed.

(** First column without multiplication; [u] updated after the inner loop. *)
Lemma t_stageB_plain_gs (body0 : Z -> list itv -> res (list itv))
      (body : W -> Z -> list itv -> res (list itv)) f0 f1 f2 a :
  (forall c, 0 <= c < d -> tbspec n d P P' (posB d 0 c) (body0 (posB d 0 c))) ->
  (forall j, 0 < j < t -> exists w, rdw (t + j) = Ok w /\ forall c, 0 <= c < d ->
     tbspec n d P P' (posB d j c) (body w (posB d j c))) ->
  (Z.to_nat d < f0)%nat ->  (Z.to_nat t < f1)%nat -> (Z.to_nat d < f2)%nat ->
  ilen a = n -> (forall i, 0 <= i < n -> P i (ati a i)) ->
  tc (do a <- cfor f0 0 (fun s => s <? d) (fun s => u32 (s + 1))
              (fun s a => body0 s a) a;
     cfor f1 1 (fun j => j <? t) (fun j => u32 (j + 1)) (fun j '(u, a) =>
      do w <- rdw (u32 (t + j));
      do a <- cfor f2 u (fun s => s <? u32 (u + d)) (fun s => u32 (s + 1))
                (fun s a => body w s a) a;
      Ok (u32 (u + u32 (2 * d)), a)) (u32 (2 * d), a))
    (fun '(_, a') => ilen a' = n /\ (forall i, 0 <= i < n -> P' i (ati a' i))).
Proof.
  intros Hb0 Hb Hf0 Hf1 Hf2 HL HP. assert (Htn : 2 * t <= n) by nia.
  apply tc_bind with (T := InvB 1).
  { apply (t_innerB 0 0 d (fun s a => body0 s a)); auto; try lia. apply IInv_start; auto; lia. }
  intros a1 HI1.
  apply tc_weak with (R := fun '(u, a) => u = 2 * d * (t - 1 + 1) /\ InvB (t - 1 + 1) a).
  2:{ intros [u r] [_ HI]. replace (t - 1 + 1) with t in HI by lia.
      apply (IInv_end n d t d (posB d) P P'); auto; lia. }
  apply (cfor_tc (fun c '(u, a) => u = 2 * d * (c + 1) /\ InvB (c + 1) a) (t - 1) (fun c => c + 1));
    try lia.
  - intros. apply u32_small. lia.
  - intros j [u b] Hj [Hu HI]. rewrite (u32_small (t + (j + 1))) by nia.
    assert (2 * d * (j + 1) + 2 * d <= n) by (clear - Hn Hd Hj; nia).
    destruct (Hb (j + 1) ltac:(lia)) as (w & Ew & Hw). rewrite Ew. cbn [bind].
    apply tc_bind with (T := InvB (j + 1 + 1)).
    + apply t_innerB; auto; try lia; rewrite u32_small; lia.
    + intros b' HI'. apply tc_ok. split; [|assumption].
      rewrite (u32_small (2 * d)) by lia. rewrite u32_small by lia. lia.
  - split; [rewrite u32_small; nia|]. exact HI1.
Qed.

(** First column without multiplication; [u] updated before the inner loop. *)
Lemma t_stageB_plain_ct (body0 : Z -> list itv -> res (list itv))
      (body : W -> Z -> list itv -> res (list itv)) f0 f1 f2 a :
  (forall c, 0 <= c < d -> tbspec n d P P' (posB d 0 c) (body0 (posB d 0 c))) ->
  (forall j, 0 < j < t -> exists w, rdw (t + j) = Ok w /\ forall c, 0 <= c < d ->
     tbspec n d P P' (posB d j c) (body w (posB d j c))) ->
  (Z.to_nat d < f0)%nat ->  (Z.to_nat t < f1)%nat -> (Z.to_nat d < f2)%nat ->
  ilen a = n -> (forall i, 0 <= i < n -> P i (ati a i)) ->
  tc (do a <- cfor f0 0 (fun s => s <? d) (fun s => u32 (s + 1))
              (fun s a => body0 s a) a;
     cfor f1 1 (fun j => j <? t) (fun j => u32 (j + 1)) (fun j '(u, a) =>
      do w <- rdw (u32 (t + j));
      let u := u32 (u + u32 (2 * d)) in
      do a <- cfor f2 u (fun s => s <? u32 (u + d)) (fun s => u32 (s + 1))
                (fun s a => body w s a) a;
      Ok (u, a)) (0, a))
    (fun '(_, a') => ilen a' = n /\ (forall i, 0 <= i < n -> P' i (ati a' i))).
Proof.
  intros Hb0 Hb Hf0 Hf1 Hf2 HL HP. assert (Htn : 2 * t <= n) by nia.
  apply tc_bind with (T := InvB 1).
  { apply (t_innerB 0 0 d (fun s a => body0 s a)); auto; try lia. apply IInv_start; auto; lia. }
  intros a1 HI1.
  apply tc_weak with (R := fun '(u, a) => u = 2 * d * (t - 1) /\ InvB (t - 1 + 1) a).
  2:{ intros [u r] [_ HI]. replace (t - 1 + 1) with t in HI by lia.
      apply (IInv_end n d t d (posB d) P P'); auto; lia. }
  apply (cfor_tc (fun c '(u, a) => u = 2 * d * c /\ InvB (c + 1) a) (t - 1) (fun c => c + 1));
    try lia.
  - intros. apply u32_small. lia.
  - intros j [u b] Hj [Hu HI]. rewrite (u32_small (t + (j + 1))) by nia.
    assert (2 * d * (j + 1) + 2 * d <= n) by (clear - Hn Hd Hj; nia).
    assert (Hu' : u32 (u + u32 (2 * d)) = 2 * d * (j + 1)).
    { rewrite (u32_small (2 * d)) by lia. rewrite u32_small by lia. lia. }
    rewrite Hu'. cbv zeta.
    destruct (Hb (j + 1) ltac:(lia)) as (w & Ew & Hw). rewrite Ew. cbn [bind].
    apply tc_bind with (T := InvB (j + 1 + 1)).
    + apply t_innerB; auto; try lia; rewrite u32_small; lia.
    + intros b' HI'. apply tc_ok. split; [reflexivity|assumption].
  - split; [lia|]. exact HI1.
Qed.

End ShapeB.
