(** Arrays of intervals and one round of butterflies on them.  These are the rules of
    Loops.v and Stages.v for arrays of intervals, as partial correctness: they speak
    about the runs that return. *)

From Coq Require Import ZArith List Bool Lia.
From Verif Require Import CSem Spec Loops Stages ModelInterval.
Import ListNotations.
Open Scope Z_scope.

(** If [m] returns, its result satisfies [R]. *)
Definition pc {A} (m : res A) (R : A -> Prop) : Prop := forall r, m = Ok r -> R r.

Lemma pc_bind {A B} (m : res A) (f : A -> res B) R T :
  pc m T -> (forall x, T x -> pc (f x) R) -> pc (bind m f) R.
Proof. intros H1 H2 r E. destruct m; [|discriminate]. cbn [bind] in E. eapply H2; [apply H1; reflexivity|exact E]. Qed.

Lemma pc_ok {A} (x : A) (R : A -> Prop) : R x -> pc (Ok x) R.
Proof. intros H r E. inversion E; subst; assumption. Qed.

Lemma pc_true {A} (m : res A) : pc m (fun _ => True).
Proof. intros r _. exact I. Qed.

Lemma pc_weak {A} (m : res A) (R T : A -> Prop) : pc m R -> (forall x, R x -> T x) -> pc m T.
Proof. intros H1 H2 r E. auto. Qed.

Lemma cfor_pc {S} (J : Z -> S -> Prop) (C : Z) (idx : Z -> Z)
      (cond : Z -> bool) (next : Z -> Z) (body : Z -> S -> res S) :
  0 <= C ->
  (forall c, 0 <= c < C -> cond (idx c) = true) ->
  cond (idx C) = false ->
  (forall c, 0 <= c < C -> next (idx c) = idx (c + 1)) ->
  (forall c st, 0 <= c < C -> J c st -> pc (body (idx c) st) (J (c + 1))) ->
  forall f i0 st, i0 = idx 0 -> J 0 st -> pc (cfor f i0 cond next body st) (J C).
Proof.
  intros HC Hc1 Hc2 Hn Hb f i0 st -> HJ.
  assert (G : forall f c st, 0 <= c <= C -> J c st -> pc (cfor f (idx c) cond next body st) (J C)).
  { clear f st HJ. induction f; intros c st Hc HJ r E; [discriminate|]. simpl in E.
    destruct (Z.eq_dec c C) as [->|Hne].
    - rewrite Hc2 in E. inversion E; subst; assumption.
    - rewrite Hc1 in E by lia.
      destruct (body (idx c) st) as [st'|e] eqn:Eb; [|discriminate]. cbn [bind] in E.
      rewrite Hn in E by lia. apply (IHf (c + 1) st'); [lia|apply (Hb c st); auto; lia|exact E]. }
  apply G; [lia|assumption].
Qed.

(** ** Arrays of intervals *)

Definition ati (a : list itv) (i : Z) : itv := nth (Z.to_nat i) a (0, 0).
Definition ilen (a : list itv) : Z := Z.of_nat (length a).

Lemma ilen_nonneg a : 0 <= ilen a.
Proof. unfold ilen. lia. Qed.

Lemma rdi_ok a i : 0 <= i < ilen a -> rdi a i = Ok (ati a i).
Proof.
  unfold rdi, ati, ilen. intros H. destruct (Z.ltb_spec i 0); [lia|].
  rewrite (nth_error_nth' a (0, 0)) by lia. reflexivity.
Qed.

Lemma rdi_inv a i v : rdi a i = Ok v -> 0 <= i < ilen a /\ v = ati a i.
Proof.
  unfold rdi, ati, ilen. intros H. destruct (Z.ltb_spec i 0); [discriminate|].
  destruct (nth_error a (Z.to_nat i)) eqn:E; [|discriminate]. inversion H; subst.
  split; [assert (nth_error a (Z.to_nat i) <> None) as N by congruence; apply nth_error_Some in N; lia|].
  symmetry. apply nth_error_nth. exact E.
Qed.

Fixpoint iupd (a : list itv) (i : nat) (v : itv) : list itv :=
  match a with
  | [] => []
  | x :: l => match i with O => v :: l | S j => x :: iupd l j v end
  end.
Definition iset (a : list itv) (i : Z) (v : itv) : list itv := iupd a (Z.to_nat i) v.

Lemma updi_iupd a i v : (i < length a)%nat -> updi a i v = Some (iupd a i v).
Proof.
  revert i. induction a; simpl; intros; [lia|].
  destruct i; [reflexivity|]. rewrite IHa by lia. reflexivity.
Qed.

Lemma iupd_length a i v : length (iupd a i v) = length a.
Proof. revert i. induction a; simpl; intros; [reflexivity|]. destruct i; simpl; auto. Qed.

Lemma iupd_nth a i v j d :
  (i < length a)%nat -> nth j (iupd a i v) d = if Nat.eqb i j then v else nth j a d.
Proof.
  revert i j. induction a; simpl; intros; [lia|].
  destruct i, j; simpl; auto. apply IHa. lia.
Qed.

Lemma wri_ok a i v : 0 <= i < ilen a -> wri a i v = Ok (iset a i v).
Proof.
  unfold wri, ilen, iset. intros. destruct (Z.ltb_spec i 0); [lia|].
  rewrite updi_iupd by lia. reflexivity.
Qed.

Lemma iset_len a i v : ilen (iset a i v) = ilen a.
Proof. unfold ilen, iset. now rewrite iupd_length. Qed.

Lemma ati_iset_same a i v : 0 <= i < ilen a -> ati (iset a i v) i = v.
Proof. unfold ati, iset, ilen. intros. rewrite iupd_nth by lia. now rewrite Nat.eqb_refl. Qed.

Lemma ati_iset_other a i j v :
  0 <= i < ilen a -> 0 <= j -> i <> j -> ati (iset a i v) j = ati a j.
Proof.
  unfold ati, iset, ilen. intros. rewrite iupd_nth by lia.
  destruct (Nat.eqb_spec (Z.to_nat i) (Z.to_nat j)); [lia|reflexivity].
Qed.

Lemma ilist_ext a b :
  ilen a = ilen b -> (forall i, 0 <= i < ilen a -> ati a i = ati b i) -> a = b.
Proof.
  unfold ilen, ati. intros HL H. apply nth_ext with (d := (0, 0)) (d' := (0, 0)); [lia|].
  intros n Hn. specialize (H (Z.of_nat n)). rewrite Nat2Z.id in H. apply H. lia.
Qed.

(** The functions that replace every a[i]. *)
Lemma amap_pc f A n : 0 <= n < 4294967296 ->
  pc (amap f A n) (fun B => n <= ilen A /\ ilen B = ilen A
    /\ (forall i, 0 <= i < n -> f i (ati A i) = Ok (ati B i))
    /\ (forall i, n <= i < ilen A -> ati B i = ati A i)).
Proof.
  intros Hn. unfold amap.
  apply pc_weak with (R := fun B => n <= ilen A /\ ilen B = ilen A
    /\ (forall i, 0 <= i < n -> f i (ati A i) = Ok (ati B i))
    /\ (forall i, n <= i < ilen A -> ati B i = ati A i)); [|auto].
  apply (cfor_pc (fun c B => c <= ilen A /\ ilen B = ilen A
    /\ (forall i, 0 <= i < c -> f i (ati A i) = Ok (ati B i))
    /\ (forall i, c <= i < ilen A -> ati B i = ati A i)) n (fun c => c)); try lia.
  - intros. apply u32_small. lia.
  - intros c B Hc (Hl & HL & H1 & H2). intros r E.
    destruct (rdi B c) as [x|] eqn:Er; [|discriminate]. cbn [bind] in E.
    apply rdi_inv in Er. destruct Er as (Hc2 & ->).
    destruct (f c (ati B c)) as [v|] eqn:Ef; [|discriminate]. cbn [bind] in E.
    rewrite wri_ok in E by assumption. inversion E; subst r. clear E.
    rewrite iset_len. split; [lia|]. split; [assumption|]. split.
    + intros i Hi. destruct (Z.eq_dec i c) as [->|].
      * rewrite ati_iset_same by assumption. rewrite <- (H2 c) by lia. exact Ef.
      * rewrite ati_iset_other by lia. apply H1. lia.
    + intros i Hi. rewrite ati_iset_other by lia. apply H2. lia.
  - split; [apply ilen_nonneg|]. split; [reflexivity|]. split; [intros; lia|]. reflexivity.
Qed.

(** ** One round *)

(** What a pair of statements does, if it returns. *)
Definition ibspec (n h : Z) (P P' : Z -> itv -> Prop)
           (s : Z) (body : list itv -> res (list itv)) : Prop :=
  forall a, ilen a = n -> P s (ati a s) -> P (s + h) (ati a (s + h)) ->
    pc (body a) (fun r => exists x y, r = iset (iset a (s + h) y) s x /\ P' s x /\ P' (s + h) y).

Section Stage.

Variables (n h J C : Z) (pos : Z -> Z -> Z) (P P' : Z -> itv -> Prop).
Hypothesis Hh : 0 < h.
Hypothesis HC : 0 <= C.
Hypothesis pos_range : forall j c, 0 <= j < J -> 0 <= c < C ->
  0 <= pos j c /\ pos j c + h < n.
Hypothesis pos_inj : forall j c e j' c' e',
  0 <= j < J -> 0 <= c < C -> 0 <= e <= 1 ->
  0 <= j' < J -> 0 <= c' < C -> 0 <= e' <= 1 ->
  pos j c + e * h = pos j' c' + e' * h -> j = j' /\ c = c' /\ e = e'.
Hypothesis pos_surj : forall i, 0 <= i < n ->
  exists j c e, 0 <= j < J /\ 0 <= c < C /\ 0 <= e <= 1 /\ i = pos j c + e * h.

Definition IInv (j : Z) (a : list itv) : Prop :=
  ilen a = n /\
  forall j' c e, 0 <= j' < J -> 0 <= c < C -> 0 <= e <= 1 ->
    (if j' <? j then P' else P) (pos j' c + e * h) (ati a (pos j' c + e * h)).

Lemma IInv_start a : ilen a = n -> (forall i, 0 <= i < n -> P i (ati a i)) -> IInv 0 a.
Proof.
  intros HL HP. split; [assumption|]. intros j' c e Hj Hc He.
  destruct (Z.ltb_spec j' 0); [lia|].
  apply HP. destruct (pos_range j' c Hj Hc). nia.
Qed.

Lemma IInv_end a : IInv J a -> ilen a = n /\ forall i, 0 <= i < n -> P' i (ati a i).
Proof.
  intros [HL H]. split; [assumption|]. intros i Hi.
  destruct (pos_surj i Hi) as (j & c & e & Hj & Hc & He & ->).
  specialize (H j c e Hj Hc He). destruct (Z.ltb_spec j J); [assumption|lia].
Qed.

Lemma i_inner_loop j (body : Z -> list itv -> res (list itv)) cond next f i0 a :
  0 <= j < J ->
  (forall c, 0 <= c < C -> ibspec n h P P' (pos j c) (body (pos j c))) ->
  (forall c, 0 <= c < C -> cond (pos j c) = true) ->
  cond (pos j C) = false ->
  (forall c, 0 <= c < C -> next (pos j c) = pos j (c + 1)) ->
  i0 = pos j 0 ->
  IInv j a ->
  pc (cfor f i0 cond next body a) (IInv (j + 1)).
Proof.
  intros Hj Hb Hc1 Hc2 Hnx Hi0 HI.
  apply pc_weak with (R := fun b => ilen b = n /\
     forall j' c' e, 0 <= j' < J -> 0 <= c' < C -> 0 <= e <= 1 ->
      (if (j' <? j) || ((j' =? j) && (c' <? C)) then P' else P)
        (pos j' c' + e * h) (ati b (pos j' c' + e * h))).
  2:{ intros r (HL & HR). split; [assumption|].
    intros j' c' e Hj' Hc' He. specialize (HR j' c' e Hj' Hc' He).
    replace (c' <? C) with true in HR by lia. rewrite andb_true_r in HR.
    replace (j' <? j + 1) with ((j' <? j) || (j' =? j))%bool; [assumption|].
    destruct (Z.ltb_spec j' j), (Z.eqb_spec j' j), (Z.ltb_spec j' (j+1)); try lia; reflexivity. }
  apply (cfor_pc (fun c b => ilen b = n /\
     forall j' c' e, 0 <= j' < J -> 0 <= c' < C -> 0 <= e <= 1 ->
      (if (j' <? j) || ((j' =? j) && (c' <? c)) then P' else P)
        (pos j' c' + e * h) (ati b (pos j' c' + e * h)))
     C (pos j) cond next body); try assumption.
  - intros c b Hc [HL H].
    assert (H0 := H j c 0 Hj Hc ltac:(lia)).
    assert (H1 := H j c 1 Hj Hc ltac:(lia)).
    rewrite Z.ltb_irrefl, Z.eqb_refl, Z.ltb_irrefl in H0, H1. cbn [orb andb] in H0, H1.
    replace (pos j c + 0 * h) with (pos j c) in H0 by lia.
    replace (pos j c + 1 * h) with (pos j c + h) in H1 by lia.
    intros r Er.
    destruct (Hb c Hc b HL H0 H1 r Er) as (x & y & Hxy & Hx & Hy). subst r.
    destruct (pos_range j c Hj Hc) as [Hp1 Hp2].
    split; [now rewrite !iset_len|].
    intros j' c' e Hj' Hc' He.
    destruct (pos_range j' c' Hj' Hc') as [Hp1' Hp2'].
    assert (Hee : 0 <= e * h <= h) by nia.
    destruct (Z.eq_dec (pos j' c' + e * h) (pos j c)) as [Heq|Hne].
    + destruct (pos_inj j' c' e j c 0) as (-> & -> & ->); try lia.
      rewrite Z.ltb_irrefl, Z.eqb_refl. replace (c <? c + 1) with true by lia.
      cbn [orb andb].
      replace (pos j c + 0 * h) with (pos j c) by lia.
      rewrite ati_iset_same by (rewrite iset_len; lia). assumption.
    + rewrite ati_iset_other by (rewrite ?iset_len; lia).
      destruct (Z.eq_dec (pos j' c' + e * h) (pos j c + h)) as [Heq2|Hne2].
      * destruct (pos_inj j' c' e j c 1) as (-> & -> & ->); try lia.
        rewrite Z.ltb_irrefl, Z.eqb_refl. replace (c <? c + 1) with true by lia.
        cbn [orb andb].
        replace (pos j c + 1 * h) with (pos j c + h) by lia.
        rewrite ati_iset_same by lia. assumption.
      * rewrite ati_iset_other by lia.
        specialize (H j' c' e Hj' Hc' He).
        assert (E : ((j' <? j) || ((j' =? j) && (c' <? c + 1)))%bool
                    = ((j' <? j) || ((j' =? j) && (c' <? c)))%bool).
        { destruct (Z.eqb_spec j' j) as [->|]; [|reflexivity].
          rewrite Z.ltb_irrefl. cbn [orb andb].
          destruct (Z.ltb_spec c' c), (Z.ltb_spec c' (c + 1)); try lia.
          exfalso. assert (c' = c) by lia. subst c'.
          assert (e = 0 \/ e = 1) as [-> | ->] by lia; lia. }
        rewrite E. assumption.
  - destruct HI as [HL H]. split; [assumption|].
    intros j' c' e Hj' Hc' He. specialize (H j' c' e Hj' Hc' He).
    replace (c' <? 0) with false by lia. rewrite andb_false_r, orb_false_r. assumption.
Qed.

End Stage.

(** ** Shape A *)

Section ShapeA.
Variables (n t m : Z) (P P' : Z -> itv -> Prop).
Hypothesis Ht : 0 < t.
Hypothesis Hm : 0 < m.
Hypothesis Hn : n = 2 * t * m.
Hypothesis Hn31 : n <= 2147483648.
Context {W : Type} (rdw : Z -> res W).

Let X := fun _ _ : Z => True.
Let InvA := IInv n t t m (posA t) P P'.

Let rng j c : 0 <= j < t -> 0 <= c < m -> 0 <= posA t j c /\ posA t j c + t < n.
Proof. exact (posA_range n t m X X Ht Hm Hn Hn31 j c). Qed.
Let inj j c e j' c' e' :
  0 <= j < t -> 0 <= c < m -> 0 <= e <= 1 ->
  0 <= j' < t -> 0 <= c' < m -> 0 <= e' <= 1 ->
  posA t j c + e * t = posA t j' c' + e' * t -> j = j' /\ c = c' /\ e = e'.
Proof. exact (posA_inj t m X X j c e j' c' e'). Qed.
Let surj i : 0 <= i < n ->
  exists j c e, 0 <= j < t /\ 0 <= c < m /\ 0 <= e <= 1 /\ i = posA t j c + e * t.
Proof. exact (posA_surj n t m X X Ht Hm Hn Hn31 i). Qed.

Lemma i_innerA j (body : Z -> list itv -> res (list itv)) f a :
  0 <= j < t ->
  (forall c, 0 <= c < m -> ibspec n t P P' (posA t j c) (body (posA t j c))) ->
  InvA j a ->
  pc (cfor f j (fun s => s <? n) (fun s => u32 (s + u32 (t + t))) body a) (InvA (j + 1)).
Proof.
  intros Hj Hb HI.
  apply (i_inner_loop n t t m (posA t) P P'); auto; try lia.
  - intros c Hc. assert (H := rng j c Hj Hc). lia.
  - unfold posA. assert (n <= j + m * (2 * t)) by nia. lia.
  - intros c Hc. assert (H := rng j c Hj Hc). unfold posA in *.
    assert (t <= n) by nia.
    rewrite (u32_small (t + t)) by lia. rewrite u32_small by lia. lia.
  - unfold posA. lia.
Qed.

(** Round with a multiplication for every [j]; [w j] is what reading the constant
    gives. *)
Lemma i_stageA_mul (body : W -> Z -> list itv -> res (list itv)) f1 f2 a :
  (forall j c w, 0 <= j < t -> 0 <= c < m -> rdw (t + j) = Ok w ->
     ibspec n t P P' (posA t j c) (body w (posA t j c))) ->
  ilen a = n -> (forall i, 0 <= i < n -> P i (ati a i)) ->
  pc (cfor f1 0 (fun j => j <? t) (fun j => u32 (j + 1)) (fun j a =>
      do w <- rdw (u32 (t + j));
      cfor f2 j (fun s => s <? n) (fun s => u32 (s + u32 (t + t)))
        (fun s a => body w s a) a) a)
    (fun a' => ilen a' = n /\ (forall i, 0 <= i < n -> P' i (ati a' i))).
Proof.
  intros Hb HL HP. assert (Htn : 2 * t <= n) by nia.
  apply pc_weak with (R := InvA t).
  2:{ intros r HI. apply (IInv_end n t t m (posA t) P P'); auto; lia. }
  apply (cfor_pc InvA t (fun c => c)); try lia.
  - intros. apply u32_small. lia.
  - intros j b Hj HI. rewrite u32_small by lia.
    intros r E. destruct (rdw (t + j)) as [w|] eqn:Ew; [|discriminate]. cbn [bind] in E.
    refine (i_innerA j (fun s a => body w s a) f2 b Hj _ HI r E). intros. apply Hb; assumption.
  - apply IInv_start; auto; lia.
Qed.

(** Round whose [j = 0] column has no multiplication. *)
Lemma i_stageA_plain (body0 : Z -> list itv -> res (list itv))
      (body : W -> Z -> list itv -> res (list itv)) f0 f1 f2 a :
  (forall c, 0 <= c < m -> ibspec n t P P' (posA t 0 c) (body0 (posA t 0 c))) ->
  (forall j c w, 0 < j < t -> 0 <= c < m -> rdw (t + j) = Ok w ->
     ibspec n t P P' (posA t j c) (body w (posA t j c))) ->
  ilen a = n -> (forall i, 0 <= i < n -> P i (ati a i)) ->
  pc (do a <- cfor f0 0 (fun s => s <? n) (fun s => u32 (s + u32 (t + t)))
              (fun s a => body0 s a) a;
     cfor f1 1 (fun j => j <? t) (fun j => u32 (j + 1)) (fun j a =>
      do w <- rdw (u32 (t + j));
      cfor f2 j (fun s => s <? n) (fun s => u32 (s + u32 (t + t)))
        (fun s a => body w s a) a) a)
    (fun a' => ilen a' = n /\ (forall i, 0 <= i < n -> P' i (ati a' i))).
Proof.
  intros Hb0 Hb HL HP. assert (Htn : 2 * t <= n) by nia.
  apply pc_bind with (T := InvA 1).
  { apply (i_innerA 0 (fun s a => body0 s a)); auto; try lia. apply IInv_start; auto; lia. }
  intros a1 HI1.
  apply pc_weak with (R := InvA (t - 1 + 1)).
  2:{ intros r HI. replace (t - 1 + 1) with t in HI by lia.
      apply (IInv_end n t t m (posA t) P P'); auto; lia. }
  apply (cfor_pc (fun c => InvA (c + 1)) (t - 1) (fun c => c + 1)); try lia; auto.
  - intros. apply u32_small. lia.
  - intros j b Hj HI. rewrite u32_small by lia.
    intros r E. destruct (rdw (t + (j + 1))) as [w|] eqn:Ew; [|discriminate]. cbn [bind] in E.
    refine (i_innerA (j + 1) (fun s a => body w s a) f2 b _ _ HI r E); [lia|].
    intros. apply Hb; try assumption; lia.
Qed.

End ShapeA.

(** ** Shape B *)

Section ShapeB.
Variables (n t d : Z) (P P' : Z -> itv -> Prop).
Hypothesis Ht : 0 < t.
Hypothesis Hd : 0 < d.
Hypothesis Hn : n = 2 * t * d.
Hypothesis Hn31 : n <= 2147483648.
Context {W : Type} (rdw : Z -> res W).

Let X := fun _ _ : Z => True.
Let InvB := IInv n d t d (posB d) P P'.

Let rng j c : 0 <= j < t -> 0 <= c < d -> 0 <= posB d j c /\ posB d j c + d < n.
Proof. exact (posB_range n t d X X Ht Hd Hn Hn31 j c). Qed.
Let inj j c e j' c' e' :
  0 <= j < t -> 0 <= c < d -> 0 <= e <= 1 ->
  0 <= j' < t -> 0 <= c' < d -> 0 <= e' <= 1 ->
  posB d j c + e * d = posB d j' c' + e' * d -> j = j' /\ c = c' /\ e = e'.
Proof. exact (posB_inj t d X X j c e j' c' e'). Qed.
Let surj i : 0 <= i < n ->
  exists j c e, 0 <= j < t /\ 0 <= c < d /\ 0 <= e <= 1 /\ i = posB d j c + e * d.
Proof. exact (posB_surj n t d X X Hd Hn Hn31 i). Qed.

Lemma i_innerB j u lim (body : Z -> list itv -> res (list itv)) f a :
  0 <= j < t -> u = 2 * d * j -> lim = u + d ->
  (forall c, 0 <= c < d -> ibspec n d P P' (posB d j c) (body (posB d j c))) ->
  InvB j a ->
  pc (cfor f u (fun s => s <? lim) (fun s => u32 (s + 1)) body a) (InvB (j + 1)).
Proof.
  intros Hj Hu Hlim Hb HI.
  apply (i_inner_loop n d t d (posB d) P P'); auto; try lia.
  - unfold posB. intros. lia.
  - unfold posB. lia.
  - unfold posB. intros. rewrite u32_small by nia. lia.
  - unfold posB. lia.
Qed.

(** [u] updated after the inner loop, all columns multiplied. *)
Lemma i_stageB_mul (body : W -> Z -> list itv -> res (list itv)) f1 f2 a :
  (forall j c w, 0 <= j < t -> 0 <= c < d -> rdw (t + j) = Ok w ->
     ibspec n d P P' (posB d j c) (body w (posB d j c))) ->
  ilen a = n -> (forall i, 0 <= i < n -> P i (ati a i)) ->
  pc (cfor f1 0 (fun j => j <? t) (fun j => u32 (j + 1)) (fun j '(u, a) =>
      do w <- rdw (u32 (t + j));
      do a <- cfor f2 u (fun s => s <? u32 (u + d)) (fun s => u32 (s + 1))
                (fun s a => body w s a) a;
      Ok (u32 (u + u32 (2 * d)), a)) (0, a))
    (fun '(_, a') => ilen a' = n /\ (forall i, 0 <= i < n -> P' i (ati a' i))).
Proof.
  intros Hb HL HP. assert (Htn : 2 * t <= n) by nia.
  apply pc_weak with (R := fun '(u, a) => u = 2 * d * t /\ InvB t a).
  2:{ intros [u r] [_ HI]. apply (IInv_end n d t d (posB d) P P'); auto; lia. }
  apply (cfor_pc (fun j '(u, a) => u = 2 * d * j /\ InvB j a) t (fun c => c)); try lia.
  - intros. apply u32_small. lia.
  - intros j [u b] Hj [Hu HI]. rewrite (u32_small (t + j)) by nia.
    assert (2 * d * j + 2 * d <= n) by nia.
    intros r E. destruct (rdw (t + j)) as [w|] eqn:Ew; [|discriminate]. cbn [bind] in E.
    revert r E. apply pc_bind with (T := InvB (j + 1)).
    + apply i_innerB; auto. rewrite u32_small; lia.
    + intros b' HI'. apply pc_ok. split; [|assumption].
      rewrite (u32_small (2 * d)) by lia. rewrite u32_small by lia. lia.
  - split; [lia|]. apply IInv_start; auto; lia.
Qed.

(** First column without multiplication; [u] updated after the inner loop. *)
Lemma i_stageB_plain_gs (body0 : Z -> list itv -> res (list itv))
      (body : W -> Z -> list itv -> res (list itv)) f0 f1 f2 a :
  (forall c, 0 <= c < d -> ibspec n d P P' (posB d 0 c) (body0 (posB d 0 c))) ->
  (forall j c w, 0 < j < t -> 0 <= c < d -> rdw (t + j) = Ok w ->
     ibspec n d P P' (posB d j c) (body w (posB d j c))) ->
  ilen a = n -> (forall i, 0 <= i < n -> P i (ati a i)) ->
  pc (do a <- cfor f0 0 (fun s => s <? d) (fun s => u32 (s + 1))
              (fun s a => body0 s a) a;
     cfor f1 1 (fun j => j <? t) (fun j => u32 (j + 1)) (fun j '(u, a) =>
      do w <- rdw (u32 (t + j));
      do a <- cfor f2 u (fun s => s <? u32 (u + d)) (fun s => u32 (s + 1))
                (fun s a => body w s a) a;
      Ok (u32 (u + u32 (2 * d)), a)) (u32 (2 * d), a))
    (fun '(_, a') => ilen a' = n /\ (forall i, 0 <= i < n -> P' i (ati a' i))).
Proof.
  intros Hb0 Hb HL HP. assert (Htn : 2 * t <= n) by nia.
  apply pc_bind with (T := InvB 1).
  { apply (i_innerB 0 0 d (fun s a => body0 s a)); auto; try lia. apply IInv_start; auto; lia. }
  intros a1 HI1.
  apply pc_weak with (R := fun '(u, a) => u = 2 * d * (t - 1 + 1) /\ InvB (t - 1 + 1) a).
  2:{ intros [u r] [_ HI]. replace (t - 1 + 1) with t in HI by lia.
      apply (IInv_end n d t d (posB d) P P'); auto; lia. }
  apply (cfor_pc (fun c '(u, a) => u = 2 * d * (c + 1) /\ InvB (c + 1) a) (t - 1) (fun c => c + 1));
    try lia.
  - intros. apply u32_small. lia.
  - intros j [u b] Hj [Hu HI]. rewrite (u32_small (t + (j + 1))) by nia.
    assert (2 * d * (j + 1) + 2 * d <= n) by nia.
    intros r E. destruct (rdw (t + (j + 1))) as [w|] eqn:Ew; [|discriminate]. cbn [bind] in E.
    revert r E. apply pc_bind with (T := InvB (j + 1 + 1)).
    + apply i_innerB; auto; try lia; [rewrite u32_small; lia|]. intros. apply Hb; try assumption; lia.
    + intros b' HI'. apply pc_ok. split; [|assumption].
      rewrite (u32_small (2 * d)) by lia. rewrite u32_small by lia. lia.
  - split; [rewrite u32_small; nia|]. exact HI1.
Qed.

(** First column without multiplication; [u] updated before the inner loop. *)
Lemma i_stageB_plain_ct (body0 : Z -> list itv -> res (list itv))
      (body : W -> Z -> list itv -> res (list itv)) f0 f1 f2 a :
  (forall c, 0 <= c < d -> ibspec n d P P' (posB d 0 c) (body0 (posB d 0 c))) ->
  (forall j c w, 0 < j < t -> 0 <= c < d -> rdw (t + j) = Ok w ->
     ibspec n d P P' (posB d j c) (body w (posB d j c))) ->
  ilen a = n -> (forall i, 0 <= i < n -> P i (ati a i)) ->
  pc (do a <- cfor f0 0 (fun s => s <? d) (fun s => u32 (s + 1))
              (fun s a => body0 s a) a;
     cfor f1 1 (fun j => j <? t) (fun j => u32 (j + 1)) (fun j '(u, a) =>
      do w <- rdw (u32 (t + j));
      let u := u32 (u + u32 (2 * d)) in
      do a <- cfor f2 u (fun s => s <? u32 (u + d)) (fun s => u32 (s + 1))
                (fun s a => body w s a) a;
      Ok (u, a)) (0, a))
    (fun '(_, a') => ilen a' = n /\ (forall i, 0 <= i < n -> P' i (ati a' i))).
Proof.
  intros Hb0 Hb HL HP. assert (Htn : 2 * t <= n) by nia.
  apply pc_bind with (T := InvB 1).
  { apply (i_innerB 0 0 d (fun s a => body0 s a)); auto; try lia. apply IInv_start; auto; lia. }
  intros a1 HI1.
  apply pc_weak with (R := fun '(u, a) => u = 2 * d * (t - 1) /\ InvB (t - 1 + 1) a).
  2:{ intros [u r] [_ HI]. replace (t - 1 + 1) with t in HI by lia.
      apply (IInv_end n d t d (posB d) P P'); auto; lia. }
  apply (cfor_pc (fun c '(u, a) => u = 2 * d * c /\ InvB (c + 1) a) (t - 1) (fun c => c + 1));
    try lia.
  - intros. apply u32_small. lia.
  - intros j [u b] Hj [Hu HI]. rewrite (u32_small (t + (j + 1))) by nia.
    assert (2 * d * (j + 1) + 2 * d <= n) by nia.
    assert (Hu' : u32 (u + u32 (2 * d)) = 2 * d * (j + 1)).
    { rewrite (u32_small (2 * d)) by lia. rewrite u32_small by lia. lia. }
    rewrite Hu'. cbv zeta.
    intros r E. destruct (rdw (t + (j + 1))) as [w|] eqn:Ew; [|discriminate]. cbn [bind] in E.
    revert r E. apply pc_bind with (T := InvB (j + 1 + 1)).
    + apply i_innerB; auto; try lia; [rewrite u32_small; lia|]. intros. apply Hb; try assumption; lia.
    + intros b' HI'. apply pc_ok. split; [reflexivity|assumption].
  - split; [lia|]. exact HI1.
Qed.

End ShapeB.
