(** One round of butterflies: the two loop shapes used by all the transforms.

    Shape A (ct_rev2std, gs_std2rev): offset [t], for each [j < t] the pairs
    [(s, s+t)] with [s = j, j + 2t, j + 4t, ...].
    Shape B (ct_std2rev, gs_rev2std): offset [d], for each [j < t] the pairs
    [(s, s+d)] with [s = 2dj, 2dj + 1, ..., 2dj + d - 1].

    The lemmas are generic in the statements executed for a pair. *)

From Coq Require Import ZArith List Bool Lia.
From Verif Require Import CSem Spec Loops.
Import ListNotations.
Open Scope Z_scope.

(** What a pair of statements does: from values satisfying [P] at [s] and
    [s+h] it stores values satisfying [P'] there and changes nothing else. *)
Definition bspec (n h : Z) (P P' : Z -> Z -> Prop)
           (s : Z) (body : list Z -> res (list Z)) : Prop :=
  forall a, zlen a = n -> P s (at_ a s) -> P (s + h) (at_ a (s + h)) ->
    exists x y, body a = Ok (aset (aset a (s + h) y) s x)
                /\ P' s x /\ P' (s + h) y.

Lemma divmod_unique t q q' r r' :
  0 <= r < t -> 0 <= r' < t -> q * t + r = q' * t + r' -> q = q' /\ r = r'.
Proof. intros. assert (q = q') by nia. subst. lia. Qed.

Section Stage.

Variables (n h J C : Z) (pos : Z -> Z -> Z) (P P' : Z -> Z -> Prop).
Hypothesis Hh : 0 < h.
Hypothesis HC : 0 <= C.
Hypothesis pos_range : forall j c, 0 <= j < J -> 0 <= c < C ->
  0 <= pos j c /\ pos j c + h < n.
Hypothesis pos_inj : forall j c e j' c' e',
  0 <= j < J -> 0 <= c < C -> 0 <= e <= 1 ->
  0 <= j' < J -> 0 <= c' < C -> 0 <= e' <= 1 ->
  pos j c + e * h = pos j' c' + e' * h -> j = j' /\ c = c' /\ e = e'.
Hypothesis pos_surj : forall i, 0 <= i < n ->
  exists j c e, 0 <= j < J /\ 0 <= c < C /\ 0 <= e <= 1 /\ i = pos j c + e * h.

(** State after the pairs of columns [< j] have been processed. *)
Definition Inv (j : Z) (a : list Z) : Prop :=
  zlen a = n /\
  forall j' c e, 0 <= j' < J -> 0 <= c < C -> 0 <= e <= 1 ->
    (if j' <? j then P' else P) (pos j' c + e * h) (at_ a (pos j' c + e * h)).

Lemma Inv_start a : zlen a = n -> (forall i, 0 <= i < n -> P i (at_ a i)) -> Inv 0 a.
Proof.
  intros HL HP. split; [assumption|]. intros j' c e Hj Hc He.
  destruct (Z.ltb_spec j' 0); [lia|].
  apply HP. destruct (pos_range j' c Hj Hc). nia.
Qed.

Lemma Inv_end a : Inv J a -> zlen a = n /\ forall i, 0 <= i < n -> P' i (at_ a i).
Proof.
  intros [HL H]. split; [assumption|]. intros i Hi.
  destruct (pos_surj i Hi) as (j & c & e & Hj & Hc & He & ->).
  specialize (H j c e Hj Hc He). destruct (Z.ltb_spec j J); [assumption|lia].
Qed.

Lemma inner_loop j (body : Z -> list Z -> res (list Z)) cond next f i0 a :
  0 <= j < J ->
  (forall c, 0 <= c < C -> bspec n h P P' (pos j c) (body (pos j c))) ->
  (forall c, 0 <= c < C -> cond (pos j c) = true) ->
  cond (pos j C) = false ->
  (forall c, 0 <= c < C -> next (pos j c) = pos j (c + 1)) ->
  i0 = pos j 0 -> (Z.to_nat C < f)%nat ->
  Inv j a ->
  exists a', cfor f i0 cond next body a = Ok a' /\ Inv (j + 1) a'.
Proof.
  intros Hj Hb Hc1 Hc2 Hnx Hi0 Hf HI.
  destruct (cfor_count (fun c b => zlen b = n /\
     forall j' c' e, 0 <= j' < J -> 0 <= c' < C -> 0 <= e <= 1 ->
      (if (j' <? j) || ((j' =? j) && (c' <? c)) then P' else P)
        (pos j' c' + e * h) (at_ b (pos j' c' + e * h)))
     C (pos j) cond next body) with (f := f) (i0 := i0) (st := a)
     as (r & Hr & HL & HR); try assumption.
  - intros c b Hc [HL H].
    assert (H0 := H j c 0 Hj Hc ltac:(lia)).
    assert (H1 := H j c 1 Hj Hc ltac:(lia)).
    rewrite Z.ltb_irrefl, Z.eqb_refl, Z.ltb_irrefl in H0, H1. cbn [orb andb] in H0, H1.
    replace (pos j c + 0 * h) with (pos j c) in H0 by lia.
    replace (pos j c + 1 * h) with (pos j c + h) in H1 by lia.
    destruct (Hb c Hc b HL H0 H1) as (x & y & Hxy & Hx & Hy).
    exists (aset (aset b (pos j c + h) y) (pos j c) x).
    split; [assumption|].
    destruct (pos_range j c Hj Hc) as [Hp1 Hp2].
    split; [now rewrite !aset_len|].
    intros j' c' e Hj' Hc' He.
    destruct (pos_range j' c' Hj' Hc') as [Hp1' Hp2'].
    assert (Hee : 0 <= e * h <= h) by nia.
    destruct (Z.eq_dec (pos j' c' + e * h) (pos j c)) as [Heq|Hne].
    + destruct (pos_inj j' c' e j c 0) as (-> & -> & ->); try lia.
      rewrite Z.ltb_irrefl, Z.eqb_refl. replace (c <? c + 1) with true by lia.
      cbn [orb andb].
      replace (pos j c + 0 * h) with (pos j c) by lia.
      rewrite at_aset_same by (rewrite aset_len; lia). assumption.
    + rewrite at_aset_other by (rewrite ?aset_len; lia).
      destruct (Z.eq_dec (pos j' c' + e * h) (pos j c + h)) as [Heq2|Hne2].
      * destruct (pos_inj j' c' e j c 1) as (-> & -> & ->); try lia.
        rewrite Z.ltb_irrefl, Z.eqb_refl. replace (c <? c + 1) with true by lia.
        cbn [orb andb].
        replace (pos j c + 1 * h) with (pos j c + h) by lia.
        rewrite at_aset_same by lia. assumption.
      * rewrite at_aset_other by lia.
        specialize (H j' c' e Hj' Hc' He).
        assert (E : ((j' <? j) || ((j' =? j) && (c' <? c + 1)))%bool
                    = ((j' <? j) || ((j' =? j) && (c' <? c)))%bool).
        { destruct (Z.eqb_spec j' j) as [->|]; [|reflexivity].
          rewrite Z.ltb_irrefl. cbn [orb andb].
          destruct (Z.ltb_spec c' c), (Z.ltb_spec c' (c + 1)); try lia.
          exfalso. assert (c' = c) by lia. subst c'.
          assert (e = 0 \/ e = 1) as [-> | ->] by lia; lia. }
        rewrite E. assumption.
  - destruct HI as [HL H]. split; [assumption|].
    intros j' c' e Hj' Hc' He. specialize (H j' c' e Hj' Hc' He).
    replace (c' <? 0) with false by lia. rewrite andb_false_r, orb_false_r. assumption.
  - exists r. split; [assumption|]. split; [assumption|].
    intros j' c' e Hj' Hc' He. specialize (HR j' c' e Hj' Hc' He).
    replace (c' <? C) with true in HR by lia. rewrite andb_true_r in HR.
    replace (j' <? j + 1) with ((j' <? j) || (j' =? j))%bool; [assumption|].
    destruct (Z.ltb_spec j' j), (Z.eqb_spec j' j), (Z.ltb_spec j' (j+1)); try lia; reflexivity.
Qed.

End Stage.

(** ** Shape A *)

Section ShapeA.
Variables (n t m : Z) (P P' : Z -> Z -> Prop).
Hypothesis Ht : 0 < t.
Hypothesis Hm : 0 < m.
Hypothesis Hn : n = 2 * t * m.
Hypothesis Hn31 : n <= 2147483648.

Definition posA (j c : Z) : Z := j + c * (2 * t).

Lemma posA_range j c : 0 <= j < t -> 0 <= c < m -> 0 <= posA j c /\ posA j c + t < n.
Proof. unfold posA. intros. nia. Qed.

Lemma posA_inj j c e j' c' e' :
  0 <= j < t -> 0 <= c < m -> 0 <= e <= 1 ->
  0 <= j' < t -> 0 <= c' < m -> 0 <= e' <= 1 ->
  posA j c + e * t = posA j' c' + e' * t -> j = j' /\ c = c' /\ e = e'.
Proof.
  unfold posA. intros.
  destruct (divmod_unique t (2 * c + e) (2 * c' + e') j j'); try lia.
Qed.

Lemma posA_surj i : 0 <= i < n ->
  exists j c e, 0 <= j < t /\ 0 <= c < m /\ 0 <= e <= 1 /\ i = posA j c + e * t.
Proof.
  intros Hi. unfold posA.
  exists (i mod t), (i / t / 2), (i / t mod 2).
  assert (Hmod := Z.mod_pos_bound i t Ht).
  assert (Hdm := Z.div_mod i t ltac:(lia)).
  set (q := i / t) in *. set (r := i mod t) in *.
  assert (0 <= q < 2 * m) by nia.
  assert (Hq := Z.div_mod q 2 ltac:(lia)).
  assert (Hq2 := Z.mod_pos_bound q 2 ltac:(lia)).
  set (q2 := q / 2) in *. set (q0 := q mod 2) in *.
  repeat split; try lia; try nia.
Qed.

Let InvA := Inv n t t m posA P P'.

Lemma innerA j (body : Z -> list Z -> res (list Z)) a :
  0 <= j < t ->
  (forall c, 0 <= c < m -> bspec n t P P' (posA j c) (body (posA j c))) ->
  InvA j a ->
  exists a', cfor (fuel n) j (fun s => s <? n) (fun s => u32 (s + u32 (t + t))) body a = Ok a'
             /\ InvA (j + 1) a'.
Proof.
  intros Hj Hb HI.
  apply inner_loop with (j := j) (P := P) (P' := P') (C := m) (pos := posA) (h := t)
                        (J := t) (n := n); auto; try lia.
  - apply posA_range.
  - apply posA_inj.
  - apply posA_surj.
  - intros c Hc. assert (H := posA_range j c Hj Hc). lia.
  - unfold posA. assert (n <= j + m * (2 * t)) by nia. lia.
  - intros c Hc. assert (H := posA_range j c Hj Hc). unfold posA in *.
    assert (t <= n) by nia.
    rewrite (u32_small (t + t)) by lia. rewrite u32_small by lia. lia.
  - unfold posA. lia.
  - unfold fuel. nia.
Qed.

(** Round with a multiplication for every [j]. *)
Lemma stageA_mul (body : Z -> Z -> list Z -> res (list Z)) (p : list Z) a :
  zlen p = n ->
  (forall j c, 0 <= j < t -> 0 <= c < m ->
     bspec n t P P' (posA j c) (body (at_ p (t + j)) (posA j c))) ->
  zlen a = n -> (forall i, 0 <= i < n -> P i (at_ a i)) ->
  exists a',
    cfor (fuel n) 0 (fun j => j <? t) (fun j => u32 (j + 1)) (fun j a =>
      do w <- rd p (u32 (t + j));
      cfor (fuel n) j (fun s => s <? n) (fun s => u32 (s + u32 (t + t)))
        (fun s a => body w s a) a) a = Ok a'
    /\ zlen a' = n /\ (forall i, 0 <= i < n -> P' i (at_ a' i)).
Proof.
  intros Hp Hb HL HP. assert (Htn : 2 * t <= n) by nia.
  destruct (cfor_count InvA t (fun c => c) (fun j => j <? t) (fun j => u32 (j + 1))
    (fun j a => do w <- rd p (u32 (t + j));
      cfor (fuel n) j (fun s => s <? n) (fun s => u32 (s + u32 (t + t)))
        (fun s a => body w s a) a)) with (f := fuel n) (i0 := 0) (st := a)
    as (r & Hr & HI); try lia.
  - intros. apply u32_small. lia.
  - intros j b Hj HI. rewrite u32_small by nia. rewrite rd_ok by nia. cbn [bind].
    apply innerA; auto.
  - unfold fuel. nia.
  - apply Inv_start; auto using posA_range, posA_inj, posA_surj with zarith.
  - exists r. split; [assumption|].
    apply Inv_end with (n := n) (h := t) (J := t) (C := m) (pos := posA) (P := P) (P' := P');
      auto using posA_range, posA_inj, posA_surj with zarith.
Qed.

(** Round whose [j = 0] column has no multiplication. *)
Lemma stageA_plain (body0 : Z -> list Z -> res (list Z))
      (body : Z -> Z -> list Z -> res (list Z)) (p : list Z) (tw : Z -> Z) (w : Z -> Z) a :
  (forall j, 0 < j < t -> rd p (tw j) = Ok (w j)) ->
  (forall c, 0 <= c < m -> bspec n t P P' (posA 0 c) (body0 (posA 0 c))) ->
  (forall j c, 0 < j < t -> 0 <= c < m ->
     bspec n t P P' (posA j c) (body (w j) (posA j c))) ->
  zlen a = n -> (forall i, 0 <= i < n -> P i (at_ a i)) ->
  exists a',
    (do a <- cfor (fuel n) 0 (fun s => s <? n) (fun s => u32 (s + u32 (t + t)))
              (fun s a => body0 s a) a;
     cfor (fuel n) 1 (fun j => j <? t) (fun j => u32 (j + 1)) (fun j a =>
      do w <- rd p (tw j);
      cfor (fuel n) j (fun s => s <? n) (fun s => u32 (s + u32 (t + t)))
        (fun s a => body w s a) a) a) = Ok a'
    /\ zlen a' = n /\ (forall i, 0 <= i < n -> P' i (at_ a' i)).
Proof.
  intros Hp Hb0 Hb HL HP. assert (Htn : 2 * t <= n) by nia.
  destruct (innerA 0 (fun s a => body0 s a) a) as (a1 & Ha1 & HI1); auto; try lia.
  { apply Inv_start; auto using posA_range, posA_inj, posA_surj with zarith. }
  rewrite Ha1. cbn [bind].
  destruct (cfor_count (fun c => InvA (c + 1)) (t - 1) (fun c => c + 1)
    (fun j => j <? t) (fun j => u32 (j + 1))
    (fun j a => do w <- rd p (tw j);
      cfor (fuel n) j (fun s => s <? n) (fun s => u32 (s + u32 (t + t)))
        (fun s a => body w s a) a)) with (f := fuel n) (i0 := 1) (st := a1)
    as (r & Hr & HI); try lia; auto.
  - intros. apply u32_small. lia.
  - intros j b Hj HI. rewrite Hp by lia. cbn [bind].
    apply innerA; auto; try lia. intros. apply Hb; lia.
  - unfold fuel. nia.
  - exists r. split; [assumption|].
    replace (t - 1 + 1) with t in HI by lia.
    apply Inv_end with (n := n) (h := t) (J := t) (C := m) (pos := posA) (P := P) (P' := P');
      auto using posA_range, posA_inj, posA_surj with zarith.
Qed.

End ShapeA.

(** ** Shape B *)

Section ShapeB.
Variables (n t d : Z) (P P' : Z -> Z -> Prop).
Hypothesis Ht : 0 < t.
Hypothesis Hd : 0 < d.
Hypothesis Hn : n = 2 * t * d.
Hypothesis Hn31 : n <= 2147483648.

Definition posB (j c : Z) : Z := 2 * d * j + c.

Lemma posB_range j c : 0 <= j < t -> 0 <= c < d -> 0 <= posB j c /\ posB j c + d < n.
Proof. unfold posB. intros. nia. Qed.

Lemma posB_inj j c e j' c' e' :
  0 <= j < t -> 0 <= c < d -> 0 <= e <= 1 ->
  0 <= j' < t -> 0 <= c' < d -> 0 <= e' <= 1 ->
  posB j c + e * d = posB j' c' + e' * d -> j = j' /\ c = c' /\ e = e'.
Proof.
  unfold posB. intros.
  destruct (divmod_unique d (2 * j + e) (2 * j' + e') c c'); try lia.
Qed.

Lemma posB_surj i : 0 <= i < n ->
  exists j c e, 0 <= j < t /\ 0 <= c < d /\ 0 <= e <= 1 /\ i = posB j c + e * d.
Proof.
  intros Hi. unfold posB.
  exists (i / d / 2), (i mod d), (i / d mod 2).
  assert (Hmod := Z.mod_pos_bound i d Hd).
  assert (Hdm := Z.div_mod i d ltac:(lia)).
  set (q := i / d) in *. set (r := i mod d) in *.
  assert (0 <= q < 2 * t) by nia.
  assert (Hq := Z.div_mod q 2 ltac:(lia)).
  assert (Hq2 := Z.mod_pos_bound q 2 ltac:(lia)).
  set (q2 := q / 2) in *. set (q0 := q mod 2) in *.
  repeat split; try lia; try nia.
Qed.

Let InvB := Inv n d t d posB P P'.

Lemma innerB j u lim (body : Z -> list Z -> res (list Z)) a :
  0 <= j < t -> u = 2 * d * j -> lim = u + d ->
  (forall c, 0 <= c < d -> bspec n d P P' (posB j c) (body (posB j c))) ->
  InvB j a ->
  exists a', cfor (fuel n) u (fun s => s <? lim) (fun s => u32 (s + 1)) body a = Ok a'
             /\ InvB (j + 1) a'.
Proof.
  intros Hj Hu Hlim Hb HI.
  apply inner_loop with (j := j) (P := P) (P' := P') (C := d) (pos := posB) (h := d)
                        (J := t) (n := n); auto; try lia.
  - apply posB_range.
  - apply posB_inj.
  - apply posB_surj.
  - unfold posB. intros. lia.
  - unfold posB. lia.
  - unfold posB. intros. rewrite u32_small by nia. lia.
  - unfold posB. lia.
  - unfold fuel. nia.
Qed.

(** [u] updated after the inner loop, all columns multiplied. *)
Lemma stageB_mul (body : Z -> Z -> list Z -> res (list Z)) (p : list Z) a :
  zlen p = n ->
  (forall j c, 0 <= j < t -> 0 <= c < d ->
     bspec n d P P' (posB j c) (body (at_ p (t + j)) (posB j c))) ->
  zlen a = n -> (forall i, 0 <= i < n -> P i (at_ a i)) ->
  exists u' a',
    cfor (fuel n) 0 (fun j => j <? t) (fun j => u32 (j + 1)) (fun j '(u, a) =>
      do w <- rd p (u32 (t + j));
      do a <- cfor (fuel n) u (fun s => s <? u32 (u + d)) (fun s => u32 (s + 1))
                (fun s a => body w s a) a;
      Ok (u32 (u + u32 (2 * d)), a)) (0, a) = Ok (u', a')
    /\ zlen a' = n /\ (forall i, 0 <= i < n -> P' i (at_ a' i)).
Proof.
  intros Hp Hb HL HP. assert (Htn : 2 * t <= n) by nia.
  destruct (cfor_count (fun j '(u, a) => u = 2 * d * j /\ InvB j a) t (fun c => c)
    (fun j => j <? t) (fun j => u32 (j + 1))
    (fun j '(u, a) =>
      do w <- rd p (u32 (t + j));
      do a <- cfor (fuel n) u (fun s => s <? u32 (u + d)) (fun s => u32 (s + 1))
                (fun s a => body w s a) a;
      Ok (u32 (u + u32 (2 * d)), a)))
    with (f := fuel n) (i0 := 0) (st := (0, a)) as ([u' r] & Hr & _ & HI); try lia.
  - intros. apply u32_small. lia.
  - intros j [u b] Hj [Hu HI]. rewrite u32_small by nia. rewrite rd_ok by nia. cbn [bind].
    destruct (innerB j u (u32 (u + d)) (fun s a => body (at_ p (t + j)) s a) b)
      as (b' & Hb' & HI'); auto.
    { rewrite u32_small; nia. }
    rewrite Hb'. cbn [bind]. eexists. split; [reflexivity|]. cbv beta iota. split; [|assumption].
    rewrite (u32_small (2 * d)) by nia. rewrite u32_small by nia. lia.
  - unfold fuel. nia.
  - split; [lia|]. apply Inv_start; auto using posB_range, posB_inj, posB_surj with zarith.
  - exists u', r. split; [assumption|].
    apply Inv_end with (n := n) (h := d) (J := t) (C := d) (pos := posB) (P := P) (P' := P');
      auto using posB_range, posB_inj, posB_surj with zarith.
Qed.

(** First column without multiplication; [u] is updated after the inner loop
    (Gentleman-Sande text). *)
Lemma stageB_plain_gs (body0 : Z -> list Z -> res (list Z))
      (body : Z -> Z -> list Z -> res (list Z)) (p : list Z) a :
  zlen p = n ->
  (forall c, 0 <= c < d -> bspec n d P P' (posB 0 c) (body0 (posB 0 c))) ->
  (forall j c, 0 < j < t -> 0 <= c < d ->
     bspec n d P P' (posB j c) (body (at_ p (t + j)) (posB j c))) ->
  zlen a = n -> (forall i, 0 <= i < n -> P i (at_ a i)) ->
  exists u' a',
    (do a <- cfor (fuel n) 0 (fun s => s <? d) (fun s => u32 (s + 1))
              (fun s a => body0 s a) a;
     cfor (fuel n) 1 (fun j => j <? t) (fun j => u32 (j + 1)) (fun j '(u, a) =>
      do w <- rd p (u32 (t + j));
      do a <- cfor (fuel n) u (fun s => s <? u32 (u + d)) (fun s => u32 (s + 1))
                (fun s a => body w s a) a;
      Ok (u32 (u + u32 (2 * d)), a)) (u32 (2 * d), a)) = Ok (u', a')
    /\ zlen a' = n /\ (forall i, 0 <= i < n -> P' i (at_ a' i)).
Proof.
  intros Hp Hb0 Hb HL HP. assert (Htn : 2 * t <= n) by nia.
  destruct (innerB 0 0 d (fun s a => body0 s a) a) as (a1 & Ha1 & HI1); auto; try lia.
  { apply Inv_start; auto using posB_range, posB_inj, posB_surj with zarith. }
  rewrite Ha1. cbn [bind].
  destruct (cfor_count (fun c '(u, a) => u = 2 * d * (c + 1) /\ InvB (c + 1) a)
    (t - 1) (fun c => c + 1)
    (fun j => j <? t) (fun j => u32 (j + 1))
    (fun j '(u, a) =>
      do w <- rd p (u32 (t + j));
      do a <- cfor (fuel n) u (fun s => s <? u32 (u + d)) (fun s => u32 (s + 1))
                (fun s a => body w s a) a;
      Ok (u32 (u + u32 (2 * d)), a)))
    with (f := fuel n) (i0 := 1) (st := (u32 (2 * d), a1)) as ([u' r] & Hr & _ & HI); try lia.
  - intros. apply u32_small. lia.
  - intros c [u b] Hc [Hu HI].
    assert (2 * d * (c + 1) + 2 * d <= n) by nia.
    rewrite u32_small by nia. rewrite rd_ok by nia. cbn [bind].
    destruct (innerB (c + 1) u (u32 (u + d)) (fun s a => body (at_ p (t + (c + 1))) s a) b)
      as (b' & Hb' & HI'); auto; try lia.
    { rewrite u32_small; lia. }
    { intros. apply Hb; lia. }
    rewrite Hb'. cbn [bind]. eexists. split; [reflexivity|]. cbv beta iota. split; [|assumption].
    rewrite (u32_small (2 * d)) by lia. rewrite u32_small by lia. lia.
  - unfold fuel. nia.
  - cbv beta iota. split; [rewrite u32_small; nia|]. exact HI1.
  - exists u', r. split; [assumption|].
    replace (t - 1 + 1) with t in HI by lia.
    apply Inv_end with (n := n) (h := d) (J := t) (C := d) (pos := posB) (P := P) (P' := P');
      auto using posB_range, posB_inj, posB_surj with zarith.
Qed.

(** First column without multiplication; [u] is updated before the inner loop
    (Cooley-Tukey text). *)
Lemma stageB_plain_ct (body0 : Z -> list Z -> res (list Z))
      (body : Z -> Z -> list Z -> res (list Z)) (p : list Z) a :
  zlen p = n ->
  (forall c, 0 <= c < d -> bspec n d P P' (posB 0 c) (body0 (posB 0 c))) ->
  (forall j c, 0 < j < t -> 0 <= c < d ->
     bspec n d P P' (posB j c) (body (at_ p (t + j)) (posB j c))) ->
  zlen a = n -> (forall i, 0 <= i < n -> P i (at_ a i)) ->
  exists u' a',
    (do a <- cfor (fuel n) 0 (fun s => s <? d) (fun s => u32 (s + 1))
              (fun s a => body0 s a) a;
     cfor (fuel n) 1 (fun j => j <? t) (fun j => u32 (j + 1)) (fun j '(u, a) =>
      do w <- rd p (u32 (t + j));
      let u := u32 (u + u32 (2 * d)) in
      do a <- cfor (fuel n) u (fun s => s <? u32 (u + d)) (fun s => u32 (s + 1))
                (fun s a => body w s a) a;
      Ok (u, a)) (0, a)) = Ok (u', a')
    /\ zlen a' = n /\ (forall i, 0 <= i < n -> P' i (at_ a' i)).
Proof.
  intros Hp Hb0 Hb HL HP. assert (Htn : 2 * t <= n) by nia.
  destruct (innerB 0 0 d (fun s a => body0 s a) a) as (a1 & Ha1 & HI1); auto; try lia.
  { apply Inv_start; auto using posB_range, posB_inj, posB_surj with zarith. }
  rewrite Ha1. cbn [bind].
  destruct (cfor_count (fun c '(u, a) => u = 2 * d * c /\ InvB (c + 1) a)
    (t - 1) (fun c => c + 1)
    (fun j => j <? t) (fun j => u32 (j + 1))
    (fun j '(u, a) =>
      do w <- rd p (u32 (t + j));
      let u := u32 (u + u32 (2 * d)) in
      do a <- cfor (fuel n) u (fun s => s <? u32 (u + d)) (fun s => u32 (s + 1))
                (fun s a => body w s a) a;
      Ok (u, a)))
    with (f := fuel n) (i0 := 1) (st := (0, a1)) as ([u' r] & Hr & _ & HI); try lia.
  - intros. apply u32_small. lia.
  - intros c [u b] Hc [Hu HI].
    assert (2 * d * (c + 1) + 2 * d <= n) by nia.
    rewrite (u32_small (t + (c + 1))) by nia. rewrite rd_ok by nia. cbn [bind].
    assert (Hu' : u32 (u + u32 (2 * d)) = 2 * d * (c + 1)).
    { rewrite (u32_small (2 * d)) by lia. rewrite u32_small by lia. lia. }
    rewrite Hu'. cbv zeta.
    destruct (innerB (c + 1) (2 * d * (c + 1)) (u32 (2 * d * (c + 1) + d))
                     (fun s a => body (at_ p (t + (c + 1))) s a) b)
      as (b' & Hb' & HI'); auto; try lia.
    { rewrite u32_small; lia. }
    { intros. apply Hb; lia. }
    rewrite Hb'. cbn [bind]. eexists. split; [reflexivity|]. cbv beta iota. split; [|assumption].
    lia.
  - unfold fuel. nia.
  - cbv beta iota. split; [lia|]. exact HI1.
  - exists u', r. split; [assumption|].
    replace (t - 1 + 1) with t in HI by lia.
    apply Inv_end with (n := n) (h := d) (J := t) (C := d) (pos := posB) (P := P) (P' := P');
      auto using posB_range, posB_inj, posB_surj with zarith.
Qed.

End ShapeB.
