(** The C functions on arbitrary contents: they terminate and stay inside their arrays; the only
    failures are arithmetic.  The rules and the loop shapes. *)

From Coq Require Import ZArith List Bool Lia.
From Verif Require Import CSem Spec Loops.
From Verif Require ModelNtt ModelNaive ModelRed.
Import ListNotations.
Open Scope Z_scope.

(** [m] gives a result that satisfies [P], or a failure of the kinds [E] *)
Definition safe (E : err -> Prop) {A} (P : A -> Prop) (m : res A) : Prop :=
  match m with Ok r => P r | Err e => E e end.

Section Safe.
Variable E : err -> Prop.

Lemma safe_bind {A B} (P : A -> Prop) (R : B -> Prop) (m : res A) (f : A -> res B) :
  safe E P m -> (forall x, P x -> safe E R (f x)) -> safe E R (bind m f).
Proof. destruct m; cbn; auto. Qed.
Lemma safe_weak {A} (P R : A -> Prop) (m : res A) : (forall x, P x -> R x) -> safe E P m -> safe E R m.
Proof. destruct m; cbn; auto. Qed.
Lemma safe_ok {A} (P : A -> Prop) (x : A) : P x -> safe E P (Ok x).
Proof. exact (fun H => H). Qed.

Lemma safe_cfor {S} (I : Z -> S -> Prop) (m : Z -> Z)
      (cond : Z -> bool) (next : Z -> Z) (body : Z -> S -> res S) :
  (forall i st, I i st -> cond i = true ->
     0 < m i /\ m (next i) < m i /\ safe E (I (next i)) (body i st)) ->
  forall f i st, I i st -> (Z.to_nat (m i) < f)%nat ->
    safe E (fun r => exists i', I i' r /\ cond i' = false) (cfor f i cond next body st).
Proof.
  intros Hb. induction f; intros i st HI Hf; [lia|]. cbn [cfor].
  destruct (cond i) eqn:Hc; [|cbn; eauto].
  destruct (Hb i st HI Hc) as (Hp & Hlt & Hs). apply (safe_bind (I (next i))); [exact Hs|].
  intros st' HI'. apply IHf; [exact HI'|lia].
Qed.

Lemma safe_rd a i : 0 <= i < zlen a -> safe E (fun _ => True) (rd a i).
Proof. intros H. rewrite rd_ok by exact H. exact I. Qed.
Lemma safe_wr L a i v : zlen a = L -> 0 <= i < L -> safe E (fun r => zlen r = L) (wr a i v).
Proof. intros <- H. rewrite wr_ok by exact H. cbn. apply aset_len. Qed.

Hypothesis Eov : E SignedOverflow.
Lemma safe_i32 z : safe E (fun _ => True) (i32 z).
Proof. unfold i32. destruct in_i32; cbn; auto. Qed.
Lemma safe_i64 z : safe E (fun _ => True) (i64 z).
Proof. unfold i64. destruct in_i64; cbn; auto. Qed.
Lemma safe_rem32 x y : y <> 0 \/ E DivByZero -> safe E (fun _ => True) (rem32 x y).
Proof.
  unfold rem32. intros H. destruct (Z.eqb_spec y 0).
  - cbn. destruct H as [H|H]; [contradiction|exact H].
  - destruct (_ && _); cbn; auto.
Qed.
Lemma safe_rem64 x y : y <> 0 \/ E DivByZero -> safe E (fun _ => True) (rem64 x y).
Proof.
  unfold rem64. intros H. destruct (Z.eqb_spec y 0).
  - cbn. destruct H as [H|H]; [contradiction|exact H].
  - destruct (_ && _); cbn; auto.
Qed.
Lemma safe_assert b : E AssertFail -> safe E (fun _ => True) (cassert b).
Proof. intros H. destruct b; cbn; auto. Qed.
End Safe.

Lemma u32_id x : 0 <= x < 2 ^ 32 -> u32 x = x.
Proof. intros H. apply Z.mod_small. exact H. Qed.

(** [for (i = 0; i < m; i++)] *)
Lemma safe_array E {S} (P : S -> Prop) m (body : Z -> S -> res S) st :
  0 <= m < 2 ^ 32 -> (forall i x, 0 <= i < m -> P x -> safe E P (body i x)) -> P st ->
  safe E P (cfor (fuel m) 0 (fun i => i <? m) (fun i => u32 (i + 1)) body st).
Proof.
  intros Hm Hb HP.
  apply (safe_weak E (fun r => exists i', (0 <= i' <= m /\ P r) /\ (i' <? m) = false)).
  { intros x (i' & (_ & H) & _). exact H. }
  apply (safe_cfor E (fun i x => 0 <= i <= m /\ P x) (fun i => m - i)).
  - intros i x [Hi Hx] Hc. apply Z.ltb_lt in Hc. rewrite u32_id by lia.
    split; [lia|]. split; [lia|]. apply (safe_weak E P); [intros; split; [lia|assumption]|].
    apply Hb; [lia|exact Hx].
  - split; [lia|exact HP].
  - unfold fuel. lia.
Qed.

(** ** Loop shapes: [n = 2^k], arrays of [L >= n] elements *)
Section Shapes.
Variables (E : err -> Prop) (k L : Z).
Hypotheses (Hk : 0 <= k <= 31) (HL : 2 ^ k <= L).
Notation n := (2 ^ k).
Definition len (a : list Z) : Prop := zlen a = L.
Lemma n_bounds : 1 <= n <= 2 ^ 31.
Proof.
  split; [assert (0 < n) by (apply Z.pow_pos_nonneg; lia); lia|apply Z.pow_le_mono_r; lia].
Qed.
Lemma n_split e : 0 <= e < k -> exists m, 1 <= m /\ n = 2 * 2 ^ e * m /\ m = 2 ^ (k - 1 - e).
Proof.
  intros He. exists (2 ^ (k - 1 - e)). split; [assert (0 < 2 ^ (k - 1 - e)) by (apply Z.pow_pos_nonneg; lia); lia|].
  split; [|reflexivity]. rewrite <- (Z.pow_succ_r 2 e) by lia. rewrite <- Z.pow_add_r by lia. f_equal. lia.
Qed.
Lemma pow_lt_inv e : 0 <= e <= k -> 2 ^ e < n -> e < k.
Proof. intros He H. apply (Z.pow_lt_mono_r_iff 2); lia. Qed.

(** [for (s = j; s < n; s += t + t)] *)
Lemma safe_stride j e (body : Z -> list Z -> res (list Z)) a :
  0 <= e < k -> 0 <= j < 2 ^ e ->
  (forall s a, 0 <= s -> s + 2 ^ e < n -> len a -> safe E len (body s a)) -> len a ->
  safe E len (cfor (fuel n) j (fun s => s <? n) (fun s => u32 (s + u32 (2 ^ e + 2 ^ e))) body a).
Proof.
  intros He Hj Hb Ha. destruct (n_split e He) as (m & Hm & Hn & _). pose proof n_bounds as Hn1.
  set (t := 2 ^ e) in *.
  apply (safe_weak E (fun r => exists i', ((exists c, 0 <= c /\ i' = j + 2 * t * c) /\ len r) /\ (i' <? n) = false)).
  { intros x (i' & (_ & H) & _). exact H. }
  assert (Ht : 2 * t <= n) by nia.
  apply (safe_cfor E (fun i x => (exists c, 0 <= c /\ i = j + 2 * t * c) /\ len x) (fun i => n - i)).
  - intros i x [(c & Hc0 & Hi) Hx] Hc. apply Z.ltb_lt in Hc.
    assert (0 <= i) by nia. rewrite (u32_id (t + t)) by lia. rewrite u32_id by lia.
    split; [lia|]. split; [lia|].
    apply (safe_weak E len).
    { intros y Hy. split; [|exact Hy]. exists (c + 1). split; [lia|]. rewrite Hi. ring. }
    assert (c < m) by (clear - Hc Hi Hn Hj Hc0 Hm; nia).
    apply Hb; [assumption| |exact Hx]. clear - Hi Hn Hj H0 Hc0 Hm. nia.
  - split; [exists 0; lia|exact Ha].
  - unfold fuel. lia.
Qed.

(** [for (s = u; s < u + d; s++)] *)
Lemma safe_block u d (body : Z -> list Z -> res (list Z)) a :
  0 <= u -> 0 <= d -> u + d <= n ->
  (forall s a, u <= s < u + d -> len a -> safe E len (body s a)) -> len a ->
  safe E len (cfor (fuel n) u (fun s => s <? u32 (u + d)) (fun s => u32 (s + 1)) body a).
Proof.
  intros Hu Hd Hud Hb Ha. pose proof n_bounds as Hn1. rewrite (u32_id (u + d)) by lia.
  apply (safe_weak E (fun r => exists i', (u <= i' <= u + d /\ len r) /\ (i' <? u + d) = false)).
  { intros x (i' & (_ & H) & _). exact H. }
  apply (safe_cfor E (fun i x => u <= i <= u + d /\ len x) (fun i => n - i)).
  - intros i x [Hi Hx] Hc. apply Z.ltb_lt in Hc. rewrite u32_id by lia.
    split; [lia|]. split; [lia|]. apply (safe_weak E len); [intros; split; [lia|assumption]|].
    apply Hb; [lia|exact Hx].
  - split; [lia|exact Ha].
  - unfold fuel. lia.
Qed.
Lemma safe_block0 d (body : Z -> list Z -> res (list Z)) a :
  0 <= d <= n -> (forall s a, 0 <= s < d -> len a -> safe E len (body s a)) -> len a ->
  safe E len (cfor (fuel n) 0 (fun s => s <? d) (fun s => u32 (s + 1)) body a).
Proof.
  intros Hd Hb Ha. pose proof (safe_block 0 d body a) as H. pose proof n_bounds as Hn1.
  rewrite (u32_id (0 + d)) in H by lia. rewrite Z.add_0_l in H. apply H; try lia; assumption.
Qed.

(** [for (j = j0; j < t; j++)] *)
Lemma safe_count {S} (I : Z -> S -> Prop) j0 t (body : Z -> S -> res S) st :
  0 <= j0 <= t -> t <= n ->
  (forall j x, j0 <= j < t -> I j x -> safe E (I (j + 1)) (body j x)) -> I j0 st ->
  safe E (I t) (cfor (fuel n) j0 (fun j => j <? t) (fun j => u32 (j + 1)) body st).
Proof.
  intros Hj Ht Hb HI. pose proof n_bounds as Hn1.
  apply (safe_weak E (fun r => exists i', (j0 <= i' <= t /\ I i' r) /\ (i' <? t) = false)).
  { intros x (i' & (Hi & H) & Hc). apply Z.ltb_ge in Hc. replace t with i' by lia. exact H. }
  apply (safe_cfor E (fun i x => j0 <= i <= t /\ I i x) (fun i => n - i)).
  - intros i x [Hi Hx] Hc. apply Z.ltb_lt in Hc. rewrite u32_id by lia.
    split; [lia|]. split; [lia|]. apply (safe_weak E (I (i + 1))); [intros; split; [lia|assumption]|].
    apply Hb; [lia|exact Hx].
  - split; [lia|exact HI].
  - unfold fuel. lia.
Qed.

(** [for (t = 1; t < n; t *= 2)] *)
Lemma safe_levels {S} (I : Z -> S -> Prop) (body : Z -> S -> res S) st :
  (forall e x, 0 <= e < k -> I e x -> safe E (I (e + 1)) (body (2 ^ e) x)) -> I 0 st ->
  safe E (I k) (cfor (fuel n) 1 (fun t => t <? n) (fun t => u32 (t * 2)) body st).
Proof.
  intros Hb HI. pose proof n_bounds as Hn1.
  apply (safe_weak E (fun r => exists i', (exists e, 0 <= e <= k /\ i' = 2 ^ e /\ I e r) /\ (i' <? n) = false)).
  { intros x (i' & (e & He & -> & H) & Hc). apply Z.ltb_ge in Hc.
    assert (e = k); [|subst; exact H]. destruct (Z.eq_dec e k); [assumption|].
    assert (2 ^ e < 2 ^ k) by (apply Z.pow_lt_mono_r; lia). lia. }
  apply (safe_cfor E (fun i x => exists e, 0 <= e <= k /\ i = 2 ^ e /\ I e x) (fun i => n - i)).
  - intros i x (e & He & -> & Hx) Hc. apply Z.ltb_lt in Hc.
    assert (e < k) by (apply pow_lt_inv; assumption).
    assert (0 < 2 ^ e) by (apply Z.pow_pos_nonneg; lia).
    rewrite u32_id by lia. split; [lia|]. split; [lia|].
    apply (safe_weak E (I (e + 1))).
    { intros y Hy. exists (e + 1). split; [lia|]. split; [|exact Hy]. rewrite Z.pow_add_r by lia. reflexivity. }
    apply Hb; [lia|exact Hx].
  - exists 0. split; [lia|]. split; [reflexivity|exact HI].
  - unfold fuel. lia.
Qed.

(** [for (t = n/2; t > 0; t >>= 1)] *)
Lemma safe_levels_down (body : Z -> list Z -> res (list Z)) a :
  (forall e x, 0 <= e < k -> len x -> safe E len (body (2 ^ e) x)) -> len a ->
  safe E len (cfor (fuel n) (Z.shiftr n 1) (fun t => 0 <? t) (fun t => Z.shiftr t 1) body a).
Proof.
  intros Hb Ha. pose proof n_bounds as Hn1.
  assert (Hsh : forall e, 0 <= e -> Z.shiftr (2 ^ e) 1 = 0 /\ e = 0 \/ 0 < e /\ Z.shiftr (2 ^ e) 1 = 2 ^ (e - 1)).
  { intros e He. rewrite Z.shiftr_div_pow2 by lia. destruct (Z.eq_dec e 0) as [->|Hne]; [left; split; reflexivity|].
    right. split; [lia|]. replace e with (e - 1 + 1) at 1 by lia. rewrite Z.pow_add_r by lia.
    apply Z.div_mul. discriminate. }
  apply (safe_weak E (fun r => exists i', ((i' = 0 \/ exists e, 0 <= e < k /\ i' = 2 ^ e) /\ len r) /\ (0 <? i') = false)).
  { intros x (i' & (_ & H) & _). exact H. }
  apply (safe_cfor E (fun i x => (i = 0 \/ exists e, 0 <= e < k /\ i = 2 ^ e) /\ len x) (fun i => i)).
  - intros i x [[->|(e & He & ->)] Hx] Hc; [discriminate|].
    assert (0 < 2 ^ e) by (apply Z.pow_pos_nonneg; lia).
    split; [assumption|]. split.
    { rewrite Z.shiftr_div_pow2 by lia. apply Z.div_lt; lia. }
    apply (safe_weak E len); [|apply Hb; assumption]. intros y Hy. split; [|exact Hy].
    destruct (Hsh e ltac:(lia)) as [[-> _]|[He1 ->]]; [left; reflexivity|right; exists (e - 1); split; [lia|reflexivity]].
  - split; [|exact Ha]. destruct (Hsh k ltac:(lia)) as [[-> _]|[Hk1 ->]]; [left; reflexivity|].
    right. exists (k - 1). split; [lia|reflexivity].
  - unfold fuel. rewrite Z.shiftr_div_pow2 by lia.
    assert (n / 2 ^ 1 < n) by (apply Z.div_lt; lia). lia.
Qed.

(** ** The transforms, for any butterflies that stay in bounds *)
Definition good (b : Z -> Z -> list Z -> res (list Z)) : Prop :=
  forall s t a, 0 <= s -> 0 <= t -> s + t < n -> len a -> safe E len (b s t a).

Variables (b0 : Z -> Z -> list Z -> res (list Z)) (b : Z -> Z -> Z -> list Z -> res (list Z)) (p : list Z).
Hypotheses (G0 : good b0) (G : forall w, good (b w)) (Hp : n <= zlen p).

Lemma rd_p e j : 0 <= e < k -> 0 <= j < 2 ^ e -> safe E (fun _ => True) (rd p (u32 (2 ^ e + j))).
Proof.
  intros He Hj. destruct (n_split e He) as (m & Hm & Hn & _). pose proof n_bounds.
  assert (2 * 2 ^ e <= n) by nia. rewrite u32_id by lia. apply safe_rd. lia.
Qed.
Lemma rows_from j0 e a : 0 <= e < k -> 0 <= j0 <= 1 -> len a ->
  safe E len (cfor (fuel n) j0 (fun j => j <? 2 ^ e) (fun j => u32 (j + 1)) (fun j a =>
      do w <- rd p (u32 (2 ^ e + j));
      cfor (fuel n) j (fun s => s <? n) (fun s => u32 (s + u32 (2 ^ e + 2 ^ e)))
        (fun s a => b w s (2 ^ e) a) a) a).
Proof.
  intros He Hj0 Ha. assert (0 < 2 ^ e) by (apply Z.pow_pos_nonneg; lia).
  assert (2 ^ e < n) by (apply Z.pow_lt_mono_r; lia).
  apply (safe_count (fun _ => len)); [lia|lia| |exact Ha].
  intros j x Hj Hx. apply (safe_bind E (fun _ => True)); [apply rd_p; lia|]. intros w _.
  apply safe_stride; [lia|lia| |exact Hx]. intros s y Hs Hst Hy. apply G; [assumption|lia|assumption|exact Hy].
Qed.
Lemma row0 e a : 0 <= e < k -> len a ->
  safe E len (cfor (fuel n) 0 (fun s => s <? n) (fun s => u32 (s + u32 (2 ^ e + 2 ^ e))) (fun s a => b0 s (2 ^ e) a) a).
Proof.
  intros He Ha. assert (0 < 2 ^ e) by (apply Z.pow_pos_nonneg; lia).
  apply safe_stride; [lia|lia| |exact Ha]. intros s y Hs Hst Hy. apply G0; [assumption|lia|assumption|exact Hy].
Qed.

Lemma shape_ct_rev2std a : len a ->
  safe E len (cfor (fuel n) 1 (fun t => t <? n) (fun t => u32 (t * 2)) (fun t a =>
    do a <- cfor (fuel n) 0 (fun s => s <? n) (fun s => u32 (s + u32 (t + t))) (fun s a => b0 s t a) a;
    cfor (fuel n) 1 (fun j => j <? t) (fun j => u32 (j + 1)) (fun j a =>
      do w <- rd p (u32 (t + j));
      cfor (fuel n) j (fun s => s <? n) (fun s => u32 (s + u32 (t + t)))
        (fun s a => b w s t a) a) a) a).
Proof.
  intros Ha. apply (safe_levels (fun _ => len)); [|exact Ha]. intros e x He Hx. cbv beta.
  apply (safe_bind E len); [apply row0; assumption|]. intros y Hy. apply rows_from; [assumption|lia|exact Hy].
Qed.
Lemma shape_mul_rev2std a : len a ->
  safe E len (cfor (fuel n) 1 (fun t => t <? n) (fun t => u32 (t * 2)) (fun t a =>
    cfor (fuel n) 0 (fun j => j <? t) (fun j => u32 (j + 1)) (fun j a =>
      do w <- rd p (u32 (t + j));
      cfor (fuel n) j (fun s => s <? n) (fun s => u32 (s + u32 (t + t)))
        (fun s a => b w s t a) a) a) a).
Proof.
  intros Ha. apply (safe_levels (fun _ => len)); [|exact Ha]. intros e x He Hx. cbv beta.
  apply rows_from; [assumption|lia|exact Hx].
Qed.
Lemma shape_gs_std2rev a : len a ->
  safe E len (cfor (fuel n) (Z.shiftr n 1) (fun t => 0 <? t) (fun t => Z.shiftr t 1) (fun t a =>
    do a <- cfor (fuel n) 0 (fun s => s <? n) (fun s => u32 (s + u32 (t + t))) (fun s a => b0 s t a) a;
    cfor (fuel n) 1 (fun j => j <? t) (fun j => u32 (j + 1)) (fun j a =>
      do w <- rd p (u32 (t + j));
      cfor (fuel n) j (fun s => s <? n) (fun s => u32 (s + u32 (t + t)))
        (fun s a => b w s t a) a) a) a).
Proof.
  intros Ha. apply safe_levels_down; [|exact Ha]. intros e x He Hx. cbv beta.
  apply (safe_bind E len); [apply row0; assumption|]. intros y Hy. apply rows_from; [assumption|lia|exact Hy].
Qed.
Lemma shape_mul_std2rev a : len a ->
  safe E len (cfor (fuel n) (Z.shiftr n 1) (fun t => 0 <? t) (fun t => Z.shiftr t 1) (fun t a =>
    cfor (fuel n) 0 (fun j => j <? t) (fun j => u32 (j + 1)) (fun j a =>
      do w <- rd p (u32 (t + j));
      cfor (fuel n) j (fun s => s <? n) (fun s => u32 (s + u32 (t + t)))
        (fun s a => b w s t a) a) a) a).
Proof.
  intros Ha. apply safe_levels_down; [|exact Ha]. intros e x He Hx. cbv beta.
  apply rows_from; [assumption|lia|exact Hx].
Qed.

Lemma shape_v1 a : len a ->
  safe E len (do '(_, a) <- cfor (fuel n) 1 (fun t => t <? n) (fun t => u32 (t * 2)) (fun t '(l, a) =>
    do a <- cfor (fuel n) 0 (fun s => s <? n) (fun s => u32 (s + u32 (t + t))) (fun s a => b0 s t a) a;
    do a <- cfor (fuel n) 1 (fun j => j <? t) (fun j => u32 (j + 1)) (fun j a =>
      do w <- rd p (u32 (j * l));
      cfor (fuel n) j (fun s => s <? n) (fun s => u32 (s + u32 (t + t)))
        (fun s a => b w s t a) a) a;
    Ok (Z.shiftr l 1, a)) (n, a);
  Ok a).
Proof.
  intros Ha. pose proof n_bounds as Hn1.
  apply (safe_bind E (fun st : Z * list Z => fst st = 2 ^ (k - k) /\ len (snd st))); [|intros [? y] [_ Hy]; exact Hy].
  apply (safe_levels (fun e (st : Z * list Z) => fst st = 2 ^ (k - e) /\ len (snd st))).
  2:{ split; [cbn [fst]; f_equal; lia|exact Ha]. }
  intros e [l x] He [El Hx]. cbn [fst snd] in El, Hx. cbv beta iota.
  assert (0 < 2 ^ e) by (apply Z.pow_pos_nonneg; lia).
  assert (2 ^ e < n) by (apply Z.pow_lt_mono_r; lia).
  assert (Hl : 2 ^ e * l = n) by (rewrite El, <- Z.pow_add_r by lia; f_equal; lia).
  apply (safe_bind E len); [apply row0; assumption|]. intros y Hy.
  apply (safe_bind E len).
  2:{ intros z Hz. apply safe_ok. split; [|exact Hz]. cbn [fst]. rewrite El, Z.shiftr_div_pow2 by lia.
      replace (k - e) with (k - (e + 1) + 1) by lia. rewrite Z.pow_add_r by lia. apply Z.div_mul. discriminate. }
  apply (safe_count (fun _ => len)); [lia|lia| |exact Hy].
  intros j z Hj Hz. apply (safe_bind E (fun _ => True)).
  { assert (0 <= j * l < n) by (clear - Hj Hl Hn1 H; nia). rewrite u32_id by lia. apply safe_rd. lia. }
  intros w _. apply safe_stride; [lia|lia| |exact Hz].
  intros s v Hs Hst Hv. apply G; [assumption|lia|assumption|exact Hv].
Qed.

(** the blocks: state [(u, a)] with [u = 2 d j] or [u = 2 d (j - 1)] *)
Lemma d_half e d : 0 <= e < k -> d = 2 ^ (k - e) -> Z.shiftr d 1 = 2 ^ (k - (e + 1)) /\ 2 * 2 ^ e * Z.shiftr d 1 = n /\ 1 <= Z.shiftr d 1.
Proof.
  intros He ->. rewrite Z.shiftr_div_pow2 by lia.
  replace (k - e) with (k - (e + 1) + 1) by lia. rewrite (Z.pow_add_r 2 (k - (e + 1)) 1) by lia.
  rewrite Z.div_mul by discriminate. split; [reflexivity|]. split.
  - rewrite <- (Z.pow_succ_r 2 e), <- Z.pow_add_r by lia. f_equal. lia.
  - assert (0 < 2 ^ (k - (e + 1))) by (apply Z.pow_pos_nonneg; lia). lia.
Qed.
Lemma at_block w u d a : 0 <= u -> 1 <= d -> u + 2 * d <= n -> len a ->
  safe E len (cfor (fuel n) u (fun s => s <? u32 (u + d)) (fun s => u32 (s + 1)) (fun s a => b w s d a) a).
Proof.
  intros Hu Hd Hud Ha. apply safe_block; [lia|lia|lia| |exact Ha].
  intros s x Hs Hx. apply G; [lia|lia|lia|exact Hx].
Qed.
Lemma at_block0 d a : 1 <= d -> 2 * d <= n -> len a ->
  safe E len (cfor (fuel n) 0 (fun s => s <? d) (fun s => u32 (s + 1)) (fun s a => b0 s d a) a).
Proof.
  intros Hd Hud Ha. apply safe_block0; [lia| |exact Ha].
  intros s x Hs Hx. apply G0; [lia|lia|lia|exact Hx].
Qed.
(** the counter advances after the block *)
Lemma blocks_after j0 e f d a : 0 <= e < k -> 0 <= j0 <= 1 -> 0 <= f < k -> 2 * 2 ^ e * d = n -> 1 <= d -> len a ->
  safe E (fun st : Z * list Z => len (snd st))
    (cfor (fuel n) j0 (fun j => j <? 2 ^ e) (fun j => u32 (j + 1)) (fun j '(u, a) =>
      do w <- rd p (u32 (2 ^ e + j));
      do a <- cfor (fuel n) u (fun s => s <? u32 (u + d)) (fun s => u32 (s + 1)) (fun s a => b w s d a) a;
      Ok (u32 (u + u32 (2 * d)), a)) (2 * d * j0, a)).
Proof.
  intros He Hj0 _ Hd Hd1 Ha. pose proof n_bounds as Hn1. assert (0 < 2 ^ e) by (apply Z.pow_pos_nonneg; lia).
  assert (2 ^ e < n) by (apply Z.pow_lt_mono_r; lia).
  apply (safe_weak E (fun st : Z * list Z => fst st = 2 * d * 2 ^ e /\ len (snd st))); [intros st [_ H1]; exact H1|].
  apply (safe_count (fun j (st : Z * list Z) => fst st = 2 * d * j /\ len (snd st))); [lia|lia| |].
  2:{ split; [reflexivity|exact Ha]. }
  intros j [u x] Hj [Eu Hx]. cbn [fst snd] in Eu, Hx. cbv beta iota.
  assert (0 <= u /\ u + 2 * d <= n).
  { assert (2 * d * (j + 1) <= 2 * d * 2 ^ e) by (apply Z.mul_le_mono_nonneg_l; lia).
    assert (0 <= d * j) by (apply Z.mul_nonneg_nonneg; lia). clear - Eu H1 H2 Hd. rewrite <- Hd. lia. }
  apply (safe_bind E (fun _ => True)); [apply rd_p; lia|]. intros w _.
  apply (safe_bind E len); [apply at_block; [lia|lia|lia|exact Hx]|].
  intros y Hy. apply safe_ok. split; [|exact Hy]. cbn [fst].
  rewrite (u32_id (2 * d)) by lia. rewrite u32_id by lia. rewrite Eu. ring.
Qed.
(** the counter advances before the block *)
Lemma blocks_before e d a : 0 <= e < k -> 2 * 2 ^ e * d = n -> 1 <= d -> len a ->
  safe E (fun st : Z * list Z => len (snd st))
    (cfor (fuel n) 1 (fun j => j <? 2 ^ e) (fun j => u32 (j + 1)) (fun j '(u, a) =>
      do w <- rd p (u32 (2 ^ e + j));
      let u := u32 (u + u32 (2 * d)) in
      do a <- cfor (fuel n) u (fun s => s <? u32 (u + d)) (fun s => u32 (s + 1)) (fun s a => b w s d a) a;
      Ok (u, a)) (0, a)).
Proof.
  intros He Hd Hd1 Ha. pose proof n_bounds as Hn1. assert (0 < 2 ^ e) by (apply Z.pow_pos_nonneg; lia).
  assert (2 ^ e < n) by (apply Z.pow_lt_mono_r; lia).
  apply (safe_weak E (fun st : Z * list Z => fst st = 2 * d * (2 ^ e - 1) /\ len (snd st))); [intros st [_ H1]; exact H1|].
  apply (safe_count (fun j (st : Z * list Z) => fst st = 2 * d * (j - 1) /\ len (snd st))); [lia|lia| |].
  2:{ split; [cbn [fst]; lia|exact Ha]. }
  intros j [u x] Hj [Eu Hx]. cbn [fst snd] in Eu, Hx. cbv beta iota zeta.
  assert (0 <= u /\ u + 2 * d + 2 * d <= n).
  { assert (2 * d * (j + 1) <= 2 * d * 2 ^ e) by (apply Z.mul_le_mono_nonneg_l; lia).
    assert (0 <= d * (j - 1)) by (apply Z.mul_nonneg_nonneg; lia). clear - Eu H1 H2 Hd. rewrite <- Hd. lia. }
  apply (safe_bind E (fun _ => True)); [apply rd_p; lia|]. intros w _.
  rewrite (u32_id (2 * d)) by lia. rewrite (u32_id (u + 2 * d)) by lia.
  apply (safe_bind E len); [apply at_block; [lia|lia|lia|exact Hx]|].
  intros y Hy. apply safe_ok. split; [|exact Hy]. cbn [fst]. rewrite Eu. ring.
Qed.

Definition invd (e : Z) (st : Z * list Z) : Prop := fst st = 2 ^ (k - e) /\ len (snd st).
Lemma levels_d (body : Z -> Z * list Z -> res (Z * list Z)) a :
  (forall e d x, 0 <= e < k -> d = 2 ^ (k - e) -> len x -> safe E (invd (e + 1)) (body (2 ^ e) (d, x))) -> len a ->
  safe E len (do '(_, a) <- cfor (fuel n) 1 (fun t => t <? n) (fun t => u32 (t * 2)) body (n, a); Ok a).
Proof.
  intros Hb Ha. apply (safe_bind E (invd k)); [|intros [? y] [_ Hy]; exact Hy].
  apply (safe_levels invd).
  - intros e [d x] He [Ed Hx]. apply Hb; assumption.
  - split; [cbn [fst]; f_equal; lia|exact Ha].
Qed.

Lemma shape_ct_std2rev a : len a ->
  safe E len (do '(_, a) <- cfor (fuel n) 1 (fun t => t <? n) (fun t => u32 (t * 2)) (fun t '(d, a) =>
    let d := Z.shiftr d 1 in
    do a <- cfor (fuel n) 0 (fun s => s <? d) (fun s => u32 (s + 1)) (fun s a => b0 s d a) a;
    do '(_, a) <- cfor (fuel n) 1 (fun j => j <? t) (fun j => u32 (j + 1)) (fun j '(u, a) =>
      do w <- rd p (u32 (t + j));
      let u := u32 (u + u32 (2 * d)) in
      do a <- cfor (fuel n) u (fun s => s <? u32 (u + d)) (fun s => u32 (s + 1)) (fun s a => b w s d a) a;
      Ok (u, a)) (0, a);
    Ok (d, a)) (n, a);
  Ok a).
Proof.
  apply levels_d. intros e d x He Ed Hx. cbv beta iota zeta. destruct (d_half e d He Ed) as (E1 & E2 & E3).
  assert (0 < 2 ^ e) by (apply Z.pow_pos_nonneg; lia).
  apply (safe_bind E len); [apply at_block0; [assumption|clear - E2 E3 H; nia|exact Hx]|]. intros y Hy.
  apply (safe_bind E (fun st : Z * list Z => len (snd st))); [apply blocks_before; assumption|].
  intros [u z] Hz. apply safe_ok. split; [exact E1|exact Hz].
Qed.
Lemma shape_mulct_std2rev a : len a ->
  safe E len (do '(_, a) <- cfor (fuel n) 1 (fun t => t <? n) (fun t => u32 (t * 2)) (fun t '(d, a) =>
    let d := Z.shiftr d 1 in
    do '(_, a) <- cfor (fuel n) 0 (fun j => j <? t) (fun j => u32 (j + 1)) (fun j '(u, a) =>
      do w <- rd p (u32 (t + j));
      do a <- cfor (fuel n) u (fun s => s <? u32 (u + d)) (fun s => u32 (s + 1)) (fun s a => b w s d a) a;
      Ok (u32 (u + u32 (2 * d)), a)) (0, a);
    Ok (d, a)) (n, a);
  Ok a).
Proof.
  apply levels_d. intros e d x He Ed Hx. cbv beta iota zeta. destruct (d_half e d He Ed) as (E1 & E2 & E3).
  apply (safe_bind E (fun st : Z * list Z => len (snd st))).
  { pose proof (blocks_after 0 e e (Z.shiftr d 1) x He ltac:(lia) He E2 E3 Hx) as H.
    rewrite Z.mul_0_r in H. exact H. }
  intros [u z] Hz. apply safe_ok. split; [exact E1|exact Hz].
Qed.

(** Gentleman-Sande: [d] counts up and [t] down *)
Lemma gs_levels (body : Z -> Z * list Z -> res (Z * list Z)) a :
  (forall e f x, 0 <= e < k -> f = k - 1 - e -> len x ->
     safe E (fun st => fst st = 2 ^ f /\ len (snd st)) (body (2 ^ e) (2 ^ (f + 1), x))) -> len a ->
  safe E len (do '(_, a) <- cfor (fuel n) 1 (fun t => t <? n) (fun t => u32 (t * 2)) body (n, a); Ok a).
Proof.
  intros Hb Ha. apply levels_d; [|exact Ha]. intros e d x He -> Hx.
  specialize (Hb e (k - 1 - e) x He eq_refl Hx). replace (k - 1 - e + 1) with (k - e) in Hb by lia.
  unfold invd. replace (k - (e + 1)) with (k - 1 - e) by lia. exact Hb.
Qed.
Lemma half_pow f : 0 <= f -> Z.shiftr (2 ^ (f + 1)) 1 = 2 ^ f.
Proof.
  intros Hf. rewrite Z.shiftr_div_pow2 by lia. rewrite Z.pow_add_r by lia. apply Z.div_mul. discriminate.
Qed.
Lemma both e f : 0 <= e < k -> f = k - 1 - e -> 2 * 2 ^ f * 2 ^ e = n.
Proof. intros He ->. rewrite <- (Z.pow_succ_r 2 (k - 1 - e)), <- Z.pow_add_r by lia. f_equal. lia. Qed.

Lemma shape_gs_rev2std a : len a ->
  safe E len (do '(_, a) <- cfor (fuel n) 1 (fun d => d <? n) (fun d => u32 (d * 2)) (fun d '(t, a) =>
    let t := Z.shiftr t 1 in
    do a <- cfor (fuel n) 0 (fun s => s <? d) (fun s => u32 (s + 1)) (fun s a => b0 s d a) a;
    do '(_, a) <- cfor (fuel n) 1 (fun j => j <? t) (fun j => u32 (j + 1)) (fun j '(u, a) =>
      do w <- rd p (u32 (t + j));
      do a <- cfor (fuel n) u (fun s => s <? u32 (u + d)) (fun s => u32 (s + 1)) (fun s a => b w s d a) a;
      Ok (u32 (u + u32 (2 * d)), a)) (u32 (2 * d), a);
    Ok (t, a)) (n, a);
  Ok a).
Proof.
  apply gs_levels. intros e f x He Ef Hx. cbv beta iota zeta. rewrite half_pow by lia.
  pose proof (both e f He Ef) as E2. pose proof n_bounds as Hn1.
  assert (0 < 2 ^ e) by (apply Z.pow_pos_nonneg; lia). assert (0 < 2 ^ f) by (apply Z.pow_pos_nonneg; lia).
  assert (2 * 2 ^ e <= n) by (clear - E2 H H0; nia).
  apply (safe_bind E len); [apply at_block0; [lia|assumption|exact Hx]|]. intros y Hy.
  rewrite (u32_id (2 * 2 ^ e)) by lia.
  apply (safe_bind E (fun st : Z * list Z => len (snd st))).
  { pose proof (blocks_after 1 f f (2 ^ e) y ltac:(lia) ltac:(lia) ltac:(lia) E2 ltac:(lia) Hy) as HH.
    rewrite Z.mul_1_r in HH. rewrite (u32_id (2 * 2 ^ e)) in HH by lia. exact HH. }
  intros [u z] Hz. apply safe_ok. split; [reflexivity|exact Hz].
Qed.
Lemma shape_mulgs_rev2std a : len a ->
  safe E len (do '(_, a) <- cfor (fuel n) 1 (fun d => d <? n) (fun d => u32 (d * 2)) (fun d '(t, a) =>
    let t := Z.shiftr t 1 in
    do '(_, a) <- cfor (fuel n) 0 (fun j => j <? t) (fun j => u32 (j + 1)) (fun j '(u, a) =>
      do w <- rd p (u32 (t + j));
      do a <- cfor (fuel n) u (fun s => s <? u32 (u + d)) (fun s => u32 (s + 1)) (fun s a => b w s d a) a;
      Ok (u32 (u + u32 (2 * d)), a)) (0, a);
    Ok (t, a)) (n, a);
  Ok a).
Proof.
  apply gs_levels. intros e f x He Ef Hx. cbv beta iota zeta. rewrite half_pow by lia.
  pose proof (both e f He Ef) as E2. assert (0 < 2 ^ e) by (apply Z.pow_pos_nonneg; lia).
  apply (safe_bind E (fun st : Z * list Z => len (snd st))).
  { pose proof (blocks_after 0 f f (2 ^ e) x ltac:(lia) ltac:(lia) ltac:(lia) E2 ltac:(lia) Hx) as HH.
    rewrite Z.mul_0_r in HH. exact HH. }
  intros [u z] Hz. apply safe_ok. split; [reflexivity|exact Hz].
Qed.
End Shapes.
