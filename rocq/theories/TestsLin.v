(** Transforms that are linear and products that are bilinear modulo Q are right on all
    inputs as soon as they are right on the powers of X. *)

From Coq Require Import ZArith List Bool Lia Setoid Morphisms.
From Verif Require Import CSem Spec Loops ModQ Conv HeapElem NttElem AvxArrays ModelNtt ModelGen ModelProducts ElemFinal
  ProdFinal ShuffleFinal LinRed BasisElem LinNtt TestsElem TestsSound ModelTests TestsFinal.
From Verif Require SpecRing RingElem.
Import Spec.
Import ListNotations.
Open Scope Z_scope.

(** [W a] is linear in [a] modulo Q, for [a] in lo .. hi, with results in lo' .. hi' *)
Definition lmap (n lo hi lo' hi' : Z) (W : list Z -> res (list Z)) : Prop :=
  exists F : Z -> Z -> Z, forall a, zlen a = n -> all_in lo hi a ->
  exists r, W a = Ok r /\ zlen r = n /\ all_in lo' hi' r /\ forall i, 0 <= i < n -> eqQ (at_ r i) (lin n F a i).

Lemma linear_lmap n W : linear_map n W -> lmap n 0 (Q - 1) 0 (Q - 1) W.
Proof.
  intros [F H]. exists F. intros a La Ia. destruct (H a La Ia) as (r & E & Lr & V). exists r. split; [exact E|].
  split; [exact Lr|]. split; [exact (canon_in n _ r Lr V)|]. intros i Hi. rewrite V by exact Hi. apply eqQ_modn.
Qed.

Lemma lmap_seq n lo hi lo1 hi1 lo2 hi2 V W : lmap n lo hi lo1 hi1 V -> lmap n lo1 hi1 lo2 hi2 W ->
  lmap n lo hi lo2 hi2 (fun a => do a <- V a; W a).
Proof.
  intros [F HF] [G HG]. exists (fun i x => Sum n (fun y => G i y * F y x)). intros a La Ia.
  destruct (HF a La Ia) as (b & Eb & Lb & Ib & Vb). rewrite Eb. cbn [bind].
  destruct (HG b Lb Ib) as (r & Er & Lr & Ir & Vr). exists r. split; [exact Er|]. split; [exact Lr|]. split; [exact Ir|].
  intros i Hi. rewrite Vr by exact Hi. unfold lin.
  transitivity (Sum n (fun y => Sum n (fun x => G i y * F y x * at_ a x))).
  - apply Sum_extQ. intros y Hy. rewrite Vb by exact Hy. unfold lin. rewrite <- Sum_mul_l.
    apply Sum_extQ. intros x _. qring.
  - rewrite Sum_swap. apply Sum_extQ. intros x _. rewrite (Z.mul_comm (Sum n _)). rewrite <- Sum_mul_l.
    apply Sum_extQ. intros y _. qring.
Qed.

Lemma lmap_weaken n lo hi lo' hi' lo1 hi1 lo2 hi2 W : lmap n lo hi lo' hi' W -> lo <= lo1 -> hi1 <= hi -> lo2 <= lo' -> hi' <= hi2 ->
  lmap n lo1 hi1 lo2 hi2 W.
Proof.
  intros [F H] H1 H2 H3 H4. exists F. intros a La Ia. destruct (H a La) as (r & E & Lr & Ir & V).
  - intros v Hv. specialize (Ia v Hv). lia.
  - exists r. split; [exact E|]. split; [exact Lr|]. split; [|exact V]. intros v Hv. specialize (Ir v Hv). lia.
Qed.

(** [P h c a b] writes to [c] an array that is bilinear in [h a] and [h b] *)
Definition bil (n : Z) (K : Z -> Z -> Z -> Z) (a b : list Z) (t : Z) : Z :=
  Sum n (fun i => Sum n (fun j => K t i j * at_ a i * at_ b j)).
Definition bmap (n lo hi lo' hi' : Z) (P : heap -> Z -> Z -> Z -> res heap) : Prop :=
  exists K, forall h c a b, a <> b -> zlen (h c) = n -> zlen (h a) = n -> zlen (h b) = n -> all_in lo hi (h a) -> all_in lo hi (h b) ->
  exists h', P h c a b = Ok h' /\ zlen (h' c) = n /\ all_in lo' hi' (h' c)
    /\ forall t, 0 <= t < n -> eqQ (at_ (h' c) t) (bil n K (h a) (h b) t).

(** The array with [n] elements of which element [j] is 1, the others 0 *)
Lemma unit_array n j : 0 <= n -> exists a, zlen a = n /\ all_in 0 (Q - 1) a /\ forall i, 0 <= i < n -> at_ a i = if i =? j then 1 else 0.
Proof.
  intros Hn. exists (SpecRing.table n (fun i => if i =? j then 1 else 0)).
  assert (L := RingElem.zlen_table n (fun i => if i =? j then 1 else 0) Hn).
  assert (V := RingElem.at_table n (fun i => if i =? j then 1 else 0)).
  split; [exact L|]. split; [|exact V]. apply all_in_of. intros i Hi. rewrite V by lia. unfold Q. destruct (i =? j); lia.
Qed.

Lemma lin_at n F a i j : 0 <= j < n -> (forall m, 0 <= m < n -> at_ a m = if m =? j then 1 else 0) -> eqQ (lin n F a i) (F i j).
Proof.
  intros Hj Va. unfold lin. rewrite (Sum_single n j _ Hj).
  - rewrite Va by exact Hj. rewrite Z.eqb_refl, Z.mul_1_r. reflexivity.
  - intros m Hm Hne. rewrite Va by exact Hm. apply Z.eqb_neq in Hne. rewrite Hne. rewrite Z.mul_0_r. reflexivity.
Qed.

Lemma bil_at n K a b i j t : 0 <= i < n -> 0 <= j < n -> (forall m, 0 <= m < n -> at_ a m = if m =? i then 1 else 0) ->
  (forall m, 0 <= m < n -> at_ b m = if m =? j then 1 else 0) -> eqQ (bil n K a b t) (K t i j).
Proof.
  intros Hi Hj Va Vb. unfold bil. rewrite (Sum_single n i _ Hi).
  - rewrite (Sum_single n j _ Hj).
    + rewrite Va, Vb by assumption. rewrite !Z.eqb_refl, !Z.mul_1_r. reflexivity.
    + intros m Hm Hne. rewrite Vb by exact Hm. apply Z.eqb_neq in Hne. rewrite Hne, Z.mul_0_r. reflexivity.
  - intros m Hm Hne. transitivity (Sum n (fun _ => 0)); [|rewrite Sum_zero; reflexivity]. apply Sum_extQ. intros x Hx.
    rewrite Va by exact Hm. apply Z.eqb_neq in Hne. rewrite Hne, Z.mul_0_r. reflexivity.
Qed.

(** The product modulo X^n + 1 is bilinear *)
Definition nega_coef (n t i j : Z) : Z := if j =? (if i <=? t then t - i else t - i + n) then (if i <=? t then 1 else -1) else 0.
Lemma nega_bil n a b t : 0 <= t < n -> eqQ (negacyclic n (at_ a) (at_ b) t) (bil n (nega_coef n) a b t).
Proof.
  intros Ht. unfold negacyclic, bil. apply Sum_extQ. intros i Hi. unfold nega_coef.
  destruct (Z.leb_spec i t).
  - rewrite (Sum_single n (t - i)); [rewrite Z.eqb_refl; qring|lia|]. intros j Hj Hne. apply Z.eqb_neq in Hne. rewrite Hne. reflexivity.
  - rewrite (Sum_single n (t - i + n)); [rewrite Z.eqb_refl; qring|lia|]. intros j Hj Hne. apply Z.eqb_neq in Hne. rewrite Hne. reflexivity.
Qed.

(** From the powers of X to all inputs *)
Lemma lmap_all n lo hi lo' hi' W omega : 0 <= n -> lo <= 0 -> 1 <= hi -> lmap n lo hi lo' hi' W ->
  (forall j a, 0 <= j < n -> zlen a = n -> (forall i, 0 <= i < n -> at_ a i = if i =? j then 1 else 0) ->
     exists r, W a = Ok r /\ forall i, 0 <= i < n -> eqQ (at_ r i) (NTT n omega (at_ a) i)) ->
  forall a, zlen a = n -> all_in lo hi a ->
  exists r, W a = Ok r /\ zlen r = n /\ all_in lo' hi' r /\ forall i, 0 <= i < n -> eqQ (at_ r i) (NTT n omega (at_ a) i).
Proof.
  intros Hn Hlo Hhi [F HF] HX a La Ia. destruct (HF a La Ia) as (r & E & Lr & Ir & V). exists r. split; [exact E|].
  split; [exact Lr|]. split; [exact Ir|]. intros i Hi. rewrite V by exact Hi. unfold lin, NTT. apply Sum_extQ. intros j Hj.
  destruct (unit_array n j Hn) as (u & Lu & Iu & Vu). destruct (HX j u Hj Lu Vu) as (x & Ex & Vx).
  destruct (HF u Lu) as (x' & Ex' & _ & _ & Vx').
  { apply all_in_of. intros m Hm. rewrite Vu by lia. destruct (m =? j); lia. }
  rewrite Ex in Ex'. injection Ex' as <-. assert (Y := Vx i Hi). rewrite (Vx' i Hi), (lin_at n F u i j Hj Vu) in Y. rewrite Y.
  unfold NTT. rewrite (Sum_single n j _ Hj); [rewrite Vu by exact Hj; rewrite Z.eqb_refl; qring|].
  intros m Hm Hne. rewrite Vu by exact Hm. apply Z.eqb_neq in Hne. rewrite Hne. reflexivity.
Qed.

Lemma bmap_all n lo hi lo' hi' P stk : 0 <= n -> lo <= 0 -> 1 <= hi -> bmap n lo hi lo' hi' P -> zlen (stk 2) = n ->
  (forall i m a b, 0 <= i < n -> 0 <= m < n -> zlen a = n -> zlen b = n ->
     (forall t, 0 <= t < n -> at_ a t = if t =? i then 1 else 0) -> (forall t, 0 <= t < n -> at_ b t = if t =? m then 1 else 0) ->
     exists h, P (hset (hset stk 0 a) 1 b) 2 0 1 = Ok h
       /\ forall t, 0 <= t < n -> eqQ (at_ (h 2) t) (negacyclic n (at_ a) (at_ b) t)) ->
  forall h c a b, a <> b -> zlen (h c) = n -> zlen (h a) = n -> zlen (h b) = n -> all_in lo hi (h a) -> all_in lo hi (h b) ->
  exists h', P h c a b = Ok h' /\ zlen (h' c) = n /\ all_in lo' hi' (h' c)
    /\ forall t, 0 <= t < n -> eqQ (at_ (h' c) t) (negacyclic n (at_ (h a)) (at_ (h b)) t).
Proof.
  intros Hn Hlo Hhi [K HK] Ls HX h c a b Hab Lc La Lb Ia Ib.
  destruct (HK h c a b Hab Lc La Lb Ia Ib) as (h' & E & Lr & Ir & V). exists h'. split; [exact E|].
  split; [exact Lr|]. split; [exact Ir|]. intros t Ht. rewrite V by exact Ht. rewrite nega_bil by exact Ht.
  unfold bil. apply Sum_extQ. intros i Hi. apply Sum_extQ. intros j Hj.
  assert (C : eqQ (K t i j) (nega_coef n t i j)); [|rewrite C; reflexivity].
  destruct (unit_array n i Hn) as (u & Lu & _ & Vu). destruct (unit_array n j Hn) as (v & Lv & _ & Vv).
  destruct (HX i j u v Hi Hj Lu Lv Vu Vv) as (x & Ex & Vx).
  destruct (HK (hset (hset stk 0 u) 1 v) 2 0 1) as (x' & Ex' & _ & _ & Vx'); try discriminate; try assumption.
  - apply all_in_of. intros m Hm. change (hset (hset stk 0 u) 1 v 0) with u in *. rewrite Vu by lia. destruct (m =? i); lia.
  - apply all_in_of. intros m Hm. change (hset (hset stk 0 u) 1 v 1) with v in *. rewrite Vv by lia. destruct (m =? j); lia.
  - rewrite Ex in Ex'. injection Ex' as <-. assert (Y := Vx t Ht). rewrite (Vx' t Ht) in Y.
    change (hset (hset stk 0 u) 1 v 0) with u in Y. change (hset (hset stk 0 u) 1 v 1) with v in Y.
    rewrite (bil_at n K u v i j t Hi Hj Vu Vv), nega_bil, (bil_at n (nega_coef n) u v i j t Hi Hj Vu Vv) in Y by exact Ht. exact Y.
Qed.

(** ** Linear, then multiplied, then linear *)

Lemma bil_value n F G C a b t : 
  eqQ (Sum n (fun m => C t m * (lin n F a m * lin n G b m)))
    (bil n (fun t i j => Sum n (fun m => C t m * F m i * G m j)) a b t).
Proof.
  unfold bil, lin.
  transitivity (Sum n (fun m => Sum n (fun i => Sum n (fun j => C t m * F m i * G m j * at_ a i * at_ b j)))).
  - apply Sum_extQ. intros m _. rewrite <- Sum_mul_r, <- Sum_mul_l. apply Sum_extQ. intros i _.
    rewrite <- Sum_mul_l, <- Sum_mul_l. apply Sum_extQ. intros j _. qring.
  - rewrite Sum_swap. apply Sum_extQ. intros i _. rewrite Sum_swap. apply Sum_extQ. intros j _.
    rewrite <- Sum_mul_r, <- Sum_mul_r. apply Sum_extQ. intros m _. qring.
Qed.

(** [S p] applies [W] to array [p] *)
Definition step (W : list Z -> res (list Z)) (S : Z -> heap -> res heap) : Prop :=
  forall p h l, W (h p) = Ok l -> exists h', S p h = Ok h' /\ h' p = l /\ forall x, x <> p -> h' x = h x.

Lemma step1 W : step W (fun p => on p W).
Proof.
  intros p h l E. unfold on. rewrite E. eexists. split; [reflexivity|]. split; [apply hset_same|]. intros. apply hset_other; assumption.
Qed.

Lemma step_seq V W S R : step V S -> step W R -> step (fun a => do a <- V a; W a) (fun p h => do h <- S p h; R p h).
Proof.
  intros HS HR p h l E. destruct (V (h p)) as [x|] eqn:EV; cbn [bind] in E; [|discriminate].
  destruct (HS p h x EV) as (h1 & -> & H1 & O1). cbn [bind]. rewrite <- H1 in E.
  destruct (HR p h1 l E) as (h2 & -> & H2 & O2). exists h2. split; [reflexivity|]. split; [exact H2|].
  intros y Hy. rewrite O2, O1 by exact Hy. reflexivity.
Qed.

(** The element-wise product of two arrays, written to a third *)
Definition mul_ok (n lo hi lo' hi' s : Z) (M : heap -> Z -> Z -> Z -> res heap) : Prop :=
  forall h c a b, zlen (h c) = n -> zlen (h a) = n -> zlen (h b) = n -> all_in lo hi (h a) -> all_in lo hi (h b) ->
  exists h', M h c a b = Ok h' /\ zlen (h' c) = n /\ all_in lo' hi' (h' c)
    /\ forall i, 0 <= i < n -> eqQ (at_ (h' c) i) (s * (at_ (h a) i * at_ (h b) i)).

Lemma product_bmap n lo hi l1 h1 l2 h2 l3 h3 s V SV M X SX P :
  lmap n lo hi l1 h1 V -> step V SV -> mul_ok n l1 h1 l2 h2 s M -> lmap n l2 h2 l3 h3 X -> step X SX ->
  (forall h c a b, P h c a b = do h <- SV a h; do h <- SV b h; do h <- M h c a b; SX c h) ->
  bmap n lo hi l3 h3 P.
Proof.
  intros [F HF] HV HM [C HC] HX HP.
  exists (fun t i j => Sum n (fun m => (C t m * s) * F m i * F m j)).
  intros h c a b Hab Lc La Lb Ia Ib. rewrite HP.
  destruct (HF _ La Ia) as (x & Ex & Lx & Ix & Vx). destruct (HF _ Lb Ib) as (y & Ey & Ly & Iy & Vy).
  destruct (HV a h x Ex) as (h4 & -> & H4a & H4o). cbn [bind].
  rewrite <- (H4o b) in Ey by congruence.
  destruct (HV b h4 y Ey) as (h5 & -> & H5b & H5o). cbn [bind].
  assert (H5a : h5 a = x) by (rewrite H5o by congruence; exact H4a).
  assert (L5 : zlen (h5 c) = n).
  { destruct (Z.eq_dec c b) as [->|]; [rewrite H5b; exact Ly|]. rewrite H5o by assumption.
    destruct (Z.eq_dec c a) as [->|]; [rewrite H4a; exact Lx|]. rewrite H4o by assumption. exact Lc. }
  destruct (HM h5 c a b L5) as (h6 & -> & L6 & I6 & V6); try (rewrite ?H5a, ?H5b; assumption). cbn [bind].
  rewrite H5a, H5b in V6. destruct (HC _ L6 I6) as (r & Er & Lr & Ir & Vr).
  destruct (HX c h6 r Er) as (h7 & -> & H7 & _).
  exists h7. split; [reflexivity|]. rewrite H7. split; [exact Lr|]. split; [exact Ir|]. intros t Ht. rewrite Vr by exact Ht.
  rewrite <- (bil_value n F F (fun t m => C t m * s)). unfold lin at 1. apply Sum_extQ. intros m Hm.
  rewrite V6, Vx, Vy by exact Hm. qring.
Qed.

Lemma mul_array_mul_ok n : 0 <= n < 2 ^ 32 -> mul_ok n 0 (Q - 1) 0 (Q - 1) 1 (fun h c a b => mul_array_h h c n a b).
Proof.
  intros Hn h c a b Lc La Lb Ia Ib. change (2 ^ 32) with 4294967296 in Hn.
  destruct (mul_array_h_spec n h c a b) as (h' & E & L & V & _); try lia.
  { intros i Hi. split; [exact (can_in (h a) n La Ia i Hi)|exact (can_in (h b) n Lb Ib i Hi)]. }
  exists h'. split; [exact E|]. split; [lia|]. split.
  - apply all_in_of. intros i Hi. rewrite V by lia.
    assert (B := Z.mod_pos_bound (at_ (h a) i * at_ (h b) i) 12289 ltac:(lia)). unfold Q. lia.
  - intros i Hi. rewrite V by exact Hi. rewrite Z.mul_1_l. apply eqQ_modn.
Qed.

(** ** The default implementation, with any tables of canonical numbers *)

Definition canonical_tables (n : Z) (T : tables) : Prop :=
  (forall p, In p [psi_powers T; scaled_inv_psi_powers T; omega_powers T; omega_powers_rev T; inv_omega_powers T;
      inv_omega_powers_rev T; mixed_powers T; mixed_powers_rev T; inv_mixed_powers T; inv_mixed_powers_rev T] ->
    zlen p = n /\ all_in 0 (Q - 1) p)
  /\ 0 <= t_omega T < Q /\ 0 <= t_inv_omega T < Q /\ 0 <= t_inv_n T < Q.

Lemma scalar_linear k c : 0 <= k <= 31 -> 0 <= c < Q -> linear_map (2 ^ k) (fun a => scalar_mul_array a (2 ^ k) c).
Proof.
  intros Hk Hc. exists (fun i x => if x =? i then c else 0). intros a La Ia.
  assert (Hn : 0 <= 2 ^ k < 2 ^ 32) by (split; [apply Z.pow_nonneg; lia|apply Z.pow_lt_mono_r; lia]).
  destruct (scalar_mul_array_exact_L a (2 ^ k) c) as (r & E & L & R & _); [exact Hn|lia|exact Ia|lia|].
  exists r. split; [exact E|]. split; [lia|]. intros i Hi. rewrite R by exact Hi.
  change (eqQ (at_ a i * c) (lin (2 ^ k) (fun i x => if x =? i then c else 0) a i)). unfold lin. symmetry.
  rewrite (Sum_single (2 ^ k) i _ Hi); [rewrite Z.eqb_refl; qring|].
  intros x Hx Hne. apply Z.eqb_neq in Hne. rewrite Hne. reflexivity.
Qed.
