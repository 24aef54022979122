(** The test of src/test_ntt_red.c on 1, X, X^2, ...: for a function that is linear
    modulo Q and gives canonical results, it succeeds exactly when the function is the
    NTT, on all inputs. *)

From Coq Require Import ZArith List Bool Lia Setoid Morphisms.
From Verif Require Import CSem Spec Loops ModQ NttElem AvxArrays ProdFinal ModelTests TestsElem TestsSound
  ModelTestNttRed LinRed TestAvxElem.
Import Spec.
Import ListNotations.
Open Scope Z_scope.

(** [W a] is linear in [a], for canonical [a], and canonical *)
Definition linear_map (n : Z) (W : list Z -> res (list Z)) : Prop :=
  exists F : Z -> Z -> Z, forall a, zlen a = n -> all_in 0 (Q - 1) a ->
  exists r, W a = Ok r /\ zlen r = n /\ forall i, 0 <= i < n -> at_ r i = lin n F a i mod Q.

(** [W a] is the canonical NTT of [a] *)
Definition computes_ntt (n omega : Z) (W : list Z -> res (list Z)) : Prop :=
  forall a, zlen a = n -> all_in 0 (Q - 1) a ->
  exists r, W a = Ok r /\ zlen r = n /\ forall i, 0 <= i < n -> at_ r i = NTT n omega (at_ a) i mod Q.

Lemma canon_in n (g : Z -> Z) r : zlen r = n -> (forall i, 0 <= i < n -> at_ r i = g i mod Q) -> all_in 0 (Q - 1) r.
Proof.
  intros L H. apply all_in_of. intros i Hi. rewrite H by lia.
  assert (B := Z.mod_pos_bound (g i) Q ltac:(unfold Q; lia)). lia.
Qed.

Lemma linear_canon n W : linear_map n W -> forall a, zlen a = n -> all_in 0 (Q - 1) a ->
  exists r, W a = Ok r /\ zlen r = n /\ all_in 0 (Q - 1) r.
Proof.
  intros [F H] a La Ia. destruct (H a La Ia) as (r & E & Lr & V). exists r. split; [exact E|]. split; [exact Lr|].
  exact (canon_in n _ r Lr V).
Qed.

Lemma scan_total {S} (J : Z -> S -> Prop) n step (st : S) : 0 <= n < 4294967296 -> J 0 st ->
  (forall i st, 0 <= i < n -> J i st -> exists o, step i st = Ok o /\ match o with None => True | Some r => J (i + 1) r end) ->
  exists b, scan (fuel n) 0 n step st = Ok b.
Proof.
  intros Hn H0 Hb.
  assert (G : forall f c st, 0 <= c <= n -> (Z.to_nat (n - c) < f)%nat -> J c st -> exists b, scan f c n step st = Ok b).
  { induction f as [|f IH]; intros c s Hc Hf HJ; [lia|]. cbn [scan]. destruct (Z.ltb_spec c n); [|eauto].
    destruct (Hb c s ltac:(lia) HJ) as (o & E & Ho). rewrite E. cbn [bind]. destruct o as [r|]; [|eauto].
    rewrite u32_small by lia. apply IH; [lia|lia|exact Ho]. }
  apply G; [lia| |exact H0]. unfold fuel. lia.
Qed.

Lemma check_ntt_simple_total a n m w : 0 <= n < 4294967296 -> zlen a = n -> 0 <= m < n -> 0 <= w < 12289 ->
  exists b, check_ntt_simple a n m w = Ok b.
Proof.
  intros Hn La Hm Hw. unfold check_ntt_simple. rewrite power_ok; [|exact Hw|change (2 ^ 32) with 4294967296; lia].
  cbn [bind]. apply (scan_total (fun _ x => 0 <= x < 12289)); [exact Hn|lia|].
  intros i x Hi Hx. rewrite rd_ok by lia. cbn [bind]. destruct (at_ a i =? x); [|exists None; auto].
  assert (Hy := Z.mod_pos_bound (w ^ m) 12289 ltac:(lia)). assert (E := mulmod _ _ Hx Hy).
  destruct (mul32 x (w ^ m mod 12289)) as [z|]; cbn [bind] in *; [|discriminate]. rewrite E. cbn [bind].
  eexists. split; [reflexivity|]. cbv beta iota. apply Z.mod_pos_bound. lia.
Qed.

Lemma check_ntt_ntt_simple_total a n m : 0 <= n < 4294967296 -> zlen a = n -> 0 <= m < n ->
  exists b, check_ntt_ntt_simple a n m = Ok b.
Proof.
  intros Hn La Hm. unfold check_ntt_ntt_simple. replace (m <? n) with true by (symmetry; apply Z.ltb_lt; lia).
  cbn [cassert bind]. apply (scan_total (fun _ (_ : unit) => True)); [exact Hn|exact I|].
  intros i x Hi _. rewrite rd_ok by lia. cbn [bind]. eexists. split; [reflexivity|].
  match goal with |- match (if ?b then _ else _) with _ => _ end => destruct b; exact I end.
Qed.

Section Test.
Variables (k omega : Z) (W : list Z -> res (list Z)) (a0 : list Z).
Let n := 2 ^ k.
Hypothesis Hk : 1 <= k <= 13.
Hypothesis Ho : 0 <= omega < 12289.
Hypothesis La0 : zlen a0 = n.

Let Hn : 2 <= n <= 8192.
Proof. unfold n. change 2 with (2 ^ 1) at 1. change 8192 with (2 ^ 13). split; apply Z.pow_le_mono_r; lia. Qed.
Let Hn32 : 0 <= n < 4294967296.
Proof. lia. Qed.

(** X^j is written whatever the array contained *)
Lemma poly_ok a j : zlen a = n -> 0 <= j < n ->
  exists b, (do a <- loop n (fun i a => wr a i 0) a; wr a j 1) = Ok b /\ zlen b = n
    /\ (forall i, 0 <= i < n -> at_ b i = if i =? j then 1 else 0) /\ all_in 0 (Q - 1) b.
Proof.
  intros La Hj. destruct (simple_poly_ok a j n Hn32 La Hj) as (b & E & Lb & Vb). unfold simple_poly in E.
  replace (j <? n) with true in E by (symmetry; apply Z.ltb_lt; lia). cbn [cassert bind] in E.
  exists b. split; [exact E|]. split; [exact Lb|]. split; [exact Vb|]. exact (simple_range b n j Lb Vb).
Qed.

Lemma bind_assoc {A B C} (m : res A) (f : A -> res B) (g : B -> res C) :
  (do y <- (do x <- m; f x); g y) = (do x <- m; do y <- f x; g y).
Proof. destruct m; reflexivity. Qed.

Let body := (fun j a =>
    do a <- loop n (fun i a => wr a i 0) a;
    do a <- wr a j 1;
    do a <- W a;
    do ok <- check_ntt_simple a n j omega;
    do _ <- expect ok;
    do a <- W a;
    do ok <- check_ntt_ntt_simple a n j;
    do _ <- expect ok;
    Ok a).

Let T : test_simple_polys a0 n W omega = do _ <- loop n body a0; Ok tt.
Proof. reflexivity. Qed.

Let body_at j a b : (do a <- loop n (fun i a => wr a i 0) a; wr a j 1) = Ok b ->
  body j a = (do a <- W b; do ok <- check_ntt_simple a n j omega; do _ <- expect ok;
    do a <- W a; do ok <- check_ntt_ntt_simple a n j; do _ <- expect ok; Ok a).
Proof. intros E. unfold body. rewrite <- bind_assoc, E. reflexivity. Qed.

Lemma basis_pass : eqQ (omega ^ (2 ^ (k - 1))) (-1) -> computes_ntt n omega W -> test_simple_polys a0 n W omega = Ok tt.
Proof.
  intros Hw HW. rewrite T.
  destruct (loop_ok (fun _ a => zlen a = n) n body a0 Hn32 La0) as (r & E & _); [|rewrite E; reflexivity].
  intros j a Hj La. destruct (poly_ok a j La Hj) as (b & Eb & Lb & Vb & Ib). rewrite (body_at j a b Eb).
  destruct (HW b Lb Ib) as (x & Ex & Lx & Vx). rewrite Ex. cbn [bind].
  assert (Mx : forall i, 0 <= i < n -> at_ x i = (omega ^ (j * i)) mod 12289).
  { intros i Hi. rewrite Vx by exact Hi. change (eqQ (NTT n omega (at_ b) i) (omega ^ (j * i))).
    apply ntt_monomial; [exact Hj|]. intros m Hm. rewrite Vb by exact Hm. reflexivity. }
  rewrite (check_ntt_simple_ok x n j omega Hn32 Lx Hj Ho Mx). cbn [bind expect].
  destruct (HW x Lx (canon_in n _ x Lx Vx)) as (y & Ey & Ly & Vy). rewrite Ey. cbn [bind].
  rewrite (check_ntt_ntt_simple_ok y n j ltac:(lia) Ly Hj); [cbn [bind expect]; eauto|].
  intros i Hi. rewrite Vy by exact Hi.
  assert (G := ntt_ntt_monomial k omega j (at_ x) i ltac:(lia) Hw Hj Hi).
  assert (Mq : forall i, 0 <= i < 2 ^ k -> eqQ (at_ x i) (omega ^ (j * i))).
  { intros m Hm. rewrite Mx by exact Hm. apply eqQ_modn. }
  specialize (G Mq). unfold eqQ in G. fold n in G. rewrite G.
  destruct (i =? (if j =? 0 then 0 else n - j)); [apply Z.mod_small; unfold Q; lia|reflexivity].
Qed.

Lemma basis_total : linear_map n W -> test_simple_polys a0 n W omega = Ok tt \/ test_simple_polys a0 n W omega = Err Exited.
Proof.
  intros HL. rewrite T.
  assert (G : ends (fun e => e = Exited) (loop n body a0) (fun a => zlen a = n)).
  { apply (loop_ends (fun e : err => e = Exited) (fun _ a => zlen a = n)); [exact Hn32|exact La0|].
    intros j a Hj La. destruct (poly_ok a j La Hj) as (b & Eb & Lb & Vb & Ib). rewrite (body_at j a b Eb).
    destruct (linear_canon n W HL b Lb Ib) as (x & Ex & Lx & Ix). rewrite Ex. cbn [bind].
    destruct (check_ntt_simple_total x n j omega Hn32 Lx Hj Ho) as ([|] & ->); [|reflexivity]. cbn [bind expect].
    destruct (linear_canon n W HL x Lx Ix) as (y & Ey & Ly & _). rewrite Ey. cbn [bind].
    destruct (check_ntt_ntt_simple_total y n j Hn32 Ly Hj) as ([|] & ->); [exact Ly|reflexivity]. }
  destruct (loop n body a0) as [r|e]; [left; reflexivity|right]. cbn [ends] in G. rewrite G. reflexivity.
Qed.

Lemma basis_exhaustive : linear_map n W -> test_simple_polys a0 n W omega = Ok tt -> computes_ntt n omega W.
Proof.
  intros HL E. rewrite T in E. apply bind_inv in E as (e & E & _).
  assert (G : zlen e = n /\ forall j b, 0 <= j < n -> zlen b = n -> (forall i, 0 <= i < n -> at_ b i = if i =? j then 1 else 0) ->
    exists r, W b = Ok r /\ forall i, 0 <= i < n -> at_ r i = (omega ^ (j * i)) mod 12289).
  { apply (loop_inv (fun c a => zlen a = n /\ forall j b, 0 <= j < c -> zlen b = n ->
      (forall i, 0 <= i < n -> at_ b i = if i =? j then 1 else 0) ->
      exists r, W b = Ok r /\ forall i, 0 <= i < n -> at_ r i = (omega ^ (j * i)) mod 12289) n body a0 e E Hn32).
    - split; [exact La0|]. intros; lia.
    - intros j a r Hj [La H] E1. destruct (poly_ok a j La Hj) as (b & Eb & Lb & Vb & Ib).
      rewrite (body_at j a b Eb) in E1.
      destruct (linear_canon n W HL b Lb Ib) as (x & Ex & Lx & Ix). rewrite Ex in E1. cbn [bind] in E1.
      apply bind_inv in E1 as (ok & E2 & E1). apply bind_inv in E1 as (u & E3 & E1). apply expect_inv in E3. subst ok.
      destruct (linear_canon n W HL x Lx Ix) as (y & Ey & Ly & Iy). rewrite Ey in E1. cbn [bind] in E1.
      apply bind_inv in E1 as (ok2 & E4 & E1). apply bind_inv in E1 as (u2 & E5 & E1). injection E1 as <-.
      split; [exact Ly|]. intros m c Hm Lc Vc. destruct (Z.eq_dec m j) as [->|]; [|apply H; [lia|assumption|assumption]].
      assert (c = b) as ->.
      { apply (list_ext _ _ n Lc Lb). intros i Hi. rewrite Vc, Vb by exact Hi. reflexivity. }
      exists x. split; [exact Ex|]. intros i Hi. exact (check_ntt_simple_inv x n j omega Hn32 Hj Ho E2 i Hi). }
  destruct G as [_ G]. destruct HL as [F HF]. intros a La Ia. destruct (HF a La Ia) as (r & Er & Lr & Vr).
  exists r. split; [exact Er|]. split; [exact Lr|]. intros i Hi. rewrite Vr by exact Hi.
  assert (C : forall j, 0 <= j < n -> eqQ (F i j) (omega ^ (j * i))).
  { intros j Hj. destruct (poly_ok a j La Hj) as (b & Eb & Lb & Vb & Ib).
    destruct (G j b Hj Lb Vb) as (x & Ex & Vx). destruct (HF b Lb Ib) as (x' & Ex' & _ & Vx'). rewrite Ex in Ex'.
    injection Ex' as <-. assert (Y := Vx i Hi). rewrite (Vx' i Hi) in Y. change (eqQ (lin n F b i) (omega ^ (j * i))) in Y.
    rewrite <- Y. unfold lin. symmetry. etransitivity.
    - apply (Sum_single n j _ Hj). intros m Hm Hne. rewrite Vb by exact Hm. apply Z.eqb_neq in Hne. rewrite Hne.
      rewrite Z.mul_0_r. reflexivity.
    - rewrite Vb by exact Hj. rewrite Z.eqb_refl, Z.mul_1_r. reflexivity. }
  change (eqQ (lin n F a i) (NTT n omega (at_ a) i)). unfold lin, NTT. apply Sum_extQ. intros j Hj. rewrite C by exact Hj. qring.
Qed.
End Test.
