(** The tests of src/test_ntt.c on 1, X, X^2, ...: functions put together from the
    transforms, the bit-reversal and the products of src/ntt.c are linear, and cross_check
    tells whether two of them agree on all inputs. *)

From Coq Require Import ZArith List Bool Lia Setoid Morphisms.
From Verif Require Import CSem Spec Loops ModQ NttElem AvxArrays ProdFinal ModelNtt ModelTests TestsElem TestsSound
  LinRed BasisElem LinNtt TestAvxElem ModelTestNtt.
Import Spec.
Import ListNotations.
Open Scope Z_scope.

(** Functions put together from those of src/ntt.c, with any tables of canonical constants *)
Inductive assembled (n : Z) : (list Z -> res (list Z)) -> Prop :=
| A_transform f p : In f
    [ntt_ct_rev2std_v1; ntt_ct_rev2std; mulntt_ct_rev2std; ntt_ct_std2rev; mulntt_ct_std2rev;
     ntt_gs_rev2std; nttmul_gs_rev2std; ntt_gs_std2rev; nttmul_gs_std2rev] ->
    zlen p = n -> all_in 0 (Q - 1) p -> assembled n (fun a => f a n p)
| A_mul p : zlen p = n -> all_in 0 (Q - 1) p -> assembled n (fun a => mul_array16 a n p)
| A_shuffle S : (forall a, zlen a = n -> S a = bitrev_shuffle a n) -> assembled n S
| A_seq V W : assembled n V -> assembled n W -> assembled n (fun a => do a <- V a; W a).

Lemma assembled_linear k W : 0 <= k <= 31 -> assembled (2 ^ k) W -> linear_map (2 ^ k) W.
Proof.
  intros Hk. induction 1 as [f p Hf Lp Ip|p Lp Ip|S HS|V W _ IV _ IW].
  - apply transform_linear; assumption.
  - apply mul_array16_linear; assumption.
  - apply (linear_ext _ S (fun a => bitrev_shuffle a (2 ^ k)) HS), shuffle_linear, Hk.
  - apply seq_linear; assumption.
Qed.

Lemma equal_arrays_total a b n : 0 <= n < 4294967296 -> zlen a = n -> zlen b = n ->
  exists ok, equal_arrays a b n = Ok ok /\ (ok = true <-> a = b).
Proof.
  intros Hn La Lb.
  assert (T : exists ok, equal_arrays a b n = Ok ok).
  { unfold equal_arrays. apply (scan_total (fun _ (_ : unit) => True)); [exact Hn|exact I|].
    intros i x Hi _. rewrite !rd_ok by lia. cbn [bind]. eexists. split; [reflexivity|].
    destruct (at_ a i =? at_ b i); exact I. }
  destruct T as [ok E]. exists ok. split; [exact E|]. split.
  - intros ->. apply (list_ext a b n La Lb). exact (equal_arrays_inv a b n Hn E).
  - intros ->. rewrite (equal_arrays_ok b b n Hn Lb Lb) in E by reflexivity. congruence.
Qed.

(** Two linear functions that agree on the powers of X agree *)
Lemma basis_agree n F G i : (forall j, 0 <= j < n -> eqQ (F i j) (G i j)) -> forall a, eqQ (lin n F a i) (lin n G a i).
Proof. intros H a. unfold lin. apply Sum_extQ. intros j Hj. rewrite H by exact Hj. reflexivity. Qed.

Lemma lin_monomial n F b i j : 0 <= j < n -> (forall m, 0 <= m < n -> at_ b m = if m =? j then 1 else 0) ->
  eqQ (lin n F b i) (F i j).
Proof.
  intros Hj Vb. unfold lin. rewrite (Sum_single n j _ Hj).
  - rewrite Vb by exact Hj. rewrite Z.eqb_refl, Z.mul_1_r. reflexivity.
  - intros m Hm Hne. rewrite Vb by exact Hm. apply Z.eqb_neq in Hne. rewrite Hne, Z.mul_0_r. reflexivity.
Qed.

Section Cross.
Variables (n : Z) (f g : list Z -> res (list Z)) (a0 b0 : list Z).
Hypothesis Hn : 0 <= n < 4294967296.
Hypothesis La0 : zlen a0 = n.
Hypothesis Lb0 : zlen b0 = n.
Hypothesis Lf : linear_map n f.
Hypothesis Lg : linear_map n g.

Let fill := (fun i '(a, b) => do a <- wr a i 0; do b <- wr b i 0; Ok (a, b)) : Z -> list Z * list Z -> res (list Z * list Z).
Let body := (fun j '(a, b) =>
    do '(a, b) <- loop n fill (a, b);
    do a <- wr a j 1;
    do b <- wr b j 1;
    do a <- f a;
    do b <- g b;
    do ok <- equal_arrays a b n;
    do _ <- expect ok;
    do a <- f a;
    do b <- g b;
    do ok <- equal_arrays a b n;
    do _ <- expect ok;
    Ok (a, b)).

Let T : cross_check a0 b0 n f g = do _ <- loop n body (a0, b0); Ok tt.
Proof. reflexivity. Qed.

(** X^j is written into both arrays *)
Let body_at j a b : 0 <= j < n -> zlen a = n -> zlen b = n ->
  exists x, zlen x = n /\ all_in 0 (Q - 1) x /\ (forall i, 0 <= i < n -> at_ x i = if i =? j then 1 else 0)
  /\ body j (a, b) = (do a <- f x; do b <- g x; do ok <- equal_arrays a b n; do _ <- expect ok;
       do a <- f a; do b <- g b; do ok <- equal_arrays a b n; do _ <- expect ok; Ok (a, b)).
Proof.
  intros Hj La Lb. unfold body.
  destruct (loop_ok (fun c (s : list Z * list Z) => zlen (fst s) = n /\ zlen (snd s) = n
    /\ forall i, 0 <= i < c -> at_ (fst s) i = 0 /\ at_ (snd s) i = 0) n fill (a, b) Hn) as ([x y] & E & Lx & Ly & V).
  - cbn [fst snd]. split; [exact La|]. split; [exact Lb|]. intros; lia.
  - intros i [u v] Hi (Lu & Lv & V). cbn [fst snd] in *. unfold fill. rewrite !wr_ok by lia. cbn [bind].
    eexists. split; [reflexivity|]. cbn [fst snd]. rewrite !aset_len. split; [exact Lu|]. split; [exact Lv|].
    intros m Hm. destruct (Z.eq_dec m i) as [->|]; [rewrite !at_aset_same by lia; auto|].
    rewrite !at_aset_other by lia. apply V. lia.
  - cbn [fst snd] in *. rewrite E. cbn [bind]. rewrite !wr_ok by lia. cbn [bind].
    assert (y = x) as ->.
    { apply (list_ext y x n Ly Lx). intros i Hi. destruct (V i Hi) as [-> ->]. reflexivity. }
    exists (aset x j 1).
    assert (Vx : forall i, 0 <= i < n -> at_ (aset x j 1) i = if i =? j then 1 else 0).
    { intros i Hi. destruct (Z.eqb_spec i j) as [->|]; [apply at_aset_same; lia|].
      rewrite at_aset_other by lia. apply V, Hi. }
    split; [rewrite aset_len; exact Lx|]. split; [|split; [exact Vx|reflexivity]].
    apply all_in_of. intros i Hi. rewrite aset_len, Lx in Hi. rewrite Vx by exact Hi. unfold Q. destruct (i =? j); lia.
Qed.

Lemma cross_pass : (forall a, zlen a = n -> all_in 0 (Q - 1) a -> f a = g a) -> cross_check a0 b0 n f g = Ok tt.
Proof.
  intros H. rewrite T.
  destruct (loop_ok (fun _ (s : list Z * list Z) => zlen (fst s) = n /\ zlen (snd s) = n) n body (a0, b0) Hn) as (r & E & _);
    [auto| |rewrite E; reflexivity].
  intros j [a b] Hj [La Lb]. cbn [fst snd] in *. destruct (body_at j a b Hj La Lb) as (x & Lx & Ix & _ & ->).
  rewrite <- (H x Lx Ix). destruct (linear_canon n f Lf x Lx Ix) as (y & -> & Ly & Iy). cbn [bind].
  rewrite (equal_arrays_ok y y n Hn Ly Ly) by reflexivity. cbn [bind expect].
  rewrite <- (H y Ly Iy). destruct (linear_canon n f Lf y Ly Iy) as (z & -> & Lz & _). cbn [bind].
  rewrite (equal_arrays_ok z z n Hn Lz Lz) by reflexivity. cbn [bind expect]. eauto.
Qed.

Lemma cross_total : cross_check a0 b0 n f g = Ok tt \/ cross_check a0 b0 n f g = Err Exited.
Proof.
  rewrite T.
  assert (G : ends (fun e => e = Exited) (loop n body (a0, b0)) (fun s => zlen (fst s) = n /\ zlen (snd s) = n)).
  { apply (loop_ends (fun e : err => e = Exited) (fun _ (s : list Z * list Z) => zlen (fst s) = n /\ zlen (snd s) = n));
      [exact Hn|auto|].
    intros j [a b] Hj [La Lb]. cbn [fst snd] in *. destruct (body_at j a b Hj La Lb) as (x & Lx & Ix & _ & ->).
    destruct (linear_canon n f Lf x Lx Ix) as (y & -> & Ly & Iy). cbn [bind].
    destruct (linear_canon n g Lg x Lx Ix) as (y' & -> & Ly' & Iy'). cbn [bind].
    destruct (equal_arrays_total y y' n Hn Ly Ly') as ([|] & -> & _); [|reflexivity]. cbn [bind expect].
    destruct (linear_canon n f Lf y Ly Iy) as (z & -> & Lz & Iz). cbn [bind].
    destruct (linear_canon n g Lg y' Ly' Iy') as (z' & -> & Lz' & Iz'). cbn [bind].
    destruct (equal_arrays_total z z' n Hn Lz Lz') as ([|] & -> & _); [|reflexivity]. cbn [bind expect ends fst snd]. auto. }
  destruct (loop n body (a0, b0)) as [r|e]; [left; reflexivity|right]. cbn [ends] in G. rewrite G. reflexivity.
Qed.

Lemma cross_exhaustive : cross_check a0 b0 n f g = Ok tt -> forall a, zlen a = n -> all_in 0 (Q - 1) a -> f a = g a.
Proof.
  intros E. rewrite T in E. apply bind_inv in E as (e & E & _).
  assert (G : (zlen (fst e) = n /\ zlen (snd e) = n) /\ forall j b, 0 <= j < n -> zlen b = n ->
    (forall i, 0 <= i < n -> at_ b i = if i =? j then 1 else 0) -> f b = g b).
  { apply (loop_inv (fun c (s : list Z * list Z) => (zlen (fst s) = n /\ zlen (snd s) = n) /\ forall j b, 0 <= j < c -> zlen b = n ->
      (forall i, 0 <= i < n -> at_ b i = if i =? j then 1 else 0) -> f b = g b) n body (a0, b0) e E Hn).
    - split; [auto|]. intros; lia.
    - intros j [a b] r Hj [[La Lb] H] E1. cbn [fst snd] in *. destruct (body_at j a b Hj La Lb) as (x & Lx & Ix & Vx & EB).
      rewrite EB in E1.
      destruct (linear_canon n f Lf x Lx Ix) as (y & Ey & Ly & Iy). rewrite Ey in E1. cbn [bind] in E1.
      destruct (linear_canon n g Lg x Lx Ix) as (y' & Ey' & Ly' & Iy'). rewrite Ey' in E1. cbn [bind] in E1.
      destruct (equal_arrays_total y y' n Hn Ly Ly') as ([|] & Eq & B); rewrite Eq in E1; [|discriminate].
      cbn [bind expect] in E1. destruct B as [B _]. specialize (B eq_refl).
      destruct (linear_canon n f Lf y Ly Iy) as (z & Ez & Lz & Iz). rewrite Ez in E1. cbn [bind] in E1.
      destruct (linear_canon n g Lg y' Ly' Iy') as (z' & Ez' & Lz' & Iz'). rewrite Ez' in E1. cbn [bind] in E1.
      apply bind_inv in E1 as (ok & E2 & E1). apply bind_inv in E1 as (u & E3 & E1). injection E1 as <-. cbn [fst snd].
      split; [auto|]. intros m c Hm Lc Vc. destruct (Z.eq_dec m j) as [->|]; [|apply (H m); [lia|assumption|assumption]].
      assert (c = x) as ->.
      { apply (list_ext _ _ n Lc Lx). intros i Hi. rewrite Vc, Vx by exact Hi. reflexivity. }
      rewrite Ey, Ey', B. reflexivity. }
  destruct G as [[Le _] G]. destruct Lf as [F HF]. destruct Lg as [K HK]. intros a La Ia.
  destruct (HF a La Ia) as (r & -> & Lr & Vr). destruct (HK a La Ia) as (s & -> & Ls & Vs). f_equal.
  apply (list_ext r s n Lr Ls). intros i Hi. rewrite Vr, Vs by exact Hi.
  change (eqQ (lin n F a i) (lin n K a i)). apply basis_agree. intros j Hj.
  destruct (body_at j a a Hj La La) as (x & Lx & Ix & Vx & _). assert (X := G j x Hj Lx Vx).
  destruct (HF x Lx Ix) as (y & Ey & _ & Vy). destruct (HK x Lx Ix) as (y' & Ey' & _ & Vy').
  rewrite Ey, Ey' in X. injection X as <-. assert (Y := Vy i Hi). rewrite (Vy' i Hi) in Y.
  change (eqQ (lin n K x i) (lin n F x i)) in Y. rewrite !(lin_monomial n _ x i j Hj Vx) in Y. symmetry. exact Y.
Qed.
End Cross.
