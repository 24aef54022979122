(** The test programs: what a run that returns 0 says about the functions under test. *)

From Coq Require Import ZArith List Bool Lia Setoid Morphisms.
From Verif Require Import CSem Spec Loops ModQ HeapElem ModelNtt AvxArrays ProdFinal ModelTests TestsElem.
Import Spec.
Import ListNotations.
Open Scope Z_scope.

Lemma loop_inv {S} (J : Z -> S -> Prop) n body (st r : S) : loop n body st = Ok r -> 0 <= n < 4294967296 -> J 0 st ->
  (forall i st r, 0 <= i < n -> J i st -> body i st = Ok r -> J (i + 1) r) -> J n r.
Proof.
  intros E Hn H0 Hb. unfold loop in E.
  assert (G : forall f c st, 0 <= c <= n -> J c st ->
    cfor f c (fun i => i <? n) (fun i => u32 (i + 1)) body st = Ok r -> J n r).
  { clear E. induction f as [|f IH]; intros c s Hc HJ E; [discriminate|]. cbn [cfor] in E.
    destruct (Z.ltb_spec c n).
    - apply bind_inv in E as (s' & E1 & E2). rewrite u32_small in E2 by lia.
      apply (IH (c + 1) s'); [lia|apply (Hb c s); [lia|exact HJ|exact E1]|exact E2].
    - injection E as <-. replace n with c by lia. exact HJ. }
  exact (G (fuel n) 0 st ltac:(lia) H0 E).
Qed.

Lemma scan_inv {S} (J : Z -> S -> Prop) n step (st : S) : scan (fuel n) 0 n step st = Ok true ->
  0 <= n < 4294967296 -> J 0 st ->
  (forall i st r, 0 <= i < n -> J i st -> step i st = Ok (Some r) -> J (i + 1) r) -> exists r, J n r.
Proof.
  intros E Hn H0 Hb.
  assert (G : forall f c st, 0 <= c <= n -> J c st -> scan f c n step st = Ok true -> exists r, J n r).
  { clear E. induction f as [|f IH]; intros c s Hc HJ E; [discriminate|]. cbn [scan] in E.
    destruct (Z.ltb_spec c n).
    - apply bind_inv in E as ([s'|] & E1 & E2); [|discriminate]. rewrite u32_small in E2 by lia.
      apply (IH (c + 1) s'); [lia|apply (Hb c s); [lia|exact HJ|exact E1]|exact E2].
    - exists s. replace n with c by lia. exact HJ. }
  exact (G (fuel n) 0 st ltac:(lia) H0 E).
Qed.

Lemma expect_inv b r : expect b = Ok r -> b = true.
Proof. destruct b; [reflexivity|discriminate]. Qed.

(** ** The checks *)

Lemma equal_arrays_inv a b n : 0 <= n < 4294967296 -> equal_arrays a b n = Ok true ->
  forall i, 0 <= i < n -> at_ a i = at_ b i.
Proof.
  intros Hn E. unfold equal_arrays in E.
  destruct (scan_inv (fun c (_ : unit) => forall i, 0 <= i < c -> at_ a i = at_ b i) n _ tt E Hn) as [_ G].
  - intros; lia.
  - intros i st r Hi H E1. apply bind_inv in E1 as (x & Ex & E1). apply bind_inv in E1 as (y & Ey & E1).
    apply rd_inv in Ex as [_ ->]. apply rd_inv in Ey as [_ ->].
    destruct (Z.eqb_spec (at_ a i) (at_ b i)); [|discriminate].
    intros m Hm. destruct (Z.eq_dec m i) as [->|]; [assumption|]. apply H. lia.
  - exact G.
Qed.

Lemma check_ntt_simple_inv a n m w : 0 <= n < 4294967296 -> 0 <= m < n -> 0 <= w < 12289 ->
  check_ntt_simple a n m w = Ok true -> forall i, 0 <= i < n -> at_ a i = (w ^ (m * i)) mod 12289.
Proof.
  intros Hn Hm Hw E. unfold check_ntt_simple in E.
  rewrite power_ok in E; [|exact Hw|change (2 ^ 32) with 4294967296; lia]. cbn [bind] in E.
  destruct (scan_inv (fun c x => x = (w ^ (m * c)) mod 12289 /\ forall i, 0 <= i < c -> at_ a i = (w ^ (m * i)) mod 12289)
    n _ 1 E Hn) as (x & _ & G).
  - rewrite Z.mul_0_r. split; [reflexivity|]. intros; lia.
  - intros i x r Hi [-> H] E1. apply bind_inv in E1 as (v & Ev & E1). apply rd_inv in Ev as [_ ->].
    destruct (Z.eqb_spec (at_ a i) ((w ^ (m * i)) mod 12289)) as [Hv|]; [|discriminate].
    assert (B1 := Z.mod_pos_bound (w ^ (m * i)) 12289 ltac:(lia)).
    assert (B2 := Z.mod_pos_bound (w ^ m) 12289 ltac:(lia)).
    assert (Em := mulmod _ _ B1 B2).
    apply bind_inv in E1 as (z & Ez & E1). rewrite Ez in Em. cbn [bind] in Em. rewrite Em in E1. cbn [bind] in E1.
    injection E1 as <-. split.
    + rewrite <- Z.mul_mod by lia. f_equal. rewrite <- Z.pow_add_r by nia. f_equal. ring.
    + intros t Ht. destruct (Z.eq_dec t i) as [->|]; [exact Hv|]. apply H. lia.
  - exact G.
Qed.

Lemma check_ntt_ntt_simple_inv a n m : 0 <= n < 4294967296 -> 0 <= m < n ->
  check_ntt_ntt_simple a n m = Ok true -> forall i, 0 <= i < n ->
  if (i + m) mod n =? 0 then (at_ a i) mod 2 ^ 32 = n else at_ a i = 0.
Proof.
  intros Hn Hm E. unfold check_ntt_ntt_simple in E. replace (m <? n) with true in E by (symmetry; apply Z.ltb_lt; lia).
  cbn [cassert bind] in E. rewrite (u32_small (n - m)) in E by lia.
  destruct (scan_inv (fun c (_ : unit) => forall i, 0 <= i < c ->
    if (i + m) mod n =? 0 then (at_ a i) mod 2 ^ 32 = n else at_ a i = 0) n _ tt E Hn) as [_ G].
  - intros; lia.
  - intros i st r Hi H E1. apply bind_inv in E1 as (v & Ev & E1). apply rd_inv in Ev as [_ ->].
    intros t Ht. destruct (Z.eq_dec t i) as [->|]; [|apply H; lia]. clear H Ht.
    assert (EJ : (i =? (if m =? 0 then 0 else n - m)) = ((i + m) mod n =? 0)).
    { destruct (Z.eqb_spec m 0) as [->|].
      - rewrite Z.add_0_r, Z.mod_small by lia. reflexivity.
      - destruct (Z.eqb_spec i (n - m)) as [->|].
        + replace (n - m + m) with (1 * n) by ring. rewrite Z_mod_mult. reflexivity.
        + symmetry. apply Z.eqb_neq. intros Hz. apply Z.mod_divide in Hz as [q Hq]; [|lia].
          assert (q = 1) by nia. lia. }
    rewrite EJ in E1. destruct ((i + m) mod n =? 0); cbn [andb orb negb] in E1.
    + rewrite orb_false_r in E1. destruct (Z.eqb_spec (u32 (at_ a i)) n) as [Hu|]; [exact Hu|discriminate].
    + destruct (Z.eqb_spec (at_ a i) 0); [assumption|discriminate].
  - exact G.
Qed.

Lemma equal_simple_poly_inv c n m : 0 <= n < 2147483648 -> 0 <= m < 2 * n -> equal_simple_poly c n m = Ok true ->
  forall i, 0 <= i < n -> at_ c i = if n <=? m then (if i =? m - n then 12288 else 0) else (if i =? m then 1 else 0).
Proof.
  intros Hn Hm E. unfold equal_simple_poly in E. rewrite (u32_small (2 * n)) in E by lia.
  replace (m <? 2 * n) with true in E by (symmetry; apply Z.ltb_lt; lia). cbn [cassert bind] in E.
  assert (G : forall j val, scan (fuel n) 0 n (fun i (_ : unit) => do v <- rd c i;
      Ok (if ((i =? j) && negb (v =? val)) || (negb (i =? j) && negb (v =? 0)) then None else Some tt)) tt = Ok true ->
    forall i, 0 <= i < n -> at_ c i = if i =? j then val else 0).
  { intros j val E0.
    destruct (scan_inv (fun q (_ : unit) => forall i, 0 <= i < q -> at_ c i = if i =? j then val else 0) n _ tt E0 ltac:(lia))
      as [_ G].
    - intros; lia.
    - intros i st r Hi H E1. apply bind_inv in E1 as (v & Ev & E1). apply rd_inv in Ev as [_ ->].
      intros t Ht. destruct (Z.eq_dec t i) as [->|]; [|apply H; lia]. clear H Ht.
      destruct (i =? j); cbn [andb orb negb] in E1.
      + rewrite orb_false_r in E1. destruct (Z.eqb_spec (at_ c i) val); [assumption|discriminate].
      + destruct (Z.eqb_spec (at_ c i) 0); [assumption|discriminate].
    - exact G. }
  destruct (Z.leb_spec n m).
  - rewrite u32_small in E by lia. exact (G _ _ E).
  - exact (G _ _ E).
Qed.

(** ** The tests *)

Lemma simple_poly_is a m n b : 0 <= n < 4294967296 -> zlen a = n -> 0 <= m < n -> zlen b = n ->
  (forall i, 0 <= i < n -> at_ b i = if i =? m then 1 else 0) -> simple_poly a m n = Ok b.
Proof.
  intros Hn La Hm Lb Vb. destruct (simple_poly_ok a m n Hn La Hm) as (r & E & Lr & Vr). rewrite E. f_equal.
  apply (ProdFinal.list_ext _ _ n Lr Lb). intros i Hi. rewrite Vr, Vb by exact Hi. reflexivity.
Qed.

Lemma test_simple_polys_inv stk n bt np V f omega s2r : 0 < n < 4294967296 -> 0 <= omega < Q ->
  zlen (stk 0) = n ->
  (forall a r, zlen a = n -> all_in 0 (Q - 1) a -> apply_ntt bt np V a f s2r = Ok r -> zlen r = n) ->
  test_simple_polys stk n bt np V f omega s2r = Ok tt ->
  forall j a, 0 <= j < n -> zlen a = n -> (forall i, 0 <= i < n -> at_ a i = if i =? j then 1 else 0) ->
  exists r r2, apply_ntt bt np V a f s2r = Ok r
    /\ (forall i, 0 <= i < n -> at_ r i = NTT n omega (at_ a) i mod Q)
    /\ apply_ntt bt np V r f s2r = Ok r2
    /\ forall i, 0 <= i < n -> if (i + j) mod n =? 0 then at_ r2 i mod 2 ^ 32 = n else at_ r2 i = 0.
Proof.
  intros Hn Ho Hs HF E. unfold test_simple_polys in E. apply bind_inv in E as (e & E & _).
  assert (G : zlen e = n /\ forall j a, 0 <= j < n -> zlen a = n -> (forall i, 0 <= i < n -> at_ a i = if i =? j then 1 else 0) ->
    exists r r2, apply_ntt bt np V a f s2r = Ok r
    /\ (forall i, 0 <= i < n -> at_ r i = NTT n omega (at_ a) i mod Q)
    /\ apply_ntt bt np V r f s2r = Ok r2
    /\ forall i, 0 <= i < n -> if (i + j) mod n =? 0 then at_ r2 i mod 2 ^ 32 = n else at_ r2 i = 0).
  { apply (loop_inv (fun c e => zlen e = n /\ forall j a, 0 <= j < c -> zlen a = n ->
      (forall i, 0 <= i < n -> at_ a i = if i =? j then 1 else 0) ->
      exists r r2, apply_ntt bt np V a f s2r = Ok r
      /\ (forall i, 0 <= i < n -> at_ r i = NTT n omega (at_ a) i mod Q)
      /\ apply_ntt bt np V r f s2r = Ok r2
      /\ forall i, 0 <= i < n -> if (i + j) mod n =? 0 then at_ r2 i mod 2 ^ 32 = n else at_ r2 i = 0) n _ _ _ E).
    - lia.
    - split; [exact Hs|]. intros; lia.
    - clear E e. intros j e e2 Hj [Le H] E.
      apply bind_inv in E as (b & Eb & E). apply bind_inv in E as (x & Ex & E).
      apply bind_inv in E as (c1 & C1 & E). apply bind_inv in E as ([] & X1 & E).
      apply bind_inv in E as (y & Ey & E). apply bind_inv in E as (c2 & C2 & E).
      apply bind_inv in E as ([] & X2 & E). injection E as <-.
      apply expect_inv in X1. apply expect_inv in X2. subst c1 c2.
      destruct (simple_poly_ok e j n ltac:(lia) Le Hj) as (b' & Eb' & Lb & Vb). rewrite Eb in Eb'. injection Eb' as <-.
      assert (Lx := HF _ _ Lb (simple_range b n j Lb Vb) Ex).
      assert (Ho' : 0 <= omega < 12289) by exact Ho.
      assert (Vx := check_ntt_simple_inv x n j omega ltac:(lia) Hj Ho' C1).
      assert (Ix : all_in 0 (Q - 1) x).
      { apply all_in_of. intros i Hi. rewrite Vx by lia. assert (B := Z.mod_pos_bound (omega ^ (j * i)) 12289). unfold Q. lia. }
      assert (Ly := HF _ _ Lx Ix Ey). split; [exact Ly|].
      intros j' a Hj' La Va. destruct (Z.eq_dec j' j) as [->|]; [|apply H; [lia|exact La|exact Va]].
      assert (a = b) as ->.
      { apply (ProdFinal.list_ext _ _ n La Lb). intros i Hi. rewrite Va, Vb by exact Hi. reflexivity. }
      exists x, y. split; [exact Ex|]. split; [|split; [exact Ey|]].
      + intros i Hi. rewrite Vx by exact Hi.
        symmetry. apply (ntt_monomial n omega j (at_ b) i Hj). intros t Ht. rewrite Vb by exact Ht. reflexivity.
      + exact (check_ntt_ntt_simple_inv y n j ltac:(lia) Hj C2). }
  exact (proj2 G).
Qed.

Lemma test_simple_products_inv stk n V f : 0 < n < 2147483648 -> (forall p, zlen (stk p) = n) ->
  test_simple_products stk n V f = Ok tt ->
  forall i m a b, 0 <= i < n -> 0 <= m < n -> zlen a = n -> zlen b = n ->
  (forall t, 0 <= t < n -> at_ a t = if t =? i then 1 else 0) -> (forall t, 0 <= t < n -> at_ b t = if t =? m then 1 else 0) ->
  exists h c, f (hset (hset stk 0 a) 1 b) 2 0 1 = Ok h /\ after_product V (h 2) = Ok c
    /\ forall t, 0 <= t < n -> at_ c t = negacyclic n (at_ a) (at_ b) t mod Q.
Proof.
  intros Hn Hs E i m a b Hi Hm La Lb Va Vb. unfold test_simple_products in E.
  assert (G : test_simple_product stk n V f i m = Ok tt).
  { assert (G1 : forall i, 0 <= i < n -> forall m, 0 <= m < n -> test_simple_product stk n V f i m = Ok tt).
    { apply (loop_inv (fun c (_ : unit) => forall i, 0 <= i < c -> forall m, 0 <= m < n -> test_simple_product stk n V f i m = Ok tt) n _ _ _ E).
      - lia.
      - intros; lia.
      - intros c [] [] Hc H E1. intros p Hp. destruct (Z.eq_dec p c) as [->|]; [|apply H; lia].
        apply (loop_inv (fun q (_ : unit) => forall m, 0 <= m < q -> test_simple_product stk n V f c m = Ok tt) n _ _ _ E1).
        + lia.
        + intros; lia.
        + intros q [] [] Hq H2 E2 s Hs2. destruct (Z.eq_dec s q) as [->|]; [exact E2|apply H2; lia]. }
    exact (G1 i Hi m Hm). }
  unfold test_simple_product in G.
  rewrite (simple_poly_is (stk 0) i n a ltac:(lia) (Hs 0) Hi La Va) in G.
  rewrite (simple_poly_is (stk 1) m n b ltac:(lia) (Hs 1) Hm Lb Vb) in G. cbn [bind] in G.
  apply bind_inv in G as (h & Eh & G). apply bind_inv in G as (c & Ec & G). apply bind_inv in G as (ok & Eok & G).
  apply expect_inv in G. subst ok. exists h, c. split; [exact Eh|]. split; [exact Ec|].
  rewrite u32_small in Eok by lia.
  intros t Ht. rewrite (equal_simple_poly_inv c n (i + m) ltac:(lia) ltac:(lia) Eok t Ht).
  assert (N := negacyclic_monomials n i m (at_ a) (at_ b) t Hi Hm Ht Va Vb). unfold eqQ in N. rewrite N.
  destruct (n <=? i + m); [destruct (t =? i + m - n)|destruct (t =? i + m)]; reflexivity.
Qed.

Lemma check_inverse_inv stk n V a f g : 0 <= n < 4294967296 -> zlen a = n -> zlen (stk 1) = n ->
  check_inverse stk n V a f g = Ok tt ->
  exists r, (do b <- before_forward V a; do b <- f b; do b <- between V b; do b <- g b; after_inverse V b) = Ok r
    /\ forall i, 0 <= i < n -> at_ r i = at_ a i.
Proof.
  intros Hn La Ls E. unfold check_inverse in E.
  destruct (fill_ok n (stk 1) (at_ a) (fun i b => do x <- rd a i; wr b i x) Hn Ls) as (b & Eb & Lb & Vb).
  { intros i b Hi _. rewrite rd_ok by lia. reflexivity. }
  rewrite Eb in E. cbn [bind] in E.
  assert (b = a) as -> by (apply (ProdFinal.list_ext _ _ n Lb La); exact Vb).
  apply bind_inv in E as (b1 & E1 & E). apply bind_inv in E as (b2 & E2 & E). apply bind_inv in E as (b3 & E3 & E).
  apply bind_inv in E as (b4 & E4 & E). apply bind_inv in E as (b5 & E5 & E). apply bind_inv in E as (ok & E6 & E).
  apply expect_inv in E. subst ok. exists b5. rewrite E1. cbn [bind]. rewrite E2. cbn [bind]. rewrite E3. cbn [bind].
  rewrite E4. cbn [bind]. split; [exact E5|]. intros i Hi. symmetry. exact (equal_arrays_inv a b5 n Hn E6 i Hi).
Qed.

Lemma random_poly_inv rnd n a r b r' : 0 <= n < 4294967296 -> (forall i, 0 <= rnd i < 2 ^ 31) -> zlen a = n ->
  random_poly rnd n a r = Ok (b, r') ->
  r' = r + n /\ zlen b = n /\ forall i, 0 <= i < n -> at_ b i = rnd (r + i) mod Q.
Proof.
  intros Hn Hr La E. unfold random_poly in E.
  assert (G := loop_inv (fun c (s : list Z * Z) => snd s = r + c /\ zlen (fst s) = n
    /\ forall i, 0 <= i < c -> at_ (fst s) i = rnd (r + i) mod Q) n _ (a, r) (b, r') E Hn). cbn [fst snd] in G.
  apply G; clear G E.
  - split; [lia|]. split; [exact La|]. intros; lia.
  - intros c [x s] [y s'] Hc (Es & Lx & Vx) E. cbn [fst snd] in *. subst s.
    apply bind_inv in E as ([v s2] & E1 & E). apply bind_inv in E as (z & E2 & E). injection E as <- <-.
    unfold random_coeff in E1. assert (HB := Hr (r + c)). change (2 ^ 31) with 2147483648 in HB.
    change ModelTests.Q with 12289 in E1. rewrite Z.rem_mod_nonneg in E1 by lia.
    assert (HM := Z.mod_pos_bound (rnd (r + c)) 12289 ltac:(lia)). rewrite to_i32_small in E1 by lia.
    apply bind_inv in E1 as ([] & _ & E1). injection E1 as <- <-.
    apply wr_inv in E2; [|lia]. subst z. split; [ring|]. rewrite aset_len. split; [exact Lx|].
    intros i Hi. destruct (Z.eq_dec i c) as [->|].
    + rewrite at_aset_same by lia. reflexivity.
    + rewrite at_aset_other by lia. apply Vx. lia.
Qed.

Lemma test_forward_inverse_inv rnd stk n V f g r r' : 0 <= n < 4294967296 -> (forall i, 0 <= rnd i < 2 ^ 31) ->
  (forall p, zlen (stk p) = n) -> test_forward_inverse rnd stk n V f g r = Ok r' ->
  r' = r + 1000 * n
  /\ forall t a, 0 <= t < 1000 -> zlen a = n -> (forall i, 0 <= i < n -> at_ a i = rnd (r + t * n + i) mod Q) ->
     exists b, (do b <- before_forward V a; do b <- f b; do b <- between V b; do b <- g b; after_inverse V b) = Ok b
     /\ forall i, 0 <= i < n -> at_ b i = at_ a i.
Proof.
  intros Hn Hr Hs E. unfold test_forward_inverse in E. apply bind_inv in E as ([x s] & E & E2). injection E2 as ->.
  assert (G := loop_inv (fun c (s : list Z * Z) => snd s = r + c * n /\ zlen (fst s) = n
    /\ forall t a, 0 <= t < c -> zlen a = n -> (forall i, 0 <= i < n -> at_ a i = rnd (r + t * n + i) mod Q) ->
     exists b, (do b <- before_forward V a; do b <- f b; do b <- between V b; do b <- g b; after_inverse V b) = Ok b
     /\ forall i, 0 <= i < n -> at_ b i = at_ a i) 1000 _ (stk 0, r) (x, r') E ltac:(lia)). cbn [fst snd] in G.
  destruct G as (G1 & _ & G2); [| |split; [exact G1|exact G2]]; clear E.
  - split; [ring|]. split; [apply Hs|]. intros; lia.
  - intros c [y s] [z s'] Hc (Es & Ly & H) E. cbn [fst snd] in *. subst s.
    apply bind_inv in E as ([b s2] & E1 & E). apply bind_inv in E as ([] & E2 & E). injection E as <- <-.
    destruct (random_poly_inv _ _ _ _ _ _ Hn Hr Ly E1) as (-> & Lb & Vb).
    split; [ring|]. split; [exact Lb|]. intros t a Ht La Va. destruct (Z.eq_dec t c) as [->|]; [|apply (H t a); [lia|exact La|exact Va]].
    assert (a = b) as ->.
    { apply (ProdFinal.list_ext _ _ n La Lb). intros i Hi. rewrite Va, Vb by exact Hi. reflexivity. }
    exact (check_inverse_inv stk n V b f g Hn Lb (Hs 1) E2).
Qed.

(** ** The program *)

Lemma main_inv rnd clk stk n bt np V X : main rnd clk stk n bt np V X = Ok 0 ->
  exists r, tests rnd stk n bt np V X 0 = Ok r.
Proof. intros E. apply bind_inv in E as (r & E & _). eauto. Qed.

Lemma tests_parts rnd stk n bt np V X r0 r : tests rnd stk n bt np V X r0 = Ok r ->
  (forall f omega s, In (f, omega, s)
     [(f_ct_rev2std X, f_omega X, false); (f_gs_rev2std X, f_omega X, false);
      (f_ct_std2rev X, f_omega X, true); (f_gs_std2rev X, f_omega X, true);
      (f_intt_ct_rev2std X, f_inv_omega X, false); (f_intt_gs_rev2std X, f_inv_omega X, false);
      (f_intt_ct_std2rev X, f_inv_omega X, true); (f_intt_gs_std2rev X, f_inv_omega X, true)] ->
     test_simple_polys stk n bt np V f omega s = Ok tt)
  /\ (exists r1 r2 r3 r4 r5,
     test_forward_inverse rnd stk n V (f_ct_std2rev X) (f_intt_ct_rev2std X) r0 = Ok r1
     /\ test_forward_inverse rnd stk n V (f_intt_ct_rev2std X) (f_ct_std2rev X) r1 = Ok r2
     /\ test_forward_inverse rnd stk n V (f_ct_std2rev X) (f_intt_gs_rev2std X) r2 = Ok r3
     /\ test_forward_inverse rnd stk n V (f_intt_gs_rev2std X) (f_ct_std2rev X) r3 = Ok r4
     /\ test_forward_inverse rnd stk n V (f_gs_std2rev X) (f_intt_gs_rev2std X) r4 = Ok r5
     /\ test_forward_inverse rnd stk n V (f_intt_gs_rev2std X) (f_gs_std2rev X) r5 = Ok r)
  /\ (forall f, In f [f_product1 X; f_product2 X; f_product3 X; f_product4 X; f_product5 X] ->
     test_simple_products stk n V f = Ok tt).
Proof.
  unfold tests. intros E.
  apply bind_inv in E as ([] & A1 & E). apply bind_inv in E as ([] & A2 & E). apply bind_inv in E as ([] & A3 & E).
  apply bind_inv in E as ([] & A4 & E). apply bind_inv in E as ([] & A5 & E). apply bind_inv in E as ([] & A6 & E).
  apply bind_inv in E as ([] & A7 & E). apply bind_inv in E as ([] & A8 & E).
  apply bind_inv in E as (r1 & B1 & E). apply bind_inv in E as (r2 & B2 & E). apply bind_inv in E as (r3 & B3 & E).
  apply bind_inv in E as (r4 & B4 & E). apply bind_inv in E as (r5 & B5 & E). apply bind_inv in E as (r6 & B6 & E).
  apply bind_inv in E as ([] & P1 & E). apply bind_inv in E as ([] & P2 & E). apply bind_inv in E as ([] & P3 & E).
  apply bind_inv in E as ([] & P4 & E). apply bind_inv in E as ([] & P5 & E). injection E as ->.
  split; [|split].
  - intros f om s HI.
    repeat (destruct HI as [HI|HI]; [injection HI as <- <- <-; assumption|]). destruct HI.
  - exists r1, r2, r3, r4, r5. repeat split; assumption.
  - intros f HI. repeat (destruct HI as [<-|HI]; [assumption|]). destruct HI.
Qed.

Lemma main_certifies_transforms_L :
  forall rnd clk stk n bt np V X, 0 < n < 2 ^ 31 -> (forall p, zlen (stk p) = n) ->
  0 <= f_omega X < Q -> 0 <= f_inv_omega X < Q ->
  main rnd clk stk n bt np V X = Ok 0 ->
  forall f omega s2r, In (f, omega, s2r)
     [(f_ct_rev2std X, f_omega X, false); (f_gs_rev2std X, f_omega X, false);
      (f_ct_std2rev X, f_omega X, true); (f_gs_std2rev X, f_omega X, true);
      (f_intt_ct_rev2std X, f_inv_omega X, false); (f_intt_gs_rev2std X, f_inv_omega X, false);
      (f_intt_ct_std2rev X, f_inv_omega X, true); (f_intt_gs_std2rev X, f_inv_omega X, true)] ->
  let run := fun a => do a <- before V a;
    do a <- (if s2r : bool then do a <- f a; shuffle_with_table a bt np else do a <- shuffle_with_table a bt np; f a);
    after V a in
  (forall a r, zlen a = n -> all_in 0 (Q - 1) a -> run a = Ok r -> zlen r = n) ->
  forall j a, 0 <= j < n -> zlen a = n -> (forall i, 0 <= i < n -> at_ a i = if i =? j then 1 else 0) ->
  exists r r2, run a = Ok r
    /\ (forall i, 0 <= i < n -> at_ r i = NTT n omega (at_ a) i mod Q)
    /\ run r = Ok r2
    /\ forall i, 0 <= i < n -> if (i + j) mod n =? 0 then at_ r2 i mod 2 ^ 32 = n else at_ r2 i = 0.
Proof.
  intros rnd clk stk n bt np V X Hn Hs Ho Hi E f om s HI run HF j a Hj La Va.
  change (2 ^ 31) with 2147483648 in Hn.
  destruct (main_inv _ _ _ _ _ _ _ _ E) as (r0 & Et). destruct (tests_parts _ _ _ _ _ _ _ _ _ Et) as (HT & _).
  assert (ER : forall x, apply_ntt bt np V x f s = run x).
  { intros x. unfold apply_ntt, run, ntt_bitrev_shuffle. destruct s; destruct (before V x); cbn [bind]; try reflexivity.
    - destruct (f _); cbn [bind]; reflexivity.
    - destruct (shuffle_with_table _ _ _); cbn [bind]; reflexivity. }
  assert (Hom : 0 <= om < Q).
  { repeat (destruct HI as [HI|HI]; [injection HI as _ <- _; assumption|]). destruct HI. }
  destruct (test_simple_polys_inv stk n bt np V f om s ltac:(lia) Hom (Hs 0)) with (j := j) (a := a) as (r & r2 & E1 & E2 & E3 & E4).
  - intros b r Lb Ib Eb. rewrite ER in Eb. exact (HF b r Lb Ib Eb).
  - exact (HT _ _ _ HI).
  - exact Hj.
  - exact La.
  - exact Va.
  - rewrite ER in E1, E3. eauto 8.
Qed.

Lemma main_certifies_inverses_L :
  forall rnd clk stk n bt np V X, 0 < n < 2 ^ 31 -> (forall i, 0 <= rnd i < 2 ^ 31) -> (forall p, zlen (stk p) = n) ->
  main rnd clk stk n bt np V X = Ok 0 ->
  forall c f g, In (c, f, g)
    [(0, f_ct_std2rev X, f_intt_ct_rev2std X); (1, f_intt_ct_rev2std X, f_ct_std2rev X);
     (2, f_ct_std2rev X, f_intt_gs_rev2std X); (3, f_intt_gs_rev2std X, f_ct_std2rev X);
     (4, f_gs_std2rev X, f_intt_gs_rev2std X); (5, f_intt_gs_rev2std X, f_gs_std2rev X)] ->
  forall t a, 0 <= t < 1000 -> zlen a = n ->
  (forall i, 0 <= i < n -> at_ a i = rnd ((1000 * c + t) * n + i) mod Q) ->
  exists r, (do b <- before_forward V a; do b <- f b; do b <- between V b; do b <- g b; after_inverse V b) = Ok r
    /\ forall i, 0 <= i < n -> at_ r i = at_ a i.
Proof.
  intros rnd clk stk n bt np V X Hn Hr Hs E c f g HI t a Ht La Va. change (2 ^ 31) with 2147483648 in Hn.
  destruct (main_inv _ _ _ _ _ _ _ _ E) as (r0 & Et).
  destruct (tests_parts _ _ _ _ _ _ _ _ _ Et) as (_ & (r1 & r2 & r3 & r4 & r5 & B1 & B2 & B3 & B4 & B5 & B6) & _).
  clear E Et. assert (Hn4 : 0 <= n < 4294967296) by lia.
  destruct (test_forward_inverse_inv _ _ _ _ _ _ _ _ Hn4 Hr Hs B1) as [E1 H1].
  destruct (test_forward_inverse_inv _ _ _ _ _ _ _ _ Hn4 Hr Hs B2) as [E2 H2].
  destruct (test_forward_inverse_inv _ _ _ _ _ _ _ _ Hn4 Hr Hs B3) as [E3 H3].
  destruct (test_forward_inverse_inv _ _ _ _ _ _ _ _ Hn4 Hr Hs B4) as [E4 H4].
  destruct (test_forward_inverse_inv _ _ _ _ _ _ _ _ Hn4 Hr Hs B5) as [E5 H5].
  destruct (test_forward_inverse_inv _ _ _ _ _ _ _ _ Hn4 Hr Hs B6) as [_ H6]. clear B1 B2 B3 B4 B5 B6.
  assert (A : forall s i, s = 1000 * c * n -> s + t * n + i = (1000 * c + t) * n + i) by (intros; subst; ring).
  repeat (destruct HI as [HI|HI]; [injection HI as <- <- <-;
    (apply (H1 t a) || apply (H2 t a) || apply (H3 t a) || apply (H4 t a) || apply (H5 t a) || apply (H6 t a));
    [exact Ht|exact La|intros i Hi; rewrite A by (subst; ring); exact (Va i Hi)]|]).
  destruct HI.
Qed.

Lemma main_certifies_products_L :
  forall rnd clk stk n bt np V X, 0 < n < 2 ^ 31 -> (forall p, zlen (stk p) = n) ->
  main rnd clk stk n bt np V X = Ok 0 ->
  forall f, In f [f_product1 X; f_product2 X; f_product3 X; f_product4 X; f_product5 X] ->
  forall i m a b, 0 <= i < n -> 0 <= m < n -> zlen a = n -> zlen b = n ->
  (forall t, 0 <= t < n -> at_ a t = if t =? i then 1 else 0) -> (forall t, 0 <= t < n -> at_ b t = if t =? m then 1 else 0) ->
  exists h c, f (hset (hset stk 0 a) 1 b) 2 0 1 = Ok h /\ after_product V (h 2) = Ok c
    /\ forall t, 0 <= t < n -> at_ c t = negacyclic n (at_ a) (at_ b) t mod Q.
Proof.
  intros rnd clk stk n bt np V X Hn Hs E f HI. change (2 ^ 31) with 2147483648 in Hn.
  destruct (main_inv _ _ _ _ _ _ _ _ E) as (r0 & Et). destruct (tests_parts _ _ _ _ _ _ _ _ _ Et) as (_ & _ & HP).
  exact (test_simple_products_inv stk n V f Hn Hs (HP f HI)).
Qed.
