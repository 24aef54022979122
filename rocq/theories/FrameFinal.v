(** Longer arrays and the AVX2 routines on arbitrary contents: the lemmas behind PropFrame. *)

From Coq Require Import ZArith List Bool Lia.
From Verif Require Import CSem Spec TraceElem FrameElem FrameC FrameAvx FrameProd FrameShape.
From Verif Require ModelNtt ModelNaive ModelRed ModelAvx ModelProducts ModelAvxProd.
From Verif Require TraceSem TraceAvx TraceFinal AvxFinal AvxNttFinal.
Import ListNotations.
Open Scope Z_scope.

Lemma sim_frame s (m m' : res (list Z)) : sim (fr s) m m' ->
  (forall r, m = Ok r -> m' = Ok (r ++ s)) /\ (forall e, m = Err e -> e <> OutOfBounds -> m' = Err e).
Proof.
  intros H. split; [|exact (sim_fail _ _ _ H)]. intros r E. destruct (sim_ok _ _ _ H r E) as (r' & E' & ->). exact E'.
Qed.
Lemma sim_hframe t (m m' : res heap) : sim (hfr t) m m' ->
  (forall r, m = Ok r -> exists r', m' = Ok r' /\ forall x, r' x = r x ++ t x)
  /\ (forall e, m = Err e -> e <> OutOfBounds -> m' = Err e).
Proof. intros H. split; [exact (sim_ok _ _ _ H)|exact (sim_fail _ _ _ H)]. Qed.
Ltac in_cases H :=
  lazymatch type of H with
  | In _ (_ :: _) => destruct H as [<-|H]; [|in_cases H]
  | _ => destruct H
  end.

Lemma frame_table_L :
forall f, In f
    [ModelNtt.mul_array16;
     ModelNtt.ntt_ct_rev2std_v1;
     ModelNtt.ntt_ct_rev2std;
     ModelNtt.ntt_ct_std2rev;
     ModelNtt.ntt_gs_rev2std;
     ModelNtt.ntt_gs_std2rev;
     ModelNtt.mulntt_ct_rev2std;
     ModelNtt.mulntt_ct_std2rev;
     ModelNtt.nttmul_gs_rev2std;
     ModelNtt.nttmul_gs_std2rev;
     ModelRed.mul_reduce_array16;
     ModelRed.ntt_red_ct_rev2std;
     ModelRed.ntt_red_ct_std2rev;
     ModelRed.ntt_red_gs_rev2std;
     ModelRed.ntt_red_gs_std2rev;
     ModelRed.mulntt_red_ct_rev2std;
     ModelRed.mulntt_red_ct_std2rev;
     ModelRed.nttmul_red_gs_rev2std;
     ModelRed.nttmul_red_gs_std2rev;
     ModelAvx.mul_reduce_array16_asm;
     ModelAvx.mul_reduce_array16_asm2;
     ModelAvx.ntt_red_ct_rev2std_asm;
     ModelAvx.ntt_red_ct_std2rev_asm;
     ModelAvx.ntt_red_gs_rev2std_asm;
     ModelAvx.ntt_red_gs_std2rev_asm;
     ModelAvx.mulntt_red_ct_rev2std_asm;
     ModelAvx.mulntt_red_ct_std2rev_asm;
     ModelAvx.nttmul_red_gs_rev2std_asm;
     ModelAvx.nttmul_red_gs_std2rev_asm] ->
  forall a n p s q,
    (forall r, f a n p = Ok r -> f (a ++ s) n (p ++ q) = Ok (r ++ s))
    /\ (forall e, f a n p = Err e -> e <> OutOfBounds -> f (a ++ s) n (p ++ q) = Err e).
Proof.
  intros f HI a n p s q. in_cases HI.
  - apply sim_frame, (fr_mul_array16 s q a n p).
  - apply sim_frame, (fr_ntt_ct_rev2std_v1 s q a n p).
  - apply sim_frame, (fr_ntt_ct_rev2std s q a n p).
  - apply sim_frame, (fr_ntt_ct_std2rev s q a n p).
  - apply sim_frame, (fr_ntt_gs_rev2std s q a n p).
  - apply sim_frame, (fr_ntt_gs_std2rev s q a n p).
  - apply sim_frame, (fr_mulntt_ct_rev2std s q a n p).
  - apply sim_frame, (fr_mulntt_ct_std2rev s q a n p).
  - apply sim_frame, (fr_nttmul_gs_rev2std s q a n p).
  - apply sim_frame, (fr_nttmul_gs_std2rev s q a n p).
  - apply sim_frame, (fr_mul_reduce_array16 s q a n p).
  - apply sim_frame, (fr_ntt_red_ct_rev2std s q a n p).
  - apply sim_frame, (fr_ntt_red_ct_std2rev s q a n p).
  - apply sim_frame, (fr_ntt_red_gs_rev2std s q a n p).
  - apply sim_frame, (fr_ntt_red_gs_std2rev s q a n p).
  - apply sim_frame, (fr_mulntt_red_ct_rev2std s q a n p).
  - apply sim_frame, (fr_mulntt_red_ct_std2rev s q a n p).
  - apply sim_frame, (fr_nttmul_red_gs_rev2std s q a n p).
  - apply sim_frame, (fr_nttmul_red_gs_std2rev s q a n p).
  - apply sim_frame, (fr_mul_reduce_array16_asm s q a n p).
  - apply sim_frame, (fr_mul_reduce_array16_asm2 s q a n p).
  - apply sim_frame, (fr_ntt_red_ct_rev2std_asm s q a n p).
  - apply sim_frame, (fr_ntt_red_ct_std2rev_asm s q a n p).
  - apply sim_frame, (fr_ntt_red_gs_rev2std_asm s q a n p).
  - apply sim_frame, (fr_ntt_red_gs_std2rev_asm s q a n p).
  - apply sim_frame, (fr_mulntt_red_ct_rev2std_asm s q a n p).
  - apply sim_frame, (fr_mulntt_red_ct_std2rev_asm s q a n p).
  - apply sim_frame, (fr_nttmul_red_gs_rev2std_asm s q a n p).
  - apply sim_frame, (fr_nttmul_red_gs_std2rev_asm s q a n p).
Qed.

Lemma frame_naive_L :
(forall f, In f
    [ModelNaive.mul_array16_naive;
     ModelNaive.ntt_ct_rev2std_naive;
     ModelNaive.ntt_ct_std2rev_naive;
     ModelNaive.ntt_gs_rev2std_naive;
     ModelNaive.ntt_gs_std2rev_naive;
     ModelNaive.mulntt_ct_rev2std_naive;
     ModelNaive.mulntt_ct_std2rev_naive;
     ModelNaive.nttmul_gs_rev2std_naive;
     ModelNaive.nttmul_gs_std2rev_naive] ->
  forall a n p m s q,
    (forall r, f a n p m = Ok r -> f (a ++ s) n (p ++ q) m = Ok (r ++ s))
    /\ (forall e, f a n p m = Err e -> e <> OutOfBounds -> f (a ++ s) n (p ++ q) m = Err e))
  /\ forall a n c m s,
    (forall r, ModelNaive.scalar_mul_array_naive a n c m = Ok r -> ModelNaive.scalar_mul_array_naive (a ++ s) n c m = Ok (r ++ s))
    /\ (forall e, ModelNaive.scalar_mul_array_naive a n c m = Err e -> e <> OutOfBounds -> ModelNaive.scalar_mul_array_naive (a ++ s) n c m = Err e).
Proof.
  split; [intros f HI a n p m s q; in_cases HI|intros a n c m s].
  - apply sim_frame, (fr_mul_array16_naive s q a n p m).
  - apply sim_frame, (fr_ntt_ct_rev2std_naive s q a n p m).
  - apply sim_frame, (fr_ntt_ct_std2rev_naive s q a n p m).
  - apply sim_frame, (fr_ntt_gs_rev2std_naive s q a n p m).
  - apply sim_frame, (fr_ntt_gs_std2rev_naive s q a n p m).
  - apply sim_frame, (fr_mulntt_ct_rev2std_naive s q a n p m).
  - apply sim_frame, (fr_mulntt_ct_std2rev_naive s q a n p m).
  - apply sim_frame, (fr_nttmul_gs_rev2std_naive s q a n p m).
  - apply sim_frame, (fr_nttmul_gs_std2rev_naive s q a n p m).
  - apply sim_frame, (fr_scalar_mul_array_naive s a n c m).
Qed.

Lemma frame_array_L :
(forall f, In f
    [ModelNtt.bitrev_shuffle;
     ModelRed.normalize;
     ModelRed.normalize_inv3;
     ModelRed.shift_array;
     ModelRed.reduce_array;
     ModelRed.reduce_array_twice;
     ModelRed.correct;
     ModelAvx.reduce_array_asm;
     ModelAvx.reduce_array_asm2;
     ModelAvx.reduce_array_twice_asm;
     ModelAvx.reduce_array_twice_asm2;
     ModelAvx.correct_asm;
     ModelAvx.shift_array_asm] ->
  forall a n s,
    (forall r, f a n = Ok r -> f (a ++ s) n = Ok (r ++ s))
    /\ (forall e, f a n = Err e -> e <> OutOfBounds -> f (a ++ s) n = Err e))
  /\ (forall f, In f [ModelNtt.scalar_mul_array;
     ModelRed.scalar_mul_reduce_array;
     ModelAvx.scalar_mul_reduce_array_asm] ->
  forall a n c s,
    (forall r, f a n c = Ok r -> f (a ++ s) n c = Ok (r ++ s))
    /\ (forall e, f a n c = Err e -> e <> OutOfBounds -> f (a ++ s) n c = Err e))
  /\ forall a p n s,
    (forall r, ModelNtt.shuffle_with_table a p n = Ok r -> ModelNtt.shuffle_with_table (a ++ s) p n = Ok (r ++ s))
    /\ (forall e, ModelNtt.shuffle_with_table a p n = Err e -> e <> OutOfBounds -> ModelNtt.shuffle_with_table (a ++ s) p n = Err e).
Proof.
  split; [intros f HI a n s; in_cases HI|split; [intros f HI a n c s; in_cases HI|intros a p n s]].
  - apply sim_frame, (fr_bitrev_shuffle s a n).
  - apply sim_frame, (fr_normalize s a n).
  - apply sim_frame, (fr_normalize_inv3 s a n).
  - apply sim_frame, (fr_shift_array s a n).
  - apply sim_frame, (fr_reduce_array s a n).
  - apply sim_frame, (fr_reduce_array_twice s a n).
  - apply sim_frame, (fr_correct s a n).
  - apply sim_frame, (fr_reduce_array_asm s a n).
  - apply sim_frame, (fr_reduce_array_asm2 s a n).
  - apply sim_frame, (fr_reduce_array_twice_asm s a n).
  - apply sim_frame, (fr_reduce_array_twice_asm2 s a n).
  - apply sim_frame, (fr_correct_asm s a n).
  - apply sim_frame, (fr_shift_array_asm s a n).
  - apply sim_frame, (fr_scalar_mul_array s a n c).
  - apply sim_frame, (fr_scalar_mul_reduce_array s a n c).
  - apply sim_frame, (fr_scalar_mul_reduce_array_asm s a n c).
  - apply sim_frame, (fr_shuffle_with_table s a p n).
Qed.

Lemma frame_array_product_L :
forall h h' t c n a b, (forall x, h' x = h x ++ t x) ->
  (forall f, In f [ModelNtt.mul_array_h;
     ModelRed.mul_reduce_array_h;
     ModelAvx.mul_reduce_array_asm_h] ->
    (forall r, f h c n a b = Ok r ->
        exists r', f h' c n a b = Ok r' /\ forall x, r' x = r x ++ t x)
    /\ (forall e, f h c n a b = Err e -> e <> OutOfBounds -> f h' c n a b = Err e))
  /\ (forall m,
    (forall r, ModelNaive.mul_array_naive_h h c n a b m = Ok r ->
        exists r', ModelNaive.mul_array_naive_h h' c n a b m = Ok r' /\ forall x, r' x = r x ++ t x)
    /\ (forall e, ModelNaive.mul_array_naive_h h c n a b m = Err e -> e <> OutOfBounds -> ModelNaive.mul_array_naive_h h' c n a b m = Err e)).
Proof.
  intros h h' t c n a b H. split; [intros f HI; in_cases HI|intros m].
  - apply sim_hframe, (fr_mul_array_h t h c n a b h' H).
  - apply sim_hframe, (fr_mul_reduce_array_h t h c n a b h' H).
  - apply sim_hframe, (fr_mul_reduce_array_asm_h t h c n a b h' H).
  - apply sim_hframe, (fr_mul_array_naive_h t h c n a b m h' H).
Qed.

Lemma frame_products_L :
forall h h' t c a b, (forall x, h' x = h x ++ t x) ->
  (forall n T f, In f
    [ModelProducts.ntt_product1 n T;
     ModelProducts.ntt_product2 n T;
     ModelProducts.ntt_product3 n T;
     ModelProducts.ntt_product4 n T;
     ModelProducts.ntt_product5 n T;
     ModelProducts.naive_product1 n T;
     ModelProducts.naive_product2 n T;
     ModelProducts.naive_product3 n T;
     ModelProducts.naive_product4 n T;
     ModelProducts.naive_product5 n T] ->
    (forall r, f h c a b = Ok r ->
        exists r', f h' c a b = Ok r' /\ forall x, r' x = r x ++ t x)
    /\ (forall e, f h c a b = Err e -> e <> OutOfBounds -> f h' c a b = Err e))
  /\ (forall sh n T f, In f
    [ModelProducts.red_product1 sh n T;
     ModelProducts.red_product2 sh n T;
     ModelProducts.red_product3 sh n T;
     ModelProducts.red_product4 sh n T;
     ModelProducts.red_product5 sh n T;
     ModelAvxProd.red_product1_asm sh n T;
     ModelAvxProd.red_product2_asm sh n T;
     ModelAvxProd.red_product3_asm sh n T;
     ModelAvxProd.red_product4_asm sh n T;
     ModelAvxProd.red_product5_asm sh n T;
     ModelAvxProd.red1024_product1_asm n T] ->
    (forall r, f h c a b = Ok r ->
        exists r', f h' c a b = Ok r' /\ forall x, r' x = r x ++ t x)
    /\ (forall e, f h c a b = Err e -> e <> OutOfBounds -> f h' c a b = Err e)).
Proof.
  intros h h' t c a b H. split; [intros n T f HI; in_cases HI|intros sh n T f HI; in_cases HI].
  - apply sim_hframe, (fp_ntt_product1 t h h' H n T c a b).
  - apply sim_hframe, (fp_ntt_product2 t h h' H n T c a b).
  - apply sim_hframe, (fp_ntt_product3 t h h' H n T c a b).
  - apply sim_hframe, (fp_ntt_product4 t h h' H n T c a b).
  - apply sim_hframe, (fp_ntt_product5 t h h' H n T c a b).
  - apply sim_hframe, (fp_naive_product1 t h h' H n T c a b).
  - apply sim_hframe, (fp_naive_product2 t h h' H n T c a b).
  - apply sim_hframe, (fp_naive_product3 t h h' H n T c a b).
  - apply sim_hframe, (fp_naive_product4 t h h' H n T c a b).
  - apply sim_hframe, (fp_naive_product5 t h h' H n T c a b).
  - apply sim_hframe, (fp_red_product1 t h h' H sh n T c a b).
  - apply sim_hframe, (fp_red_product2 t h h' H sh n T c a b).
  - apply sim_hframe, (fp_red_product3 t h h' H sh n T c a b).
  - apply sim_hframe, (fp_red_product4 t h h' H sh n T c a b).
  - apply sim_hframe, (fp_red_product5 t h h' H sh n T c a b).
  - apply sim_hframe, (fp_red_product1_asm t h h' H sh n T c a b).
  - apply sim_hframe, (fp_red_product2_asm t h h' H sh n T c a b).
  - apply sim_hframe, (fp_red_product3_asm t h h' H sh n T c a b).
  - apply sim_hframe, (fp_red_product4_asm t h h' H sh n T c a b).
  - apply sim_hframe, (fp_red_product5_asm t h h' H sh n T c a b).
  - apply sim_hframe, (fp_red1024_product1_asm t h h' H n T c a b).
Qed.

(** ** The AVX2 routines stay inside their arrays *)

Definition fill (v n : Z) : list Z := repeat v (Z.to_nat n).
Lemma fill_len v n : 0 <= n -> zlen (fill v n) = n.
Proof. intros H. unfold zlen, fill. rewrite repeat_length. lia. Qed.
Lemma fill_at v n i : 0 <= i < n -> at_ (fill v n) i = v.
Proof.
  intros H. unfold at_, fill. assert (E : (Z.to_nat i < Z.to_nat n)%nat) by lia. revert E. generalize (Z.to_nat i) (Z.to_nat n).
  clear. intros i n. revert i. induction n as [|n IH]; intros [|i] E; cbn [repeat nth]; [lia|lia|reflexivity|apply IH; lia].
Qed.
Lemma fill_in v n lo hi : lo <= v <= hi -> all_in lo hi (fill v n).
Proof. intros H. intros x Hx. apply repeat_spec in Hx. subst x. exact H. Qed.

Definition sh_tab (f : list Z -> Z -> list Z -> res (list Z)) : Prop :=
  (forall s q a n p, sim (fr s) (f a n p) (f (a ++ s) n (p ++ q)))
  /\ (forall p p', (length p <= length p')%nat -> forall a a' n, shp a a' -> sim shp (f a n p) (f a' n p')).
Lemma total_tab f n v w r : sh_tab f -> 0 <= n -> f (fill v n) n (fill w n) = Ok r -> zlen r = n ->
  forall a p, zlen a = n -> n <= zlen p ->
  exists r, f a n p = Ok r /\ zlen r = n /\ forall s q, f (a ++ s) n (p ++ q) = Ok (r ++ s).
Proof.
  intros [Hf Hs] Hn E Er a p La Lp. pose proof (fill_len v n Hn) as L1. pose proof (fill_len w n Hn) as L2.
  assert (Hp : (length (fill w n) <= length p)%nat) by (clear - L2 Lp; unfold zlen in *; lia).
  assert (Ha : shp (fill v n) a) by (clear - L1 La; unfold zlen, shp in *; lia).
  destruct (sim_ok _ _ _ (Hs _ _ Hp _ _ n Ha) r E) as (r' & E' & HR). exists r'. split; [exact E'|].
  split; [clear - HR Er; unfold zlen, shp in *; lia|]. intros s q. exact (proj1 (sim_frame _ _ _ (Hf s q a n p)) _ E').
Qed.
Definition sh_arr (f : list Z -> Z -> res (list Z)) : Prop :=
  (forall s a n, sim (fr s) (f a n) (f (a ++ s) n)) /\ (forall a a' n, shp a a' -> sim shp (f a n) (f a' n)).
Lemma total_arr f n v r : sh_arr f -> 0 <= n -> f (fill v n) n = Ok r -> zlen r = n ->
  forall a, zlen a = n -> exists r, f a n = Ok r /\ zlen r = n /\ forall s, f (a ++ s) n = Ok (r ++ s).
Proof.
  intros [Hf Hs] Hn E Er a La. pose proof (fill_len v n Hn) as L1.
  assert (Ha : shp (fill v n) a) by (clear - L1 La; unfold zlen, shp in *; lia).
  destruct (sim_ok _ _ _ (Hs _ _ n Ha) r E) as (r' & E' & HR). exists r'. split; [exact E'|].
  split; [clear - HR Er; unfold zlen, shp in *; lia|]. intros s. exact (proj1 (sim_frame _ _ _ (Hf s a n)) _ E').
Qed.

Lemma asm_transforms_in_bounds :
(forall f, In f
    [ModelAvx.ntt_red_ct_rev2std_asm;
     ModelAvx.ntt_red_ct_std2rev_asm;
     ModelAvx.ntt_red_gs_rev2std_asm;
     ModelAvx.ntt_red_gs_std2rev_asm;
     ModelAvx.mulntt_red_ct_rev2std_asm;
     ModelAvx.mulntt_red_ct_std2rev_asm;
     ModelAvx.nttmul_red_gs_rev2std_asm;
     ModelAvx.nttmul_red_gs_std2rev_asm] ->
  forall k a p, 4 <= k <= 31 -> zlen a = 2 ^ k -> 2 ^ k <= zlen p ->
    exists r, f a (2 ^ k) p = Ok r /\ zlen r = 2 ^ k
      /\ forall s q, f (a ++ s) (2 ^ k) (p ++ q) = Ok (r ++ s)).
Proof.
  intros f HI k a p Hk La Lp. assert (Hn : 0 < 2 ^ k) by (apply Z.pow_pos_nonneg; lia).
  pose proof (fill_len 0 (2 ^ k) ltac:(lia)) as L1. pose proof (fill_len (-4096) (2 ^ k) ltac:(lia)) as L2.
  assert (H16 : all_in (- 2 ^ 15) (2 ^ 15 - 1) (fill (-4096) (2 ^ k))) by (apply fill_in; lia).
  assert (Hu : forall c, 0 <= c < k -> at_ (fill (-4096) (2 ^ k)) (2 ^ c) = -4096).
  { intros c Hc. apply fill_at. pose proof (AvxNttFinal.pow_rng k c Hc). lia. }
  destruct (AvxNttFinal.ntt_asm_in_bounds_L k (fill 0 (2 ^ k)) (fill (-4096) (2 ^ k)) Hk L1 ltac:(lia) H16 Hu) as ((r1 & E1 & R1) & (r2 & E2 & R2) & (r3 & E3 & R3) & (r4 & E4 & R4)).
  destruct (AvxNttFinal.mulntt_asm_in_bounds_L k (fill 0 (2 ^ k)) (fill (-4096) (2 ^ k)) Hk L1 ltac:(lia) H16) as ((r5 & E5 & R5) & (r6 & E6 & R6) & (r7 & E7 & R7) & (r8 & E8 & R8)).
  in_cases HI.
  - eapply total_tab; [split; [exact fr_ntt_red_ct_rev2std_asm|exact sh_ntt_red_ct_rev2std_asm]|lia|exact E1|exact R1|exact La|exact Lp].
  - eapply total_tab; [split; [exact fr_ntt_red_ct_std2rev_asm|exact sh_ntt_red_ct_std2rev_asm]|lia|exact E2|exact R2|exact La|exact Lp].
  - eapply total_tab; [split; [exact fr_ntt_red_gs_rev2std_asm|exact sh_ntt_red_gs_rev2std_asm]|lia|exact E3|exact R3|exact La|exact Lp].
  - eapply total_tab; [split; [exact fr_ntt_red_gs_std2rev_asm|exact sh_ntt_red_gs_std2rev_asm]|lia|exact E4|exact R4|exact La|exact Lp].
  - eapply total_tab; [split; [exact fr_mulntt_red_ct_rev2std_asm|exact sh_mulntt_red_ct_rev2std_asm]|lia|exact E5|exact R5|exact La|exact Lp].
  - eapply total_tab; [split; [exact fr_mulntt_red_ct_std2rev_asm|exact sh_mulntt_red_ct_std2rev_asm]|lia|exact E6|exact R6|exact La|exact Lp].
  - eapply total_tab; [split; [exact fr_nttmul_red_gs_rev2std_asm|exact sh_nttmul_red_gs_rev2std_asm]|lia|exact E7|exact R7|exact La|exact Lp].
  - eapply total_tab; [split; [exact fr_nttmul_red_gs_std2rev_asm|exact sh_nttmul_red_gs_std2rev_asm]|lia|exact E8|exact R8|exact La|exact Lp].
Qed.

Lemma asm_in_bounds_L :
(forall f, In f
    [ModelAvx.ntt_red_ct_rev2std_asm;
     ModelAvx.ntt_red_ct_std2rev_asm;
     ModelAvx.ntt_red_gs_rev2std_asm;
     ModelAvx.ntt_red_gs_std2rev_asm;
     ModelAvx.mulntt_red_ct_rev2std_asm;
     ModelAvx.mulntt_red_ct_std2rev_asm;
     ModelAvx.nttmul_red_gs_rev2std_asm;
     ModelAvx.nttmul_red_gs_std2rev_asm] ->
  forall k a p, 4 <= k <= 31 -> zlen a = 2 ^ k -> 2 ^ k <= zlen p ->
    exists r, f a (2 ^ k) p = Ok r /\ zlen r = 2 ^ k
      /\ forall s q, f (a ++ s) (2 ^ k) (p ++ q) = Ok (r ++ s))
  /\ (forall f, In f [ModelAvx.mul_reduce_array16_asm; ModelAvx.mul_reduce_array16_asm2] ->
  forall n a p, 0 < n < 2 ^ 32 -> n mod 16 = 0 -> zlen a = n -> n <= zlen p ->
    exists r, f a n p = Ok r /\ zlen r = n
      /\ forall s q, f (a ++ s) n (p ++ q) = Ok (r ++ s))
  /\ (forall f, In f [ModelAvx.reduce_array_asm;
     ModelAvx.reduce_array_asm2;
     ModelAvx.reduce_array_twice_asm;
     ModelAvx.reduce_array_twice_asm2;
     ModelAvx.correct_asm;
     ModelAvx.shift_array_asm] ->
  forall n a, 0 < n < 2 ^ 32 -> n mod 16 = 0 -> zlen a = n ->
    exists r, f a n = Ok r /\ zlen r = n
      /\ forall s, f (a ++ s) n = Ok (r ++ s))
  /\ (forall n a c, 0 < n < 2 ^ 32 -> n mod 16 = 0 -> zlen a = n ->
    exists r, ModelAvx.scalar_mul_reduce_array_asm a n c = Ok r /\ zlen r = n
      /\ forall s, ModelAvx.scalar_mul_reduce_array_asm (a ++ s) n c = Ok (r ++ s)).
Proof.
  split; [exact asm_transforms_in_bounds|]. split; [|split].
  - intros f HI n a p Hn Hm La Lp. pose proof (fill_len 0 n ltac:(lia)) as L1.
    destruct (AvxFinal.mul_reduce_array16_asm_correct_L (fill 0 n) n (fill 0 n) Hn Hm ltac:(lia) ltac:(lia)) as (r & E1 & E2 & R & _);
      [apply fill_in; lia|apply fill_in; lia|intros i Hi; rewrite !fill_at by exact Hi; lia|]. rewrite L1 in R.
    in_cases HI.
    + eapply total_tab; [split; [exact fr_mul_reduce_array16_asm|exact sh_mul_reduce_array16_asm]|lia|exact E1|exact R|exact La|exact Lp].
    + eapply total_tab; [split; [exact fr_mul_reduce_array16_asm2|exact sh_mul_reduce_array16_asm2]|lia|exact E2|exact R|exact La|exact Lp].
  - intros f HI n a Hn Hm La. pose proof (fill_len 0 n ltac:(lia)) as L1.
    destruct (AvxFinal.reduce_array_asm_correct_L (fill 0 n) n Hn Hm ltac:(lia)) as (r1 & E1 & E2 & R1 & _); [apply fill_in; lia|].
    destruct (AvxFinal.reduce_array_twice_asm_correct_L (fill 0 n) n Hn Hm ltac:(lia)) as (r2 & E3 & E4 & R2 & _); [apply fill_in; lia|].
    destruct (AvxFinal.correct_asm_canonical_L (fill 0 n) n Hn Hm ltac:(lia)) as (r3 & E5 & R3 & _); [apply fill_in; unfold Q; lia|].
    destruct (AvxFinal.shift_array_asm_centred_L (fill 0 n) n Hn Hm ltac:(lia)) as (r4 & E6 & R4 & _); [apply fill_in; unfold Q; lia|].
    rewrite L1 in R1, R2, R3, R4. in_cases HI.
    + eapply total_arr; [split; [exact fr_reduce_array_asm|exact sh_reduce_array_asm]|lia|exact E1|exact R1|exact La].
    + eapply total_arr; [split; [exact fr_reduce_array_asm2|exact sh_reduce_array_asm2]|lia|exact E2|exact R1|exact La].
    + eapply total_arr; [split; [exact fr_reduce_array_twice_asm|exact sh_reduce_array_twice_asm]|lia|exact E3|exact R2|exact La].
    + eapply total_arr; [split; [exact fr_reduce_array_twice_asm2|exact sh_reduce_array_twice_asm2]|lia|exact E4|exact R2|exact La].
    + eapply total_arr; [split; [exact fr_correct_asm|exact sh_correct_asm]|lia|exact E5|exact R3|exact La].
    + eapply total_arr; [split; [exact fr_shift_array_asm|exact sh_shift_array_asm]|lia|exact E6|exact R4|exact La].
  - intros n a c Hn Hm La. pose proof (fill_len 0 n ltac:(lia)) as L1.
    destruct (AvxFinal.scalar_mul_reduce_array_asm_correct_L (fill 0 n) n 0 Hn Hm ltac:(lia) ltac:(lia)) as (r & E & R & _);
      [intros i Hi; lia|]. rewrite L1 in R.
    assert (Ha : shp (fill 0 n) a) by (clear - L1 La; unfold zlen, shp in *; lia).
    destruct (sim_ok _ _ _ (sh_scalar_mul_reduce_array_asm _ _ n 0 c Ha) r E) as (r' & E' & HR). exists r'. split; [exact E'|].
    split; [clear - HR R; unfold zlen, shp in *; lia|]. intros s. exact (proj1 (sim_frame _ _ _ (fr_scalar_mul_reduce_array_asm s a n c)) _ E').
Qed.

Lemma split_len n (a : list Z) : 0 <= n <= zlen a -> exists b s, a = b ++ s /\ zlen b = n.
Proof.
  intros H. exists (firstn (Z.to_nat n) a), (skipn (Z.to_nat n) a). rewrite firstn_skipn. split; [reflexivity|].
  unfold zlen in *. rewrite firstn_length. lia.
Qed.
Lemma tt_tab (ft : list Z -> Z -> list Z -> TraceSem.tr (list Z)) f n :
  (forall a a' n p p', snd (ft a n p) = f a n p /\ TraceSem.same_trace (ft a n p) (ft a' n p')) -> 0 <= n ->
  (forall a p, zlen a = n -> n <= zlen p -> exists r, f a n p = Ok r /\ zlen r = n /\ forall s q, f (a ++ s) n (p ++ q) = Ok (r ++ s)) ->
  forall a a' p p', n <= zlen a -> n <= zlen a' -> n <= zlen p -> n <= zlen p' -> fst (ft a n p) = fst (ft a' n p').
Proof.
  intros HT Hn HB a a' p p' La La' Lp Lp'.
  destruct (split_len n a (conj Hn La)) as (b & s & -> & Lb). destruct (split_len n a' (conj Hn La')) as (b' & s' & -> & Lb').
  destruct (HB b p Lb Lp) as (r & _ & _ & E). destruct (HB b' p' Lb' Lp') as (r' & _ & _ & E').
  specialize (E s []). specialize (E' s' []). rewrite app_nil_r in E, E'.
  destruct (HT (b ++ s) (b' ++ s') n p p') as [S HS]. destruct (HT (b' ++ s') (b ++ s) n p' p) as [S' _].
  apply (HS (r ++ s) (r' ++ s')); [rewrite S; exact E|rewrite S'; exact E'].
Qed.
Lemma tt_arr (ft : list Z -> Z -> TraceSem.tr (list Z)) f n :
  (forall a a' n, snd (ft a n) = f a n /\ TraceSem.same_trace (ft a n) (ft a' n)) -> 0 <= n ->
  (forall a, zlen a = n -> exists r, f a n = Ok r /\ zlen r = n /\ forall s, f (a ++ s) n = Ok (r ++ s)) ->
  forall a a', n <= zlen a -> n <= zlen a' -> fst (ft a n) = fst (ft a' n).
Proof.
  intros HT Hn HB a a' La La'.
  destruct (split_len n a (conj Hn La)) as (b & s & -> & Lb). destruct (split_len n a' (conj Hn La')) as (b' & s' & -> & Lb').
  destruct (HB b Lb) as (r & _ & _ & E). destruct (HB b' Lb') as (r' & _ & _ & E').
  destruct (HT (b ++ s) (b' ++ s') n) as [S HS]. destruct (HT (b' ++ s') (b ++ s) n) as [S' _].
  apply (HS (r ++ s) (r' ++ s')); [rewrite S; apply E|rewrite S'; apply E'].
Qed.

Lemma asm_trace_total_L :
(forall ft, In ft
    [TraceAvx.ntt_red_ct_rev2std_asm;
     TraceAvx.ntt_red_ct_std2rev_asm;
     TraceAvx.ntt_red_gs_rev2std_asm;
     TraceAvx.ntt_red_gs_std2rev_asm;
     TraceAvx.mulntt_red_ct_rev2std_asm;
     TraceAvx.mulntt_red_ct_std2rev_asm;
     TraceAvx.nttmul_red_gs_rev2std_asm;
     TraceAvx.nttmul_red_gs_std2rev_asm] ->
  forall k a a' p p', 4 <= k <= 31 -> 2 ^ k <= zlen a -> 2 ^ k <= zlen a' ->
    2 ^ k <= zlen p -> 2 ^ k <= zlen p' ->
    fst (ft a (2 ^ k) p) = fst (ft a' (2 ^ k) p'))
  /\ (forall ft, In ft [TraceAvx.mul_reduce_array16_asm; TraceAvx.mul_reduce_array16_asm2] ->
  forall n a a' p p', 0 < n < 2 ^ 32 -> n mod 16 = 0 -> n <= zlen a -> n <= zlen a' ->
    n <= zlen p -> n <= zlen p' ->
    fst (ft a n p) = fst (ft a' n p'))
  /\ (forall ft, In ft [TraceAvx.reduce_array_asm;
     TraceAvx.reduce_array_asm2;
     TraceAvx.reduce_array_twice_asm;
     TraceAvx.reduce_array_twice_asm2;
     TraceAvx.correct_asm;
     TraceAvx.shift_array_asm] ->
  forall n a a', 0 < n < 2 ^ 32 -> n mod 16 = 0 -> n <= zlen a -> n <= zlen a' ->
    fst (ft a n) = fst (ft a' n))
  /\ (forall n a a' c c', 0 < n < 2 ^ 32 -> n mod 16 = 0 -> n <= zlen a -> n <= zlen a' ->
    fst (TraceAvx.scalar_mul_reduce_array_asm a n c) = fst (TraceAvx.scalar_mul_reduce_array_asm a' n c')).
Proof.
  destruct asm_in_bounds_L as (B1 & B2 & B3 & B4). destruct TraceFinal.asm_trace_L as (T1 & T2 & T3 & _).
  split; [|split; [|split]].
  - intros ft HI k a a' p p' Hk La La' Lp Lp'. assert (Hn : 0 < 2 ^ k) by (apply Z.pow_pos_nonneg; lia). in_cases HI.
    + apply (tt_tab _ ModelAvx.ntt_red_ct_rev2std_asm); [apply T1; apply (nth_error_In _ 2%nat); reflexivity|lia|intros b t; apply B1; [apply (nth_error_In _ 0%nat); reflexivity|exact Hk]|assumption..].
    + apply (tt_tab _ ModelAvx.ntt_red_ct_std2rev_asm); [apply T1; apply (nth_error_In _ 3%nat); reflexivity|lia|intros b t; apply B1; [apply (nth_error_In _ 1%nat); reflexivity|exact Hk]|assumption..].
    + apply (tt_tab _ ModelAvx.ntt_red_gs_rev2std_asm); [apply T1; apply (nth_error_In _ 4%nat); reflexivity|lia|intros b t; apply B1; [apply (nth_error_In _ 2%nat); reflexivity|exact Hk]|assumption..].
    + apply (tt_tab _ ModelAvx.ntt_red_gs_std2rev_asm); [apply T1; apply (nth_error_In _ 5%nat); reflexivity|lia|intros b t; apply B1; [apply (nth_error_In _ 3%nat); reflexivity|exact Hk]|assumption..].
    + apply (tt_tab _ ModelAvx.mulntt_red_ct_rev2std_asm); [apply T1; apply (nth_error_In _ 6%nat); reflexivity|lia|intros b t; apply B1; [apply (nth_error_In _ 4%nat); reflexivity|exact Hk]|assumption..].
    + apply (tt_tab _ ModelAvx.mulntt_red_ct_std2rev_asm); [apply T1; apply (nth_error_In _ 7%nat); reflexivity|lia|intros b t; apply B1; [apply (nth_error_In _ 5%nat); reflexivity|exact Hk]|assumption..].
    + apply (tt_tab _ ModelAvx.nttmul_red_gs_rev2std_asm); [apply T1; apply (nth_error_In _ 8%nat); reflexivity|lia|intros b t; apply B1; [apply (nth_error_In _ 6%nat); reflexivity|exact Hk]|assumption..].
    + apply (tt_tab _ ModelAvx.nttmul_red_gs_std2rev_asm); [apply T1; apply (nth_error_In _ 9%nat); reflexivity|lia|intros b t; apply B1; [apply (nth_error_In _ 7%nat); reflexivity|exact Hk]|assumption..].
  - intros ft HI n a a' p p' Hn Hm La La' Lp Lp'. in_cases HI.
    + apply (tt_tab _ ModelAvx.mul_reduce_array16_asm); [apply T1; apply (nth_error_In _ 0%nat); reflexivity|lia|intros b t; apply B2; [apply (nth_error_In _ 0%nat); reflexivity|exact Hn|exact Hm]|assumption..].
    + apply (tt_tab _ ModelAvx.mul_reduce_array16_asm2); [apply T1; apply (nth_error_In _ 1%nat); reflexivity|lia|intros b t; apply B2; [apply (nth_error_In _ 1%nat); reflexivity|exact Hn|exact Hm]|assumption..].
  - intros ft HI n a a' Hn Hm La La'. in_cases HI.
    + apply (tt_arr _ ModelAvx.reduce_array_asm); [apply T2; apply (nth_error_In _ 0%nat); reflexivity|lia|intros b; apply B3; [apply (nth_error_In _ 0%nat); reflexivity|exact Hn|exact Hm]|assumption..].
    + apply (tt_arr _ ModelAvx.reduce_array_asm2); [apply T2; apply (nth_error_In _ 1%nat); reflexivity|lia|intros b; apply B3; [apply (nth_error_In _ 1%nat); reflexivity|exact Hn|exact Hm]|assumption..].
    + apply (tt_arr _ ModelAvx.reduce_array_twice_asm); [apply T2; apply (nth_error_In _ 2%nat); reflexivity|lia|intros b; apply B3; [apply (nth_error_In _ 2%nat); reflexivity|exact Hn|exact Hm]|assumption..].
    + apply (tt_arr _ ModelAvx.reduce_array_twice_asm2); [apply T2; apply (nth_error_In _ 3%nat); reflexivity|lia|intros b; apply B3; [apply (nth_error_In _ 3%nat); reflexivity|exact Hn|exact Hm]|assumption..].
    + apply (tt_arr _ ModelAvx.correct_asm); [apply T2; apply (nth_error_In _ 4%nat); reflexivity|lia|intros b; apply B3; [apply (nth_error_In _ 4%nat); reflexivity|exact Hn|exact Hm]|assumption..].
    + apply (tt_arr _ ModelAvx.shift_array_asm); [apply T2; apply (nth_error_In _ 5%nat); reflexivity|lia|intros b; apply B3; [apply (nth_error_In _ 5%nat); reflexivity|exact Hn|exact Hm]|assumption..].
  - intros n a a' c c' Hn Hm La La'.
    destruct (split_len n a ltac:(lia)) as (b & s & -> & Lb). destruct (split_len n a' ltac:(lia)) as (b' & s' & -> & Lb').
    destruct (B4 n b c Hn Hm Lb) as (r & _ & _ & E). destruct (B4 n b' c' Hn Hm Lb') as (r' & _ & _ & E').
    destruct (T3 (b ++ s) (b' ++ s') n c c') as [S HS]. destruct (T3 (b' ++ s') (b ++ s) n c' c) as [S' _].
    apply (HS (r ++ s) (r' ++ s')); [rewrite S; apply E|rewrite S'; apply E'].
Qed.
