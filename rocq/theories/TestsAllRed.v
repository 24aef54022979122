(** The tests of test_ntt_red16.c, ..., test_ntt_red1024.c with any tables: passing them certifies everything. *)

From Coq Require Import ZArith List Bool Lia Setoid Morphisms.
From Verif Require Import CSem Spec Loops ModQ Conv HeapElem NttElem AvxArrays ModelNtt ModelGen ModelRed RedElem RedBfly RedRange
  ModelProducts ElemFinal ProdFinal ShuffleFinal Shuffle LinRed BasisElem LinNtt TestNttRedElem TestsElem TestsSound ModelTests
  TestsFinal TestsLin TestsAll TestsAllNaive ModelTestNttRed.
From Verif Require ProdRed.
Import Spec.
Import ListNotations.
Open Scope Z_scope.

(** An operation on each element *)
Lemma pointwise_lmap n lo hi lo' hi' W (g : Z -> Z) :
  (forall a, zlen a = n -> all_in lo hi a -> exists r, W a = Ok r /\ zlen r = n
     /\ forall i, 0 <= i < n -> lo' <= at_ r i <= hi' /\ eqQ (at_ r i) (g i * at_ a i)) -> lmap n lo hi lo' hi' W.
Proof.
  intros H. exists (fun i x => if x =? i then g i else 0). intros a La Ia. destruct (H a La Ia) as (r & E & Lr & V).
  exists r. split; [exact E|]. split; [exact Lr|]. split.
  - apply all_in_of. intros i Hi. apply V. lia.
  - intros i Hi. rewrite (proj2 (V i Hi)). unfold lin. symmetry. rewrite (Sum_single n i _ Hi); [rewrite Z.eqb_refl; qring|].
    intros x Hx Hne. apply Z.eqb_neq in Hne. rewrite Hne. reflexivity.
Qed.

Section Red.
Variables (sh : bool) (k n : Z) (T : red_tables).
Hypothesis Hk : 1 <= k <= 10.
Hypothesis En : n = 2 ^ k.

Let Hn : 2 <= n <= 1024.
Proof. rewrite En. change 2 with (2 ^ 1) at 1. change 1024 with (2 ^ 10). split; apply Z.pow_le_mono_r; lia. Qed.
Let Hn32 : 0 <= n < 4294967296.
Proof. lia. Qed.
Let Hk31 : 0 <= k <= 31.
Proof. lia. Qed.

Lemma shift_l : lmap n (-6144) 12288 (-6144) 12288 (maybe_shift sh n).
Proof.
  apply pointwise_lmap with (g := fun _ => 1). intros x HL Hx.
  assert (HV : forall i, 0 <= i < n -> -6144 <= at_ x i <= 12288) by (intros i Hi; apply (all_in_at _ _ _ i Hx); lia).
  unfold maybe_shift. destruct sh.
  - destruct (shift_array_spec x n) as (r & E & L & R & _); [exact Hn32|lia| |].
    { intros i Hi. specialize (HV i Hi). lia. }
    exists r. split; [exact E|]. split; [lia|]. intros i Hi. rewrite R by exact Hi. specialize (HV i Hi).
    destruct (Z.ltb_spec 6144 (at_ x i)).
    + split; [lia|]. apply eqQ_iff. exists (-1). unfold Q. lia.
    + split; [lia|]. apply eqQ_iff. exists 0. lia.
  - exists x. split; [reflexivity|]. split; [exact HL|]. intros i Hi. split; [apply HV, Hi|]. apply eqQ_iff. exists 0. lia.
Qed.

Lemma mul_l p B lo hi : zlen p = n -> all_in (-6144) 6144 p -> 0 <= B <= 1431647574 ->
  (forall z, - (B * 6144) <= z <= B * 6144 -> lo <= redz z <= hi) ->
  lmap n (- B) B lo hi (fun x => mul_reduce_array16 x n p).
Proof.
  intros Lp Ip HB HR. apply pointwise_lmap with (g := fun i => 3 * at_ p i). intros x HL Hx.
  assert (PR : forall i, 0 <= i < n -> - (B * 6144) <= at_ x i * at_ p i <= B * 6144).
  { intros i Hi. apply ProdRed.prod_abs; [apply (all_in_at _ _ _ i Hx); lia|apply (all_in_at _ _ _ i Ip); lia]. }
  destruct (mul_reduce_array16_spec x n p) as (r & E & L & R & _); [exact Hn32|lia|lia| |].
  { intros i Hi. specialize (PR i Hi). unfold mulrange. lia. }
  exists r. split; [exact E|]. split; [lia|]. intros i Hi. rewrite R by exact Hi. split; [apply HR, PR, Hi|].
  rewrite redz_cong. qring.
Qed.

Lemma reduce_l : lmap n (-2147483648) 2147483647 (-524287) 536573 (fun x => reduce_array x n).
Proof.
  apply pointwise_lmap with (g := fun _ => 3). intros x HL Hx.
  assert (HV : forall i, 0 <= i < n -> -2147483648 <= at_ x i <= 2147483647) by (intros i Hi; apply (all_in_at _ _ _ i Hx); lia).
  destruct (reduce_array_spec x n) as (r & E & L & R & _); [exact Hn32|lia|exact HV|].
  exists r. split; [exact E|]. split; [lia|]. intros i Hi. rewrite R by exact Hi.
  split; [apply redz_i32, HV, Hi|apply redz_cong].
Qed.

Lemma reduce2_l : lmap n (-2147483648) 2147483647 (-130) 12413 (fun x => reduce_array_twice x n).
Proof.
  apply pointwise_lmap with (g := fun _ => 9). intros x HL Hx.
  assert (HV : forall i, 0 <= i < n -> -2147483648 <= at_ x i <= 2147483647) by (intros i Hi; apply (all_in_at _ _ _ i Hx); lia).
  destruct (reduce_array_twice_spec x n) as (r & E & L & R & _); [exact Hn32|lia|exact HV|].
  exists r. split; [exact E|]. split; [lia|]. intros i Hi. rewrite R by exact Hi.
  split; [apply redz_twice, HV, Hi|]. rewrite redz_cong, redz_cong. qring.
Qed.

Lemma correct_l : lmap n (-130) 12413 0 (Q - 1) (fun x => correct x n).
Proof.
  apply pointwise_lmap with (g := fun _ => 1). intros x HL Hx.
  assert (HV : forall i, 0 <= i < n -> -130 <= at_ x i <= 12413) by (intros i Hi; apply (all_in_at _ _ _ i Hx); lia).
  destruct (correct_spec x n) as (r & E & L & R & _); [exact Hn32|lia| |].
  { intros i Hi. specialize (HV i Hi). lia. }
  exists r. split; [exact E|]. split; [lia|]. intros i Hi. rewrite R by exact Hi. split.
  - assert (B := Z.mod_pos_bound (at_ x i) 12289 ltac:(lia)). unfold Q. lia.
  - rewrite Z.mul_1_l. apply eqQ_modn.
Qed.

Lemma scalar_l c : 0 <= c < Q -> lmap n (-715823787) 715823787 (-2147483648) 2147483647 (fun x => scalar_mul_reduce_array x n c).
Proof.
  intros Hc. apply pointwise_lmap with (g := fun _ => 3 * c). intros x HL Hx.
  assert (PR : forall i, 0 <= i < n -> mulrange (at_ x i * c)).
  { intros i Hi. apply ProdRed.mulin_scalar; [|exact Hc]. assert (X := all_in_at _ _ _ i Hx ltac:(lia)). unfold ProdRed.mulin. lia. }
  destruct (scalar_mul_reduce_array_spec x n c) as (r & E & L & R & _); [exact Hn32|lia|exact PR|].
  exists r. split; [exact E|]. split; [lia|]. intros i Hi. rewrite R by exact Hi.
  split; [apply ProdRed.redz_w32, PR, Hi|]. rewrite redz_cong. qring.
Qed.

Lemma mul_ok_red : mul_ok n (-524287) 536573 (-2147483648) 2147483647 3 (fun h c a b => mul_reduce_array_h h c n a b).
Proof.
  intros h c a b Lc La Lb Ia Ib.
  assert (PR : forall i, 0 <= i < n -> mulrange (at_ (h a) i * at_ (h b) i)).
  { intros i Hi. apply ProdRed.once_mul; [apply (all_in_at _ _ _ i Ia); lia|apply (all_in_at _ _ _ i Ib); lia]. }
  destruct (mul_reduce_array_h_spec n h c a b Hn32 ltac:(lia) ltac:(lia) ltac:(lia) PR) as (h' & E & L & R & _).
  exists h'. split; [exact E|]. split; [lia|]. split.
  - apply all_in_of. intros i Hi. rewrite R by lia. apply ProdRed.redz_w32, PR. lia.
  - intros i Hi. rewrite R by exact Hi. apply redz_cong.
Qed.

(** The transforms *)
Section Table.
Variable p : list Z.
Hypothesis Lp : zlen p = n.
Hypothesis Ip : all_in (-6144) 6144 p.
Let Lp' : zlen p = 2 ^ k.
Proof. rewrite <- En. exact Lp. Qed.
Let Hp i : 1 <= i < 2 ^ k -> -6144 <= at_ p i <= 6144.
Proof. intros Hi. apply (all_in_at (-6144) 6144); [exact Ip|lia]. Qed.

Lemma lin_lmap lo hi lo' hi' f blo bhi l F :
  (forall a, zlen a = n -> all_in lo hi a -> lin_result k blo bhi a (f a) l F) ->
  (forall v, rng blo bhi l v -> lo' <= v <= hi') -> lmap n lo hi lo' hi' f.
Proof.
  intros H HB. exists F. intros a La Ia. destruct (H a La Ia) as (r & E & Lr & V). rewrite <- En in *.
  exists r. split; [exact E|]. split; [exact Lr|]. split; [|intros i Hi; apply V, Hi].
  apply all_in_of. intros i Hi. apply HB, V. lia.
Qed.

Let ct_start b lo hi a : - b <= lo -> hi <= b -> zlen a = n -> all_in lo hi a -> forall i, 0 <= i < 2 ^ k -> rng (ct_lo b) (ct_hi b) 0 (at_ a i).
Proof.
  intros Hlo Hhi La Ia i Hi. assert (X := all_in_at _ _ _ i Ia ltac:(lia)). unfold rng, ct_lo, ct_hi.
  change (ctb b (Z.to_nat 0)) with b. lia.
Qed.
Let gsp_start lo hi a : zlen a = n -> all_in lo hi a ->
  forall i, 0 <= i < 2 ^ k -> rng (gsp_lo (lo, hi) k) (gsp_hi (lo, hi) k) k (at_ a i).
Proof.
  intros La Ia i Hi. assert (X := all_in_at _ _ _ i Ia ltac:(lia)). unfold rng, gsp_lo, gsp_hi, gs_lo, gs_hi.
  replace (k <=? 0) with false by lia. rewrite Z.sub_diag. cbn. exact X.
Qed.
Let gs_start lo hi a : zlen a = n -> all_in lo hi a ->
  forall i, 0 <= i < 2 ^ k -> rng (gs_lo (lo, hi) k) (gs_hi (lo, hi) k) k (at_ a i).
Proof.
  intros La Ia i Hi. assert (X := all_in_at _ _ _ i Ia ltac:(lia)). unfold rng, gs_lo, gs_hi. rewrite Z.sub_diag. cbn. exact X.
Qed.

Lemma ct_fwd_l : lmap n (-18432) 30717 (-2147483648) 2147483647 (fun a => ntt_red_ct_std2rev a n p).
Proof.
  eapply lin_lmap with (blo := ct_lo 30717) (bhi := ct_hi 30717) (l := k).
  - intros a La Ia. rewrite En. apply lin_ct_std2rev; auto; [rewrite <- En; exact La| |].
    + intros l Hl. apply (ct_grow_ok _ 11); [exact ProdRed.ct_in|lia].
    + apply (ct_start 30717 (-18432) 30717); [lia|lia|exact La|exact Ia].
  - intros v Hv. apply (ProdRed.ct_out_w32 _ k _ ProdRed.ct_in Hk Hv).
Qed.

Lemma mulct_fwd_l : lmap n (-6144) 12288 (-2147483648) 2147483647 (fun a => mulntt_red_ct_std2rev a n p).
Proof.
  eapply lin_lmap with (blo := ct_lo 30717) (bhi := ct_hi 30717) (l := k).
  - intros a La Ia. rewrite En. apply lin_mul_ct_std2rev; auto; [rewrite <- En; exact La| |].
    + intros l Hl. apply (ct_grow_ok _ 11); [exact ProdRed.ct_in|lia].
    + apply (ct_start 30717 (-6144) 12288); [lia|lia|exact La|exact Ia].
  - intros v Hv. apply (ProdRed.ct_out_w32 _ k _ ProdRed.ct_in Hk Hv).
Qed.

Lemma gs_fwd_l : lmap n (-18432) 30717 (-2147483648) 2147483647 (fun a => ntt_red_gs_std2rev a n p).
Proof.
  eapply lin_lmap with (blo := gsp_lo (-18432, 30717) k) (bhi := gsp_hi (-18432, 30717) k) (l := 0).
  - intros a La Ia. rewrite En. apply lin_gs_std2rev; auto; [rewrite <- En; exact La| |].
    + intros l Hl. apply (gsp_grow0_ok _ 9); [exact ProdRed.gs_in9|exact ProdRed.gs_in_last|lia|lia].
    + intros l Hl. apply (gsp_grow_ok _ 9); [exact ProdRed.gs_in9|lia|lia].
  - intros v Hv. exact (ProdRed.gsp_out_w32 _ k _ ProdRed.gs_in_last Hk Hv).
Qed.

Lemma ct_back_l : lmap n (-130) 12413 (-1431647574) 1431647574 (fun a => ntt_red_ct_rev2std a n p).
Proof.
  eapply lin_lmap with (blo := ct_lo 12413) (bhi := ct_hi 12413) (l := k).
  - intros a La Ia. rewrite En. apply lin_ct_rev2std; auto; [rewrite <- En; exact La| |].
    + intros l Hl. apply (ct_grow_ok _ 11); [exact ProdRed.ct_back|lia].
    + apply (ct_start 12413 (-130) 12413); [lia|lia|exact La|exact Ia].
  - intros v Hv. destruct (ProdRed.ct_out_w32 _ k _ ProdRed.ct_back Hk Hv) as [_ X]. unfold ProdRed.mulin in X. lia.
Qed.

Lemma gs_back_l : lmap n (-130) 12413 (-1431647574) 1431647574 (fun a => ntt_red_gs_rev2std a n p).
Proof.
  eapply lin_lmap with (blo := gsp_lo (-130, 12413) k) (bhi := gsp_hi (-130, 12413) k) (l := 0).
  - intros a La Ia. rewrite En. apply lin_gs_rev2std; auto; [rewrite <- En; exact La| |].
    + intros l Hl. apply (gsp_grow0_ok _ 9); [exact ProdRed.gs_back9|exact ProdRed.gs_back_last|lia|lia].
    + intros l Hl. apply (gsp_grow_ok _ 9); [exact ProdRed.gs_back9|lia|lia].
  - intros v Hv. assert (X := ProdRed.gsp_out_mul k _ Hk Hv). unfold ProdRed.mulin in X. lia.
Qed.

Lemma mulgs_back_l : lmap n (-130) 12413 (-715823787) 715823787 (fun a => nttmul_red_gs_rev2std a n p).
Proof.
  eapply lin_lmap with (blo := gs_lo (-130, 12413) k) (bhi := gs_hi (-130, 12413) k) (l := 0).
  - intros a La Ia. rewrite En. apply lin_mul_gs_rev2std; auto; [rewrite <- En; exact La|].
    intros l Hl. apply (gs_grow_ok _ 10); [exact ProdRed.gs_back|lia|lia].
  - intros v Hv. assert (X := ProdRed.gs_out_scalar k _ Hk Hv). unfold ProdRed.mulin in X. lia.
Qed.
End Table.
End Red.

(** Tables of numbers in -6144 .. 6144, right or wrong *)
Definition centred_tables (n : Z) (T : red_tables) : Prop :=
  (forall p, In p [red_psi_powers T; red_scaled_inv_psi_powers T; red_omega_powers T; red_omega_powers_rev T; red_inv_omega_powers T;
      red_inv_omega_powers_rev T; red_mixed_powers_rev T; red_inv_mixed_powers_rev T] ->
    zlen p = n /\ all_in (-6144) 6144 p)
  /\ 0 <= r_omega T < Q /\ 0 <= r_inv_omega T < Q /\ 0 <= rescale8 T < Q.

Section Products.
Variables (sh : bool) (k n : Z) (T : red_tables).
Hypothesis Hk : 1 <= k <= 10.
Hypothesis En : n = 2 ^ k.
Hypothesis HT : centred_tables n T.

Ltac inl := solve [repeat (try (left; reflexivity); right)].
Ltac tab := first [exact Hk | exact En | apply (proj1 HT); inl].

Lemma mulpsi_l : lmap n (-6144) 12288 (-18432) 30717 (fun x => mul_reduce_array16 x n (red_psi_powers T)).
Proof.
  apply (lmap_weaken n (-12288) 12288 (-18432) 30717); try lia.
  apply (mul_l k n Hk En _ 12288); try tab; [lia|]. intros z Hz. assert (B := redz_bounds _ _ z Hz). cbn in B. lia.
Qed.

Lemma mulinv_l : lmap n (-1431647574) 1431647574 (-2147483648) 2147483647 (fun x => mul_reduce_array16 x n (red_scaled_inv_psi_powers T)).
Proof.
  apply (mul_l k n Hk En _ 1431647574); try tab; [lia|]. intros z Hz. apply ProdRed.redz_w32. unfold mulrange. lia.
Qed.

Lemma fwd_l f : lmap n (-18432) 30717 (-2147483648) 2147483647 f ->
  lmap n 0 (Q - 1) (-524287) 536573 (fun a => do a <- maybe_shift sh n a;
    do a <- mul_reduce_array16 a n (red_psi_powers T); do a <- f a; reduce_array a n).
Proof.
  intros Hf. apply (lmap_weaken n (-6144) 12288 (-524287) 536573); [|unfold Q; lia ..].
  exact (lmap_seq _ _ _ _ _ _ _ _ _ (shift_l sh k n Hk En) (lmap_seq _ _ _ _ _ _ _ _ _ mulpsi_l
    (lmap_seq _ _ _ _ _ _ _ _ _ Hf (reduce_l k n Hk En)))).
Qed.

Lemma fwd5_l f : lmap n (-6144) 12288 (-2147483648) 2147483647 f ->
  lmap n 0 (Q - 1) (-524287) 536573 (fun a => do a <- maybe_shift sh n a; do a <- f a; reduce_array a n).
Proof.
  intros Hf. apply (lmap_weaken n (-6144) 12288 (-524287) 536573); [|unfold Q; lia ..].
  exact (lmap_seq _ _ _ _ _ _ _ _ _ (shift_l sh k n Hk En) (lmap_seq _ _ _ _ _ _ _ _ _ Hf (reduce_l k n Hk En))).
Qed.

Lemma back_l B f m : lmap n (-130) 12413 (- B) B f -> lmap n (- B) B (-2147483648) 2147483647 m ->
  lmap n (-2147483648) 2147483647 0 (Q - 1) (fun a => do a <- reduce_array_twice a n; do a <- f a; do a <- m a;
    do a <- reduce_array_twice a n; correct a n).
Proof.
  intros Hf Hm.
  exact (lmap_seq _ _ _ _ _ _ _ _ _ (reduce2_l k n Hk En) (lmap_seq _ _ _ _ _ _ _ _ _ Hf
    (lmap_seq _ _ _ _ _ _ _ _ _ Hm (lmap_seq _ _ _ _ _ _ _ _ _ (reduce2_l k n Hk En) (correct_l k n Hk En))))).
Qed.

Lemma rprod_bmap f : In f [red_product1 sh n T; red_product2 sh n T; red_product3 sh n T; red_product4 sh n T; red_product5 sh n T] ->
  bmap n 0 (Q - 1) 0 (Q - 1) f.
Proof.
  intros H. assert (HM := mul_ok_red k n Hk En).
  assert (G4 : forall A C P, lmap n (-18432) 30717 (-2147483648) 2147483647 A -> lmap n (-130) 12413 (- 1431647574) 1431647574 C ->
    (forall h c a b, P h c a b =
       do h <- on a (maybe_shift sh n) h; do h <- on a (fun x => mul_reduce_array16 x n (red_psi_powers T)) h;
       do h <- on a A h; do h <- on a (fun x => reduce_array x n) h;
       do h <- on b (maybe_shift sh n) h; do h <- on b (fun x => mul_reduce_array16 x n (red_psi_powers T)) h;
       do h <- on b A h; do h <- on b (fun x => reduce_array x n) h;
       do h <- mul_reduce_array_h h c n a b;
       do h <- on c (fun x => reduce_array_twice x n) h; do h <- on c C h;
       do h <- on c (fun x => mul_reduce_array16 x n (red_scaled_inv_psi_powers T)) h;
       do h <- on c (fun x => reduce_array_twice x n) h; do h <- on c (fun x => correct x n) h; Ok h) ->
    bmap n 0 (Q - 1) 0 (Q - 1) P).
  { intros A C P HA HC HP.
    apply (product_bmap n 0 (Q - 1) (-524287) 536573 (-2147483648) 2147483647 0 (Q - 1) 3 _ _ _ _ _ P
      (fwd_l A HA) (step_seq _ _ _ _ (step1 _) (step_seq _ _ _ _ (step1 _) (step_seq _ _ _ _ (step1 _) (step1 _)))) HM
      (back_l 1431647574 C _ HC mulinv_l)
      (step_seq _ _ _ _ (step1 _) (step_seq _ _ _ _ (step1 _) (step_seq _ _ _ _ (step1 _) (step_seq _ _ _ _ (step1 _) (step1 _)))))).
    intros h c a b. rewrite HP. clear.
    repeat (let x := fresh "x" in match goal with |- context [bind (on ?p ?W ?h) _] =>
      is_var h; destruct (on p W h) as [x|]; cbn [bind]; [|reflexivity] end).
    destruct (mul_reduce_array_h _ c n a b) as [y|]; cbn [bind]; [|reflexivity].
    repeat (let x := fresh "x" in match goal with |- context [bind (on ?p ?W ?h) _] =>
      is_var h; destruct (on p W h) as [x|]; cbn [bind]; [|reflexivity] end).
    reflexivity. }
  assert (F1 : lmap n (-18432) 30717 (-2147483648) 2147483647 (r_ct_std2rev n T)) by (apply (ct_fwd_l k n); tab).
  assert (F2 : lmap n (-18432) 30717 (-2147483648) 2147483647 (r_gs_std2rev n T)) by (apply (gs_fwd_l k n); tab).
  assert (B1 : lmap n (-130) 12413 (- 1431647574) 1431647574 (r_intt_ct_rev2std n T)) by (apply (ct_back_l k n); tab).
  assert (B2 : lmap n (-130) 12413 (- 1431647574) 1431647574 (r_intt_gs_rev2std n T)) by (apply (gs_back_l k n); tab).
  cbn [In] in H. destruct H as [<-|[<-|[<-|[<-|[<-|[]]]]]].
  - apply (G4 _ _ _ F1 B1). reflexivity.
  - apply (G4 _ _ _ F2 B1). reflexivity.
  - apply (G4 _ _ _ F1 B2). reflexivity.
  - apply (G4 _ _ _ F2 B2). reflexivity.
  - assert (A1 : lmap n (-6144) 12288 (-2147483648) 2147483647 (r_mulntt_ct_std2rev n T)) by (apply (mulct_fwd_l k n); tab).
    assert (A2 : lmap n (-130) 12413 (- 715823787) 715823787 (r_inttmul_gs_rev2std n T)) by (apply (mulgs_back_l k n); tab).
    assert (A3 : lmap n (- 715823787) 715823787 (-2147483648) 2147483647 (fun x => scalar_mul_reduce_array x n (rescale8 T)))
      by (apply (scalar_l k n Hk En); apply HT).
    apply (product_bmap n 0 (Q - 1) (-524287) 536573 (-2147483648) 2147483647 0 (Q - 1) 3 _ _ _ _ _ _
      (fwd5_l _ A1) (step_seq _ _ _ _ (step1 _) (step_seq _ _ _ _ (step1 _) (step1 _))) HM
      (back_l 715823787 _ _ A2 A3)
      (step_seq _ _ _ _ (step1 _) (step_seq _ _ _ _ (step1 _) (step_seq _ _ _ _ (step1 _) (step_seq _ _ _ _ (step1 _) (step1 _)))))).
    intros h c a b. unfold red_product5. clear.
    repeat (let x := fresh "x" in match goal with |- context [bind (on ?p ?W ?h) _] =>
      is_var h; destruct (on p W h) as [x|]; cbn [bind]; [|reflexivity] end).
    destruct (mul_reduce_array_h _ c n a b) as [y|]; cbn [bind]; [|reflexivity].
    repeat (let x := fresh "x" in match goal with |- context [bind (on ?p ?W ?h) _] =>
      is_var h; destruct (on p W h) as [x|]; cbn [bind]; [|reflexivity] end).
    reflexivity.
Qed.

Lemma rall_lmap f omega s2r : In (f, omega, s2r)
     [(r_ct_rev2std n T, r_omega T, false); (r_gs_rev2std n T, r_omega T, false);
      (r_ct_std2rev n T, r_omega T, true); (r_gs_std2rev n T, r_omega T, true);
      (r_intt_ct_rev2std n T, r_inv_omega T, false); (r_intt_gs_rev2std n T, r_inv_omega T, false);
      (r_intt_ct_std2rev n T, r_inv_omega T, true); (r_intt_gs_std2rev n T, r_inv_omega T, true)] ->
  lmap n (-6144) 6144 (- 2 ^ 31) (2 ^ 31 - 1) f.
Proof.
  assert (R : forall g p, In g r2s_transforms -> zlen p = n /\ all_in (-6144) 6144 p -> lmap n (-6144) 6144 (- 2 ^ 31) (2 ^ 31 - 1) (fun a => g a n p)).
  { intros g p Hg [Lp Ip]. rewrite En in Lp |- *. apply (r2s_linear k p ltac:(lia) Lp Ip g Hg). }
  assert (S : forall g p, In g s2r_transforms -> zlen p = n /\ all_in (-6144) 6144 p -> lmap n (-6144) 6144 (- 2 ^ 31) (2 ^ 31 - 1) (fun a => g a n p)).
  { intros g p Hg [Lp Ip]. rewrite En in Lp |- *. apply (s2r_linear k p ltac:(lia) Lp Ip g Hg). }
  intros H. cbn [In] in H.
  repeat (destruct H as [H|H]; [injection H as <- _ _;
    unfold r_ct_rev2std, r_gs_rev2std, r_ct_std2rev, r_gs_std2rev, r_intt_ct_rev2std, r_intt_gs_rev2std, r_intt_ct_std2rev,
      r_intt_gs_std2rev; first [apply R; [inl|tab]|apply S; [inl|tab]]|]). destruct H.
Qed.
End Products.

(** shift_array undoes reducing an array of -6144 .. 6144 to 0 .. Q-1 *)
Lemma shift_back n a : 0 <= n < 2 ^ 32 -> zlen a = n -> all_in (-6144) 6144 a ->
  exists b, zlen b = n /\ all_in 0 (Q - 1) b /\ (forall i, 0 <= i < n -> eqQ (at_ b i) (at_ a i)) /\ shift_array b n = Ok a.
Proof.
  intros Hn La Ia. change (2 ^ 32) with 4294967296 in Hn. exists (SpecRing.table n (fun i => at_ a i mod Q)).
  assert (L := RingElem.zlen_table n (fun i => at_ a i mod Q) ltac:(lia)).
  assert (V := RingElem.at_table n (fun i => at_ a i mod Q)).
  set (b := SpecRing.table n (fun i => at_ a i mod Q)) in *.
  assert (B : forall i, 0 <= i < n -> 0 <= at_ b i <= 12288).
  { intros i Hi. rewrite V by exact Hi. assert (X := Z.mod_pos_bound (at_ a i) Q ltac:(unfold Q; lia)). change (Q) with 12289 in *. lia. }
  split; [exact L|]. split; [apply all_in_of; intros i Hi; unfold Q; specialize (B i ltac:(lia)); lia|].
  split; [intros i Hi; rewrite V by exact Hi; apply eqQ_modn|].
  destruct (shift_array_spec b n) as (r & E & Lr & R & _); [exact Hn|lia|intros i Hi; specialize (B i Hi); lia|].
  rewrite E. f_equal. apply (ProdFinal.list_ext r a n); [lia|exact La|]. intros i Hi. rewrite R, V by exact Hi.
  assert (X := all_in_at _ _ _ i Ia ltac:(lia)). unfold Q.
  destruct (Z.ltb_spec (at_ a i) 0).
  - replace (at_ a i mod 12289) with (at_ a i + 12289) by (apply (Z.mod_unique_pos _ _ (-1)); lia).
    replace (6144 <? at_ a i + 12289) with true by lia. lia.
  - rewrite Z.mod_small by lia. replace (6144 <? at_ a i) with false by lia. reflexivity.
Qed.

Lemma normalize_l n : 0 <= n < 2 ^ 32 -> lmap n (- 2 ^ 31) (2 ^ 31 - 1) 0 (Q - 1) (fun a => normalize a n).
Proof.
  intros Hn. apply pointwise_lmap with (g := fun _ => 1). intros a La Ia.
  destruct (normalize_canonical_L a n ltac:(lia) ltac:(lia) Ia) as (r & E & Lr & H & _).
  exists r. split; [exact E|]. split; [lia|]. intros i Hi. rewrite H by exact Hi. split.
  - assert (X := Z.mod_pos_bound (at_ a i) Q ltac:(unfold Q; lia)). lia.
  - rewrite Z.mul_1_l. apply eqQ_modn.
Qed.

Lemma centre_l n : 0 <= n < 2 ^ 32 -> lmap n 0 (Q - 1) (-6144) 6144 (fun a => shift_array a n).
Proof.
  intros Hn. apply pointwise_lmap with (g := fun _ => 1). intros a La Ia.
  destruct (shift_array_centred_L a n ltac:(lia) ltac:(lia) Ia) as (r & E & Lr & H & _).
  exists r. split; [exact E|]. split; [lia|]. intros i Hi. rewrite Z.mul_1_l. split; apply H, Hi.
Qed.

Lemma red_certifies_L :
  forall shi sh rnd stk k n T bt np r0, 1 <= k <= 10 -> n = 2 ^ k -> centred_tables n T -> make_bitrev_table n = Ok (Written (np, bt)) ->
  (forall p, zlen (stk p) = n) -> tests rnd stk n bt np (red_variant n T shi) (red_functions n T sh) 0 = Ok r0 ->
  (forall f omega s2r, In (f, omega, s2r)
     [(r_ct_rev2std n T, r_omega T, false); (r_gs_rev2std n T, r_omega T, false);
      (r_ct_std2rev n T, r_omega T, true); (r_gs_std2rev n T, r_omega T, true);
      (r_intt_ct_rev2std n T, r_inv_omega T, false); (r_intt_gs_rev2std n T, r_inv_omega T, false);
      (r_intt_ct_std2rev n T, r_inv_omega T, true); (r_intt_gs_std2rev n T, r_inv_omega T, true)] ->
   eqQ (omega ^ (n / 2)) (-1)
   /\ forall a, zlen a = n -> all_in (-6144) 6144 a ->
      exists r, (if s2r : bool then do r <- f a; bitrev_shuffle r n else do b <- bitrev_shuffle a n; f b) = Ok r
        /\ zlen r = n /\ forall i, 0 <= i < n -> eqQ (at_ r i) (NTT n omega (at_ a) i))
  /\ (forall f, In f [red_product1 sh n T; red_product2 sh n T; red_product3 sh n T; red_product4 sh n T; red_product5 sh n T] ->
      forall h c a b, a <> b -> zlen (h c) = n -> zlen (h a) = n -> zlen (h b) = n ->
      all_in 0 (Q - 1) (h a) -> all_in 0 (Q - 1) (h b) ->
      exists h', f h c a b = Ok h' /\ zlen (h' c) = n
        /\ forall t, 0 <= t < n -> at_ (h' c) t = negacyclic n (at_ (h a)) (at_ (h b)) t mod Q).
Proof.
  intros shi sh rnd stk k n T bt np r0 Hk En HT HB Ls Et.
  assert (Hk15 : 1 <= k <= 15) by lia.
  assert (Hn : 2 <= n <= 1024).
  { rewrite En. change 2 with (2 ^ 1) at 1. change 1024 with (2 ^ 10). split; apply Z.pow_le_mono_r; lia. }
  assert (Hn32 : 0 <= n < 2 ^ 32) by (change (2 ^ 32) with 4294967296; lia).
  destruct (bitrev_table_shuffle_agrees_L _ _ _ HB) as (_ & _ & HS).
  assert (SW : forall a, zlen a = n -> shuffle_with_table a bt np = bitrev_shuffle a n).
  { intros a La. destruct (HS a La) as (r & -> & ->). reflexivity. }
  assert (O1 : 0 <= f_omega (red_functions n T sh) < Q) by (cbn [f_omega red_functions]; apply HT).
  assert (O2 : 0 <= f_inv_omega (red_functions n T sh) < Q) by (cbn [f_inv_omega red_functions]; apply HT).
  split.
  - intros f omega s2r Hf.
    assert (HL : lmap n (-6144) 6144 (- 2 ^ 31) (2 ^ 31 - 1) f) by (apply (rall_lmap k n T Hk En HT f omega s2r Hf)).
    set (core := fun a => if s2r : bool then do a <- f a; shuffle_with_table a bt np else do a <- shuffle_with_table a bt np; f a).
    assert (HCo : lmap n (-6144) 6144 (- 2 ^ 31) (2 ^ 31 - 1) core).
    { unfold core. destruct s2r; [exact (lmap_seq _ _ _ _ _ _ _ _ _ HL (swt_lmap k n bt np Hk15 En HB _ _))
      |exact (lmap_seq _ _ _ _ _ _ _ _ _ (swt_lmap k n bt np Hk15 En HB _ _) HL)]. }
    destruct (certify_transform rnd stk n k bt np (red_variant n T shi) (red_functions n T sh) Hk15 En Ls O1 O2 r0 Et f omega s2r Hf) as [HO HA].
    { cbn [before after red_variant]. exact (lmap_seq _ _ _ _ _ _ _ _ _ (centre_l n Hn32) (lmap_seq _ _ _ _ _ _ _ core _ HCo (normalize_l n Hn32))). }
    split; [exact HO|]. intros a La Ia.
    destruct (shift_back n a Hn32 La Ia) as (a' & La' & Ia' & Va & ES).
    destruct (HA a' La' Ia') as (r & E & Lr & Vr). cbn [before after red_variant] in E. rewrite ES in E. cbn [bind] in E. fold (core a) in E.
    destruct HCo as [F HF]. destruct (HF a La Ia) as (x & Ex & Lx & Ix & _). rewrite Ex in E. cbn [bind] in E.
    destruct (normalize_canonical_L x n ltac:(lia) ltac:(lia) Ix) as (r' & E' & _ & V' & _). rewrite E in E'. injection E' as <-.
    exists x. split; [|split; [exact Lx|]].
    + rewrite <- Ex. unfold core. destruct s2r; [|rewrite SW by exact La; reflexivity].
      destruct HL as [G HG]. destruct (HG a La Ia) as (y & -> & Ly & _). cbn [bind]. rewrite SW by exact Ly. reflexivity.
    + intros i Hi. assert (Y := Vr i Hi). rewrite (V' i Hi) in Y. change (eqQ (at_ x i) (NTT n omega (at_ a') i)) in Y. rewrite Y.
      apply NTT_extQ. exact Va.
  - intros f Hf h c a b Hab Lc La Lb Ia Ib.
    destruct (certify_product rnd stk n k bt np (red_variant n T shi) (red_functions n T sh) Hk15 En Ls r0 Et f _ _ Hf
      (rprod_bmap sh k n T Hk En HT f Hf)) with (h := h) (c := c) (a := a) (b := b) as (h' & E & L & I & V); try assumption.
    + intros x Lx Ix. cbn [after_product red_variant]. exists x. split; [reflexivity|]. split; [exact Lx|].
      intros i Hi. symmetry. apply Z.mod_small. assert (X := all_in_at _ _ _ i Ix ltac:(lia)). lia.
    + exists h'. split; [exact E|]. split; [exact L|]. intros t Ht. apply nega_mod_ext; [exact (V t Ht)|].
      assert (X := all_in_at _ _ _ t I ltac:(lia)). lia.
Qed.
