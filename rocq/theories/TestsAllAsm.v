(** The tests of test_ntt_red_asm16.c, test_ntt_red_asm256.c and test_ntt_red_asm512.c with any tables: passing them certifies
    everything. *)

From Coq Require Import ZArith List Bool Lia Setoid Morphisms.
From Verif Require Import CSem Spec Loops ModQ Conv HeapElem NttElem AvxArrays ModelNtt ModelGen ModelRed RedElem RedBfly RedRange
  ModelProducts ElemFinal ProdFinal ShuffleFinal Shuffle LinRed BasisElem LinNtt TestNttRedElem TestsElem TestsSound ModelTests
  TestsFinal TestsLin TestsAll TestsAllNaive TestsAllRed ModelAvx ModelAvxProd AvxNttFinal.
From Verif Require ProdRed AvxProd.
Import Spec.
Import ListNotations.
Open Scope Z_scope.

Lemma lmap_same n lo hi lo' hi' f g : lmap n lo hi lo' hi' f ->
  (forall x r, zlen x = n -> all_in lo hi x -> f x = Ok r -> g x = Ok r) -> lmap n lo hi lo' hi' g.
Proof.
  intros [F HF] HE. exists F. intros a La Ia. destruct (HF a La Ia) as (r & E & X). exists r. split; [|exact X].
  exact (HE a r La Ia E).
Qed.

Lemma in_weak lo hi lo' hi' (x : list Z) : all_in lo hi x -> lo' <= lo -> hi <= hi' -> all_in lo' hi' x.
Proof. intros H A B v Hv. specialize (H v Hv). lia. Qed.

(** The entries by which the AVX2 code does not multiply *)
Definition unit_entries (k : Z) (T : red_tables) : Prop :=
  forall p, In p [red_omega_powers T; red_omega_powers_rev T; red_inv_omega_powers T; red_inv_omega_powers_rev T] ->
  forall c, 0 <= c < k -> at_ p (2 ^ c) = -4096.

Section Products.
Variables (sh : bool) (k n : Z) (T : red_tables).
Hypothesis Hk4 : 4 <= k <= 10.
Hypothesis En : n = 2 ^ k.
Hypothesis HT : centred_tables n T.
Hypothesis HU : unit_entries k T.
Let Hk : 1 <= k <= 10.
Proof. lia. Qed.
Let Hk31 : 4 <= k <= 31.
Proof. lia. Qed.
Let H16 : mult16 n.
Proof. rewrite En. apply AvxProd.mult16_pow, Hk4. Qed.

Ltac inl := solve [repeat (try (left; reflexivity); right)].
Ltac tab := first [exact Hk | exact En | apply (proj1 HT); inl].

Lemma shift_x : lmap n (-6144) 12288 (-6144) 12288 (maybe_shift_asm sh n).
Proof.
  apply (lmap_same _ _ _ _ _ _ _ (shift_l sh k n Hk En)). intros x r HL Hx. unfold maybe_shift, maybe_shift_asm.
  destruct sh; [|trivial]. apply (shift_array_same x n r H16). apply (in_weak _ _ _ _ x Hx); lia.
Qed.

Lemma mul_x p lo hi lo' hi' : all_in (-6144) 6144 p -> -2147483648 <= lo -> hi <= 2147483647 ->
  lmap n lo hi lo' hi' (fun x => mul_reduce_array16 x n p) -> lmap n lo hi lo' hi' (fun x => mul_reduce_array16_asm x n p).
Proof.
  intros Ip Hlo Hhi H. apply (lmap_same _ _ _ _ _ _ _ H). intros x r HL Hx E.
  apply (mul_reduce_array16_same x n p r H16); [apply (in_weak _ _ _ _ x Hx); lia|apply (in_weak _ _ _ _ p Ip); lia|exact E].
Qed.

Lemma reduce_x : lmap n (-2147483648) 2147483647 (-524287) 536573 (fun x => reduce_array_asm x n).
Proof.
  apply (lmap_same _ _ _ _ _ _ _ (reduce_l k n Hk En)). intros x r HL Hx E. apply (reduce_array_same x n r H16 Hx E).
Qed.
Lemma reduce2_x : lmap n (-2147483648) 2147483647 (-130) 12413 (fun x => reduce_array_twice_asm x n).
Proof.
  apply (lmap_same _ _ _ _ _ _ _ (reduce2_l k n Hk En)). intros x r HL Hx E. apply (reduce_array_twice_same x n r H16 Hx E).
Qed.
Lemma correct_x : lmap n (-130) 12413 0 (Q - 1) (fun x => correct_asm x n).
Proof.
  apply (lmap_same _ _ _ _ _ _ _ (correct_l k n Hk En)). intros x r HL Hx E. apply (correct_same x n r H16); [|exact E].
  intros i Hi. assert (X := all_in_at _ _ _ i Hx ltac:(lia)). lia.
Qed.
Lemma scalar_x c : 0 <= c < Q ->
  lmap n (-715823787) 715823787 (-2147483648) 2147483647 (fun x => scalar_mul_reduce_array_asm x n c).
Proof.
  intros Hc. apply (lmap_same _ _ _ _ _ _ _ (scalar_l k n Hk En c Hc)). intros x r HL Hx E.
  apply (scalar_mul_reduce_array_same x n c r H16); [|exact E]. unfold Q in Hc. unfold AvxArrays.w32. lia.
Qed.

Lemma mul_ok_x : mul_ok n (-524287) 536573 (-2147483648) 2147483647 3 (fun h c a b => mul_reduce_array_asm_h h c n a b).
Proof.
  intros h c a b Lc La Lb Ia Ib. destruct (mul_ok_red k n Hk En h c a b Lc La Lb Ia Ib) as (h' & E & X).
  destruct (mul_reduce_array_h_same h c n a b h' H16 E) as (g & Eg & Hg). exists g. split; [exact Eg|]. rewrite Hg. exact X.
Qed.

Let t16 p : all_in (-6144) 6144 p -> all_in (- 2 ^ 15) (2 ^ 15 - 1) p.
Proof. intros H. apply (in_weak _ _ _ _ p H); lia. Qed.

(** The AVX2 transforms give what the C transforms give *)
Let lenT p : zlen p = n /\ all_in (-6144) 6144 p -> 2 ^ k <= zlen p.
Proof. rewrite En. lia. Qed.
Ltac same L := let x := fresh "x" in let r := fresh "r" in let HL := fresh "HL" in let E := fresh "E" in
  intros x r HL _ E; rewrite En in E |- *; rewrite En in HL; revert E; apply (L k x);
  first [exact Hk31|exact HL|apply HU; inl|apply lenT, (proj1 HT); inl|apply t16; apply (proj1 HT); inl].

Lemma ct_std2rev_x lo hi lo' hi' : lmap n lo hi lo' hi' (r_ct_std2rev n T) -> lmap n lo hi lo' hi' (x_ct_std2rev n T).
Proof. intros H. apply (lmap_same _ _ _ _ _ _ _ H). unfold r_ct_std2rev, x_ct_std2rev. same ntt_red_ct_std2rev_eq. Qed.
Lemma gs_std2rev_x lo hi lo' hi' : lmap n lo hi lo' hi' (r_gs_std2rev n T) -> lmap n lo hi lo' hi' (x_gs_std2rev n T).
Proof. intros H. apply (lmap_same _ _ _ _ _ _ _ H). unfold r_gs_std2rev, x_gs_std2rev. same ntt_red_gs_std2rev_eq. Qed.
Lemma ct_rev2std_x lo hi lo' hi' : lmap n lo hi lo' hi' (r_ct_rev2std n T) -> lmap n lo hi lo' hi' (x_ct_rev2std n T).
Proof. intros H. apply (lmap_same _ _ _ _ _ _ _ H). unfold r_ct_rev2std, x_ct_rev2std. same ntt_red_ct_rev2std_eq. Qed.
Lemma gs_rev2std_x lo hi lo' hi' : lmap n lo hi lo' hi' (r_gs_rev2std n T) -> lmap n lo hi lo' hi' (x_gs_rev2std n T).
Proof. intros H. apply (lmap_same _ _ _ _ _ _ _ H). unfold r_gs_rev2std, x_gs_rev2std. same ntt_red_gs_rev2std_eq. Qed.
Lemma intt_ct_std2rev_x lo hi lo' hi' : lmap n lo hi lo' hi' (r_intt_ct_std2rev n T) -> lmap n lo hi lo' hi' (x_intt_ct_std2rev n T).
Proof. intros H. apply (lmap_same _ _ _ _ _ _ _ H). unfold r_intt_ct_std2rev, x_intt_ct_std2rev. same ntt_red_ct_std2rev_eq. Qed.
Lemma intt_gs_std2rev_x lo hi lo' hi' : lmap n lo hi lo' hi' (r_intt_gs_std2rev n T) -> lmap n lo hi lo' hi' (x_intt_gs_std2rev n T).
Proof. intros H. apply (lmap_same _ _ _ _ _ _ _ H). unfold r_intt_gs_std2rev, x_intt_gs_std2rev. same ntt_red_gs_std2rev_eq. Qed.
Lemma intt_ct_rev2std_x lo hi lo' hi' : lmap n lo hi lo' hi' (r_intt_ct_rev2std n T) -> lmap n lo hi lo' hi' (x_intt_ct_rev2std n T).
Proof. intros H. apply (lmap_same _ _ _ _ _ _ _ H). unfold r_intt_ct_rev2std, x_intt_ct_rev2std. same ntt_red_ct_rev2std_eq. Qed.
Lemma intt_gs_rev2std_x lo hi lo' hi' : lmap n lo hi lo' hi' (r_intt_gs_rev2std n T) -> lmap n lo hi lo' hi' (x_intt_gs_rev2std n T).
Proof. intros H. apply (lmap_same _ _ _ _ _ _ _ H). unfold r_intt_gs_rev2std, x_intt_gs_rev2std. same ntt_red_gs_rev2std_eq. Qed.
Lemma mulntt_x lo hi lo' hi' : lmap n lo hi lo' hi' (r_mulntt_ct_std2rev n T) -> lmap n lo hi lo' hi' (x_mulntt_ct_std2rev n T).
Proof. intros H. apply (lmap_same _ _ _ _ _ _ _ H). unfold r_mulntt_ct_std2rev, x_mulntt_ct_std2rev. same mulntt_red_ct_std2rev_eq. Qed.
Lemma inttmul_x lo hi lo' hi' : lmap n lo hi lo' hi' (r_inttmul_gs_rev2std n T) -> lmap n lo hi lo' hi' (x_inttmul_gs_rev2std n T).
Proof. intros H. apply (lmap_same _ _ _ _ _ _ _ H). unfold r_inttmul_gs_rev2std, x_inttmul_gs_rev2std. same nttmul_red_gs_rev2std_eq. Qed.

Lemma mulpsi_x : lmap n (-6144) 12288 (-18432) 30717 (fun x => mul_reduce_array16_asm x n (red_psi_powers T)).
Proof. apply mul_x; [apply (proj1 HT); inl|lia|lia|exact (mulpsi_l k n T Hk En HT)]. Qed.
Lemma mulinv_x : lmap n (-1431647574) 1431647574 (-2147483648) 2147483647 (fun x => mul_reduce_array16_asm x n (red_scaled_inv_psi_powers T)).
Proof. apply mul_x; [apply (proj1 HT); inl|lia|lia|exact (mulinv_l k n T Hk En HT)]. Qed.

Lemma fwd_x f : lmap n (-18432) 30717 (-2147483648) 2147483647 f ->
  lmap n 0 (Q - 1) (-524287) 536573 (fun a => do a <- maybe_shift_asm sh n a;
    do a <- mul_reduce_array16_asm a n (red_psi_powers T); do a <- f a; reduce_array_asm a n).
Proof.
  intros Hf. apply (lmap_weaken n (-6144) 12288 (-524287) 536573); [|unfold Q; lia ..].
  exact (lmap_seq _ _ _ _ _ _ _ _ _ shift_x (lmap_seq _ _ _ _ _ _ _ _ _ mulpsi_x (lmap_seq _ _ _ _ _ _ _ _ _ Hf reduce_x))).
Qed.

Lemma fwd5_x f : lmap n (-6144) 12288 (-2147483648) 2147483647 f ->
  lmap n 0 (Q - 1) (-524287) 536573 (fun a => do a <- maybe_shift_asm sh n a; do a <- f a; reduce_array_asm a n).
Proof.
  intros Hf. apply (lmap_weaken n (-6144) 12288 (-524287) 536573); [|unfold Q; lia ..].
  exact (lmap_seq _ _ _ _ _ _ _ _ _ shift_x (lmap_seq _ _ _ _ _ _ _ _ _ Hf reduce_x)).
Qed.

Lemma back_x B f m : lmap n (-130) 12413 (- B) B f -> lmap n (- B) B (-2147483648) 2147483647 m ->
  lmap n (-2147483648) 2147483647 0 (Q - 1) (fun a => do a <- reduce_array_twice_asm a n; do a <- f a; do a <- m a;
    do a <- reduce_array_twice_asm a n; correct_asm a n).
Proof.
  intros Hf Hm.
  exact (lmap_seq _ _ _ _ _ _ _ _ _ reduce2_x (lmap_seq _ _ _ _ _ _ _ _ _ Hf
    (lmap_seq _ _ _ _ _ _ _ _ _ Hm (lmap_seq _ _ _ _ _ _ _ _ _ reduce2_x correct_x)))).
Qed.

Local Opaque x_ct_std2rev x_gs_std2rev x_mulntt_ct_std2rev x_intt_ct_rev2std x_intt_gs_rev2std x_inttmul_gs_rev2std
  mul_reduce_array16_asm mul_reduce_array_asm_h reduce_array_asm reduce_array_twice_asm scalar_mul_reduce_array_asm
  correct_asm maybe_shift_asm.

Ltac steps := repeat (let x := fresh "x" in match goal with |- context [bind (on ?p ?W ?h) _] =>
      is_var h; destruct (on p W h) as [x|]; cbn [bind]; [|reflexivity] end).

Lemma xprod_bmap f : In f [red_product1_asm sh n T; red_product2_asm sh n T; red_product3_asm sh n T; red_product4_asm sh n T; red_product5_asm sh n T] ->
  bmap n 0 (Q - 1) 0 (Q - 1) f.
Proof.
  intros H.
  assert (G4 : forall A C P, lmap n (-18432) 30717 (-2147483648) 2147483647 A -> lmap n (-130) 12413 (- 1431647574) 1431647574 C ->
    (forall h c a b, P h c a b =
       do h <- on a (maybe_shift_asm sh n) h; do h <- on a (fun x => mul_reduce_array16_asm x n (red_psi_powers T)) h;
       do h <- on a A h; do h <- on a (fun x => reduce_array_asm x n) h;
       do h <- on b (maybe_shift_asm sh n) h; do h <- on b (fun x => mul_reduce_array16_asm x n (red_psi_powers T)) h;
       do h <- on b A h; do h <- on b (fun x => reduce_array_asm x n) h;
       do h <- mul_reduce_array_asm_h h c n a b;
       do h <- on c (fun x => reduce_array_twice_asm x n) h; do h <- on c C h;
       do h <- on c (fun x => mul_reduce_array16_asm x n (red_scaled_inv_psi_powers T)) h;
       do h <- on c (fun x => reduce_array_twice_asm x n) h; do h <- on c (fun x => correct_asm x n) h; Ok h) ->
    bmap n 0 (Q - 1) 0 (Q - 1) P).
  { intros A C P HA HC HP.
    apply (product_bmap n 0 (Q - 1) (-524287) 536573 (-2147483648) 2147483647 0 (Q - 1) 3 _ _ _ _ _ P
      (fwd_x A HA) (step_seq _ _ _ _ (step1 _) (step_seq _ _ _ _ (step1 _) (step_seq _ _ _ _ (step1 _) (step1 _)))) mul_ok_x
      (back_x 1431647574 C _ HC mulinv_x)
      (step_seq _ _ _ _ (step1 _) (step_seq _ _ _ _ (step1 _) (step_seq _ _ _ _ (step1 _) (step_seq _ _ _ _ (step1 _) (step1 _)))))).
    intros h c a b. rewrite HP. clear. steps.
    destruct (mul_reduce_array_asm_h _ c n a b) as [y|]; cbn [bind]; [|reflexivity]. steps. reflexivity. }
  assert (F1 : lmap n (-18432) 30717 (-2147483648) 2147483647 (x_ct_std2rev n T)) by (apply ct_std2rev_x, (ct_fwd_l k n); tab).
  assert (F2 : lmap n (-18432) 30717 (-2147483648) 2147483647 (x_gs_std2rev n T)) by (apply gs_std2rev_x, (gs_fwd_l k n); tab).
  assert (B1 : lmap n (-130) 12413 (- 1431647574) 1431647574 (x_intt_ct_rev2std n T)) by (apply intt_ct_rev2std_x, (ct_back_l k n); tab).
  assert (B2 : lmap n (-130) 12413 (- 1431647574) 1431647574 (x_intt_gs_rev2std n T)) by (apply intt_gs_rev2std_x, (gs_back_l k n); tab).
  cbn [In] in H. destruct H as [<-|[<-|[<-|[<-|[<-|[]]]]]].
  - apply (G4 _ _ _ F1 B1). reflexivity.
  - apply (G4 _ _ _ F2 B1). reflexivity.
  - apply (G4 _ _ _ F1 B2). reflexivity.
  - apply (G4 _ _ _ F2 B2). reflexivity.
  - assert (A1 : lmap n (-6144) 12288 (-2147483648) 2147483647 (x_mulntt_ct_std2rev n T)) by (apply mulntt_x, (mulct_fwd_l k n); tab).
    assert (A2 : lmap n (-130) 12413 (- 715823787) 715823787 (x_inttmul_gs_rev2std n T)) by (apply inttmul_x, (mulgs_back_l k n); tab).
    assert (A3 : lmap n (- 715823787) 715823787 (-2147483648) 2147483647 (fun x => scalar_mul_reduce_array_asm x n (rescale8 T)))
      by (apply scalar_x; apply HT).
    apply (product_bmap n 0 (Q - 1) (-524287) 536573 (-2147483648) 2147483647 0 (Q - 1) 3 _ _ _ _ _ _
      (fwd5_x _ A1) (step_seq _ _ _ _ (step1 _) (step_seq _ _ _ _ (step1 _) (step1 _))) mul_ok_x
      (back_x 715823787 _ _ A2 A3)
      (step_seq _ _ _ _ (step1 _) (step_seq _ _ _ _ (step1 _) (step_seq _ _ _ _ (step1 _) (step_seq _ _ _ _ (step1 _) (step1 _)))))).
    intros h c a b. unfold red_product5_asm. clear. steps.
    destruct (mul_reduce_array_asm_h _ c n a b) as [y|]; cbn [bind]; [|reflexivity]. steps. reflexivity.
Qed.

Lemma xall_lmap f omega s2r : In (f, omega, s2r)
     [(x_ct_rev2std n T, r_omega T, false); (x_gs_rev2std n T, r_omega T, false);
      (x_ct_std2rev n T, r_omega T, true); (x_gs_std2rev n T, r_omega T, true);
      (x_intt_ct_rev2std n T, r_inv_omega T, false); (x_intt_gs_rev2std n T, r_inv_omega T, false);
      (x_intt_ct_std2rev n T, r_inv_omega T, true); (x_intt_gs_std2rev n T, r_inv_omega T, true)] ->
  lmap n (-6144) 6144 (- 2 ^ 31) (2 ^ 31 - 1) f.
Proof.
  assert (R := rall_lmap k n T Hk En HT).
  intros H. cbn [In] in H.
  destruct H as [H|[H|[H|[H|[H|[H|[H|[H|[]]]]]]]]]; injection H as <- _ _;
    [apply ct_rev2std_x, (R _ (r_omega T) false)|apply gs_rev2std_x, (R _ (r_omega T) false)|apply ct_std2rev_x, (R _ (r_omega T) true)
    |apply gs_std2rev_x, (R _ (r_omega T) true)|apply intt_ct_rev2std_x, (R _ (r_inv_omega T) false)|apply intt_gs_rev2std_x, (R _ (r_inv_omega T) false)
    |apply intt_ct_std2rev_x, (R _ (r_inv_omega T) true)|apply intt_gs_std2rev_x, (R _ (r_inv_omega T) true)]; inl.
Qed.
End Products.

Lemma asm_certifies_L :
  forall shi sh rnd stk k n T bt np r0, 4 <= k <= 10 -> n = 2 ^ k -> centred_tables n T -> unit_entries k T -> make_bitrev_table n = Ok (Written (np, bt)) ->
  (forall p, zlen (stk p) = n) -> tests rnd stk n bt np (red_variant n T shi) (asm_functions n T sh) 0 = Ok r0 ->
  (forall f omega s2r, In (f, omega, s2r)
     [(x_ct_rev2std n T, r_omega T, false); (x_gs_rev2std n T, r_omega T, false);
      (x_ct_std2rev n T, r_omega T, true); (x_gs_std2rev n T, r_omega T, true);
      (x_intt_ct_rev2std n T, r_inv_omega T, false); (x_intt_gs_rev2std n T, r_inv_omega T, false);
      (x_intt_ct_std2rev n T, r_inv_omega T, true); (x_intt_gs_std2rev n T, r_inv_omega T, true)] ->
   eqQ (omega ^ (n / 2)) (-1)
   /\ forall a, zlen a = n -> all_in (-6144) 6144 a ->
      exists r, (if s2r : bool then do r <- f a; bitrev_shuffle r n else do b <- bitrev_shuffle a n; f b) = Ok r
        /\ zlen r = n /\ forall i, 0 <= i < n -> eqQ (at_ r i) (NTT n omega (at_ a) i))
  /\ (forall f, In f [red_product1_asm sh n T; red_product2_asm sh n T; red_product3_asm sh n T; red_product4_asm sh n T; red_product5_asm sh n T] ->
      forall h c a b, a <> b -> zlen (h c) = n -> zlen (h a) = n -> zlen (h b) = n ->
      all_in 0 (Q - 1) (h a) -> all_in 0 (Q - 1) (h b) ->
      exists h', f h c a b = Ok h' /\ zlen (h' c) = n
        /\ forall t, 0 <= t < n -> at_ (h' c) t = negacyclic n (at_ (h a)) (at_ (h b)) t mod Q).
Proof.
  intros shi sh rnd stk k n T bt np r0 Hk En HT HU HB Ls Et.
  assert (Hk15 : 1 <= k <= 15) by lia.
  assert (Hn : 2 <= n <= 1024).
  { rewrite En. change 2 with (2 ^ 1) at 1. change 1024 with (2 ^ 10). split; apply Z.pow_le_mono_r; lia. }
  assert (Hn32 : 0 <= n < 2 ^ 32) by (change (2 ^ 32) with 4294967296; lia).
  destruct (bitrev_table_shuffle_agrees_L _ _ _ HB) as (_ & _ & HS).
  assert (SW : forall a, zlen a = n -> shuffle_with_table a bt np = bitrev_shuffle a n).
  { intros a La. destruct (HS a La) as (r & -> & ->). reflexivity. }
  assert (O1 : 0 <= f_omega (asm_functions n T sh) < Q) by (cbn [f_omega asm_functions]; apply HT).
  assert (O2 : 0 <= f_inv_omega (asm_functions n T sh) < Q) by (cbn [f_inv_omega asm_functions]; apply HT).
  split.
  - intros f omega s2r Hf.
    assert (HL : lmap n (-6144) 6144 (- 2 ^ 31) (2 ^ 31 - 1) f) by (apply (xall_lmap k n T Hk En HT HU f omega s2r Hf)).
    set (core := fun a => if s2r : bool then do a <- f a; shuffle_with_table a bt np else do a <- shuffle_with_table a bt np; f a).
    assert (HCo : lmap n (-6144) 6144 (- 2 ^ 31) (2 ^ 31 - 1) core).
    { unfold core. destruct s2r; [exact (lmap_seq _ _ _ _ _ _ _ _ _ HL (swt_lmap k n bt np Hk15 En HB _ _))
      |exact (lmap_seq _ _ _ _ _ _ _ _ _ (swt_lmap k n bt np Hk15 En HB _ _) HL)]. }
    destruct (certify_transform rnd stk n k bt np (red_variant n T shi) (asm_functions n T sh) Hk15 En Ls O1 O2 r0 Et f omega s2r Hf) as [HO HA].
    { cbn [before after red_variant]. exact (lmap_seq _ _ _ _ _ _ _ _ _ (centre_l n Hn32) (lmap_seq _ _ _ _ _ _ _ core _ HCo (normalize_l n Hn32))). }
    split; [exact HO|]. intros a La Ia.
    destruct (shift_back n a Hn32 La Ia) as (a' & La' & Ia' & Va & ES).
    destruct (HA a' La' Ia') as (r & E & Lr & Vr). cbn [before after red_variant] in E. rewrite ES in E. cbn [bind] in E. fold (core a) in E.
    destruct HCo as [F HF]. destruct (HF a La Ia) as (x & Ex & Lx & Ix & _). rewrite Ex in E. cbn [bind] in E.
    destruct (normalize_canonical_L x n ltac:(lia) ltac:(lia) Ix) as (r' & E' & _ & V' & _). rewrite E in E'. injection E' as <-.
    exists x. split; [|split; [exact Lx|]].
    + rewrite <- Ex. unfold core. destruct s2r; [|rewrite SW by exact La; reflexivity].
      destruct HL as [G HG]. destruct (HG a La Ia) as (y & -> & Ly & _). cbn [bind]. rewrite SW by exact Ly. reflexivity.
    + intros i Hi. assert (Y := Vr i Hi). rewrite (V' i Hi) in Y. change (eqQ (at_ x i) (NTT n omega (at_ a') i)) in Y. rewrite Y.
      apply NTT_extQ. exact Va.
  - intros f Hf h c a b Hab Lc La Lb Ia Ib.
    destruct (certify_product rnd stk n k bt np (red_variant n T shi) (asm_functions n T sh) Hk15 En Ls r0 Et f _ _ Hf
      (xprod_bmap sh k n T Hk En HT HU f Hf)) with (h := h) (c := c) (a := a) (b := b) as (h' & E & L & I & V); try assumption.
    + intros x Lx Ix. cbn [after_product red_variant]. exists x. split; [reflexivity|]. split; [exact Lx|].
      intros i Hi. symmetry. apply Z.mod_small. assert (X := all_in_at _ _ _ i Ix ltac:(lia)). lia.
    + exists h'. split; [exact E|]. split; [exact L|]. intros t Ht. apply nega_mod_ext; [exact (V t Ht)|].
      assert (X := all_in_at _ _ _ t I ltac:(lia)). lia.
Qed.

Lemma asm_main_certifies_L :
  forall shi sh rnd clk stk k n T bt np, 4 <= k <= 10 -> n = 2 ^ k -> centred_tables n T -> unit_entries k T -> make_bitrev_table n = Ok (Written (np, bt)) ->
  (forall p, zlen (stk p) = n) -> test_ntt_red_asm_main true shi sh rnd clk stk n T bt np = Ok 0 ->
  (forall f omega s2r, In (f, omega, s2r)
     [(x_ct_rev2std n T, r_omega T, false); (x_gs_rev2std n T, r_omega T, false);
      (x_ct_std2rev n T, r_omega T, true); (x_gs_std2rev n T, r_omega T, true);
      (x_intt_ct_rev2std n T, r_inv_omega T, false); (x_intt_gs_rev2std n T, r_inv_omega T, false);
      (x_intt_ct_std2rev n T, r_inv_omega T, true); (x_intt_gs_std2rev n T, r_inv_omega T, true)] ->
   eqQ (omega ^ (n / 2)) (-1)
   /\ forall a, zlen a = n -> all_in (-6144) 6144 a ->
      exists r, (if s2r : bool then do r <- f a; bitrev_shuffle r n else do b <- bitrev_shuffle a n; f b) = Ok r
        /\ zlen r = n /\ forall i, 0 <= i < n -> eqQ (at_ r i) (NTT n omega (at_ a) i))
  /\ (forall f, In f [red_product1_asm sh n T; red_product2_asm sh n T; red_product3_asm sh n T; red_product4_asm sh n T; red_product5_asm sh n T] ->
      forall h c a b, a <> b -> zlen (h c) = n -> zlen (h a) = n -> zlen (h b) = n ->
      all_in 0 (Q - 1) (h a) -> all_in 0 (Q - 1) (h b) ->
      exists h', f h c a b = Ok h' /\ zlen (h' c) = n
        /\ forall t, 0 <= t < n -> at_ (h' c) t = negacyclic n (at_ (h a)) (at_ (h b)) t mod Q).
Proof.
  intros shi sh rnd clk stk k n T bt np Hk En HT HU HB Ls HM. unfold test_ntt_red_asm_main in HM.
  destruct (main_inv _ _ _ _ _ _ _ _ HM) as (r0 & Et). exact (asm_certifies_L shi sh rnd stk k n T bt np r0 Hk En HT HU HB Ls Et).
Qed.
