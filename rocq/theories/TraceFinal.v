(** Lemmas behind [PropTrace]. *)

From Coq Require Import ZArith List Bool Lia.
From Verif Require Import CSem Spec Loops Exlib ExTables ModelGen TraceElem TraceC TraceAvxP TraceProd ProdFinal AvxProdFinal.
From Verif Require ModelNtt ModelRed ModelNaive ModelProducts ModelAvx ModelAvxProd.
From Verif Require TraceSem TraceNtt TraceRed TraceNaive TraceProducts TraceAvx TraceAvxProd.
Import TraceSem(same_trace).
Import ListNotations.
Open Scope Z_scope.

Lemma same_of_ob {A} (m m' : TraceSem.tr A) : ob any m m' -> same_trace m m'.
Proof. intros H r r' E E'. exact (proj1 (H r r' E E')). Qed.

Lemma snd_of_er {A} (m : TraceSem.tr A) m' : er m m' -> snd m = m'.
Proof. exact (fun H => H). Qed.

(** one pair of the list after the other *)
Ltac each HI :=
  repeat (destruct HI as [HI|HI]; [injection HI as <- <-; intros; split;
     [ apply snd_of_er; trivial with trace nocore | apply same_of_ob; trivial with trace nocore ]|]);
  destruct HI.

Lemma c_transforms_trace_L :
forall ft f, In (ft, f)
   ([(TraceNtt.mul_array16, ModelNtt.mul_array16);
     (TraceNtt.ntt_ct_rev2std_v1, ModelNtt.ntt_ct_rev2std_v1);
     (TraceNtt.ntt_ct_rev2std, ModelNtt.ntt_ct_rev2std);
     (TraceNtt.ntt_ct_std2rev, ModelNtt.ntt_ct_std2rev);
     (TraceNtt.ntt_gs_rev2std, ModelNtt.ntt_gs_rev2std);
     (TraceNtt.ntt_gs_std2rev, ModelNtt.ntt_gs_std2rev);
     (TraceNtt.mulntt_ct_rev2std, ModelNtt.mulntt_ct_rev2std);
     (TraceNtt.mulntt_ct_std2rev, ModelNtt.mulntt_ct_std2rev);
     (TraceNtt.nttmul_gs_rev2std, ModelNtt.nttmul_gs_rev2std);
     (TraceNtt.nttmul_gs_std2rev, ModelNtt.nttmul_gs_std2rev)] ++
    [(TraceRed.mul_reduce_array16, ModelRed.mul_reduce_array16);
     (TraceRed.ntt_red_ct_rev2std, ModelRed.ntt_red_ct_rev2std);
     (TraceRed.ntt_red_ct_std2rev, ModelRed.ntt_red_ct_std2rev);
     (TraceRed.ntt_red_gs_rev2std, ModelRed.ntt_red_gs_rev2std);
     (TraceRed.ntt_red_gs_std2rev, ModelRed.ntt_red_gs_std2rev);
     (TraceRed.mulntt_red_ct_rev2std, ModelRed.mulntt_red_ct_rev2std);
     (TraceRed.mulntt_red_ct_std2rev, ModelRed.mulntt_red_ct_std2rev);
     (TraceRed.nttmul_red_gs_rev2std, ModelRed.nttmul_red_gs_rev2std);
     (TraceRed.nttmul_red_gs_std2rev, ModelRed.nttmul_red_gs_std2rev)]) ->
  forall a a' n p p', snd (ft a n p) = f a n p /\ same_trace (ft a n p) (ft a' n p').
Proof.
  intros ft f HI. cbn [app] in HI. each HI.
Qed.

Lemma c_naive_trace_L :
forall ft f, In (ft, f)
    [(TraceNaive.mul_array16_naive, ModelNaive.mul_array16_naive);
     (TraceNaive.ntt_ct_rev2std_naive, ModelNaive.ntt_ct_rev2std_naive);
     (TraceNaive.ntt_ct_std2rev_naive, ModelNaive.ntt_ct_std2rev_naive);
     (TraceNaive.ntt_gs_rev2std_naive, ModelNaive.ntt_gs_rev2std_naive);
     (TraceNaive.ntt_gs_std2rev_naive, ModelNaive.ntt_gs_std2rev_naive);
     (TraceNaive.mulntt_ct_rev2std_naive, ModelNaive.mulntt_ct_rev2std_naive);
     (TraceNaive.mulntt_ct_std2rev_naive, ModelNaive.mulntt_ct_std2rev_naive);
     (TraceNaive.nttmul_gs_rev2std_naive, ModelNaive.nttmul_gs_rev2std_naive);
     (TraceNaive.nttmul_gs_std2rev_naive, ModelNaive.nttmul_gs_std2rev_naive)] ->
  forall a a' n p p' q, snd (ft a n p q) = f a n p q /\ same_trace (ft a n p q) (ft a' n p' q).
Proof.
  intros ft f HI. each HI.
Qed.

Lemma c_arrays_trace_L :
forall ft f, In (ft, f)
    [(TraceNtt.bitrev_shuffle, ModelNtt.bitrev_shuffle);
     (TraceRed.reduce_array, ModelRed.reduce_array);
     (TraceRed.reduce_array_twice, ModelRed.reduce_array_twice); (TraceRed.correct, ModelRed.correct)] ->
  forall a a' n, snd (ft a n) = f a n /\ same_trace (ft a n) (ft a' n).
Proof.
  intros ft f HI. each HI.
Qed.

Lemma c_scalars_trace_L :
(forall a a' n c c',
     snd (TraceNtt.scalar_mul_array a n c) = ModelNtt.scalar_mul_array a n c
     /\ same_trace (TraceNtt.scalar_mul_array a n c) (TraceNtt.scalar_mul_array a' n c')
     /\ snd (TraceRed.scalar_mul_reduce_array a n c) = ModelRed.scalar_mul_reduce_array a n c
     /\ same_trace (TraceRed.scalar_mul_reduce_array a n c) (TraceRed.scalar_mul_reduce_array a' n c'))
  /\ (forall h h' n c a b,
     snd (TraceNtt.mul_array_h h c n a b) = ModelNtt.mul_array_h h c n a b
     /\ same_trace (TraceNtt.mul_array_h h c n a b) (TraceNtt.mul_array_h h' c n a b)
     /\ snd (TraceRed.mul_reduce_array_h h c n a b) = ModelRed.mul_reduce_array_h h c n a b
     /\ same_trace (TraceRed.mul_reduce_array_h h c n a b) (TraceRed.mul_reduce_array_h h' c n a b))
  /\ (forall a a' n c c' q,
     snd (TraceNaive.scalar_mul_array_naive a n c q) = ModelNaive.scalar_mul_array_naive a n c q
     /\ same_trace (TraceNaive.scalar_mul_array_naive a n c q) (TraceNaive.scalar_mul_array_naive a' n c' q))
  /\ (forall h h' n c a b q,
     snd (TraceNaive.mul_array_naive_h h c n a b q) = ModelNaive.mul_array_naive_h h c n a b q
     /\ same_trace (TraceNaive.mul_array_naive_h h c n a b q) (TraceNaive.mul_array_naive_h h' c n a b q))
  /\ (forall a a' p n,
     snd (TraceNtt.shuffle_with_table a p n) = ModelNtt.shuffle_with_table a p n
     /\ same_trace (TraceNtt.shuffle_with_table a p n) (TraceNtt.shuffle_with_table a' p n)).
Proof.
  split; [|split; [|split; [|split]]]; intros; repeat split; first [apply same_of_ob | apply snd_of_er];
    first [ solve [trivial with trace nocore] | apply er_shuffle_with_table | apply ob_shuffle_with_table ].
Qed.

Lemma asm_trace_L :
(forall ft f, In (ft, f)
    [(TraceAvx.mul_reduce_array16_asm, ModelAvx.mul_reduce_array16_asm);
     (TraceAvx.mul_reduce_array16_asm2, ModelAvx.mul_reduce_array16_asm2);
     (TraceAvx.ntt_red_ct_rev2std_asm, ModelAvx.ntt_red_ct_rev2std_asm);
     (TraceAvx.ntt_red_ct_std2rev_asm, ModelAvx.ntt_red_ct_std2rev_asm);
     (TraceAvx.ntt_red_gs_rev2std_asm, ModelAvx.ntt_red_gs_rev2std_asm);
     (TraceAvx.ntt_red_gs_std2rev_asm, ModelAvx.ntt_red_gs_std2rev_asm);
     (TraceAvx.mulntt_red_ct_rev2std_asm, ModelAvx.mulntt_red_ct_rev2std_asm);
     (TraceAvx.mulntt_red_ct_std2rev_asm, ModelAvx.mulntt_red_ct_std2rev_asm);
     (TraceAvx.nttmul_red_gs_rev2std_asm, ModelAvx.nttmul_red_gs_rev2std_asm);
     (TraceAvx.nttmul_red_gs_std2rev_asm, ModelAvx.nttmul_red_gs_std2rev_asm)] ->
   forall a a' n p p', snd (ft a n p) = f a n p /\ same_trace (ft a n p) (ft a' n p'))
  /\ (forall ft f, In (ft, f)
    [(TraceAvx.reduce_array_asm, ModelAvx.reduce_array_asm);
     (TraceAvx.reduce_array_asm2, ModelAvx.reduce_array_asm2);
     (TraceAvx.reduce_array_twice_asm, ModelAvx.reduce_array_twice_asm);
     (TraceAvx.reduce_array_twice_asm2, ModelAvx.reduce_array_twice_asm2);
     (TraceAvx.correct_asm, ModelAvx.correct_asm);
     (TraceAvx.shift_array_asm, ModelAvx.shift_array_asm)] ->
   forall a a' n, snd (ft a n) = f a n /\ same_trace (ft a n) (ft a' n))
  /\ (forall a a' n c c',
     snd (TraceAvx.scalar_mul_reduce_array_asm a n c) = ModelAvx.scalar_mul_reduce_array_asm a n c
     /\ same_trace (TraceAvx.scalar_mul_reduce_array_asm a n c) (TraceAvx.scalar_mul_reduce_array_asm a' n c'))
  /\ (forall h h' n c a b,
     snd (TraceAvx.mul_reduce_array_asm_h h c n a b) = ModelAvx.mul_reduce_array_asm_h h c n a b
     /\ same_trace (TraceAvx.mul_reduce_array_asm_h h c n a b) (TraceAvx.mul_reduce_array_asm_h h' c n a b)).
Proof.
  split; [|split; [|split]].
  - intros ft f HI. each HI.
  - intros ft f HI. each HI.
  - intros. split; [apply snd_of_er; trivial with trace nocore | apply same_of_ob; trivial with trace nocore].
  - intros. split; [apply snd_of_er; trivial with trace nocore | apply same_of_ob; trivial with trace nocore].
Qed.

(** a function that leaves the same trace in all successful runs, and succeeds *)
Lemma fixed_trace (ft : heap -> Z -> Z -> Z -> TraceSem.tr heap) f (P : heap -> Prop) c a b :
  (forall h, er (ft h c a b) (f h c a b)) ->
  (forall h h', ob any (ft h c a b) (ft h' c a b)) ->
  (forall h, P h -> exists h', f h c a b = Ok h') ->
  (exists h, P h) ->
  exists t, forall h, P h -> exists h', ft h c a b = (t, Ok h') /\ f h c a b = Ok h'.
Proof.
  intros He Ho Hok [h0 H0]. exists (fst (ft h0 c a b)). intros h Hh.
  destruct (Hok h Hh) as [h' E], (Hok h0 H0) as [h0' E0]. exists h'.
  assert (H1 := He h). assert (H2 := He h0). unfold er in H1, H2.
  destruct (Ho h h0 h' h0') as [Ht _]; [congruence|congruence|].
  destruct (ft h c a b) as [t r] eqn:Ef. cbn in *. split; congruence.
Qed.

Definition ready (size c a b : Z) (h : heap) : Prop :=
  zlen (h a) = size /\ zlen (h b) = size /\ zlen (h c) = size
  /\ all_in 0 (Q - 1) (h a) /\ all_in 0 (Q - 1) (h b).

Lemma ready_zero size c a b : 0 <= size -> exists h, ready size c a b h.
Proof.
  intros H. exists (fun _ => repeat 0 (Z.to_nat size)).
  assert (zlen (repeat 0 (Z.to_nat size)) = size) by (unfold zlen; rewrite repeat_length; lia).
  assert (all_in 0 (Q - 1) (repeat 0 (Z.to_nat size))).
  { intros v Hv. apply repeat_spec in Hv. subst. unfold Q. lia. }
  unfold ready. tauto.
Qed.

Lemma c_products_trace_L :
forall malloc size psi T R, (forall n, 0 <= n -> zlen (malloc n) = n) ->
  make_tables malloc size psi = Ok (Written T) ->
  make_red_tables malloc size psi = Ok (Written R) -> size <= 1024 ->
  forall ft f, In (ft, f)
   ([(TraceProducts.ntt_product1 size T, ModelProducts.ntt_product1 size T);
     (TraceProducts.ntt_product2 size T, ModelProducts.ntt_product2 size T);
     (TraceProducts.ntt_product3 size T, ModelProducts.ntt_product3 size T);
     (TraceProducts.ntt_product4 size T, ModelProducts.ntt_product4 size T);
     (TraceProducts.ntt_product5 size T, ModelProducts.ntt_product5 size T)] ++
    [(TraceProducts.naive_product1 size T, ModelProducts.naive_product1 size T);
     (TraceProducts.naive_product2 size T, ModelProducts.naive_product2 size T);
     (TraceProducts.naive_product3 size T, ModelProducts.naive_product3 size T);
     (TraceProducts.naive_product4 size T, ModelProducts.naive_product4 size T);
     (TraceProducts.naive_product5 size T, ModelProducts.naive_product5 size T)] ++
    [(TraceProducts.red_product1 false size R, ModelProducts.red_product1 false size R);
     (TraceProducts.red_product2 false size R, ModelProducts.red_product2 false size R);
     (TraceProducts.red_product3 false size R, ModelProducts.red_product3 false size R);
     (TraceProducts.red_product4 false size R, ModelProducts.red_product4 false size R);
     (TraceProducts.red_product5 false size R, ModelProducts.red_product5 false size R)]) ->
  forall c a b, a <> b -> exists t, forall h,
  zlen (h a) = size -> zlen (h b) = size -> zlen (h c) = size ->
  all_in 0 (Q - 1) (h a) -> all_in 0 (Q - 1) (h b) ->
  exists h', ft h c a b = (t, Ok h') /\ f h c a b = Ok h'.
Proof.
  intros malloc size psi T R HM ET ER Hsz ft f HI c a b Hab.
  assert (Hn : 0 <= size).
  { destruct (gen_tables _ _ _ _ HM ET) as (k & Hk & -> & _). apply Z.pow_nonneg. lia. }
  assert (HN : forall g, In g [ModelProducts.ntt_product1 size T; ModelProducts.ntt_product2 size T; ModelProducts.ntt_product3 size T; ModelProducts.ntt_product4 size T; ModelProducts.ntt_product5 size T] ->
     forall h, ready size c a b h -> exists h', g h c a b = Ok h').
  { intros g Hg h (H1 & H2 & H3 & H4 & H5).
    destruct (ntt_products_correct_L _ _ _ _ HM ET g Hg h c a b Hab H1 H2 H3 H4 H5) as (h' & E & _).
    exists h'. exact E. }
  assert (HV : forall g, In g [ModelProducts.naive_product1 size T; ModelProducts.naive_product2 size T; ModelProducts.naive_product3 size T; ModelProducts.naive_product4 size T; ModelProducts.naive_product5 size T] ->
     forall h, ready size c a b h -> exists h', g h c a b = Ok h').
  { intros g Hg h (H1 & H2 & H3 & H4 & H5).
    assert (HW : forall l, all_in 0 (Q - 1) l -> all_in (- Q + 1) (Q - 1) l).
    { intros l Hl v Hv. specialize (Hl v Hv). unfold Q in *. lia. }
    destruct (naive_products_correct_L _ _ _ _ HM ET g Hg h c a b Hab H1 H2 H3 (HW _ H4) (HW _ H5)) as (h' & E & _).
    exists h'. exact E. }
  assert (HR : forall g, In g [ModelProducts.red_product1 false size R; ModelProducts.red_product2 false size R; ModelProducts.red_product3 false size R; ModelProducts.red_product4 false size R; ModelProducts.red_product5 false size R] ->
     forall h, ready size c a b h -> exists h', g h c a b = Ok h').
  { intros g Hg h (H1 & H2 & H3 & H4 & H5).
    destruct (red_products_correct_L _ _ _ _ false HM ER Hsz g Hg h c a b Hab H1 H2 H3 H4 H5) as (h' & E & _).
    exists h'. exact E. }
  assert (HX : exists t, forall h, ready size c a b h -> exists h', ft h c a b = (t, Ok h') /\ f h c a b = Ok h').
  { cbn [app] in HI.
    destruct HI as [HI|HI].
    { injection HI as <- <-. apply fixed_trace.
      - intros h. exact (er_ntt_product1 size T h c a b).
      - intros h h'. exact (ob_ntt_product1 size T h h' c a b).
      - apply HN. left; reflexivity.
      - apply ready_zero. exact Hn. }
    destruct HI as [HI|HI].
    { injection HI as <- <-. apply fixed_trace.
      - intros h. exact (er_ntt_product2 size T h c a b).
      - intros h h'. exact (ob_ntt_product2 size T h h' c a b).
      - apply HN. right; left; reflexivity.
      - apply ready_zero. exact Hn. }
    destruct HI as [HI|HI].
    { injection HI as <- <-. apply fixed_trace.
      - intros h. exact (er_ntt_product3 size T h c a b).
      - intros h h'. exact (ob_ntt_product3 size T h h' c a b).
      - apply HN. right; right; left; reflexivity.
      - apply ready_zero. exact Hn. }
    destruct HI as [HI|HI].
    { injection HI as <- <-. apply fixed_trace.
      - intros h. exact (er_ntt_product4 size T h c a b).
      - intros h h'. exact (ob_ntt_product4 size T h h' c a b).
      - apply HN. right; right; right; left; reflexivity.
      - apply ready_zero. exact Hn. }
    destruct HI as [HI|HI].
    { injection HI as <- <-. apply fixed_trace.
      - intros h. exact (er_ntt_product5 size T h c a b).
      - intros h h'. exact (ob_ntt_product5 size T h h' c a b).
      - apply HN. right; right; right; right; left; reflexivity.
      - apply ready_zero. exact Hn. }
    destruct HI as [HI|HI].
    { injection HI as <- <-. apply fixed_trace.
      - intros h. exact (er_naive_product1 size T h c a b).
      - intros h h'. exact (ob_naive_product1 size T h h' c a b).
      - apply HV. left; reflexivity.
      - apply ready_zero. exact Hn. }
    destruct HI as [HI|HI].
    { injection HI as <- <-. apply fixed_trace.
      - intros h. exact (er_naive_product2 size T h c a b).
      - intros h h'. exact (ob_naive_product2 size T h h' c a b).
      - apply HV. right; left; reflexivity.
      - apply ready_zero. exact Hn. }
    destruct HI as [HI|HI].
    { injection HI as <- <-. apply fixed_trace.
      - intros h. exact (er_naive_product3 size T h c a b).
      - intros h h'. exact (ob_naive_product3 size T h h' c a b).
      - apply HV. right; right; left; reflexivity.
      - apply ready_zero. exact Hn. }
    destruct HI as [HI|HI].
    { injection HI as <- <-. apply fixed_trace.
      - intros h. exact (er_naive_product4 size T h c a b).
      - intros h h'. exact (ob_naive_product4 size T h h' c a b).
      - apply HV. right; right; right; left; reflexivity.
      - apply ready_zero. exact Hn. }
    destruct HI as [HI|HI].
    { injection HI as <- <-. apply fixed_trace.
      - intros h. exact (er_naive_product5 size T h c a b).
      - intros h h'. exact (ob_naive_product5 size T h h' c a b).
      - apply HV. right; right; right; right; left; reflexivity.
      - apply ready_zero. exact Hn. }
    destruct HI as [HI|HI].
    { injection HI as <- <-. apply fixed_trace.
      - intros h. exact (er_red_product1 false size R h c a b).
      - intros h h'. exact (ob_red_product1 size R h h' c a b).
      - apply HR. left; reflexivity.
      - apply ready_zero. exact Hn. }
    destruct HI as [HI|HI].
    { injection HI as <- <-. apply fixed_trace.
      - intros h. exact (er_red_product2 false size R h c a b).
      - intros h h'. exact (ob_red_product2 size R h h' c a b).
      - apply HR. right; left; reflexivity.
      - apply ready_zero. exact Hn. }
    destruct HI as [HI|HI].
    { injection HI as <- <-. apply fixed_trace.
      - intros h. exact (er_red_product3 false size R h c a b).
      - intros h h'. exact (ob_red_product3 size R h h' c a b).
      - apply HR. right; right; left; reflexivity.
      - apply ready_zero. exact Hn. }
    destruct HI as [HI|HI].
    { injection HI as <- <-. apply fixed_trace.
      - intros h. exact (er_red_product4 false size R h c a b).
      - intros h h'. exact (ob_red_product4 size R h h' c a b).
      - apply HR. right; right; right; left; reflexivity.
      - apply ready_zero. exact Hn. }
    destruct HI as [HI|HI].
    { injection HI as <- <-. apply fixed_trace.
      - intros h. exact (er_red_product5 false size R h c a b).
      - intros h h'. exact (ob_red_product5 size R h h' c a b).
      - apply HR. right; right; right; right; left; reflexivity.
      - apply ready_zero. exact Hn. }
    destruct HI. }
  destruct HX as [t Ht]. exists t. intros h H1 H2 H3 H4 H5. apply Ht. exact (conj H1 (conj H2 (conj H3 (conj H4 H5)))).
Qed.

Lemma asm_products_trace_L :
forall malloc size psi R sh, (forall n, 0 <= n -> zlen (malloc n) = n) ->
  make_red_tables malloc size psi = Ok (Written R) -> 16 <= size <= 1024 ->
  forall ft f, In (ft, f)
    [(TraceAvxProd.red_product1_asm sh size R, ModelAvxProd.red_product1_asm sh size R);
     (TraceAvxProd.red_product2_asm sh size R, ModelAvxProd.red_product2_asm sh size R);
     (TraceAvxProd.red_product3_asm sh size R, ModelAvxProd.red_product3_asm sh size R);
     (TraceAvxProd.red_product4_asm sh size R, ModelAvxProd.red_product4_asm sh size R);
     (TraceAvxProd.red_product5_asm sh size R, ModelAvxProd.red_product5_asm sh size R)] ->
  forall c a b, a <> b -> exists t, forall h,
  zlen (h a) = size -> zlen (h b) = size -> zlen (h c) = size ->
  all_in 0 (Q - 1) (h a) -> all_in 0 (Q - 1) (h b) ->
  exists h', ft h c a b = (t, Ok h') /\ f h c a b = Ok h'.
Proof.
  intros malloc size psi R sh HM ER Hsz ft f HI c a b Hab.
  assert (HR : forall g, In g [ModelAvxProd.red_product1_asm sh size R; ModelAvxProd.red_product2_asm sh size R; ModelAvxProd.red_product3_asm sh size R; ModelAvxProd.red_product4_asm sh size R; ModelAvxProd.red_product5_asm sh size R] ->
     forall h, ready size c a b h -> exists h', g h c a b = Ok h').
  { intros g Hg h (H1 & H2 & H3 & H4 & H5).
    destruct (asm_products_correct_L _ _ _ _ sh HM ER Hsz g Hg h c a b Hab H1 H2 H3 H4 H5) as (h' & E & _).
    exists h'. exact E. }
  assert (HX : exists t, forall h, ready size c a b h -> exists h', ft h c a b = (t, Ok h') /\ f h c a b = Ok h').
  {
    destruct HI as [HI|HI].
    { injection HI as <- <-. apply fixed_trace.
      - intros h. exact (er_red_product1_asm sh size R h c a b).
      - intros h h'. exact (ob_red_product1_asm sh size R h h' c a b).
      - apply HR. left; reflexivity.
      - apply ready_zero. lia. }
    destruct HI as [HI|HI].
    { injection HI as <- <-. apply fixed_trace.
      - intros h. exact (er_red_product2_asm sh size R h c a b).
      - intros h h'. exact (ob_red_product2_asm sh size R h h' c a b).
      - apply HR. right; left; reflexivity.
      - apply ready_zero. lia. }
    destruct HI as [HI|HI].
    { injection HI as <- <-. apply fixed_trace.
      - intros h. exact (er_red_product3_asm sh size R h c a b).
      - intros h h'. exact (ob_red_product3_asm sh size R h h' c a b).
      - apply HR. right; right; left; reflexivity.
      - apply ready_zero. lia. }
    destruct HI as [HI|HI].
    { injection HI as <- <-. apply fixed_trace.
      - intros h. exact (er_red_product4_asm sh size R h c a b).
      - intros h h'. exact (ob_red_product4_asm sh size R h h' c a b).
      - apply HR. right; right; right; left; reflexivity.
      - apply ready_zero. lia. }
    destruct HI as [HI|HI].
    { injection HI as <- <-. apply fixed_trace.
      - intros h. exact (er_red_product5_asm sh size R h c a b).
      - intros h h'. exact (ob_red_product5_asm sh size R h h' c a b).
      - apply HR. right; right; right; right; left; reflexivity.
      - apply ready_zero. lia. }
    destruct HI. }
  destruct HX as [t Ht]. exists t. intros h H1 H2 H3 H4 H5. apply Ht. exact (conj H1 (conj H2 (conj H3 (conj H4 H5)))).
Qed.

Lemma asm1024_product1_trace_L :
forall malloc R, (forall n, 0 <= n -> zlen (malloc n) = n) ->
  make_red_tables malloc 1024 1014 = Ok (Written R) ->
  forall c a b, a <> b -> exists t, forall h,
  zlen (h a) = 1024 -> zlen (h b) = 1024 -> zlen (h c) = 1024 ->
  all_in 0 (Q - 1) (h a) -> all_in 0 (Q - 1) (h b) ->
  exists h', TraceAvxProd.red1024_product1_asm 1024 R h c a b = (t, Ok h')
    /\ ModelAvxProd.red1024_product1_asm 1024 R h c a b = Ok h'.
Proof.
  intros malloc R HM ER c a b Hab.
  destruct (fixed_trace (TraceAvxProd.red1024_product1_asm 1024 R) (ModelAvxProd.red1024_product1_asm 1024 R) (ready 1024 c a b) c a b) as [t Ht].
  - intros. apply er_red1024_product1_asm.
  - intros. apply ob_red1024_product1_asm.
  - intros h (H1 & H2 & H3 & H4 & H5).
    destruct (asm1024_product1_correct_L _ _ HM ER h c a b Hab H1 H2 H3 H4 H5) as (h' & E & _).
    exists h'. exact E.
  - apply ready_zero. lia.
  - exists t. intros h H1 H2 H3 H4 H5. apply Ht. exact (conj H1 (conj H2 (conj H3 (conj H4 H5)))).
Qed.

Lemma branches_on_values_refuted_L :
(forall a n, snd (TraceRed.normalize a n) = ModelRed.normalize a n
      /\ snd (TraceRed.normalize_inv3 a n) = ModelRed.normalize_inv3 a n
      /\ snd (TraceRed.shift_array a n) = ModelRed.shift_array a n)
  /\ (exists a a', ~ same_trace (TraceRed.normalize a 1) (TraceRed.normalize a' 1))
  /\ (exists a a', ~ same_trace (TraceRed.normalize_inv3 a 1) (TraceRed.normalize_inv3 a' 1))
  /\ (exists a a', all_in 0 (Q - 1) a /\ all_in 0 (Q - 1) a'
       /\ ~ same_trace (TraceRed.shift_array a 1) (TraceRed.shift_array a' 1))
  /\ (exists T h h', make_red_tables malloc77 16 1212 = Ok (Written T)
       /\ all_in 0 (Q - 1) (h 1) /\ all_in 0 (Q - 1) (h 2) /\ all_in 0 (Q - 1) (h' 1) /\ all_in 0 (Q - 1) (h' 2)
       /\ ~ same_trace (TraceProducts.red_product5 true 16 T h 3 1 2) (TraceProducts.red_product5 true 16 T h' 3 1 2)).
Proof.
  split; [intros; repeat split; apply snd_of_er; trivial with trace nocore|].
  split. { exists [0], [-1]. intros H. specialize (H [0] [12288] ltac:(vm_compute; reflexivity) ltac:(vm_compute; reflexivity)). vm_compute in H. discriminate H. }
  split. { exists [0], [-1]. intros H. specialize (H [0] [4096] ltac:(vm_compute; reflexivity) ltac:(vm_compute; reflexivity)). vm_compute in H. discriminate H. }
  split. { exists [0], [12288]. split; [check_all_in|]. split; [check_all_in|]. intros H. specialize (H [0] [-1] ltac:(vm_compute; reflexivity) ltac:(vm_compute; reflexivity)). vm_compute in H. discriminate H. }
  exists R16, exH, (fun _ => repeat 0 16).
  split; [exact R16_made|]. split; [check_all_in|]. split; [check_all_in|]. split; [check_all_in|]. split; [check_all_in|].
  intros H.
  assert (HO : forall h, ready 16 3 1 2 h -> exists h', snd (TraceProducts.red_product5 true 16 R16 h 3 1 2) = Ok h').
  { intros h (H1 & H2 & H3 & H4 & H5).
    destruct (red_products_correct_L _ _ _ _ true malloc77_len R16_made ltac:(lia) (ModelProducts.red_product5 true 16 R16)) with (h := h) (c := 3) (a := 1) (b := 2)
      as (h' & E & _); try assumption; [right; right; right; right; left; reflexivity | lia |].
    exists h'. rewrite <- E. apply er_red_product5. }
  destruct (HO exH) as [r Er]. { split; [reflexivity|]. split; [reflexivity|]. split; [reflexivity|]. split; check_all_in. }
  destruct (HO (fun _ => repeat 0 16)) as [r' Er']. { split; [reflexivity|]. split; [reflexivity|]. split; [reflexivity|]. split; check_all_in. }
  specialize (H r r' Er Er'). clear - H.
  apply (f_equal (firstn 80)) in H. vm_compute in H. discriminate H.
Qed.
