(** Lemmas behind [PropProd]. *)

From Coq Require Import ZArith List Bool Lia Setoid Morphisms.
From Verif Require Import CSem Spec Loops ModQ Exlib TableSpec ModelGen ModelProducts ExTables
  GenMain GenFinal ProdGen NttElem NaiveElem RoundTrip Conv.
From Verif Require ProdNtt ProdNaive ProdRed ModelRed.
Import ListNotations.
Open Scope Z_scope.

Definition malloc_ok (malloc : Z -> list Z) : Prop := forall n, 0 <= n -> zlen (malloc n) = n.

Lemma gen_tables malloc size psi T : malloc_ok malloc -> make_tables malloc size psi = Ok (Written T) ->
  exists k, 1 <= k <= 11 /\ size = 2 ^ k /\ eqQ (psi ^ (2 ^ k)) (-1) /\ tables_ok k psi T.
Proof.
  intros HM E. destruct (make_tables_cases malloc HM size psi) as
    [(k & T' & Hk & Hs & Hp & Hr & E' & HT)|[HN (why & E' & HW)]].
  - exists k. rewrite E in E'. injection E' as <-. rewrite Hs in Hr. auto.
  - rewrite E in E'. discriminate.
Qed.

Lemma gen_red_tables malloc size psi T : malloc_ok malloc -> make_red_tables malloc size psi = Ok (Written T) ->
  exists k, 1 <= k <= 11 /\ size = 2 ^ k /\ eqQ (psi ^ (2 ^ k)) (-1) /\ red_tables_ok k psi T.
Proof.
  intros HM E. destruct (make_red_tables_cases malloc HM size psi) as
    [(k & T' & Hk & Hs & Hp & Hr & E' & HT)|[HN (why & E' & HW)]].
  - exists k. rewrite E in E'. injection E' as <-. rewrite Hs in Hr. auto.
  - rewrite E in E'. discriminate.
Qed.

Lemma can_eq v w : can v -> eqQ v w -> v = w mod Q.
Proof. intros Hv E. unfold can in Hv. unfold eqQ in E. rewrite <- E. symmetry. apply Z.mod_small. unfold Q. lia. Qed.

Lemma list_ext (a b : list Z) n : zlen a = n -> zlen b = n ->
  (forall i, 0 <= i < n -> at_ a i = at_ b i) -> a = b.
Proof.
  unfold zlen, at_. intros La Lb H. apply nth_ext with (d := 0) (d' := 0); [lia|].
  intros m Hm. specialize (H (Z.of_nat m) ltac:(lia)). rewrite Nat2Z.id in H. exact H.
Qed.

Lemma can_all l n : zlen l = n -> all_in 0 (Q - 1) l -> forall i, 0 <= i < n -> can (at_ l i).
Proof. intros HL H i Hi. assert (HH := all_in_at _ _ _ i H ltac:(lia)). unfold can, Q in *. lia. Qed.
Lemma all_can l n : zlen l = n -> (forall i, 0 <= i < n -> can (at_ l i)) -> all_in 0 (Q - 1) l.
Proof. intros HL H. apply all_in_of. intros i Hi. assert (HH := H i ltac:(lia)). unfold can, Q in *. lia. Qed.

(** The statement of the product theorems, for canonical results. *)
Lemma prod_canonical n h c a b (m : res heap) :
  (exists h', m = Ok h' /\ zlen (h' c) = n
    /\ (forall i, 0 <= i < n -> eqQ (at_ (h' c) i) (negacyclic n (at_ (h a)) (at_ (h b)) i) /\ can (at_ (h' c) i))
    /\ (forall p, p <> a -> p <> b -> p <> c -> h' p = h p)) ->
  exists h', m = Ok h' /\ zlen (h' c) = n /\ all_in 0 (Q - 1) (h' c)
    /\ (forall i, 0 <= i < n -> at_ (h' c) i = negacyclic n (at_ (h a)) (at_ (h b)) i mod Q)
    /\ (forall p, p <> a -> p <> b -> p <> c -> h' p = h p).
Proof.
  intros (h' & E & L & H & F). exists h'. split; [exact E|]. split; [exact L|]. split.
  - eapply all_can; [exact L|]. intros i Hi. apply H, Hi.
  - split; [|exact F]. intros i Hi. destruct (H i Hi) as [H1 H2]. apply can_eq; assumption.
Qed.

Ltac five H := cbn [In] in H; destruct H as [<-|[<-|[<-|[<-|[<-|[]]]]]].

(** Two arrays for the examples. *)
Definition exA : list Z := [0; 12288; 0; 0; 0; 0; 0; 0; 0; 0; 0; 0; 0; 0; 0; 5].
Definition exB : list Z := [0; 0; 1; 0; 0; 0; 0; 0; 0; 12288; 0; 0; 0; 0; 0; 7].
Definition exC : list Z := [7; 12284; 0; 12288; 0; 0; 0; 0; 5; 0; 1; 0; 0; 0; 12254; 0].
Definition exH : heap := fun p => if p =? 1 then exA else if p =? 2 then exB else repeat 0 16.

Definition res_is (m : res heap) (c : Z) (l : list Z) : bool :=
  match m with Ok h => if list_eq_dec Z.eq_dec (h c) l then true else false | Err _ => false end.
Lemma res_is_ok m c l : res_is m c l = true -> exists h, m = Ok h /\ h c = l.
Proof. destruct m; cbn; [|discriminate]. destruct (list_eq_dec _ _ _); [eauto|discriminate]. Qed.

Lemma pair_eq (A B : Type) (x x' : A) (y y' : B) : (x, y) = (x', y') -> x = x' /\ y = y'.
Proof. intros H. injection H. auto. Qed.

Lemma shipped s p : In (s, p) [(16, 1212); (256, 1002); (512, 1003); (1024, 1014)] ->
  (exists k, 1 <= k /\ s = 2 ^ k) /\ 1 < p < Q /\ eqQ (p ^ s) (-1).
Proof.
  cbn [In]. intros [H|[H|[H|[H|[]]]]]; apply pair_eq in H as [<- <-].
  - split; [exists 4; split; [discriminate|reflexivity]|]. split; [split; reflexivity|].
    unfold eqQ. rewrite <- Zpow_facts.Zpow_mod_correct by discriminate. vm_compute. reflexivity.
  - split; [exists 8; split; [discriminate|reflexivity]|]. split; [split; reflexivity|].
    unfold eqQ. rewrite <- Zpow_facts.Zpow_mod_correct by discriminate. vm_compute. reflexivity.
  - split; [exists 9; split; [discriminate|reflexivity]|]. split; [split; reflexivity|].
    unfold eqQ. rewrite <- Zpow_facts.Zpow_mod_correct by discriminate. vm_compute. reflexivity.
  - split; [exists 10; split; [discriminate|reflexivity]|]. split; [split; reflexivity|].
    unfold eqQ. rewrite <- Zpow_facts.Zpow_mod_correct by discriminate. vm_compute. reflexivity.
Qed.

Lemma shipped_sizes_accepted_L :
  forall malloc size psi, (forall n, 0 <= n -> zlen (malloc n) = n) ->
  In (size, psi) [(16, 1212); (256, 1002); (512, 1003); (1024, 1014)] ->
  (exists T, make_tables malloc size psi = Ok (Written T))
  /\ (exists T, make_red_tables malloc size psi = Ok (Written T)).
Proof.
  intros malloc size psi HM HI. apply shipped in HI.
  split; [apply make_tables_accepts_iff_L|apply make_red_tables_accepts_iff_L]; assumption.
Qed.

Lemma ntt_products_correct_L :
  forall malloc size psi T, (forall n, 0 <= n -> zlen (malloc n) = n) ->
  make_tables malloc size psi = Ok (Written T) ->
  forall f, In f [ntt_product1 size T; ntt_product2 size T; ntt_product3 size T; ntt_product4 size T; ntt_product5 size T] ->
  forall h c a b, a <> b -> zlen (h a) = size -> zlen (h b) = size -> zlen (h c) = size ->
  all_in 0 (Q - 1) (h a) -> all_in 0 (Q - 1) (h b) ->
  exists h', f h c a b = Ok h' /\ zlen (h' c) = size /\ all_in 0 (Q - 1) (h' c)
    /\ (forall i, 0 <= i < size ->
          at_ (h' c) i = negacyclic size (at_ (h a)) (at_ (h b)) i mod Q)
    /\ (forall p, p <> a -> p <> b -> p <> c -> h' p = h p).
Proof.
  intros malloc size psi T HM E f HI h c a b Hab La Lb Lc Ia Ib.
  destruct (gen_tables _ _ _ _ HM E) as (k & Hk & -> & Hr & HT).
  assert (Ca := can_all _ _ La Ia). assert (Cb := can_all _ _ Lb Ib). apply prod_canonical.
  assert (Hk31 : 0 <= k <= 31) by lia.
  five HI.
  - exact (ProdNtt.n_product1_ok k psi T Hk31 Hr HT h c a b Hab La Lb Lc Ca Cb).
  - exact (ProdNtt.n_product2_ok k psi T Hk31 Hr HT h c a b Hab La Lb Lc Ca Cb).
  - exact (ProdNtt.n_product3_ok k psi T Hk31 Hr HT h c a b Hab La Lb Lc Ca Cb).
  - exact (ProdNtt.n_product4_ok k psi T Hk31 Hr HT h c a b Hab La Lb Lc Ca Cb).
  - exact (ProdNtt.n_product5_ok k psi T Hk31 Hr HT h c a b Hab La Lb Lc Ca Cb).
Qed.

Lemma naive_products_correct_L :
  forall malloc size psi T, (forall n, 0 <= n -> zlen (malloc n) = n) ->
  make_tables malloc size psi = Ok (Written T) ->
  forall f, In f [naive_product1 size T; naive_product2 size T; naive_product3 size T; naive_product4 size T; naive_product5 size T] ->
  forall h c a b, a <> b -> zlen (h a) = size -> zlen (h b) = size -> zlen (h c) = size ->
  all_in (- Q + 1) (Q - 1) (h a) -> all_in (- Q + 1) (Q - 1) (h b) ->
  exists h', f h c a b = Ok h' /\ zlen (h' c) = size /\ all_in (- Q + 1) (Q - 1) (h' c)
    /\ (forall i, 0 <= i < size ->
          eqQ (at_ (h' c) i) (negacyclic size (at_ (h a)) (at_ (h b)) i))
    /\ (forall p, p <> a -> p <> b -> p <> c -> h' p = h p).
Proof.
  intros malloc size psi T HM E f HI h c a b Hab La Lb Lc Ia Ib.
  destruct (gen_tables _ _ _ _ HM E) as (k & Hk & -> & Hr & HT).
  assert (Ca : forall i, 0 <= i < 2 ^ k -> can1 (at_ (h a) i)).
  { intros i Hi. assert (HH := all_in_at _ _ _ i Ia ltac:(lia)). unfold can1, Q in *. lia. }
  assert (Cb : forall i, 0 <= i < 2 ^ k -> can1 (at_ (h b) i)).
  { intros i Hi. assert (HH := all_in_at _ _ _ i Ib ltac:(lia)). unfold can1, Q in *. lia. }
  assert (Hk31 : 0 <= k <= 31) by lia.
  assert (HP : ProdNaive.product_spec k f).
  { five HI.
    - exact (ProdNaive.v_product1_ok k psi T Hk31 Hr HT).
    - exact (ProdNaive.v_product2_ok k psi T Hk31 Hr HT).
    - exact (ProdNaive.v_product3_ok k psi T Hk31 Hr HT).
    - exact (ProdNaive.v_product4_ok k psi T Hk31 Hr HT).
    - exact (ProdNaive.v_product5_ok k psi T Hk31 Hr HT). }
  destruct (HP h c a b Hab La Lb Lc Ca Cb) as (h' & E' & L & H & F).
  exists h'. split; [exact E'|]. split; [exact L|]. split.
  - apply all_in_of. intros i Hi. assert (HH := proj2 (H i ltac:(lia))). unfold can1, Q in *. lia.
  - split; [|exact F]. intros i Hi. apply H, Hi.
Qed.

Lemma naive_products_canonical_refuted_L :
  exists a b T h, make_tables malloc77 16 1212 = Ok (Written T) /\ a <> b
  /\ zlen (h a) = 16 /\ zlen (h b) = 16 /\ zlen (h 3) = 16
  /\ all_in 0 (Q - 1) (h a) /\ all_in 0 (Q - 1) (h b)
  /\ forall f, In f [naive_product1 16 T; naive_product2 16 T; naive_product3 16 T;
                     naive_product4 16 T; naive_product5 16 T] ->
     exists h' i, f h 3 a b = Ok h' /\ 0 <= i < 16 /\ at_ (h' 3) i < 0.
Proof.
  exists 1, 2, T16, exH. split; [exact T16_made|]. split; [discriminate|].
  do 3 (split; [reflexivity|]). split; [check_all_in|]. split; [check_all_in|].
  assert (HX : forall f l, res_is (f exH 3 1 2) 3 l = true -> at_ l 14 < 0 ->
    exists h' i, f exH 3 1 2 = Ok h' /\ 0 <= i < 16 /\ at_ (h' 3) i < 0).
  { intros f l H1 H2. apply res_is_ok in H1 as (h' & E & HE). exists h', 14. split; [exact E|].
    split; [lia|]. rewrite HE. exact H2. }
  intros f HI. five HI.
  - apply (HX _ [7; 12284; 0; -1; 0; 0; 0; 0; 5; 0; 1; 0; 0; 0; -35; 0]); vm_compute; reflexivity.
  - apply (HX _ [7; -5; 0; 12288; 0; 0; 0; 0; 5; 0; 1; 0; 0; 0; -35; 0]); vm_compute; reflexivity.
  - apply (HX _ [7; 12284; 0; 12288; 0; 0; 0; 0; 5; 0; -12288; 0; 0; 0; -35; 0]); vm_compute; reflexivity.
  - apply (HX _ [7; 12284; 0; 12288; 0; 0; 0; 0; 5; 0; -12288; 0; 0; 0; -35; 0]); vm_compute; reflexivity.
  - apply (HX _ [7; 12284; 0; 12288; 0; 0; 0; 0; 5; 0; -12288; 0; 0; 0; -35; 0]); vm_compute; reflexivity.
Qed.

Lemma red_products_correct_L :
  forall malloc size psi T sh, (forall n, 0 <= n -> zlen (malloc n) = n) ->
  make_red_tables malloc size psi = Ok (Written T) -> size <= 1024 ->
  forall f, In f [red_product1 sh size T; red_product2 sh size T; red_product3 sh size T; red_product4 sh size T; red_product5 sh size T] ->
  forall h c a b, a <> b -> zlen (h a) = size -> zlen (h b) = size -> zlen (h c) = size ->
  all_in 0 (Q - 1) (h a) -> all_in 0 (Q - 1) (h b) ->
  exists h', f h c a b = Ok h' /\ zlen (h' c) = size /\ all_in 0 (Q - 1) (h' c)
    /\ (forall i, 0 <= i < size ->
          at_ (h' c) i = negacyclic size (at_ (h a)) (at_ (h b)) i mod Q)
    /\ (forall p, p <> a -> p <> b -> p <> c -> h' p = h p).
Proof.
  intros malloc size psi T sh HM E Hsz f HI h c a b Hab La Lb Lc Ia Ib.
  destruct (gen_red_tables _ _ _ _ HM E) as (k & Hk & -> & Hr & HT).
  assert (Hk10 : 1 <= k <= 10).
  { destruct (Z.leb_spec k 10); [lia|]. assert (2 ^ 11 <= 2 ^ k) by (apply Z.pow_le_mono_r; lia).
    change (2 ^ 11) with 2048 in *. lia. }
  assert (Ca : forall i, 0 <= i < 2 ^ k -> ProdRed.inp (at_ (h a) i)).
  { intros i Hi. assert (HH := all_in_at _ _ _ i Ia ltac:(lia)). unfold ProdRed.inp, Q in *. lia. }
  assert (Cb : forall i, 0 <= i < 2 ^ k -> ProdRed.inp (at_ (h b) i)).
  { intros i Hi. assert (HH := all_in_at _ _ _ i Ib ltac:(lia)). unfold ProdRed.inp, Q in *. lia. }
  apply prod_canonical.
  five HI.
  - exact (ProdRed.r_product1_ok sh k psi T Hk10 Hr HT h c a b Hab La Lb Lc Ca Cb).
  - exact (ProdRed.r_product2_ok sh k psi T Hk10 Hr HT h c a b Hab La Lb Lc Ca Cb).
  - exact (ProdRed.r_product3_ok sh k psi T Hk10 Hr HT h c a b Hab La Lb Lc Ca Cb).
  - exact (ProdRed.r_product4_ok sh k psi T Hk10 Hr HT h c a b Hab La Lb Lc Ca Cb).
  - exact (ProdRed.r_product5_ok sh k psi T Hk10 Hr HT h c a b Hab La Lb Lc Ca Cb).
Qed.

Lemma products_interchangeable_L :
  forall malloc size psi T R sh, (forall n, 0 <= n -> zlen (malloc n) = n) ->
  make_tables malloc size psi = Ok (Written T) -> make_red_tables malloc size psi = Ok (Written R) ->
  size <= 1024 ->
  forall f g, In f ([ntt_product1 size T; ntt_product2 size T; ntt_product3 size T; ntt_product4 size T; ntt_product5 size T] ++ [red_product1 sh size R; red_product2 sh size R; red_product3 sh size R; red_product4 sh size R; red_product5 sh size R]) -> In g ([ntt_product1 size T; ntt_product2 size T; ntt_product3 size T; ntt_product4 size T; ntt_product5 size T] ++ [red_product1 sh size R; red_product2 sh size R; red_product3 sh size R; red_product4 sh size R; red_product5 sh size R]) ->
  forall h c a b, a <> b -> zlen (h a) = size -> zlen (h b) = size -> zlen (h c) = size ->
  all_in 0 (Q - 1) (h a) -> all_in 0 (Q - 1) (h b) ->
  exists h1 h2, f h c a b = Ok h1 /\ g h c a b = Ok h2 /\ h1 c = h2 c.
Proof.
  intros malloc size psi T R sh HM ET ER Hsz f g Hf Hg h c a b Hab La Lb Lc Ia Ib.
  assert (HX : forall f, In f ([ntt_product1 size T; ntt_product2 size T; ntt_product3 size T; ntt_product4 size T; ntt_product5 size T] ++ [red_product1 sh size R; red_product2 sh size R; red_product3 sh size R; red_product4 sh size R; red_product5 sh size R]) ->
    exists h', f h c a b = Ok h' /\ zlen (h' c) = size /\
      (forall i, 0 <= i < size -> at_ (h' c) i = negacyclic size (at_ (h a)) (at_ (h b)) i mod Q)).
  { clear f g Hf Hg. intros f Hf. apply in_app_or in Hf as [Hf|Hf].
    - destruct (ntt_products_correct_L malloc size psi T HM ET f Hf h c a b Hab La Lb Lc Ia Ib)
        as (h' & E & L & _ & H & _). eauto.
    - destruct (red_products_correct_L malloc size psi R sh HM ER Hsz f Hf h c a b Hab La Lb Lc Ia Ib)
        as (h' & E & L & _ & H & _). eauto. }
  destruct (HX f Hf) as (h1 & E1 & L1 & H1). destruct (HX g Hg) as (h2 & E2 & L2 & H2).
  exists h1, h2. split; [exact E1|]. split; [exact E2|]. apply (list_ext _ _ size L1 L2).
  intros i Hi. rewrite H1, H2 by exact Hi. reflexivity.
Qed.

Lemma products_same_array_refuted_L :
  exists a T R h, make_tables malloc77 16 1212 = Ok (Written T)
  /\ make_red_tables malloc77 16 1212 = Ok (Written R)
  /\ zlen (h a) = 16 /\ zlen (h 3) = 16 /\ a <> 3 /\ all_in 0 (Q - 1) (h a)
  /\ forall f, In f ([ntt_product1 16 T; ntt_product2 16 T; ntt_product3 16 T; ntt_product4 16 T; ntt_product5 16 T]
       ++ [naive_product1 16 T; naive_product2 16 T; naive_product3 16 T; naive_product4 16 T; naive_product5 16 T]
       ++ [red_product1 true 16 R; red_product2 true 16 R; red_product3 true 16 R; red_product4 true 16 R; red_product5 true 16 R]) ->
     exists h', f h 3 a a = Ok h' /\ ~ eqQ (at_ (h' 3) 1) (negacyclic 16 (at_ (h a)) (at_ (h a)) 1).
Proof.
  exists 1, T16, R16, exH. split; [exact T16_made|]. split; [exact R16_made|].
  split; [reflexivity|]. split; [reflexivity|]. split; [discriminate|]. split; [check_all_in|].
  assert (HX : forall f, (match f exH 3 1 1 with Ok h' => negb (at_ (h' 3) 1 mod 12289 =? 0) | Err _ => false end) = true ->
    exists h', f exH 3 1 1 = Ok h' /\ ~ eqQ (at_ (h' 3) 1) (negacyclic 16 (at_ (exH 1)) (at_ (exH 1)) 1)).
  { intros f H. destruct (f exH 3 1 1) as [h'|]; [|discriminate]. exists h'. split; [reflexivity|].
    intros HE. unfold eqQ in HE.
    replace (negacyclic 16 (at_ (exH 1)) (at_ (exH 1)) 1 mod Q) with 0 in HE by (vm_compute; reflexivity).
    change Q with 12289 in HE. rewrite HE in H. discriminate. }
  intros f HI. apply in_app_or in HI as [HI|HI]; [|apply in_app_or in HI as [HI|HI]];
    five HI; apply HX; vm_compute; reflexivity.
Qed.

Lemma ntt_round_trip_L :
  forall malloc size psi T, (forall n, 0 <= n -> zlen (malloc n) = n) ->
  make_tables malloc size psi = Ok (Written T) ->
  forall F G, In (F, G) [(n_ct_std2rev size T, n_intt_ct_rev2std size T);
    (n_ct_std2rev size T, n_intt_gs_rev2std size T);
    (n_gs_std2rev size T, n_intt_ct_rev2std size T);
    (n_gs_std2rev size T, n_intt_gs_rev2std size T);
    (n_ct_rev2std size T, n_intt_ct_std2rev size T);
    (n_ct_rev2std size T, n_intt_gs_std2rev size T);
    (n_gs_rev2std size T, n_intt_ct_std2rev size T);
    (n_gs_rev2std size T, n_intt_gs_std2rev size T);
    (n_mulntt_ct_std2rev size T, n_inttmul_gs_rev2std size T);
    (n_mulntt_ct_rev2std size T, n_inttmul_gs_std2rev size T)] ->
  forall a, zlen a = size -> all_in 0 (Q - 1) a ->
  exists r, (do x <- F a; G x) = Ok r /\ zlen r = size /\ all_in 0 (Q - 1) r
    /\ (forall i, 0 <= i < size -> at_ r i = (size * at_ a i) mod Q)
    /\ (forall i, 0 <= i < size -> eqQ (t_inv_n T * at_ r i) (at_ a i)).
Proof.
  intros malloc size psi T HM E F G HI a HL Ha.
  destruct (gen_tables _ _ _ _ HM E) as (k & Hk & -> & Hr & HT).
  destruct (n_round k psi T ltac:(lia) Hr HT F G HI a HL Ha) as (r & ER & L & I & H).
  exists r. split; [exact ER|]. split; [exact L|]. split; [exact I|].
  assert (HE : forall i, 0 <= i < 2 ^ k -> eqQ (at_ r i) (2 ^ k * at_ a i))
    by (intros i Hi; rewrite H by exact Hi; rewrite Z.mul_1_l; reflexivity).
  split.
  - intros i Hi. apply can_eq; [exact (can_all r _ L I i Hi)|apply HE, Hi].
  - intros i Hi. rewrite HE by exact Hi. destruct (ok_inv_n _ _ _ HT) as [HN _].
    transitivity (2 ^ k * t_inv_n T * at_ a i); [qring|]. rewrite HN. qring.
Qed.

Lemma naive_round_trip_L :
  forall malloc size psi T, (forall n, 0 <= n -> zlen (malloc n) = n) ->
  make_tables malloc size psi = Ok (Written T) ->
  forall F G, In (F, G) [(v_ct_std2rev size T, v_intt_ct_rev2std size T);
    (v_ct_std2rev size T, v_intt_gs_rev2std size T);
    (v_gs_std2rev size T, v_intt_ct_rev2std size T);
    (v_gs_std2rev size T, v_intt_gs_rev2std size T);
    (v_ct_rev2std size T, v_intt_ct_std2rev size T);
    (v_ct_rev2std size T, v_intt_gs_std2rev size T);
    (v_gs_rev2std size T, v_intt_ct_std2rev size T);
    (v_gs_rev2std size T, v_intt_gs_std2rev size T);
    (v_mulntt_ct_std2rev size T, v_inttmul_gs_rev2std size T);
    (v_mulntt_ct_rev2std size T, v_inttmul_gs_std2rev size T)] ->
  forall a, zlen a = size -> all_in (- Q + 1) (Q - 1) a ->
  exists r, (do x <- F a; G x) = Ok r /\ zlen r = size /\ all_in (- Q + 1) (Q - 1) r
    /\ (forall i, 0 <= i < size -> eqQ (at_ r i) (size * at_ a i)).
Proof.
  intros malloc size psi T HM E F G HI a HL Ha.
  destruct (gen_tables _ _ _ _ HM E) as (k & Hk & -> & Hr & HT).
  destruct (v_round k psi T ltac:(lia) Hr HT F G HI a HL Ha) as (r & ER & L & I & H).
  exists r. split; [exact ER|]. split; [exact L|]. split; [exact I|].
  intros i Hi; rewrite H by exact Hi; rewrite Z.mul_1_l; reflexivity.
Qed.

Lemma red_round_trip_L :
  forall malloc size psi T, (forall n, 0 <= n -> zlen (malloc n) = n) ->
  make_red_tables malloc size psi = Ok (Written T) -> size <= 1024 ->
  forall F G, In (F, G) [(r_ct_std2rev size T, r_intt_ct_rev2std size T);
    (r_ct_std2rev size T, r_intt_gs_rev2std size T);
    (r_gs_std2rev size T, r_intt_ct_rev2std size T);
    (r_gs_std2rev size T, r_intt_gs_rev2std size T);
    (r_ct_rev2std size T, r_intt_ct_std2rev size T);
    (r_ct_rev2std size T, r_intt_gs_std2rev size T);
    (r_gs_rev2std size T, r_intt_ct_std2rev size T);
    (r_gs_rev2std size T, r_intt_gs_std2rev size T);
    (r_mulntt_ct_std2rev size T, r_inttmul_gs_rev2std size T);
    (r_mulntt_ct_rev2std size T, r_inttmul_gs_std2rev size T)] ->
  forall a, zlen a = size -> all_in (-21499) 21499 a ->
  exists r, (do x <- F a; do y <- ModelRed.reduce_array_twice x size; G y) = Ok r /\ zlen r = size
    /\ all_in (- 2 ^ 31) (2 ^ 31 - 1) r
    /\ (forall i, 0 <= i < size -> eqQ (at_ r i) (9 * (size * at_ a i))).
Proof.
  intros malloc size psi T HM E Hsz F G HI a HL Ha.
  destruct (gen_red_tables _ _ _ _ HM E) as (k & Hk & -> & Hr & HT).
  assert (Hk10 : 0 <= k <= 10).
  { destruct (Z.leb_spec k 10); [lia|]. assert (2 ^ 11 <= 2 ^ k) by (apply Z.pow_le_mono_r; lia).
    change (2 ^ 11) with 2048 in *. lia. }
  exact (r_round k psi T Hk10 Hr HT F G HI a HL Ha).
Qed.
