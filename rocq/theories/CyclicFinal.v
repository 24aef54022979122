(** Lemmas behind [PropCyclic]. *)

From Coq Require Import ZArith List Bool Lia Setoid Morphisms.
From Verif Require Import CSem Spec Loops ModQ Exlib TableSpec ModelGen ModelProducts ModelCyclic
  ExTables HeapElem NttElem NaiveElem GenFinal ProdFinal HeadersFinal Conv Cyclic AccumFinal.
Import ListNotations.
Open Scope Z_scope.

Lemma pow2_inj k m : 0 <= k -> 0 <= m -> 2 ^ k = 2 ^ m -> k = m.
Proof. intros Hk Hm H. apply (Z.pow_inj_r 2); lia. Qed.

Lemma plain_fw k w x j r : eqQ r (1 * NTT (2 ^ k) w (fun i => x i * 1) j) -> eqQ r (NTT (2 ^ k) w x j).
Proof. intros H. rewrite H, Z.mul_1_l. apply NTT_extQ. intros i _. rewrite Z.mul_1_r. reflexivity. Qed.

Ltac at_nth i := apply (nth_error_In _ i); reflexivity.

Section D.
Variables (malloc : Z -> list Z) (k psi psi' : Z) (T : tables).
Hypothesis HM : forall n, 0 <= n -> zlen (malloc n) = n.
Hypothesis HE : make_tables malloc (2 ^ k) psi = Ok (Written T).
Hypothesis Hk : 1 <= k <= 11.
Hypothesis Hinv : eqQ (psi * psi') 1.

Lemma n_std2rev f w : In (f, w, fun _ : Z => 1, fun _ : Z => 1) [
    (n_ct_std2rev (2 ^ k) T, psi ^ 2, fun _ => 1, fun _ => 1);
    (n_gs_std2rev (2 ^ k) T, psi ^ 2, fun _ => 1, fun _ => 1);
    (n_intt_ct_std2rev (2 ^ k) T, psi' ^ 2, fun _ => 1, fun _ => 1);
    (n_intt_gs_std2rev (2 ^ k) T, psi' ^ 2, fun _ => 1, fun _ => 1);
    (n_mulntt_ct_std2rev (2 ^ k) T, psi ^ 2, fun i => psi ^ i, fun _ => 1);
    (n_inttmul_gs_std2rev (2 ^ k) T, psi' ^ 2, fun _ => 1, fun j => psi' ^ j)] ->
  forall x, zlen x = 2 ^ k -> (forall i, 0 <= i < 2 ^ k -> can (at_ x i)) ->
  exists r, f x = Ok r /\ zlen r = 2 ^ k /\ (forall j, 0 <= j < 2 ^ k ->
    eqQ (at_ r (bitrev k j)) (NTT (2 ^ k) w (at_ x) j) /\ can (at_ r j)).
Proof.
  intros HI x HL Hx. destruct (ntt_header_std2rev_L malloc (2 ^ k) psi T HM HE) as (k' & Hk' & Ek & H).
  apply pow2_inj in Ek; [|lia|lia]. subst k'.
  destruct (H psi' Hinv f w _ _ HI x HL (all_can _ _ HL Hx)) as (r & E & L & A & R).
  exists r. split; [exact E|]. split; [exact L|]. intros j Hj. split; [|exact (can_all _ _ L A j Hj)].
  apply plain_fw. rewrite (R j Hj). rewrite eqQ_modn. reflexivity.
Qed.

Lemma n_rev2std f w : In (f, w, fun _ : Z => 1, fun _ : Z => 1) [
    (n_ct_rev2std (2 ^ k) T, psi ^ 2, fun _ => 1, fun _ => 1);
    (n_gs_rev2std (2 ^ k) T, psi ^ 2, fun _ => 1, fun _ => 1);
    (n_intt_ct_rev2std (2 ^ k) T, psi' ^ 2, fun _ => 1, fun _ => 1);
    (n_intt_gs_rev2std (2 ^ k) T, psi' ^ 2, fun _ => 1, fun _ => 1);
    (n_mulntt_ct_rev2std (2 ^ k) T, psi ^ 2, fun i => psi ^ i, fun _ => 1);
    (n_inttmul_gs_rev2std (2 ^ k) T, psi' ^ 2, fun _ => 1, fun j => psi' ^ j)] ->
  forall x, zlen x = 2 ^ k -> (forall i, 0 <= i < 2 ^ k -> can (at_ x i)) ->
  exists r, f x = Ok r /\ zlen r = 2 ^ k /\ (forall j, 0 <= j < 2 ^ k ->
    eqQ (at_ r j) (NTT (2 ^ k) w (fun i => at_ x (bitrev k i)) j) /\ can (at_ r j)).
Proof.
  intros HI x HL Hx. destruct (ntt_header_rev2std_L malloc (2 ^ k) psi T HM HE) as (k' & Hk' & Ek & H).
  apply pow2_inj in Ek; [|lia|lia]. subst k'.
  destruct (H psi' Hinv f w _ _ HI x HL (all_can _ _ HL Hx)) as (r & E & L & A & R).
  exists r. split; [exact E|]. split; [exact L|]. intros j Hj. split; [|exact (can_all _ _ L A j Hj)].
  apply (plain_fw k w (fun i => at_ x (bitrev k i))). rewrite (R j Hj). rewrite eqQ_modn. reflexivity.
Qed.
End D.

Section V.
Variables (malloc : Z -> list Z) (k psi psi' : Z) (T : tables).
Hypothesis HM : forall n, 0 <= n -> zlen (malloc n) = n.
Hypothesis HE : make_tables malloc (2 ^ k) psi = Ok (Written T).
Hypothesis Hk : 1 <= k <= 11.
Hypothesis Hinv : eqQ (psi * psi') 1.

Lemma v_std2rev f w : In (f, w, fun _ : Z => 1, fun _ : Z => 1) [
    (v_ct_std2rev (2 ^ k) T, psi ^ 2, fun _ => 1, fun _ => 1);
    (v_gs_std2rev (2 ^ k) T, psi ^ 2, fun _ => 1, fun _ => 1);
    (v_intt_ct_std2rev (2 ^ k) T, psi' ^ 2, fun _ => 1, fun _ => 1);
    (v_intt_gs_std2rev (2 ^ k) T, psi' ^ 2, fun _ => 1, fun _ => 1);
    (v_mulntt_ct_std2rev (2 ^ k) T, psi ^ 2, fun i => psi ^ i, fun _ => 1);
    (v_inttmul_gs_std2rev (2 ^ k) T, psi' ^ 2, fun _ => 1, fun j => psi' ^ j)] ->
  forall x, zlen x = 2 ^ k -> (forall i, 0 <= i < 2 ^ k -> can1 (at_ x i)) ->
  exists r, f x = Ok r /\ zlen r = 2 ^ k /\ (forall j, 0 <= j < 2 ^ k ->
    eqQ (at_ r (bitrev k j)) (NTT (2 ^ k) w (at_ x) j) /\ can1 (at_ r j)).
Proof.
  intros HI x HL Hx. destruct (naive_header_std2rev_L malloc (2 ^ k) psi T HM HE) as (k' & Hk' & Ek & H).
  apply pow2_inj in Ek; [|lia|lia]. subst k'.
  destruct (H psi' Hinv f w _ _ HI x HL (proj2 (rng_all _ _ _ rng_can1 _ _ HL) Hx)) as (r & E & L & A & R).
  exists r. split; [exact E|]. split; [exact L|]. intros j Hj. split; [|exact (proj1 (rng_all _ _ _ rng_can1 _ _ L) A j Hj)].
  apply plain_fw. rewrite (R j Hj). reflexivity.
Qed.

Lemma v_rev2std f w : In (f, w, fun _ : Z => 1, fun _ : Z => 1) [
    (v_ct_rev2std (2 ^ k) T, psi ^ 2, fun _ => 1, fun _ => 1);
    (v_gs_rev2std (2 ^ k) T, psi ^ 2, fun _ => 1, fun _ => 1);
    (v_intt_ct_rev2std (2 ^ k) T, psi' ^ 2, fun _ => 1, fun _ => 1);
    (v_intt_gs_rev2std (2 ^ k) T, psi' ^ 2, fun _ => 1, fun _ => 1);
    (v_mulntt_ct_rev2std (2 ^ k) T, psi ^ 2, fun i => psi ^ i, fun _ => 1);
    (v_inttmul_gs_rev2std (2 ^ k) T, psi' ^ 2, fun _ => 1, fun j => psi' ^ j)] ->
  forall x, zlen x = 2 ^ k -> (forall i, 0 <= i < 2 ^ k -> can1 (at_ x i)) ->
  exists r, f x = Ok r /\ zlen r = 2 ^ k /\ (forall j, 0 <= j < 2 ^ k ->
    eqQ (at_ r j) (NTT (2 ^ k) w (fun i => at_ x (bitrev k i)) j) /\ can1 (at_ r j)).
Proof.
  intros HI x HL Hx. destruct (naive_header_rev2std_L malloc (2 ^ k) psi T HM HE) as (k' & Hk' & Ek & H).
  apply pow2_inj in Ek; [|lia|lia]. subst k'.
  destruct (H psi' Hinv f w _ _ HI x HL (proj2 (rng_all _ _ _ rng_can1 _ _ HL) Hx)) as (r & E & L & A & R).
  exists r. split; [exact E|]. split; [exact L|]. intros j Hj. split; [|exact (proj1 (rng_all _ _ _ rng_can1 _ _ L) A j Hj)].
  apply (plain_fw k w (fun i => at_ x (bitrev k i))). rewrite (R j Hj). reflexivity.
Qed.
End V.

Lemma n_pw k : 0 <= k <= 11 -> pw k can (fun h c a b => ModelNtt.mul_array_h h c (2 ^ k) a b).
Proof.
  intros Hk h c a b Lc La Lb HP. assert (0 < 2 ^ k <= 2 ^ 11) by (split; [apply Z.pow_pos_nonneg; lia|apply Z.pow_le_mono_r; lia]).
  destruct (mul_array_h_spec (2 ^ k) h c a b) as (h' & E & L & R & _ & O); try lia; [exact HP|].
  exists h'. split; [exact E|]. split; [lia|]. split; [|exact O]. intros i Hi. rewrite R by exact Hi.
  split; [rewrite eqQ_modn; reflexivity|apply can_mod].
Qed.
Lemma v_pw k : 0 <= k <= 11 -> pw k can1 (fun h c a b => ModelNaive.mul_array_naive_h h c (2 ^ k) a b 12289).
Proof.
  intros Hk h c a b Lc La Lb HP. assert (0 < 2 ^ k <= 2 ^ 11) by (split; [apply Z.pow_pos_nonneg; lia|apply Z.pow_le_mono_r; lia]).
  destruct (mul_array_naive_h_spec (2 ^ k) h c a b) as (h' & E & L & R & _ & O); try lia; [exact HP|].
  exists h'. split; [exact E|]. split; [lia|]. split; [|exact O]. intros i Hi. rewrite R by exact Hi.
  split; [apply eqQ_rem|apply can1_rem].
Qed.
Lemma n_sc k psi T : 0 <= k <= 11 -> tables_ok k psi T -> sc k can (fun x => ModelNtt.scalar_mul_array x (2 ^ k) (t_inv_n T)).
Proof.
  intros Hk HT. assert (0 < 2 ^ k <= 2 ^ 11) by (split; [apply Z.pow_pos_nonneg; lia|apply Z.pow_le_mono_r; lia]).
  destruct (ok_inv_n _ _ _ HT) as [H1 H2]. exists (t_inv_n T). split; [rewrite Z.mul_comm; exact H1|].
  intros x HL Hx. destruct (scalar_mul_array_spec x (2 ^ k) (t_inv_n T)) as (r & E & L & R & _); try lia.
  - intros i Hi. assert (X := mul_can _ _ (Hx i Hi) H2). lia.
  - exists r. split; [exact E|]. split; [lia|]. intros i Hi. rewrite R by exact Hi.
    split; [rewrite eqQ_modn; reflexivity|apply can_mod].
Qed.
Lemma v_sc k psi T : 0 <= k <= 11 -> tables_ok k psi T ->
  sc k can1 (fun x => ModelNaive.scalar_mul_array_naive x (2 ^ k) (t_inv_n T) 12289).
Proof.
  intros Hk HT. assert (0 < 2 ^ k <= 2 ^ 11) by (split; [apply Z.pow_pos_nonneg; lia|apply Z.pow_le_mono_r; lia]).
  destruct (ok_inv_n _ _ _ HT) as [H1 H2]. exists (t_inv_n T). split; [rewrite Z.mul_comm; exact H1|].
  intros x HL Hx. destruct (scalar_mul_array_naive_spec x (2 ^ k) (t_inv_n T)) as (r & E & L & R & _); try lia.
  - intros i Hi. assert (X := mul_can1 _ _ (Hx i Hi) (can_can1 _ H2)). lia.
  - exists r. split; [exact E|]. split; [lia|]. intros i Hi. rewrite R by exact Hi.
    split; [apply eqQ_rem|apply can1_rem].
Qed.

Ltac two H := cbn [In] in H; destruct H as [<-|[<-|[]]].

Lemma ntt_cyclic_correct_L :
  forall malloc size psi T, (forall n, 0 <= n -> zlen (malloc n) = n) ->
  make_tables malloc size psi = Ok (Written T) ->
  forall Fs Gs, In (Fs, Gs)
    [ ([n_ct_std2rev size T; n_gs_std2rev size T],
       [n_intt_ct_rev2std size T; n_intt_gs_rev2std size T]);
      ([n_intt_ct_std2rev size T; n_intt_gs_std2rev size T],
       [n_ct_rev2std size T; n_gs_rev2std size T]) ] ->
  forall f1 f2 g, In f1 Fs -> In f2 Fs -> In g Gs ->
  forall h c a b, a <> b -> zlen (h a) = size -> zlen (h b) = size -> zlen (h c) = size ->
  all_in 0 (Q - 1) (h a) -> all_in 0 (Q - 1) (h b) ->
  exists h', ntt_cyclic size T f1 f2 g h c a b = Ok h' /\ zlen (h' c) = size /\ all_in 0 (Q - 1) (h' c)
    /\ (forall i, 0 <= i < size -> at_ (h' c) i = cyclic size (at_ (h a)) (at_ (h b)) i mod Q)
    /\ (forall p, p <> a -> p <> b -> p <> c -> h' p = h p).
Proof.
  intros malloc size psi T HM E Fs Gs HI f1 f2 g H1 H2 H3 h c a b Hab La Lb Lc Ia Ib.
  destruct (gen_tables _ _ _ _ HM E) as (k & Hk & -> & Hr & HT).
  assert (Hk0 : 0 <= k) by lia. assert (Hk11 : 0 <= k <= 11) by lia.
  assert (Hi := proj1 (ok_inv_psi _ _ _ HT)). assert (Hi' : eqQ (t_inv_psi T * psi) 1) by (rewrite Z.mul_comm; exact Hi).
  assert (Hr' := psi_inv_root k psi (t_inv_psi T) Hk0 Hr Hi).
  assert (Pa := proj1 (rng_all _ _ _ rng_can _ _ La) Ia). assert (Pb := proj1 (rng_all _ _ _ rng_can _ _ Lb) Ib).
  assert (X : exists h', cyclic_product f1 f2 (fun h c a b => ModelNtt.mul_array_h h c (2 ^ k) a b) g
      (fun x => ModelNtt.scalar_mul_array x (2 ^ k) (t_inv_n T)) h c a b = Ok h' /\ zlen (h' c) = 2 ^ k
    /\ (forall i, 0 <= i < 2 ^ k -> eqQ (at_ (h' c) i) (cyclic (2 ^ k) (at_ (h a)) (at_ (h b)) i) /\ can (at_ (h' c) i))
    /\ (forall p, p <> a -> p <> b -> p <> c -> h' p = h p)).
  { cbn [In] in HI. destruct HI as [HI|[HI|[]]]; apply pair_eq in HI as [<- <-].
    - apply (cyclic_ok k psi (t_inv_psi T) Hk0 Hr Hi can); auto; [| |apply n_pw, Hk11| |apply (n_sc k psi T Hk11 HT)].
      + intros x. apply (n_std2rev malloc k psi (t_inv_psi T) T HM E Hk Hi). two H1; [at_nth 0%nat|at_nth 1%nat].
      + intros x. apply (n_std2rev malloc k psi (t_inv_psi T) T HM E Hk Hi). two H2; [at_nth 0%nat|at_nth 1%nat].
      + intros x. apply (n_rev2std malloc k psi (t_inv_psi T) T HM E Hk Hi). two H3; [at_nth 2%nat|at_nth 3%nat].
    - apply (cyclic_ok k (t_inv_psi T) psi Hk0 Hr' Hi' can); auto; [| |apply n_pw, Hk11| |apply (n_sc k psi T Hk11 HT)].
      + intros x. apply (n_std2rev malloc k psi (t_inv_psi T) T HM E Hk Hi). two H1; [at_nth 2%nat|at_nth 3%nat].
      + intros x. apply (n_std2rev malloc k psi (t_inv_psi T) T HM E Hk Hi). two H2; [at_nth 2%nat|at_nth 3%nat].
      + intros x. apply (n_rev2std malloc k psi (t_inv_psi T) T HM E Hk Hi). two H3; [at_nth 0%nat|at_nth 1%nat]. }
  destruct X as (h' & Eh & Lh & Rh & Oh). exists h'. split; [exact Eh|]. split; [exact Lh|].
  split; [apply (proj2 (rng_all _ _ _ rng_can _ _ Lh)); intros i Hx; apply Rh, Hx|].
  split; [|exact Oh]. intros i Hx. destruct (Rh i Hx) as [R1 R2]. exact (can_eq _ _ R2 R1).
Qed.

Lemma naive_cyclic_correct_L :
  forall malloc size psi T, (forall n, 0 <= n -> zlen (malloc n) = n) ->
  make_tables malloc size psi = Ok (Written T) ->
  forall Fs Gs, In (Fs, Gs)
    [ ([v_ct_std2rev size T; v_gs_std2rev size T],
       [v_intt_ct_rev2std size T; v_intt_gs_rev2std size T]);
      ([v_intt_ct_std2rev size T; v_intt_gs_std2rev size T],
       [v_ct_rev2std size T; v_gs_rev2std size T]) ] ->
  forall f1 f2 g, In f1 Fs -> In f2 Fs -> In g Gs ->
  forall h c a b, a <> b -> zlen (h a) = size -> zlen (h b) = size -> zlen (h c) = size ->
  all_in (- Q + 1) (Q - 1) (h a) -> all_in (- Q + 1) (Q - 1) (h b) ->
  exists h', naive_cyclic size T f1 f2 g h c a b = Ok h' /\ zlen (h' c) = size /\ all_in (- Q + 1) (Q - 1) (h' c)
    /\ (forall i, 0 <= i < size -> eqQ (at_ (h' c) i) (cyclic size (at_ (h a)) (at_ (h b)) i))
    /\ (forall p, p <> a -> p <> b -> p <> c -> h' p = h p).
Proof.
  intros malloc size psi T HM E Fs Gs HI f1 f2 g H1 H2 H3 h c a b Hab La Lb Lc Ia Ib.
  destruct (gen_tables _ _ _ _ HM E) as (k & Hk & -> & Hr & HT).
  assert (Hk0 : 0 <= k) by lia. assert (Hk11 : 0 <= k <= 11) by lia.
  assert (Hi := proj1 (ok_inv_psi _ _ _ HT)). assert (Hi' : eqQ (t_inv_psi T * psi) 1) by (rewrite Z.mul_comm; exact Hi).
  assert (Hr' := psi_inv_root k psi (t_inv_psi T) Hk0 Hr Hi).
  assert (Pa := proj1 (rng_all _ _ _ rng_can1 _ _ La) Ia). assert (Pb := proj1 (rng_all _ _ _ rng_can1 _ _ Lb) Ib).
  assert (X : exists h', cyclic_product f1 f2 (fun h c a b => ModelNaive.mul_array_naive_h h c (2 ^ k) a b 12289) g
      (fun x => ModelNaive.scalar_mul_array_naive x (2 ^ k) (t_inv_n T) 12289) h c a b = Ok h' /\ zlen (h' c) = 2 ^ k
    /\ (forall i, 0 <= i < 2 ^ k -> eqQ (at_ (h' c) i) (cyclic (2 ^ k) (at_ (h a)) (at_ (h b)) i) /\ can1 (at_ (h' c) i))
    /\ (forall p, p <> a -> p <> b -> p <> c -> h' p = h p)).
  { cbn [In] in HI. destruct HI as [HI|[HI|[]]]; apply pair_eq in HI as [<- <-].
    - apply (cyclic_ok k psi (t_inv_psi T) Hk0 Hr Hi can1); auto; [| |apply v_pw, Hk11| |apply (v_sc k psi T Hk11 HT)].
      + intros x. apply (v_std2rev malloc k psi (t_inv_psi T) T HM E Hk Hi). two H1; [at_nth 0%nat|at_nth 1%nat].
      + intros x. apply (v_std2rev malloc k psi (t_inv_psi T) T HM E Hk Hi). two H2; [at_nth 0%nat|at_nth 1%nat].
      + intros x. apply (v_rev2std malloc k psi (t_inv_psi T) T HM E Hk Hi). two H3; [at_nth 2%nat|at_nth 3%nat].
    - apply (cyclic_ok k (t_inv_psi T) psi Hk0 Hr' Hi' can1); auto; [| |apply v_pw, Hk11| |apply (v_sc k psi T Hk11 HT)].
      + intros x. apply (v_std2rev malloc k psi (t_inv_psi T) T HM E Hk Hi). two H1; [at_nth 2%nat|at_nth 3%nat].
      + intros x. apply (v_std2rev malloc k psi (t_inv_psi T) T HM E Hk Hi). two H2; [at_nth 2%nat|at_nth 3%nat].
      + intros x. apply (v_rev2std malloc k psi (t_inv_psi T) T HM E Hk Hi). two H3; [at_nth 0%nat|at_nth 1%nat]. }
  destruct X as (h' & Eh & Lh & Rh & Oh). exists h'. split; [exact Eh|]. split; [exact Lh|].
  split; [apply (proj2 (rng_all _ _ _ rng_can1 _ _ Lh)); intros i Hx; apply Rh, Hx|].
  split; [|exact Oh]. intros i Hx. destruct (Rh i Hx) as [R1 R2]. exact R1.
Qed.

(** For the examples. *)
Definition exCyc : list Z := [12282; 5; 0; 12288; 0; 0; 0; 0; 12284; 0; 1; 0; 0; 0; 35; 0].
