(** Lemmas behind [PropAccum]. *)

From Coq Require Import ZArith List Bool Lia Setoid Morphisms.
From Verif Require Import CSem Spec Loops ModQ Exlib TableSpec ModelGen ModelProducts ModelAvxProd ModelHalves
  ExTables ProdGen NttElem NaiveElem ProdFinal Accum.
From Verif Require ProdNtt ProdNaive ProdRed AvxProd.
Import ListNotations.
Open Scope Z_scope.

(** All the functions in [Fs] transform, up to the factor [e]. *)
Definition fwds (k psi e : Z) (pin pout : Z -> Prop) (Fs : list (list Z -> res (list Z))) : Prop :=
  forall F, In F Fs -> forall x, zlen x = 2 ^ k -> (forall i, 0 <= i < 2 ^ k -> pin (at_ x i)) ->
  exists r, F x = Ok r /\ zlen r = 2 ^ k /\ (forall i, 0 <= i < 2 ^ k -> pout (at_ r i)) /\ tr k psi e x r.

Definition bwds (k psi w e : Z) (pin pout : Z -> Prop) (Gs : list (list Z -> res (list Z))) : Prop :=
  forall G, In G Gs -> forall x A B, zlen x = 2 ^ k -> (forall i, 0 <= i < 2 ^ k -> pin (at_ x i)) ->
    (forall j, 0 <= j < 2 ^ k -> eqQ (at_ x (bitrev k j)) (w * e * e *
       (NTT (2 ^ k) (psi ^ 2) (fun i => A i * psi ^ i) j * NTT (2 ^ k) (psi ^ 2) (fun i => B i * psi ^ i) j))) ->
    exists r, G x = Ok r /\ zlen r = 2 ^ k /\ (forall m, 0 <= m < 2 ^ k ->
       eqQ (at_ r m) (negacyclic (2 ^ k) A B m) /\ pout (at_ r m)).

Lemma fwds_one k psi e (pin pout : Z -> Prop) F :
  (forall x, zlen x = 2 ^ k -> (forall i, 0 <= i < 2 ^ k -> pin (at_ x i)) ->
    exists r, F x = Ok r /\ zlen r = 2 ^ k /\ (forall j, 0 <= j < 2 ^ k ->
     eqQ (at_ r (bitrev k j)) (e * NTT (2 ^ k) (psi ^ 2) (fun i => at_ x i * psi ^ i) j) /\ pout (at_ r j))) ->
  forall Fs, fwds k psi e pin pout Fs -> fwds k psi e pin pout (F :: Fs).
Proof.
  intros H Fs HF F' [<-|HI] x HL Hx; [|exact (HF F' HI x HL Hx)].
  destruct (H x HL Hx) as (r & E & L & R). exists r. split; [exact E|]. split; [exact L|].
  split; [intros i Hi; apply R, Hi|intros j Hj; apply R, Hj].
Qed.
Lemma fwds_nil k psi e pin pout : fwds k psi e pin pout [].
Proof. intros F []. Qed.
Lemma bwds_one k psi w e (pin pout : Z -> Prop) G :
  (forall x A B, zlen x = 2 ^ k -> (forall i, 0 <= i < 2 ^ k -> pin (at_ x i)) ->
    (forall j, 0 <= j < 2 ^ k -> eqQ (at_ x (bitrev k j)) (w * e * e *
       (NTT (2 ^ k) (psi ^ 2) (fun i => A i * psi ^ i) j * NTT (2 ^ k) (psi ^ 2) (fun i => B i * psi ^ i) j))) ->
    exists r, G x = Ok r /\ zlen r = 2 ^ k /\ (forall m, 0 <= m < 2 ^ k ->
       eqQ (at_ r m) (negacyclic (2 ^ k) A B m) /\ pout (at_ r m))) ->
  forall Gs, bwds k psi w e pin pout Gs -> bwds k psi w e pin pout (G :: Gs).
Proof. intros H Gs HG G' [<-|HI]; [exact H|exact (HG G' HI)]. Qed.
Lemma bwds_nil k psi w e pin pout : bwds k psi w e pin pout [].
Proof. intros G []. Qed.
Lemma fwds_app k psi e pin pout Fs Fs' : fwds k psi e pin pout Fs -> fwds k psi e pin pout Fs' ->
  fwds k psi e pin pout (Fs ++ Fs').
Proof. intros H H' F HI. apply in_app_or in HI as [HI|HI]; [exact (H F HI)|exact (H' F HI)]. Qed.
Lemma bwds_app k psi w e pin pout Gs Gs' : bwds k psi w e pin pout Gs -> bwds k psi w e pin pout Gs' ->
  bwds k psi w e pin pout (Gs ++ Gs').
Proof. intros H H' G HI. apply in_app_or in HI as [HI|HI]; [exact (H G HI)|exact (H' G HI)]. Qed.

(** ** The halves *)
Lemma n_fwds k psi T : 0 <= k <= 31 -> eqQ (psi ^ (2 ^ k)) (-1) -> tables_ok k psi T ->
  fwds k psi 1 can can (ntt_forwards (2 ^ k) T).
Proof.
  intros Hk Hr HT. unfold ntt_forwards.
  apply fwds_one; [exact (ProdNtt.n_fwd_ct k psi T Hk Hr HT)|].
  apply fwds_one; [exact (ProdNtt.n_fwd_gs k psi T Hk Hr HT)|].
  apply fwds_one; [exact (ProdNtt.n_fwd_mul k psi T Hk Hr HT)|]. apply fwds_nil.
Qed.
Lemma n_bwds k psi T : 0 <= k <= 31 -> eqQ (psi ^ (2 ^ k)) (-1) -> tables_ok k psi T ->
  bwds k psi 1 1 can can (ntt_inverses (2 ^ k) T).
Proof.
  intros Hk Hr HT. unfold ntt_inverses.
  apply bwds_one; [exact (ProdNtt.n_bwd_ct k psi T Hk Hr HT)|].
  apply bwds_one; [exact (ProdNtt.n_bwd_gs k psi T Hk Hr HT)|].
  apply bwds_one; [exact (ProdNtt.n_bwd_mul k psi T Hk Hr HT)|]. apply bwds_nil.
Qed.
Lemma v_fwds k psi T : 0 <= k <= 31 -> eqQ (psi ^ (2 ^ k)) (-1) -> tables_ok k psi T ->
  fwds k psi 1 can1 can1 (naive_forwards (2 ^ k) T).
Proof.
  intros Hk Hr HT. unfold naive_forwards.
  apply fwds_one; [exact (ProdNaive.v_fwd_ct k psi T Hk Hr HT)|].
  apply fwds_one; [exact (ProdNaive.v_fwd_gs k psi T Hk Hr HT)|].
  apply fwds_one; [exact (ProdNaive.v_fwd_mul k psi T Hk Hr HT)|]. apply fwds_nil.
Qed.
Lemma v_bwds k psi T : 0 <= k <= 31 -> eqQ (psi ^ (2 ^ k)) (-1) -> tables_ok k psi T ->
  bwds k psi 1 1 can1 can1 (naive_inverses (2 ^ k) T).
Proof.
  intros Hk Hr HT. unfold naive_inverses.
  apply bwds_one; [exact (ProdNaive.v_bwd_ct k psi T Hk Hr HT)|].
  apply bwds_one; [exact (ProdNaive.v_bwd_gs k psi T Hk Hr HT)|].
  apply bwds_one; [exact (ProdNaive.v_bwd_mul k psi T Hk Hr HT)|]. apply bwds_nil.
Qed.
Lemma r_fwds sh k psi T : 1 <= k <= 10 -> eqQ (psi ^ (2 ^ k)) (-1) -> red_tables_ok k psi T ->
  fwds k psi 3 ProdRed.inp ProdRed.once (red_forwards sh (2 ^ k) T).
Proof.
  intros Hk Hr HT. unfold red_forwards.
  apply fwds_one; [exact (ProdRed.r_fwd_ct sh k psi T Hk Hr HT)|].
  apply fwds_one; [exact (ProdRed.r_fwd_gs sh k psi T Hk Hr HT)|].
  apply fwds_one; [exact (ProdRed.r_fwd_mul sh k psi T Hk Hr HT)|]. apply fwds_nil.
Qed.
Lemma r_bwds k psi T : 1 <= k <= 10 -> eqQ (psi ^ (2 ^ k)) (-1) -> red_tables_ok k psi T ->
  bwds k psi 3 3 ProdRed.w32 can (red_inverses (2 ^ k) T).
Proof.
  intros Hk Hr HT. unfold red_inverses.
  apply bwds_one; [exact (ProdRed.r_bwd_ct k psi T Hk Hr HT)|].
  apply bwds_one; [exact (ProdRed.r_bwd_gs k psi T Hk Hr HT)|].
  apply bwds_one; [exact (ProdRed.r_bwd_mul k psi T Hk Hr HT)|]. apply bwds_nil.
Qed.
Lemma x_fwds sh k psi T : 4 <= k <= 10 -> eqQ (psi ^ (2 ^ k)) (-1) -> red_tables_ok k psi T ->
  fwds k psi 3 ProdRed.inp ProdRed.once (asm_forwards sh (2 ^ k) T).
Proof.
  intros Hk Hr HT. unfold asm_forwards.
  apply fwds_one; [exact (AvxProd.x_fwd sh k psi T Hk HT _ (AvxProd.x_ct_std2rev_ok k psi T Hk Hr HT))|].
  apply fwds_one; [exact (AvxProd.x_fwd sh k psi T Hk HT _ (AvxProd.x_gs_std2rev_ok k psi T Hk Hr HT))|].
  apply fwds_one; [exact (AvxProd.x_fwd_mul sh k psi T Hk Hr HT)|]. apply fwds_nil.
Qed.
Lemma x_bwds k psi T : 4 <= k <= 10 -> eqQ (psi ^ (2 ^ k)) (-1) -> red_tables_ok k psi T ->
  bwds k psi 3 3 ProdRed.w32 can (asm_inverses (2 ^ k) T).
Proof.
  intros Hk Hr HT. unfold asm_inverses.
  apply bwds_one; [exact (AvxProd.x_bwd k psi T Hk Hr HT _ (AvxProd.x_intt_ct_ok k psi T Hk Hr HT))|].
  apply bwds_one; [exact (AvxProd.x_bwd k psi T Hk Hr HT _ (AvxProd.x_intt_gs_ok k psi T Hk Hr HT))|].
  apply bwds_one; [exact (AvxProd.x_bwd_mul k psi T Hk Hr HT)|]. apply bwds_nil.
Qed.

(** ** From the halves to the statements *)
Definition rng_is (lo hi : Z) (P : Z -> Prop) : Prop := forall v, P v <-> lo <= v <= hi.
Lemma rng_all lo hi P (H : rng_is lo hi P) l n : zlen l = n ->
  (all_in lo hi l <-> (forall i, 0 <= i < n -> P (at_ l i))).
Proof.
  intros HL. split.
  - intros HA i Hi. apply H. apply all_in_at; [exact HA|lia].
  - intros HA. apply all_in_of. intros i Hi. apply H, HA. lia.
Qed.

Lemma agree_gen k psi e pin pout Fs lo hi rlo rhi : 0 <= k -> rng_is lo hi pin -> rng_is rlo rhi pout ->
  fwds k psi e pin pout Fs ->
  (forall F, In F Fs -> forall a, zlen a = 2 ^ k -> all_in lo hi a ->
     exists A, F a = Ok A /\ zlen A = 2 ^ k /\ all_in rlo rhi A)
  /\ (forall F F' a A A', In F Fs -> In F' Fs -> zlen a = 2 ^ k -> all_in lo hi a -> F a = Ok A -> F' a = Ok A' ->
     forall i, 0 <= i < 2 ^ k -> eqQ (at_ A i) (at_ A' i)).
Proof.
  intros Hk Hi Ho H. split.
  - intros F HF a HL HA. destruct (H F HF a HL (proj1 (rng_all _ _ _ Hi _ _ HL) HA)) as (r & E & L & R & _).
    exists r. split; [exact E|]. split; [exact L|]. exact (proj2 (rng_all _ _ _ Ho _ _ L) R).
  - intros F F' a A A' HF HF' HL HA E E'. assert (HI := proj1 (rng_all _ _ _ Hi _ _ HL) HA).
    destruct (H F HF a HL HI) as (r & Er & _ & _ & Tr). destruct (H F' HF' a HL HI) as (r' & Er' & _ & _ & Tr').
    rewrite Er in E. injection E as <-. rewrite Er' in E'. injection E' as <-.
    exact (tr_agree k psi e Hk a r r' Tr Tr').
Qed.

Lemma acc_gen k psi w e pin pout Fs dr cr Gs lo hi dlo dhi rlo rhi :
  0 <= k -> eqQ (psi ^ (2 ^ k)) (-1) -> rng_is lo hi pin -> rng_is dlo dhi dr -> rng_is rlo rhi cr ->
  fwds k psi e pin pout Fs -> bwds k psi w e dr cr Gs ->
  forall ab AB, Forall2 (fun p q => transform_by Fs (2 ^ k) lo hi (fst p) (fst q)
                                 /\ transform_by Fs (2 ^ k) lo hi (snd p) (snd q)) ab AB ->
  forall d, zlen d = 2 ^ k -> all_in dlo dhi d ->
  (forall i, 0 <= i < 2 ^ k -> eqQ (at_ d i) (w * dot AB i)) ->
  forall G, In G Gs ->
  exists c, G d = Ok c /\ zlen c = 2 ^ k /\ all_in rlo rhi c
    /\ (forall i, 0 <= i < 2 ^ k -> eqQ (at_ c i) (negacyclics (2 ^ k) ab i)).
Proof.
  intros Hk Hr Hi Hd Hc HF HB ab AB F2 d HL HD HX G HG.
  assert (F2' : Forall2 (fun p q => tr k psi e (fst p) (fst q) /\ tr k psi e (snd p) (snd q)) ab AB).
  { assert (one : forall x y, transform_by Fs (2 ^ k) lo hi x y -> tr k psi e x y).
    { intros x y (L & A & F & IF & E). destruct (HF F IF x L (proj1 (rng_all _ _ _ Hi _ _ L) A)) as (r & Er & _ & _ & X).
      rewrite Er in E. injection E as <-. exact X. }
    clear - F2 one. induction F2 as [|p q ab AB [H1 H2] F2 IH]; constructor; [|exact IH].
    split; apply one; assumption. }
  destruct (accum_back k psi e w Hk Hr dr G cr (HB G HG) ab AB F2' d HL (proj1 (rng_all _ _ _ Hd _ _ HL) HD) HX)
    as (c & E & L & R).
  exists c. split; [exact E|]. split; [exact L|]. split.
  - apply (proj2 (rng_all _ _ _ Hc _ _ L)). intros i H. apply R, H.
  - intros i H. apply R, H.
Qed.

Lemma rng_can : rng_is 0 (Q - 1) can.
Proof. intros v. unfold can, Q. lia. Qed.
Lemma rng_can1 : rng_is (- Q + 1) (Q - 1) can1.
Proof. intros v. unfold can1, Q. lia. Qed.
Lemma rng_inp : rng_is (-6144) (Q - 1) ProdRed.inp.
Proof. intros v. unfold ProdRed.inp, Q. lia. Qed.
Lemma rng_once : rng_is (-524287) 536573 ProdRed.once.
Proof. intros v. unfold ProdRed.once. lia. Qed.
Lemma rng_w32 : rng_is (- 2 ^ 31) (2 ^ 31 - 1) ProdRed.w32.
Proof. intros v. unfold ProdRed.w32. lia. Qed.

Lemma k_of size k m : 0 <= k -> size = 2 ^ k -> size <= 2 ^ m -> k <= m.
Proof.
  intros Hk -> H. destruct (Z.leb_spec k m); [lia|].
  destruct (Z.ltb_spec m 0); [rewrite (Z.pow_neg_r 2 m) in H by lia; assert (0 < 2 ^ k) by (apply Z.pow_pos_nonneg; lia); lia|].
  assert (2 ^ m < 2 ^ k) by (apply Z.pow_lt_mono_r; lia). lia.
Qed.
Lemma k_from size k m : 0 <= m -> size = 2 ^ k -> 2 ^ m <= size -> m <= k.
Proof.
  intros Hm -> H. destruct (Z.leb_spec m k); [lia|].
  destruct (Z.ltb_spec k 0); [rewrite (Z.pow_neg_r 2 k) in H by lia; assert (0 < 2 ^ m) by (apply Z.pow_pos_nonneg; lia); lia|].
  assert (2 ^ k < 2 ^ m) by (apply Z.pow_lt_mono_r; lia). lia.
Qed.

Lemma canon c n ab : zlen c = n -> all_in 0 (Q - 1) c ->
  (forall i, 0 <= i < n -> eqQ (at_ c i) (negacyclics n ab i)) ->
  forall i, 0 <= i < n -> at_ c i = negacyclics n ab i mod Q.
Proof. intros L A H i Hi. apply can_eq; [exact (can_all _ _ L A i Hi)|apply H, Hi]. Qed.

Lemma ntt_forwards_agree_L :
  forall malloc size psi T, (forall n, 0 <= n -> zlen (malloc n) = n) ->
  make_tables malloc size psi = Ok (Written T) ->
  (forall F, In F (ntt_forwards size T) -> forall a, zlen a = size -> all_in 0 (Q - 1) a ->
     exists A, F a = Ok A /\ zlen A = size /\ all_in 0 (Q - 1) A)
  /\ (forall F F' a A A', In F (ntt_forwards size T) -> In F' (ntt_forwards size T) ->
     zlen a = size -> all_in 0 (Q - 1) a -> F a = Ok A -> F' a = Ok A' ->
     A = A').
Proof.
  intros malloc size psi T HM E. destruct (gen_tables _ _ _ _ HM E) as (k & Hk & -> & Hr & HT). assert (Hk31 : 0 <= k <= 31) by lia. assert (Hk0 : 0 <= k) by lia.
  destruct (agree_gen k psi _ _ _ _ _ _ _ _ Hk0 rng_can rng_can (n_fwds k psi T Hk31 Hr HT)) as [H1 H2]. split; [exact H1|].
  intros F F' a A A' HF HF' L I EA EA'.
  destruct (H1 F HF a L I) as (r & Er & Lr & Ir). rewrite Er in EA. injection EA as <-.
  destruct (H1 F' HF' a L I) as (r' & Er' & Lr' & Ir'). rewrite Er' in EA'. injection EA' as <-.
  apply (list_ext r r' _ Lr Lr'). intros i Hi.
  rewrite (can_eq _ _ (can_all _ _ Lr Ir i Hi) (H2 F F' a r r' HF HF' L I Er Er' i Hi)).
  symmetry. apply can_eq; [exact (can_all _ _ Lr' Ir' i Hi)|reflexivity].
Qed.

Lemma ntt_accumulate_L :
  forall malloc size psi T, (forall n, 0 <= n -> zlen (malloc n) = n) ->
  make_tables malloc size psi = Ok (Written T) ->
  forall ab AB, Forall2 (fun p q => transform_by (ntt_forwards size T) size 0 (Q - 1) (fst p) (fst q)
                                 /\ transform_by (ntt_forwards size T) size 0 (Q - 1) (snd p) (snd q)) ab AB ->
  forall d, zlen d = size -> all_in 0 (Q - 1) d ->
  (forall i, 0 <= i < size -> eqQ (at_ d i) (dot AB i)) ->
  forall G, In G (ntt_inverses size T) ->
  exists c, G d = Ok c /\ zlen c = size /\ all_in 0 (Q - 1) c
    /\ (forall i, 0 <= i < size -> at_ c i = negacyclics size ab i mod Q).
Proof.
  intros malloc size psi T HM E. destruct (gen_tables _ _ _ _ HM E) as (k & Hk & -> & Hr & HT). assert (Hk31 : 0 <= k <= 31) by lia. assert (Hk0 : 0 <= k) by lia.
  intros ab AB F2 d L I HX G HG.
  destruct (acc_gen k psi _ _ _ _ _ _ _ _ _ _ _ _ _ _ Hk0 Hr rng_can rng_can rng_can (n_fwds k psi T Hk31 Hr HT) (n_bwds k psi T Hk31 Hr HT) ab AB F2 d L I (fun i Hi => eq_trans (HX i Hi) (f_equal (fun v => v mod Q) (eq_sym (Z.mul_1_l (dot AB i))))) G HG)
    as (c & Ec & Lc & Ic & Hc).
  exists c. split; [exact Ec|]. split; [exact Lc|]. split; [exact Ic|]. exact (canon _ _ _ Lc Ic Hc).
Qed.

Lemma naive_forwards_agree_L :
  forall malloc size psi T, (forall n, 0 <= n -> zlen (malloc n) = n) ->
  make_tables malloc size psi = Ok (Written T) ->
  (forall F, In F (naive_forwards size T) -> forall a, zlen a = size -> all_in (- Q + 1) (Q - 1) a ->
     exists A, F a = Ok A /\ zlen A = size /\ all_in (- Q + 1) (Q - 1) A)
  /\ (forall F F' a A A', In F (naive_forwards size T) -> In F' (naive_forwards size T) ->
     zlen a = size -> all_in (- Q + 1) (Q - 1) a -> F a = Ok A -> F' a = Ok A' ->
     forall i, 0 <= i < size -> eqQ (at_ A i) (at_ A' i)).
Proof.
  intros malloc size psi T HM E. destruct (gen_tables _ _ _ _ HM E) as (k & Hk & -> & Hr & HT). assert (Hk31 : 0 <= k <= 31) by lia. assert (Hk0 : 0 <= k) by lia.
  exact (agree_gen k psi _ _ _ _ _ _ _ _ Hk0 rng_can1 rng_can1 (v_fwds k psi T Hk31 Hr HT)).
Qed.

Lemma naive_accumulate_L :
  forall malloc size psi T, (forall n, 0 <= n -> zlen (malloc n) = n) ->
  make_tables malloc size psi = Ok (Written T) ->
  forall ab AB, Forall2 (fun p q => transform_by (naive_forwards size T) size (- Q + 1) (Q - 1) (fst p) (fst q)
                                 /\ transform_by (naive_forwards size T) size (- Q + 1) (Q - 1) (snd p) (snd q)) ab AB ->
  forall d, zlen d = size -> all_in (- Q + 1) (Q - 1) d ->
  (forall i, 0 <= i < size -> eqQ (at_ d i) (dot AB i)) ->
  forall G, In G (naive_inverses size T) ->
  exists c, G d = Ok c /\ zlen c = size /\ all_in (- Q + 1) (Q - 1) c
    /\ (forall i, 0 <= i < size -> eqQ (at_ c i) (negacyclics size ab i)).
Proof.
  intros malloc size psi T HM E. destruct (gen_tables _ _ _ _ HM E) as (k & Hk & -> & Hr & HT). assert (Hk31 : 0 <= k <= 31) by lia. assert (Hk0 : 0 <= k) by lia.
  intros ab AB F2 d L I HX G HG.
  exact (acc_gen k psi _ _ _ _ _ _ _ _ _ _ _ _ _ _ Hk0 Hr rng_can1 rng_can1 rng_can1 (v_fwds k psi T Hk31 Hr HT) (v_bwds k psi T Hk31 Hr HT) ab AB F2 d L I (fun i Hi => eq_trans (HX i Hi) (f_equal (fun v => v mod Q) (eq_sym (Z.mul_1_l (dot AB i))))) G HG).
Qed.

Lemma red_forwards_agree_L :
  forall malloc size psi T sh, (forall n, 0 <= n -> zlen (malloc n) = n) ->
  make_red_tables malloc size psi = Ok (Written T) -> size <= 1024 ->
  (forall F, In F (red_forwards sh size T) -> forall a, zlen a = size -> all_in (-6144) (Q - 1) a ->
     exists A, F a = Ok A /\ zlen A = size /\ all_in (-524287) 536573 A)
  /\ (forall F F' a A A', In F (red_forwards sh size T) -> In F' (red_forwards sh size T) ->
     zlen a = size -> all_in (-6144) (Q - 1) a -> F a = Ok A -> F' a = Ok A' ->
     forall i, 0 <= i < size -> eqQ (at_ A i) (at_ A' i)).
Proof.
  intros malloc size psi T sh HM E Hs. destruct (gen_red_tables _ _ _ _ HM E) as (k & Hk & Es & Hr & HT).
  assert (Hk10 : 1 <= k <= 10) by (assert (X := k_of size k 10 ltac:(lia) Es ltac:(lia)); lia).
  assert (Hk0 : 0 <= k) by lia. subst size.
  exact (agree_gen k psi _ _ _ _ _ _ _ _ Hk0 rng_inp rng_once (r_fwds sh k psi T Hk10 Hr HT)).
Qed.

Lemma red_accumulate_L :
  forall malloc size psi T sh, (forall n, 0 <= n -> zlen (malloc n) = n) ->
  make_red_tables malloc size psi = Ok (Written T) -> size <= 1024 ->
  forall ab AB, Forall2 (fun p q => transform_by (red_forwards sh size T) size (-6144) (Q - 1) (fst p) (fst q)
                                 /\ transform_by (red_forwards sh size T) size (-6144) (Q - 1) (snd p) (snd q)) ab AB ->
  forall d, zlen d = size -> all_in (- 2 ^ 31) (2 ^ 31 - 1) d ->
  (forall i, 0 <= i < size -> eqQ (at_ d i) (3 * dot AB i)) ->
  forall G, In G (red_inverses size T) ->
  exists c, G d = Ok c /\ zlen c = size /\ all_in 0 (Q - 1) c
    /\ (forall i, 0 <= i < size -> at_ c i = negacyclics size ab i mod Q).
Proof.
  intros malloc size psi T sh HM E Hs. destruct (gen_red_tables _ _ _ _ HM E) as (k & Hk & Es & Hr & HT).
  assert (Hk10 : 1 <= k <= 10) by (assert (X := k_of size k 10 ltac:(lia) Es ltac:(lia)); lia).
  assert (Hk0 : 0 <= k) by lia. subst size.
  intros ab AB F2 d L I HX G HG.
  destruct (acc_gen k psi _ _ _ _ _ _ _ _ _ _ _ _ _ _ Hk0 Hr rng_inp rng_w32 rng_can (r_fwds sh k psi T Hk10 Hr HT) (r_bwds k psi T Hk10 Hr HT) ab AB F2 d L I HX G HG)
    as (c & Ec & Lc & Ic & Hc).
  exists c. split; [exact Ec|]. split; [exact Lc|]. split; [exact Ic|]. exact (canon _ _ _ Lc Ic Hc).
Qed.

Lemma red_asm_forwards_agree_L :
  forall malloc size psi T sh, (forall n, 0 <= n -> zlen (malloc n) = n) ->
  make_red_tables malloc size psi = Ok (Written T) -> 16 <= size <= 1024 ->
  (forall F, In F (red_forwards sh size T ++ asm_forwards sh size T) -> forall a, zlen a = size -> all_in (-6144) (Q - 1) a ->
     exists A, F a = Ok A /\ zlen A = size /\ all_in (-524287) 536573 A)
  /\ (forall F F' a A A', In F (red_forwards sh size T ++ asm_forwards sh size T) -> In F' (red_forwards sh size T ++ asm_forwards sh size T) ->
     zlen a = size -> all_in (-6144) (Q - 1) a -> F a = Ok A -> F' a = Ok A' ->
     forall i, 0 <= i < size -> eqQ (at_ A i) (at_ A' i)).
Proof.
  intros malloc size psi T sh HM E Hs. destruct (gen_red_tables _ _ _ _ HM E) as (k & Hk & Es & Hr & HT).
  assert (Hk10 : 1 <= k <= 10) by (assert (X := k_of size k 10 ltac:(lia) Es ltac:(lia)); lia).
  assert (Hk0 : 0 <= k) by lia.
  assert (Hk4 : 4 <= k <= 10) by (assert (X := k_from size k 4 ltac:(lia) Es ltac:(lia)); lia). subst size.
  exact (agree_gen k psi _ _ _ _ _ _ _ _ Hk0 rng_inp rng_once (fwds_app _ _ _ _ _ _ _ (r_fwds sh k psi T Hk10 Hr HT) (x_fwds sh k psi T Hk4 Hr HT))).
Qed.

Lemma red_asm_accumulate_L :
  forall malloc size psi T sh, (forall n, 0 <= n -> zlen (malloc n) = n) ->
  make_red_tables malloc size psi = Ok (Written T) -> 16 <= size <= 1024 ->
  forall ab AB, Forall2 (fun p q => transform_by (red_forwards sh size T ++ asm_forwards sh size T) size (-6144) (Q - 1) (fst p) (fst q)
                                 /\ transform_by (red_forwards sh size T ++ asm_forwards sh size T) size (-6144) (Q - 1) (snd p) (snd q)) ab AB ->
  forall d, zlen d = size -> all_in (- 2 ^ 31) (2 ^ 31 - 1) d ->
  (forall i, 0 <= i < size -> eqQ (at_ d i) (3 * dot AB i)) ->
  forall G, In G (red_inverses size T ++ asm_inverses size T) ->
  exists c, G d = Ok c /\ zlen c = size /\ all_in 0 (Q - 1) c
    /\ (forall i, 0 <= i < size -> at_ c i = negacyclics size ab i mod Q).
Proof.
  intros malloc size psi T sh HM E Hs. destruct (gen_red_tables _ _ _ _ HM E) as (k & Hk & Es & Hr & HT).
  assert (Hk10 : 1 <= k <= 10) by (assert (X := k_of size k 10 ltac:(lia) Es ltac:(lia)); lia).
  assert (Hk0 : 0 <= k) by lia.
  assert (Hk4 : 4 <= k <= 10) by (assert (X := k_from size k 4 ltac:(lia) Es ltac:(lia)); lia). subst size.
  intros ab AB F2 d L I HX G HG.
  destruct (acc_gen k psi _ _ _ _ _ _ _ _ _ _ _ _ _ _ Hk0 Hr rng_inp rng_w32 rng_can (fwds_app _ _ _ _ _ _ _ (r_fwds sh k psi T Hk10 Hr HT) (x_fwds sh k psi T Hk4 Hr HT)) (bwds_app _ _ _ _ _ _ _ _ (r_bwds k psi T Hk10 Hr HT) (x_bwds k psi T Hk4 Hr HT)) ab AB F2 d L I HX G HG)
    as (c & Ec & Lc & Ic & Hc).
  exists c. split; [exact Ec|]. split; [exact Lc|]. split; [exact Ic|]. exact (canon _ _ _ Lc Ic Hc).
Qed.

(** ** For the examples *)
Definition exSum : list Z := [17; 12284; 1; 12288; 0; 0; 0; 0; 5; 0; 1; 0; 0; 0; 12229; 0].
Definition half (l : list (list Z -> res (list Z))) (m : nat) : list Z -> res (list Z) := nth m l (fun _ => Err OutOfBounds).
(** The sum of products of two pairs, reduced modulo Q *)
Definition exD (w : Z) (l : list (list Z * list Z)) : list Z :=
  map (fun i => (w * dot l (Z.of_nat i)) mod Q) (seq 0 16).
(** ... and moved near the ends of the range of [int32_t] *)
Definition exD32 (w : Z) (l : list (list Z * list Z)) : list Z :=
  map (fun i => (w * dot l (Z.of_nat i)) mod Q + (if Nat.even i then 1 else -1) * (Q * 174747)) (seq 0 16).
