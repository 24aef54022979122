(** Lemmas behind [PropCyclicRed]. *)

From Coq Require Import ZArith List Bool Lia.
From Verif Require Import CSem Spec Loops ModQ Exlib TableSpec ModelGen ModelProducts ModelAvxProd ModelCyclic ModelCyclicRed
  ExTables NttElem GenFinal ProdFinal Conv ProdRed AvxProd Cyclic CyclicFinal CyclicRed AccumFinal RedTransforms RedRange ProdGen.
Import ListNotations.
Open Scope Z_scope.

Lemma exp_le k m : 0 <= k -> 0 <= m -> 2 ^ k <= 2 ^ m -> k <= m.
Proof. intros H1 H2 H. apply (Z.pow_le_mono_r_iff 2); lia. Qed.

Ltac pick H := cbn [In] in H; repeat (destruct H as [<-|H]); try destruct H.

(** The tables of a generated file with the root whose powers they hold *)
Section T.
Variables (k psi : Z) (T : red_tables).
Hypothesis Hk : 1 <= k <= 10.
Hypothesis Hr : eqQ (psi ^ (2 ^ k)) (-1).
Hypothesis HT : red_tables_ok k psi T.
Let psii := r_inv_psi T.
Let Hinv : eqQ (psi * psii) 1.
Proof. apply HT. Qed.
Let iroot : eqQ (psii ^ (2 ^ k)) (-1).
Proof. eapply psi_inv_root; eauto; lia. Qed.
Let Hw : eqQ (r_omega T) (psi ^ 2).
Proof. apply HT. Qed.
Let Hwi : eqQ (r_inv_omega T) (psii ^ 2).
Proof. eapply inv_sq; [exact Hw|exact Hinv|apply HT]. Qed.
Let t1 : omega_table k (psi ^ 2) 8193 (red_omega_powers T).
Proof. apply (omega_table_root _ _ _ _ _ Hw), (rok_omega_powers _ _ _ HT). Qed.
Let t2 : omega_table_rev k (psi ^ 2) 8193 (red_omega_powers_rev T).
Proof. apply (omega_table_rev_root _ _ _ _ _ Hw), (rok_omega_powers_rev _ _ _ HT). Qed.
Let t3 : omega_table k (psii ^ 2) 8193 (red_inv_omega_powers T).
Proof. apply (omega_table_root _ _ _ _ _ Hwi), (rok_inv_omega_powers _ _ _ HT). Qed.
Let t4 : omega_table_rev k (psii ^ 2) 8193 (red_inv_omega_powers_rev T).
Proof. apply (omega_table_rev_root _ _ _ _ _ Hwi), (rok_inv_omega_powers_rev _ _ _ HT). Qed.
Let r1 := proj2 (rok_omega_powers _ _ _ HT).
Let r2 := proj2 (rok_omega_powers_rev _ _ _ HT).
Let r3 := proj2 (rok_inv_omega_powers _ _ _ HT).
Let r4 := proj2 (rok_inv_omega_powers_rev _ _ _ HT).

Lemma red_transforms Fs Gs : In (Fs, Gs)
    [ ([r_ct_std2rev (2 ^ k) T; r_gs_std2rev (2 ^ k) T],
       [r_intt_ct_rev2std (2 ^ k) T; r_intt_gs_rev2std (2 ^ k) T]);
      ([r_intt_ct_std2rev (2 ^ k) T; r_intt_gs_std2rev (2 ^ k) T],
       [r_ct_rev2std (2 ^ k) T; r_gs_rev2std (2 ^ k) T]) ] ->
  exists q q', eqQ (q ^ (2 ^ k)) (-1) /\ eqQ (q * q') 1
    /\ (forall f, In f Fs -> std2rev_ok k q f) /\ (forall g, In g Gs -> back_ok k q' g).
Proof.
  intros HI. cbn [In] in HI. destruct HI as [HI|[HI|[]]]; apply pair_eq in HI as [<- <-].
  - exists psi, psii. split; [exact Hr|]. split; [exact Hinv|]. split; intros f Hf; pick Hf.
    + exact (fw_ct k psi _ Hk Hr r2 t2).
    + exact (fw_gs k psi _ Hk Hr r1 t1).
    + exact (bk_ct k psii _ Hk iroot r3 t3).
    + exact (bk_gs k psii _ Hk iroot r4 t4).
  - exists psii, psi. split; [exact iroot|]. split; [rewrite Z.mul_comm; exact Hinv|]. split; intros f Hf; pick Hf.
    + exact (fw_ct k psii _ Hk iroot r4 t4).
    + exact (fw_gs k psii _ Hk iroot r3 t3).
    + exact (bk_ct k psi _ Hk Hr r1 t1).
    + exact (bk_gs k psi _ Hk Hr r2 t2).
Qed.

Lemma asm_transforms Fs Gs : 4 <= k -> In (Fs, Gs)
    [ ([x_ct_std2rev (2 ^ k) T; x_gs_std2rev (2 ^ k) T; r_ct_std2rev (2 ^ k) T; r_gs_std2rev (2 ^ k) T],
       [x_intt_ct_rev2std (2 ^ k) T; x_intt_gs_rev2std (2 ^ k) T; r_intt_ct_rev2std (2 ^ k) T; r_intt_gs_rev2std (2 ^ k) T]);
      ([x_intt_ct_std2rev (2 ^ k) T; x_intt_gs_std2rev (2 ^ k) T; r_intt_ct_std2rev (2 ^ k) T; r_intt_gs_std2rev (2 ^ k) T],
       [x_ct_rev2std (2 ^ k) T; x_gs_rev2std (2 ^ k) T; r_ct_rev2std (2 ^ k) T; r_gs_rev2std (2 ^ k) T]) ] ->
  exists q q', eqQ (q ^ (2 ^ k)) (-1) /\ eqQ (q * q') 1
    /\ (forall f, In f Fs -> std2rev_ok k q f) /\ (forall g, In g Gs -> back_ok k q' g).
Proof.
  intros H4 HI. cbn [In] in HI. destruct HI as [HI|[HI|[]]]; apply pair_eq in HI as [<- <-].
  - exists psi, psii. split; [exact Hr|]. split; [exact Hinv|]. split; intros f Hf; pick Hf.
    + exact (fx_ct k psi _ Hk Hr r2 H4 t2).
    + exact (fx_gs k psi _ Hk Hr r1 H4 t1).
    + exact (fw_ct k psi _ Hk Hr r2 t2).
    + exact (fw_gs k psi _ Hk Hr r1 t1).
    + exact (bx_ct k psii _ Hk iroot r3 H4 t3).
    + exact (bx_gs k psii _ Hk iroot r4 H4 t4).
    + exact (bk_ct k psii _ Hk iroot r3 t3).
    + exact (bk_gs k psii _ Hk iroot r4 t4).
  - exists psii, psi. split; [exact iroot|]. split; [rewrite Z.mul_comm; exact Hinv|]. split; intros f Hf; pick Hf.
    + exact (fx_ct k psii _ Hk iroot r4 H4 t4).
    + exact (fx_gs k psii _ Hk iroot r3 H4 t3).
    + exact (fw_ct k psii _ Hk iroot r4 t4).
    + exact (fw_gs k psii _ Hk iroot r3 t3).
    + exact (bx_ct k psi _ Hk Hr r1 H4 t1).
    + exact (bx_gs k psi _ Hk Hr r2 H4 t2).
    + exact (bk_ct k psi _ Hk Hr r1 t1).
    + exact (bk_gs k psi _ Hk Hr r2 t2).
Qed.
End T.

Lemma red_cyclic_correct_L :
  forall malloc size psi T sh, (forall n, 0 <= n -> zlen (malloc n) = n) ->
  make_red_tables malloc size psi = Ok (Written T) -> size <= 1024 ->
  forall Fs Gs, In (Fs, Gs)
    [ ([r_ct_std2rev size T; r_gs_std2rev size T],
       [r_intt_ct_rev2std size T; r_intt_gs_rev2std size T]);
      ([r_intt_ct_std2rev size T; r_intt_gs_std2rev size T],
       [r_ct_rev2std size T; r_gs_rev2std size T]) ] ->
  forall f1 f2 g, In f1 Fs -> In f2 Fs -> In g Gs ->
  forall h c a b, a <> b -> zlen (h a) = size -> zlen (h b) = size -> zlen (h c) = size ->
  all_in (-6144) (Q - 1) (h a) -> all_in (-6144) (Q - 1) (h b) ->
  exists h', red_cyclic sh size T f1 f2 g h c a b = Ok h' /\ zlen (h' c) = size /\ all_in 0 (Q - 1) (h' c)
    /\ (forall i, 0 <= i < size -> at_ (h' c) i = cyclic size (at_ (h a)) (at_ (h b)) i mod Q)
    /\ (forall p, p <> a -> p <> b -> p <> c -> h' p = h p).
Proof.
  intros malloc size psi T sh HM E Hs Fs Gs HI f1 f2 g H1 H2 H3 h c a b Hab La Lb Lc Ia Ib.
  destruct (gen_red_tables _ _ _ _ HM E) as (k & Hk' & -> & Hr & HT).
  assert (Hk : 1 <= k <= 10) by (split; [lia|]; apply exp_le; [lia|lia|exact Hs]). clear Hk' Hs.
  assert (Pa := proj1 (rng_all _ _ _ rng_inp _ _ La) Ia). assert (Pb := proj1 (rng_all _ _ _ rng_inp _ _ Lb) Ib).
  destruct (red_transforms k psi T Hk Hr HT Fs Gs HI) as (q & q' & Hq & Hi & FW & BW).
  destruct (red_cyclic_gen k q q' (rescale8 T) Hk Hq Hi (proj1 (rok_rescale8 _ _ _ HT)) (maybe_shift sh (2 ^ k)) f1 f2 _ _ _ g _ _
    (st_shift sh k psi T Hk) (FW f1 H1) (FW f2 H2) (st_reduce k psi T Hk) (r_pointwise k psi T Hk) (st_reduce2 k psi T Hk)
    (BW g H3) (st_scalar k psi T Hk HT) (st_correct k psi T Hk) h c a b Hab La Lb Lc Pa Pb)
    as (h' & Eh & Lh & Rh & Oh).
  exists h'. split; [exact Eh|]. split; [exact Lh|].
  split; [apply (proj2 (rng_all _ _ _ rng_can _ _ Lh)); intros i Hx; apply Rh, Hx|].
  split; [|exact Oh]. intros i Hx. destruct (Rh i Hx) as [R1 R2]. exact (can_eq _ _ R2 R1).
Qed.

Lemma red_asm_cyclic_correct_L :
  forall malloc size psi T sh, (forall n, 0 <= n -> zlen (malloc n) = n) ->
  make_red_tables malloc size psi = Ok (Written T) -> 16 <= size <= 1024 ->
  forall Fs Gs, In (Fs, Gs)
    [ ([x_ct_std2rev size T; x_gs_std2rev size T; r_ct_std2rev size T; r_gs_std2rev size T],
       [x_intt_ct_rev2std size T; x_intt_gs_rev2std size T; r_intt_ct_rev2std size T; r_intt_gs_rev2std size T]);
      ([x_intt_ct_std2rev size T; x_intt_gs_std2rev size T; r_intt_ct_std2rev size T; r_intt_gs_std2rev size T],
       [x_ct_rev2std size T; x_gs_rev2std size T; r_ct_rev2std size T; r_gs_rev2std size T]) ] ->
  forall f1 f2 g, In f1 Fs -> In f2 Fs -> In g Gs ->
  forall h c a b, a <> b -> zlen (h a) = size -> zlen (h b) = size -> zlen (h c) = size ->
  all_in (-6144) (Q - 1) (h a) -> all_in (-6144) (Q - 1) (h b) ->
  exists h', red_asm_cyclic sh size T f1 f2 g h c a b = Ok h' /\ zlen (h' c) = size /\ all_in 0 (Q - 1) (h' c)
    /\ (forall i, 0 <= i < size -> at_ (h' c) i = cyclic size (at_ (h a)) (at_ (h b)) i mod Q)
    /\ (forall p, p <> a -> p <> b -> p <> c -> h' p = h p).
Proof.
  intros malloc size psi T sh HM E Hs Fs Gs HI f1 f2 g H1 H2 H3 h c a b Hab La Lb Lc Ia Ib.
  destruct (gen_red_tables _ _ _ _ HM E) as (k & Hk' & -> & Hr & HT).
  assert (Hx : 4 <= k <= 10) by (split; (apply exp_le; [lia|lia|apply Hs])).
  assert (Hk : 1 <= k <= 10) by lia. clear Hk' Hs.
  assert (Pa := proj1 (rng_all _ _ _ rng_inp _ _ La) Ia). assert (Pb := proj1 (rng_all _ _ _ rng_inp _ _ Lb) Ib).
  destruct (asm_transforms k psi T Hk Hr HT Fs Gs (proj1 Hx) HI) as (q & q' & Hq & Hi & FW & BW).
  destruct (red_cyclic_gen k q q' (rescale8 T) Hk Hq Hi (proj1 (rok_rescale8 _ _ _ HT)) (maybe_shift_asm sh (2 ^ k)) f1 f2 _ _ _ g _ _
    (sx_shift sh k psi T Hx) (FW f1 H1) (FW f2 H2) (sx_reduce k psi T Hx) (x_pointwise k psi T Hx) (sx_reduce2 k psi T Hx)
    (BW g H3) (sx_scalar k psi T Hx HT) (sx_correct k psi T Hx) h c a b Hab La Lb Lc Pa Pb)
    as (h' & Eh & Lh & Rh & Oh).
  exists h'. split; [exact Eh|]. split; [exact Lh|].
  split; [apply (proj2 (rng_all _ _ _ rng_can _ _ Lh)); intros i Hi'; apply Rh, Hi'|].
  split; [|exact Oh]. intros i Hi'. destruct (Rh i Hi') as [R1 R2]. exact (can_eq _ _ R2 R1).
Qed.
