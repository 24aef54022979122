(** Lemmas behind [PropDivide]. *)

From Coq Require Import ZArith List Bool Lia Setoid Morphisms.
From Verif Require Import CSem Spec Loops ModQ Exlib TableSpec ModelGen ModelProducts ModelAvxProd ModelHalves
  ExTables ProdGen NttElem NaiveElem ProdFinal Accum AccumFinal Divide.
From Verif Require ProdNtt ProdNaive ProdRed AvxProd.
Import ListNotations.
Open Scope Z_scope.

Lemma once_w32 v : ProdRed.once v -> ProdRed.w32 v.
Proof. unfold ProdRed.once, ProdRed.w32. lia. Qed.
Lemma can_inp v : can v -> ProdRed.inp v.
Proof. unfold can, ProdRed.inp. lia. Qed.
Lemma can_list a b n : zlen a = n -> zlen b = n -> all_in 0 (Q - 1) a -> all_in 0 (Q - 1) b ->
  (forall i, 0 <= i < n -> eqQ (at_ a i) (at_ b i)) -> a = b.
Proof.
  intros La Lb Ia Ib H. apply (list_ext a b _ La Lb). intros i Hi.
  rewrite (can_eq _ _ (can_all _ _ La Ia i Hi) (H i Hi)).
  symmetry. apply can_eq; [exact (can_all _ _ Lb Ib i Hi)|reflexivity].
Qed.

Section G.
Variables (k psi : Z).
Hypothesis Hk : 0 <= k.
Hypothesis Hr : eqQ (psi ^ (2 ^ k)) (-1).
Variables (e u w v : Z).
Hypothesis Hu : eqQ (u * e) 1.
Hypothesis Hv : eqQ (v * (w * e * e)) 1.
Variables (pin pout dr cr : Z -> Prop) (Fs Gs : list (list Z -> res (list Z))) (lo hi plo phi dlo dhi rlo rhi : Z).
Hypothesis Hpin : rng_is lo hi pin.
Hypothesis Hpout : rng_is plo phi pout.
Hypothesis Hdr : rng_is dlo dhi dr.
Hypothesis Hcr : rng_is rlo rhi cr.
Hypothesis HF : fwds k psi e pin pout Fs.
Hypothesis HB : bwds k psi w e dr cr Gs.

Lemma tr_of x y : transform_by Fs (2 ^ k) lo hi x y -> tr k psi e x y.
Proof.
  intros (L & A & F & IF & E). destruct (HF F IF x L (proj1 (rng_all _ _ _ Hpin _ _ L) A)) as (r & Er & _ & _ & X).
  rewrite Er in E. injection E as <-. exact X.
Qed.

Lemma back_of G d : In G Gs -> zlen d = 2 ^ k -> (forall i, 0 <= i < 2 ^ k -> dr (at_ d i)) ->
  exists r, G d = Ok r /\ zlen r = 2 ^ k /\ (forall m, 0 <= m < 2 ^ k -> cr (at_ r m))
    /\ (forall j, 0 <= j < 2 ^ k -> eqQ (at_ d (bitrev k j)) (w * e * e * hat k psi (at_ r) j)).
Proof.
  destruct (psii_ex k psi Hk Hr) as (p & Hp). destruct (ninv_ex k Hk) as (m & Hm).
  intros HG. exact (back_any k psi Hk Hr p m Hp Hm e w v Hv dr G cr (HB G HG) d).
Qed.

Lemma units_gen a A : transform_by Fs (2 ^ k) lo hi a A ->
  ((exists b, forall i, 0 <= i < 2 ^ k -> eqQ (negacyclic (2 ^ k) (at_ a) b i) (if i =? 0 then 1 else 0))
    <-> (forall i, 0 <= i < 2 ^ k -> ~ eqQ (at_ A i) 0))
  /\ ((forall i, 0 <= i < 2 ^ k -> ~ eqQ (at_ A i) 0) -> forall b c,
       (forall i, 0 <= i < 2 ^ k -> eqQ (negacyclic (2 ^ k) (at_ a) b i) (negacyclic (2 ^ k) (at_ a) c i)) ->
       forall i, 0 <= i < 2 ^ k -> eqQ (b i) (c i))
  /\ (forall j, 0 <= j < 2 ^ k -> eqQ (at_ A j) 0 ->
       exists b, (forall i, 0 <= i < 2 ^ k -> eqQ (negacyclic (2 ^ k) (at_ a) b i) 0)
         /\ exists i, 0 <= i < 2 ^ k /\ ~ eqQ (b i) 0).
Proof.
  destruct (psii_ex k psi Hk Hr) as (p & Hp). destruct (ninv_ex k Hk) as (m & Hm).
  intros T. apply tr_of in T. split; [|split].
  - exact (unit_iff k psi Hk Hr p m Hp Hm e u Hu a A T).
  - exact (unit_cancel k psi Hk Hr p m Hp Hm e u Hu a A T).
  - intros j Hj Z0. exact (zero_divisor k psi Hk Hr p m Hp Hm e u Hu a A j T Hj Z0).
Qed.

Lemma div_gen a A c C : transform_by Fs (2 ^ k) lo hi a A -> transform_by Fs (2 ^ k) lo hi c C ->
  forall d, zlen d = 2 ^ k -> all_in dlo dhi d ->
  (forall i, 0 <= i < 2 ^ k -> eqQ (at_ A i * at_ d i) (w * e * e * at_ C i)) ->
  forall G, In G Gs ->
  exists q, G d = Ok q /\ zlen q = 2 ^ k /\ all_in rlo rhi q
    /\ forall i, 0 <= i < 2 ^ k -> eqQ (negacyclic (2 ^ k) (at_ a) (at_ q) i) (at_ c i).
Proof.
  destruct (psii_ex k psi Hk Hr) as (p & Hp). destruct (ninv_ex k Hk) as (m & Hm).
  intros TA TC d L I HD G HG. apply tr_of in TA. apply tr_of in TC.
  destruct (back_of G d HG L (proj1 (rng_all _ _ _ Hdr _ _ L) I)) as (q & E & Lq & Rq & X).
  exists q. split; [exact E|]. split; [exact Lq|]. split; [exact (proj2 (rng_all _ _ _ Hcr _ _ Lq) Rq)|].
  exact (divide k psi Hk Hr p m Hp Hm e u Hu w v Hv a A c C d q TA TC HD X).
Qed.

Hypothesis Hod : forall x, pout x -> dr x.
Hypothesis Hci : forall x, cr x -> pin x.

Lemma halves_gen F G : In F Fs -> In G Gs ->
  (forall a, zlen a = 2 ^ k -> all_in lo hi a ->
     exists A b, F a = Ok A /\ G A = Ok b /\ zlen b = 2 ^ k /\ all_in rlo rhi b
       /\ forall i, 0 <= i < 2 ^ k -> eqQ (w * e * at_ b i) (at_ a i))
  /\ (forall d, zlen d = 2 ^ k -> all_in dlo dhi d ->
     exists c D, G d = Ok c /\ F c = Ok D /\ zlen D = 2 ^ k /\ all_in plo phi D
       /\ forall i, 0 <= i < 2 ^ k -> eqQ (w * e * at_ D i) (at_ d i)).
Proof.
  destruct (psii_ex k psi Hk Hr) as (p & Hp). destruct (ninv_ex k Hk) as (m & Hm).
  intros IF IG. split.
  - intros a L I. destruct (HF F IF a L (proj1 (rng_all _ _ _ Hpin _ _ L) I)) as (A & EF & LA & RA & TA).
    destruct (back_of G A IG LA (fun i Hi => Hod _ (RA i Hi))) as (b & EG & Lb & Rb & X).
    exists A, b. split; [exact EF|]. split; [exact EG|]. split; [exact Lb|].
    split; [exact (proj2 (rng_all _ _ _ Hcr _ _ Lb) Rb)|].
    exact (there_and_back k psi Hk Hr p m Hp Hm e u Hu w a A b TA X).
  - intros d L I. destruct (back_of G d IG L (proj1 (rng_all _ _ _ Hdr _ _ L) I)) as (c & EG & Lc & Rc & X).
    destruct (HF F IF c Lc (fun i Hi => Hci _ (Rc i Hi))) as (D & EF & LD & RD & TD).
    exists c, D. split; [exact EG|]. split; [exact EF|]. split; [exact LD|].
    split; [exact (proj2 (rng_all _ _ _ Hpout _ _ LD) RD)|].
    exact (back_and_there k psi Hk e w d c D TD X).
Qed.
End G.

Lemma ntt_halves_inverse_L :
  forall malloc size psi T, (forall n, 0 <= n -> zlen (malloc n) = n) ->
  make_tables malloc size psi = Ok (Written T) ->
  forall F G, In F (ntt_forwards size T) -> In G (ntt_inverses size T) ->
  (forall a, zlen a = size -> all_in 0 (Q - 1) a ->
     exists A, F a = Ok A /\ G A = Ok a)
  /\ (forall d, zlen d = size -> all_in 0 (Q - 1) d ->
     exists c, G d = Ok c /\ F c = Ok d).
Proof.
  intros malloc size psi T HM E. destruct (gen_tables _ _ _ _ HM E) as (k & Hk & -> & Hr & HT). assert (Hk31 : 0 <= k <= 31) by lia. assert (Hk0 : 0 <= k) by lia.
  intros F G HF HG. destruct (halves_gen k psi Hk0 Hr 1 1 1 1 eq_refl eq_refl _ _ _ _ _ _ _ _ _ _ _ _ _ _ rng_can rng_can rng_can rng_can (n_fwds k psi T Hk31 Hr HT) (n_bwds k psi T Hk31 Hr HT) (fun v H => H) (fun v H => H) F G HF HG) as [H1 H2]. split.
  - intros a L I. destruct (H1 a L I) as (A & b & EF & EG & Lb & Ib & Hb). exists A. split; [exact EF|].
    rewrite EG. f_equal. exact (can_list b a _ Lb L Ib I (fun i Hi => eq_trans (f_equal (fun v => v mod Q) (eq_sym (Z.mul_1_l _))) (Hb i Hi))).
  - intros d L I. destruct (H2 d L I) as (c & D & EG & EF & LD & ID & HD). exists c. split; [exact EG|].
    rewrite EF. f_equal. exact (can_list D d _ LD L ID I (fun i Hi => eq_trans (f_equal (fun v => v mod Q) (eq_sym (Z.mul_1_l _))) (HD i Hi))).
Qed.

Lemma naive_halves_inverse_L :
  forall malloc size psi T, (forall n, 0 <= n -> zlen (malloc n) = n) ->
  make_tables malloc size psi = Ok (Written T) ->
  forall F G, In F (naive_forwards size T) -> In G (naive_inverses size T) ->
  (forall a, zlen a = size -> all_in (- Q + 1) (Q - 1) a ->
     exists A b, F a = Ok A /\ G A = Ok b /\ zlen b = size /\ all_in (- Q + 1) (Q - 1) b /\ forall i, 0 <= i < size -> eqQ (at_ b i) (at_ a i))
  /\ (forall d, zlen d = size -> all_in (- Q + 1) (Q - 1) d ->
     exists c D, G d = Ok c /\ F c = Ok D /\ zlen D = size /\ forall i, 0 <= i < size -> eqQ (at_ D i) (at_ d i)).
Proof.
  intros malloc size psi T HM E. destruct (gen_tables _ _ _ _ HM E) as (k & Hk & -> & Hr & HT). assert (Hk31 : 0 <= k <= 31) by lia. assert (Hk0 : 0 <= k) by lia.
  intros F G HF HG. destruct (halves_gen k psi Hk0 Hr 1 1 1 1 eq_refl eq_refl _ _ _ _ _ _ _ _ _ _ _ _ _ _ rng_can1 rng_can1 rng_can1 rng_can1 (v_fwds k psi T Hk31 Hr HT) (v_bwds k psi T Hk31 Hr HT) (fun v H => H) (fun v H => H) F G HF HG) as [H1 H2]. split.
  - intros a L I. destruct (H1 a L I) as (A & b & EF & EG & Lb & Ib & Hb). exists A, b. split; [exact EF|]. split; [exact EG|]. split; [exact Lb|]. split; [exact Ib|].
    exact (fun i Hi => eq_trans (f_equal (fun v => v mod Q) (eq_sym (Z.mul_1_l _))) (Hb i Hi)).
  - intros d L I. destruct (H2 d L I) as (c & D & EG & EF & LD & _ & HD). exists c, D. split; [exact EG|]. split; [exact EF|]. split; [exact LD|].
    exact (fun i Hi => eq_trans (f_equal (fun v => v mod Q) (eq_sym (Z.mul_1_l _))) (HD i Hi)).
Qed.

Lemma red_halves_inverse_L :
  forall malloc size psi T sh, (forall n, 0 <= n -> zlen (malloc n) = n) ->
  make_red_tables malloc size psi = Ok (Written T) -> size <= 1024 ->
  forall F G, In F (red_forwards sh size T) -> In G (red_inverses size T) ->
  (forall a, zlen a = size -> all_in (-6144) (Q - 1) a ->
     exists A b, F a = Ok A /\ G A = Ok b /\ zlen b = size /\ all_in 0 (Q - 1) b /\ forall i, 0 <= i < size -> eqQ (9 * at_ b i) (at_ a i))
  /\ (forall d, zlen d = size -> all_in (- 2 ^ 31) (2 ^ 31 - 1) d ->
     exists c D, G d = Ok c /\ F c = Ok D /\ zlen D = size /\ forall i, 0 <= i < size -> eqQ (9 * at_ D i) (at_ d i)).
Proof.
  intros malloc size psi T sh HM E Hs. destruct (gen_red_tables _ _ _ _ HM E) as (k & Hk & Es & Hr & HT).
  assert (Hk10 : 1 <= k <= 10) by (assert (X := k_of size k 10 ltac:(lia) Es ltac:(lia)); lia).
  assert (Hk0 : 0 <= k) by lia. subst size.
  intros F G HF HG. destruct (halves_gen k psi Hk0 Hr 3 8193 3 9103 eq_refl eq_refl _ _ _ _ _ _ _ _ _ _ _ _ _ _ rng_inp rng_once rng_w32 rng_can (r_fwds sh k psi T Hk10 Hr HT) (r_bwds k psi T Hk10 Hr HT) once_w32 can_inp F G HF HG) as [H1 H2]. split.
  - intros a L I. destruct (H1 a L I) as (A & b & EF & EG & Lb & Ib & Hb). exists A, b. split; [exact EF|]. split; [exact EG|]. split; [exact Lb|]. split; [exact Ib|].
    exact (fun i Hi => Hb i Hi).
  - intros d L I. destruct (H2 d L I) as (c & D & EG & EF & LD & _ & HD). exists c, D. split; [exact EG|]. split; [exact EF|]. split; [exact LD|].
    exact (fun i Hi => HD i Hi).
Qed.

Lemma red_asm_halves_inverse_L :
  forall malloc size psi T sh, (forall n, 0 <= n -> zlen (malloc n) = n) ->
  make_red_tables malloc size psi = Ok (Written T) -> 16 <= size <= 1024 ->
  forall F G, In F (red_forwards sh size T ++ asm_forwards sh size T) -> In G (red_inverses size T ++ asm_inverses size T) ->
  (forall a, zlen a = size -> all_in (-6144) (Q - 1) a ->
     exists A b, F a = Ok A /\ G A = Ok b /\ zlen b = size /\ all_in 0 (Q - 1) b /\ forall i, 0 <= i < size -> eqQ (9 * at_ b i) (at_ a i))
  /\ (forall d, zlen d = size -> all_in (- 2 ^ 31) (2 ^ 31 - 1) d ->
     exists c D, G d = Ok c /\ F c = Ok D /\ zlen D = size /\ forall i, 0 <= i < size -> eqQ (9 * at_ D i) (at_ d i)).
Proof.
  intros malloc size psi T sh HM E Hs. destruct (gen_red_tables _ _ _ _ HM E) as (k & Hk & Es & Hr & HT).
  assert (Hk10 : 1 <= k <= 10) by (assert (X := k_of size k 10 ltac:(lia) Es ltac:(lia)); lia).
  assert (Hk0 : 0 <= k) by lia.
  assert (Hk4 : 4 <= k <= 10) by (assert (X := k_from size k 4 ltac:(lia) Es ltac:(lia)); lia). subst size.
  intros F G HF HG. destruct (halves_gen k psi Hk0 Hr 3 8193 3 9103 eq_refl eq_refl _ _ _ _ _ _ _ _ _ _ _ _ _ _ rng_inp rng_once rng_w32 rng_can (fwds_app _ _ _ _ _ _ _ (r_fwds sh k psi T Hk10 Hr HT) (x_fwds sh k psi T Hk4 Hr HT)) (bwds_app _ _ _ _ _ _ _ _ (r_bwds k psi T Hk10 Hr HT) (x_bwds k psi T Hk4 Hr HT)) once_w32 can_inp F G HF HG) as [H1 H2]. split.
  - intros a L I. destruct (H1 a L I) as (A & b & EF & EG & Lb & Ib & Hb). exists A, b. split; [exact EF|]. split; [exact EG|]. split; [exact Lb|]. split; [exact Ib|].
    exact (fun i Hi => Hb i Hi).
  - intros d L I. destruct (H2 d L I) as (c & D & EG & EF & LD & _ & HD). exists c, D. split; [exact EG|]. split; [exact EF|]. split; [exact LD|].
    exact (fun i Hi => HD i Hi).
Qed.

Lemma ntt_units_L :
  forall malloc size psi T, (forall n, 0 <= n -> zlen (malloc n) = n) ->
  make_tables malloc size psi = Ok (Written T) ->
  forall a A, transform_by (ntt_forwards size T) size 0 (Q - 1) a A ->
  ((exists b, forall i, 0 <= i < size -> eqQ (negacyclic size (at_ a) b i) (if i =? 0 then 1 else 0))
    <-> (forall i, 0 <= i < size -> ~ eqQ (at_ A i) 0))
  /\ ((forall i, 0 <= i < size -> ~ eqQ (at_ A i) 0) -> forall b c,
       (forall i, 0 <= i < size -> eqQ (negacyclic size (at_ a) b i) (negacyclic size (at_ a) c i)) ->
       forall i, 0 <= i < size -> eqQ (b i) (c i))
  /\ (forall j, 0 <= j < size -> eqQ (at_ A j) 0 ->
       exists b, (forall i, 0 <= i < size -> eqQ (negacyclic size (at_ a) b i) 0)
         /\ exists i, 0 <= i < size /\ ~ eqQ (b i) 0).
Proof.
  intros malloc size psi T HM E. destruct (gen_tables _ _ _ _ HM E) as (k & Hk & -> & Hr & HT). assert (Hk31 : 0 <= k <= 31) by lia. assert (Hk0 : 0 <= k) by lia.
  exact (units_gen k psi Hk0 Hr 1 1 eq_refl _ _ _ _ _ rng_can (n_fwds k psi T Hk31 Hr HT)).
Qed.

Lemma naive_units_L :
  forall malloc size psi T, (forall n, 0 <= n -> zlen (malloc n) = n) ->
  make_tables malloc size psi = Ok (Written T) ->
  forall a A, transform_by (naive_forwards size T) size (- Q + 1) (Q - 1) a A ->
  ((exists b, forall i, 0 <= i < size -> eqQ (negacyclic size (at_ a) b i) (if i =? 0 then 1 else 0))
    <-> (forall i, 0 <= i < size -> ~ eqQ (at_ A i) 0))
  /\ ((forall i, 0 <= i < size -> ~ eqQ (at_ A i) 0) -> forall b c,
       (forall i, 0 <= i < size -> eqQ (negacyclic size (at_ a) b i) (negacyclic size (at_ a) c i)) ->
       forall i, 0 <= i < size -> eqQ (b i) (c i))
  /\ (forall j, 0 <= j < size -> eqQ (at_ A j) 0 ->
       exists b, (forall i, 0 <= i < size -> eqQ (negacyclic size (at_ a) b i) 0)
         /\ exists i, 0 <= i < size /\ ~ eqQ (b i) 0).
Proof.
  intros malloc size psi T HM E. destruct (gen_tables _ _ _ _ HM E) as (k & Hk & -> & Hr & HT). assert (Hk31 : 0 <= k <= 31) by lia. assert (Hk0 : 0 <= k) by lia.
  exact (units_gen k psi Hk0 Hr 1 1 eq_refl _ _ _ _ _ rng_can1 (v_fwds k psi T Hk31 Hr HT)).
Qed.

Lemma red_units_L :
  forall malloc size psi T sh, (forall n, 0 <= n -> zlen (malloc n) = n) ->
  make_red_tables malloc size psi = Ok (Written T) -> size <= 1024 ->
  forall a A, transform_by (red_forwards sh size T) size (-6144) (Q - 1) a A ->
  ((exists b, forall i, 0 <= i < size -> eqQ (negacyclic size (at_ a) b i) (if i =? 0 then 1 else 0))
    <-> (forall i, 0 <= i < size -> ~ eqQ (at_ A i) 0))
  /\ ((forall i, 0 <= i < size -> ~ eqQ (at_ A i) 0) -> forall b c,
       (forall i, 0 <= i < size -> eqQ (negacyclic size (at_ a) b i) (negacyclic size (at_ a) c i)) ->
       forall i, 0 <= i < size -> eqQ (b i) (c i))
  /\ (forall j, 0 <= j < size -> eqQ (at_ A j) 0 ->
       exists b, (forall i, 0 <= i < size -> eqQ (negacyclic size (at_ a) b i) 0)
         /\ exists i, 0 <= i < size /\ ~ eqQ (b i) 0).
Proof.
  intros malloc size psi T sh HM E Hs. destruct (gen_red_tables _ _ _ _ HM E) as (k & Hk & Es & Hr & HT).
  assert (Hk10 : 1 <= k <= 10) by (assert (X := k_of size k 10 ltac:(lia) Es ltac:(lia)); lia).
  assert (Hk0 : 0 <= k) by lia. subst size.
  exact (units_gen k psi Hk0 Hr 3 8193 eq_refl _ _ _ _ _ rng_inp (r_fwds sh k psi T Hk10 Hr HT)).
Qed.

Lemma red_asm_units_L :
  forall malloc size psi T sh, (forall n, 0 <= n -> zlen (malloc n) = n) ->
  make_red_tables malloc size psi = Ok (Written T) -> 16 <= size <= 1024 ->
  forall a A, transform_by (red_forwards sh size T ++ asm_forwards sh size T) size (-6144) (Q - 1) a A ->
  ((exists b, forall i, 0 <= i < size -> eqQ (negacyclic size (at_ a) b i) (if i =? 0 then 1 else 0))
    <-> (forall i, 0 <= i < size -> ~ eqQ (at_ A i) 0))
  /\ ((forall i, 0 <= i < size -> ~ eqQ (at_ A i) 0) -> forall b c,
       (forall i, 0 <= i < size -> eqQ (negacyclic size (at_ a) b i) (negacyclic size (at_ a) c i)) ->
       forall i, 0 <= i < size -> eqQ (b i) (c i))
  /\ (forall j, 0 <= j < size -> eqQ (at_ A j) 0 ->
       exists b, (forall i, 0 <= i < size -> eqQ (negacyclic size (at_ a) b i) 0)
         /\ exists i, 0 <= i < size /\ ~ eqQ (b i) 0).
Proof.
  intros malloc size psi T sh HM E Hs. destruct (gen_red_tables _ _ _ _ HM E) as (k & Hk & Es & Hr & HT).
  assert (Hk10 : 1 <= k <= 10) by (assert (X := k_of size k 10 ltac:(lia) Es ltac:(lia)); lia).
  assert (Hk0 : 0 <= k) by lia.
  assert (Hk4 : 4 <= k <= 10) by (assert (X := k_from size k 4 ltac:(lia) Es ltac:(lia)); lia). subst size.
  exact (units_gen k psi Hk0 Hr 3 8193 eq_refl _ _ _ _ _ rng_inp (fwds_app _ _ _ _ _ _ _ (r_fwds sh k psi T Hk10 Hr HT) (x_fwds sh k psi T Hk4 Hr HT))).
Qed.

Lemma ntt_divides_L :
  forall malloc size psi T, (forall n, 0 <= n -> zlen (malloc n) = n) ->
  make_tables malloc size psi = Ok (Written T) ->
  forall a A c C, transform_by (ntt_forwards size T) size 0 (Q - 1) a A ->
  transform_by (ntt_forwards size T) size 0 (Q - 1) c C ->
  forall d, zlen d = size -> all_in 0 (Q - 1) d ->
  (forall i, 0 <= i < size -> eqQ (at_ A i * at_ d i) (at_ C i)) ->
  forall G, In G (ntt_inverses size T) ->
  exists q, G d = Ok q /\ zlen q = size /\ all_in 0 (Q - 1) q
    /\ forall i, 0 <= i < size -> eqQ (negacyclic size (at_ a) (at_ q) i) (at_ c i).
Proof.
  intros malloc size psi T HM E. destruct (gen_tables _ _ _ _ HM E) as (k & Hk & -> & Hr & HT). assert (Hk31 : 0 <= k <= 31) by lia. assert (Hk0 : 0 <= k) by lia.
  intros a A c C TA TC d L I HD.
  exact (div_gen k psi Hk0 Hr 1 1 1 1 eq_refl eq_refl _ _ _ _ _ _ _ _ _ _ _ _ rng_can rng_can rng_can (n_fwds k psi T Hk31 Hr HT) (n_bwds k psi T Hk31 Hr HT) a A c C TA TC d L I (fun i Hi => eq_trans (HD i Hi) (f_equal (fun v => v mod Q) (eq_sym (Z.mul_1_l _))))).
Qed.

Lemma naive_divides_L :
  forall malloc size psi T, (forall n, 0 <= n -> zlen (malloc n) = n) ->
  make_tables malloc size psi = Ok (Written T) ->
  forall a A c C, transform_by (naive_forwards size T) size (- Q + 1) (Q - 1) a A ->
  transform_by (naive_forwards size T) size (- Q + 1) (Q - 1) c C ->
  forall d, zlen d = size -> all_in (- Q + 1) (Q - 1) d ->
  (forall i, 0 <= i < size -> eqQ (at_ A i * at_ d i) (at_ C i)) ->
  forall G, In G (naive_inverses size T) ->
  exists q, G d = Ok q /\ zlen q = size /\ all_in (- Q + 1) (Q - 1) q
    /\ forall i, 0 <= i < size -> eqQ (negacyclic size (at_ a) (at_ q) i) (at_ c i).
Proof.
  intros malloc size psi T HM E. destruct (gen_tables _ _ _ _ HM E) as (k & Hk & -> & Hr & HT). assert (Hk31 : 0 <= k <= 31) by lia. assert (Hk0 : 0 <= k) by lia.
  intros a A c C TA TC d L I HD.
  exact (div_gen k psi Hk0 Hr 1 1 1 1 eq_refl eq_refl _ _ _ _ _ _ _ _ _ _ _ _ rng_can1 rng_can1 rng_can1 (v_fwds k psi T Hk31 Hr HT) (v_bwds k psi T Hk31 Hr HT) a A c C TA TC d L I (fun i Hi => eq_trans (HD i Hi) (f_equal (fun v => v mod Q) (eq_sym (Z.mul_1_l _))))).
Qed.

Lemma red_divides_L :
  forall malloc size psi T sh, (forall n, 0 <= n -> zlen (malloc n) = n) ->
  make_red_tables malloc size psi = Ok (Written T) -> size <= 1024 ->
  forall a A c C, transform_by (red_forwards sh size T) size (-6144) (Q - 1) a A ->
  transform_by (red_forwards sh size T) size (-6144) (Q - 1) c C ->
  forall d, zlen d = size -> all_in (- 2 ^ 31) (2 ^ 31 - 1) d ->
  (forall i, 0 <= i < size -> eqQ (at_ A i * at_ d i) (27 * at_ C i)) ->
  forall G, In G (red_inverses size T) ->
  exists q, G d = Ok q /\ zlen q = size /\ all_in 0 (Q - 1) q
    /\ forall i, 0 <= i < size -> eqQ (negacyclic size (at_ a) (at_ q) i) (at_ c i).
Proof.
  intros malloc size psi T sh HM E Hs. destruct (gen_red_tables _ _ _ _ HM E) as (k & Hk & Es & Hr & HT).
  assert (Hk10 : 1 <= k <= 10) by (assert (X := k_of size k 10 ltac:(lia) Es ltac:(lia)); lia).
  assert (Hk0 : 0 <= k) by lia. subst size.
  exact (div_gen k psi Hk0 Hr 3 8193 3 9103 eq_refl eq_refl _ _ _ _ _ _ _ _ _ _ _ _ rng_inp rng_w32 rng_can (r_fwds sh k psi T Hk10 Hr HT) (r_bwds k psi T Hk10 Hr HT)).
Qed.

Lemma red_asm_divides_L :
  forall malloc size psi T sh, (forall n, 0 <= n -> zlen (malloc n) = n) ->
  make_red_tables malloc size psi = Ok (Written T) -> 16 <= size <= 1024 ->
  forall a A c C, transform_by (red_forwards sh size T ++ asm_forwards sh size T) size (-6144) (Q - 1) a A ->
  transform_by (red_forwards sh size T ++ asm_forwards sh size T) size (-6144) (Q - 1) c C ->
  forall d, zlen d = size -> all_in (- 2 ^ 31) (2 ^ 31 - 1) d ->
  (forall i, 0 <= i < size -> eqQ (at_ A i * at_ d i) (27 * at_ C i)) ->
  forall G, In G (red_inverses size T ++ asm_inverses size T) ->
  exists q, G d = Ok q /\ zlen q = size /\ all_in 0 (Q - 1) q
    /\ forall i, 0 <= i < size -> eqQ (negacyclic size (at_ a) (at_ q) i) (at_ c i).
Proof.
  intros malloc size psi T sh HM E Hs. destruct (gen_red_tables _ _ _ _ HM E) as (k & Hk & Es & Hr & HT).
  assert (Hk10 : 1 <= k <= 10) by (assert (X := k_of size k 10 ltac:(lia) Es ltac:(lia)); lia).
  assert (Hk0 : 0 <= k) by lia.
  assert (Hk4 : 4 <= k <= 10) by (assert (X := k_from size k 4 ltac:(lia) Es ltac:(lia)); lia). subst size.
  exact (div_gen k psi Hk0 Hr 3 8193 3 9103 eq_refl eq_refl _ _ _ _ _ _ _ _ _ _ _ _ rng_inp rng_w32 rng_can (fwds_app _ _ _ _ _ _ _ (r_fwds sh k psi T Hk10 Hr HT) (x_fwds sh k psi T Hk4 Hr HT)) (bwds_app _ _ _ _ _ _ _ _ (r_bwds k psi T Hk10 Hr HT) (x_bwds k psi T Hk4 Hr HT))).
Qed.

(** ** For the examples *)
(** X - 1212, where 1212 is the psi of the tables: it has a zero in its transform, exA has none. *)
Definition exZ : list Z := [11077; 1; 0; 0; 0; 0; 0; 0; 0; 0; 0; 0; 0; 0; 0; 0].
(** The quotients of the elements of the transforms of exB and exA modulo Q, and the polynomial to which they belong;
    the polynomial inverse to exA *)
Definition exQ : list Z := [9670; 8112; 8326; 8252; 5013; 6172; 1509; 4943; 6379; 445; 1340; 11886; 2800; 7573; 6620; 2444].
Definition exQuot : list Z := [8790; 8038; 10531; 850; 7725; 12119; 10744; 34; 309; 2451; 4854; 9341; 1487; 7963; 7076; 3323].
Definition exInv : list Z := [0; 850; 0; 12119; 0; 34; 0; 2451; 0; 9341; 0; 7963; 0; 3323; 0; 4251].
Definition exDelta : list Z := [1; 0; 0; 0; 0; 0; 0; 0; 0; 0; 0; 0; 0; 0; 0; 0].
Definition exprod (a b : list Z) : list Z := map (fun i => negacyclic 16 (at_ a) (at_ b) (Z.of_nat i) mod Q) (seq 0 16).
Definition scaled (c : Z) (a : list Z) : list Z := map (fun v => (c * v) mod Q) a.
Definition nonzero (a : list Z) : bool := forallb (fun v => negb (v mod Q =? 0)) a.
(** [d] is the quotient of [C] by [A], element by element, with the factor [w]. *)
Definition quotient (w : Z) (A d C : list Z) : bool :=
  forallb (fun i => (at_ A (Z.of_nat i) * at_ d (Z.of_nat i) - w * at_ C (Z.of_nat i)) mod Q =? 0) (seq 0 16).
