(** Lemmas behind [PropAvxProd]. *)

From Coq Require Import ZArith List Bool Lia.
From Verif Require Import CSem Spec Loops ModQ Exlib TableSpec ModelGen ModelProducts ModelAvxProd ExTables ProdGen ProdFinal AvxProd AvxProd1024.
From Verif Require ProdRed.
Import ListNotations.
Open Scope Z_scope.

Lemma asm_products_correct_L :
forall malloc size psi T sh, (forall n, 0 <= n -> zlen (malloc n) = n) ->
  make_red_tables malloc size psi = Ok (Written T) -> 16 <= size <= 1024 ->
  forall f, In f [red_product1_asm sh size T; red_product2_asm sh size T; red_product3_asm sh size T; red_product4_asm sh size T; red_product5_asm sh size T] ->
  forall h c a b, a <> b -> zlen (h a) = size -> zlen (h b) = size -> zlen (h c) = size ->
  all_in 0 (Q - 1) (h a) -> all_in 0 (Q - 1) (h b) ->
  exists h', f h c a b = Ok h' /\ zlen (h' c) = size /\ all_in 0 (Q - 1) (h' c)
    /\ (forall i, 0 <= i < size ->
          at_ (h' c) i = negacyclic size (at_ (h a)) (at_ (h b)) i mod Q)
    /\ (forall p, p <> a -> p <> b -> p <> c -> h' p = h p).
Proof.
  intros malloc size psi T sh HM E Hsz f HI h c a b Hab La Lb Lc Ia Ib.
  destruct (gen_red_tables _ _ _ _ HM E) as (k & Hk & -> & Hr & HT).
  assert (Hk10 : 4 <= k <= 10).
  { split.
    - destruct (Z.leb_spec 4 k); [lia|]. assert (2 ^ k <= 2 ^ 3) by (apply Z.pow_le_mono_r; lia).
      change (2 ^ 3) with 8 in *. lia.
    - destruct (Z.leb_spec k 10); [lia|]. assert (2 ^ 11 <= 2 ^ k) by (apply Z.pow_le_mono_r; lia).
      change (2 ^ 11) with 2048 in *. lia. }
  assert (Ca : forall i, 0 <= i < 2 ^ k -> ProdRed.inp (at_ (h a) i)).
  { intros i Hi. assert (HH := all_in_at _ _ _ i Ia ltac:(lia)). unfold ProdRed.inp, Q in *. lia. }
  assert (Cb : forall i, 0 <= i < 2 ^ k -> ProdRed.inp (at_ (h b) i)).
  { intros i Hi. assert (HH := all_in_at _ _ _ i Ib ltac:(lia)). unfold ProdRed.inp, Q in *. lia. }
  apply prod_canonical.
  five HI.
  - exact (x_product1_ok sh k psi T Hk10 Hr HT h c a b Hab La Lb Lc Ca Cb).
  - exact (x_product2_ok sh k psi T Hk10 Hr HT h c a b Hab La Lb Lc Ca Cb).
  - exact (x_product3_ok sh k psi T Hk10 Hr HT h c a b Hab La Lb Lc Ca Cb).
  - exact (x_product4_ok sh k psi T Hk10 Hr HT h c a b Hab La Lb Lc Ca Cb).
  - exact (x_product5_ok sh k psi T Hk10 Hr HT h c a b Hab La Lb Lc Ca Cb).
Qed.

Lemma asm_products_equal_c_L :
forall malloc size psi T sh, (forall n, 0 <= n -> zlen (malloc n) = n) ->
  make_red_tables malloc size psi = Ok (Written T) -> 16 <= size <= 1024 ->
  forall f g, In (f, g) [(red_product1_asm sh size T, red_product1 sh size T);
    (red_product2_asm sh size T, red_product2 sh size T);
    (red_product3_asm sh size T, red_product3 sh size T);
    (red_product4_asm sh size T, red_product4 sh size T);
    (red_product5_asm sh size T, red_product5 sh size T)] ->
  forall h c a b, a <> b -> zlen (h a) = size -> zlen (h b) = size -> zlen (h c) = size ->
  all_in 0 (Q - 1) (h a) -> all_in 0 (Q - 1) (h b) ->
  exists h1 h2, f h c a b = Ok h1 /\ g h c a b = Ok h2 /\ h1 c = h2 c.
Proof.
  intros malloc size psi T sh HM E Hsz f g HI h c a b Hab La Lb Lc Ia Ib.
  destruct (asm_products_correct_L malloc size psi T sh HM E Hsz f) with (h := h) (c := c) (a := a) (b := b)
    as (h1 & E1 & L1 & _ & V1 & _); try assumption.
  { clear - HI. cbn [In] in HI |- *. destruct HI as [HI|[HI|[HI|[HI|[HI|[]]]]]]; injection HI as <- <-.
    - left; reflexivity.
    - right; left; reflexivity.
    - do 2 right; left; reflexivity.
    - do 3 right; left; reflexivity.
    - do 4 right; left; reflexivity. }
  destruct (red_products_correct_L malloc size psi T sh HM E ltac:(lia) g) with (h := h) (c := c) (a := a) (b := b)
    as (h2 & E2 & L2 & _ & V2 & _); try assumption.
  { clear - HI. cbn [In] in HI |- *. destruct HI as [HI|[HI|[HI|[HI|[HI|[]]]]]]; injection HI as <- <-.
    - left; reflexivity.
    - right; left; reflexivity.
    - do 2 right; left; reflexivity.
    - do 3 right; left; reflexivity.
    - do 4 right; left; reflexivity. }
  exists h1, h2. split; [exact E1|]. split; [exact E2|].
  eapply list_ext; [exact L1|exact L2|]. intros i Hi. rewrite V1, V2 by assumption. reflexivity.
Qed.

Lemma malloc77_len n : 0 <= n -> zlen (malloc77 n) = n.
Proof. intros H. unfold malloc77, zlen. rewrite repeat_length. lia. Qed.

(** Two arrays of size 1024: x^1023 and -x. *)
Definition exH24 (p : Z) : list Z :=
  if p =? 1 then repeat 0 (Z.to_nat 1023) ++ [1]
  else if p =? 2 then 0 :: 12288 :: repeat 0 (Z.to_nat 1022) else repeat 5 (Z.to_nat 1024).

Lemma asm1024_product1_correct_L :
forall malloc T, (forall n, 0 <= n -> zlen (malloc n) = n) ->
  make_red_tables malloc 1024 1014 = Ok (Written T) ->
  forall h c a b, a <> b -> zlen (h a) = 1024 -> zlen (h b) = 1024 -> zlen (h c) = 1024 ->
  all_in 0 (Q - 1) (h a) -> all_in 0 (Q - 1) (h b) ->
  exists h', red1024_product1_asm 1024 T h c a b = Ok h' /\ zlen (h' c) = 1024 /\ all_in 0 (Q - 1) (h' c)
    /\ (forall i, 0 <= i < 1024 ->
          at_ (h' c) i = negacyclic 1024 (at_ (h a)) (at_ (h b)) i mod Q)
    /\ (forall p, p <> a -> p <> b -> p <> c -> h' p = h p).
Proof.
  intros malloc T HM E h c a b Hab La Lb Lc Ia Ib.
  destruct (gen_red_tables _ _ _ _ HM E) as (k & Hk & Ek & Hr & HT).
  assert (k = 10).
  { change 1024 with (2 ^ 10) in Ek. apply Z.pow_inj_r in Ek; lia. }
  subst k. clear Ek Hk.
  assert (Ca : forall i, 0 <= i < 1024 -> ProdRed.inp (at_ (h a) i)).
  { intros i Hi. assert (HH := all_in_at _ _ _ i Ia). rewrite La in HH. specialize (HH Hi).
    clear - HH. unfold ProdRed.inp, Q in *. lia. }
  assert (Cb : forall i, 0 <= i < 1024 -> ProdRed.inp (at_ (h b) i)).
  { intros i Hi. assert (HH := all_in_at _ _ _ i Ib). rewrite Lb in HH. specialize (HH Hi).
    clear - HH. unfold ProdRed.inp, Q in *. lia. }
  apply prod_canonical.
  exact (x24_product1_ok 1014 T eq_refl Hr HT h c a b Hab La Lb Lc Ca Cb).
Qed.
