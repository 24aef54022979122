(** Lemmas behind [PropExact]. *)

From Coq Require Import ZArith List Bool Lia Setoid Morphisms.
From Verif Require Import CSem Spec SpecRing SpecExact ModQ Conv ModelGen ModelProducts RingElem ProdFinal.
Import ListNotations.
Open Scope Z_scope.

Lemma encode_poly n X : 0 <= n -> poly n (encode n X).
Proof.
  intros Hn. split; [apply zlen_table; exact Hn|]. apply table_in. intros i Hi.
  assert (H := Z.mod_pos_bound (X i) Q ltac:(reflexivity)). lia.
Qed.

Lemma nega_extQ n x y x' y' m : 0 <= m < n -> (forall i, 0 <= i < n -> eqQ (x i) (x' i)) -> (forall i, 0 <= i < n -> eqQ (y i) (y' i)) ->
  eqQ (negacyclic n x y m) (negacyclic n x' y' m).
Proof.
  intros Hm Hx Hy. unfold negacyclic. apply Sum_extQ. intros i Hi.
  destruct (Z.leb_spec i m); rewrite (Hx i) by lia; rewrite Hy by lia; reflexivity.
Qed.

Lemma prod_encode n X Y i : 0 <= i < n ->
  at_ (prodQ n (encode n X) (encode n Y)) i = negacyclic n X Y i mod Q.
Proof.
  intros Hi. unfold prodQ. rewrite at_table by lia. apply nega_extQ; [exact Hi| |];
    intros j Hj; unfold encode; rewrite at_table by lia; apply eqQ_mod.
Qed.

Lemma centred_mod v : -6144 <= v <= 6144 -> centred (v mod Q) = v.
Proof.
  intros H. unfold centred. destruct (Z.ltb_spec v 0).
  - replace (v mod Q) with (v + Q); [destruct (Z.leb_spec (v + Q) 6144); unfold Q in *; lia|].
    apply (Z.mod_unique_pos v Q (-1)); unfold Q; lia.
  - rewrite Z.mod_small by (unfold Q; lia). destruct (Z.leb_spec v 6144); lia.
Qed.

Lemma Sum_abs_le n f g : (forall i, 0 <= i < n -> Z.abs (f i) <= g i) -> Z.abs (Sum n f) <= Sum n g.
Proof.
  unfold Sum. intros H. assert (H' : forall i, 0 <= i < Z.of_nat (Z.to_nat n) -> Z.abs (f i) <= g i) by (intros; apply H; lia).
  revert H'. generalize (Z.to_nat n). clear H n. intros n. induction n as [|n IH]; intros H; cbn [sum_nat]; [lia|].
  assert (A := H (Z.of_nat n) ltac:(lia)). assert (B := IH ltac:(intros; apply H; lia)). lia.
Qed.

Lemma nega_small n X Y C m : 0 <= m < n -> (forall i, 0 <= i < n -> Z.abs (Y i) <= C) ->
  Z.abs (negacyclic n X Y m) <= Sum n (fun i => Z.abs (X i)) * C.
Proof.
  intros Hm HY. unfold negacyclic. rewrite <- Sum_mul_r. apply Sum_abs_le. intros i Hi.
  destruct (Z.leb_spec i m).
  - rewrite Z.abs_mul. apply Z.mul_le_mono_nonneg_l; [lia|]. apply HY. lia.
  - rewrite Z.abs_opp, Z.abs_mul. apply Z.mul_le_mono_nonneg_l; [lia|]. apply HY. lia.
Qed.

Lemma nega_ordinary n X Y p q m : 0 <= m < n -> (forall i, p <= i < n -> X i = 0) -> (forall i, q <= i < n -> Y i = 0) ->
  p + q <= n + 1 -> negacyclic n X Y m = ordinary X Y m.
Proof.
  intros Hm HX HY Hpq. unfold negacyclic, ordinary.
  replace n with ((m + 1) + (n - (m + 1))) at 1 by lia. rewrite Sum_split by lia.
  rewrite (Sum_ext (n - (m + 1)) _ (fun _ => 0)); [rewrite Sum_zero, Z.add_0_r|].
  - apply Sum_ext. intros i Hi. destruct (Z.leb_spec i m); [reflexivity|lia].
  - intros i Hi. destruct (Z.leb_spec (m + 1 + i) m); [lia|].
    destruct (Z.leb_spec p (m + 1 + i)); [rewrite HX by lia; reflexivity|].
    rewrite (HY (m - (m + 1 + i) + n)) by lia. rewrite Z.mul_0_r. reflexivity.
Qed.

Section S.
Variables (malloc : Z -> list Z) (size psi : Z) (T : tables) (R : red_tables) (sh : bool).
Hypothesis HM : forall n, 0 <= n -> zlen (malloc n) = n.
Hypothesis ET : make_tables malloc size psi = Ok (Written T).
Hypothesis ER : make_red_tables malloc size psi = Ok (Written R).
Hypothesis Hs : size <= 1024.
Variable f : heap -> Z -> Z -> Z -> res heap.
Hypothesis Hf : product_procedure size psi T R sh f.

Lemma leaves_encode X Y : exists r, leaves f (encode size X) (encode size Y) r /\ poly size r
  /\ forall i, 0 <= i < size -> at_ r i = negacyclic size X Y i mod Q.
Proof.
  assert (Hn := size_nonneg malloc size psi T HM ET). exists (prodQ size (encode size X) (encode size Y)).
  split; [|split; [apply prodQ_poly, Hn|intros i Hi; apply prod_encode, Hi]].
  eapply proc_leaves; try eassumption; apply encode_poly, Hn.
Qed.

Lemma exact_L X Y : exists r, leaves f (encode size X) (encode size Y) r /\ poly size r
  /\ forall i, 0 <= i < size -> -6144 <= negacyclic size X Y i <= 6144 -> centred (at_ r i) = negacyclic size X Y i.
Proof.
  destruct (leaves_encode X Y) as (r & L & P & V). exists r. split; [exact L|]. split; [exact P|].
  intros i Hi B. rewrite (V i Hi). apply centred_mod, B.
Qed.

Lemma small_L X Y C : (forall i, 0 <= i < size -> Z.abs (Y i) <= C) -> Sum size (fun i => Z.abs (X i)) * C <= 6144 ->
  exists r, leaves f (encode size X) (encode size Y) r /\ leaves f (encode size Y) (encode size X) r
  /\ forall i, 0 <= i < size -> centred (at_ r i) = negacyclic size X Y i.
Proof.
  intros HC HB. assert (Hn := size_nonneg malloc size psi T HM ET).
  exists (prodQ size (encode size X) (encode size Y)). split; [|split].
  - eapply proc_leaves; try eassumption; apply encode_poly, Hn.
  - rewrite (prodQ_comm malloc size psi T HM ET). eapply proc_leaves; try eassumption; apply encode_poly, Hn.
  - intros i Hi. rewrite prod_encode by exact Hi. apply centred_mod. assert (X1 := nega_small size X Y C i Hi HC). lia.
Qed.

Lemma ordinary_L X Y p q : (forall i, p <= i < size -> X i = 0) -> (forall i, q <= i < size -> Y i = 0) -> p + q <= size + 1 ->
  exists r, leaves f (encode size X) (encode size Y) r
  /\ forall i, 0 <= i < size -> at_ r i = ordinary X Y i mod Q.
Proof.
  intros HX HY Hpq. destruct (leaves_encode X Y) as (r & L & P & V). exists r. split; [exact L|].
  intros i Hi. rewrite (V i Hi). rewrite (nega_ordinary size X Y p q i Hi HX HY Hpq). reflexivity.
Qed.
End S.

(** ** The naive products *)

Lemma naive_exact_L : forall malloc size psi T, (forall n, 0 <= n -> zlen (malloc n) = n) ->
  make_tables malloc size psi = Ok (Written T) ->
  forall f, In f [naive_product1 size T; naive_product2 size T; naive_product3 size T; naive_product4 size T; naive_product5 size T] ->
  forall X Y h c a b, a <> b -> zlen (h a) = size -> zlen (h b) = size -> zlen (h c) = size ->
  all_in (- Q + 1) (Q - 1) (h a) -> all_in (- Q + 1) (Q - 1) (h b) ->
  (forall i, 0 <= i < size -> eqQ (at_ (h a) i) (X i)) -> (forall i, 0 <= i < size -> eqQ (at_ (h b) i) (Y i)) ->
  exists h', f h c a b = Ok h' /\ zlen (h' c) = size
    /\ (forall i, 0 <= i < size -> -6144 <= negacyclic size X Y i <= 6144 -> centred (at_ (h' c) i mod Q) = negacyclic size X Y i)
    /\ (forall C, (forall i, 0 <= i < size -> Z.abs (Y i) <= C) -> Sum size (fun i => Z.abs (X i)) * C <= 6144 ->
        forall i, 0 <= i < size -> centred (at_ (h' c) i mod Q) = negacyclic size X Y i)
    /\ (forall p q, (forall i, p <= i < size -> X i = 0) -> (forall i, q <= i < size -> Y i = 0) -> p + q <= size + 1 ->
        forall i, 0 <= i < size -> eqQ (at_ (h' c) i) (ordinary X Y i)).
Proof.
  intros malloc size psi T HM ET f Hf X Y h c a b Hab La Lb Lc Ra Rb HX HY.
  destruct (naive_products_correct_L malloc size psi T HM ET f Hf h c a b Hab La Lb Lc Ra Rb) as (h' & E & L & _ & V & _).
  assert (W : forall i, 0 <= i < size -> eqQ (at_ (h' c) i) (negacyclic size X Y i)).
  { intros i Hi. rewrite (V i Hi). apply nega_extQ; assumption. }
  exists h'. split; [exact E|]. split; [exact L|]. split; [|split].
  - intros i Hi B. rewrite (W i Hi). apply centred_mod, B.
  - intros C HC HB i Hi. rewrite (W i Hi). apply centred_mod. assert (X1 := nega_small size X Y C i Hi HC). lia.
  - intros p q HXp HYq Hpq i Hi. rewrite (W i Hi), (nega_ordinary size X Y p q i Hi HXp HYq Hpq). reflexivity.
Qed.

(** ** For the examples *)
Definition exX : Z -> Z := at_ [1; -1; 0; 0; 1; 0; 0; 0; 0; -1; 0; 1; 0; 0; 0; -1].
Definition exY : Z -> Z := at_ [-1000; 1000; 5; 0; 0; -7; 0; 0; 0; 0; 0; 0; 999; 0; 0; -1000].
Definition exU : Z -> Z := at_ [3; -2; 7; 0; 0; 0; 0; 0; 5000; 0; 0; 0; 0; 0; 0; 0].
Definition exV : Z -> Z := at_ [-4; 0; 0; 0; 1; 0; 0; 9; 0; 0; 0; 0; 0; 0; 0; 0].
Definition exE (X Y : Z -> Z) : heap := fun p => if p =? 1 then encode 16 X else if p =? 2 then encode 16 Y else repeat 0 16.
Definition upto16 (F : Z -> Z) : list Z := map (fun i => F (Z.of_nat i)) (seq 0 16).
Definition run3 (m : res heap) : list Z := match m with Ok h => h 3 | Err _ => [] end.
(** Representatives of either sign of the coefficients of exX and exY *)
Definition exN : heap := fun p => if p =? 1 then [1 - Q; -1; 0; 0; 1; 0; 0; 0; 0; Q - 1; 0; 1; 0; 0; 0; -1]
  else if p =? 2 then [-1000; 1000 - Q; 5; 0; 0; -7; 0; 0; 0; 0; 0; 0; 999; 0; 0; Q - 1000] else repeat 0 16.
