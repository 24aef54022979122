(** Lemmas behind [PropRing]. *)

From Coq Require Import ZArith List Lia.
From Verif Require Import CSem Spec SpecRing ModelGen RingElem.
Import ListNotations.
Open Scope Z_scope.

Lemma products_commute_L :
forall malloc size psi T R sh, (forall n, 0 <= n -> zlen (malloc n) = n) ->
  make_tables malloc size psi = Ok (Written T) -> make_red_tables malloc size psi = Ok (Written R) -> size <= 1024 ->
  forall f g, product_procedure size psi T R sh f -> product_procedure size psi T R sh g ->
  forall x y, poly size x -> poly size y ->
  exists r, poly size r /\ leaves f x y r /\ leaves g y x r.
Proof.
  intros malloc size psi T R sh HM ET ER Hsz f g Hf Hg x y Hx Hy. exists (prodQ size x y).
  split; [apply prodQ_poly, (size_nonneg malloc size psi T HM ET)|]. split.
  - eapply proc_leaves; eassumption.
  - rewrite (prodQ_comm malloc size psi T HM ET). eapply proc_leaves; eassumption.
Qed.

Lemma products_associate_L :
forall malloc size psi T R sh, (forall n, 0 <= n -> zlen (malloc n) = n) ->
  make_tables malloc size psi = Ok (Written T) -> make_red_tables malloc size psi = Ok (Written R) -> size <= 1024 ->
  forall f g f' g', product_procedure size psi T R sh f -> product_procedure size psi T R sh g ->
  product_procedure size psi T R sh f' -> product_procedure size psi T R sh g' ->
  forall x y z, poly size x -> poly size y -> poly size z ->
  exists xy yz r, leaves f x y xy /\ leaves g xy z r /\ leaves f' y z yz /\ leaves g' x yz r.
Proof.
  intros malloc size psi T R sh HM ET ER Hsz f g f' g' Hf Hg Hf' Hg' x y z Hx Hy Hz.
  assert (Hn := size_nonneg malloc size psi T HM ET).
  assert (Hxy := prodQ_poly size x y Hn). assert (Hyz := prodQ_poly size y z Hn).
  exists (prodQ size x y), (prodQ size y z), (prodQ size (prodQ size x y) z).
  split; [eapply proc_leaves; eassumption|]. split; [eapply proc_leaves; eassumption|].
  split; [eapply proc_leaves; eassumption|].
  rewrite (prodQ_assoc malloc size psi T HM ET). eapply proc_leaves; eassumption.
Qed.

Lemma products_distribute_L :
forall malloc size psi T R sh, (forall n, 0 <= n -> zlen (malloc n) = n) ->
  make_tables malloc size psi = Ok (Written T) -> make_red_tables malloc size psi = Ok (Written R) -> size <= 1024 ->
  forall f, product_procedure size psi T R sh f ->
  forall x y z, poly size x -> poly size y -> poly size z ->
  exists xy xz, leaves f x y xy /\ leaves f x z xz /\ leaves f x (addQ size y z) (addQ size xy xz).
Proof.
  intros malloc size psi T R sh HM ET ER Hsz f Hf x y z Hx Hy Hz.
  assert (Hn := size_nonneg malloc size psi T HM ET). assert (Hyz := addQ_poly size y z Hn).
  exists (prodQ size x y), (prodQ size x z).
  split; [eapply proc_leaves; eassumption|]. split; [eapply proc_leaves; eassumption|].
  rewrite <- (prodQ_distr malloc size psi T HM ET). eapply proc_leaves; eassumption.
Qed.

Lemma products_by_monomial_L :
forall malloc size psi T R sh, (forall n, 0 <= n -> zlen (malloc n) = n) ->
  make_tables malloc size psi = Ok (Written T) -> make_red_tables malloc size psi = Ok (Written R) -> size <= 1024 ->
  forall f, product_procedure size psi T R sh f ->
  forall x k, poly size x -> 0 <= k < size ->
  leaves f x (monomial size k) (rotate size k x) /\ leaves f (monomial size k) x (rotate size k x).
Proof.
  intros malloc size psi T R sh HM ET ER Hsz f Hf x k Hx Hk.
  assert (Hn := size_nonneg malloc size psi T HM ET).
  assert (Hm : poly size (monomial size k)).
  { split; [apply zlen_table; exact Hn|]. apply table_in. intros i Hi. unfold Q. destruct (i =? k); lia. }
  rewrite <- (prodQ_mono malloc size psi T HM ET x k Hx Hk). split.
  - eapply proc_leaves; eassumption.
  - rewrite (prodQ_comm malloc size psi T HM ET). eapply proc_leaves; eassumption.
Qed.

Lemma products_by_one_L :
forall malloc size psi T R sh, (forall n, 0 <= n -> zlen (malloc n) = n) ->
  make_tables malloc size psi = Ok (Written T) -> make_red_tables malloc size psi = Ok (Written R) -> size <= 1024 ->
  forall f, product_procedure size psi T R sh f ->
  forall x, poly size x -> leaves f x (monomial size 0) x /\ leaves f (monomial size 0) x x.
Proof.
  intros malloc size psi T R sh HM ET ER Hsz f Hf x Hx.
  assert (Hp : 0 < size).
  { destruct (size_root malloc size psi T HM ET) as (k & Hk & -> & _). apply Z.pow_pos_nonneg; lia. }
  assert (HX := products_by_monomial_L malloc size psi T R sh HM ET ER Hsz f Hf x 0 Hx ltac:(lia)).
  rewrite (rotate_0 malloc size psi T HM ET x Hx) in HX. exact HX.
Qed.
