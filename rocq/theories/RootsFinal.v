(** Lemmas behind [PropRoots]. *)

From Coq Require Import ZArith List Bool Lia String Sorted Setoid Morphisms.
From Verif Require Import CSem Spec ModQ Fermat ModelGen GenFinal SpecRoots CommittedRoots RootsElem.
Import ListNotations.
Open Scope Z_scope.

Definition listed (t : string) : list Z := match numbers t with Some l => l | None => [] end.

Lemma listed_1024 : numbers file_primitive_roots_1024 = Some (listed file_primitive_roots_1024)
  /\ check 9 (listed file_primitive_roots_1024) = true.
Proof. split; vm_compute; reflexivity. Qed.
Lemma listed_2048 : numbers file_primitive_roots_2048 = Some (listed file_primitive_roots_2048)
  /\ check 10 (listed file_primitive_roots_2048) = true.
Proof. split; vm_compute; reflexivity. Qed.
Lemma listed_4096 : numbers file_primitive_roots_4096 = Some (listed file_primitive_roots_4096)
  /\ check 11 (listed file_primitive_roots_4096) = true.
Proof. split; vm_compute; reflexivity. Qed.

Lemma file_of n t : In (n, t) [(1024, file_primitive_roots_1024); (2048, file_primitive_roots_2048);
                               (4096, file_primitive_roots_4096)] ->
  exists (m : nat), (9 <= m <= 11)%nat /\ n = 2 ^ (Z.of_nat m + 1) /\ numbers t = Some (listed t) /\ check m (listed t) = true.
Proof.
  intros [E|[E|[E|[]]]]; injection E as <- <-.
  - exists 9%nat. split; [lia|]. split; [reflexivity|]. exact listed_1024.
  - exists 10%nat. split; [lia|]. split; [reflexivity|]. exact listed_2048.
  - exists 11%nat. split; [lia|]. split; [reflexivity|]. exact listed_4096.
Qed.

Lemma in_listed l x : existsb (Z.eqb x) l = true <-> In x l.
Proof.
  rewrite existsb_exists. split.
  - intros (y & Hy & E). apply Z.eqb_eq in E. subst y. exact Hy.
  - intros H. exists x. split; [exact H|apply Z.eqb_refl].
Qed.
Lemma not_in_listed l x : existsb (Z.eqb x) l = false <-> ~ In x l.
Proof. rewrite <- in_listed. destruct (existsb (Z.eqb x) l); split; congruence. Qed.

Lemma primitive_roots_files_L :
  forall n t, In (n, t) [(1024, file_primitive_roots_1024); (2048, file_primitive_roots_2048);
                         (4096, file_primitive_roots_4096)] ->
  exists l, numbers t = Some l /\ StronglySorted Z.lt l /\ (forall x, In x l <-> primitive_root n x).
Proof.
  intros n t H. destruct (file_of n t H) as (m & _ & -> & E & C).
  exists (listed t). split; [exact E|]. exact (check_ok m _ C).
Qed.

Lemma primitive_roots_accepted_L :
  forall n t malloc psi, In (n, t) [(1024, file_primitive_roots_1024); (2048, file_primitive_roots_2048);
                         (4096, file_primitive_roots_4096)] ->
  (forall i, 0 <= i -> zlen (malloc i) = i) ->
  exists l, numbers t = Some l
  /\ (In psi l <-> exists T, make_tables malloc (n / 2) psi = Ok (Written T))
  /\ (In psi l <-> exists T, make_red_tables malloc (n / 2) psi = Ok (Written T)).
Proof.
  intros n t malloc psi H HM. destruct (file_of n t H) as (m & Hm & -> & E & C).
  exists (listed t). split; [exact E|]. destruct (check_ok m _ C) as [_ R].
  assert (P : 0 < 2 ^ Z.of_nat m) by (apply Z.pow_pos_nonneg; lia).
  assert (D : 2 ^ (Z.of_nat m + 1) / 2 = 2 ^ Z.of_nat m).
  { rewrite Z.pow_add_r by lia. change (2 ^ 1) with 2. apply Z.div_mul. discriminate. }
  assert (K : In psi (listed t) <->
    (exists k, 1 <= k /\ 2 ^ Z.of_nat m = 2 ^ k) /\ 1 < psi < Q /\ eqQ (psi ^ (2 ^ Z.of_nat m)) (-1)).
  { rewrite R. split.
    - intros Hp. assert (B := proj1 Hp). apply primitive_iff in Hp; [|lia|exact B].
      replace (Z.of_nat m + 1 - 1) with (Z.of_nat m) in * by lia.
      split; [exists (Z.of_nat m); split; [lia|reflexivity]|]. split; [|exact Hp].
      assert (psi <> 0) by (intros ->; rewrite Z.pow_0_l in Hp by lia; discriminate Hp).
      assert (psi <> 1) by (intros ->; rewrite Z.pow_1_l in Hp by lia; discriminate Hp). lia.
    - intros (_ & B & Hp). apply primitive_iff; [lia|lia|]. replace (Z.of_nat m + 1 - 1) with (Z.of_nat m) by lia. exact Hp. }
  rewrite D. split; rewrite K; symmetry; [apply make_tables_accepts_iff_L|apply make_red_tables_accepts_iff_L]; exact HM.
Qed.
