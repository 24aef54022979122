(** Properties of the product procedures that use the AVX2 routines: C50, C51.

    The tables are those written by the generator.  [h a], [h b], [h c] are the
    three array arguments; [c] may be [a] or [b].  [sh] says whether the inputs
    are first shifted to the range -6144..6144. *)

From Coq Require Import ZArith List Bool Lia.
From Verif Require Import CSem Spec Exlib ModelGen ModelProducts ModelAvxProd ExTables ProdFinal AvxProdFinal.
Import ListNotations.
Open Scope Z_scope.

(** C50: the five product procedures built on the AVX2 routines return the canonical negacyclic product *)
Theorem asm_products_correct :
forall malloc size psi T sh, (forall n, 0 <= n -> zlen (malloc n) = n) ->
  make_red_tables malloc size psi = Ok (Written T) -> 16 <= size <= 1024 ->
  forall f, In f [red_product1_asm sh size T; red_product2_asm sh size T; red_product3_asm sh size T; red_product4_asm sh size T; red_product5_asm sh size T] ->
  forall h c a b, a <> b -> zlen (h a) = size -> zlen (h b) = size -> zlen (h c) = size ->
  all_in 0 (Q - 1) (h a) -> all_in 0 (Q - 1) (h b) ->
  exists h', f h c a b = Ok h' /\ zlen (h' c) = size /\ all_in 0 (Q - 1) (h' c)
    /\ (forall i, 0 <= i < size ->
          at_ (h' c) i = negacyclic size (at_ (h a)) (at_ (h b)) i mod Q)
    /\ (forall p, p <> a -> p <> b -> p <> c -> h' p = h p).
Proof. exact asm_products_correct_L. Qed.
Print Assumptions asm_products_correct.

Example asm_products_ex :
  make_red_tables malloc77 16 1212 = Ok (Written R16)
  /\ all_in 0 (Q - 1) exA /\ all_in 0 (Q - 1) exB
  /\ (exists h', red_product1_asm true 16 R16 exH 3 1 2 = Ok h' /\ h' 3 = exC)
  /\ (exists h', red_product5_asm false 16 R16 exH 2 1 2 = Ok h' /\ h' 2 = exC).
Proof.
  split; [exact R16_made|]. split; [check_all_in|]. split; [check_all_in|].
  split; apply res_is_ok; vm_compute; reflexivity.
Qed.

(** C50: each leaves in [c] what the plain C procedure of the same number leaves there *)
Theorem asm_products_equal_c :
forall malloc size psi T sh, (forall n, 0 <= n -> zlen (malloc n) = n) ->
  make_red_tables malloc size psi = Ok (Written T) -> 16 <= size <= 1024 ->
  forall f g, In (f, g) [(red_product1_asm sh size T, red_product1 sh size T);
    (red_product2_asm sh size T, red_product2 sh size T);
    (red_product3_asm sh size T, red_product3 sh size T);
    (red_product4_asm sh size T, red_product4 sh size T);
    (red_product5_asm sh size T, red_product5 sh size T)] ->
  forall h c a b, a <> b -> zlen (h a) = size -> zlen (h b) = size -> zlen (h c) = size ->
  all_in 0 (Q - 1) (h a) -> all_in 0 (Q - 1) (h b) ->
  exists h1 h2, f h c a b = Ok h1 /\ g h c a b = Ok h2 /\ h1 c = h2 c.
Proof. exact asm_products_equal_c_L. Qed.
Print Assumptions asm_products_equal_c.

Example asm_products_equal_c_ex :
  (exists h1 h2, red_product3_asm true 16 R16 exH 3 1 2 = Ok h1 /\ red_product3 true 16 R16 exH 3 1 2 = Ok h2
     /\ h1 3 = h2 3 /\ h1 3 = exC)
  /\ (exists h', red_product2_asm true 16 R16 exH 3 1 2 = Ok h' /\ h' 3 = exC)
  /\ (exists h', red_product4_asm false 16 R16 exH 1 1 2 = Ok h' /\ h' 1 = exC).
Proof.
  split; [|split; apply res_is_ok; vm_compute; reflexivity].
  destruct (res_is_ok (red_product3_asm true 16 R16 exH 3 1 2) 3 exC) as (h1 & E1 & H1); [vm_compute; reflexivity|].
  destruct (res_is_ok (red_product3 true 16 R16 exH 3 1 2) 3 exC) as (h2 & E2 & H2); [vm_compute; reflexivity|].
  exists h1, h2. split; [exact E1|]. split; [exact E2|]. rewrite H1, H2. auto.
Qed.

(** C51: product 1 of size 1024, which skips the reduction before the inverse transform and whose
    wider intermediate values stay representable for the table of psi = 1014 *)
Theorem asm1024_product1_correct :
forall malloc T, (forall n, 0 <= n -> zlen (malloc n) = n) ->
  make_red_tables malloc 1024 1014 = Ok (Written T) ->
  forall h c a b, a <> b -> zlen (h a) = 1024 -> zlen (h b) = 1024 -> zlen (h c) = 1024 ->
  all_in 0 (Q - 1) (h a) -> all_in 0 (Q - 1) (h b) ->
  exists h', red1024_product1_asm 1024 T h c a b = Ok h' /\ zlen (h' c) = 1024 /\ all_in 0 (Q - 1) (h' c)
    /\ (forall i, 0 <= i < 1024 ->
          at_ (h' c) i = negacyclic 1024 (at_ (h a)) (at_ (h b)) i mod Q)
    /\ (forall p, p <> a -> p <> b -> p <> c -> h' p = h p).
Proof. exact asm1024_product1_correct_L. Qed.
Print Assumptions asm1024_product1_correct.

(** x^1023 * (-x) = 1 *)
Example asm1024_product1_ex :
  exists T h', make_red_tables malloc77 1024 1014 = Ok (Written T)
  /\ red1024_product1_asm 1024 T exH24 3 1 2 = Ok h' /\ at_ (h' 3) 0 = 1 /\ at_ (h' 3) 1023 = 0.
Proof.
  assert (HI : In (1024, 1014) [(16, 1212); (256, 1002); (512, 1003); (1024, 1014)])
    by (right; right; right; left; reflexivity).
  destruct (proj2 (shipped_sizes_accepted_L malloc77 1024 1014 malloc77_len HI)) as (T & ET). clear HI.
  assert (La : zlen (exH24 1) = 1024) by (vm_compute; reflexivity).
  assert (Lb : zlen (exH24 2) = 1024) by (vm_compute; reflexivity).
  assert (Lc : zlen (exH24 3) = 1024) by (vm_compute; reflexivity).
  assert (Ia : all_in 0 (Q - 1) (exH24 1)) by check_all_in.
  assert (Ib : all_in 0 (Q - 1) (exH24 2)) by check_all_in.
  destruct (asm1024_product1_correct malloc77 T malloc77_len ET exH24 3 1 2 ltac:(discriminate) La Lb Lc Ia Ib)
    as (h' & E & _ & _ & V & _).
  exists T, h'. split; [exact ET|]. split; [exact E|].
  assert (V0 := V 0 ltac:(split; [discriminate|reflexivity])).
  assert (V1 := V 1023 ltac:(split; [discriminate|reflexivity])).
  rewrite V0, V1. split; vm_compute; reflexivity.
Qed.
