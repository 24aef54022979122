(** Property C56: the product procedures are the multiplication of a commutative ring. *)

From Coq Require Import ZArith List Lia.
From Verif Require Import CSem Spec SpecRing ModelProducts ModelAvxProd ModelGen Exlib ExTables ProdFinal AvxProdFinal RingFinal.
Import ListNotations.
Open Scope Z_scope.

(** C56: the order of the arguments does not matter, nor which procedure is used *)
Theorem products_commute :
forall malloc size psi T R sh, (forall n, 0 <= n -> zlen (malloc n) = n) ->
  make_tables malloc size psi = Ok (Written T) -> make_red_tables malloc size psi = Ok (Written R) -> size <= 1024 ->
  forall f g, product_procedure size psi T R sh f -> product_procedure size psi T R sh g ->
  forall x y, poly size x -> poly size y ->
  exists r, poly size r /\ leaves f x y r /\ leaves g y x r.
Proof. exact products_commute_L. Qed.
Print Assumptions products_commute.

Example products_commute_ex :
  make_tables malloc77 16 1212 = Ok (Written T16) /\ make_red_tables malloc77 16 1212 = Ok (Written R16)
  /\ poly 16 exA /\ poly 16 exB
  /\ (exists h', ntt_product3 16 T16 exH 3 1 2 = Ok h' /\ h' 3 = exC)
  /\ (exists h', red_product5 true 16 R16 exH 3 2 1 = Ok h' /\ h' 3 = exC).
Proof.
  split; [exact T16_made|]. split; [exact R16_made|].
  split; [split; [reflexivity|check_all_in]|]. split; [split; [reflexivity|check_all_in]|].
  assert (HA : poly 16 exA) by (split; [reflexivity|check_all_in]).
  assert (HB : poly 16 exB) by (split; [reflexivity|check_all_in]).
  assert (HL : (16 <= 1024)%Z) by discriminate.
  destruct (products_commute malloc77 16 1212 T16 R16 true malloc77_len T16_made R16_made HL
     (ntt_product3 16 T16) (red_product5 true 16 R16)) with (x := exA) (y := exB) as (r & _ & H1 & H2); try assumption.
  { left. right; right; left; reflexivity. }
  { right. left. right; right; right; right; left; reflexivity. }
  destruct (H1 exH 3 1 2) as (h1 & E1 & V1); [discriminate|reflexivity|reflexivity|reflexivity|].
  destruct (H2 exH 3 2 1) as (h2 & E2 & V2); [discriminate|reflexivity|reflexivity|reflexivity|].
  assert (HC : r = exC).
  { assert (HR : match ntt_product3 16 T16 exH 3 1 2 with Ok h => h 3 = exC | Err _ => False end)
      by (vm_compute; reflexivity).
    rewrite E1 in HR. congruence. }
  split; [exists h1 | exists h2]; split; congruence.
Qed.

(** C56: associativity *)
Theorem products_associate :
forall malloc size psi T R sh, (forall n, 0 <= n -> zlen (malloc n) = n) ->
  make_tables malloc size psi = Ok (Written T) -> make_red_tables malloc size psi = Ok (Written R) -> size <= 1024 ->
  forall f g f' g', product_procedure size psi T R sh f -> product_procedure size psi T R sh g ->
  product_procedure size psi T R sh f' -> product_procedure size psi T R sh g' ->
  forall x y z, poly size x -> poly size y -> poly size z ->
  exists xy yz r, leaves f x y xy /\ leaves g xy z r /\ leaves f' y z yz /\ leaves g' x yz r.
Proof. exact products_associate_L. Qed.
Print Assumptions products_associate.

Example products_associate_ex :
  poly 16 exA /\ poly 16 exB /\ poly 16 exC
  /\ product_procedure 16 1212 T16 R16 true (red_product5_asm true 16 R16)
  /\ (exists xy yz r, leaves (ntt_product1 16 T16) exA exB xy /\ leaves (red_product5_asm true 16 R16) xy exC r
        /\ leaves (ntt_product1 16 T16) exB exC yz /\ leaves (red_product5_asm true 16 R16) exA yz r).
Proof.
  assert (HA : poly 16 exA) by (split; [reflexivity|check_all_in]).
  assert (HB : poly 16 exB) by (split; [reflexivity|check_all_in]).
  assert (HC : poly 16 exC) by (split; [reflexivity|check_all_in]).
  assert (HL : (16 <= 1024)%Z) by discriminate.
  assert (H1 : product_procedure 16 1212 T16 R16 true (ntt_product1 16 T16)) by (left; left; reflexivity).
  assert (H2 : product_procedure 16 1212 T16 R16 true (red_product5_asm true 16 R16)).
  { right. right. left. split; [discriminate|]. right; right; right; right; left; reflexivity. }
  split; [exact HA|]. split; [exact HB|]. split; [exact HC|]. split; [exact H2|].
  exact (products_associate malloc77 16 1212 T16 R16 true malloc77_len T16_made R16_made HL
     _ _ _ _ H1 H2 H1 H2 exA exB exC HA HB HC).
Qed.

(** C56: distributivity over the addition of coefficients modulo Q *)
Theorem products_distribute :
forall malloc size psi T R sh, (forall n, 0 <= n -> zlen (malloc n) = n) ->
  make_tables malloc size psi = Ok (Written T) -> make_red_tables malloc size psi = Ok (Written R) -> size <= 1024 ->
  forall f, product_procedure size psi T R sh f ->
  forall x y z, poly size x -> poly size y -> poly size z ->
  exists xy xz, leaves f x y xy /\ leaves f x z xz /\ leaves f x (addQ size y z) (addQ size xy xz).
Proof. exact products_distribute_L. Qed.
Print Assumptions products_distribute.

Example products_distribute_ex :
  addQ 16 exA exB = [0; 12288; 1; 0; 0; 0; 0; 0; 0; 12288; 0; 0; 0; 0; 0; 12]
  /\ product_procedure 16 1212 T16 R16 false (red_product1 false 16 R16)
  /\ (exists xy xz, leaves (red_product1 false 16 R16) exC exA xy /\ leaves (red_product1 false 16 R16) exC exB xz
       /\ leaves (red_product1 false 16 R16) exC (addQ 16 exA exB) (addQ 16 xy xz)).
Proof.
  assert (HA : poly 16 exA) by (split; [reflexivity|check_all_in]).
  assert (HB : poly 16 exB) by (split; [reflexivity|check_all_in]).
  assert (HC : poly 16 exC) by (split; [reflexivity|check_all_in]).
  assert (HL : (16 <= 1024)%Z) by discriminate.
  assert (H1 : product_procedure 16 1212 T16 R16 false (red_product1 false 16 R16)) by (right; left; left; reflexivity).
  split; [vm_compute; reflexivity|]. split; [exact H1|].
  exact (products_distribute malloc77 16 1212 T16 R16 false malloc77_len T16_made R16_made HL _ H1 exC exA exB HC HA HB).
Qed.

(** C56: the product by X^k rotates the coefficients, changing the sign of those that come around *)
Theorem products_by_monomial :
forall malloc size psi T R sh, (forall n, 0 <= n -> zlen (malloc n) = n) ->
  make_tables malloc size psi = Ok (Written T) -> make_red_tables malloc size psi = Ok (Written R) -> size <= 1024 ->
  forall f, product_procedure size psi T R sh f ->
  forall x k, poly size x -> 0 <= k < size ->
  leaves f x (monomial size k) (rotate size k x) /\ leaves f (monomial size k) x (rotate size k x).
Proof. exact products_by_monomial_L. Qed.
Print Assumptions products_by_monomial.

Example products_by_monomial_ex :
  monomial 16 2 = [0; 0; 1; 0; 0; 0; 0; 0; 0; 0; 0; 0; 0; 0; 0; 0]
  /\ rotate 16 2 exA = [0; 12284; 0; 12288; 0; 0; 0; 0; 0; 0; 0; 0; 0; 0; 0; 0]
  /\ leaves (ntt_product2 16 T16) exA (monomial 16 2) (rotate 16 2 exA).
Proof.
  assert (HA : poly 16 exA) by (split; [reflexivity|check_all_in]).
  assert (HL : (16 <= 1024)%Z) by discriminate.
  assert (H1 : product_procedure 16 1212 T16 R16 true (ntt_product2 16 T16)) by (left; right; left; reflexivity).
  split; [vm_compute; reflexivity|]. split; [vm_compute; reflexivity|].
  exact (proj1 (products_by_monomial malloc77 16 1212 T16 R16 true malloc77_len T16_made R16_made HL _ H1 exA 2 HA
     ltac:(split; [discriminate|reflexivity]))).
Qed.

(** C56: the polynomial 1 is the unit *)
Theorem products_by_one :
forall malloc size psi T R sh, (forall n, 0 <= n -> zlen (malloc n) = n) ->
  make_tables malloc size psi = Ok (Written T) -> make_red_tables malloc size psi = Ok (Written R) -> size <= 1024 ->
  forall f, product_procedure size psi T R sh f ->
  forall x, poly size x -> leaves f x (monomial size 0) x /\ leaves f (monomial size 0) x x.
Proof. exact products_by_one_L. Qed.
Print Assumptions products_by_one.

Example products_by_one_ex :
  poly 16 exC /\ exists h', red_product5 true 16 R16 (fun p => if p =? 1 then exC else monomial 16 0) 3 1 2 = Ok h' /\ h' 3 = exC.
Proof.
  assert (HC : poly 16 exC) by (split; [reflexivity|check_all_in]).
  split; [exact HC|]. assert (HL : (16 <= 1024)%Z) by discriminate.
  assert (H1 : product_procedure 16 1212 T16 R16 true (red_product5 true 16 R16)).
  { right; left. right; right; right; right; left; reflexivity. }
  apply (proj1 (products_by_one malloc77 16 1212 T16 R16 true malloc77_len T16_made R16_made HL _ H1 exC HC));
    [discriminate|reflexivity|reflexivity|reflexivity].
Qed.
