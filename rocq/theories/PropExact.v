(** Property C94: the product procedures and products of integer polynomials. *)

From Coq Require Import ZArith List Lia.
From Verif Require Import CSem Spec SpecRing SpecExact ModQ ModelProducts ModelAvxProd ModelGen Exlib ExTables ProdFinal ExactFinal.
Import ListNotations.
Open Scope Z_scope.

(** C94: a coefficient of the product modulo X^n + 1 over the integers that lies between -6144 and 6144 is computed exactly,
    whatever the size of the coefficients of the arguments and of the other coefficients *)
Theorem products_exact :
forall malloc size psi T R sh, (forall n, 0 <= n -> zlen (malloc n) = n) ->
  make_tables malloc size psi = Ok (Written T) -> make_red_tables malloc size psi = Ok (Written R) -> size <= 1024 ->
  forall f, product_procedure size psi T R sh f ->
  forall X Y, exists r, leaves f (encode size X) (encode size Y) r /\ poly size r
    /\ forall i, 0 <= i < size -> -6144 <= negacyclic size X Y i <= 6144 -> centred (at_ r i) = negacyclic size X Y i.
Proof. exact exact_L. Qed.
Print Assumptions products_exact.

(** The bounds cannot be widened. *)
Example products_exact_ex :
  make_tables malloc77 16 1212 = Ok (Written T16) /\ make_red_tables malloc77 16 1212 = Ok (Written R16)
  /\ product_procedure 16 1212 T16 R16 true (red_product5_asm true 16 R16)
  /\ upto16 (negacyclic 16 exU exY)
     = [-5000; 12000; -8985; 6990; -4994965; -21; 14; 4999951; -5000000; 5000000; 25000; 0; 2997; -36998; 6993; -3000]
  /\ map centred (run3 (red_product5_asm true 16 R16 (exE exU exY) 3 1 2))
     = [-5000; -289; 3304; -5299; -5631; -21; 14; -1672; 1623; -1623; 422; 0; 2997; -131; -5296; -3000]
  /\ centred ((6144 + 1) mod Q) = -6144 /\ centred ((-6144 - 1) mod Q) = 6144.
Proof.
  split; [exact T16_made|]. split; [exact R16_made|].
  split; [right; right; left; split; [lia|right; right; right; right; left; reflexivity]|].
  split; [vm_compute; reflexivity|]. split; [vm_compute; reflexivity|]. split; reflexivity.
Qed.

(** C94: the whole product is exact if one factor has coefficients within C and the absolute values of the coefficients of
    the other have a sum of at most 6144 / C *)
Theorem products_small :
forall malloc size psi T R sh, (forall n, 0 <= n -> zlen (malloc n) = n) ->
  make_tables malloc size psi = Ok (Written T) -> make_red_tables malloc size psi = Ok (Written R) -> size <= 1024 ->
  forall f, product_procedure size psi T R sh f ->
  forall X Y C, (forall i, 0 <= i < size -> Z.abs (Y i) <= C) -> Sum size (fun i => Z.abs (X i)) * C <= 6144 ->
  exists r, leaves f (encode size X) (encode size Y) r /\ leaves f (encode size Y) (encode size X) r
    /\ forall i, 0 <= i < size -> centred (at_ r i) = negacyclic size X Y i.
Proof. exact small_L. Qed.
Print Assumptions products_small.

(** A factor with six coefficients 1 and -1, the other with coefficients up to 1000 *)
Example products_small_ex :
  make_tables malloc77 16 1212 = Ok (Written T16) /\ make_red_tables malloc77 16 1212 = Ok (Written R16)
  /\ Sum 16 (fun i => Z.abs (exX i)) = 6 /\ forallb (fun v => Z.abs v <=? 1000) (upto16 exY) = true
  /\ map centred (run3 (ntt_product1 16 T16 (exE exX exY) 3 1 2)) = upto16 (negacyclic 16 exX exY)
  /\ map centred (run3 (red_product2_asm true 16 R16 (exE exY exX) 3 1 2)) = upto16 (negacyclic 16 exX exY)
  /\ negacyclic 16 exX exY 1 = 2005.
Proof.
  split; [exact T16_made|]. split; [exact R16_made|]. split; [reflexivity|]. split; [reflexivity|].
  split; [vm_compute; reflexivity|]. split; [vm_compute; reflexivity|]. vm_compute. reflexivity.
Qed.

(** C94: if the degrees are small enough, the result is the ordinary product of the polynomials, modulo Q *)
Theorem products_ordinary :
forall malloc size psi T R sh, (forall n, 0 <= n -> zlen (malloc n) = n) ->
  make_tables malloc size psi = Ok (Written T) -> make_red_tables malloc size psi = Ok (Written R) -> size <= 1024 ->
  forall f, product_procedure size psi T R sh f ->
  forall X Y p q, (forall i, p <= i < size -> X i = 0) -> (forall i, q <= i < size -> Y i = 0) -> p + q <= size + 1 ->
  exists r, leaves f (encode size X) (encode size Y) r
    /\ forall i, 0 <= i < size -> at_ r i = ordinary X Y i mod Q.
Proof. exact ordinary_L. Qed.
Print Assumptions products_ordinary.

(** Nine and eight coefficients with n = 16; with one coefficient more, something comes around. *)
Example products_ordinary_ex :
  make_tables malloc77 16 1212 = Ok (Written T16) /\ make_red_tables malloc77 16 1212 = Ok (Written R16)
  /\ forallb (fun i => exU (Z.of_nat i) =? 0) (seq 9 7) = true /\ forallb (fun i => exV (Z.of_nat i) =? 0) (seq 8 8) = true
  /\ run3 (ntt_product4 16 T16 (exE exU exV) 3 1 2) = map (fun v => v mod Q) (upto16 (ordinary exU exV))
  /\ ordinary exU exV 15 = 45000
  /\ (let Y := at_ [-4; 0; 0; 0; 1; 0; 0; 9; 1; 0; 0; 0; 0; 0; 0; 0] in negacyclic 16 exU Y 0 <> ordinary exU Y 0).
Proof.
  split; [exact T16_made|]. split; [exact R16_made|]. split; [reflexivity|]. split; [reflexivity|].
  split; [vm_compute; reflexivity|]. split; [vm_compute; reflexivity|]. vm_compute. discriminate.
Qed.

(** C94: the same for the naive products, for every n, with any representatives between -Q + 1 and Q - 1; their results are
    such representatives too *)
Theorem naive_products_exact :
forall malloc size psi T, (forall n, 0 <= n -> zlen (malloc n) = n) ->
  make_tables malloc size psi = Ok (Written T) ->
  forall f, In f [naive_product1 size T; naive_product2 size T; naive_product3 size T; naive_product4 size T; naive_product5 size T] ->
  forall X Y h c a b, a <> b -> zlen (h a) = size -> zlen (h b) = size -> zlen (h c) = size ->
  all_in (- Q + 1) (Q - 1) (h a) -> all_in (- Q + 1) (Q - 1) (h b) ->
  (forall i, 0 <= i < size -> eqQ (at_ (h a) i) (X i)) -> (forall i, 0 <= i < size -> eqQ (at_ (h b) i) (Y i)) ->
  exists h', f h c a b = Ok h' /\ zlen (h' c) = size
    /\ (forall i, 0 <= i < size -> -6144 <= negacyclic size X Y i <= 6144 -> centred (at_ (h' c) i mod Q) = negacyclic size X Y i)
    /\ (forall C, (forall i, 0 <= i < size -> Z.abs (Y i) <= C) -> Sum size (fun i => Z.abs (X i)) * C <= 6144 ->
        forall i, 0 <= i < size -> centred (at_ (h' c) i mod Q) = negacyclic size X Y i)
    /\ (forall p q, (forall i, p <= i < size -> X i = 0) -> (forall i, q <= i < size -> Y i = 0) -> p + q <= size + 1 ->
        forall i, 0 <= i < size -> eqQ (at_ (h' c) i) (ordinary X Y i)).
Proof. exact naive_exact_L. Qed.
Print Assumptions naive_products_exact.

Example naive_products_exact_ex :
  make_tables malloc77 16 1212 = Ok (Written T16)
  /\ all_in (- Q + 1) (Q - 1) (exN 1) /\ all_in (- Q + 1) (Q - 1) (exN 2)
  /\ map (fun v => v mod Q) (exN 1) = encode 16 exX /\ map (fun v => v mod Q) (exN 2) = encode 16 exY
  /\ map (fun v => centred (v mod Q)) (run3 (naive_product5 16 T16 exN 3 1 2)) = upto16 (negacyclic 16 exX exY).
Proof.
  split; [exact T16_made|]. split; [check_all_in|]. split; [check_all_in|]. split; [reflexivity|]. split; [reflexivity|].
  vm_compute. reflexivity.
Qed.
