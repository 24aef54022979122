(** Property C87: the functions read and write only the first [n] elements of their arrays; and
    the AVX2 routines stay inside their arrays whatever these contain (C45, C48, C53). *)

From Coq Require Import ZArith List Bool Lia.
From Verif Require Import CSem Spec Exlib ExTables ModelGen GenFinal ProdFinal AvxNttFinal FrameFinal.
From Verif Require ModelNtt ModelNaive ModelRed ModelAvx ModelProducts ModelAvxProd TraceSem TraceAvx.
Import ListNotations.
Open Scope Z_scope.

(** C87: functions on an array [a] and a table [p].  With longer arrays ([a ++ s] and [p ++ q]) the
    outcome is the same, and the elements that follow are left alone.  (Other outcomes than a result
    or an access outside the arrays are the failures that the model knows: overflow, assertions,
    division by zero.) *)
Theorem frame_table :
forall f, In f
    [ModelNtt.mul_array16;
     ModelNtt.ntt_ct_rev2std_v1;
     ModelNtt.ntt_ct_rev2std;
     ModelNtt.ntt_ct_std2rev;
     ModelNtt.ntt_gs_rev2std;
     ModelNtt.ntt_gs_std2rev;
     ModelNtt.mulntt_ct_rev2std;
     ModelNtt.mulntt_ct_std2rev;
     ModelNtt.nttmul_gs_rev2std;
     ModelNtt.nttmul_gs_std2rev;
     ModelRed.mul_reduce_array16;
     ModelRed.ntt_red_ct_rev2std;
     ModelRed.ntt_red_ct_std2rev;
     ModelRed.ntt_red_gs_rev2std;
     ModelRed.ntt_red_gs_std2rev;
     ModelRed.mulntt_red_ct_rev2std;
     ModelRed.mulntt_red_ct_std2rev;
     ModelRed.nttmul_red_gs_rev2std;
     ModelRed.nttmul_red_gs_std2rev;
     ModelAvx.mul_reduce_array16_asm;
     ModelAvx.mul_reduce_array16_asm2;
     ModelAvx.ntt_red_ct_rev2std_asm;
     ModelAvx.ntt_red_ct_std2rev_asm;
     ModelAvx.ntt_red_gs_rev2std_asm;
     ModelAvx.ntt_red_gs_std2rev_asm;
     ModelAvx.mulntt_red_ct_rev2std_asm;
     ModelAvx.mulntt_red_ct_std2rev_asm;
     ModelAvx.nttmul_red_gs_rev2std_asm;
     ModelAvx.nttmul_red_gs_std2rev_asm] ->
  forall a n p s q,
    (forall r, f a n p = Ok r -> f (a ++ s) n (p ++ q) = Ok (r ++ s))
    /\ (forall e, f a n p = Err e -> e <> OutOfBounds -> f (a ++ s) n (p ++ q) = Err e).
Proof. exact frame_table_L. Qed.
Print Assumptions frame_table.

Example frame_table_ex :
  ModelRed.ntt_red_ct_rev2std ex_a16 16 ex_w16 = Ok [-11657; 14350; -11843; 16297; -19354; 67144; -15565;
       12125; -11727; -17708; -18363; 361; -43234; 51794; -40241; 27637]
  /\ ModelRed.ntt_red_ct_rev2std (ex_a16 ++ [7; -9]) 16 (ex_w16 ++ [1; 2; 3])
     = Ok [-11657; 14350; -11843; 16297; -19354; 67144; -15565;
       12125; -11727; -17708; -18363; 361; -43234; 51794; -40241; 27637; 7; -9]
  /\ ModelAvx.ntt_red_gs_std2rev_asm (ex_a16 ++ [7; -9]) 16 (ex_w16 ++ [1; 2; 3])
     = Ok [-11657; 66969; 21844; 8828; 27692; -45966; -27441; -40205;
       27170; 31772; -3111; -18423; 16224; -10436; -13093; -30151; 7; -9]
  /\ ModelRed.ntt_red_ct_rev2std (repeat (2 ^ 31 - 1) 16) 16 ex_w16 = Err SignedOverflow
  /\ ModelRed.ntt_red_ct_rev2std (repeat (2 ^ 31 - 1) 16 ++ [7]) 16 ex_w16 = Err SignedOverflow.
Proof. repeat split; vm_compute; reflexivity. Qed.

(** An array that is too short is not covered: the longer one gives a result. *)
Example frame_short_ex :
  ModelRed.reduce_array [5; 6] 3 = Err OutOfBounds /\ ModelRed.reduce_array ([5; 6] ++ [7; 8]) 3 = Ok [15; 18; 21; 8].
Proof. split; vm_compute; reflexivity. Qed.

(** C87: the naive functions, for any modulus [m] *)
Theorem frame_naive :
(forall f, In f
    [ModelNaive.mul_array16_naive;
     ModelNaive.ntt_ct_rev2std_naive;
     ModelNaive.ntt_ct_std2rev_naive;
     ModelNaive.ntt_gs_rev2std_naive;
     ModelNaive.ntt_gs_std2rev_naive;
     ModelNaive.mulntt_ct_rev2std_naive;
     ModelNaive.mulntt_ct_std2rev_naive;
     ModelNaive.nttmul_gs_rev2std_naive;
     ModelNaive.nttmul_gs_std2rev_naive] ->
  forall a n p m s q,
    (forall r, f a n p m = Ok r -> f (a ++ s) n (p ++ q) m = Ok (r ++ s))
    /\ (forall e, f a n p m = Err e -> e <> OutOfBounds -> f (a ++ s) n (p ++ q) m = Err e))
  /\ forall a n c m s,
    (forall r, ModelNaive.scalar_mul_array_naive a n c m = Ok r -> ModelNaive.scalar_mul_array_naive (a ++ s) n c m = Ok (r ++ s))
    /\ (forall e, ModelNaive.scalar_mul_array_naive a n c m = Err e -> e <> OutOfBounds -> ModelNaive.scalar_mul_array_naive (a ++ s) n c m = Err e).
Proof. exact frame_naive_L. Qed.
Print Assumptions frame_naive.

Example frame_naive_ex :
  ModelNaive.ntt_ct_rev2std_naive [3; 1; 4; 1; 9; 9] 4 [0; 1; 1; 1479; 55] 12289
  = Ok (match ModelNaive.ntt_ct_rev2std_naive [3; 1; 4; 1] 4 [0; 1; 1; 1479] 12289 with Ok r => r ++ [9; 9] | Err _ => [] end)
  /\ ModelNaive.scalar_mul_array_naive [3; 1; 4; 1; 9; 9] 4 5000 12289 = Ok [2711; 5000; 7711; 5000; 9; 9].
Proof. split; vm_compute; reflexivity. Qed.

(** C87: functions on one array *)
Theorem frame_array :
(forall f, In f
    [ModelNtt.bitrev_shuffle;
     ModelRed.normalize;
     ModelRed.normalize_inv3;
     ModelRed.shift_array;
     ModelRed.reduce_array;
     ModelRed.reduce_array_twice;
     ModelRed.correct;
     ModelAvx.reduce_array_asm;
     ModelAvx.reduce_array_asm2;
     ModelAvx.reduce_array_twice_asm;
     ModelAvx.reduce_array_twice_asm2;
     ModelAvx.correct_asm;
     ModelAvx.shift_array_asm] ->
  forall a n s,
    (forall r, f a n = Ok r -> f (a ++ s) n = Ok (r ++ s))
    /\ (forall e, f a n = Err e -> e <> OutOfBounds -> f (a ++ s) n = Err e))
  /\ (forall f, In f [ModelNtt.scalar_mul_array;
     ModelRed.scalar_mul_reduce_array;
     ModelAvx.scalar_mul_reduce_array_asm] ->
  forall a n c s,
    (forall r, f a n c = Ok r -> f (a ++ s) n c = Ok (r ++ s))
    /\ (forall e, f a n c = Err e -> e <> OutOfBounds -> f (a ++ s) n c = Err e))
  /\ forall a p n s,
    (forall r, ModelNtt.shuffle_with_table a p n = Ok r -> ModelNtt.shuffle_with_table (a ++ s) p n = Ok (r ++ s))
    /\ (forall e, ModelNtt.shuffle_with_table a p n = Err e -> e <> OutOfBounds -> ModelNtt.shuffle_with_table (a ++ s) p n = Err e).
Proof. exact frame_array_L. Qed.
Print Assumptions frame_array.

Example frame_array_ex :
  ModelNtt.bitrev_shuffle [0; 1; 2; 3; 4; 5; 6; 7; 70; 71] 8 = Ok [0; 4; 2; 6; 1; 5; 3; 7; 70; 71]
  /\ ModelRed.normalize [-1; 12289; 30000; -5] 3 = Ok [12288; 0; 5422; -5]
  /\ ModelRed.scalar_mul_reduce_array [1; 2; 3; 4] 3 5000 = Ok [2711; 5422; 8133; 4].
Proof. repeat split; vm_compute; reflexivity. Qed.

(** C87: the product of two arrays into a third, whatever the aliasing: all the arrays of the
    second heap are longer, by [t] *)
Theorem frame_array_product :
forall h h' t c n a b, (forall x, h' x = h x ++ t x) ->
  (forall f, In f [ModelNtt.mul_array_h;
     ModelRed.mul_reduce_array_h;
     ModelAvx.mul_reduce_array_asm_h] ->
    (forall r, f h c n a b = Ok r ->
        exists r', f h' c n a b = Ok r' /\ forall x, r' x = r x ++ t x)
    /\ (forall e, f h c n a b = Err e -> e <> OutOfBounds -> f h' c n a b = Err e))
  /\ (forall m,
    (forall r, ModelNaive.mul_array_naive_h h c n a b m = Ok r ->
        exists r', ModelNaive.mul_array_naive_h h' c n a b m = Ok r' /\ forall x, r' x = r x ++ t x)
    /\ (forall e, ModelNaive.mul_array_naive_h h c n a b m = Err e -> e <> OutOfBounds -> ModelNaive.mul_array_naive_h h' c n a b m = Err e)).
Proof. exact frame_array_product_L. Qed.
Print Assumptions frame_array_product.

Example frame_array_product_ex :
  let h := fun x => if x =? 1 then [3; 4; 5] else [7; 8; 9] in
  let h' := fun x => h x ++ (if x =? 1 then [11; 12] else [13]) in
  (do r <- ModelNtt.mul_array_h h 1 3 1 2; Ok (r 1)) = Ok [21; 32; 45]
  /\ (do r <- ModelNtt.mul_array_h h' 1 3 1 2; Ok (r 1)) = Ok [21; 32; 45; 11; 12].
Proof. split; vm_compute; reflexivity. Qed.

(** C87: the product procedures, with any tables; the three arrays may be the same *)
Theorem frame_products :
forall h h' t c a b, (forall x, h' x = h x ++ t x) ->
  (forall n T f, In f
    [ModelProducts.ntt_product1 n T;
     ModelProducts.ntt_product2 n T;
     ModelProducts.ntt_product3 n T;
     ModelProducts.ntt_product4 n T;
     ModelProducts.ntt_product5 n T;
     ModelProducts.naive_product1 n T;
     ModelProducts.naive_product2 n T;
     ModelProducts.naive_product3 n T;
     ModelProducts.naive_product4 n T;
     ModelProducts.naive_product5 n T] ->
    (forall r, f h c a b = Ok r ->
        exists r', f h' c a b = Ok r' /\ forall x, r' x = r x ++ t x)
    /\ (forall e, f h c a b = Err e -> e <> OutOfBounds -> f h' c a b = Err e))
  /\ (forall sh n T f, In f
    [ModelProducts.red_product1 sh n T;
     ModelProducts.red_product2 sh n T;
     ModelProducts.red_product3 sh n T;
     ModelProducts.red_product4 sh n T;
     ModelProducts.red_product5 sh n T;
     ModelAvxProd.red_product1_asm sh n T;
     ModelAvxProd.red_product2_asm sh n T;
     ModelAvxProd.red_product3_asm sh n T;
     ModelAvxProd.red_product4_asm sh n T;
     ModelAvxProd.red_product5_asm sh n T;
     ModelAvxProd.red1024_product1_asm n T] ->
    (forall r, f h c a b = Ok r ->
        exists r', f h' c a b = Ok r' /\ forall x, r' x = r x ++ t x)
    /\ (forall e, f h c a b = Err e -> e <> OutOfBounds -> f h' c a b = Err e)).
Proof. exact frame_products_L. Qed.
Print Assumptions frame_products.

Example frame_products_ex :
  let h' := fun x => exH x ++ [x; x] in
  (exists r, ModelProducts.red_product1 true 16 R16 exH 3 1 2 = Ok r /\ r 3 = exC)
  /\ (exists r, ModelProducts.red_product1 true 16 R16 h' 3 1 2 = Ok r /\ r 3 = exC ++ [3; 3])
  /\ (exists r, ModelProducts.ntt_product5 16 T16 h' 1 1 2 = Ok r /\ r 1 = exC ++ [1; 1])
  /\ (exists r, ModelAvxProd.red_product4_asm false 16 R16 h' 1 1 2 = Ok r /\ r 1 = exC ++ [1; 1]).
Proof. cbv zeta. repeat split; apply res_is_ok; vm_compute; reflexivity. Qed.

(** C48, C45, C87: for every content of the arrays, and any table, the AVX2 routines return a result:
    they never access memory outside the first [n] elements *)
Theorem asm_in_bounds :
(forall f, In f
    [ModelAvx.ntt_red_ct_rev2std_asm;
     ModelAvx.ntt_red_ct_std2rev_asm;
     ModelAvx.ntt_red_gs_rev2std_asm;
     ModelAvx.ntt_red_gs_std2rev_asm;
     ModelAvx.mulntt_red_ct_rev2std_asm;
     ModelAvx.mulntt_red_ct_std2rev_asm;
     ModelAvx.nttmul_red_gs_rev2std_asm;
     ModelAvx.nttmul_red_gs_std2rev_asm] ->
  forall k a p, 4 <= k <= 31 -> zlen a = 2 ^ k -> 2 ^ k <= zlen p ->
    exists r, f a (2 ^ k) p = Ok r /\ zlen r = 2 ^ k
      /\ forall s q, f (a ++ s) (2 ^ k) (p ++ q) = Ok (r ++ s))
  /\ (forall f, In f [ModelAvx.mul_reduce_array16_asm; ModelAvx.mul_reduce_array16_asm2] ->
  forall n a p, 0 < n < 2 ^ 32 -> n mod 16 = 0 -> zlen a = n -> n <= zlen p ->
    exists r, f a n p = Ok r /\ zlen r = n
      /\ forall s q, f (a ++ s) n (p ++ q) = Ok (r ++ s))
  /\ (forall f, In f [ModelAvx.reduce_array_asm;
     ModelAvx.reduce_array_asm2;
     ModelAvx.reduce_array_twice_asm;
     ModelAvx.reduce_array_twice_asm2;
     ModelAvx.correct_asm;
     ModelAvx.shift_array_asm] ->
  forall n a, 0 < n < 2 ^ 32 -> n mod 16 = 0 -> zlen a = n ->
    exists r, f a n = Ok r /\ zlen r = n
      /\ forall s, f (a ++ s) n = Ok (r ++ s))
  /\ (forall n a c, 0 < n < 2 ^ 32 -> n mod 16 = 0 -> zlen a = n ->
    exists r, ModelAvx.scalar_mul_reduce_array_asm a n c = Ok r /\ zlen r = n
      /\ forall s, ModelAvx.scalar_mul_reduce_array_asm (a ++ s) n c = Ok (r ++ s)).
Proof. exact asm_in_bounds_L. Qed.
Print Assumptions asm_in_bounds.

(** the largest and smallest values, and a table that is not one of powers: the C function overflows *)
Example asm_in_bounds_ex :
  let a := repeat (2 ^ 31 - 1) 8 ++ repeat (- 2 ^ 31) 8 in
  let p := repeat 32767 16 in
  zlen a = 2 ^ 4 /\ 2 ^ 4 <= zlen p
  /\ ModelRed.ntt_red_ct_std2rev a 16 p = Err SignedOverflow
  /\ (exists r, ModelAvx.ntt_red_ct_std2rev_asm a 16 p = Ok r /\ ModelAvx.ntt_red_ct_std2rev_asm (a ++ [5]) 16 (p ++ [6]) = Ok (r ++ [5]))
  /\ (exists r, ModelAvx.correct_asm a 16 = Ok r /\ ModelAvx.correct_asm (a ++ [5]) 16 = Ok (r ++ [5])).
Proof.
  cbv zeta. split; [reflexivity|]. split; [vm_compute; discriminate|]. split; [vm_compute; reflexivity|].
  split; (eexists; split; [vm_compute; reflexivity|vm_compute; reflexivity]).
Qed.

(** C53: hence the traces of the AVX2 routines are the same for all contents of arrays that are long
    enough *)
Theorem asm_trace_total :
(forall ft, In ft
    [TraceAvx.ntt_red_ct_rev2std_asm;
     TraceAvx.ntt_red_ct_std2rev_asm;
     TraceAvx.ntt_red_gs_rev2std_asm;
     TraceAvx.ntt_red_gs_std2rev_asm;
     TraceAvx.mulntt_red_ct_rev2std_asm;
     TraceAvx.mulntt_red_ct_std2rev_asm;
     TraceAvx.nttmul_red_gs_rev2std_asm;
     TraceAvx.nttmul_red_gs_std2rev_asm] ->
  forall k a a' p p', 4 <= k <= 31 -> 2 ^ k <= zlen a -> 2 ^ k <= zlen a' ->
    2 ^ k <= zlen p -> 2 ^ k <= zlen p' ->
    fst (ft a (2 ^ k) p) = fst (ft a' (2 ^ k) p'))
  /\ (forall ft, In ft [TraceAvx.mul_reduce_array16_asm; TraceAvx.mul_reduce_array16_asm2] ->
  forall n a a' p p', 0 < n < 2 ^ 32 -> n mod 16 = 0 -> n <= zlen a -> n <= zlen a' ->
    n <= zlen p -> n <= zlen p' ->
    fst (ft a n p) = fst (ft a' n p'))
  /\ (forall ft, In ft [TraceAvx.reduce_array_asm;
     TraceAvx.reduce_array_asm2;
     TraceAvx.reduce_array_twice_asm;
     TraceAvx.reduce_array_twice_asm2;
     TraceAvx.correct_asm;
     TraceAvx.shift_array_asm] ->
  forall n a a', 0 < n < 2 ^ 32 -> n mod 16 = 0 -> n <= zlen a -> n <= zlen a' ->
    fst (ft a n) = fst (ft a' n))
  /\ (forall n a a' c c', 0 < n < 2 ^ 32 -> n mod 16 = 0 -> n <= zlen a -> n <= zlen a' ->
    fst (TraceAvx.scalar_mul_reduce_array_asm a n c) = fst (TraceAvx.scalar_mul_reduce_array_asm a' n c')).
Proof. exact asm_trace_total_L. Qed.
Print Assumptions asm_trace_total.

Example asm_trace_total_ex :
  length (fst (TraceAvx.ntt_red_gs_std2rev_asm ex_a16 16 ex_w16)) = 84%nat
  /\ fst (TraceAvx.ntt_red_gs_std2rev_asm ex_a16 16 ex_w16)
     = fst (TraceAvx.ntt_red_gs_std2rev_asm (repeat (2 ^ 31 - 1) 17) 16 (repeat 32767 16)).
Proof. split; vm_compute; reflexivity. Qed.

