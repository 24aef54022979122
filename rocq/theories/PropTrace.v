(** Properties C52-C55: what an observer of memory addresses and branches learns.

    [TraceX.f] is the function [ModelX.f] with a trace of all array accesses and
    all decisions of branches and loops (see TraceSem).  Each theorem says first
    that forgetting the trace gives the modelled function, then that two
    successful runs with the same size [n] have the same trace, whatever the
    coefficients and the values in the tables. *)

From Coq Require Import ZArith List Bool Lia.
From Verif Require Import CSem Spec Exlib ExTables ModelGen GenFinal ProdFinal AvxProdFinal TraceFinal.
From Verif Require ModelNtt ModelRed ModelNaive ModelProducts ModelAvx ModelAvxProd.
From Verif Require TraceSem TraceNtt TraceRed TraceNaive TraceProducts TraceAvx TraceAvxProd.
Import TraceSem(same_trace, Load, Store, Branch, Arg, Tab, Ptr).
Import ListNotations.
Open Scope Z_scope.

(** C52: the transforms and the products by a table, default and Longa-Naehrig *)
Theorem c_transforms_trace :
forall ft f, In (ft, f)
   ([(TraceNtt.mul_array16, ModelNtt.mul_array16);
     (TraceNtt.ntt_ct_rev2std_v1, ModelNtt.ntt_ct_rev2std_v1);
     (TraceNtt.ntt_ct_rev2std, ModelNtt.ntt_ct_rev2std);
     (TraceNtt.ntt_ct_std2rev, ModelNtt.ntt_ct_std2rev);
     (TraceNtt.ntt_gs_rev2std, ModelNtt.ntt_gs_rev2std);
     (TraceNtt.ntt_gs_std2rev, ModelNtt.ntt_gs_std2rev);
     (TraceNtt.mulntt_ct_rev2std, ModelNtt.mulntt_ct_rev2std);
     (TraceNtt.mulntt_ct_std2rev, ModelNtt.mulntt_ct_std2rev);
     (TraceNtt.nttmul_gs_rev2std, ModelNtt.nttmul_gs_rev2std);
     (TraceNtt.nttmul_gs_std2rev, ModelNtt.nttmul_gs_std2rev)] ++
    [(TraceRed.mul_reduce_array16, ModelRed.mul_reduce_array16);
     (TraceRed.ntt_red_ct_rev2std, ModelRed.ntt_red_ct_rev2std);
     (TraceRed.ntt_red_ct_std2rev, ModelRed.ntt_red_ct_std2rev);
     (TraceRed.ntt_red_gs_rev2std, ModelRed.ntt_red_gs_rev2std);
     (TraceRed.ntt_red_gs_std2rev, ModelRed.ntt_red_gs_std2rev);
     (TraceRed.mulntt_red_ct_rev2std, ModelRed.mulntt_red_ct_rev2std);
     (TraceRed.mulntt_red_ct_std2rev, ModelRed.mulntt_red_ct_std2rev);
     (TraceRed.nttmul_red_gs_rev2std, ModelRed.nttmul_red_gs_rev2std);
     (TraceRed.nttmul_red_gs_std2rev, ModelRed.nttmul_red_gs_std2rev)]) ->
  forall a a' n p p', snd (ft a n p) = f a n p /\ same_trace (ft a n p) (ft a' n p').
Proof. exact c_transforms_trace_L. Qed.
Print Assumptions c_transforms_trace.

Example c_transforms_trace_ex :
  TraceNtt.ntt_ct_rev2std [5; 7; 0; 12288] 4 [0; 1; 1; 1479]
  = ([Branch true; Branch true;
      Load Arg 1; Load Arg 0; Store Arg 1; Load Arg 0; Store Arg 0; Branch true;
      Load Arg 3; Load Arg 2; Store Arg 3; Load Arg 2; Store Arg 2; Branch false; Branch false;
      Branch true; Branch true;
      Load Arg 2; Load Arg 0; Store Arg 2; Load Arg 0; Store Arg 0; Branch false; Branch true;
      Load Tab 3; Branch true;
      Load Arg 3; Load Arg 1; Store Arg 3; Load Arg 1; Store Arg 1; Branch false; Branch false;
      Branch false], Ok [11; 1477; 13; 10808])
  /\ fst (TraceNtt.ntt_ct_rev2std [0; 0; 0; 0] 4 [0; 0; 0; 0])
     = fst (TraceNtt.ntt_ct_rev2std [5; 7; 0; 12288] 4 [0; 1; 1; 1479])
  /\ (exists r, ModelNtt.ntt_ct_rev2std [0; 0; 0; 0] 4 [0; 0; 0; 0] = Ok r).
Proof.
  split; [vm_compute; reflexivity|]. split; [vm_compute; reflexivity|].
  eexists. vm_compute. reflexivity.
Qed.

(** C52: the transforms and the product by a table, naive version *)
Theorem c_naive_trace :
forall ft f, In (ft, f)
    [(TraceNaive.mul_array16_naive, ModelNaive.mul_array16_naive);
     (TraceNaive.ntt_ct_rev2std_naive, ModelNaive.ntt_ct_rev2std_naive);
     (TraceNaive.ntt_ct_std2rev_naive, ModelNaive.ntt_ct_std2rev_naive);
     (TraceNaive.ntt_gs_rev2std_naive, ModelNaive.ntt_gs_rev2std_naive);
     (TraceNaive.ntt_gs_std2rev_naive, ModelNaive.ntt_gs_std2rev_naive);
     (TraceNaive.mulntt_ct_rev2std_naive, ModelNaive.mulntt_ct_rev2std_naive);
     (TraceNaive.mulntt_ct_std2rev_naive, ModelNaive.mulntt_ct_std2rev_naive);
     (TraceNaive.nttmul_gs_rev2std_naive, ModelNaive.nttmul_gs_rev2std_naive);
     (TraceNaive.nttmul_gs_std2rev_naive, ModelNaive.nttmul_gs_std2rev_naive)] ->
  forall a a' n p p' q, snd (ft a n p q) = f a n p q /\ same_trace (ft a n p q) (ft a' n p' q).
Proof. exact c_naive_trace_L. Qed.
Print Assumptions c_naive_trace.

Example c_naive_trace_ex :
  fst (TraceNaive.mul_array16_naive [5; 7] 2 [3; 4] 12289)
  = [Branch true; Load Arg 0; Load Tab 0; Store Arg 0; Branch true; Load Arg 1; Load Tab 1; Store Arg 1; Branch false]
  /\ snd (TraceNaive.mul_array16_naive [5; 7] 2 [3; 4] 12289) = Ok [15; 28].
Proof. split; vm_compute; reflexivity. Qed.

(** C52: functions of an array and its size *)
Theorem c_arrays_trace :
forall ft f, In (ft, f)
    [(TraceNtt.bitrev_shuffle, ModelNtt.bitrev_shuffle);
     (TraceRed.reduce_array, ModelRed.reduce_array);
     (TraceRed.reduce_array_twice, ModelRed.reduce_array_twice); (TraceRed.correct, ModelRed.correct)] ->
  forall a a' n, snd (ft a n) = f a n /\ same_trace (ft a n) (ft a' n).
Proof. exact c_arrays_trace_L. Qed.
Print Assumptions c_arrays_trace.

Example c_arrays_trace_ex :
  TraceNtt.bitrev_shuffle [5; 7; 0; 9] 4
  = ([Branch true; Branch true; Load Arg 1; Load Arg 2; Store Arg 1; Store Arg 2; Branch true; Branch false;
      Branch true; Branch false; Branch false; Branch false], Ok [5; 0; 7; 9])
  /\ TraceRed.correct [12289; -130] 2
     = ([Branch true; Load Arg 0; Store Arg 0; Branch true; Load Arg 1; Store Arg 1; Branch false], Ok [0; 12159]).
Proof. split; vm_compute; reflexivity. Qed.

(** C52: products by a scalar, elementwise products of two arrays, shuffling by a table (the entries
    of that table are indices; they are public and the same in both runs) *)
Theorem c_scalars_trace :
(forall a a' n c c',
     snd (TraceNtt.scalar_mul_array a n c) = ModelNtt.scalar_mul_array a n c
     /\ same_trace (TraceNtt.scalar_mul_array a n c) (TraceNtt.scalar_mul_array a' n c')
     /\ snd (TraceRed.scalar_mul_reduce_array a n c) = ModelRed.scalar_mul_reduce_array a n c
     /\ same_trace (TraceRed.scalar_mul_reduce_array a n c) (TraceRed.scalar_mul_reduce_array a' n c'))
  /\ (forall h h' n c a b,
     snd (TraceNtt.mul_array_h h c n a b) = ModelNtt.mul_array_h h c n a b
     /\ same_trace (TraceNtt.mul_array_h h c n a b) (TraceNtt.mul_array_h h' c n a b)
     /\ snd (TraceRed.mul_reduce_array_h h c n a b) = ModelRed.mul_reduce_array_h h c n a b
     /\ same_trace (TraceRed.mul_reduce_array_h h c n a b) (TraceRed.mul_reduce_array_h h' c n a b))
  /\ (forall a a' n c c' q,
     snd (TraceNaive.scalar_mul_array_naive a n c q) = ModelNaive.scalar_mul_array_naive a n c q
     /\ same_trace (TraceNaive.scalar_mul_array_naive a n c q) (TraceNaive.scalar_mul_array_naive a' n c' q))
  /\ (forall h h' n c a b q,
     snd (TraceNaive.mul_array_naive_h h c n a b q) = ModelNaive.mul_array_naive_h h c n a b q
     /\ same_trace (TraceNaive.mul_array_naive_h h c n a b q) (TraceNaive.mul_array_naive_h h' c n a b q))
  /\ (forall a a' p n,
     snd (TraceNtt.shuffle_with_table a p n) = ModelNtt.shuffle_with_table a p n
     /\ same_trace (TraceNtt.shuffle_with_table a p n) (TraceNtt.shuffle_with_table a' p n)).
Proof. exact c_scalars_trace_L. Qed.
Print Assumptions c_scalars_trace.

Example c_scalars_trace_ex :
  fst (TraceNtt.mul_array_h (fun p => if p =? 1 then [2] else [7]) 3 1 1 2)
  = [Branch true; Load (Ptr 1) 0; Load (Ptr 2) 0; Store (Ptr 3) 0; Branch false]
  /\ TraceNtt.shuffle_with_table [5; 7; 0; 9] [(1, 2)] 1
     = ([Branch true; Load Tab 0; Load Tab 1; Load Arg 1; Load Arg 2; Store Arg 1; Store Arg 2; Branch false],
        Ok [5; 0; 7; 9]).
Proof. split; vm_compute; reflexivity. Qed.

(** C53: the AVX2 routines *)
Theorem asm_trace :
(forall ft f, In (ft, f)
    [(TraceAvx.mul_reduce_array16_asm, ModelAvx.mul_reduce_array16_asm);
     (TraceAvx.mul_reduce_array16_asm2, ModelAvx.mul_reduce_array16_asm2);
     (TraceAvx.ntt_red_ct_rev2std_asm, ModelAvx.ntt_red_ct_rev2std_asm);
     (TraceAvx.ntt_red_ct_std2rev_asm, ModelAvx.ntt_red_ct_std2rev_asm);
     (TraceAvx.ntt_red_gs_rev2std_asm, ModelAvx.ntt_red_gs_rev2std_asm);
     (TraceAvx.ntt_red_gs_std2rev_asm, ModelAvx.ntt_red_gs_std2rev_asm);
     (TraceAvx.mulntt_red_ct_rev2std_asm, ModelAvx.mulntt_red_ct_rev2std_asm);
     (TraceAvx.mulntt_red_ct_std2rev_asm, ModelAvx.mulntt_red_ct_std2rev_asm);
     (TraceAvx.nttmul_red_gs_rev2std_asm, ModelAvx.nttmul_red_gs_rev2std_asm);
     (TraceAvx.nttmul_red_gs_std2rev_asm, ModelAvx.nttmul_red_gs_std2rev_asm)] ->
   forall a a' n p p', snd (ft a n p) = f a n p /\ same_trace (ft a n p) (ft a' n p'))
  /\ (forall ft f, In (ft, f)
    [(TraceAvx.reduce_array_asm, ModelAvx.reduce_array_asm);
     (TraceAvx.reduce_array_asm2, ModelAvx.reduce_array_asm2);
     (TraceAvx.reduce_array_twice_asm, ModelAvx.reduce_array_twice_asm);
     (TraceAvx.reduce_array_twice_asm2, ModelAvx.reduce_array_twice_asm2);
     (TraceAvx.correct_asm, ModelAvx.correct_asm);
     (TraceAvx.shift_array_asm, ModelAvx.shift_array_asm)] ->
   forall a a' n, snd (ft a n) = f a n /\ same_trace (ft a n) (ft a' n))
  /\ (forall a a' n c c',
     snd (TraceAvx.scalar_mul_reduce_array_asm a n c) = ModelAvx.scalar_mul_reduce_array_asm a n c
     /\ same_trace (TraceAvx.scalar_mul_reduce_array_asm a n c) (TraceAvx.scalar_mul_reduce_array_asm a' n c'))
  /\ (forall h h' n c a b,
     snd (TraceAvx.mul_reduce_array_asm_h h c n a b) = ModelAvx.mul_reduce_array_asm_h h c n a b
     /\ same_trace (TraceAvx.mul_reduce_array_asm_h h c n a b) (TraceAvx.mul_reduce_array_asm_h h' c n a b)).
Proof. exact asm_trace_L. Qed.
Print Assumptions asm_trace.

Example asm_trace_ex :
  fst (TraceAvx.reduce_array_asm2 [1; 2; 3; 4; 5; 6; 7; 8] 8)
  = [Load Arg 0; Load Arg 1; Load Arg 2; Load Arg 3; Load Arg 4; Load Arg 5; Load Arg 6; Load Arg 7;
     Store Arg 0; Store Arg 1; Store Arg 2; Store Arg 3; Store Arg 4; Store Arg 5; Store Arg 6; Store Arg 7;
     Branch false]
  /\ snd (TraceAvx.reduce_array_asm2 [1; 2; 3; 4; 5; 6; 7; 8] 8) = Ok [3; 6; 9; 12; 15; 18; 21; 24]
  /\ (exists r, snd (TraceAvx.ntt_red_gs_rev2std_asm (repeat 5 16) 16 (red_omega_powers_rev R16)) = Ok r)
  /\ length (fst (TraceAvx.ntt_red_gs_rev2std_asm (repeat 5 16) 16 (red_omega_powers_rev R16))) = 81%nat.
Proof.
  split; [vm_compute; reflexivity|]. split; [vm_compute; reflexivity|].
  split; [eexists; vm_compute; reflexivity | vm_compute; reflexivity].
Qed.

(** C54: the product procedures in C run with one fixed trace.  The Longa-Naehrig ones: for the
    sizes that do not start with [shift_array] (1024) *)
Theorem c_products_trace :
forall malloc size psi T R, (forall n, 0 <= n -> zlen (malloc n) = n) ->
  make_tables malloc size psi = Ok (Written T) ->
  make_red_tables malloc size psi = Ok (Written R) -> size <= 1024 ->
  forall ft f, In (ft, f)
   ([(TraceProducts.ntt_product1 size T, ModelProducts.ntt_product1 size T);
     (TraceProducts.ntt_product2 size T, ModelProducts.ntt_product2 size T);
     (TraceProducts.ntt_product3 size T, ModelProducts.ntt_product3 size T);
     (TraceProducts.ntt_product4 size T, ModelProducts.ntt_product4 size T);
     (TraceProducts.ntt_product5 size T, ModelProducts.ntt_product5 size T)] ++
    [(TraceProducts.naive_product1 size T, ModelProducts.naive_product1 size T);
     (TraceProducts.naive_product2 size T, ModelProducts.naive_product2 size T);
     (TraceProducts.naive_product3 size T, ModelProducts.naive_product3 size T);
     (TraceProducts.naive_product4 size T, ModelProducts.naive_product4 size T);
     (TraceProducts.naive_product5 size T, ModelProducts.naive_product5 size T)] ++
    [(TraceProducts.red_product1 false size R, ModelProducts.red_product1 false size R);
     (TraceProducts.red_product2 false size R, ModelProducts.red_product2 false size R);
     (TraceProducts.red_product3 false size R, ModelProducts.red_product3 false size R);
     (TraceProducts.red_product4 false size R, ModelProducts.red_product4 false size R);
     (TraceProducts.red_product5 false size R, ModelProducts.red_product5 false size R)]) ->
  forall c a b, a <> b -> exists t, forall h,
  zlen (h a) = size -> zlen (h b) = size -> zlen (h c) = size ->
  all_in 0 (Q - 1) (h a) -> all_in 0 (Q - 1) (h b) ->
  exists h', ft h c a b = (t, Ok h') /\ f h c a b = Ok h'.
Proof. exact c_products_trace_L. Qed.
Print Assumptions c_products_trace.

Example c_products_trace_ex :
  make_tables malloc77 16 1212 = Ok (Written T16) /\ make_red_tables malloc77 16 1212 = Ok (Written R16)
  /\ all_in 0 (Q - 1) exA /\ all_in 0 (Q - 1) exB
  /\ length (fst (TraceProducts.ntt_product5 16 T16 exH 3 1 2)) = 852%nat
  /\ length (fst (TraceProducts.red_product5 false 16 R16 exH 3 1 2)) = 1097%nat.
Proof.
  split; [exact T16_made|]. split; [exact R16_made|]. split; [check_all_in|]. split; [check_all_in|].
  split; vm_compute; reflexivity.
Qed.

(** C54: the product procedures that use the AVX2 routines, with or without the initial shift *)
Theorem asm_products_trace :
forall malloc size psi R sh, (forall n, 0 <= n -> zlen (malloc n) = n) ->
  make_red_tables malloc size psi = Ok (Written R) -> 16 <= size <= 1024 ->
  forall ft f, In (ft, f)
    [(TraceAvxProd.red_product1_asm sh size R, ModelAvxProd.red_product1_asm sh size R);
     (TraceAvxProd.red_product2_asm sh size R, ModelAvxProd.red_product2_asm sh size R);
     (TraceAvxProd.red_product3_asm sh size R, ModelAvxProd.red_product3_asm sh size R);
     (TraceAvxProd.red_product4_asm sh size R, ModelAvxProd.red_product4_asm sh size R);
     (TraceAvxProd.red_product5_asm sh size R, ModelAvxProd.red_product5_asm sh size R)] ->
  forall c a b, a <> b -> exists t, forall h,
  zlen (h a) = size -> zlen (h b) = size -> zlen (h c) = size ->
  all_in 0 (Q - 1) (h a) -> all_in 0 (Q - 1) (h b) ->
  exists h', ft h c a b = (t, Ok h') /\ f h c a b = Ok h'.
Proof. exact asm_products_trace_L. Qed.
Print Assumptions asm_products_trace.

Example asm_products_trace_ex :
  make_red_tables malloc77 16 1212 = Ok (Written R16)
  /\ all_in 0 (Q - 1) exA /\ all_in 0 (Q - 1) exB
  /\ length (fst (TraceAvxProd.red_product5_asm true 16 R16 exH 3 1 2)) = 696%nat.
Proof.
  split; [exact R16_made|]. split; [check_all_in|]. split; [check_all_in|].
  vm_compute; reflexivity.
Qed.

(** C54: the same for the first product of size 1024 *)
Theorem asm1024_product1_trace :
forall malloc R, (forall n, 0 <= n -> zlen (malloc n) = n) ->
  make_red_tables malloc 1024 1014 = Ok (Written R) ->
  forall c a b, a <> b -> exists t, forall h,
  zlen (h a) = 1024 -> zlen (h b) = 1024 -> zlen (h c) = 1024 ->
  all_in 0 (Q - 1) (h a) -> all_in 0 (Q - 1) (h b) ->
  exists h', TraceAvxProd.red1024_product1_asm 1024 R h c a b = (t, Ok h')
    /\ ModelAvxProd.red1024_product1_asm 1024 R h c a b = Ok h'.
Proof. exact asm1024_product1_trace_L. Qed.
Print Assumptions asm1024_product1_trace.

Example asm1024_product1_trace_ex : exists R t, make_red_tables malloc77 1024 1014 = Ok (Written R)
  /\ all_in 0 (Q - 1) (exH24 1) /\ all_in 0 (Q - 1) (exH24 2)
  /\ (exists h', TraceAvxProd.red1024_product1_asm 1024 R exH24 3 1 2 = (t, Ok h')).
Proof.
  assert (HI : In (1024, 1014) [(16, 1212); (256, 1002); (512, 1003); (1024, 1014)]) by (cbn [In]; tauto).
  destruct (proj2 (shipped_sizes_accepted_L malloc77 1024 1014 malloc77_len HI)) as (R & ER). clear HI.
  destruct (asm1024_product1_trace malloc77 R malloc77_len ER 3 1 2 ltac:(discriminate)) as [t Ht].
  exists R, t. split; [exact ER|]. split; [check_all_in|]. split; [check_all_in|].
  destruct (Ht exH24) as (h' & E & _); [vm_compute; reflexivity..| | |]; [check_all_in|check_all_in|].
  exists h'. exact E.
Qed.

(** C55: normalize, normalize_inv3 and shift_array branch on the values of the coefficients; so do the
    Longa-Naehrig products that start with [shift_array] *)
Theorem branches_on_values_refuted :
(forall a n, snd (TraceRed.normalize a n) = ModelRed.normalize a n
      /\ snd (TraceRed.normalize_inv3 a n) = ModelRed.normalize_inv3 a n
      /\ snd (TraceRed.shift_array a n) = ModelRed.shift_array a n)
  /\ (exists a a', ~ same_trace (TraceRed.normalize a 1) (TraceRed.normalize a' 1))
  /\ (exists a a', ~ same_trace (TraceRed.normalize_inv3 a 1) (TraceRed.normalize_inv3 a' 1))
  /\ (exists a a', all_in 0 (Q - 1) a /\ all_in 0 (Q - 1) a'
       /\ ~ same_trace (TraceRed.shift_array a 1) (TraceRed.shift_array a' 1))
  /\ (exists T h h', make_red_tables malloc77 16 1212 = Ok (Written T)
       /\ all_in 0 (Q - 1) (h 1) /\ all_in 0 (Q - 1) (h 2) /\ all_in 0 (Q - 1) (h' 1) /\ all_in 0 (Q - 1) (h' 2)
       /\ ~ same_trace (TraceProducts.red_product5 true 16 T h 3 1 2) (TraceProducts.red_product5 true 16 T h' 3 1 2)).
Proof. exact branches_on_values_refuted_L. Qed.
Print Assumptions branches_on_values_refuted.

Example branches_on_values_ex :
  TraceRed.shift_array [5] 1 = ([Branch true; Load Arg 0; Branch false; Store Arg 0; Branch false], Ok [5])
  /\ TraceRed.shift_array [12288] 1 = ([Branch true; Load Arg 0; Branch true; Store Arg 0; Branch false], Ok [-1]).
Proof. split; vm_compute; reflexivity. Qed.
