(** Properties of the product functions: C19 to C25.

    The tables are those written by the generators.  [h a], [h b], [h c] are the
    three array arguments; [c] may be [a] or [b]. *)

From Coq Require Import ZArith List Bool Lia.
From Verif Require Import CSem Spec Exlib ModelGen ModelProducts ExTables ProdFinal.
From Verif Require ModelRed.
Import ListNotations.
Open Scope Z_scope.

(** C20, C21, C23: the parameters of src/Makefile are accepted by both generators *)
Theorem shipped_sizes_accepted :
  forall malloc size psi, (forall n, 0 <= n -> zlen (malloc n) = n) ->
  In (size, psi) [(16, 1212); (256, 1002); (512, 1003); (1024, 1014)] ->
  (exists T, make_tables malloc size psi = Ok (Written T))
  /\ (exists T, make_red_tables malloc size psi = Ok (Written T)).
Proof. exact shipped_sizes_accepted_L. Qed.
Print Assumptions shipped_sizes_accepted.

(** C20, C25: products of the default implementation *)
Theorem ntt_products_correct :
  forall malloc size psi T, (forall n, 0 <= n -> zlen (malloc n) = n) ->
  make_tables malloc size psi = Ok (Written T) ->
  forall f, In f [ntt_product1 size T; ntt_product2 size T; ntt_product3 size T; ntt_product4 size T; ntt_product5 size T] ->
  forall h c a b, a <> b -> zlen (h a) = size -> zlen (h b) = size -> zlen (h c) = size ->
  all_in 0 (Q - 1) (h a) -> all_in 0 (Q - 1) (h b) ->
  exists h', f h c a b = Ok h' /\ zlen (h' c) = size /\ all_in 0 (Q - 1) (h' c)
    /\ (forall i, 0 <= i < size ->
          at_ (h' c) i = negacyclic size (at_ (h a)) (at_ (h b)) i mod Q)
    /\ (forall p, p <> a -> p <> b -> p <> c -> h' p = h p).
Proof. exact ntt_products_correct_L. Qed.
Print Assumptions ntt_products_correct.

(** Each of the five on the same arguments. *)
Example ntt_products_all_ex :
  forall f, In f [ntt_product1 16 T16; ntt_product2 16 T16; ntt_product3 16 T16; ntt_product4 16 T16; ntt_product5 16 T16] -> exists h', f exH 3 1 2 = Ok h' /\ h' 3 = exC.
Proof.
  intros f [<-|[<-|[<-|[<-|[<-|[]]]]]]; apply res_is_ok; vm_compute; reflexivity.
Qed.

(** (-x + 5x^15)(x^2 - x^9 + 7x^15) modulo x^16+1, in a third array and in
    place. *)
Example ntt_products_ex :
  make_tables malloc77 16 1212 = Ok (Written T16)
  /\ all_in 0 (Q - 1) exA /\ all_in 0 (Q - 1) exB
  /\ (exists h', ntt_product2 16 T16 exH 3 1 2 = Ok h' /\ h' 3 = exC)
  /\ (exists h', ntt_product5 16 T16 exH 1 1 2 = Ok h' /\ h' 1 = exC).
Proof.
  split; [exact T16_made|]. split; [check_all_in|]. split; [check_all_in|].
  split; apply res_is_ok; vm_compute; reflexivity.
Qed.

(** C21, C25: products of the naive implementation *)
Theorem naive_products_correct :
  forall malloc size psi T, (forall n, 0 <= n -> zlen (malloc n) = n) ->
  make_tables malloc size psi = Ok (Written T) ->
  forall f, In f [naive_product1 size T; naive_product2 size T; naive_product3 size T; naive_product4 size T; naive_product5 size T] ->
  forall h c a b, a <> b -> zlen (h a) = size -> zlen (h b) = size -> zlen (h c) = size ->
  all_in (- Q + 1) (Q - 1) (h a) -> all_in (- Q + 1) (Q - 1) (h b) ->
  exists h', f h c a b = Ok h' /\ zlen (h' c) = size /\ all_in (- Q + 1) (Q - 1) (h' c)
    /\ (forall i, 0 <= i < size ->
          eqQ (at_ (h' c) i) (negacyclic size (at_ (h a)) (at_ (h b)) i))
    /\ (forall p, p <> a -> p <> b -> p <> c -> h' p = h p).
Proof. exact naive_products_correct_L. Qed.
Print Assumptions naive_products_correct.

(** Each of the five on the same arguments. *)
Example naive_products_all_ex :
  forall f, In f [naive_product1 16 T16; naive_product2 16 T16; naive_product3 16 T16; naive_product4 16 T16; naive_product5 16 T16] -> exists h', f exH 3 1 2 = Ok h' /\ map (fun v => v mod Q) (h' 3) = exC.
Proof.
  intros f [<-|[<-|[<-|[<-|[<-|[]]]]]]; eexists; (split; [vm_compute; reflexivity|vm_compute; reflexivity]).
Qed.

Example naive_products_ex :
  make_tables malloc77 16 1212 = Ok (Written T16)
  /\ all_in (- Q + 1) (Q - 1) exA /\ all_in (- Q + 1) (Q - 1) exB
  /\ (exists h', naive_product1 16 T16 exH 2 1 2 = Ok h'
       /\ h' 2 = [7; 12284; 0; -1; 0; 0; 0; 0; 5; 0; 1; 0; 0; 0; -35; 0]).
Proof.
  split; [exact T16_made|]. split; [check_all_in|]. split; [check_all_in|].
  apply res_is_ok; vm_compute; reflexivity.
Qed.

(** C22: every naive product returns a negative coefficient on these canonical inputs *)
Theorem naive_products_canonical_refuted :
  exists a b T h, make_tables malloc77 16 1212 = Ok (Written T) /\ a <> b
  /\ zlen (h a) = 16 /\ zlen (h b) = 16 /\ zlen (h 3) = 16
  /\ all_in 0 (Q - 1) (h a) /\ all_in 0 (Q - 1) (h b)
  /\ forall f, In f [naive_product1 16 T; naive_product2 16 T; naive_product3 16 T;
                     naive_product4 16 T; naive_product5 16 T] ->
     exists h' i, f h 3 a b = Ok h' /\ 0 <= i < 16 /\ at_ (h' 3) i < 0.
Proof. exact naive_products_canonical_refuted_L. Qed.
Print Assumptions naive_products_canonical_refuted.

(** C23, C25: products of the Longa-Naehrig implementation, with or without the
    initial [shift_array]; no overflow, no failing assertion *)
Theorem red_products_correct :
  forall malloc size psi T sh, (forall n, 0 <= n -> zlen (malloc n) = n) ->
  make_red_tables malloc size psi = Ok (Written T) -> size <= 1024 ->
  forall f, In f [red_product1 sh size T; red_product2 sh size T; red_product3 sh size T; red_product4 sh size T; red_product5 sh size T] ->
  forall h c a b, a <> b -> zlen (h a) = size -> zlen (h b) = size -> zlen (h c) = size ->
  all_in 0 (Q - 1) (h a) -> all_in 0 (Q - 1) (h b) ->
  exists h', f h c a b = Ok h' /\ zlen (h' c) = size /\ all_in 0 (Q - 1) (h' c)
    /\ (forall i, 0 <= i < size ->
          at_ (h' c) i = negacyclic size (at_ (h a)) (at_ (h b)) i mod Q)
    /\ (forall p, p <> a -> p <> b -> p <> c -> h' p = h p).
Proof. exact red_products_correct_L. Qed.
Print Assumptions red_products_correct.

(** Each of the five on the same arguments. *)
Example red_products_all_ex :
  forall f, In f [red_product1 true 16 R16; red_product2 true 16 R16; red_product3 true 16 R16; red_product4 true 16 R16; red_product5 true 16 R16] -> exists h', f exH 3 1 2 = Ok h' /\ h' 3 = exC.
Proof.
  intros f [<-|[<-|[<-|[<-|[<-|[]]]]]]; apply res_is_ok; vm_compute; reflexivity.
Qed.

Example red_products_ex :
  make_red_tables malloc77 16 1212 = Ok (Written R16)
  /\ all_in 0 (Q - 1) exA /\ all_in 0 (Q - 1) exB
  /\ (exists h', red_product1 true 16 R16 exH 3 1 2 = Ok h' /\ h' 3 = exC)
  /\ (exists h', red_product4 false 16 R16 exH 2 1 2 = Ok h' /\ h' 2 = exC).
Proof.
  split; [exact R16_made|]. split; [check_all_in|]. split; [check_all_in|].
  split; apply res_is_ok; vm_compute; reflexivity.
Qed.

(** C24: any two of the ten procedures of the default and Longa-Naehrig
    implementations, run on the same arguments, leave the same array in [c] *)
Theorem products_interchangeable :
  forall malloc size psi T R sh, (forall n, 0 <= n -> zlen (malloc n) = n) ->
  make_tables malloc size psi = Ok (Written T) -> make_red_tables malloc size psi = Ok (Written R) ->
  size <= 1024 ->
  forall f g, In f ([ntt_product1 size T; ntt_product2 size T; ntt_product3 size T; ntt_product4 size T; ntt_product5 size T] ++ [red_product1 sh size R; red_product2 sh size R; red_product3 sh size R; red_product4 sh size R; red_product5 sh size R]) -> In g ([ntt_product1 size T; ntt_product2 size T; ntt_product3 size T; ntt_product4 size T; ntt_product5 size T] ++ [red_product1 sh size R; red_product2 sh size R; red_product3 sh size R; red_product4 sh size R; red_product5 sh size R]) ->
  forall h c a b, a <> b -> zlen (h a) = size -> zlen (h b) = size -> zlen (h c) = size ->
  all_in 0 (Q - 1) (h a) -> all_in 0 (Q - 1) (h b) ->
  exists h1 h2, f h c a b = Ok h1 /\ g h c a b = Ok h2 /\ h1 c = h2 c.
Proof. exact products_interchangeable_L. Qed.
Print Assumptions products_interchangeable.

Example products_interchangeable_ex :
  (exists h1 h2, ntt_product3 16 T16 exH 3 1 2 = Ok h1 /\ red_product5 true 16 R16 exH 3 1 2 = Ok h2
     /\ h1 3 = h2 3 /\ h1 3 = exC)
  /\ make_tables malloc77 16 1212 = Ok (Written T16) /\ make_red_tables malloc77 16 1212 = Ok (Written R16).
Proof.
  split; [|split; [exact T16_made|exact R16_made]].
  destruct (res_is_ok (ntt_product3 16 T16 exH 3 1 2) 3 exC) as (h1 & E1 & H1); [vm_compute; reflexivity|].
  destruct (res_is_ok (red_product5 true 16 R16 exH 3 1 2) 3 exC) as (h2 & E2 & H2); [vm_compute; reflexivity|].
  exists h1, h2. split; [exact E1|]. split; [exact E2|]. rewrite H1, H2. auto.
Qed.

(** C25: with [a] and [b] the same array, no product procedure computes the square *)
Theorem products_same_array_refuted :
  exists a T R h, make_tables malloc77 16 1212 = Ok (Written T)
  /\ make_red_tables malloc77 16 1212 = Ok (Written R)
  /\ zlen (h a) = 16 /\ zlen (h 3) = 16 /\ a <> 3 /\ all_in 0 (Q - 1) (h a)
  /\ forall f, In f ([ntt_product1 16 T; ntt_product2 16 T; ntt_product3 16 T; ntt_product4 16 T; ntt_product5 16 T]
       ++ [naive_product1 16 T; naive_product2 16 T; naive_product3 16 T; naive_product4 16 T; naive_product5 16 T]
       ++ [red_product1 true 16 R; red_product2 true 16 R; red_product3 true 16 R; red_product4 true 16 R; red_product5 true 16 R]) ->
     exists h', f h 3 a a = Ok h' /\ ~ eqQ (at_ (h' 3) 1) (negacyclic 16 (at_ (h a)) (at_ (h a)) 1).
Proof. exact products_same_array_refuted_L. Qed.
Print Assumptions products_same_array_refuted.

(** C19: forward then inverse transform of the default implementation *)
Theorem ntt_round_trip :
  forall malloc size psi T, (forall n, 0 <= n -> zlen (malloc n) = n) ->
  make_tables malloc size psi = Ok (Written T) ->
  forall F G, In (F, G) [(n_ct_std2rev size T, n_intt_ct_rev2std size T);
    (n_ct_std2rev size T, n_intt_gs_rev2std size T);
    (n_gs_std2rev size T, n_intt_ct_rev2std size T);
    (n_gs_std2rev size T, n_intt_gs_rev2std size T);
    (n_ct_rev2std size T, n_intt_ct_std2rev size T);
    (n_ct_rev2std size T, n_intt_gs_std2rev size T);
    (n_gs_rev2std size T, n_intt_ct_std2rev size T);
    (n_gs_rev2std size T, n_intt_gs_std2rev size T);
    (n_mulntt_ct_std2rev size T, n_inttmul_gs_rev2std size T);
    (n_mulntt_ct_rev2std size T, n_inttmul_gs_std2rev size T)] ->
  forall a, zlen a = size -> all_in 0 (Q - 1) a ->
  exists r, (do x <- F a; G x) = Ok r /\ zlen r = size /\ all_in 0 (Q - 1) r
    /\ (forall i, 0 <= i < size -> at_ r i = (size * at_ a i) mod Q)
    /\ (forall i, 0 <= i < size -> eqQ (t_inv_n T * at_ r i) (at_ a i)).
Proof. exact ntt_round_trip_L. Qed.
Print Assumptions ntt_round_trip.

Example ntt_round_trip_ex :
  make_tables malloc77 16 1212 = Ok (Written T16)
  /\ (do x <- n_gs_std2rev 16 T16 exA; n_intt_ct_rev2std 16 T16 x)
     = Ok [0; 12273; 0; 0; 0; 0; 0; 0; 0; 0; 0; 0; 0; 0; 0; 80].
Proof. split; [exact T16_made|vm_compute; reflexivity]. Qed.

(** C19: the same for the naive implementation *)
Theorem naive_round_trip :
  forall malloc size psi T, (forall n, 0 <= n -> zlen (malloc n) = n) ->
  make_tables malloc size psi = Ok (Written T) ->
  forall F G, In (F, G) [(v_ct_std2rev size T, v_intt_ct_rev2std size T);
    (v_ct_std2rev size T, v_intt_gs_rev2std size T);
    (v_gs_std2rev size T, v_intt_ct_rev2std size T);
    (v_gs_std2rev size T, v_intt_gs_rev2std size T);
    (v_ct_rev2std size T, v_intt_ct_std2rev size T);
    (v_ct_rev2std size T, v_intt_gs_std2rev size T);
    (v_gs_rev2std size T, v_intt_ct_std2rev size T);
    (v_gs_rev2std size T, v_intt_gs_std2rev size T);
    (v_mulntt_ct_std2rev size T, v_inttmul_gs_rev2std size T);
    (v_mulntt_ct_rev2std size T, v_inttmul_gs_std2rev size T)] ->
  forall a, zlen a = size -> all_in (- Q + 1) (Q - 1) a ->
  exists r, (do x <- F a; G x) = Ok r /\ zlen r = size /\ all_in (- Q + 1) (Q - 1) r
    /\ (forall i, 0 <= i < size -> eqQ (at_ r i) (size * at_ a i)).
Proof. exact naive_round_trip_L. Qed.
Print Assumptions naive_round_trip.

Example naive_round_trip_ex :
  make_tables malloc77 16 1212 = Ok (Written T16)
  /\ (do x <- v_mulntt_ct_rev2std 16 T16 exB; v_inttmul_gs_std2rev 16 T16 x)
     = Ok [0; 0; -12273; 0; 0; 0; 0; 0; 0; -16; 0; 0; 0; 0; 0; 112].
Proof. split; [exact T16_made|vm_compute; reflexivity]. Qed.

(** C19: Longa-Naehrig; the values between the two transforms are reduced twice, as
    in the products, which multiplies by 9 *)
Theorem red_round_trip :
  forall malloc size psi T, (forall n, 0 <= n -> zlen (malloc n) = n) ->
  make_red_tables malloc size psi = Ok (Written T) -> size <= 1024 ->
  forall F G, In (F, G) [(r_ct_std2rev size T, r_intt_ct_rev2std size T);
    (r_ct_std2rev size T, r_intt_gs_rev2std size T);
    (r_gs_std2rev size T, r_intt_ct_rev2std size T);
    (r_gs_std2rev size T, r_intt_gs_rev2std size T);
    (r_ct_rev2std size T, r_intt_ct_std2rev size T);
    (r_ct_rev2std size T, r_intt_gs_std2rev size T);
    (r_gs_rev2std size T, r_intt_ct_std2rev size T);
    (r_gs_rev2std size T, r_intt_gs_std2rev size T);
    (r_mulntt_ct_std2rev size T, r_inttmul_gs_rev2std size T);
    (r_mulntt_ct_rev2std size T, r_inttmul_gs_std2rev size T)] ->
  forall a, zlen a = size -> all_in (-21499) 21499 a ->
  exists r, (do x <- F a; do y <- ModelRed.reduce_array_twice x size; G y) = Ok r /\ zlen r = size
    /\ all_in (- 2 ^ 31) (2 ^ 31 - 1) r
    /\ (forall i, 0 <= i < size -> eqQ (at_ r i) (9 * (size * at_ a i))).
Proof. exact red_round_trip_L. Qed.
Print Assumptions red_round_trip.

Example red_round_trip_ex :
  make_red_tables malloc77 16 1212 = Ok (Written R16)
  /\ exists r, (do x <- r_ct_std2rev 16 R16 exA; do y <- ModelRed.reduce_array_twice x 16;
                r_intt_gs_rev2std 16 R16 y) = Ok r
  /\ map (fun v => v mod 12289) r = map (fun v => (9 * (16 * v)) mod 12289) exA.
Proof.
  split; [exact R16_made|]. eexists. split; [vm_compute; reflexivity|vm_compute; reflexivity].
Qed.
