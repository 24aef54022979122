(** Properties of the runs of the abstract functions (src/ntt_red_interval.c): C64. *)

From Coq Require Import ZArith List Bool Lia.
From Verif Require Import CSem Spec SpecInterval Exlib ModelInterval RunsFinal.
From Verif Require ModelRed.
Import ListNotations.
Open Scope Z_scope.

(** C64: the functions on arrays of intervals succeed exactly when the interval function
    succeeds on every element, and then give the array of its results *)
Theorem abstract_arrays_pointwise :
  forall f h, In (f, h)
    [(abstract_normalize, normal); (abstract_normalize_inv3, normal_inv3); (abstract_shift_array, shift);
     (abstract_reduce_array, red); (abstract_reduce_array_twice, red_twice); (abstract_correct, correct)] ->
  forall A A', Z.of_nat (length A) < 2 ^ 32 ->
  (f A (Z.of_nat (length A)) = Ok A' <-> Forall2 (fun V V' => h V = Ok V') A A').
Proof. exact abstract_arrays_pointwise_L. Qed.
Print Assumptions abstract_arrays_pointwise.

Example abstract_arrays_pointwise_ex :
  abstract_shift_array [(0, 5); (6145, 12288); (6144, 6145)] 3 = Ok [(0, 5); (-6144, -1); (-6144, 6144)]
  /\ abstract_normalize [(12289, 12290); (-1, 0)] 2 = Ok [(0, 1); (0, 12288)].
Proof. split; vm_compute; reflexivity. Qed.

(** C64: abstract_correct exits at the first element outside [-12289, 24577] *)
Theorem abstract_correct_exits :
  forall A V B, Z.of_nat (length (A ++ V :: B)) < 2 ^ 32 ->
  Forall (fun U => -12289 <= fst U /\ fst U <= snd U /\ snd U <= 24577) A ->
  (fst V < -12289 \/ 24577 < snd V) ->
  abstract_correct (A ++ V :: B) (Z.of_nat (length (A ++ V :: B))) = Err Exited.
Proof. exact abstract_correct_exits_L. Qed.
Print Assumptions abstract_correct_exits.

Example abstract_correct_exits_ex :
  abstract_correct [(-12289, 24577); (0, 24578); (3, 1)] 3 = Err Exited
  /\ abstract_correct [(-12289, 24577); (-12290, 0)] 2 = Err Exited.
Proof. split; vm_compute; reflexivity. Qed.

(** C64: the products *)
Theorem abstract_products_pointwise :
  forall A B C p c A', Z.of_nat (length A) < 2 ^ 32 ->
  length B = length A -> length C = length A -> length p = length A ->
  let n := Z.of_nat (length A) in
  (abstract_mul_reduce_array16 A n p = Ok A' <->
     Forall2 (fun '(V, w) V' => red_scale w V = Ok V') (combine A p) A')
  /\ (abstract_scalar_mul_reduce_array A n c = Ok A' <-> Forall2 (fun V V' => red_scale c V = Ok V') A A')
  /\ (abstract_mul_reduce_array C n A B = Ok A' <->
     Forall2 (fun '(V, U) V' => red_mul V U = Ok V') (combine A B) A').
Proof. exact abstract_products_pointwise_L. Qed.
Print Assumptions abstract_products_pointwise.

Example abstract_products_pointwise_ex :
  abstract_mul_reduce_array16 [(-300, 500); (4, 4)] 2 [-1212; 2000] = Ok [(-19, 12414); (11711, 11711)]
  /\ abstract_scalar_mul_reduce_array [(-300, 500); (4, 4)] 2 (-1212) = Ok [(-19, 12414); (10034, 10034)]
  /\ abstract_mul_reduce_array [(0, 0); (0, 0)] 2 [(-300, 300); (4, 5)] [(-3, 5); (-900, 900)]
     = Ok [(0, 12286); (0, 12285)].
Proof. repeat split; vm_compute; reflexivity. Qed.

(** C64: the abstract transforms finish for sizes up to 2048, intervals within the 32-bit
    range and constants (other than p[0], which is not used) that are not zero and at most
    6144 in absolute value.  They display the intervals k + 1 times: first the argument,
    last the result. *)
Theorem abstract_transforms_finish :
  forall f, In f [abstract_ntt_red_ct_rev2std; abstract_mulntt_red_ct_rev2std;
     abstract_ntt_red_ct_std2rev; abstract_mulntt_red_ct_std2rev;
     abstract_ntt_red_gs_rev2std; abstract_nttmul_red_gs_rev2std;
     abstract_ntt_red_gs_std2rev; abstract_nttmul_red_gs_std2rev] ->
  forall k A p, 0 <= k <= 11 -> zlen p = 2 ^ k -> all_in (-6144) 6144 p -> Forall (fun w => w <> 0) (tl p) ->
  Z.of_nat (length A) = 2 ^ k ->
  Forall (fun V => - 2 ^ 31 <= fst V /\ fst V <= snd V /\ snd V <= 2 ^ 31) A ->
  exists out A', f A (2 ^ k) p = Ok (out, A') /\ Z.of_nat (length A') = 2 ^ k
    /\ Z.of_nat (length out) = k + 1 /\ fst (hd ([], []) out) = A /\ fst (last out ([], [])) = A'.
Proof. exact abstract_transforms_finish_L. Qed.
Print Assumptions abstract_transforms_finish.

Example abstract_transforms_finish_ex :
  all_in (-6144) 6144 [0; 4; 5000; -6000] /\ Forall (fun w => w <> 0) (tl [0; 4; 5000; -6000])
  /\ abstract_nttmul_red_gs_rev2std [(-70000, 60000); (-5, 5); (0, 100); (3, 3)] 4 [0; 4; 5000; -6000]
   = Ok ([([(-70000, 60000); (-5, 5); (0, 100); (3, 3)], []);
          ([(-70005, 60005); (-73125, 97595); (3, 103); (0, 12345)], []);
          ([(-70002, 60108); (-73125, 109940); (-58, 12345); (-95, 12360)], [])],
         [(-70002, 60108); (-73125, 109940); (-58, 12345); (-95, 12360)]).
Proof. split; [check_all_in|]. split; [repeat constructor; discriminate|]. vm_compute. reflexivity. Qed.

(** C64: when the bounds are at most b in absolute value and (5/2)^k * (b + 8191) is at most
    2147479553, a run of an abstract Cooley-Tukey transform finishes without a warning and
    the concrete runs it stands for are free of undefined behaviour and enclosed *)
Theorem abstract_ct_run :
  forall f g, In (f, g)
    [(abstract_ntt_red_ct_rev2std, ModelRed.ntt_red_ct_rev2std);
     (abstract_mulntt_red_ct_rev2std, ModelRed.mulntt_red_ct_rev2std);
     (abstract_ntt_red_ct_std2rev, ModelRed.ntt_red_ct_std2rev);
     (abstract_mulntt_red_ct_std2rev, ModelRed.mulntt_red_ct_std2rev)] ->
  forall k b A p, 0 <= k <= 31 -> 0 <= b -> 5 ^ k * (b + 8191) <= 2 ^ k * 2147479553 ->
  zlen p = 2 ^ k -> all_in (-6144) 6144 p -> Forall (fun w => w <> 0) (tl p) ->
  Z.of_nat (length A) = 2 ^ k -> Forall (fun V => - b <= fst V /\ fst V <= snd V /\ snd V <= b) A ->
  exists out A', f A (2 ^ k) p = Ok (out, A') /\ no_warning out /\ printed_within 2147471362 out
    /\ forall a, encloses A a -> exists r, g a (2 ^ k) p = Ok r /\ encloses A' r.
Proof. exact abstract_ct_run_L. Qed.
Print Assumptions abstract_ct_run.

Example abstract_ct_run_ex :
  5 ^ 11 * (21499 + 8191) <= 2 ^ 11 * 2147479553
  /\ abstract_ntt_red_ct_std2rev [(0, 12288); (-5, 5); (0, 100); (3, 3)] 4 [0; 4; 5000; -6000]
   = Ok ([([(0, 12288); (-5, 5); (0, 100); (3, 3)], []);
          ([(0, 12388); (-2, 8); (-100, 12288); (-8, 2)], []);
          ([(-2, 12396); (-8, 12390); (-100, 23710); (-11522, 12288)], [])],
         [(-2, 12396); (-8, 12390); (-100, 23710); (-11522, 12288)]).
Proof. split; [vm_compute; discriminate|]. vm_compute. reflexivity. Qed.

(** C64: the same for Gentleman-Sande and 3^k * (b + 6143) at most 2^31 - 6143 *)
Theorem abstract_gs_run :
  forall f g, In (f, g)
    [(abstract_ntt_red_gs_rev2std, ModelRed.ntt_red_gs_rev2std);
     (abstract_nttmul_red_gs_rev2std, ModelRed.nttmul_red_gs_rev2std);
     (abstract_ntt_red_gs_std2rev, ModelRed.ntt_red_gs_std2rev);
     (abstract_nttmul_red_gs_std2rev, ModelRed.nttmul_red_gs_std2rev)] ->
  forall k b A p, 0 <= k <= 31 -> 0 <= b -> 3 ^ k * (b + 6143) <= 2147477505 ->
  zlen p = 2 ^ k -> all_in (-6144) 6144 p -> Forall (fun w => w <> 0) (tl p) ->
  Z.of_nat (length A) = 2 ^ k -> Forall (fun V => - b <= fst V /\ fst V <= snd V /\ snd V <= b) A ->
  exists out A', f A (2 ^ k) p = Ok (out, A') /\ no_warning out /\ printed_within 2147471362 out
    /\ forall a, encloses A a -> exists r, g a (2 ^ k) p = Ok r /\ encloses A' r.
Proof. exact abstract_gs_run_L. Qed.
Print Assumptions abstract_gs_run.

Example abstract_gs_run_ex :
  3 ^ 10 * (21499 + 6143) <= 2147477505 /\ 3 ^ 9 * (98304 + 6143) <= 2147477505
  /\ abstract_ntt_red_gs_std2rev [(0, 12288); (-5, 5); (0, 100); (3, 3)] 4 [0; 4; 5000; -6000]
   = Ok ([([(0, 12288); (-5, 5); (0, 100); (3, 3)], []);
          ([(0, 12388); (-2, 8); (-100, 12288); (0, 11422)], []);
          ([(-2, 12396); (-8, 12390); (-100, 23710); (-11522, 12288)], [])],
         [(-2, 12396); (-8, 12390); (-100, 23710); (-11522, 12288)]).
Proof. split; [vm_compute; discriminate|]. split; [vm_compute; discriminate|]. vm_compute. reflexivity. Qed.
