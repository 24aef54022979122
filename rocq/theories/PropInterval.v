(** Properties of the interval library and of the abstract transforms (src/intervals.c,
    src/ntt_red_interval.c): C37, C38, C44. *)

From Coq Require Import ZArith List Bool Lia.
From Verif Require Import CSem Spec SpecInterval ModelInterval IntervalFinal.
From Verif Require ModelRed.
Import ListNotations.
Open Scope Z_scope.

(** C37: interval(min, max) exits exactly when min > max *)
Theorem interval_constructors :
  forall x y, (x <= y -> interval x y = Ok (x, y)) /\ (y < x -> interval x y = Err Exited)
    /\ point x = Ok (x, x).
Proof. exact interval_constructors_L. Qed.
Print Assumptions interval_constructors.

(** C37: the sum of two intervals is the set of the sums of their members; a bound that
    leaves the type is undefined behaviour (the test for it in add64 comes too late) *)
Theorem interval_add_exact :
  forall a b, proper a -> proper b ->
  (in_i64 (fst a + fst b) = true -> in_i64 (snd a + snd b) = true ->
     exists r, add a b = Ok r /\ proper r
       /\ forall z, member z r <-> exists x y, member x a /\ member y b /\ z = x + y)
  /\ (in_i64 (fst a + fst b) = false \/ in_i64 (snd a + snd b) = false -> add a b = Err SignedOverflow).
Proof. exact interval_add_exact_L. Qed.
Print Assumptions interval_add_exact.

Example interval_add_ex : add (-3, 5) (10, 2 ^ 62) = Ok (7, 2 ^ 62 + 5)
  /\ add (2 ^ 62, 2 ^ 62) (0, 2 ^ 62) = Err SignedOverflow.
Proof. split; vm_compute; reflexivity. Qed.

(** C37 *)
Theorem interval_sub_exact :
  forall a b, proper a -> proper b ->
  (in_i64 (fst a - snd b) = true -> in_i64 (snd a - fst b) = true ->
     exists r, sub a b = Ok r /\ proper r
       /\ forall z, member z r <-> exists x y, member x a /\ member y b /\ z = x - y)
  /\ (in_i64 (fst a - snd b) = false \/ in_i64 (snd a - fst b) = false -> sub a b = Err SignedOverflow).
Proof. exact interval_sub_exact_L. Qed.
Print Assumptions interval_sub_exact.

Example interval_sub_ex : sub (-3, 5) (10, 2 ^ 62) = Ok (-3 - 2 ^ 62, -5)
  /\ sub (- 2 ^ 63, 0) (1, 1) = Err SignedOverflow.
Proof. split; vm_compute; reflexivity. Qed.

(** C37: exits when the opposite of the lower bound does not fit *)
Theorem interval_neg_exact :
  forall a, proper a ->
  (fst a <> - 2 ^ 63 -> exists r, neg a = Ok r /\ proper r
     /\ forall z, member z r <-> exists x, member x a /\ z = - x)
  /\ (fst a = - 2 ^ 63 -> neg a = Err Exited).
Proof. exact interval_neg_exact_L. Qed.
Print Assumptions interval_neg_exact.

Example interval_neg_ex : neg (-3, 2 ^ 63 - 1) = Ok (- (2 ^ 63 - 1), 3).
Proof. vm_compute. reflexivity. Qed.

(** C37: smallest interval that contains the reductions of the members *)
Theorem interval_red_exact :
  forall a, proper a -> exists r, red a = Ok r /\ proper r /\ tight (fun x => member x a) ln_red r.
Proof. exact interval_red_exact_L. Qed.
Print Assumptions interval_red_exact.

Example interval_red_ex : red (-5000, 100000000) = Ok (-24414, 12287).
Proof. vm_compute. reflexivity. Qed.

(** C37: the smallest interval that contains the reductions of the members of red(a);
    contains the double reductions of the members of a; at most [-130, 12413] for
    intervals of 32-bit values *)
Theorem interval_red_twice_sound :
  forall a, proper a -> exists m r, red a = Ok m /\ red_twice a = Ok r
    /\ tight (fun x => member x m) ln_red r
    /\ (forall x, member x a -> member (ln_red (ln_red x)) r)
    /\ (- 2 ^ 31 <= fst a -> snd a <= 2 ^ 31 - 1 -> -130 <= fst r /\ snd r <= 12413).
Proof. exact interval_red_twice_sound_L. Qed.
Print Assumptions interval_red_twice_sound.

Example interval_red_twice_ex : red_twice (-5000, 100000000) = Ok (-2, 12291).
Proof. vm_compute. reflexivity. Qed.

(** C37: smallest interval that contains red(k*x) for the members x; k = 0 has no result
    (C42) *)
Theorem interval_red_scale_exact :
  forall k a, proper a -> k <> 0 -> Z.abs k <= 2 ^ 61 -> Z.abs (k * fst a) <= 2 ^ 62 -> Z.abs (k * snd a) <= 2 ^ 62 ->
  exists r, red_scale k a = Ok r /\ tight (fun x => member x a) (fun x => ln_red (k * x)) r.
Proof. exact interval_red_scale_exact_L. Qed.
Print Assumptions interval_red_scale_exact.

Example interval_red_scale_ex : red_scale (-1212) (-300, 500) = Ok (-19, 12414).
Proof. vm_compute. reflexivity. Qed.

(** C37: red_mul, with the wider argument first, gives ends that are 0 or attained, and
    encloses all products if the lower end of the wider argument is not below minus its upper
    end (0 must not be an end of the other argument) *)
Theorem interval_red_mul_exact :
  forall a b B, proper a -> proper b -> fst b <> 0 -> snd b <> 0 ->
  Z.abs (fst a) <= B -> Z.abs (snd a) <= B -> B <= 2 ^ 61 -> Z.abs (fst b) <= 2 ^ 61 -> Z.abs (snd b) <= 2 ^ 61 ->
  Z.abs (fst b) * B <= 2 ^ 62 -> Z.abs (snd b) * B <= 2 ^ 62 ->
  snd b - fst b <= snd a - fst a ->
  exists r, red_mul a b = Ok r /\ (snd b - fst b < snd a - fst a -> red_mul b a = Ok r)
    /\ fst r <= 0 <= snd r
    /\ (fst r = 0 \/ exists x y, member x a /\ member y b /\ ln_red (x * y) = fst r)
    /\ (snd r = 0 \/ exists x y, member x a /\ member y b /\ ln_red (x * y) = snd r)
    /\ (- snd a <= fst a -> forall x y, member x a -> member y b -> member (ln_red (x * y)) r).
Proof. exact interval_red_mul_exact_L. Qed.
Print Assumptions interval_red_mul_exact.

Example interval_red_mul_ex : red_mul (-300, 300) (-3, 5) = Ok (0, 12286) /\ red_mul (-3, 5) (-300, 300) = Ok (0, 12286)
  /\ red_mul (-30720, 42997) (-25, 30) = Ok (-307, 12537) /\ red_mul (-42997, 30720) (-6144, 6144) = Ok (-64494, 70640).
Proof. repeat split; vm_compute; reflexivity. Qed.

(** C37: red_mul misses products on other intervals *)
Theorem interval_red_mul_refuted :
  exists a b r x y, proper a /\ proper b /\ red_mul a b = Ok r /\ member x a /\ member y b
    /\ ~ member (ln_red (x * y)) r.
Proof. exact interval_red_mul_refuted_L. Qed.
Print Assumptions interval_red_mul_refuted.

(** C37: the remainders modulo 12289 of the members; fails if the width leaves int64 *)
Theorem interval_normal_sound :
  forall a, proper a ->
  (in_i64 (snd a - fst a) = true -> exists r, normal a = Ok r /\ 0 <= fst r /\ fst r <= snd r /\ snd r <= 12288
     /\ (forall x, member x a -> member (x mod 12289) r)
     /\ (fst a / 12289 = snd a / 12289 -> tight (fun x => member x a) (fun x => x mod 12289) r))
  /\ (in_i64 (snd a - fst a) = false -> normal a = Err SignedOverflow).
Proof. exact interval_normal_sound_L. Qed.
Print Assumptions interval_normal_sound.

Example interval_normal_width_ex : normal (5, 12294) = Ok (0, 12288) /\ normal (0, 12287) = Ok (0, 12287).
Proof. repeat split; vm_compute; reflexivity. Qed.

Example interval_normal_ex : normal (-3, -1) = Ok (12286, 12288) /\ normal (-3, 1) = Ok (0, 12288)
  /\ normal (- 2 ^ 63, 0) = Err SignedOverflow.
Proof. repeat split; vm_compute; reflexivity. Qed.

(** C37: 8193 is the inverse of 3 *)
Theorem interval_normal_inv3_sound :
  forall a, proper a -> exists r, normal_inv3 a = Ok r /\ 0 <= fst r /\ fst r <= snd r /\ snd r <= 12288
     /\ (forall x, member x a -> member ((x * 8193) mod 12289) r)
     /\ (fst a = snd a -> fst r = snd r).
Proof. exact interval_normal_inv3_sound_L. Qed.
Print Assumptions interval_normal_inv3_sound.

Example interval_normal_inv3_ex : normal_inv3 (6, 6) = Ok (2, 2) /\ normal_inv3 (6, 7) = Ok (0, 12288).
Proof. split; vm_compute; reflexivity. Qed.

(** C37: x or x - 12289, whichever is in [-6144, 6144]; exact
    for an interval on one side of the middle; assertion outside [0, 12288] *)
Theorem interval_shift_sound :
  forall a, (0 <= fst a -> fst a <= snd a -> snd a <= 12288 ->
     exists r, shift a = Ok r /\ -6144 <= fst r /\ fst r <= snd r /\ snd r <= 6144
       /\ (forall x, member x a -> exists y, member y r /\ (y - x) mod 12289 = 0 /\ -6144 <= y <= 6144)
       /\ (snd a <= 6144 -> r = a)
       /\ (6144 < fst a -> r = (fst a - 12289, snd a - 12289)))
  /\ (~ (0 <= fst a /\ fst a <= snd a /\ snd a <= 12288) -> shift a = Err AssertFail).
Proof. exact interval_shift_sound_L. Qed.
Print Assumptions interval_shift_sound.

Example interval_shift_middle_ex : shift (6144, 7000) = Ok (-6144, 6144) /\ shift (6145, 7000) = Ok (-6144, -5289).
Proof. repeat split; vm_compute; reflexivity. Qed.

Example interval_shift_ex : shift (7000, 12288) = Ok (-5289, -1) /\ shift (5000, 7000) = Ok (-6144, 6144)
  /\ shift (0, 12289) = Err AssertFail.
Proof. repeat split; vm_compute; reflexivity. Qed.

(** C37: remainders modulo 12289, exact if no multiple of 12289 is crossed; assertion outside [-12289, 24577] *)
Theorem interval_correct_sound :
  forall a, (-12289 <= fst a -> fst a <= snd a -> snd a <= 24577 ->
     exists r, correct a = Ok r /\ 0 <= fst r /\ fst r <= snd r /\ snd r <= 12288
       /\ (forall x, member x a -> member (x mod 12289) r)
       /\ (fst a / 12289 = snd a / 12289 -> r = (fst a mod 12289, snd a mod 12289)))
  /\ (~ (-12289 <= fst a /\ fst a <= snd a /\ snd a <= 24577) -> correct a = Err AssertFail).
Proof. exact interval_correct_sound_L. Qed.
Print Assumptions interval_correct_sound.

Example interval_correct_ex : correct (-10, -1) = Ok (12279, 12288) /\ correct (13000, 14000) = Ok (711, 1711)
  /\ correct (-1, 24577) = Ok (0, 12288) /\ correct (-12290, 0) = Err AssertFail.
Proof. repeat split; vm_compute; reflexivity. Qed.

(** C44: an array of intervals that encloses the argument is transformed into one that
    encloses the result, and the run on the argument is free of undefined behaviour *)
Theorem abstract_arrays_sound :
  forall f g, In (f, g)
    [(abstract_normalize, ModelRed.normalize); (abstract_normalize_inv3, ModelRed.normalize_inv3);
     (abstract_shift_array, ModelRed.shift_array); (abstract_reduce_array, ModelRed.reduce_array);
     (abstract_reduce_array_twice, ModelRed.reduce_array_twice); (abstract_correct, ModelRed.correct)] ->
  forall A a A', zlen a < 2 ^ 32 -> all_in (- 2 ^ 31) (2 ^ 31 - 1) a -> Forall proper A -> encloses A a ->
  f A (zlen a) = Ok A' ->
  exists r, g a (zlen a) = Ok r /\ encloses A' r.
Proof. exact abstract_arrays_sound_L. Qed.
Print Assumptions abstract_arrays_sound.

Example abstract_arrays_ex :
  abstract_reduce_array_twice [(-5000, 100000000); (7, 9)] 2 = Ok [(-2, 12291); (63, 81)]
  /\ ModelRed.reduce_array_twice [99999743; 8] 2 = Ok [483; 72]
  /\ abstract_correct [(-5, 12288); (-12289, 3)] 2 = Ok [(0, 12288); (0, 12288)].
Proof. repeat split; vm_compute; reflexivity. Qed.

(** C44: products by an array of 16-bit constants and by a scalar, when the bounds of the
    result leave a margin of 12285 to the 32-bit range *)
Theorem abstract_products_sound :
  forall A a p c A', zlen a < 2 ^ 32 -> zlen p = zlen a ->
  all_in (- 2 ^ 31) (2 ^ 31 - 1) a -> all_in (-32768) 32767 p -> - 2 ^ 31 <= c <= 2 ^ 31 - 1 ->
  Forall (fun V => - 2 ^ 31 <= fst V /\ fst V <= snd V /\ snd V <= 2 ^ 31 - 1) A -> encloses A a ->
  Forall (fun V => - 2147471362 <= fst V /\ snd V <= 2147471362) A' ->
  (abstract_mul_reduce_array16 A (zlen a) p = Ok A' ->
     exists r, ModelRed.mul_reduce_array16 a (zlen a) p = Ok r /\ encloses A' r)
  /\ (abstract_scalar_mul_reduce_array A (zlen a) c = Ok A' ->
     exists r, ModelRed.scalar_mul_reduce_array a (zlen a) c = Ok r /\ encloses A' r).
Proof. exact abstract_products_sound_L. Qed.
Print Assumptions abstract_products_sound.

Example abstract_products_ex :
  abstract_mul_reduce_array16 [(-300, 500); (4, 4)] 2 [-1212; 2000] = Ok [(-19, 12414); (11711, 11711)]
  /\ ModelRed.mul_reduce_array16 [-300; 4] 2 [-1212; 2000] = Ok [9368; 11711].
Proof. split; vm_compute; reflexivity. Qed.

(** C44: the product of two arrays of intervals may miss the products of the members *)
Theorem abstract_mul_reduce_array_refuted :
  exists A B C h C' h', Forall proper A /\ Forall proper B /\ encloses A (h 1) /\ encloses B (h 2)
    /\ abstract_mul_reduce_array C 1 A B = Ok C' /\ ModelRed.mul_reduce_array_h h 0 1 1 2 = Ok h'
    /\ ~ encloses C' (h' 0).
Proof. exact abstract_mul_reduce_array_refuted_L. Qed.
Print Assumptions abstract_mul_reduce_array_refuted.

(** C38: show_intervals prints the bounds of every element and a warning for exactly the
    elements whose interval is not within the 32-bit range *)
Theorem show_intervals_exact :
  forall A, Z.of_nat (length A) <= 2 ^ 31 -> exists ws, show_intervals A (Z.of_nat (length A)) = Ok (A, ws)
    /\ forall i, In i ws <-> exists V, 0 <= i /\ nth_error A (Z.to_nat i) = Some V
                             /\ ~ (- 2 ^ 31 <= fst V /\ snd V <= 2 ^ 31 - 1).
Proof. exact show_intervals_exact_L. Qed.
Print Assumptions show_intervals_exact.

Example show_intervals_ex : show_intervals [(0, 5); (- 2 ^ 31 - 1, 0); (1, 2 ^ 31 - 1); (0, 2 ^ 31)] 4
  = Ok ([(0, 5); (- 2 ^ 31 - 1, 0); (1, 2 ^ 31 - 1); (0, 2 ^ 31)], [1; 3]).
Proof. vm_compute. reflexivity. Qed.

(** C38: Cooley-Tukey transforms.  If the abstract transform finishes and every bound it
    prints is at most 2147471362 = 2^31 - 12286 in absolute value, every run from an array
    enclosed by the intervals is free of undefined behaviour and ends in the final
    intervals. *)
Theorem abstract_ct_sound :
  forall f g, In (f, g)
    [(abstract_ntt_red_ct_rev2std, ModelRed.ntt_red_ct_rev2std);
     (abstract_mulntt_red_ct_rev2std, ModelRed.mulntt_red_ct_rev2std);
     (abstract_ntt_red_ct_std2rev, ModelRed.ntt_red_ct_std2rev);
     (abstract_mulntt_red_ct_std2rev, ModelRed.mulntt_red_ct_std2rev)] ->
  forall k A p a out A', 0 <= k <= 31 -> zlen p = 2 ^ k -> all_in (-32768) 32767 p ->
  zlen a = 2 ^ k -> Forall proper A -> encloses A a ->
  f A (2 ^ k) p = Ok (out, A') -> printed_within 2147471362 out ->
  exists r, g a (2 ^ k) p = Ok r /\ encloses A' r.
Proof. exact abstract_ct_sound_L. Qed.
Print Assumptions abstract_ct_sound.

Example abstract_ct_ex :
  abstract_mulntt_red_ct_rev2std [(0, 12288); (-5, 5); (0, 100); (3, 3)] 4 [8193; 4; 5000; -6000]
  = Ok ([([(0, 12288); (-5, 5); (0, 100); (3, 3)], []);
         ([(0, 24565); (-12277, 12288); (36, 136); (-36, 64)], []);
         ([(13, 36688); (-12277, 24426); (-12123, 24552); (-24415, 12288)], [])],
        [(13, 36688); (-12277, 24426); (-12123, 24552); (-24415, 12288)])
  /\ ModelRed.mulntt_red_ct_rev2std [12288; -5; 50; 3] 4 [8193; 4; 5000; -6000] = Ok [36461; 6128; 12573; -6010].
Proof. split; vm_compute; reflexivity. Qed.

(** C38: Gentleman-Sande transforms, when every bound printed before the last row is less
    than 2^30 in absolute value, and those of the last row at most 2^31 - 12286 *)
Theorem abstract_gs_sound :
  forall f g, In (f, g)
    [(abstract_ntt_red_gs_rev2std, ModelRed.ntt_red_gs_rev2std);
     (abstract_nttmul_red_gs_rev2std, ModelRed.nttmul_red_gs_rev2std);
     (abstract_ntt_red_gs_std2rev, ModelRed.ntt_red_gs_std2rev);
     (abstract_nttmul_red_gs_std2rev, ModelRed.nttmul_red_gs_std2rev)] ->
  forall k A p a out A', 0 <= k <= 31 -> zlen p = 2 ^ k -> all_in (-32768) 32767 p ->
  zlen a = 2 ^ k -> Forall proper A -> encloses A a ->
  f A (2 ^ k) p = Ok (out, A') ->
  printed_within (2 ^ 30 - 1) (removelast out) -> printed_within 2147471362 out ->
  exists r, g a (2 ^ k) p = Ok r /\ encloses A' r.
Proof. exact abstract_gs_sound_L. Qed.
Print Assumptions abstract_gs_sound.

Example abstract_gs_ex :
  abstract_ntt_red_gs_std2rev [(0, 12288); (-5, 5); (0, 100); (3, 3)] 4 [8193; 4; 5000; -6000]
  = Ok ([([(0, 12288); (-5, 5); (0, 100); (3, 3)], []);
         ([(0, 12388); (-2, 8); (-100, 12288); (0, 11422)], []);
         ([(-2, 12396); (-8, 12390); (-100, 23710); (-11522, 12288)], [])],
        [(-2, 12396); (-8, 12390); (-100, 23710); (-11522, 12288)])
  /\ ModelRed.ntt_red_gs_std2rev [12288; -5; 50; 3] 4 [8193; 4; 5000; -6000] = Ok [12336; 12340; 21059; 3417].
Proof. split; vm_compute; reflexivity. Qed.

(** C38: an abstract run without any warning does not exclude overflow.  Cooley-Tukey: a
    product just above 2^43 reduces to a 32-bit value, but mul_red overflows on the way.
    Gentleman-Sande: the difference of two elements is not displayed. *)
Theorem no_warning_refuted :
  forall f g, In (f, g)
    [(abstract_ntt_red_ct_rev2std, ModelRed.ntt_red_ct_rev2std);
     (abstract_mulntt_red_ct_rev2std, ModelRed.mulntt_red_ct_rev2std);
     (abstract_ntt_red_ct_std2rev, ModelRed.ntt_red_ct_std2rev);
     (abstract_mulntt_red_ct_std2rev, ModelRed.mulntt_red_ct_std2rev);
     (abstract_ntt_red_gs_rev2std, ModelRed.ntt_red_gs_rev2std);
     (abstract_nttmul_red_gs_rev2std, ModelRed.nttmul_red_gs_rev2std);
     (abstract_ntt_red_gs_std2rev, ModelRed.ntt_red_gs_std2rev);
     (abstract_nttmul_red_gs_std2rev, ModelRed.nttmul_red_gs_std2rev)] ->
  exists k A p a out A', 0 <= k <= 31 /\ zlen p = 2 ^ k /\ all_in (-6144) 6144 p /\ zlen a = 2 ^ k
  /\ Forall proper A /\ encloses A a
  /\ f A (2 ^ k) p = Ok (out, A') /\ no_warning out /\ g a (2 ^ k) p = Err SignedOverflow.
Proof. exact no_warning_refuted_L. Qed.
Print Assumptions no_warning_refuted.

(** C38: the versions where the constants are intervals rely on red_mul; their result
    need not enclose the concrete one. *)
Theorem abstract2_refuted :
  forall f g, In (f, g)
    [(abstract2_ntt_red_ct_rev2std, ModelRed.ntt_red_ct_rev2std);
     (abstract2_mulntt_red_ct_rev2std, ModelRed.mulntt_red_ct_rev2std);
     (abstract2_ntt_red_ct_std2rev, ModelRed.ntt_red_ct_std2rev);
     (abstract2_mulntt_red_ct_std2rev, ModelRed.mulntt_red_ct_std2rev);
     (abstract2_ntt_red_gs_rev2std, ModelRed.ntt_red_gs_rev2std);
     (abstract2_nttmul_red_gs_rev2std, ModelRed.nttmul_red_gs_rev2std);
     (abstract2_ntt_red_gs_std2rev, ModelRed.ntt_red_gs_std2rev);
     (abstract2_nttmul_red_gs_std2rev, ModelRed.nttmul_red_gs_std2rev)] ->
  exists k A P p a out A' r, 0 <= k <= 31 /\ zlen p = 2 ^ k /\ zlen a = 2 ^ k
  /\ Forall proper A /\ Forall proper P /\ encloses A a /\ encloses P p
  /\ f A (2 ^ k) P = Ok (out, A') /\ printed_within (2 ^ 30 - 1) out
  /\ g a (2 ^ k) p = Ok r /\ ~ encloses A' r.
Proof. exact abstract2_refuted_L. Qed.
Print Assumptions abstract2_refuted.
