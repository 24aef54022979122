(** test_red.c: where red stays in 32 bits, and bounds on the butterflies. *)

From Coq Require Import ZArith List Bool.
From Verif Require Import CSem ModelTestRed TestRedFinal.
Import ListNotations.
Open Scope Z_scope.

(** C70. The check of a block of 4096 values, used by the two binary searches, finds an overflow if there is one. *)
Theorem test_overflow2_exact :
  forall q, - 2 ^ 51 <= q < 2 ^ 51 ->
  exists b, test_overflow2 q = Ok b /\
  (b = true <-> exists x r, 4096 * q <= x <= 4096 * q + 4095 /\ red x = Ok r /\ ~ (- 2 ^ 31 <= r < 2 ^ 31)).
Proof. exact test_overflow2_L. Qed.
Print Assumptions test_overflow2_exact.

Example test_overflow2_exact_ex :
  test_overflow2 2147483649 = Ok true /\ red (4096 * 2147483649) = Ok (-2147483649) /\ red (4096 * 2147483649 + 1) = Ok (-2147483646).
Proof. vm_compute. repeat split. Qed.

(** C70. The binary searches end, their assertions hold, and what they return. *)
Theorem bounds_found :
  find_lower_bound = Ok (-8796042698752) /\ find_upper_bound = Ok 8796093026303.
Proof. exact bounds_found_L. Qed.
Print Assumptions bounds_found.

Example bounds_found_ex : -8796042698752 = 4096 * (12286 - 2 ^ 31) /\ 8796093026303 = 2 ^ 43 + 4095.
Proof. vm_compute. split; reflexivity. Qed.

(** C70. red stays in 32 bits between the two bounds found, and leaves them right below and right above. *)
Theorem bounds_safe_and_sharp :
  forall lo hi, find_lower_bound = Ok lo -> find_upper_bound = Ok hi ->
  (forall x, lo <= x <= hi -> exists r, red x = Ok r /\ - 2 ^ 31 <= r < 2 ^ 31)
  /\ (exists r, red (lo - 1) = Ok r /\ 2 ^ 31 <= r) /\ (exists r, red (hi + 1) = Ok r /\ r < - 2 ^ 31).
Proof. exact bounds_safe_L. Qed.
Print Assumptions bounds_safe_and_sharp.

Example bounds_safe_and_sharp_ex :
  red (-8796042698752 + 4095) = Ok 2147483647 /\ red (8796093026303 - 4095) = Ok (-2147483648)
  /\ red (-8796042698753) = Ok 2147483648 /\ red 8796093026304 = Ok (-2147483649).
Proof. vm_compute. repeat split. Qed.

(** C70. Bounds on a Cooley-Tukey butterfly. *)
Theorem ct_bound_safe :
  forall b x y w, 0 <= b <= 2 ^ 48 -> Z.abs x <= b -> Z.abs y <= b -> 0 <= w < 12289 ->
  exists B r, ct_bound b = Ok B /\ red (w * y) = Ok r /\ Z.abs (x + r) <= B /\ Z.abs (x - r) <= B.
Proof. exact ct_bound_L. Qed.
Print Assumptions ct_bound_safe.

Example ct_bound_safe_ex :
  ct_bound 4094 = Ok 28662 /\ ct_bound 12288 = Ok 61435 /\ red (12287 * -12287) = Ok 49144 /\ 12288 + 49144 <= 61435.
Proof. vm_compute. repeat split; discriminate. Qed.

(** C70. Bounds on a Gentleman-Sande butterfly. *)
Theorem gs_bound_safe :
  forall b x y w, 0 <= b <= 2 ^ 48 -> Z.abs x <= b -> Z.abs y <= b -> 0 <= w < 12289 ->
  exists B r, gs_bound b = Ok B /\ red (w * (x - y)) = Ok r /\ Z.abs (x + y) <= B /\ Z.abs r <= B.
Proof. exact gs_bound_L. Qed.
Print Assumptions gs_bound_safe.

Example gs_bound_safe_ex :
  gs_bound 12288 = Ok 86008 /\ red (12287 * (-12288 - 12287)) = Ok 86005 /\ 86005 <= 86008.
Proof. vm_compute. repeat split; discriminate. Qed.

(** C70. The sequences of bounds printed for the Cooley-Tukey updates, by both functions: each bound fits in 32 bits, and
    values within a bound (after a reduction where one is printed) are within the next bound after a butterfly. *)
Theorem ct_rounds_safe :
  forall lines last g, iter_bound_abs = Ok ((last, lines), g) \/ iter_bound_abs2 = Ok ((last, lines), g) ->
  forall i b o b' o',
  nth_error (lines ++ [(last, None)]) i = Some (b, o) -> nth_error (lines ++ [(last, None)]) (S i) = Some (b', o') ->
  (0 <= b < 2 ^ 31 /\
   match o with
   | None =>
       forall x y w, Z.abs x <= b -> Z.abs y <= b -> 0 <= w < 12289 ->
       exists r, red (w * y) = Ok r /\ Z.abs (x + r) <= b' /\ Z.abs (x - r) <= b'
   | Some c =>
       (forall x, Z.abs x <= b -> exists r, red x = Ok r /\ Z.abs r <= c) /\
       (forall x y w, Z.abs x <= c -> Z.abs y <= c -> 0 <= w < 12289 ->
        exists r, red (w * y) = Ok r /\ Z.abs (x + r) <= b' /\ Z.abs (x - r) <= b')
   end)
  /\ 0 <= b' < 2 ^ 31.
Proof. exact ct_rounds_lt_L. Qed.
Print Assumptions ct_rounds_safe.

Example ct_rounds_safe_ex :
  iter_bound_abs = Ok (ct_abs, gs_abs) /\ iter_bound_abs2 = Ok (ct_abs2, gs_abs2)
  /\ nth_error (snd ct_abs ++ [(fst ct_abs, None)]) 8 = Some (1073694038, Some 274418)
  /\ nth_error (snd ct_abs ++ [(fst ct_abs, None)]) 9 = Some (1109958, None) /\ 4 * 274418 + 12286 = 1109958.
Proof. vm_compute. repeat split. Qed.

(** C70. The same for the Gentleman-Sande updates. *)
Theorem gs_rounds_safe :
  forall lines last c, iter_bound_abs = Ok (c, (last, lines)) \/ iter_bound_abs2 = Ok (c, (last, lines)) ->
  forall i b o b' o',
  nth_error (lines ++ [(last, None)]) i = Some (b, o) -> nth_error (lines ++ [(last, None)]) (S i) = Some (b', o') ->
  (0 <= b < 2 ^ 31 /\
   match o with
   | None =>
       forall x y w, Z.abs x <= b -> Z.abs y <= b -> 0 <= w < 12289 ->
       exists r, red (w * (x - y)) = Ok r /\ Z.abs (x + y) <= b' /\ Z.abs r <= b'
   | Some c =>
       (forall x, Z.abs x <= b -> exists r, red x = Ok r /\ Z.abs r <= c) /\
       (forall x y w, Z.abs x <= c -> Z.abs y <= c -> 0 <= w < 12289 ->
        exists r, red (w * (x - y)) = Ok r /\ Z.abs (x + y) <= b' /\ Z.abs r <= b')
   end)
  /\ 0 <= b' < 2 ^ 31.
Proof. exact gs_rounds_lt_L. Qed.
Print Assumptions gs_rounds_safe.

Example gs_rounds_safe_ex :
  nth_error (snd gs_abs2 ++ [(fst gs_abs2, None)]) 6 = Some (687670140, Some 180174)
  /\ nth_error (snd gs_abs2 ++ [(fst gs_abs2, None)]) 7 = Some (1093243, None) /\ gs_bound 180174 = Ok 1093243
  /\ nth_error (snd gs_abs2 ++ [(fst gs_abs2, None)]) 20 = Some (1003125168, None).
Proof. vm_compute. repeat split. Qed.

(** C70. All that the program prints: the bounds, the offsets at which the two loops report an overflow (none on the safe
    side of a bound), the sequences. *)
Theorem test_red_prints :
  main = Ok {|
    p_lower := -8796042698752; p_upper := 8796093026303;
    p_below := [-8193; -4097; -1]; p_above := [1; 4097; 8193];
    p_hex_lower := 0xfffff80002ffe000; p_hex_upper := 0x80000000fff;
    p_abs :=
      ((1207878998,
        [(12288, None); (61438, None); (258038, None); (1044438, None); (4190038, None); (16772438, None); (67102038, None);
         (268420438, None); (1073694038, Some 274418); (1109958, None); (4452118, None); (17820758, None); (71295318, None);
         (285193558, None); (1140786518, Some 290798); (1175478, None); (4714198, None); (18869078, None); (75488598, None);
         (301966678, None)]),
       (1004269498,
        [(12288, None); (86014, None); (528370, None); (3182506, None); (19107322, None); (114656218, None);
         (687949594, Some 180242); (1093738, None); (6574714, None); (39460570, None); (236775706, None);
         (1420666522, Some 359128); (2167054, None); (13014610, None); (78099946, None); (468611962, Some 126693);
         (772444, None); (4646950, None); (27893986, None); (167376202, None)]));
    p_abs2 :=
      ((1206763584,
        [(12288, None); (61435, None); (258012, None); (1044272, None); (4189120, None); (16767744, None); (67079169, None);
         (268316676, None); (1073266704, Some 274314); (1109476, None); (4449920, None); (17810880, None); (71251458, None);
         (285005832, None); (1140023328, Some 290612); (1174664, None); (4710656, None); (18853760, None); (75422724, None);
         (301690896, None)]),
       (1003125168,
        [(12288, None); (86008, None); (528293, None); (3181787, None); (19101455, None); (114611690, None);
         (687670140, Some 180174); (1093243, None); (6571211, None); (39436344, None); (236618064, None);
         (1419708384, Some 358894); (2165475, None); (13004079, None); (78030411, None); (468182466, Some 126588);
         (771753, None); (4642428, None); (27864588, None); (167187528, None)])) |}.
Proof. exact main_value. Qed.
Print Assumptions test_red_prints.

Example test_red_prints_ex :
  test_overflow (-8796042698752 - 1) = Ok true /\ test_overflow (-8796042698752 - 2) = Ok false
  /\ test_overflow (8796093026303 + 8193) = Ok true /\ test_overflow (8796093026303 + 8194) = Ok false.
Proof. vm_compute. repeat split. Qed.
