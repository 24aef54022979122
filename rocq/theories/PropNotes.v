(** The calculations of src/notes.txt. *)

From Coq Require Import ZArith List Bool Lia.
From Verif Require Import CSem Spec SpecNotes Exlib NotesFinal.
From Verif Require ModelRed Forms.
Import ListNotations.
Open Scope Z_scope.

(** C61: Propositions 1 to 4, for every modulus k * 2^m + 1.  A quotient by 2^m that the
    notes do not round is written as a product. *)
Theorem notes_propositions :
  forall k m q x, 1 <= k -> 0 <= m -> q = k * 2 ^ m + 1 ->
  redkm k m x mod q = (k * x) mod q
  /\ - x <= 2 ^ m * redkm k m x < - x + 2 ^ m * (q - k)
  /\ 2 ^ m * Z.abs (redkm k m x) <= Z.abs x + 2 ^ m * (q - k)
  /\ forall w, 0 <= w <= q - 1 -> Z.abs (redkm k m (w * x)) <= k * Z.abs x + (q - k).
Proof. exact notes_propositions_L. Qed.
Print Assumptions notes_propositions.

(** 7681 = 15 * 2^9 + 1 *)
Example notes_propositions_ex : redkm 15 9 (-100000) = 5476 /\ 5476 mod 7681 = (15 * -100000) mod 7681.
Proof. split; vm_compute; reflexivity. Qed.

(** C61: the reduction of x fits in 32 bits for all x between the two safe bounds, and not
    for the two numbers just outside. *)
Theorem notes_safe_range :
  forall k m q, 1 <= k -> 0 <= m -> q = k * 2 ^ m + 1 ->
  let lower := - 2 ^ (31 + m) + 2 ^ m * (q - k) in
  let upper := 2 ^ (31 + m) + (2 ^ m - 1) in
  (forall x, lower <= x <= upper -> - 2 ^ 31 <= redkm k m x <= 2 ^ 31 - 1)
  /\ redkm k m (upper + 1) < - 2 ^ 31 /\ redkm k m (lower - 1) > 2 ^ 31 - 1
  /\ (forall w x, 0 <= w <= q - 1 -> lower <= x * (q - 1) <= upper -> lower <= 0 ->
        - 2 ^ 31 <= redkm k m (x * w) <= 2 ^ 31 - 1).
Proof. exact notes_safe_range_L. Qed.
Print Assumptions notes_safe_range.

(** The numbers of the notes for 12289: the ranges for x and for a factor of x * w. *)
Example notes_safe_range_ex :
  - 2 ^ (31 + 12) + 2 ^ 12 * (12289 - 3) = -8796042698752 /\ 2 ^ (31 + 12) + (2 ^ 12 - 1) = 8796093026303
  /\ -8796042698752 <= -715823787 * 12288 /\ 715827882 * 12288 <= 8796093026303
  /\ redkm 3 12 8796093026303 = -2147471363 /\ redkm 3 12 8796093026304 = -2147483649.
Proof. repeat split; vm_compute; try reflexivity; discriminate. Qed.

(** C61: the bounds after one update, for every modulus of the form. *)
Theorem notes_updates :
  forall k m q B x y w, 1 <= k -> 0 <= m -> q = k * 2 ^ m + 1 ->
  Z.abs x <= B -> Z.abs y <= B -> 0 <= w <= q - 1 ->
  Z.abs (x + redkm k m (w * y)) <= (k + 1) * B + (q - k)
  /\ Z.abs (x - redkm k m (w * y)) <= (k + 1) * B + (q - k)
  /\ Z.abs (x + y) <= 2 * k * B + (q - k)
  /\ Z.abs (redkm k m ((x - y) * w)) <= 2 * k * B + (q - k).
Proof. exact notes_updates_L. Qed.
Print Assumptions notes_updates.

Example notes_updates_ex : redkm 3 12 (12287 * -12287) = 49144 /\ Z.abs (12288 + 49144) <= (3 + 1) * 12288 + (12289 - 3).
Proof. split; vm_compute; [reflexivity|discriminate]. Qed.

(** C61: the section "Tighter Bounds", for every modulus of the form. *)
Theorem notes_tighter_bounds :
  forall k m q B w x, 1 <= k -> 0 <= m -> q = k * 2 ^ m + 1 -> 0 <= w <= q - 1 -> - B <= x <= B ->
  - (k * B) <= redkm k m (w * x)
  /\ (2 ^ m * (q - k) <= B + 1 -> redkm k m (w * x) <= k * B)
  /\ (B + 1 < 2 ^ m * (q - k) -> 2 ^ m * redkm k m (w * x) <= 2 ^ m * (k * B + (q - k)) - (B + 1)).
Proof. exact notes_tighter_bounds_L. Qed.
Print Assumptions notes_tighter_bounds.

(** The bound for B = 4095 is attained. *)
Example notes_tighter_bounds_ex : redkm 3 12 (12287 * -4095) = 24570 /\ 4096 * 24570 = 4096 * (3 * 4095 + 12286) - 4096.
Proof. split; vm_compute; reflexivity. Qed.

(** C62: the sequences computed with the formulas of the notes are bounds: for constants up
    to 12288 every value stays, after each round, within the bound listed for it. *)
Theorem notes_coarse_sequences :
  sequence (ct_update 0 12288) reduction notes_ct_simple
  /\ sequence (ct_update 0 12288) reduction notes_ct_reduced
  /\ sequence (gs_update 0 12288) reduction notes_gs_simple
  /\ sequence (gs_update 0 12288) reduction notes_gs_reduced
  /\ sequence (ct_update 0 12288) reduction notes_ct_tighter
  /\ sequence (gs_update 0 12288) reduction notes_gs_tighter.
Proof. exact notes_coarse_sequences_L. Qed.
Print Assumptions notes_coarse_sequences.

(** The second round of the first sequence, which allows 258038. *)
Example notes_coarse_sequences_ex : firstn 3 notes_ct_simple = [Bound 12288; Bound 61438; Bound 258038]
  /\ 61438 + ln_red (12287 * -61438) = 258020.
Proof. split; vm_compute; reflexivity. Qed.

(** C62: the sequences of the section "More precise bounds" are the best possible: each
    bound is the least one that follows from the bound before. *)
Theorem notes_exact_sequences :
  sequence (least (ct_update 0 12288)) (least reduction) notes_ct_option1
  /\ sequence (least (gs_update 0 12288)) (least reduction) notes_gs_option1
  /\ sequence (least (ct_update (-6144) 6144)) (least reduction) notes_ct_option2
  /\ sequence (least (gs_update (-6144) 6144)) (least reduction) notes_gs_option2
  /\ sequence (least (ct_update 0 12288)) (least reduction) notes_ct_option1_psi
  /\ sequence (least (gs_update 0 12288)) (least reduction) notes_gs_option1_psi
  /\ sequence (least (ct_update (-6144) 6144)) (least reduction) notes_ct_option2_psi
  /\ sequence (least (gs_update (-6144) 6144)) (least reduction) notes_gs_option2_psi.
Proof. exact notes_exact_sequences_L. Qed.
Print Assumptions notes_exact_sequences.

(** The first line of option 2 is attained. *)
Example notes_exact_sequences_ex : firstn 2 notes_ct_option2 = [Bound 12288; Bound 42997] /\ 12288 + ln_red (6143 * -12286) = 42997.
Proof. split; vm_compute; reflexivity. Qed.

(** C62: the bounds on the product with a power of psi from which the last four sequences
    start. *)
Theorem notes_first_operands :
  least (fun b c => forall x y, 0 <= x <= b -> 0 <= y <= b -> - c <= ln_red (x * y) <= c) 12288 36864
  /\ least (fun b c => forall x y, - b <= x <= b -> - b <= y <= b -> - c <= ln_red (x * y) <= c) 6144 21499.
Proof. exact notes_first_operands_L. Qed.
Print Assumptions notes_first_operands.

Example notes_first_operands_ex : ln_red (12288 * 12288) = -36864 /\ ln_red (6143 * -6143) = 21499.
Proof. split; vm_compute; reflexivity. Qed.

(** C62: with any table of constants between -6144 and 6144, the Cooley-Tukey transforms of
    src/ntt_red.c do not overflow for n up to 4096, and the coefficients they return are
    within the bound listed for log2(n) rounds. *)
Theorem notes_ct_transforms :
  forall l b0 k a p run,
  In (b0, l) [(12288, notes_ct_option2); (21499, notes_ct_option2_psi)] ->
  0 <= k <= 12 -> zlen a = 2 ^ k -> zlen p = 2 ^ k -> all_in (- b0) b0 a -> all_in (-6144) 6144 p ->
  In run [ModelRed.ntt_red_ct_rev2std; ModelRed.ntt_red_ct_std2rev; ModelRed.mulntt_red_ct_rev2std; ModelRed.mulntt_red_ct_std2rev] ->
  exists r, run a (2 ^ k) p = Ok r /\ zlen r = 2 ^ k
    /\ all_in (- at_ (rounds l) k) (at_ (rounds l) k) r.
Proof. exact notes_ct_transforms_L. Qed.
Print Assumptions notes_ct_transforms.

Example notes_ct_transforms_ex :
  all_in (-12288) 12288 ex_ones8 /\ all_in (-6144) 6144 ex_tab8
  /\ ModelRed.mulntt_red_ct_rev2std ex_ones8 8 ex_tab8 = Ok [-6183; -15342; -47514; 6316; -24501; -15342; 201066; -196]
  /\ at_ (rounds notes_ct_option2) 3 = 311299.
Proof. split; [check_all_in|]. split; [check_all_in|]. split; vm_compute; reflexivity. Qed.

(** C62: the same for the Gentleman-Sande transforms, for n up to 1024. *)
Theorem notes_gs_transforms :
  forall l b0 k a p run,
  In (b0, l) [(12288, notes_gs_option2); (21499, notes_gs_option2_psi)] ->
  0 <= k <= 10 -> zlen a = 2 ^ k -> zlen p = 2 ^ k -> all_in (- b0) b0 a -> all_in (-6144) 6144 p ->
  In run [ModelRed.ntt_red_gs_rev2std; ModelRed.ntt_red_gs_std2rev; ModelRed.nttmul_red_gs_rev2std; ModelRed.nttmul_red_gs_std2rev] ->
  exists r, run a (2 ^ k) p = Ok r /\ zlen r = 2 ^ k
    /\ all_in (- at_ (rounds l) k) (at_ (rounds l) k) r.
Proof. exact notes_gs_transforms_L. Qed.
Print Assumptions notes_gs_transforms.

Example notes_gs_transforms_ex :
  all_in (-12288) 12288 ex_ones8 /\ all_in (-6144) 6144 ex_tab8
  /\ ModelRed.nttmul_red_gs_std2rev ex_ones8 8 ex_tab8 = Ok [0; 0; 0; 0; -36894; 67441; 79676; -77110]
  /\ at_ (rounds notes_gs_option2) 3 = 490509.
Proof. split; [check_all_in|]. split; [check_all_in|]. split; vm_compute; reflexivity. Qed.
