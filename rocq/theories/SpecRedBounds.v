(** Specification of the bounds that src/test_red_bounds.c prints. *)

From Coq Require Import ZArith List.
From Verif Require Import Spec.
Import ListNotations.
Open Scope Z_scope.

(** [c] is the maximum of |red(x)| for |x| <= b. *)
Definition abs_exact (b c : Z) : Prop :=
  (forall x, - b <= x <= b -> Z.abs (ln_red x) <= c) /\ exists x, - b <= x <= b /\ Z.abs (ln_red x) = c.

(** [c] is the maximum of |x + red(w*y)| and |x - red(w*y)|, the results of a Cooley-Tukey
    butterfly, for |x| <= b, |y| <= b and w in [low, high]. *)
Definition ct_exact (low high b c : Z) : Prop :=
  (forall x y w, - b <= x <= b -> - b <= y <= b -> low <= w <= high ->
     Z.abs (x + ln_red (w * y)) <= c /\ Z.abs (x - ln_red (w * y)) <= c)
  /\ exists x y w, - b <= x <= b /\ - b <= y <= b /\ low <= w <= high
     /\ (Z.abs (x + ln_red (w * y)) = c \/ Z.abs (x - ln_red (w * y)) = c).

(** The same for |x + y| and |red(w*(x-y))|, the results of a Gentleman-Sande butterfly. *)
Definition gs_exact (low high b c : Z) : Prop :=
  (forall x y w, - b <= x <= b -> - b <= y <= b -> low <= w <= high ->
     Z.abs (x + y) <= c /\ Z.abs (ln_red (w * (x - y))) <= c)
  /\ exists x y w, - b <= x <= b /\ - b <= y <= b /\ low <= w <= high
     /\ (Z.abs (x + y) = c \/ Z.abs (ln_red (w * (x - y))) = c).

(** Twenty rounds of butterflies from the bound [b0]: the bound of each round fits in 32 bits and
    is the exact bound ([exact]) for the round before, after a reduction of all elements exactly
    if it would not fit without one.  [lines] has the bound of each round with the bound after the
    reduction, if there is one; [last] is the bound after the last round. *)
Definition rounds_exact (exact : Z -> Z -> Prop) (b0 : Z) (printed : Z * list (Z * option Z)) : Prop :=
  let (last, lines) := printed in
  let bounds := map fst lines ++ [last] in
  length lines = 20%nat /\ nth_error bounds 0 = Some b0
  /\ forall i b reduced b', nth_error lines i = Some (b, reduced) -> nth_error bounds (S i) = Some b' ->
     0 <= b <= 2147483647 /\ 0 <= b' <= 2147483647
     /\ match reduced with
        | None => exact b b'
        | Some c => (exists d, exact b d /\ 2147483647 < d) /\ abs_exact b c /\ exact c b'
        end.

(** [min] and [max] are the extrema of red(x) on [a, b], attained at [min_x] and [max_x]. *)
Definition red_extrema (a b min min_x max max_x : Z) : Prop :=
  a <= min_x <= b /\ min = ln_red min_x /\ a <= max_x <= b /\ max = ln_red max_x
  /\ forall x, a <= x <= b -> min <= ln_red x <= max.

(** [min] and [max] are the extrema of red(x*y) for x in [a, b] and y in [c, d]. *)
Definition mul_extrema (a b c d min max : Z) : Prop :=
  (exists x y, a <= x <= b /\ c <= y <= d /\ min = ln_red (x * y))
  /\ (exists x y, a <= x <= b /\ c <= y <= d /\ max = ln_red (x * y))
  /\ forall x y, a <= x <= b -> c <= y <= d -> min <= ln_red (x * y) <= max.
(** The same with the points where they are attained. *)
Definition mul_extrema_at (a b c d : Z) (min max : Z * Z * Z) : Prop :=
  let '(min, min_x, min_y) := min in
  let '(max, max_x, max_y) := max in
  a <= min_x <= b /\ c <= min_y <= d /\ min = ln_red (min_x * min_y)
  /\ a <= max_x <= b /\ c <= max_y <= d /\ max = ln_red (max_x * max_y)
  /\ forall x y, a <= x <= b -> c <= y <= d -> min <= ln_red (x * y) <= max.
