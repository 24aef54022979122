(** Vocabulary for the properties of the interval analysis. *)

From Coq Require Import ZArith List.
Import ListNotations.
Open Scope Z_scope.

(** An interval is the pair of its bounds. *)
Definition member (x : Z) (V : Z * Z) : Prop := fst V <= x <= snd V.

(** A value of the C type interval_t: non-empty, with 64-bit bounds. *)
Definition proper (V : Z * Z) : Prop :=
  - 2 ^ 63 <= fst V /\ fst V <= snd V /\ snd V <= 2 ^ 63 - 1.

(** [V] is the smallest interval containing the image of [D] by [f]. *)
Definition tight (D : Z -> Prop) (f : Z -> Z) (V : Z * Z) : Prop :=
  (forall x, D x -> member (f x) V)
  /\ (exists x, D x /\ f x = fst V) /\ (exists x, D x /\ f x = snd V).

(** Two arrays of the same length, every element of the second in the interval at the
    same index of the first. *)
Definition encloses (A : list (Z * Z)) (a : list Z) : Prop :=
  Forall2 (fun V x => member x V) A a.

(** The bounds printed by every call of show_intervals are at most [B] in absolute
    value. *)
Definition printed_within (B : Z) (out : list (list (Z * Z) * list Z)) : Prop :=
  Forall (fun row => Forall (fun V => - B <= fst V /\ snd V <= B) (fst row)) out.

(** No call of show_intervals printed a warning. *)
Definition no_warning (out : list (list (Z * Z) * list Z)) : Prop :=
  Forall (fun row => snd row = []) out.
