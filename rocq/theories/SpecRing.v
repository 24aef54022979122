(** Notions used to state the ring laws of the product procedures. *)

From Coq Require Import ZArith List.
From Verif Require Import CSem Spec ModelProducts ModelAvxProd ModelGen.
Import ListNotations.
Open Scope Z_scope.

(** Called with arrays that hold [x] and [y], the procedure [f] leaves [r] in
    the result array: for every heap, every choice of two distinct argument
    arrays, and a result array that may be one of them. *)
Definition leaves (f : heap -> Z -> Z -> Z -> res heap) (x y r : list Z) : Prop :=
  forall h c a b, a <> b -> h a = x -> h b = y -> zlen (h c) = zlen x ->
  exists h', f h c a b = Ok h' /\ h' c = r.

(** A polynomial with [n] coefficients modulo Q. *)
Definition poly (n : Z) (x : list Z) : Prop := zlen x = n /\ all_in 0 (Q - 1) x.

(** [table n f] is the array [f 0, .., f (n-1)]. *)
Definition table (n : Z) (f : Z -> Z) : list Z := map (fun i => f (Z.of_nat i)) (seq 0 (Z.to_nat n)).

(** Sum, coefficient by coefficient. *)
Definition addQ (n : Z) (x y : list Z) : list Z := table n (fun i => (at_ x i + at_ y i) mod Q).

(** The polynomial X^k. *)
Definition monomial (n k : Z) : list Z := table n (fun i => if i =? k then 1 else 0).

(** X^k x modulo X^n + 1: rotation, with a change of sign for what comes around. *)
Definition rotate (n k : Z) (x : list Z) : list Z :=
  table n (fun i => if i <? k then (- at_ x (n + i - k)) mod Q else at_ x (i - k)).

(** The product procedures that return canonical coefficients, for given size
    and generated tables: default version (ntt16.c, ..), Longa-Naehrig version
    (ntt_red16.c, ..) and its AVX2 variant (ntt_red_asm16.c, ..). *)
Definition product_procedure (size psi : Z) (T : tables) (R : red_tables) (sh : bool)
  (f : heap -> Z -> Z -> Z -> res heap) : Prop :=
  In f [ntt_product1 size T; ntt_product2 size T; ntt_product3 size T; ntt_product4 size T; ntt_product5 size T]
  \/ In f [red_product1 sh size R; red_product2 sh size R; red_product3 sh size R; red_product4 sh size R; red_product5 sh size R]
  \/ (16 <= size /\
      In f [red_product1_asm sh size R; red_product2_asm sh size R; red_product3_asm sh size R; red_product4_asm sh size R; red_product5_asm sh size R])
  \/ (size = 1024 /\ psi = 1014 /\ f = red1024_product1_asm 1024 R).
