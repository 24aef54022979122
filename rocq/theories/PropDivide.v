(** Properties of the halves of the products (ModelHalves): C92 and C93.

    C92: a forward half and an inverse half undo each other.  C93: division of polynomials modulo X^n + 1 by division of the
    transforms, and which polynomials can be divided by. *)

From Coq Require Import ZArith List Bool Lia.
From Verif Require Import CSem Spec Exlib ModelGen ModelProducts ModelAvxProd ModelHalves ExTables ProdFinal AccumFinal DivideFinal.
Import ListNotations.
Open Scope Z_scope.

(** C92: default implementation: the halves are inverse to each other *)
Theorem ntt_halves_inverse :
  forall malloc size psi T, (forall n, 0 <= n -> zlen (malloc n) = n) ->
  make_tables malloc size psi = Ok (Written T) ->
  forall F G, In F (ntt_forwards size T) -> In G (ntt_inverses size T) ->
  (forall a, zlen a = size -> all_in 0 (Q - 1) a ->
     exists A, F a = Ok A /\ G A = Ok a)
  /\ (forall d, zlen d = size -> all_in 0 (Q - 1) d ->
     exists c, G d = Ok c /\ F c = Ok d).
Proof. exact ntt_halves_inverse_L. Qed.
Print Assumptions ntt_halves_inverse.

Example ntt_halves_inverse_ex :
  make_tables malloc77 16 1212 = Ok (Written T16) /\ all_in 0 (Q - 1) exA
  /\ (exists A, half (ntt_forwards 16 T16) 2 exA = Ok A /\ forall G, In G (ntt_inverses 16 T16) -> G A = Ok exA).
Proof.
  split; [exact T16_made|]. split; [check_all_in|]. eexists. split; [vm_compute; reflexivity|].
  intros G [<-|[<-|[<-|[]]]]; vm_compute; reflexivity.
Qed.

(** C92: naive implementation: the halves are inverse to each other modulo Q *)
Theorem naive_halves_inverse :
  forall malloc size psi T, (forall n, 0 <= n -> zlen (malloc n) = n) ->
  make_tables malloc size psi = Ok (Written T) ->
  forall F G, In F (naive_forwards size T) -> In G (naive_inverses size T) ->
  (forall a, zlen a = size -> all_in (- Q + 1) (Q - 1) a ->
     exists A b, F a = Ok A /\ G A = Ok b /\ zlen b = size /\ all_in (- Q + 1) (Q - 1) b /\ forall i, 0 <= i < size -> eqQ (at_ b i) (at_ a i))
  /\ (forall d, zlen d = size -> all_in (- Q + 1) (Q - 1) d ->
     exists c D, G d = Ok c /\ F c = Ok D /\ zlen D = size /\ forall i, 0 <= i < size -> eqQ (at_ D i) (at_ d i)).
Proof. exact naive_halves_inverse_L. Qed.
Print Assumptions naive_halves_inverse.

Example naive_halves_inverse_ex :
  make_tables malloc77 16 1212 = Ok (Written T16) /\ all_in (- Q + 1) (Q - 1) exA
  /\ (exists A, half (naive_forwards 16 T16) 2 exA = Ok A /\ forall G, In G (naive_inverses 16 T16) -> exists b, G A = Ok b /\ scaled 1 b = exA).
Proof.
  split; [exact T16_made|]. split; [check_all_in|]. eexists. split; [vm_compute; reflexivity|].
  intros G [<-|[<-|[<-|[]]]]; eexists; (split; [vm_compute; reflexivity|vm_compute; reflexivity]).
Qed.

(** C92: Longa-Naehrig implementation: the halves undo each other up to the factor 9; the inverse half accepts any values of
    type int32_t *)
Theorem red_halves_inverse :
  forall malloc size psi T sh, (forall n, 0 <= n -> zlen (malloc n) = n) ->
  make_red_tables malloc size psi = Ok (Written T) -> size <= 1024 ->
  forall F G, In F (red_forwards sh size T) -> In G (red_inverses size T) ->
  (forall a, zlen a = size -> all_in (-6144) (Q - 1) a ->
     exists A b, F a = Ok A /\ G A = Ok b /\ zlen b = size /\ all_in 0 (Q - 1) b /\ forall i, 0 <= i < size -> eqQ (9 * at_ b i) (at_ a i))
  /\ (forall d, zlen d = size -> all_in (- 2 ^ 31) (2 ^ 31 - 1) d ->
     exists c D, G d = Ok c /\ F c = Ok D /\ zlen D = size /\ forall i, 0 <= i < size -> eqQ (9 * at_ D i) (at_ d i)).
Proof. exact red_halves_inverse_L. Qed.
Print Assumptions red_halves_inverse.

Example red_halves_inverse_ex :
  make_red_tables malloc77 16 1212 = Ok (Written R16) /\ all_in (-6144) (Q - 1) exA
  /\ (exists A, half (red_forwards true 16 R16) 2 exA = Ok A /\ forall G, In G (red_inverses 16 R16) -> exists b, G A = Ok b /\ scaled 9 b = exA).
Proof.
  split; [exact R16_made|]. split; [check_all_in|]. eexists. split; [vm_compute; reflexivity|].
  intros G [<-|[<-|[<-|[]]]]; eexists; (split; [vm_compute; reflexivity|vm_compute; reflexivity]).
Qed.

(** C92: C functions and AVX2 routines of the Longa-Naehrig implementation together: the same for all combinations *)
Theorem red_asm_halves_inverse :
  forall malloc size psi T sh, (forall n, 0 <= n -> zlen (malloc n) = n) ->
  make_red_tables malloc size psi = Ok (Written T) -> 16 <= size <= 1024 ->
  forall F G, In F (red_forwards sh size T ++ asm_forwards sh size T) -> In G (red_inverses size T ++ asm_inverses size T) ->
  (forall a, zlen a = size -> all_in (-6144) (Q - 1) a ->
     exists A b, F a = Ok A /\ G A = Ok b /\ zlen b = size /\ all_in 0 (Q - 1) b /\ forall i, 0 <= i < size -> eqQ (9 * at_ b i) (at_ a i))
  /\ (forall d, zlen d = size -> all_in (- 2 ^ 31) (2 ^ 31 - 1) d ->
     exists c D, G d = Ok c /\ F c = Ok D /\ zlen D = size /\ forall i, 0 <= i < size -> eqQ (9 * at_ D i) (at_ d i)).
Proof. exact red_asm_halves_inverse_L. Qed.
Print Assumptions red_asm_halves_inverse.

Example red_asm_halves_inverse_ex :
  make_red_tables malloc77 16 1212 = Ok (Written R16) /\ all_in (-6144) (Q - 1) exA
  /\ (exists A, half (red_forwards true 16 R16 ++ asm_forwards true 16 R16) 5 exA = Ok A /\ forall G, In G (red_inverses 16 R16 ++ asm_inverses 16 R16) -> exists b, G A = Ok b /\ scaled 9 b = exA).
Proof.
  split; [exact R16_made|]. split; [check_all_in|]. eexists. split; [vm_compute; reflexivity|].
  intros G [<-|[<-|[<-|[<-|[<-|[<-|[]]]]]]]; eexists; (split; [vm_compute; reflexivity|vm_compute; reflexivity]).
Qed.

(** C93: default implementation: a polynomial has an inverse modulo X^n + 1 exactly if its transform has no zero; then it can be
    cancelled; otherwise it divides zero *)
Theorem ntt_units :
  forall malloc size psi T, (forall n, 0 <= n -> zlen (malloc n) = n) ->
  make_tables malloc size psi = Ok (Written T) ->
  forall a A, transform_by (ntt_forwards size T) size 0 (Q - 1) a A ->
  ((exists b, forall i, 0 <= i < size -> eqQ (negacyclic size (at_ a) b i) (if i =? 0 then 1 else 0))
    <-> (forall i, 0 <= i < size -> ~ eqQ (at_ A i) 0))
  /\ ((forall i, 0 <= i < size -> ~ eqQ (at_ A i) 0) -> forall b c,
       (forall i, 0 <= i < size -> eqQ (negacyclic size (at_ a) b i) (negacyclic size (at_ a) c i)) ->
       forall i, 0 <= i < size -> eqQ (b i) (c i))
  /\ (forall j, 0 <= j < size -> eqQ (at_ A j) 0 ->
       exists b, (forall i, 0 <= i < size -> eqQ (negacyclic size (at_ a) b i) 0)
         /\ exists i, 0 <= i < size /\ ~ eqQ (b i) 0).
Proof. exact ntt_units_L. Qed.
Print Assumptions ntt_units.

Example ntt_units_ex :
  make_tables malloc77 16 1212 = Ok (Written T16) /\ all_in 0 (Q - 1) exA /\ all_in 0 (Q - 1) exZ
  /\ (forall F, In F (ntt_forwards 16 T16) ->
       (exists A, F exA = Ok A /\ nonzero A = true) /\ exists A, F exZ = Ok A /\ at_ A 0 = 0)
  /\ exprod exA exInv = exDelta.
Proof.
  split; [exact T16_made|]. split; [check_all_in|]. split; [check_all_in|]. split; [|vm_compute; reflexivity].
  intros F [<-|[<-|[<-|[]]]]; (split; eexists; (split; [vm_compute; reflexivity|vm_compute; reflexivity])).
Qed.

(** C93: naive implementation: the same *)
Theorem naive_units :
  forall malloc size psi T, (forall n, 0 <= n -> zlen (malloc n) = n) ->
  make_tables malloc size psi = Ok (Written T) ->
  forall a A, transform_by (naive_forwards size T) size (- Q + 1) (Q - 1) a A ->
  ((exists b, forall i, 0 <= i < size -> eqQ (negacyclic size (at_ a) b i) (if i =? 0 then 1 else 0))
    <-> (forall i, 0 <= i < size -> ~ eqQ (at_ A i) 0))
  /\ ((forall i, 0 <= i < size -> ~ eqQ (at_ A i) 0) -> forall b c,
       (forall i, 0 <= i < size -> eqQ (negacyclic size (at_ a) b i) (negacyclic size (at_ a) c i)) ->
       forall i, 0 <= i < size -> eqQ (b i) (c i))
  /\ (forall j, 0 <= j < size -> eqQ (at_ A j) 0 ->
       exists b, (forall i, 0 <= i < size -> eqQ (negacyclic size (at_ a) b i) 0)
         /\ exists i, 0 <= i < size /\ ~ eqQ (b i) 0).
Proof. exact naive_units_L. Qed.
Print Assumptions naive_units.

Example naive_units_ex :
  make_tables malloc77 16 1212 = Ok (Written T16) /\ all_in (- Q + 1) (Q - 1) exA /\ all_in (- Q + 1) (Q - 1) exZ
  /\ (forall F, In F (naive_forwards 16 T16) ->
       (exists A, F exA = Ok A /\ nonzero A = true) /\ exists A, F exZ = Ok A /\ at_ A 0 = 0)
  /\ exprod exA exInv = exDelta.
Proof.
  split; [exact T16_made|]. split; [check_all_in|]. split; [check_all_in|]. split; [|vm_compute; reflexivity].
  intros F [<-|[<-|[<-|[]]]]; (split; eexists; (split; [vm_compute; reflexivity|vm_compute; reflexivity])).
Qed.

(** C93: Longa-Naehrig implementation: the same *)
Theorem red_units :
  forall malloc size psi T sh, (forall n, 0 <= n -> zlen (malloc n) = n) ->
  make_red_tables malloc size psi = Ok (Written T) -> size <= 1024 ->
  forall a A, transform_by (red_forwards sh size T) size (-6144) (Q - 1) a A ->
  ((exists b, forall i, 0 <= i < size -> eqQ (negacyclic size (at_ a) b i) (if i =? 0 then 1 else 0))
    <-> (forall i, 0 <= i < size -> ~ eqQ (at_ A i) 0))
  /\ ((forall i, 0 <= i < size -> ~ eqQ (at_ A i) 0) -> forall b c,
       (forall i, 0 <= i < size -> eqQ (negacyclic size (at_ a) b i) (negacyclic size (at_ a) c i)) ->
       forall i, 0 <= i < size -> eqQ (b i) (c i))
  /\ (forall j, 0 <= j < size -> eqQ (at_ A j) 0 ->
       exists b, (forall i, 0 <= i < size -> eqQ (negacyclic size (at_ a) b i) 0)
         /\ exists i, 0 <= i < size /\ ~ eqQ (b i) 0).
Proof. exact red_units_L. Qed.
Print Assumptions red_units.

Example red_units_ex :
  make_red_tables malloc77 16 1212 = Ok (Written R16) /\ all_in (-6144) (Q - 1) exA /\ all_in (-6144) (Q - 1) exZ
  /\ (forall F, In F (red_forwards true 16 R16) ->
       (exists A, F exA = Ok A /\ nonzero A = true) /\ exists A, F exZ = Ok A /\ at_ A 0 = 0)
  /\ exprod exA exInv = exDelta.
Proof.
  split; [exact R16_made|]. split; [check_all_in|]. split; [check_all_in|]. split; [|vm_compute; reflexivity].
  intros F [<-|[<-|[<-|[]]]]; (split; eexists; (split; [vm_compute; reflexivity|vm_compute; reflexivity])).
Qed.

(** C93: C functions and AVX2 routines of the Longa-Naehrig implementation together: the
    same for all forward halves *)
Theorem red_asm_units :
  forall malloc size psi T sh, (forall n, 0 <= n -> zlen (malloc n) = n) ->
  make_red_tables malloc size psi = Ok (Written T) -> 16 <= size <= 1024 ->
  forall a A, transform_by (red_forwards sh size T ++ asm_forwards sh size T) size (-6144) (Q - 1) a A ->
  ((exists b, forall i, 0 <= i < size -> eqQ (negacyclic size (at_ a) b i) (if i =? 0 then 1 else 0))
    <-> (forall i, 0 <= i < size -> ~ eqQ (at_ A i) 0))
  /\ ((forall i, 0 <= i < size -> ~ eqQ (at_ A i) 0) -> forall b c,
       (forall i, 0 <= i < size -> eqQ (negacyclic size (at_ a) b i) (negacyclic size (at_ a) c i)) ->
       forall i, 0 <= i < size -> eqQ (b i) (c i))
  /\ (forall j, 0 <= j < size -> eqQ (at_ A j) 0 ->
       exists b, (forall i, 0 <= i < size -> eqQ (negacyclic size (at_ a) b i) 0)
         /\ exists i, 0 <= i < size /\ ~ eqQ (b i) 0).
Proof. exact red_asm_units_L. Qed.
Print Assumptions red_asm_units.

Example red_asm_units_ex :
  make_red_tables malloc77 16 1212 = Ok (Written R16) /\ all_in (-6144) (Q - 1) exA /\ all_in (-6144) (Q - 1) exZ
  /\ (forall F, In F (red_forwards true 16 R16 ++ asm_forwards true 16 R16) ->
       (exists A, F exA = Ok A /\ nonzero A = true) /\ exists A, F exZ = Ok A /\ at_ A 0 = 0)
  /\ exprod exA exInv = exDelta.
Proof.
  split; [exact R16_made|]. split; [check_all_in|]. split; [check_all_in|]. split; [|vm_compute; reflexivity].
  intros F [<-|[<-|[<-|[<-|[<-|[<-|[]]]]]]]; (split; eexists; (split; [vm_compute; reflexivity|vm_compute; reflexivity])).
Qed.

(** C93: default implementation: the inverse half of the quotients of two transforms is the quotient of the polynomials *)
Theorem ntt_divides :
  forall malloc size psi T, (forall n, 0 <= n -> zlen (malloc n) = n) ->
  make_tables malloc size psi = Ok (Written T) ->
  forall a A c C, transform_by (ntt_forwards size T) size 0 (Q - 1) a A ->
  transform_by (ntt_forwards size T) size 0 (Q - 1) c C ->
  forall d, zlen d = size -> all_in 0 (Q - 1) d ->
  (forall i, 0 <= i < size -> eqQ (at_ A i * at_ d i) (at_ C i)) ->
  forall G, In G (ntt_inverses size T) ->
  exists q, G d = Ok q /\ zlen q = size /\ all_in 0 (Q - 1) q
    /\ forall i, 0 <= i < size -> eqQ (negacyclic size (at_ a) (at_ q) i) (at_ c i).
Proof. exact ntt_divides_L. Qed.
Print Assumptions ntt_divides.

Example ntt_divides_ex :
  make_tables malloc77 16 1212 = Ok (Written T16) /\ all_in 0 (Q - 1) exA /\ all_in 0 (Q - 1) exB
  /\ (exists A C, half (ntt_forwards 16 T16) 0 exA = Ok A /\ half (ntt_forwards 16 T16) 2 exB = Ok C /\ quotient 1 A exQ C = true)
  /\ (forall G, In G (ntt_inverses 16 T16) -> G exQ = Ok exQuot)
  /\ exprod exA exQuot = exB.
Proof.
  split; [exact T16_made|]. split; [check_all_in|]. split; [check_all_in|]. split; [|split; [|vm_compute; reflexivity]].
  - do 2 eexists. split; [vm_compute; reflexivity|]. split; [vm_compute; reflexivity|]. vm_compute. reflexivity.
  - intros G [<-|[<-|[<-|[]]]]; vm_compute; reflexivity.
Qed.

(** C93: naive implementation: the same, with residues of either sign *)
Theorem naive_divides :
  forall malloc size psi T, (forall n, 0 <= n -> zlen (malloc n) = n) ->
  make_tables malloc size psi = Ok (Written T) ->
  forall a A c C, transform_by (naive_forwards size T) size (- Q + 1) (Q - 1) a A ->
  transform_by (naive_forwards size T) size (- Q + 1) (Q - 1) c C ->
  forall d, zlen d = size -> all_in (- Q + 1) (Q - 1) d ->
  (forall i, 0 <= i < size -> eqQ (at_ A i * at_ d i) (at_ C i)) ->
  forall G, In G (naive_inverses size T) ->
  exists q, G d = Ok q /\ zlen q = size /\ all_in (- Q + 1) (Q - 1) q
    /\ forall i, 0 <= i < size -> eqQ (negacyclic size (at_ a) (at_ q) i) (at_ c i).
Proof. exact naive_divides_L. Qed.
Print Assumptions naive_divides.

Example naive_divides_ex :
  make_tables malloc77 16 1212 = Ok (Written T16) /\ all_in (- Q + 1) (Q - 1) exA /\ all_in (- Q + 1) (Q - 1) exB
  /\ (exists A C, half (naive_forwards 16 T16) 0 exA = Ok A /\ half (naive_forwards 16 T16) 2 exB = Ok C /\ quotient 1 A exQ C = true)
  /\ (forall G, In G (naive_inverses 16 T16) -> exists q, G exQ = Ok q /\ scaled 1 q = exQuot)
  /\ exprod exA exQuot = exB.
Proof.
  split; [exact T16_made|]. split; [check_all_in|]. split; [check_all_in|]. split; [|split; [|vm_compute; reflexivity]].
  - do 2 eexists. split; [vm_compute; reflexivity|]. split; [vm_compute; reflexivity|]. vm_compute. reflexivity.
  - intros G [<-|[<-|[<-|[]]]]; eexists; (split; [vm_compute; reflexivity|vm_compute; reflexivity]).
Qed.

(** C93: Longa-Naehrig implementation: the same; the quotients are to be multiplied by 27 *)
Theorem red_divides :
  forall malloc size psi T sh, (forall n, 0 <= n -> zlen (malloc n) = n) ->
  make_red_tables malloc size psi = Ok (Written T) -> size <= 1024 ->
  forall a A c C, transform_by (red_forwards sh size T) size (-6144) (Q - 1) a A ->
  transform_by (red_forwards sh size T) size (-6144) (Q - 1) c C ->
  forall d, zlen d = size -> all_in (- 2 ^ 31) (2 ^ 31 - 1) d ->
  (forall i, 0 <= i < size -> eqQ (at_ A i * at_ d i) (27 * at_ C i)) ->
  forall G, In G (red_inverses size T) ->
  exists q, G d = Ok q /\ zlen q = size /\ all_in 0 (Q - 1) q
    /\ forall i, 0 <= i < size -> eqQ (negacyclic size (at_ a) (at_ q) i) (at_ c i).
Proof. exact red_divides_L. Qed.
Print Assumptions red_divides.

Example red_divides_ex :
  make_red_tables malloc77 16 1212 = Ok (Written R16) /\ all_in (-6144) (Q - 1) exA /\ all_in (-6144) (Q - 1) exB
  /\ (exists A C, half (red_forwards true 16 R16) 0 exA = Ok A /\ half (red_forwards true 16 R16) 2 exB = Ok C /\ quotient 27 A (scaled 27 exQ) C = true)
  /\ (forall G, In G (red_inverses 16 R16) -> G (scaled 27 exQ) = Ok exQuot)
  /\ exprod exA exQuot = exB.
Proof.
  split; [exact R16_made|]. split; [check_all_in|]. split; [check_all_in|]. split; [|split; [|vm_compute; reflexivity]].
  - do 2 eexists. split; [vm_compute; reflexivity|]. split; [vm_compute; reflexivity|]. vm_compute. reflexivity.
  - intros G [<-|[<-|[<-|[]]]]; vm_compute; reflexivity.
Qed.

(** C93: C functions and AVX2 routines of the Longa-Naehrig implementation together: the
    same for all combinations *)
Theorem red_asm_divides :
  forall malloc size psi T sh, (forall n, 0 <= n -> zlen (malloc n) = n) ->
  make_red_tables malloc size psi = Ok (Written T) -> 16 <= size <= 1024 ->
  forall a A c C, transform_by (red_forwards sh size T ++ asm_forwards sh size T) size (-6144) (Q - 1) a A ->
  transform_by (red_forwards sh size T ++ asm_forwards sh size T) size (-6144) (Q - 1) c C ->
  forall d, zlen d = size -> all_in (- 2 ^ 31) (2 ^ 31 - 1) d ->
  (forall i, 0 <= i < size -> eqQ (at_ A i * at_ d i) (27 * at_ C i)) ->
  forall G, In G (red_inverses size T ++ asm_inverses size T) ->
  exists q, G d = Ok q /\ zlen q = size /\ all_in 0 (Q - 1) q
    /\ forall i, 0 <= i < size -> eqQ (negacyclic size (at_ a) (at_ q) i) (at_ c i).
Proof. exact red_asm_divides_L. Qed.
Print Assumptions red_asm_divides.

Example red_asm_divides_ex :
  make_red_tables malloc77 16 1212 = Ok (Written R16) /\ all_in (-6144) (Q - 1) exA /\ all_in (-6144) (Q - 1) exB
  /\ (exists A C, half (red_forwards true 16 R16 ++ asm_forwards true 16 R16) 1 exA = Ok A /\ half (red_forwards true 16 R16 ++ asm_forwards true 16 R16) 5 exB = Ok C /\ quotient 27 A (scaled 27 exQ) C = true)
  /\ (forall G, In G (red_inverses 16 R16 ++ asm_inverses 16 R16) -> G (scaled 27 exQ) = Ok exQuot)
  /\ exprod exA exQuot = exB.
Proof.
  split; [exact R16_made|]. split; [check_all_in|]. split; [check_all_in|]. split; [|split; [|vm_compute; reflexivity]].
  - do 2 eexists. split; [vm_compute; reflexivity|]. split; [vm_compute; reflexivity|]. vm_compute. reflexivity.
  - intros G [<-|[<-|[<-|[<-|[<-|[<-|[]]]]]]]; vm_compute; reflexivity.
Qed.

