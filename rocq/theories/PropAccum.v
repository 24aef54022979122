(** Properties of callers that keep transforms and combine them: C90.

    The forward halves of the products (ModelHalves) are interchangeable, and one inverse half
    applied to a sum of products of transforms gives the sum of the products of the polynomials. *)

From Coq Require Import ZArith List Bool Lia.
From Verif Require Import CSem Spec Exlib ModelGen ModelProducts ModelAvxProd ModelHalves ExTables ProdFinal AccumFinal.
Import ListNotations.
Open Scope Z_scope.

(** C90: default implementation, the three forward halves return the same array *)
Theorem ntt_forwards_agree :
  forall malloc size psi T, (forall n, 0 <= n -> zlen (malloc n) = n) ->
  make_tables malloc size psi = Ok (Written T) ->
  (forall F, In F (ntt_forwards size T) -> forall a, zlen a = size -> all_in 0 (Q - 1) a ->
     exists A, F a = Ok A /\ zlen A = size /\ all_in 0 (Q - 1) A)
  /\ (forall F F' a A A', In F (ntt_forwards size T) -> In F' (ntt_forwards size T) ->
     zlen a = size -> all_in 0 (Q - 1) a -> F a = Ok A -> F' a = Ok A' ->
     A = A').
Proof. exact ntt_forwards_agree_L. Qed.
Print Assumptions ntt_forwards_agree.

Example ntt_forwards_agree_ex :
  make_tables malloc77 16 1212 = Ok (Written T16) /\ all_in 0 (Q - 1) exA
  /\ (exists A, forall F, In F (ntt_forwards 16 T16) -> F exA = Ok A /\ at_ A 0 = 10641).
Proof.
  split; [exact T16_made|]. split; [check_all_in|]. eexists.
  intros F [<-|[<-|[<-|[]]]]; (split; [vm_compute; reflexivity|vm_compute; reflexivity]).
Qed.

(** C90: default implementation, sums of products with one inverse half *)
Theorem ntt_accumulate :
  forall malloc size psi T, (forall n, 0 <= n -> zlen (malloc n) = n) ->
  make_tables malloc size psi = Ok (Written T) ->
  forall ab AB, Forall2 (fun p q => transform_by (ntt_forwards size T) size 0 (Q - 1) (fst p) (fst q)
                                 /\ transform_by (ntt_forwards size T) size 0 (Q - 1) (snd p) (snd q)) ab AB ->
  forall d, zlen d = size -> all_in 0 (Q - 1) d ->
  (forall i, 0 <= i < size -> eqQ (at_ d i) (dot AB i)) ->
  forall G, In G (ntt_inverses size T) ->
  exists c, G d = Ok c /\ zlen c = size /\ all_in 0 (Q - 1) c
    /\ (forall i, 0 <= i < size -> at_ c i = negacyclics size ab i mod Q).
Proof. exact ntt_accumulate_L. Qed.
Print Assumptions ntt_accumulate.

(** exA * exB + exA * exA, the four transforms by different halves *)
Example ntt_accumulate_ex :
  make_tables malloc77 16 1212 = Ok (Written T16) /\ all_in 0 (Q - 1) exA /\ all_in 0 (Q - 1) exB
  /\ (exists A B A', half (ntt_forwards 16 T16) 0 exA = Ok A /\ half (ntt_forwards 16 T16) 2 exB = Ok B
       /\ half (ntt_forwards 16 T16) 1 exA = Ok A'
       /\ (forall G, In G (ntt_inverses 16 T16) -> G (exD 1 [(A, B); (A, A')]) = Ok exSum)).
Proof.
  split; [exact T16_made|]. split; [check_all_in|]. split; [check_all_in|]. do 3 eexists.
  split; [vm_compute; reflexivity|]. split; [vm_compute; reflexivity|]. split; [vm_compute; reflexivity|].
  intros G [<-|[<-|[<-|[]]]]; vm_compute; reflexivity.
Qed.

(** C90: naive implementation, the three forward halves agree modulo Q *)
Theorem naive_forwards_agree :
  forall malloc size psi T, (forall n, 0 <= n -> zlen (malloc n) = n) ->
  make_tables malloc size psi = Ok (Written T) ->
  (forall F, In F (naive_forwards size T) -> forall a, zlen a = size -> all_in (- Q + 1) (Q - 1) a ->
     exists A, F a = Ok A /\ zlen A = size /\ all_in (- Q + 1) (Q - 1) A)
  /\ (forall F F' a A A', In F (naive_forwards size T) -> In F' (naive_forwards size T) ->
     zlen a = size -> all_in (- Q + 1) (Q - 1) a -> F a = Ok A -> F' a = Ok A' ->
     forall i, 0 <= i < size -> eqQ (at_ A i) (at_ A' i)).
Proof. exact naive_forwards_agree_L. Qed.
Print Assumptions naive_forwards_agree.

Example naive_forwards_agree_ex :
  all_in (- Q + 1) (Q - 1) exA
  /\ (exists A, forall F, In F (naive_forwards 16 T16) -> exists A', F exA = Ok A' /\ map (fun v => v mod Q) A' = A).
Proof.
  split; [check_all_in|]. eexists.
  intros F [<-|[<-|[<-|[]]]]; eexists; (split; [vm_compute; reflexivity|vm_compute; reflexivity]).
Qed.

(** C90: naive implementation, sums of products with one inverse half *)
Theorem naive_accumulate :
  forall malloc size psi T, (forall n, 0 <= n -> zlen (malloc n) = n) ->
  make_tables malloc size psi = Ok (Written T) ->
  forall ab AB, Forall2 (fun p q => transform_by (naive_forwards size T) size (- Q + 1) (Q - 1) (fst p) (fst q)
                                 /\ transform_by (naive_forwards size T) size (- Q + 1) (Q - 1) (snd p) (snd q)) ab AB ->
  forall d, zlen d = size -> all_in (- Q + 1) (Q - 1) d ->
  (forall i, 0 <= i < size -> eqQ (at_ d i) (dot AB i)) ->
  forall G, In G (naive_inverses size T) ->
  exists c, G d = Ok c /\ zlen c = size /\ all_in (- Q + 1) (Q - 1) c
    /\ (forall i, 0 <= i < size -> eqQ (at_ c i) (negacyclics size ab i)).
Proof. exact naive_accumulate_L. Qed.
Print Assumptions naive_accumulate.

Example naive_accumulate_ex :
  make_tables malloc77 16 1212 = Ok (Written T16) /\ all_in (- Q + 1) (Q - 1) exA /\ all_in (- Q + 1) (Q - 1) exB
  /\ (exists A B A', half (naive_forwards 16 T16) 0 exA = Ok A /\ half (naive_forwards 16 T16) 2 exB = Ok B
       /\ half (naive_forwards 16 T16) 1 exA = Ok A'
       /\ (forall G, In G (naive_inverses 16 T16) ->
            exists c, G (exD 1 [(A, B); (A, A')]) = Ok c /\ map (fun v => v mod Q) c = exSum)).
Proof.
  split; [exact T16_made|]. split; [check_all_in|]. split; [check_all_in|]. do 3 eexists.
  split; [vm_compute; reflexivity|]. split; [vm_compute; reflexivity|]. split; [vm_compute; reflexivity|].
  intros G [<-|[<-|[<-|[]]]]; eexists; (split; [vm_compute; reflexivity|vm_compute; reflexivity]).
Qed.

(** C90: Longa-Naehrig implementation, the three forward halves agree modulo Q *)
Theorem red_forwards_agree :
  forall malloc size psi T sh, (forall n, 0 <= n -> zlen (malloc n) = n) ->
  make_red_tables malloc size psi = Ok (Written T) -> size <= 1024 ->
  (forall F, In F (red_forwards sh size T) -> forall a, zlen a = size -> all_in (-6144) (Q - 1) a ->
     exists A, F a = Ok A /\ zlen A = size /\ all_in (-524287) 536573 A)
  /\ (forall F F' a A A', In F (red_forwards sh size T) -> In F' (red_forwards sh size T) ->
     zlen a = size -> all_in (-6144) (Q - 1) a -> F a = Ok A -> F' a = Ok A' ->
     forall i, 0 <= i < size -> eqQ (at_ A i) (at_ A' i)).
Proof. exact red_forwards_agree_L. Qed.
Print Assumptions red_forwards_agree.

Example red_forwards_agree_ex :
  make_red_tables malloc77 16 1212 = Ok (Written R16) /\ all_in (-6144) (Q - 1) exA
  /\ (exists A, forall sh F, In F (red_forwards sh 16 R16) -> exists A', F exA = Ok A' /\ map (fun v => v mod Q) A' = A).
Proof.
  split; [exact R16_made|]. split; [check_all_in|]. eexists.
  intros [|] F [<-|[<-|[<-|[]]]]; eexists; (split; [vm_compute; reflexivity|vm_compute; reflexivity]).
Qed.

(** C90: Longa-Naehrig implementation; the sum has the factor 3 of mul_reduce_array, its elements are any values of type int32_t *)
Theorem red_accumulate :
  forall malloc size psi T sh, (forall n, 0 <= n -> zlen (malloc n) = n) ->
  make_red_tables malloc size psi = Ok (Written T) -> size <= 1024 ->
  forall ab AB, Forall2 (fun p q => transform_by (red_forwards sh size T) size (-6144) (Q - 1) (fst p) (fst q)
                                 /\ transform_by (red_forwards sh size T) size (-6144) (Q - 1) (snd p) (snd q)) ab AB ->
  forall d, zlen d = size -> all_in (- 2 ^ 31) (2 ^ 31 - 1) d ->
  (forall i, 0 <= i < size -> eqQ (at_ d i) (3 * dot AB i)) ->
  forall G, In G (red_inverses size T) ->
  exists c, G d = Ok c /\ zlen c = size /\ all_in 0 (Q - 1) c
    /\ (forall i, 0 <= i < size -> at_ c i = negacyclics size ab i mod Q).
Proof. exact red_accumulate_L. Qed.
Print Assumptions red_accumulate.

(** The elements of the sum are near the ends of the range. *)
Example red_accumulate_ex :
  make_red_tables malloc77 16 1212 = Ok (Written R16)
  /\ (exists A B A', half (red_forwards true 16 R16) 0 exA = Ok A /\ half (red_forwards false 16 R16) 2 exB = Ok B
       /\ half (red_forwards true 16 R16) 1 exA = Ok A'
       /\ all_in (- 2 ^ 31) (2 ^ 31 - 1) (exD32 3 [(A, B); (A, A')])
       /\ at_ (exD32 3 [(A, B); (A, A')]) 0 > 2147000000 /\ at_ (exD32 3 [(A, B); (A, A')]) 1 < -2147000000
       /\ (forall G, In G (red_inverses 16 R16) -> G (exD32 3 [(A, B); (A, A')]) = Ok exSum)).
Proof.
  split; [exact R16_made|]. do 3 eexists.
  split; [vm_compute; reflexivity|]. split; [vm_compute; reflexivity|]. split; [vm_compute; reflexivity|].
  split; [check_all_in|]. split; [vm_compute; reflexivity|]. split; [vm_compute; reflexivity|].
  intros G [<-|[<-|[<-|[]]]]; vm_compute; reflexivity.
Qed.

(** C90: C functions and AVX2 routines together, the six forward halves agree modulo Q *)
Theorem red_asm_forwards_agree :
  forall malloc size psi T sh, (forall n, 0 <= n -> zlen (malloc n) = n) ->
  make_red_tables malloc size psi = Ok (Written T) -> 16 <= size <= 1024 ->
  (forall F, In F (red_forwards sh size T ++ asm_forwards sh size T) -> forall a, zlen a = size -> all_in (-6144) (Q - 1) a ->
     exists A, F a = Ok A /\ zlen A = size /\ all_in (-524287) 536573 A)
  /\ (forall F F' a A A', In F (red_forwards sh size T ++ asm_forwards sh size T) -> In F' (red_forwards sh size T ++ asm_forwards sh size T) ->
     zlen a = size -> all_in (-6144) (Q - 1) a -> F a = Ok A -> F' a = Ok A' ->
     forall i, 0 <= i < size -> eqQ (at_ A i) (at_ A' i)).
Proof. exact red_asm_forwards_agree_L. Qed.
Print Assumptions red_asm_forwards_agree.

Example red_asm_forwards_agree_ex :
  exists A, forall F, In F (red_forwards true 16 R16 ++ asm_forwards true 16 R16) ->
    exists A', F exA = Ok A' /\ map (fun v => v mod Q) A' = A.
Proof.
  eexists. intros F [<-|[<-|[<-|[<-|[<-|[<-|[]]]]]]]; eexists; (split; [vm_compute; reflexivity|vm_compute; reflexivity]).
Qed.

(** C90: C functions and AVX2 routines together: forward halves of one, inverse half of the other *)
Theorem red_asm_accumulate :
  forall malloc size psi T sh, (forall n, 0 <= n -> zlen (malloc n) = n) ->
  make_red_tables malloc size psi = Ok (Written T) -> 16 <= size <= 1024 ->
  forall ab AB, Forall2 (fun p q => transform_by (red_forwards sh size T ++ asm_forwards sh size T) size (-6144) (Q - 1) (fst p) (fst q)
                                 /\ transform_by (red_forwards sh size T ++ asm_forwards sh size T) size (-6144) (Q - 1) (snd p) (snd q)) ab AB ->
  forall d, zlen d = size -> all_in (- 2 ^ 31) (2 ^ 31 - 1) d ->
  (forall i, 0 <= i < size -> eqQ (at_ d i) (3 * dot AB i)) ->
  forall G, In G (red_inverses size T ++ asm_inverses size T) ->
  exists c, G d = Ok c /\ zlen c = size /\ all_in 0 (Q - 1) c
    /\ (forall i, 0 <= i < size -> at_ c i = negacyclics size ab i mod Q).
Proof. exact red_asm_accumulate_L. Qed.
Print Assumptions red_asm_accumulate.

(** Transforms by C functions and by AVX2 routines, each inverse half *)
Example red_asm_accumulate_ex :
  make_red_tables malloc77 16 1212 = Ok (Written R16)
  /\ (exists A B A', half (red_forwards true 16 R16) 0 exA = Ok A /\ half (asm_forwards true 16 R16) 2 exB = Ok B
       /\ half (asm_forwards true 16 R16) 1 exA = Ok A'
       /\ (forall G, In G (red_inverses 16 R16 ++ asm_inverses 16 R16) -> G (exD32 3 [(A, B); (A, A')]) = Ok exSum)).
Proof.
  split; [exact R16_made|]. do 3 eexists.
  split; [vm_compute; reflexivity|]. split; [vm_compute; reflexivity|]. split; [vm_compute; reflexivity|].
  intros G [<-|[<-|[<-|[<-|[<-|[<-|[]]]]]]]; vm_compute; reflexivity.
Qed.
