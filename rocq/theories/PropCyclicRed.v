(** Properties of products modulo X^n - 1 by the plain Longa-Naehrig transforms, C and AVX2: C96. *)

From Coq Require Import ZArith List Bool Lia.
From Verif Require Import CSem Spec Exlib ModelGen ModelProducts ModelAvxProd ModelCyclic ModelCyclicRed
  ExTables ProdFinal CyclicFinal CyclicRedFinal.
Import ListNotations.
Open Scope Z_scope.

(** C96: the C functions of ntt_red.c *)
Theorem red_cyclic_correct :
  forall malloc size psi T sh, (forall n, 0 <= n -> zlen (malloc n) = n) ->
  make_red_tables malloc size psi = Ok (Written T) -> size <= 1024 ->
  forall Fs Gs, In (Fs, Gs)
    [ ([r_ct_std2rev size T; r_gs_std2rev size T],
       [r_intt_ct_rev2std size T; r_intt_gs_rev2std size T]);
      ([r_intt_ct_std2rev size T; r_intt_gs_std2rev size T],
       [r_ct_rev2std size T; r_gs_rev2std size T]) ] ->
  forall f1 f2 g, In f1 Fs -> In f2 Fs -> In g Gs ->
  forall h c a b, a <> b -> zlen (h a) = size -> zlen (h b) = size -> zlen (h c) = size ->
  all_in (-6144) (Q - 1) (h a) -> all_in (-6144) (Q - 1) (h b) ->
  exists h', red_cyclic sh size T f1 f2 g h c a b = Ok h' /\ zlen (h' c) = size /\ all_in 0 (Q - 1) (h' c)
    /\ (forall i, 0 <= i < size -> at_ (h' c) i = cyclic size (at_ (h a)) (at_ (h b)) i mod Q)
    /\ (forall p, p <> a -> p <> b -> p <> c -> h' p = h p).
Proof. exact red_cyclic_correct_L. Qed.
Print Assumptions red_cyclic_correct.

(** (-x + 5x^15)(x^2 - x^9 + 7x^15) modulo x^16-1, with and without shifts; the second time in place
    and with the roles of the two kinds of transforms exchanged *)
Example red_cyclic_ex :
  make_red_tables malloc77 16 1212 = Ok (Written R16) /\ all_in (-6144) (Q - 1) exA /\ all_in (-6144) (Q - 1) exB
  /\ (exists h', red_cyclic true 16 R16 (r_ct_std2rev 16 R16) (r_gs_std2rev 16 R16) (r_intt_ct_rev2std 16 R16) exH 3 1 2 = Ok h'
       /\ h' 3 = exCyc)
  /\ (exists h', red_cyclic false 16 R16 (r_intt_gs_std2rev 16 R16) (r_intt_ct_std2rev 16 R16) (r_gs_rev2std 16 R16) exH 1 1 2 = Ok h'
       /\ h' 1 = exCyc).
Proof.
  split; [exact R16_made|]. split; [check_all_in|]. split; [check_all_in|].
  split; apply res_is_ok; vm_compute; reflexivity.
Qed.

(** C96: the AVX2 functions of ntt_asm.S, also mixed with the C transforms *)
Theorem red_asm_cyclic_correct :
  forall malloc size psi T sh, (forall n, 0 <= n -> zlen (malloc n) = n) ->
  make_red_tables malloc size psi = Ok (Written T) -> 16 <= size <= 1024 ->
  forall Fs Gs, In (Fs, Gs)
    [ ([x_ct_std2rev size T; x_gs_std2rev size T; r_ct_std2rev size T; r_gs_std2rev size T],
       [x_intt_ct_rev2std size T; x_intt_gs_rev2std size T; r_intt_ct_rev2std size T; r_intt_gs_rev2std size T]);
      ([x_intt_ct_std2rev size T; x_intt_gs_std2rev size T; r_intt_ct_std2rev size T; r_intt_gs_std2rev size T],
       [x_ct_rev2std size T; x_gs_rev2std size T; r_ct_rev2std size T; r_gs_rev2std size T]) ] ->
  forall f1 f2 g, In f1 Fs -> In f2 Fs -> In g Gs ->
  forall h c a b, a <> b -> zlen (h a) = size -> zlen (h b) = size -> zlen (h c) = size ->
  all_in (-6144) (Q - 1) (h a) -> all_in (-6144) (Q - 1) (h b) ->
  exists h', red_asm_cyclic sh size T f1 f2 g h c a b = Ok h' /\ zlen (h' c) = size /\ all_in 0 (Q - 1) (h' c)
    /\ (forall i, 0 <= i < size -> at_ (h' c) i = cyclic size (at_ (h a)) (at_ (h b)) i mod Q)
    /\ (forall p, p <> a -> p <> b -> p <> c -> h' p = h p).
Proof. exact red_asm_cyclic_correct_L. Qed.
Print Assumptions red_asm_cyclic_correct.

Example red_asm_cyclic_ex :
  make_red_tables malloc77 16 1212 = Ok (Written R16) /\ all_in (-6144) (Q - 1) exA /\ all_in (-6144) (Q - 1) exB
  /\ (exists h', red_asm_cyclic true 16 R16 (x_ct_std2rev 16 R16) (x_gs_std2rev 16 R16) (x_intt_ct_rev2std 16 R16) exH 3 1 2 = Ok h'
       /\ h' 3 = exCyc)
  /\ (exists h', red_asm_cyclic false 16 R16 (x_intt_gs_std2rev 16 R16) (r_intt_ct_std2rev 16 R16) (x_gs_rev2std 16 R16) exH 2 1 2 = Ok h'
       /\ h' 2 = exCyc).
Proof.
  split; [exact R16_made|]. split; [check_all_in|]. split; [check_all_in|].
  split; apply res_is_ok; vm_compute; reflexivity.
Qed.
