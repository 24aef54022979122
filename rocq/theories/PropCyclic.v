(** Properties of products modulo X^n - 1 by the plain transforms: C91. *)

From Coq Require Import ZArith List Bool Lia.
From Verif Require Import CSem Spec Exlib ModelGen ModelProducts ModelCyclic ExTables ProdFinal CyclicFinal.
Import ListNotations.
Open Scope Z_scope.

(** C91: the default implementation *)
Theorem ntt_cyclic_correct :
  forall malloc size psi T, (forall n, 0 <= n -> zlen (malloc n) = n) ->
  make_tables malloc size psi = Ok (Written T) ->
  forall Fs Gs, In (Fs, Gs)
    [ ([n_ct_std2rev size T; n_gs_std2rev size T],
       [n_intt_ct_rev2std size T; n_intt_gs_rev2std size T]);
      ([n_intt_ct_std2rev size T; n_intt_gs_std2rev size T],
       [n_ct_rev2std size T; n_gs_rev2std size T]) ] ->
  forall f1 f2 g, In f1 Fs -> In f2 Fs -> In g Gs ->
  forall h c a b, a <> b -> zlen (h a) = size -> zlen (h b) = size -> zlen (h c) = size ->
  all_in 0 (Q - 1) (h a) -> all_in 0 (Q - 1) (h b) ->
  exists h', ntt_cyclic size T f1 f2 g h c a b = Ok h' /\ zlen (h' c) = size /\ all_in 0 (Q - 1) (h' c)
    /\ (forall i, 0 <= i < size -> at_ (h' c) i = cyclic size (at_ (h a)) (at_ (h b)) i mod Q)
    /\ (forall p, p <> a -> p <> b -> p <> c -> h' p = h p).
Proof. exact ntt_cyclic_correct_L. Qed.
Print Assumptions ntt_cyclic_correct.

(** (-x + 5x^15)(x^2 - x^9 + 7x^15) modulo x^16-1; twice with the roles of the two kinds of
    transforms exchanged, once in place *)
Example ntt_cyclic_ex :
  make_tables malloc77 16 1212 = Ok (Written T16) /\ all_in 0 (Q - 1) exA /\ all_in 0 (Q - 1) exB
  /\ (exists h', ntt_cyclic 16 T16 (n_ct_std2rev 16 T16) (n_gs_std2rev 16 T16) (n_intt_ct_rev2std 16 T16) exH 3 1 2 = Ok h'
       /\ h' 3 = exCyc)
  /\ (exists h', ntt_cyclic 16 T16 (n_intt_gs_std2rev 16 T16) (n_intt_ct_std2rev 16 T16) (n_gs_rev2std 16 T16) exH 1 1 2 = Ok h'
       /\ h' 1 = exCyc).
Proof.
  split; [exact T16_made|]. split; [check_all_in|]. split; [check_all_in|].
  split; apply res_is_ok; vm_compute; reflexivity.
Qed.

(** C91: the naive implementation *)
Theorem naive_cyclic_correct :
  forall malloc size psi T, (forall n, 0 <= n -> zlen (malloc n) = n) ->
  make_tables malloc size psi = Ok (Written T) ->
  forall Fs Gs, In (Fs, Gs)
    [ ([v_ct_std2rev size T; v_gs_std2rev size T],
       [v_intt_ct_rev2std size T; v_intt_gs_rev2std size T]);
      ([v_intt_ct_std2rev size T; v_intt_gs_std2rev size T],
       [v_ct_rev2std size T; v_gs_rev2std size T]) ] ->
  forall f1 f2 g, In f1 Fs -> In f2 Fs -> In g Gs ->
  forall h c a b, a <> b -> zlen (h a) = size -> zlen (h b) = size -> zlen (h c) = size ->
  all_in (- Q + 1) (Q - 1) (h a) -> all_in (- Q + 1) (Q - 1) (h b) ->
  exists h', naive_cyclic size T f1 f2 g h c a b = Ok h' /\ zlen (h' c) = size /\ all_in (- Q + 1) (Q - 1) (h' c)
    /\ (forall i, 0 <= i < size -> eqQ (at_ (h' c) i) (cyclic size (at_ (h a)) (at_ (h b)) i))
    /\ (forall p, p <> a -> p <> b -> p <> c -> h' p = h p).
Proof. exact naive_cyclic_correct_L. Qed.
Print Assumptions naive_cyclic_correct.

Example naive_cyclic_ex :
  make_tables malloc77 16 1212 = Ok (Written T16) /\ all_in (- Q + 1) (Q - 1) exA
  /\ (exists h', naive_cyclic 16 T16 (v_gs_std2rev 16 T16) (v_ct_std2rev 16 T16) (v_intt_gs_rev2std 16 T16) exH 2 1 2 = Ok h'
       /\ map (fun v => v mod Q) (h' 2) = exCyc)
  /\ (exists h', naive_cyclic 16 T16 (v_intt_gs_std2rev 16 T16) (v_intt_gs_std2rev 16 T16) (v_ct_rev2std 16 T16) exH 3 1 2 = Ok h'
       /\ map (fun v => v mod Q) (h' 3) = exCyc).
Proof.
  split; [exact T16_made|]. split; [check_all_in|].
  split; eexists; (split; [vm_compute; reflexivity|vm_compute; reflexivity]).
Qed.
