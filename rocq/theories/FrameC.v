(** The functions of ntt.c, ntt_red.c and naive_ntt.c on longer arrays. *)

From Coq Require Import ZArith List Bool Lia.
From Verif Require Import CSem TraceElem FrameElem.
From Verif Require ModelNtt ModelRed ModelNaive.
Import ListNotations.
Open Scope Z_scope.

Section S.
Variables (s q : list Z) (fs : heap).
Local Hint Extern 0 (FRel (list Z)) => exact (fr_l s) : typeclass_instances.
Local Hint Extern 0 (FRel heap) => exact (fr_h fs) : typeclass_instances.

Lemma fr_bitrev_shuffle a n : sim (fr s) (ModelNtt.bitrev_shuffle a n) (ModelNtt.bitrev_shuffle (a ++ s) n).
Proof. fr_ok. Qed.
Lemma fr_mul_array16 a n p : sim (fr s) (ModelNtt.mul_array16 a n p) (ModelNtt.mul_array16 (a ++ s) n (p ++ q)).
Proof. fr_ok. Qed.
Lemma fr_mul_array_h h c n a b h' : hfr fs h h' -> sim (hfr fs) (ModelNtt.mul_array_h h c n a b) (ModelNtt.mul_array_h h' c n a b).
Proof. intros. fr_ok. Qed.

Lemma fr_scalar_mul_array a n c : sim (fr s) (ModelNtt.scalar_mul_array a n c) (ModelNtt.scalar_mul_array (a ++ s) n c).
Proof. fr_ok. Qed.
Lemma fr_bfly0 i j a : sim (fr s) (ModelNtt.bfly0 i j a) (ModelNtt.bfly0 i j (a ++ s)).
Proof. fr_ok. Qed.
Local Hint Resolve fr_bfly0 : frame.
Lemma fr_ct_bfly w i j a : sim (fr s) (ModelNtt.ct_bfly w i j a) (ModelNtt.ct_bfly w i j (a ++ s)).
Proof. fr_ok. Qed.
Local Hint Resolve fr_ct_bfly : frame.
Lemma fr_gs_bfly w i j a : sim (fr s) (ModelNtt.gs_bfly w i j a) (ModelNtt.gs_bfly w i j (a ++ s)).
Proof. fr_ok. Qed.
Local Hint Resolve fr_gs_bfly : frame.
Lemma fr_ntt_ct_rev2std_v1 a n p : sim (fr s) (ModelNtt.ntt_ct_rev2std_v1 a n p) (ModelNtt.ntt_ct_rev2std_v1 (a ++ s) n (p ++ q)).
Proof. fr_ok. Qed.
Lemma fr_ntt_ct_rev2std a n p : sim (fr s) (ModelNtt.ntt_ct_rev2std a n p) (ModelNtt.ntt_ct_rev2std (a ++ s) n (p ++ q)).
Proof. fr_ok. Qed.
Lemma fr_mulntt_ct_rev2std a n p : sim (fr s) (ModelNtt.mulntt_ct_rev2std a n p) (ModelNtt.mulntt_ct_rev2std (a ++ s) n (p ++ q)).
Proof. fr_ok. Qed.
Lemma fr_ntt_ct_std2rev a n p : sim (fr s) (ModelNtt.ntt_ct_std2rev a n p) (ModelNtt.ntt_ct_std2rev (a ++ s) n (p ++ q)).
Proof. fr_ok. Qed.
Lemma fr_mulntt_ct_std2rev a n p : sim (fr s) (ModelNtt.mulntt_ct_std2rev a n p) (ModelNtt.mulntt_ct_std2rev (a ++ s) n (p ++ q)).
Proof. fr_ok. Qed.
Lemma fr_ntt_gs_rev2std a n p : sim (fr s) (ModelNtt.ntt_gs_rev2std a n p) (ModelNtt.ntt_gs_rev2std (a ++ s) n (p ++ q)).
Proof. fr_ok. Qed.
Lemma fr_nttmul_gs_rev2std a n p : sim (fr s) (ModelNtt.nttmul_gs_rev2std a n p) (ModelNtt.nttmul_gs_rev2std (a ++ s) n (p ++ q)).
Proof. fr_ok. Qed.
Lemma fr_ntt_gs_std2rev a n p : sim (fr s) (ModelNtt.ntt_gs_std2rev a n p) (ModelNtt.ntt_gs_std2rev (a ++ s) n (p ++ q)).
Proof. fr_ok. Qed.
Lemma fr_nttmul_gs_std2rev a n p : sim (fr s) (ModelNtt.nttmul_gs_std2rev a n p) (ModelNtt.nttmul_gs_std2rev (a ++ s) n (p ++ q)).
Proof. fr_ok. Qed.
Lemma fr_normalize a n : sim (fr s) (ModelRed.normalize a n) (ModelRed.normalize (a ++ s) n).
Proof. fr_ok. Qed.
Lemma fr_normalize_inv3 a n : sim (fr s) (ModelRed.normalize_inv3 a n) (ModelRed.normalize_inv3 (a ++ s) n).
Proof. fr_ok. Qed.
Lemma fr_shift_array a n : sim (fr s) (ModelRed.shift_array a n) (ModelRed.shift_array (a ++ s) n).
Proof. fr_ok. Qed.
Lemma fr_reduce_array a n : sim (fr s) (ModelRed.reduce_array a n) (ModelRed.reduce_array (a ++ s) n).
Proof. fr_ok. Qed.
Lemma fr_reduce_array_twice a n : sim (fr s) (ModelRed.reduce_array_twice a n) (ModelRed.reduce_array_twice (a ++ s) n).
Proof. fr_ok. Qed.
Lemma fr_correct a n : sim (fr s) (ModelRed.correct a n) (ModelRed.correct (a ++ s) n).
Proof. fr_ok. Qed.
Lemma fr_mul_reduce_array16 a n p : sim (fr s) (ModelRed.mul_reduce_array16 a n p) (ModelRed.mul_reduce_array16 (a ++ s) n (p ++ q)).
Proof. fr_ok. Qed.
Lemma fr_mul_reduce_array_h h c n a b h' : hfr fs h h' -> sim (hfr fs) (ModelRed.mul_reduce_array_h h c n a b) (ModelRed.mul_reduce_array_h h' c n a b).
Proof. intros. fr_ok. Qed.

Lemma fr_scalar_mul_reduce_array a n c : sim (fr s) (ModelRed.scalar_mul_reduce_array a n c) (ModelRed.scalar_mul_reduce_array (a ++ s) n c).
Proof. fr_ok. Qed.
Lemma fr_bfly0_red i j a : sim (fr s) (ModelRed.bfly0_red i j a) (ModelRed.bfly0_red i j (a ++ s)).
Proof. fr_ok. Qed.
Local Hint Resolve fr_bfly0_red : frame.
Lemma fr_ct_bfly_red w i j a : sim (fr s) (ModelRed.ct_bfly_red w i j a) (ModelRed.ct_bfly_red w i j (a ++ s)).
Proof. fr_ok. Qed.
Local Hint Resolve fr_ct_bfly_red : frame.
Lemma fr_gs_bfly_red w i j a : sim (fr s) (ModelRed.gs_bfly_red w i j a) (ModelRed.gs_bfly_red w i j (a ++ s)).
Proof. fr_ok. Qed.
Local Hint Resolve fr_gs_bfly_red : frame.
Lemma fr_ntt_red_ct_rev2std a n p : sim (fr s) (ModelRed.ntt_red_ct_rev2std a n p) (ModelRed.ntt_red_ct_rev2std (a ++ s) n (p ++ q)).
Proof. fr_ok. Qed.
Lemma fr_mulntt_red_ct_rev2std a n p : sim (fr s) (ModelRed.mulntt_red_ct_rev2std a n p) (ModelRed.mulntt_red_ct_rev2std (a ++ s) n (p ++ q)).
Proof. fr_ok. Qed.
Lemma fr_ntt_red_ct_std2rev a n p : sim (fr s) (ModelRed.ntt_red_ct_std2rev a n p) (ModelRed.ntt_red_ct_std2rev (a ++ s) n (p ++ q)).
Proof. fr_ok. Qed.
Lemma fr_mulntt_red_ct_std2rev a n p : sim (fr s) (ModelRed.mulntt_red_ct_std2rev a n p) (ModelRed.mulntt_red_ct_std2rev (a ++ s) n (p ++ q)).
Proof. fr_ok. Qed.
Lemma fr_ntt_red_gs_rev2std a n p : sim (fr s) (ModelRed.ntt_red_gs_rev2std a n p) (ModelRed.ntt_red_gs_rev2std (a ++ s) n (p ++ q)).
Proof. fr_ok. Qed.
Lemma fr_nttmul_red_gs_rev2std a n p : sim (fr s) (ModelRed.nttmul_red_gs_rev2std a n p) (ModelRed.nttmul_red_gs_rev2std (a ++ s) n (p ++ q)).
Proof. fr_ok. Qed.
Lemma fr_ntt_red_gs_std2rev a n p : sim (fr s) (ModelRed.ntt_red_gs_std2rev a n p) (ModelRed.ntt_red_gs_std2rev (a ++ s) n (p ++ q)).
Proof. fr_ok. Qed.
Lemma fr_nttmul_red_gs_std2rev a n p : sim (fr s) (ModelRed.nttmul_red_gs_std2rev a n p) (ModelRed.nttmul_red_gs_std2rev (a ++ s) n (p ++ q)).
Proof. fr_ok. Qed.
Lemma fr_mul_array16_naive a n p m : sim (fr s) (ModelNaive.mul_array16_naive a n p m) (ModelNaive.mul_array16_naive (a ++ s) n (p ++ q) m).
Proof. fr_ok. Qed.
Lemma fr_mul_array_naive_h h c n a b m h' : hfr fs h h' -> sim (hfr fs) (ModelNaive.mul_array_naive_h h c n a b m) (ModelNaive.mul_array_naive_h h' c n a b m).
Proof. intros. fr_ok. Qed.

Lemma fr_scalar_mul_array_naive a n c m : sim (fr s) (ModelNaive.scalar_mul_array_naive a n c m) (ModelNaive.scalar_mul_array_naive (a ++ s) n c m).
Proof. fr_ok. Qed.
Lemma fr_bfly0_naive m i j a : sim (fr s) (ModelNaive.bfly0_naive m i j a) (ModelNaive.bfly0_naive m i j (a ++ s)).
Proof. fr_ok. Qed.
Local Hint Resolve fr_bfly0_naive : frame.
Lemma fr_ct_bfly_naive m w i j a : sim (fr s) (ModelNaive.ct_bfly_naive m w i j a) (ModelNaive.ct_bfly_naive m w i j (a ++ s)).
Proof. fr_ok. Qed.
Local Hint Resolve fr_ct_bfly_naive : frame.
Lemma fr_gs_bfly_naive m w i j a : sim (fr s) (ModelNaive.gs_bfly_naive m w i j a) (ModelNaive.gs_bfly_naive m w i j (a ++ s)).
Proof. fr_ok. Qed.
Local Hint Resolve fr_gs_bfly_naive : frame.
Lemma fr_ntt_ct_rev2std_naive a n p m : sim (fr s) (ModelNaive.ntt_ct_rev2std_naive a n p m) (ModelNaive.ntt_ct_rev2std_naive (a ++ s) n (p ++ q) m).
Proof. fr_ok. Qed.
Lemma fr_mulntt_ct_rev2std_naive a n p m : sim (fr s) (ModelNaive.mulntt_ct_rev2std_naive a n p m) (ModelNaive.mulntt_ct_rev2std_naive (a ++ s) n (p ++ q) m).
Proof. fr_ok. Qed.
Lemma fr_ntt_ct_std2rev_naive a n p m : sim (fr s) (ModelNaive.ntt_ct_std2rev_naive a n p m) (ModelNaive.ntt_ct_std2rev_naive (a ++ s) n (p ++ q) m).
Proof. fr_ok. Qed.
Lemma fr_mulntt_ct_std2rev_naive a n p m : sim (fr s) (ModelNaive.mulntt_ct_std2rev_naive a n p m) (ModelNaive.mulntt_ct_std2rev_naive (a ++ s) n (p ++ q) m).
Proof. fr_ok. Qed.
Lemma fr_ntt_gs_rev2std_naive a n p m : sim (fr s) (ModelNaive.ntt_gs_rev2std_naive a n p m) (ModelNaive.ntt_gs_rev2std_naive (a ++ s) n (p ++ q) m).
Proof. fr_ok. Qed.
Lemma fr_nttmul_gs_rev2std_naive a n p m : sim (fr s) (ModelNaive.nttmul_gs_rev2std_naive a n p m) (ModelNaive.nttmul_gs_rev2std_naive (a ++ s) n (p ++ q) m).
Proof. fr_ok. Qed.
Lemma fr_ntt_gs_std2rev_naive a n p m : sim (fr s) (ModelNaive.ntt_gs_std2rev_naive a n p m) (ModelNaive.ntt_gs_std2rev_naive (a ++ s) n (p ++ q) m).
Proof. fr_ok. Qed.
Lemma fr_nttmul_gs_std2rev_naive a n p m : sim (fr s) (ModelNaive.nttmul_gs_std2rev_naive a n p m) (ModelNaive.nttmul_gs_std2rev_naive (a ++ s) n (p ++ q) m).
Proof. fr_ok. Qed.
Lemma fr_shuffle_with_table a p n : sim (fr s) (ModelNtt.shuffle_with_table a p n) (ModelNtt.shuffle_with_table (a ++ s) p n).
Proof. fr_ok. Qed.
End S.
