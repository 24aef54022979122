(** The traced versions of the C functions: erasure and equality of traces. *)

From Coq Require Import ZArith List Bool Lia.
From Verif Require Import CSem TraceElem.
From Verif Require ModelNtt ModelRed ModelNaive TraceSem TraceNtt TraceRed TraceNaive.
Import ListNotations.
Open Scope Z_scope.

Lemma er_bitrev_shuffle a n : er (TraceNtt.bitrev_shuffle a n) (ModelNtt.bitrev_shuffle a n).
Proof. tr_er. Qed.
Lemma ob_bitrev_shuffle a n a' : ob any (TraceNtt.bitrev_shuffle a n) (TraceNtt.bitrev_shuffle a' n).
Proof. tr_ob. Qed.
#[export] Hint Resolve er_bitrev_shuffle ob_bitrev_shuffle : trace.

Lemma er_sub_mod x y : er (TraceNtt.sub_mod x y) (ModelNtt.sub_mod x y).
Proof. tr_er. Qed.
Lemma ob_sub_mod x y x' y' : ob any (TraceNtt.sub_mod x y) (TraceNtt.sub_mod x' y').
Proof. tr_ob. Qed.
#[export] Hint Resolve er_sub_mod ob_sub_mod : trace.

Lemma er_add_mod x y : er (TraceNtt.add_mod x y) (ModelNtt.add_mod x y).
Proof. tr_er. Qed.
Lemma ob_add_mod x y x' y' : ob any (TraceNtt.add_mod x y) (TraceNtt.add_mod x' y').
Proof. tr_ob. Qed.
#[export] Hint Resolve er_add_mod ob_add_mod : trace.

Lemma er_mul_array16 a n p : er (TraceNtt.mul_array16 a n p) (ModelNtt.mul_array16 a n p).
Proof. tr_er. Qed.
Lemma ob_mul_array16 a n p a' p' : ob any (TraceNtt.mul_array16 a n p) (TraceNtt.mul_array16 a' n p').
Proof. tr_ob. Qed.
#[export] Hint Resolve er_mul_array16 ob_mul_array16 : trace.

Lemma er_mul_array_h h c n a b : er (TraceNtt.mul_array_h h c n a b) (ModelNtt.mul_array_h h c n a b).
Proof. tr_er. Qed.
Lemma ob_mul_array_h h c n a b h' : ob any (TraceNtt.mul_array_h h c n a b) (TraceNtt.mul_array_h h' c n a b).
Proof. tr_ob. Qed.
#[export] Hint Resolve er_mul_array_h ob_mul_array_h : trace.

Lemma er_scalar_mul_array a n c : er (TraceNtt.scalar_mul_array a n c) (ModelNtt.scalar_mul_array a n c).
Proof. tr_er. Qed.
Lemma ob_scalar_mul_array a n c a' c' : ob any (TraceNtt.scalar_mul_array a n c) (TraceNtt.scalar_mul_array a' n c').
Proof. tr_ob. Qed.
#[export] Hint Resolve er_scalar_mul_array ob_scalar_mul_array : trace.

Lemma er_bfly0 s t a : er (TraceNtt.bfly0 s t a) (ModelNtt.bfly0 s t a).
Proof. tr_er. Qed.
Lemma ob_bfly0 s t a a' : ob any (TraceNtt.bfly0 s t a) (TraceNtt.bfly0 s t a').
Proof. tr_ob. Qed.
#[export] Hint Resolve er_bfly0 ob_bfly0 : trace.

Lemma er_ct_bfly w s t a : er (TraceNtt.ct_bfly w s t a) (ModelNtt.ct_bfly w s t a).
Proof. tr_er. Qed.
Lemma ob_ct_bfly w s t a w' a' : ob any (TraceNtt.ct_bfly w s t a) (TraceNtt.ct_bfly w' s t a').
Proof. tr_ob. Qed.
#[export] Hint Resolve er_ct_bfly ob_ct_bfly : trace.

Lemma er_gs_bfly w s t a : er (TraceNtt.gs_bfly w s t a) (ModelNtt.gs_bfly w s t a).
Proof. tr_er. Qed.
Lemma ob_gs_bfly w s t a w' a' : ob any (TraceNtt.gs_bfly w s t a) (TraceNtt.gs_bfly w' s t a').
Proof. tr_ob. Qed.
#[export] Hint Resolve er_gs_bfly ob_gs_bfly : trace.

Lemma er_ntt_ct_rev2std_v1 a n p : er (TraceNtt.ntt_ct_rev2std_v1 a n p) (ModelNtt.ntt_ct_rev2std_v1 a n p).
Proof. tr_er. Qed.
Lemma ob_ntt_ct_rev2std_v1 a n p a' p' : ob any (TraceNtt.ntt_ct_rev2std_v1 a n p) (TraceNtt.ntt_ct_rev2std_v1 a' n p').
Proof. tr_ob. Qed.
#[export] Hint Resolve er_ntt_ct_rev2std_v1 ob_ntt_ct_rev2std_v1 : trace.

Lemma er_ntt_ct_rev2std a n p : er (TraceNtt.ntt_ct_rev2std a n p) (ModelNtt.ntt_ct_rev2std a n p).
Proof. tr_er. Qed.
Lemma ob_ntt_ct_rev2std a n p a' p' : ob any (TraceNtt.ntt_ct_rev2std a n p) (TraceNtt.ntt_ct_rev2std a' n p').
Proof. tr_ob. Qed.
#[export] Hint Resolve er_ntt_ct_rev2std ob_ntt_ct_rev2std : trace.

Lemma er_mulntt_ct_rev2std a n p : er (TraceNtt.mulntt_ct_rev2std a n p) (ModelNtt.mulntt_ct_rev2std a n p).
Proof. tr_er. Qed.
Lemma ob_mulntt_ct_rev2std a n p a' p' : ob any (TraceNtt.mulntt_ct_rev2std a n p) (TraceNtt.mulntt_ct_rev2std a' n p').
Proof. tr_ob. Qed.
#[export] Hint Resolve er_mulntt_ct_rev2std ob_mulntt_ct_rev2std : trace.

Lemma er_ntt_ct_std2rev a n p : er (TraceNtt.ntt_ct_std2rev a n p) (ModelNtt.ntt_ct_std2rev a n p).
Proof. tr_er. Qed.
Lemma ob_ntt_ct_std2rev a n p a' p' : ob any (TraceNtt.ntt_ct_std2rev a n p) (TraceNtt.ntt_ct_std2rev a' n p').
Proof. tr_ob. Qed.
#[export] Hint Resolve er_ntt_ct_std2rev ob_ntt_ct_std2rev : trace.

Lemma er_mulntt_ct_std2rev a n p : er (TraceNtt.mulntt_ct_std2rev a n p) (ModelNtt.mulntt_ct_std2rev a n p).
Proof. tr_er. Qed.
Lemma ob_mulntt_ct_std2rev a n p a' p' : ob any (TraceNtt.mulntt_ct_std2rev a n p) (TraceNtt.mulntt_ct_std2rev a' n p').
Proof. tr_ob. Qed.
#[export] Hint Resolve er_mulntt_ct_std2rev ob_mulntt_ct_std2rev : trace.

Lemma er_ntt_gs_rev2std a n p : er (TraceNtt.ntt_gs_rev2std a n p) (ModelNtt.ntt_gs_rev2std a n p).
Proof. tr_er. Qed.
Lemma ob_ntt_gs_rev2std a n p a' p' : ob any (TraceNtt.ntt_gs_rev2std a n p) (TraceNtt.ntt_gs_rev2std a' n p').
Proof. tr_ob. Qed.
#[export] Hint Resolve er_ntt_gs_rev2std ob_ntt_gs_rev2std : trace.

Lemma er_nttmul_gs_rev2std a n p : er (TraceNtt.nttmul_gs_rev2std a n p) (ModelNtt.nttmul_gs_rev2std a n p).
Proof. tr_er. Qed.
Lemma ob_nttmul_gs_rev2std a n p a' p' : ob any (TraceNtt.nttmul_gs_rev2std a n p) (TraceNtt.nttmul_gs_rev2std a' n p').
Proof. tr_ob. Qed.
#[export] Hint Resolve er_nttmul_gs_rev2std ob_nttmul_gs_rev2std : trace.

Lemma er_ntt_gs_std2rev a n p : er (TraceNtt.ntt_gs_std2rev a n p) (ModelNtt.ntt_gs_std2rev a n p).
Proof. tr_er. Qed.
Lemma ob_ntt_gs_std2rev a n p a' p' : ob any (TraceNtt.ntt_gs_std2rev a n p) (TraceNtt.ntt_gs_std2rev a' n p').
Proof. tr_ob. Qed.
#[export] Hint Resolve er_ntt_gs_std2rev ob_ntt_gs_std2rev : trace.

Lemma er_nttmul_gs_std2rev a n p : er (TraceNtt.nttmul_gs_std2rev a n p) (ModelNtt.nttmul_gs_std2rev a n p).
Proof. tr_er. Qed.
Lemma ob_nttmul_gs_std2rev a n p a' p' : ob any (TraceNtt.nttmul_gs_std2rev a n p) (TraceNtt.nttmul_gs_std2rev a' n p').
Proof. tr_ob. Qed.
#[export] Hint Resolve er_nttmul_gs_std2rev ob_nttmul_gs_std2rev : trace.

Lemma er_red x : er (TraceRed.red x) (ModelRed.red x).
Proof. tr_er. Qed.
Lemma ob_red x x' : ob any (TraceRed.red x) (TraceRed.red x').
Proof. tr_ob. Qed.
#[export] Hint Resolve er_red ob_red : trace.

Lemma er_mul_red x y : er (TraceRed.mul_red x y) (ModelRed.mul_red x y).
Proof. tr_er. Qed.
Lemma ob_mul_red x y x' y' : ob any (TraceRed.mul_red x y) (TraceRed.mul_red x' y').
Proof. tr_ob. Qed.
#[export] Hint Resolve er_mul_red ob_mul_red : trace.

Lemma er_normalize a n : er (TraceRed.normalize a n) (ModelRed.normalize a n).
Proof. tr_er. Qed.
#[export] Hint Resolve er_normalize : trace.

Lemma er_normalize_inv3 a n : er (TraceRed.normalize_inv3 a n) (ModelRed.normalize_inv3 a n).
Proof. tr_er. Qed.
#[export] Hint Resolve er_normalize_inv3 : trace.

Lemma er_shift_array a n : er (TraceRed.shift_array a n) (ModelRed.shift_array a n).
Proof. tr_er. Qed.
#[export] Hint Resolve er_shift_array : trace.

Lemma er_reduce_array a n : er (TraceRed.reduce_array a n) (ModelRed.reduce_array a n).
Proof. tr_er. Qed.
Lemma ob_reduce_array a n a' : ob any (TraceRed.reduce_array a n) (TraceRed.reduce_array a' n).
Proof. tr_ob. Qed.
#[export] Hint Resolve er_reduce_array ob_reduce_array : trace.

Lemma er_reduce_array_twice a n : er (TraceRed.reduce_array_twice a n) (ModelRed.reduce_array_twice a n).
Proof. tr_er. Qed.
Lemma ob_reduce_array_twice a n a' : ob any (TraceRed.reduce_array_twice a n) (TraceRed.reduce_array_twice a' n).
Proof. tr_ob. Qed.
#[export] Hint Resolve er_reduce_array_twice ob_reduce_array_twice : trace.

Lemma er_correct a n : er (TraceRed.correct a n) (ModelRed.correct a n).
Proof. tr_er. Qed.
Lemma ob_correct a n a' : ob any (TraceRed.correct a n) (TraceRed.correct a' n).
Proof. tr_ob. Qed.
#[export] Hint Resolve er_correct ob_correct : trace.

Lemma er_mul_reduce_array16 a n p : er (TraceRed.mul_reduce_array16 a n p) (ModelRed.mul_reduce_array16 a n p).
Proof. tr_er. Qed.
Lemma ob_mul_reduce_array16 a n p a' p' : ob any (TraceRed.mul_reduce_array16 a n p) (TraceRed.mul_reduce_array16 a' n p').
Proof. tr_ob. Qed.
#[export] Hint Resolve er_mul_reduce_array16 ob_mul_reduce_array16 : trace.

Lemma er_mul_reduce_array_h h c n a b : er (TraceRed.mul_reduce_array_h h c n a b) (ModelRed.mul_reduce_array_h h c n a b).
Proof. tr_er. Qed.
Lemma ob_mul_reduce_array_h h c n a b h' : ob any (TraceRed.mul_reduce_array_h h c n a b) (TraceRed.mul_reduce_array_h h' c n a b).
Proof. tr_ob. Qed.
#[export] Hint Resolve er_mul_reduce_array_h ob_mul_reduce_array_h : trace.

Lemma er_scalar_mul_reduce_array a n c : er (TraceRed.scalar_mul_reduce_array a n c) (ModelRed.scalar_mul_reduce_array a n c).
Proof. tr_er. Qed.
Lemma ob_scalar_mul_reduce_array a n c a' c' : ob any (TraceRed.scalar_mul_reduce_array a n c) (TraceRed.scalar_mul_reduce_array a' n c').
Proof. tr_ob. Qed.
#[export] Hint Resolve er_scalar_mul_reduce_array ob_scalar_mul_reduce_array : trace.

Lemma er_bfly0_red s t a : er (TraceRed.bfly0_red s t a) (ModelRed.bfly0_red s t a).
Proof. tr_er. Qed.
Lemma ob_bfly0_red s t a a' : ob any (TraceRed.bfly0_red s t a) (TraceRed.bfly0_red s t a').
Proof. tr_ob. Qed.
#[export] Hint Resolve er_bfly0_red ob_bfly0_red : trace.

Lemma er_ct_bfly_red w s t a : er (TraceRed.ct_bfly_red w s t a) (ModelRed.ct_bfly_red w s t a).
Proof. tr_er. Qed.
Lemma ob_ct_bfly_red w s t a w' a' : ob any (TraceRed.ct_bfly_red w s t a) (TraceRed.ct_bfly_red w' s t a').
Proof. tr_ob. Qed.
#[export] Hint Resolve er_ct_bfly_red ob_ct_bfly_red : trace.

Lemma er_gs_bfly_red w s t a : er (TraceRed.gs_bfly_red w s t a) (ModelRed.gs_bfly_red w s t a).
Proof. tr_er. Qed.
Lemma ob_gs_bfly_red w s t a w' a' : ob any (TraceRed.gs_bfly_red w s t a) (TraceRed.gs_bfly_red w' s t a').
Proof. tr_ob. Qed.
#[export] Hint Resolve er_gs_bfly_red ob_gs_bfly_red : trace.

Lemma er_ntt_red_ct_rev2std a n p : er (TraceRed.ntt_red_ct_rev2std a n p) (ModelRed.ntt_red_ct_rev2std a n p).
Proof. tr_er. Qed.
Lemma ob_ntt_red_ct_rev2std a n p a' p' : ob any (TraceRed.ntt_red_ct_rev2std a n p) (TraceRed.ntt_red_ct_rev2std a' n p').
Proof. tr_ob. Qed.
#[export] Hint Resolve er_ntt_red_ct_rev2std ob_ntt_red_ct_rev2std : trace.

Lemma er_mulntt_red_ct_rev2std a n p : er (TraceRed.mulntt_red_ct_rev2std a n p) (ModelRed.mulntt_red_ct_rev2std a n p).
Proof. tr_er. Qed.
Lemma ob_mulntt_red_ct_rev2std a n p a' p' : ob any (TraceRed.mulntt_red_ct_rev2std a n p) (TraceRed.mulntt_red_ct_rev2std a' n p').
Proof. tr_ob. Qed.
#[export] Hint Resolve er_mulntt_red_ct_rev2std ob_mulntt_red_ct_rev2std : trace.

Lemma er_ntt_red_ct_std2rev a n p : er (TraceRed.ntt_red_ct_std2rev a n p) (ModelRed.ntt_red_ct_std2rev a n p).
Proof. tr_er. Qed.
Lemma ob_ntt_red_ct_std2rev a n p a' p' : ob any (TraceRed.ntt_red_ct_std2rev a n p) (TraceRed.ntt_red_ct_std2rev a' n p').
Proof. tr_ob. Qed.
#[export] Hint Resolve er_ntt_red_ct_std2rev ob_ntt_red_ct_std2rev : trace.

Lemma er_mulntt_red_ct_std2rev a n p : er (TraceRed.mulntt_red_ct_std2rev a n p) (ModelRed.mulntt_red_ct_std2rev a n p).
Proof. tr_er. Qed.
Lemma ob_mulntt_red_ct_std2rev a n p a' p' : ob any (TraceRed.mulntt_red_ct_std2rev a n p) (TraceRed.mulntt_red_ct_std2rev a' n p').
Proof. tr_ob. Qed.
#[export] Hint Resolve er_mulntt_red_ct_std2rev ob_mulntt_red_ct_std2rev : trace.

Lemma er_ntt_red_gs_rev2std a n p : er (TraceRed.ntt_red_gs_rev2std a n p) (ModelRed.ntt_red_gs_rev2std a n p).
Proof. tr_er. Qed.
Lemma ob_ntt_red_gs_rev2std a n p a' p' : ob any (TraceRed.ntt_red_gs_rev2std a n p) (TraceRed.ntt_red_gs_rev2std a' n p').
Proof. tr_ob. Qed.
#[export] Hint Resolve er_ntt_red_gs_rev2std ob_ntt_red_gs_rev2std : trace.

Lemma er_nttmul_red_gs_rev2std a n p : er (TraceRed.nttmul_red_gs_rev2std a n p) (ModelRed.nttmul_red_gs_rev2std a n p).
Proof. tr_er. Qed.
Lemma ob_nttmul_red_gs_rev2std a n p a' p' : ob any (TraceRed.nttmul_red_gs_rev2std a n p) (TraceRed.nttmul_red_gs_rev2std a' n p').
Proof. tr_ob. Qed.
#[export] Hint Resolve er_nttmul_red_gs_rev2std ob_nttmul_red_gs_rev2std : trace.

Lemma er_ntt_red_gs_std2rev a n p : er (TraceRed.ntt_red_gs_std2rev a n p) (ModelRed.ntt_red_gs_std2rev a n p).
Proof. tr_er. Qed.
Lemma ob_ntt_red_gs_std2rev a n p a' p' : ob any (TraceRed.ntt_red_gs_std2rev a n p) (TraceRed.ntt_red_gs_std2rev a' n p').
Proof. tr_ob. Qed.
#[export] Hint Resolve er_ntt_red_gs_std2rev ob_ntt_red_gs_std2rev : trace.

Lemma er_nttmul_red_gs_std2rev a n p : er (TraceRed.nttmul_red_gs_std2rev a n p) (ModelRed.nttmul_red_gs_std2rev a n p).
Proof. tr_er. Qed.
Lemma ob_nttmul_red_gs_std2rev a n p a' p' : ob any (TraceRed.nttmul_red_gs_std2rev a n p) (TraceRed.nttmul_red_gs_std2rev a' n p').
Proof. tr_ob. Qed.
#[export] Hint Resolve er_nttmul_red_gs_std2rev ob_nttmul_red_gs_std2rev : trace.

Lemma er_mul_array16_naive a n p q : er (TraceNaive.mul_array16_naive a n p q) (ModelNaive.mul_array16_naive a n p q).
Proof. tr_er. Qed.
Lemma ob_mul_array16_naive a n p q a' p' : ob any (TraceNaive.mul_array16_naive a n p q) (TraceNaive.mul_array16_naive a' n p' q).
Proof. tr_ob. Qed.
#[export] Hint Resolve er_mul_array16_naive ob_mul_array16_naive : trace.

Lemma er_mul_array_naive_h h c n a b q : er (TraceNaive.mul_array_naive_h h c n a b q) (ModelNaive.mul_array_naive_h h c n a b q).
Proof. tr_er. Qed.
Lemma ob_mul_array_naive_h h c n a b q h' : ob any (TraceNaive.mul_array_naive_h h c n a b q) (TraceNaive.mul_array_naive_h h' c n a b q).
Proof. tr_ob. Qed.
#[export] Hint Resolve er_mul_array_naive_h ob_mul_array_naive_h : trace.

Lemma er_scalar_mul_array_naive a n c q : er (TraceNaive.scalar_mul_array_naive a n c q) (ModelNaive.scalar_mul_array_naive a n c q).
Proof. tr_er. Qed.
Lemma ob_scalar_mul_array_naive a n c q a' c' : ob any (TraceNaive.scalar_mul_array_naive a n c q) (TraceNaive.scalar_mul_array_naive a' n c' q).
Proof. tr_ob. Qed.
#[export] Hint Resolve er_scalar_mul_array_naive ob_scalar_mul_array_naive : trace.

Lemma er_bfly0_naive q s t a : er (TraceNaive.bfly0_naive q s t a) (ModelNaive.bfly0_naive q s t a).
Proof. tr_er. Qed.
Lemma ob_bfly0_naive q s t a a' : ob any (TraceNaive.bfly0_naive q s t a) (TraceNaive.bfly0_naive q s t a').
Proof. tr_ob. Qed.
#[export] Hint Resolve er_bfly0_naive ob_bfly0_naive : trace.

Lemma er_ct_bfly_naive q w s t a : er (TraceNaive.ct_bfly_naive q w s t a) (ModelNaive.ct_bfly_naive q w s t a).
Proof. tr_er. Qed.
Lemma ob_ct_bfly_naive q w s t a w' a' : ob any (TraceNaive.ct_bfly_naive q w s t a) (TraceNaive.ct_bfly_naive q w' s t a').
Proof. tr_ob. Qed.
#[export] Hint Resolve er_ct_bfly_naive ob_ct_bfly_naive : trace.

Lemma er_gs_bfly_naive q w s t a : er (TraceNaive.gs_bfly_naive q w s t a) (ModelNaive.gs_bfly_naive q w s t a).
Proof. tr_er. Qed.
Lemma ob_gs_bfly_naive q w s t a w' a' : ob any (TraceNaive.gs_bfly_naive q w s t a) (TraceNaive.gs_bfly_naive q w' s t a').
Proof. tr_ob. Qed.
#[export] Hint Resolve er_gs_bfly_naive ob_gs_bfly_naive : trace.

Lemma er_ntt_ct_rev2std_naive a n p q : er (TraceNaive.ntt_ct_rev2std_naive a n p q) (ModelNaive.ntt_ct_rev2std_naive a n p q).
Proof. tr_er. Qed.
Lemma ob_ntt_ct_rev2std_naive a n p q a' p' : ob any (TraceNaive.ntt_ct_rev2std_naive a n p q) (TraceNaive.ntt_ct_rev2std_naive a' n p' q).
Proof. tr_ob. Qed.
#[export] Hint Resolve er_ntt_ct_rev2std_naive ob_ntt_ct_rev2std_naive : trace.

Lemma er_mulntt_ct_rev2std_naive a n p q : er (TraceNaive.mulntt_ct_rev2std_naive a n p q) (ModelNaive.mulntt_ct_rev2std_naive a n p q).
Proof. tr_er. Qed.
Lemma ob_mulntt_ct_rev2std_naive a n p q a' p' : ob any (TraceNaive.mulntt_ct_rev2std_naive a n p q) (TraceNaive.mulntt_ct_rev2std_naive a' n p' q).
Proof. tr_ob. Qed.
#[export] Hint Resolve er_mulntt_ct_rev2std_naive ob_mulntt_ct_rev2std_naive : trace.

Lemma er_ntt_ct_std2rev_naive a n p q : er (TraceNaive.ntt_ct_std2rev_naive a n p q) (ModelNaive.ntt_ct_std2rev_naive a n p q).
Proof. tr_er. Qed.
Lemma ob_ntt_ct_std2rev_naive a n p q a' p' : ob any (TraceNaive.ntt_ct_std2rev_naive a n p q) (TraceNaive.ntt_ct_std2rev_naive a' n p' q).
Proof. tr_ob. Qed.
#[export] Hint Resolve er_ntt_ct_std2rev_naive ob_ntt_ct_std2rev_naive : trace.

Lemma er_mulntt_ct_std2rev_naive a n p q : er (TraceNaive.mulntt_ct_std2rev_naive a n p q) (ModelNaive.mulntt_ct_std2rev_naive a n p q).
Proof. tr_er. Qed.
Lemma ob_mulntt_ct_std2rev_naive a n p q a' p' : ob any (TraceNaive.mulntt_ct_std2rev_naive a n p q) (TraceNaive.mulntt_ct_std2rev_naive a' n p' q).
Proof. tr_ob. Qed.
#[export] Hint Resolve er_mulntt_ct_std2rev_naive ob_mulntt_ct_std2rev_naive : trace.

Lemma er_ntt_gs_rev2std_naive a n p q : er (TraceNaive.ntt_gs_rev2std_naive a n p q) (ModelNaive.ntt_gs_rev2std_naive a n p q).
Proof. tr_er. Qed.
Lemma ob_ntt_gs_rev2std_naive a n p q a' p' : ob any (TraceNaive.ntt_gs_rev2std_naive a n p q) (TraceNaive.ntt_gs_rev2std_naive a' n p' q).
Proof. tr_ob. Qed.
#[export] Hint Resolve er_ntt_gs_rev2std_naive ob_ntt_gs_rev2std_naive : trace.

Lemma er_nttmul_gs_rev2std_naive a n p q : er (TraceNaive.nttmul_gs_rev2std_naive a n p q) (ModelNaive.nttmul_gs_rev2std_naive a n p q).
Proof. tr_er. Qed.
Lemma ob_nttmul_gs_rev2std_naive a n p q a' p' : ob any (TraceNaive.nttmul_gs_rev2std_naive a n p q) (TraceNaive.nttmul_gs_rev2std_naive a' n p' q).
Proof. tr_ob. Qed.
#[export] Hint Resolve er_nttmul_gs_rev2std_naive ob_nttmul_gs_rev2std_naive : trace.

Lemma er_ntt_gs_std2rev_naive a n p q : er (TraceNaive.ntt_gs_std2rev_naive a n p q) (ModelNaive.ntt_gs_std2rev_naive a n p q).
Proof. tr_er. Qed.
Lemma ob_ntt_gs_std2rev_naive a n p q a' p' : ob any (TraceNaive.ntt_gs_std2rev_naive a n p q) (TraceNaive.ntt_gs_std2rev_naive a' n p' q).
Proof. tr_ob. Qed.
#[export] Hint Resolve er_ntt_gs_std2rev_naive ob_ntt_gs_std2rev_naive : trace.

Lemma er_nttmul_gs_std2rev_naive a n p q : er (TraceNaive.nttmul_gs_std2rev_naive a n p q) (ModelNaive.nttmul_gs_std2rev_naive a n p q).
Proof. tr_er. Qed.
Lemma ob_nttmul_gs_std2rev_naive a n p q a' p' : ob any (TraceNaive.nttmul_gs_std2rev_naive a n p q) (TraceNaive.nttmul_gs_std2rev_naive a' n p' q).
Proof. tr_ob. Qed.
#[export] Hint Resolve er_nttmul_gs_std2rev_naive ob_nttmul_gs_std2rev_naive : trace.


Lemma er_shuffle_with_table a p n : er (TraceNtt.shuffle_with_table a p n) (ModelNtt.shuffle_with_table a p n).
Proof. tr_er. Qed.
Lemma ob_shuffle_with_table a a' p n : ob any (TraceNtt.shuffle_with_table a p n) (TraceNtt.shuffle_with_table a' p n).
Proof.
  unfold TraceNtt.shuffle_with_table. apply (ob_cfor any); [|exact I]. intros.
  do 2 (apply (ob_bind any); [apply ob_emit|]; intros _ _ _).
  apply (ob_bind eq).
  - destruct (nth_error p (Z.to_nat i)); [apply ob_ret; reflexivity|apply ob_err].
  - intros [j k] ? <-. repeat ob_step.
Qed.
