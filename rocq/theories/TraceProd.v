(** The traced versions of the product functions: erasure and equality of traces. *)

From Coq Require Import ZArith List Bool Lia.
From Verif Require Import CSem TraceElem TraceC TraceAvxP.
From Verif Require ModelProducts ModelAvxProd TraceSem TraceProducts TraceAvxProd.
Import ListNotations.
Open Scope Z_scope.

Lemma er_ntt_product1 n T h c a b : er (TraceProducts.ntt_product1 n T h c a b) (ModelProducts.ntt_product1 n T h c a b).
Proof. tr_er. Qed.
Lemma ob_ntt_product1 n T h h' c a b : ob any (TraceProducts.ntt_product1 n T h c a b) (TraceProducts.ntt_product1 n T h' c a b).
Proof. tr_ob. Qed.

Lemma er_ntt_product2 n T h c a b : er (TraceProducts.ntt_product2 n T h c a b) (ModelProducts.ntt_product2 n T h c a b).
Proof. tr_er. Qed.
Lemma ob_ntt_product2 n T h h' c a b : ob any (TraceProducts.ntt_product2 n T h c a b) (TraceProducts.ntt_product2 n T h' c a b).
Proof. tr_ob. Qed.

Lemma er_ntt_product3 n T h c a b : er (TraceProducts.ntt_product3 n T h c a b) (ModelProducts.ntt_product3 n T h c a b).
Proof. tr_er. Qed.
Lemma ob_ntt_product3 n T h h' c a b : ob any (TraceProducts.ntt_product3 n T h c a b) (TraceProducts.ntt_product3 n T h' c a b).
Proof. tr_ob. Qed.

Lemma er_ntt_product4 n T h c a b : er (TraceProducts.ntt_product4 n T h c a b) (ModelProducts.ntt_product4 n T h c a b).
Proof. tr_er. Qed.
Lemma ob_ntt_product4 n T h h' c a b : ob any (TraceProducts.ntt_product4 n T h c a b) (TraceProducts.ntt_product4 n T h' c a b).
Proof. tr_ob. Qed.

Lemma er_ntt_product5 n T h c a b : er (TraceProducts.ntt_product5 n T h c a b) (ModelProducts.ntt_product5 n T h c a b).
Proof. tr_er. Qed.
Lemma ob_ntt_product5 n T h h' c a b : ob any (TraceProducts.ntt_product5 n T h c a b) (TraceProducts.ntt_product5 n T h' c a b).
Proof. tr_ob. Qed.

Lemma er_naive_product1 n T h c a b : er (TraceProducts.naive_product1 n T h c a b) (ModelProducts.naive_product1 n T h c a b).
Proof. tr_er. Qed.
Lemma ob_naive_product1 n T h h' c a b : ob any (TraceProducts.naive_product1 n T h c a b) (TraceProducts.naive_product1 n T h' c a b).
Proof. tr_ob. Qed.

Lemma er_naive_product2 n T h c a b : er (TraceProducts.naive_product2 n T h c a b) (ModelProducts.naive_product2 n T h c a b).
Proof. tr_er. Qed.
Lemma ob_naive_product2 n T h h' c a b : ob any (TraceProducts.naive_product2 n T h c a b) (TraceProducts.naive_product2 n T h' c a b).
Proof. tr_ob. Qed.

Lemma er_naive_product3 n T h c a b : er (TraceProducts.naive_product3 n T h c a b) (ModelProducts.naive_product3 n T h c a b).
Proof. tr_er. Qed.
Lemma ob_naive_product3 n T h h' c a b : ob any (TraceProducts.naive_product3 n T h c a b) (TraceProducts.naive_product3 n T h' c a b).
Proof. tr_ob. Qed.

Lemma er_naive_product4 n T h c a b : er (TraceProducts.naive_product4 n T h c a b) (ModelProducts.naive_product4 n T h c a b).
Proof. tr_er. Qed.
Lemma ob_naive_product4 n T h h' c a b : ob any (TraceProducts.naive_product4 n T h c a b) (TraceProducts.naive_product4 n T h' c a b).
Proof. tr_ob. Qed.

Lemma er_naive_product5 n T h c a b : er (TraceProducts.naive_product5 n T h c a b) (ModelProducts.naive_product5 n T h c a b).
Proof. tr_er. Qed.
Lemma ob_naive_product5 n T h h' c a b : ob any (TraceProducts.naive_product5 n T h c a b) (TraceProducts.naive_product5 n T h' c a b).
Proof. tr_ob. Qed.

Lemma er_red_product1 sh n T h c a b : er (TraceProducts.red_product1 sh n T h c a b) (ModelProducts.red_product1 sh n T h c a b).
Proof. tr_er. Qed.
Lemma ob_red_product1 n T h h' c a b : ob any (TraceProducts.red_product1 false n T h c a b) (TraceProducts.red_product1 false n T h' c a b).
Proof. tr_ob. Qed.

Lemma er_red_product2 sh n T h c a b : er (TraceProducts.red_product2 sh n T h c a b) (ModelProducts.red_product2 sh n T h c a b).
Proof. tr_er. Qed.
Lemma ob_red_product2 n T h h' c a b : ob any (TraceProducts.red_product2 false n T h c a b) (TraceProducts.red_product2 false n T h' c a b).
Proof. tr_ob. Qed.

Lemma er_red_product3 sh n T h c a b : er (TraceProducts.red_product3 sh n T h c a b) (ModelProducts.red_product3 sh n T h c a b).
Proof. tr_er. Qed.
Lemma ob_red_product3 n T h h' c a b : ob any (TraceProducts.red_product3 false n T h c a b) (TraceProducts.red_product3 false n T h' c a b).
Proof. tr_ob. Qed.

Lemma er_red_product4 sh n T h c a b : er (TraceProducts.red_product4 sh n T h c a b) (ModelProducts.red_product4 sh n T h c a b).
Proof. tr_er. Qed.
Lemma ob_red_product4 n T h h' c a b : ob any (TraceProducts.red_product4 false n T h c a b) (TraceProducts.red_product4 false n T h' c a b).
Proof. tr_ob. Qed.

Lemma er_red_product5 sh n T h c a b : er (TraceProducts.red_product5 sh n T h c a b) (ModelProducts.red_product5 sh n T h c a b).
Proof. tr_er. Qed.
Lemma ob_red_product5 n T h h' c a b : ob any (TraceProducts.red_product5 false n T h c a b) (TraceProducts.red_product5 false n T h' c a b).
Proof. tr_ob. Qed.

Lemma er_red_product1_asm sh n T h c a b : er (TraceAvxProd.red_product1_asm sh n T h c a b) (ModelAvxProd.red_product1_asm sh n T h c a b).
Proof. tr_er. Qed.
Lemma ob_red_product1_asm sh n T h h' c a b : ob any (TraceAvxProd.red_product1_asm sh n T h c a b) (TraceAvxProd.red_product1_asm sh n T h' c a b).
Proof. tr_ob. Qed.

Lemma er_red_product2_asm sh n T h c a b : er (TraceAvxProd.red_product2_asm sh n T h c a b) (ModelAvxProd.red_product2_asm sh n T h c a b).
Proof. tr_er. Qed.
Lemma ob_red_product2_asm sh n T h h' c a b : ob any (TraceAvxProd.red_product2_asm sh n T h c a b) (TraceAvxProd.red_product2_asm sh n T h' c a b).
Proof. tr_ob. Qed.

Lemma er_red_product3_asm sh n T h c a b : er (TraceAvxProd.red_product3_asm sh n T h c a b) (ModelAvxProd.red_product3_asm sh n T h c a b).
Proof. tr_er. Qed.
Lemma ob_red_product3_asm sh n T h h' c a b : ob any (TraceAvxProd.red_product3_asm sh n T h c a b) (TraceAvxProd.red_product3_asm sh n T h' c a b).
Proof. tr_ob. Qed.

Lemma er_red_product4_asm sh n T h c a b : er (TraceAvxProd.red_product4_asm sh n T h c a b) (ModelAvxProd.red_product4_asm sh n T h c a b).
Proof. tr_er. Qed.
Lemma ob_red_product4_asm sh n T h h' c a b : ob any (TraceAvxProd.red_product4_asm sh n T h c a b) (TraceAvxProd.red_product4_asm sh n T h' c a b).
Proof. tr_ob. Qed.

Lemma er_red_product5_asm sh n T h c a b : er (TraceAvxProd.red_product5_asm sh n T h c a b) (ModelAvxProd.red_product5_asm sh n T h c a b).
Proof. tr_er. Qed.
Lemma ob_red_product5_asm sh n T h h' c a b : ob any (TraceAvxProd.red_product5_asm sh n T h c a b) (TraceAvxProd.red_product5_asm sh n T h' c a b).
Proof. tr_ob. Qed.

Lemma er_red1024_product1_asm n T h c a b : er (TraceAvxProd.red1024_product1_asm n T h c a b) (ModelAvxProd.red1024_product1_asm n T h c a b).
Proof. tr_er. Qed.
Lemma ob_red1024_product1_asm n T h h' c a b : ob any (TraceAvxProd.red1024_product1_asm n T h c a b) (TraceAvxProd.red1024_product1_asm n T h' c a b).
Proof. tr_ob. Qed.
