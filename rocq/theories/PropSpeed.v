(** Property C73: products of size 1024 that are called over and over. *)

From Coq Require Import ZArith List Bool Lia.
From Verif Require Import CSem Spec Exlib ModelGen ModelProducts ModelSpeed ExTables AvxProdFinal HarnessFinal TestsFinal SpeedFinal.
Import ListNotations.
Open Scope Z_scope.

(** C73. The products of ntt_red1024.c take entries between -300000 and 300000, give the canonical product, and leave
    entries between -300000 and 300000 in the two arrays they overwrite: they can be called on them again, any number of
    times. *)
Theorem red1024_products_repeat :
  forall malloc T, (forall n, 0 <= n -> zlen (malloc n) = n) ->
  make_red_tables malloc 1024 1014 = Ok (Written T) ->
  forall f, In f [red_product1 false 1024 T; red_product2 false 1024 T; red_product3 false 1024 T; red_product4 false 1024 T; red_product5 false 1024 T] ->
  forall h c a b, a <> b -> a <> c -> b <> c -> zlen (h a) = 1024 -> zlen (h b) = 1024 -> zlen (h c) = 1024 ->
  all_in (-300000) 300000 (h a) -> all_in (-300000) 300000 (h b) ->
  exists h', f h c a b = Ok h' /\ zlen (h' c) = 1024 /\ all_in 0 (Q - 1) (h' c)
    /\ (forall i, 0 <= i < 1024 -> at_ (h' c) i = negacyclic 1024 (at_ (h a)) (at_ (h b)) i mod Q)
    /\ (zlen (h' a) = 1024 /\ all_in (-300000) 300000 (h' a)) /\ (zlen (h' b) = 1024 /\ all_in (-300000) 300000 (h' b))
    /\ (forall p, p <> a -> p <> b -> p <> c -> h' p = h p).
Proof. exact red1024_products_repeat_L. Qed.
Print Assumptions red1024_products_repeat.

(** Entries that are not reduced, and three calls in a row. *)
Example red1024_products_repeat_ex :
  exists T, make_red_tables malloc77 1024 1014 = Ok (Written T)
  /\ all_in (-300000) 300000 (ex_far 0) /\ all_in (-300000) 300000 (ex_far 1) /\ at_ (ex_far 0) 7 = 299999
  /\ exists h1 h2 h3, red_product2 false 1024 T ex_far 2 0 1 = Ok h1 /\ red_product2 false 1024 T h1 2 0 1 = Ok h2
     /\ red_product5 false 1024 T h2 2 0 1 = Ok h3
     /\ forall i, 0 <= i < 1024 -> at_ (h3 2) i = negacyclic 1024 (at_ (h2 0)) (at_ (h2 1)) i mod Q.
Proof.
  destruct tables1024_made as [T HT]. exists T. split; [exact HT|]. destruct ex_far_in as [I0 I1].
  split; [exact I0|]. split; [exact I1|]. split; [reflexivity|].
  assert (X := red1024_products_repeat malloc77 T malloc77_len HT).
  assert (N1 : 0 <> 1) by discriminate. assert (N2 : 0 <> 2) by discriminate. assert (N3 : 1 <> 2) by discriminate.
  destruct (X _ (in_second _ _ _) ex_far 2 0 1 N1 N2 N3 (ex_far_len 0) (ex_far_len 1) (ex_far_len 2) I0 I1)
    as (h1 & E1 & L1 & _ & _ & (La1 & A1) & (Lb1 & B1) & _).
  destruct (X _ (in_second _ _ _) h1 2 0 1 N1 N2 N3 La1 Lb1 L1 A1 B1) as (h2 & E2 & L2 & _ & _ & (La2 & A2) & (Lb2 & B2) & _).
  destruct (X _ (in_fifth _ _ _ _ _ _) h2 2 0 1 N1 N2 N3 La2 Lb2 L2 A2 B2) as (h3 & E3 & L3 & _ & R3 & _).
  exists h1, h2, h3. split; [exact E1|]. split; [exact E2|]. split; [exact E3|exact R3].
Qed.

(** C73. speed_mul1024.c, speed_mul1024_naive.c, speed_mul1024_red.c and speed_mul1024_red_asm.c return 0 whatever the cycle
    counter gives and whatever the local arrays hold at first: 102400 calls of each product on the same two arrays. *)
Theorem speed_mul1024_mains_ok :
  forall malloc T R clk stk, (forall n, 0 <= n -> zlen (malloc n) = n) ->
  make_tables malloc 1024 1014 = Ok (Written T) -> make_red_tables malloc 1024 1014 = Ok (Written R) ->
  (forall p, zlen (stk p) = 1024) ->
  speed_mul1024_main clk stk T = Ok 0 /\ speed_mul1024_naive_main clk stk T = Ok 0
  /\ speed_mul1024_red_main clk stk R = Ok 0 /\ speed_mul1024_red_asm_main clk stk R = Ok 0.
Proof. exact speed_mul1024_mains_ok_L. Qed.
Print Assumptions speed_mul1024_mains_ok.

(** A counter that runs backwards: the times wrap around. *)
Example speed_mul1024_mains_ex :
  exists T R, make_tables malloc77 1024 1014 = Ok (Written T) /\ make_red_tables malloc77 1024 1014 = Ok (Written R)
  /\ speed_mul1024_main (fun i => 2 ^ 64 - 1 - 100 * i) ex_stk1024 T = Ok 0
  /\ speed_mul1024_red_main (fun i => 2 ^ 64 - 1 - 100 * i) ex_stk1024 R = Ok 0.
Proof.
  destruct both1024_made as (T & R & HT & HR). exists T, R. split; [exact HT|]. split; [exact HR|].
  destruct (speed_mul1024_mains_ok malloc77 T R (fun i => 2 ^ 64 - 1 - 100 * i) ex_stk1024 malloc77_len HT HR ex_stk1024_len)
    as (H1 & _ & H3 & _). split; [exact H1|exact H3].
Qed.
