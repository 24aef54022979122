(** Lemmas behind PropSpeed. *)

From Coq Require Import ZArith List Bool Lia Setoid Morphisms.
From Verif Require Import CSem Spec Loops ModQ Conv HeapElem Exlib TableSpec NttElem ModelNtt ModelRed ModelGen ModelProducts ModelAvxProd ModelSort
  ModelTests ModelSpeed GenFinal ExTables ProdGen ProdNtt ProdRed ProdFinal AvxProdFinal HarnessFinal ElemFinal TestsElem TestsRun TestsFinal
  IdealProd FineBounds FineRuns.
Import ListNotations.
Open Scope Z_scope.

Lemma print_results_ok t c : zlen t = NTESTS -> exists t', print_results t c = Ok t' /\ zlen t' = NTESTS.
Proof.
  intros HL. unfold print_results. assert (HN := NTESTS_range).
  match goal with |- context [loop (NTESTS - 1) ?B t] =>
    destruct (loop_ok (fun _ t => zlen t = NTESTS) (NTESTS - 1) B t) as (t1 & E & L1) end.
  - unfold NTESTS. lia.
  - exact HL.
  - intros i u Hi Lu. rewrite u32_small by lia. rewrite !rd_ok by lia. cbn [bind]. rewrite wr_ok by lia.
    eexists. split; [reflexivity|]. rewrite aset_len. exact Lu.
  - rewrite E. cbn [bind]. rewrite rd_ok by (unfold NTESTS in *; lia). cbn [bind].
    rewrite wr_ok by (unfold NTESTS in *; lia). cbn [bind].
    match goal with |- context [median_time ?u] => set (t2 := u) end.
    assert (L2 : zlen t2 = NTESTS) by (unfold t2; rewrite aset_len; exact L1).
    destruct (median_ok (fun z => z) (fun _ => []) 0 (fun _ => eq_refl) t2 L2) as (t3 & m & -> & L3). cbn [bind].
    destruct (average_ok (fun z => z) (fun _ => []) 0 (fun _ => eq_refl) t3 L3) as (v & ->). cbn [bind]. eauto.
Qed.

Definition three (h : heap) : Prop := zlen (h 0) = 1024 /\ zlen (h 1) = 1024 /\ zlen (h 2) = 1024.

Lemma measure_ok clk f t h c : quick2 1024 f -> zlen t = NTESTS -> three h ->
  exists t' h' c', measure clk f (t, h, c) = Ok (t', h', c') /\ zlen t' = NTESTS /\ three h'.
Proof.
  intros (P & P1 & P2 & P3) Lt (L0 & L1 & L2). unfold measure. cbv zeta. assert (HN := NTESTS_range).
  match goal with |- context [loop 1024 ?B h] =>
    destruct (loop_ok (fun m (g : heap) => three g /\ forall i, 0 <= i < m -> at_ (g 0) i = i /\ at_ (g 1) i = i) 1024 B h)
      as (g & E & Tg & Vg) end.
  - lia.
  - split; [split; auto|]. intros; lia.
  - intros i g Hi ((G0 & G1 & G2) & V). rewrite to_i32_small by lia. rewrite (wr_ok (g 0)) by lia. cbn [bind].
    rewrite hset_other by lia. rewrite (wr_ok (g 1)) by lia. cbn [bind].
    eexists. split; [reflexivity|].
    set (a := aset (g 0) i i). set (b := aset (g 1) i i).
    assert (E0 : hset (hset g 0 a) 1 b 0 = a) by (rewrite hset_other by lia; apply hset_same).
    assert (E1 : hset (hset g 0 a) 1 b 1 = b) by apply hset_same.
    assert (E2 : hset (hset g 0 a) 1 b 2 = g 2) by (rewrite !hset_other by lia; reflexivity).
    unfold three. rewrite E0, E1, E2. unfold a, b. rewrite !aset_len. split; [auto|].
    intros m Hm. destruct (Z.eq_dec m i) as [->|].
    + rewrite !at_aset_same by lia. auto.
    + rewrite !at_aset_other by lia. apply V. lia.
  - match goal with |- context [@loop ?S 1024 ?B h] => change (@loop S 1024 B h = Ok g) in E end.
    rewrite E. cbn [bind].
    match goal with |- context [loop NTESTS ?B ?s0] =>
      destruct (loop_ok (fun _ (s : list Z * heap * Z) => zlen (fst (fst s)) = NTESTS /\ P (snd (fst s))) NTESTS B s0)
        as ([[t1 h1] c1] & E1 & Lt1 & Ph1) end.
    + exact HN.
    + cbn [fst snd]. split; [exact Lt|]. destruct Tg as (G0 & G1 & G2). apply P1; auto; intros i Hi; destruct (Vg i Hi) as [X0 X1]; rewrite ?X0, ?X1; lia.
    + intros i [[u g1] d] Hi [Lu Pg]. cbn [fst snd] in *. rewrite wr_ok by lia. cbn [bind].
      destruct (P2 g1 Pg) as (r & -> & Pr). cbn [bind]. eexists. split; [reflexivity|]. cbn [fst snd].
      split; [rewrite aset_len; exact Lu|exact Pr].
    + rewrite E1. cbn [bind]. cbn [fst snd] in *. destruct (print_results_ok t1 (clk c1) Lt1) as (t2 & -> & Lt2).
      cbn [bind]. do 3 eexists. split; [reflexivity|]. split; [exact Lt2|]. apply P3, Ph1.
Qed.

Lemma speed_main_ok clk stk f1 f2 f3 f4 f5 : three stk ->
  quick2 1024 f1 /\ quick2 1024 f2 /\ quick2 1024 f3 /\ quick2 1024 f4 /\ quick2 1024 f5 ->
  speed_main clk stk f1 f2 f3 f4 f5 = Ok 0.
Proof.
  intros Hs (Q1 & Q2 & Q3 & Q4 & Q5). unfold speed_main.
  assert (L0 : zlen (repeat 0 (Z.to_nat NTESTS)) = NTESTS).
  { unfold zlen. rewrite repeat_length. apply Z2Nat.id. exact (proj1 NTESTS_range). }
  revert L0. generalize (repeat 0 (Z.to_nat NTESTS)). intros t0 L0.
  destruct (measure_ok clk f1 t0 stk 0 Q1 L0 Hs) as (t1 & h1 & c1 & -> & L1 & H1). cbn [bind].
  destruct (measure_ok clk f2 t1 h1 c1 Q2 L1 H1) as (t2 & h2 & c2 & -> & L2 & H2). cbn [bind].
  destruct (measure_ok clk f3 t2 h2 c2 Q3 L2 H2) as (t3 & h3 & c3 & -> & L3 & H3). cbn [bind].
  destruct (measure_ok clk f4 t3 h3 c3 Q4 L3 H3) as (t4 & h4 & c4 & -> & L4 & H4). cbn [bind].
  destruct (measure_ok clk f5 t4 h4 c4 Q5 L4 H4) as (t5 & h5 & c5 & -> & L5 & H5). cbn [bind]. reflexivity.
Qed.

Lemma log1024 k : 1 <= k -> 1024 = 2 ^ k -> k = 10.
Proof. intros Hk H. change 1024 with (2 ^ 10) in H. apply Z.pow_inj_r in H; lia. Qed.

Lemma quick2_repeatable f : repeatable f -> quick2 1024 f.
Proof.
  intros H. exists (fun h => three h /\ (forall i, 0 <= i < 1024 -> near (at_ (h 0) i)) /\ (forall i, 0 <= i < 1024 -> near (at_ (h 1) i))).
  split; [|split; [|intros h [X _]; exact X]].
  - intros h L0 L1 L2 V0 V1. split; [split; auto|]. unfold near, within.
    split; intros i Hi; [specialize (V0 i Hi)|specialize (V1 i Hi)]; lia.
  - intros h ((L0 & L1 & L2) & N0 & N1).
    destruct (H h 2 0 1) as (h' & E & Lc & _ & (La & Na) & (Lb & Nb) & _); auto; try discriminate.
    exists h'. split; [exact E|]. split; [split; auto|]. auto.
Qed.

Section Red.
Variables (malloc : Z -> list Z) (T : red_tables).
Hypothesis HM : forall n, 0 <= n -> zlen (malloc n) = n.
Hypothesis E : make_red_tables malloc 1024 1014 = Ok (Written T).

Lemma red1024_ok : eqQ (1014 ^ (2 ^ 10)) (-1) /\ red_tables_ok 10 1014 T.
Proof.
  destruct (gen_red_tables _ _ _ _ HM E) as (k & Hk & Hs & Hr & HT).
  apply log1024 in Hs; [|lia]. subst k. auto.
Qed.

Lemma red1024_products_repeat_L f :
  In f [red_product1 false 1024 T; red_product2 false 1024 T; red_product3 false 1024 T; red_product4 false 1024 T; red_product5 false 1024 T] ->
  forall h c a b, a <> b -> a <> c -> b <> c -> zlen (h a) = 1024 -> zlen (h b) = 1024 -> zlen (h c) = 1024 ->
  all_in (-300000) 300000 (h a) -> all_in (-300000) 300000 (h b) ->
  exists h', f h c a b = Ok h' /\ zlen (h' c) = 1024 /\ all_in 0 (Spec.Q - 1) (h' c)
    /\ (forall i, 0 <= i < 1024 -> at_ (h' c) i = negacyclic 1024 (at_ (h a)) (at_ (h b)) i mod Spec.Q)
    /\ (zlen (h' a) = 1024 /\ all_in (-300000) 300000 (h' a)) /\ (zlen (h' b) = 1024 /\ all_in (-300000) 300000 (h' b))
    /\ (forall p, p <> a -> p <> b -> p <> c -> h' p = h p).
Proof.
  intros HI h c a b Hab Hac Hbc La Lb Lc Ia Ib. destruct red1024_ok as [Hr HT].
  assert (HR : repeatable f).
  { destruct HI as [<-|[<-|[<-|[<-|[<-|[]]]]]].
    - exact (repeatable1 T Hr HT).
    - exact (repeatable2 T Hr HT).
    - exact (repeatable3 T Hr HT).
    - exact (repeatable4 T Hr HT).
    - exact (repeatable5 T Hr HT). }
  assert (X : forall x, zlen x = 1024 -> all_in (-300000) 300000 x -> forall i, 0 <= i < 2 ^ 10 -> near (at_ x i)).
  { intros x L H i Hi. unfold near, within. change (2 ^ 10) with 1024 in Hi.
    assert (Y := all_in_at _ _ _ i H ltac:(lia)). lia. }
  assert (Y : forall x, zlen x = 1024 -> (forall i, 0 <= i < 2 ^ 10 -> near (at_ x i)) -> all_in (-300000) 300000 x).
  { intros x L H. apply all_in_of. intros i Hi. rewrite L in Hi. specialize (H i Hi). unfold near, within in H. lia. }
  destruct (HR h c a b Hab Hac Hbc La Lb Lc (X _ La Ia) (X _ Lb Ib)) as (h' & E' & Lc' & R & (La' & Na) & (Lb' & Nb) & O).
  exists h'. split; [exact E'|]. split; [exact Lc'|]. split.
  - apply all_in_of. intros i Hi. rewrite Lc' in Hi. destruct (R i Hi) as [_ Hc]. unfold NttElem.can in Hc. unfold Spec.Q. lia.
  - split.
    + intros i Hi. destruct (R i Hi) as [He Hc]. unfold eqQ in He. change (2 ^ 10) with 1024 in He. rewrite <- He. symmetry. apply Z.mod_small. exact Hc.
    + split; [split; [exact La'|apply Y; assumption]|]. split; [split; [exact Lb'|apply Y; assumption]|exact O].
Qed.
End Red.

Lemma speed_mul1024_mains_ok_L :
  forall malloc T R clk stk, (forall n, 0 <= n -> zlen (malloc n) = n) ->
  make_tables malloc 1024 1014 = Ok (Written T) -> make_red_tables malloc 1024 1014 = Ok (Written R) ->
  (forall p, zlen (stk p) = 1024) ->
  speed_mul1024_main clk stk T = Ok 0 /\ speed_mul1024_naive_main clk stk T = Ok 0
  /\ speed_mul1024_red_main clk stk R = Ok 0 /\ speed_mul1024_red_asm_main clk stk R = Ok 0.
Proof.
  intros malloc T R clk stk HM E1 E2 Hs. assert (H3 : three stk) by (split; [apply Hs|split; apply Hs]).
  destruct (red1024_ok malloc R HM E2) as [Hr HR].
  destruct (gen_tables _ _ _ _ HM E1) as (k & Hk & Hsz & Hroot & HT). apply log1024 in Hsz; [|lia]. subst k.
  split; [exact (speed_main_ok clk stk _ _ _ _ _ H3 (quick2_default 10 1014 T Hk Hroot HT))|].
  split; [exact (speed_main_ok clk stk _ _ _ _ _ H3 (quick2_naive 10 1014 T Hk Hroot HT))|].
  split; apply speed_main_ok; try exact H3.
  - split; [exact (quick2_repeatable _ (repeatable1 R Hr HR))|]. split; [exact (quick2_repeatable _ (repeatable2 R Hr HR))|].
    split; [exact (quick2_repeatable _ (repeatable3 R Hr HR))|]. split; [exact (quick2_repeatable _ (repeatable4 R Hr HR))|].
    exact (quick2_repeatable _ (repeatable5 R Hr HR)).
  - assert (K : 4 <= 10 <= 10) by lia.
    split; [exact (quick2_asm24 10 1014 R K HR)|]. split; [exact (quick2_asm2 10 1014 R K HR false)|].
    split; [exact (quick2_asm3 10 1014 R K HR false)|]. split; [exact (quick2_asm4 10 1014 R K HR false)|].
    exact (quick2_asm5 10 1014 R K HR false).
Qed.

(** Two arrays whose entries are outside of 0, ..., Q-1. *)
Definition ex_far : heap := fun p => if p =? 2 then repeat 5 1024 else repeat (if p =? 0 then 299999 else -300000) 1024.
Lemma ex_far_in : all_in (-300000) 300000 (ex_far 0) /\ all_in (-300000) 300000 (ex_far 1).
Proof. split; check_all_in. Qed.
Lemma ex_far_len p : zlen (ex_far p) = 1024.
Proof. unfold ex_far, zlen. destruct (p =? 2); rewrite repeat_length; reflexivity. Qed.
Lemma both1024_made : exists T R, make_tables malloc77 1024 1014 = Ok (Written T) /\ make_red_tables malloc77 1024 1014 = Ok (Written R).
Proof.
  destruct (shipped_sizes_accepted_L malloc77 1024 1014 malloc77_len ltac:(right; right; right; left; reflexivity)) as [[T HT] [R HR]].
  eauto.
Qed.
Lemma in_second {A} (x y : A) l : In y (x :: y :: l).
Proof. right; left; reflexivity. Qed.
Lemma in_fifth {A} (a b c d x : A) l : In x (a :: b :: c :: d :: x :: l).
Proof. do 4 right; left; reflexivity. Qed.
