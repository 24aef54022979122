(** Lemmas behind [PropKat]. *)

From Coq Require Import ZArith List Bool Lia.
From Verif Require Import CSem Spec Loops ModQ Conv Exlib HeapElem ModelGen ModelProducts ModelAvxProd ExTables ProdFinal AvxProdFinal
  ModelTests TestsElem TestsSound TestsRun TestsFinal TestAvxElem IdealProd FineBounds FineRuns ModelSpeed SpeedFinal ModelKat.
Import ListNotations.
Open Scope Z_scope.

Lemma copy_poly_ok a b : 1024 <= zlen a -> 1024 <= zlen b ->
  exists r, copy_poly a b = Ok r /\ zlen r = zlen a /\ forall i, 0 <= i < 1024 -> at_ r i = at_ b i.
Proof.
  intros La Lb. unfold copy_poly.
  destruct (loop_ok (fun m r => zlen r = zlen a /\ forall i, 0 <= i < m -> at_ r i = at_ b i) 1024
    (fun i a => do x <- rd b i; wr a i x) a) as (r & E & Lr & V).
  - lia.
  - split; [reflexivity|]. intros; lia.
  - intros i r Hi [Lr V]. rewrite rd_ok by lia. cbn [bind]. rewrite wr_ok by lia. eexists. split; [reflexivity|].
    rewrite aset_len. split; [exact Lr|]. intros m Hm. destruct (Z.eq_dec m i) as [->|].
    + apply at_aset_same. lia.
    + rewrite at_aset_other by lia. apply V. lia.
  - eauto.
Qed.

(** [h] holds the rows of [d] *)
Definition rows (d : Z -> list Z) (h : heap) : Prop :=
  forall i, 0 <= i < 100 -> zlen (h i) = 1025 /\ forall j, 0 <= j < 1024 -> at_ (h i) j = at_ (d i) j.

Lemma zero_rows_len i : zlen (zero_rows i) = 1025.
Proof. unfold zero_rows, zlen, N. rewrite repeat_length. reflexivity. Qed.

Lemma build_rows_ok d : (forall i, 0 <= i < 100 -> zlen (d i) = 1024) -> exists h, build_rows d = Ok h /\ rows d h.
Proof.
  intros Hd. unfold build_rows.
  match goal with |- context [loop REPETITIONS ?B zero_rows] =>
    destruct (loop_ok (fun m (h : heap) => (forall i, zlen (h i) = 1025) /\
      forall i, 0 <= i < m -> forall j, 0 <= j < 1024 -> at_ (h i) j = at_ (d i) j) REPETITIONS B zero_rows) as (h & E & L & V) end.
  - unfold REPETITIONS. lia.
  - split; [exact zero_rows_len|]. intros; lia.
  - intros i h Hi [L V]. unfold REPETITIONS in Hi.
    destruct (copy_poly_ok (h i) (d i)) as (r & -> & Lr & Vr); [rewrite L; lia|rewrite Hd by lia; lia|]. cbn [bind].
    eexists. split; [reflexivity|]. split.
    + intros m. destruct (Z.eq_dec m i) as [->|]; [rewrite hset_same, Lr; apply L|rewrite hset_other by assumption; apply L].
    + intros m Hm j Hj. destruct (Z.eq_dec m i) as [->|]; [rewrite hset_same; apply Vr, Hj|].
      rewrite hset_other by assumption. apply V; lia.
  - exists h. split; [exact E|]. intros i Hi. split; [apply L|]. apply V. exact Hi.
Qed.

(** [f] gives canonical products and keeps the lengths of its arguments *)
Definition katf (f : heap -> Z -> Z -> Z -> res heap) : Prop :=
  forall h, three h -> all_in 0 (Spec.Q - 1) (h 0) -> all_in 0 (Spec.Q - 1) (h 1) ->
  exists h', f h 2 0 1 = Ok h' /\ three h'
    /\ forall i, 0 <= i < 1024 -> at_ (h' 2) i = negacyclic 1024 (at_ (h 0)) (at_ (h 1)) i mod Spec.Q.

Lemma katf_of f : quick2 1024 f ->
  (forall h c a b, a <> b -> zlen (h a) = 1024 -> zlen (h b) = 1024 -> zlen (h c) = 1024 ->
   all_in 0 (Spec.Q - 1) (h a) -> all_in 0 (Spec.Q - 1) (h b) ->
   exists h', f h c a b = Ok h' /\ zlen (h' c) = 1024 /\ all_in 0 (Spec.Q - 1) (h' c)
    /\ (forall i, 0 <= i < 1024 -> at_ (h' c) i = negacyclic 1024 (at_ (h a)) (at_ (h b)) i mod Spec.Q)
    /\ (forall p, p <> a -> p <> b -> p <> c -> h' p = h p)) -> katf f.
Proof.
  intros (P & P1 & P2 & P3) H h (L0 & L1 & L2) I0 I1.
  destruct (H h 2 0 1 ltac:(lia) L0 L1 L2 I0 I1) as (h' & E & _ & _ & R & _).
  assert (Ph : P h).
  { apply P1; try assumption; intros i Hi; [assert (X := all_in_at _ _ _ i I0 ltac:(lia))|assert (X := all_in_at _ _ _ i I1 ltac:(lia))];
      unfold Spec.Q in X; lia. }
  destruct (P2 h Ph) as (h2 & E2 & Ph2). rewrite E in E2. injection E2 as <-.
  exists h'. split; [exact E|]. split; [exact (P3 h' Ph2)|exact R].
Qed.

Section Verdict.
Variables (da db dc : Z -> list Z) (stk : heap).
Hypothesis Ha : forall i, 0 <= i < 100 -> zlen (da i) = 1024 /\ all_in 0 (Spec.Q - 1) (da i).
Hypothesis Hb : forall i, 0 <= i < 100 -> zlen (db i) = 1024 /\ all_in 0 (Spec.Q - 1) (db i).
Hypothesis Hc : forall i, 0 <= i < 100 -> zlen (dc i) = 1024.
Hypothesis Hstk : forall p, zlen (stk p) = 1024.

(** Coefficient [j] of row [i] is right *)
Definition okc (i j : Z) : Prop := at_ (dc i) j = negacyclic 1024 (at_ (da i)) (at_ (db i)) j mod Spec.Q.
Definition wrong : Prop := exists i j, 0 <= i < 100 /\ 0 <= j < 1024 /\ ~ okc i j.
Definition right : Prop := forall i j, 0 <= i < 100 -> 0 <= j < 1024 -> okc i j.
Let E : err -> Prop := fun e => e = Exited /\ wrong.

Lemma nega_ext n x y x' y' m : 0 <= m < n -> (forall i, 0 <= i < n -> x i = x' i) -> (forall i, 0 <= i < n -> y i = y' i) ->
  negacyclic n x y m = negacyclic n x' y' m.
Proof.
  intros Hm Hx Hy. unfold negacyclic. apply Sum_ext. intros i Hi. rewrite Hx by lia.
  destruct (Z.leb_spec i m); rewrite Hy by lia; reflexivity.
Qed.

Lemma test_kat_ends A B C f : rows da A -> rows db B -> rows dc C -> katf f ->
  ends E (test_mul_from_KAT_values stk (A, B, C) f) (fun _ => right).
Proof.
  intros RA RB RC Hf. unfold test_mul_from_KAT_values.
  apply (ends_bind E _ _ (fun h => three h /\ right)); [|cbn; intros _ [_ H]; exact H].
  apply (ends_weaken E _ (fun h => three h /\ forall i, 0 <= i < REPETITIONS -> forall j, 0 <= j < 1024 -> okc i j));
    [|intros h [H1 H2]; split; [exact H1|]; intros i j Hi; apply (H2 i); exact Hi].
  apply (loop_ends E (fun m h => three h /\ forall i, 0 <= i < m -> forall j, 0 <= j < 1024 -> okc i j)).
  - unfold REPETITIONS. lia.
  - split; [split; [apply Hstk|split; apply Hstk]|]. intros; lia.
  - intros i h Hi ((L0 & L1 & L2) & V). change REPETITIONS with 100 in Hi.
    destruct (RA i Hi) as [LA VA]. destruct (RB i Hi) as [LB VB]. destruct (RC i Hi) as [LC VC].
    destruct (Ha i Hi) as [LDa Ia]. destruct (Hb i Hi) as [LDb Ib].
    destruct (copy_poly_ok (h 0) (A i)) as (x & -> & Lx & Vx); [lia|lia|]. cbn [bind].
    rewrite hset_other by lia.
    destruct (copy_poly_ok (h 1) (B i)) as (y & -> & Ly & Vy); [lia|lia|]. cbn [bind].
    set (g := hset (hset h 0 x) 1 y).
    assert (G0 : g 0 = x) by (unfold g; rewrite hset_other by lia; apply hset_same).
    assert (G1 : g 1 = y) by (unfold g; apply hset_same).
    assert (G2 : g 2 = h 2) by (unfold g; rewrite !hset_other by lia; reflexivity).
    destruct (Hf g) as (g' & -> & (T0 & T1 & T2) & R).
    + unfold three. rewrite G0, G1, G2. lia.
    + rewrite G0. apply all_in_of. intros j Hj. rewrite Vx, VA by lia. apply (all_in_at _ _ _ j Ia). lia.
    + rewrite G1. apply all_in_of. intros j Hj. rewrite Vy, VB by lia. apply (all_in_at _ _ _ j Ib). lia.
    + cbn [bind]. assert (R' : forall j, 0 <= j < 1024 -> at_ (g' 2) j = negacyclic 1024 (at_ (da i)) (at_ (db i)) j mod Spec.Q).
      { intros j Hj. rewrite R by exact Hj. rewrite G0, G1.
        rewrite (nega_ext 1024 (at_ x) (at_ y) (at_ (da i)) (at_ (db i)) j Hj); [reflexivity| |].
        - intros m Hm. rewrite Vx, VA by lia. reflexivity.
        - intros m Hm. rewrite Vy, VB by lia. reflexivity. }
      clear R. apply (ends_bind E _ _ (fun _ => forall j, 0 <= j < 1024 -> okc i j)).
      * apply (loop_ends E (fun m (_ : unit) => forall j, 0 <= j < m -> okc i j)); [lia|intros; lia|].
        intros j _ Hj W. rewrite !rd_ok by lia. cbn [bind]. rewrite VC, R' by exact Hj.
        destruct (Z.eqb_spec (negacyclic 1024 (at_ (da i)) (at_ (db i)) j mod Spec.Q) (at_ (dc i) j)) as [Heq|Hne].
        -- cbn. intros m Hm. destruct (Z.eq_dec m j) as [->|]; [symmetry; exact Heq|apply W; lia].
        -- cbn. split; [reflexivity|]. exists i, j. split; [exact Hi|]. split; [exact Hj|]. intros H. apply Hne. symmetry. exact H.
      * intros _ W. cbn. split; [split; auto|]. intros m Hm j Hj. destruct (Z.eq_dec m i) as [->|]; [apply W, Hj|apply V; lia].
Qed.

Lemma kat_main_ends f1 f2 f3 f4 f5 : katf f1 -> katf f2 -> katf f3 -> katf f4 -> katf f5 ->
  ends E (kat_main da db dc stk f1 f2 f3 f4 f5) (fun v => v = 0 /\ right).
Proof.
  intros H1 H2 H3 H4 H5. unfold kat_main, build_kat.
  destruct (build_rows_ok da (fun i Hi => proj1 (Ha i Hi))) as (A & -> & RA). cbn [bind].
  destruct (build_rows_ok db (fun i Hi => proj1 (Hb i Hi))) as (B & -> & RB). cbn [bind].
  destruct (build_rows_ok dc Hc) as (C & -> & RC). cbn [bind].
  assert (G := fun f => test_kat_ends A B C f RA RB RC).
  apply (ends_bind E _ _ _ _ (G f1 H1)). intros _ _.
  apply (ends_bind E _ _ _ _ (G f2 H2)). intros _ _.
  apply (ends_bind E _ _ _ _ (G f3 H3)). intros _ _.
  apply (ends_bind E _ _ _ _ (G f4 H4)). intros _ _.
  apply (ends_bind E _ _ _ _ (G f5 H5)). intros _ R. cbn. auto.
Qed.

Lemma verdict m : ends E m (fun v => v = 0 /\ right) -> (m = Ok 0 <-> right) /\ (m = Err Exited <-> wrong).
Proof.
  assert (X : right -> wrong -> False) by (intros R (i & j & Hi & Hj & W); apply W, R; assumption).
  destruct m as [v|e]; cbn.
  - intros [-> R]. split; split; auto; [discriminate|]. intros W. destruct (X R W).
  - intros [-> W]. split; split; auto; [discriminate|]. intros R. destruct (X R W).
Qed.
End Verdict.

Lemma in5 {A} (P : A -> Prop) a b c d e : (forall f, In f [a; b; c; d; e] -> P f) -> P a /\ P b /\ P c /\ P d /\ P e.
Proof. intros H. repeat split; apply H; cbn; auto 10. Qed.

Lemma kat_mains_verdict_L :
  forall malloc T R da db dc stk, (forall n, 0 <= n -> zlen (malloc n) = n) ->
  make_tables malloc 1024 1014 = Ok (Written T) -> make_red_tables malloc 1024 1014 = Ok (Written R) ->
  (forall p, zlen (stk p) = 1024) ->
  (forall i, 0 <= i < 100 -> zlen (da i) = 1024 /\ all_in 0 (Spec.Q - 1) (da i)) ->
  (forall i, 0 <= i < 100 -> zlen (db i) = 1024 /\ all_in 0 (Spec.Q - 1) (db i)) ->
  (forall i, 0 <= i < 100 -> zlen (dc i) = 1024) ->
  forall m, In m [kat_mul1024_main da db dc stk T; kat_mul1024_red_main da db dc stk R; kat_mul1024_red_asm_main da db dc stk R] ->
  (m = Ok 0 <-> forall i j, 0 <= i < 100 -> 0 <= j < 1024 ->
     at_ (dc i) j = negacyclic 1024 (at_ (da i)) (at_ (db i)) j mod Spec.Q)
  /\ (m = Err Exited <-> exists i j, 0 <= i < 100 /\ 0 <= j < 1024 /\
     at_ (dc i) j <> negacyclic 1024 (at_ (da i)) (at_ (db i)) j mod Spec.Q).
Proof.
  intros malloc T R da db dc stk HM E1 E2 Hs Ha Hb Hc m HI. apply verdict.
  assert (PN := ntt_products_correct_L malloc 1024 1014 T HM E1).
  assert (PR := red_products_correct_L malloc 1024 1014 R false HM E2 ltac:(lia)).
  assert (PA := asm_products_correct_L malloc 1024 1014 R false HM E2 ltac:(lia)).
  assert (P1 := asm1024_product1_correct_L malloc R HM E2).
  destruct (red1024_ok malloc R HM E2) as [Hr HR].
  destruct (gen_tables _ _ _ _ HM E1) as (k & Hk & Hsz & Hroot & HT). apply log1024 in Hsz; [|lia]. subst k.
  apply in5 in PN, PR, PA.
  destruct PN as (N1 & N2 & N3 & N4 & N5). destruct PR as (R1 & R2 & R3 & R4 & R5). destruct PA as (_ & A2 & A3 & A4 & A5).
  destruct (quick2_default 10 1014 T Hk Hroot HT) as (D1 & D2 & D3 & D4 & D5).
  assert (K : 4 <= 10 <= 10) by lia.
  destruct HI as [<-|[<-|[<-|[]]]]; apply kat_main_ends; try assumption; apply katf_of; try assumption.
  - exact (quick2_repeatable _ (repeatable1 R Hr HR)).
  - exact (quick2_repeatable _ (repeatable2 R Hr HR)).
  - exact (quick2_repeatable _ (repeatable3 R Hr HR)).
  - exact (quick2_repeatable _ (repeatable4 R Hr HR)).
  - exact (quick2_repeatable _ (repeatable5 R Hr HR)).
  - exact (quick2_asm24 10 1014 R K HR).
  - exact (quick2_asm2 10 1014 R K HR false).
  - exact (quick2_asm3 10 1014 R K HR false).
  - exact (quick2_asm4 10 1014 R K HR false).
  - exact (quick2_asm5 10 1014 R K HR false).
Qed.

(** Data for the programs: a[i] = X^i, b[i] = X^1000. *)
Definition mono (i : Z) : list Z := repeat 0 (Z.to_nat i) ++ 1 :: repeat 0 (Z.to_nat (1023 - i)).
(** Their products: X^(1000+i) for i < 24, -X^(i-24) for the others. *)
Definition ex_rows (i : Z) : list Z :=
  if i <? 24 then mono (1000 + i) else repeat 0 (Z.to_nat (i - 24)) ++ 12288 :: repeat 0 (Z.to_nat (1047 - i)).
(** The same with one wrong sign, in the last row. *)
Definition ex_rows_wrong (i : Z) : list Z := if i =? 99 then mono 75 else ex_rows i.

Lemma len_at_one n v i j : 0 <= i < n -> 0 <= j < n ->
  let l := repeat 0 (Z.to_nat i) ++ v :: repeat 0 (Z.to_nat (n - 1 - i)) in
  zlen l = n /\ at_ l j = if j =? i then v else 0.
Proof.
  intros Hi Hj l. split.
  - unfold l, zlen. rewrite app_length. cbn [length]. rewrite !repeat_length. lia.
  - unfold l, at_. destruct (Z.eqb_spec j i) as [->|Hne].
    + rewrite app_nth2; rewrite repeat_length; [|lia]. rewrite Nat.sub_diag. reflexivity.
    + destruct (Z.ltb_spec j i).
      * rewrite app_nth1 by (rewrite repeat_length; lia). apply nth_repeat.
      * rewrite app_nth2; rewrite repeat_length; [|lia].
        replace (Z.to_nat j - Z.to_nat i)%nat with (S (Z.to_nat (j - i - 1))) by lia. cbn [nth]. apply nth_repeat.
Qed.

Lemma mono_spec i : 0 <= i < 1024 -> zlen (mono i) = 1024 /\ forall j, 0 <= j < 1024 -> at_ (mono i) j = if j =? i then 1 else 0.
Proof.
  intros Hi. assert (X := fun j Hj => len_at_one 1024 1 i j Hi Hj). unfold mono. change (1024 - 1 - i) with (1023 - i) in X.
  split; [exact (proj1 (X 0 ltac:(lia)))|]. intros j Hj. exact (proj2 (X j Hj)).
Qed.
Lemma mono_in i : 0 <= i < 1024 -> zlen (mono i) = 1024 /\ all_in 0 (Spec.Q - 1) (mono i).
Proof.
  intros Hi. destruct (mono_spec i Hi) as [L V]. split; [exact L|]. apply all_in_of. intros j Hj. rewrite L in Hj. rewrite V by exact Hj.
  unfold Spec.Q. destruct (j =? i); lia.
Qed.
Lemma ex_rows_spec i : 0 <= i < 100 -> zlen (ex_rows i) = 1024 /\ forall j, 0 <= j < 1024 ->
  at_ (ex_rows i) j = negacyclic 1024 (at_ (mono i)) (at_ (mono 1000)) j mod Spec.Q.
Proof.
  intros Hi. destruct (mono_spec i ltac:(lia)) as [Li Vi]. destruct (mono_spec 1000 ltac:(lia)) as [Lk Vk].
  assert (M := fun j Hj => negacyclic_monomials 1024 i 1000 (at_ (mono i)) (at_ (mono 1000)) j ltac:(lia) ltac:(lia) Hj Vi Vk).
  unfold eqQ in M. unfold ex_rows. destruct (Z.ltb_spec i 24).
  - destruct (mono_spec (1000 + i) ltac:(lia)) as [L V]. split; [exact L|]. intros j Hj. rewrite M, V by exact Hj.
    destruct (Z.leb_spec 1024 (i + 1000)); [lia|]. rewrite (Z.add_comm 1000 i). destruct (j =? i + 1000); reflexivity.
  - assert (X := fun j Hj => len_at_one 1024 12288 (i - 24) j ltac:(lia) Hj).
    replace (1024 - 1 - (i - 24)) with (1047 - i) in X by lia. split; [exact (proj1 (X 0 ltac:(lia)))|].
    intros j Hj. rewrite M by exact Hj. rewrite (proj2 (X j Hj)).
    destruct (Z.leb_spec 1024 (i + 1000)); [|lia]. replace (i + 1000 - 1024) with (i - 24) by lia.
    destruct (j =? i - 24); reflexivity.
Qed.
Lemma ex_rows_wrong_spec : (forall i, 0 <= i < 100 -> zlen (ex_rows_wrong i) = 1024)
  /\ at_ (ex_rows_wrong 99) 75 <> negacyclic 1024 (at_ (mono 99)) (at_ (mono 1000)) 75 mod Spec.Q.
Proof.
  split.
  - intros i Hi. unfold ex_rows_wrong. destruct (Z.eqb_spec i 99); [exact (proj1 (mono_spec 75 ltac:(lia)))|exact (proj1 (ex_rows_spec i Hi))].
  - rewrite <- (proj2 (ex_rows_spec 99 ltac:(lia)) 75 ltac:(lia)). vm_compute. discriminate.
Qed.
Lemma mono_ok i : 0 <= i < 100 -> zlen (mono i) = 1024 /\ all_in 0 (Spec.Q - 1) (mono i).
Proof. intros Hi. apply mono_in. lia. Qed.
Lemma mono1000_ok i : 0 <= i < 100 -> zlen (mono 1000) = 1024 /\ all_in 0 (Spec.Q - 1) (mono 1000).
Proof. intros _. apply mono_in. lia. Qed.
Lemma ex_rows_len i : 0 <= i < 100 -> zlen (ex_rows i) = 1024.
Proof. intros Hi. exact (proj1 (ex_rows_spec i Hi)). Qed.
Lemma ex_rows_right i j : 0 <= i < 100 -> 0 <= j < 1024 ->
  at_ (ex_rows i) j = negacyclic 1024 (at_ (mono i)) (at_ (mono 1000)) j mod Spec.Q.
Proof. intros Hi. exact (proj2 (ex_rows_spec i Hi) j). Qed.
Lemma ex_rows_differ : exists i j, 0 <= i < 100 /\ 0 <= j < 1024 /\
  at_ (ex_rows_wrong i) j <> negacyclic 1024 (at_ (mono i)) (at_ (mono 1000)) j mod Spec.Q.
Proof. exists 99, 75. split; [lia|]. split; [lia|exact (proj2 ex_rows_wrong_spec)]. Qed.
