(** Lemmas behind [PropKat]: the known-answer programs with any five functions. *)

From Coq Require Import ZArith List Bool Lia.
From Verif Require Import CSem Spec Loops HeapElem ModelTests SpeedFinal TestAvxElem ModelGen ModelProducts Exlib ExTables ProdFinal RingElem SpecRing
  FineRuns TestsRun TestsFinal IdealProd ModelSpeed SpeedFinal HarnessFinal AvxProdFinal ModelKat KatFinal SpecKat.
Import ListNotations.
Open Scope Z_scope.

Section Any.
Variables (da db dc : Z -> list Z) (stk : heap).
Hypothesis Ha : forall i, 0 <= i < 100 -> zlen (da i) = 1024 /\ all_in 0 (Spec.Q - 1) (da i).
Hypothesis Hb : forall i, 0 <= i < 100 -> zlen (db i) = 1024 /\ all_in 0 (Spec.Q - 1) (db i).
Hypothesis Hc : forall i, 0 <= i < 100 -> zlen (dc i) = 1024.
Hypothesis Hstk : forall p, zlen (stk p) = 1024.

Definition answers (F : list Z -> list Z -> list Z) : Prop := forall i, 0 <= i < 100 -> F (da i) (db i) = dc i.

Lemma eq_rows x A d i : rows d A -> 0 <= i < 100 -> zlen (d i) = 1024 -> zlen x = 1024 ->
  (forall j, 0 <= j < 1024 -> at_ x j = at_ (A i) j) -> x = d i.
Proof.
  intros R Hi Ld Lx V. apply Loops.list_ext; [lia|]. intros j Hj. rewrite V by lia. apply (proj2 (R i Hi)). lia.
Qed.

Lemma test_any A B C f F : rows da A -> rows db B -> rows dc C -> puts f F ->
  ends (fun e => e = Exited /\ ~ answers F) (test_mul_from_KAT_values stk (A, B, C) f) (fun _ => answers F).
Proof.
  intros RA RB RC Hf. unfold test_mul_from_KAT_values. set (E := fun e => e = Exited /\ ~ answers F).
  apply (ends_bind E _ _ (fun h => three h /\ answers F)); [|cbn; intros _ [_ H]; exact H].
  apply (loop_ends E (fun m h => three h /\ forall i, 0 <= i < m -> F (da i) (db i) = dc i)).
  - unfold REPETITIONS. lia.
  - split; [split; [apply Hstk|split; apply Hstk]|]. intros; lia.
  - intros i h Hi ((L0 & L1 & L2) & V). change REPETITIONS with 100 in Hi.
    destruct (RA i Hi) as [LA VA]. destruct (RB i Hi) as [LB VB]. destruct (RC i Hi) as [LC VC].
    destruct (Ha i Hi) as [LDa Ia]. destruct (Hb i Hi) as [LDb Ib].
    destruct (copy_poly_ok (h 0) (A i)) as (x & -> & Lx & Vx); [lia|lia|]. cbn [bind].
    rewrite hset_other by lia.
    destruct (copy_poly_ok (h 1) (B i)) as (y & -> & Ly & Vy); [lia|lia|]. cbn [bind].
    assert (x = da i) by (apply (eq_rows x A da i RA Hi LDa); [lia|exact Vx]). subst x.
    assert (y = db i) by (apply (eq_rows y B db i RB Hi LDb); [lia|exact Vy]). subst y.
    set (g := hset (hset h 0 (da i)) 1 (db i)).
    assert (G0 : g 0 = da i) by (unfold g; rewrite hset_other by lia; apply hset_same).
    assert (G1 : g 1 = db i) by (unfold g; apply hset_same).
    assert (G2 : g 2 = h 2) by (unfold g; rewrite !hset_other by lia; reflexivity).
    destruct (Hf g) as (g' & -> & T0 & T1 & T2 & R); [rewrite ?G0, ?G1, ?G2; assumption..|]. rewrite G0, G1 in R.
    cbn [bind]. rewrite R.
    assert (LF : zlen (F (da i) (db i)) = 1024) by (rewrite <- R; exact T2).
    apply (ends_bind E _ _ (fun _ => forall j, 0 <= j < 1024 -> at_ (F (da i) (db i)) j = at_ (dc i) j)).
    + apply (loop_ends E (fun m (_ : unit) => forall j, 0 <= j < m -> at_ (F (da i) (db i)) j = at_ (dc i) j)); [lia|intros; lia|].
      intros j _ Hj W. rewrite !rd_ok by lia. cbn [bind]. rewrite VC by exact Hj.
      destruct (Z.eqb_spec (at_ (F (da i) (db i)) j) (at_ (dc i) j)) as [Heq|Hne].
      * cbn. intros m Hm. destruct (Z.eq_dec m j) as [->|]; [exact Heq|apply W; lia].
      * cbn. split; [reflexivity|]. intros N. apply Hne. rewrite (N i Hi). reflexivity.
    + intros _ W. cbn. split; [split; [exact T0|split; [exact T1|exact T2]]|].
      intros m Hm. destruct (Z.eq_dec m i) as [->|]; [|apply V; lia].
      apply Loops.list_ext; [rewrite LF, (Hc i Hi); reflexivity|]. intros j Hj. apply W. lia.
Qed.

Lemma kat_main_decides_L f1 f2 f3 f4 f5 F1 F2 F3 F4 F5 :
  puts f1 F1 -> puts f2 F2 -> puts f3 F3 -> puts f4 F4 -> puts f5 F5 ->
  let m := kat_main da db dc stk f1 f2 f3 f4 f5 in
  (m = Ok 0 <-> forall F, In F [F1; F2; F3; F4; F5] -> forall i, 0 <= i < 100 -> F (da i) (db i) = dc i)
  /\ (m = Ok 0 \/ m = Err Exited).
Proof.
  intros H1 H2 H3 H4 H5. cbv zeta.
  set (good := forall F, In F [F1; F2; F3; F4; F5] -> forall i, 0 <= i < 100 -> F (da i) (db i) = dc i).
  set (E := fun e => e = Exited /\ ~ good).
  assert (X : ends E (kat_main da db dc stk f1 f2 f3 f4 f5) (fun v => v = 0 /\ good)).
  { unfold kat_main, build_kat.
    destruct (build_rows_ok da (fun i Hi => proj1 (Ha i Hi))) as (A & -> & RA). cbn [bind].
    destruct (build_rows_ok db (fun i Hi => proj1 (Hb i Hi))) as (B & -> & RB). cbn [bind].
    destruct (build_rows_ok dc Hc) as (C & -> & RC). cbn [bind].
    assert (G : forall f F, puts f F -> In F [F1; F2; F3; F4; F5] ->
      ends E (test_mul_from_KAT_values stk (A, B, C) f) (fun _ => answers F)).
    { intros f F Hf HI. assert (T := test_any A B C f F RA RB RC Hf).
      destruct (test_mul_from_KAT_values stk (A, B, C) f) as [u|e]; cbn in *; [exact T|].
      destruct T as [-> N]. split; [reflexivity|]. intros H. apply N. exact (H F HI). }
    apply (ends_bind E _ _ _ _ (G f1 F1 H1 ltac:(cbn; auto 10))). intros _ R1.
    apply (ends_bind E _ _ _ _ (G f2 F2 H2 ltac:(cbn; auto 10))). intros _ R2.
    apply (ends_bind E _ _ _ _ (G f3 F3 H3 ltac:(cbn; auto 10))). intros _ R3.
    apply (ends_bind E _ _ _ _ (G f4 F4 H4 ltac:(cbn; auto 10))). intros _ R4.
    apply (ends_bind E _ _ _ _ (G f5 F5 H5 ltac:(cbn; auto 10))). intros _ R5.
    split; [reflexivity|]. intros F HI. cbn in HI. destruct HI as [<-|[<-|[<-|[<-|[<-|[]]]]]]; assumption. }
  destruct (kat_main da db dc stk f1 f2 f3 f4 f5) as [v|e]; cbn in X.
  - destruct X as [-> G]. split; [split; auto|left; reflexivity].
  - destruct X as [-> N]. split; [|right; reflexivity]. split; [discriminate|]. intros G. destruct (N G).
Qed.
End Any.

(** The product of two polynomials, and functions that compute it, a wrong one among them *)
Definition times (a b : list Z) : list Z := table 1024 (fun j => negacyclic 1024 (at_ a) (at_ b) j mod Spec.Q).
Definition forgets (a b : list Z) : list Z := b.
Definition forget (h : heap) (c a b : Z) : res heap := Ok (hset h c (h b)).

Lemma forget_puts : puts forget forgets.
Proof.
  intros h L0 L1 L2 _ _. eexists. split; [reflexivity|]. rewrite !hset_same, !hset_other by lia. auto.
Qed.

Lemma puts_of f : katf f -> puts f times.
Proof.
  intros H h L0 L1 L2 I0 I1. destruct (H h (conj L0 (conj L1 L2)) I0 I1) as (h' & E & (T0 & T1 & T2) & R).
  exists h'. split; [exact E|]. split; [exact T0|]. split; [exact T1|]. split; [exact T2|].
  apply Loops.list_ext; [rewrite T2; unfold times; rewrite zlen_table by lia; reflexivity|].
  intros i Hi. rewrite T2 in Hi. unfold times. rewrite at_table by exact Hi. apply R, Hi.
Qed.

Lemma default_puts T : make_tables malloc77 1024 1014 = Ok (Written T) ->
  puts (ntt_product1 1024 T) times /\ puts (ntt_product2 1024 T) times /\ puts (ntt_product3 1024 T) times
  /\ puts (ntt_product4 1024 T) times /\ puts (ntt_product5 1024 T) times.
Proof.
  intros E1.
  assert (PN := ntt_products_correct_L malloc77 1024 1014 T malloc77_len E1).
  destruct (gen_tables _ _ _ _ malloc77_len E1) as (k & Hk & Hsz & Hroot & HT). apply log1024 in Hsz; [|lia]. subst k.
  apply in5 in PN. destruct PN as (N1 & N2 & N3 & N4 & N5).
  destruct (quick2_default 10 1014 T Hk Hroot HT) as (D1 & D2 & D3 & D4 & D5).
  split; [|split; [|split; [|split]]]; apply puts_of, katf_of; assumption.
Qed.

Lemma times_ex i : 0 <= i < 100 -> times (mono i) (mono 1000) = ex_rows i.
Proof.
  intros Hi. apply Loops.list_ext; [unfold times; rewrite zlen_table by lia; rewrite (ex_rows_len i Hi); reflexivity|].
  intros j Hj. unfold times in *. rewrite zlen_table in Hj by lia. rewrite at_table by exact Hj. symmetry. apply ex_rows_right; assumption.
Qed.
Lemma forgets_ex : forgets (mono 1) (mono 1000) <> ex_rows 1.
Proof. intros H. apply (f_equal (fun l => at_ l 1000)) in H. vm_compute in H. discriminate. Qed.
