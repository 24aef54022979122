(** Element-wise products of two arrays of the heap: [mul_array],
    [mul_array_naive], [mul_reduce_array], with any aliasing of the arguments. *)

From Coq Require Import ZArith List Bool Lia.
From Verif Require Import CSem Spec Loops ModQ RedElem NttElem NaiveElem.
From Verif Require ModelNtt ModelRed ModelNaive.
Import ListNotations.
Open Scope Z_scope.

Definition zip_body (f : Z -> Z -> res Z) (c a b i : Z) (h : heap) : res heap :=
  do x <- rd (h a) i;
  do y <- rd (h b) i;
  do v <- f x y;
  do l <- wr (h c) i v;
  Ok (hset h c l).

Lemma hset_same h p l : hset h p l p = l.
Proof. unfold hset. rewrite Z.eqb_refl. reflexivity. Qed.
Lemma hset_other h p l x : x <> p -> hset h p l x = h x.
Proof. unfold hset. intros. destruct (Z.eqb_spec x p); congruence. Qed.

Lemma zip_h f n h c a b g :
  0 <= n < 4294967296 -> n <= zlen (h c) -> n <= zlen (h a) -> n <= zlen (h b) ->
  (forall i, 0 <= i < n -> f (at_ (h a) i) (at_ (h b) i) = Ok (g i)) ->
  exists h', cfor (fuel n) 0 (fun i => i <? n) (fun i => u32 (i + 1)) (zip_body f c a b) h = Ok h'
    /\ zlen (h' c) = zlen (h c)
    /\ (forall i, 0 <= i < n -> at_ (h' c) i = g i)
    /\ (forall i, n <= i < zlen (h c) -> at_ (h' c) i = at_ (h c) i)
    /\ (forall p, p <> c -> h' p = h p).
Proof.
  intros Hn Hc Ha Hb Hf.
  destruct (cfor_count (fun m h' => zlen (h' c) = zlen (h c)
      /\ (forall i, 0 <= i < m -> at_ (h' c) i = g i)
      /\ (forall i, m <= i < zlen (h c) -> at_ (h' c) i = at_ (h c) i)
      /\ (forall p, p <> c -> h' p = h p))
    n (fun c => c) (fun i => i <? n) (fun i => u32 (i + 1)) (zip_body f c a b))
    with (f := fuel n) (i0 := 0) (st := h) as (h' & Hr & H).
  - lia.
  - intros. lia.
  - lia.
  - intros. apply u32_small. lia.
  - intros m h' Hm (HL & H1 & H2 & H3).
    assert (EL : forall p, zlen (h' p) = zlen (h p)).
    { intros p. destruct (Z.eq_dec p c) as [->|]; [exact HL|rewrite H3 by auto; reflexivity]. }
    assert (E : forall p, m < zlen (h p) -> at_ (h' p) m = at_ (h p) m).
    { intros p Hp. destruct (Z.eq_dec p c) as [->|]; [apply H2; lia|rewrite H3 by auto; reflexivity]. }
    unfold zip_body. rewrite !rd_ok by (rewrite EL; lia). cbn [bind].
    rewrite !E by lia. rewrite Hf by lia. cbn [bind].
    rewrite wr_ok by (rewrite EL; lia). cbn [bind].
    eexists. split; [reflexivity|]. rewrite hset_same, aset_len. split; [exact HL|].
    split; [|split].
    + intros i Hi. destruct (Z.eq_dec i m) as [->|].
      * rewrite at_aset_same by lia. reflexivity.
      * rewrite at_aset_other by lia. apply H1. lia.
    + intros i Hi. rewrite at_aset_other by lia. apply H2. lia.
    + intros p Hp. rewrite hset_other by auto. auto.
  - reflexivity.
  - unfold fuel. lia.
  - split; [reflexivity|]. split; [intros; lia|]. auto.
  - eauto.
Qed.

Lemma mul_array_h_spec n h c a b :
  0 <= n < 4294967296 -> n <= zlen (h c) -> n <= zlen (h a) -> n <= zlen (h b) ->
  (forall i, 0 <= i < n -> can (at_ (h a) i) /\ can (at_ (h b) i)) ->
  exists h', ModelNtt.mul_array_h h c n a b = Ok h' /\ zlen (h' c) = zlen (h c)
    /\ (forall i, 0 <= i < n -> at_ (h' c) i = (at_ (h a) i * at_ (h b) i) mod 12289)
    /\ (forall i, n <= i < zlen (h c) -> at_ (h' c) i = at_ (h c) i)
    /\ (forall p, p <> c -> h' p = h p).
Proof.
  intros Hn Hc Ha Hb Hr.
  destruct (zip_h (fun x y => do z <- mul32 x y; Ok (ModelNtt.modq z)) n h c a b
     (fun i => (at_ (h a) i * at_ (h b) i) mod 12289)) as (h' & E & H); auto.
  - intros i Hi. destruct (Hr i Hi) as [H1 H2]. assert (HM := mul_can _ _ H1 H2).
    unfold mul32. rewrite i32_ok by lia. cbn [bind]. rewrite modq_ok by lia. reflexivity.
  - exists h'. split; [|exact H]. rewrite <- E. unfold ModelNtt.mul_array_h.
    apply cfor_ext; auto. intros i s. unfold zip_body.
    destruct (rd (s a) i); cbn [bind]; [|reflexivity].
    destruct (rd (s b) i); cbn [bind]; [|reflexivity].
    match goal with |- context [mul32 ?x ?y] => destruct (mul32 x y) end; reflexivity.
Qed.

Lemma mul_array_naive_h_spec n h c a b :
  0 <= n < 4294967296 -> n <= zlen (h c) -> n <= zlen (h a) -> n <= zlen (h b) ->
  (forall i, 0 <= i < n -> can1 (at_ (h a) i) /\ can1 (at_ (h b) i)) ->
  exists h', ModelNaive.mul_array_naive_h h c n a b 12289 = Ok h' /\ zlen (h' c) = zlen (h c)
    /\ (forall i, 0 <= i < n -> at_ (h' c) i = Z.rem (at_ (h a) i * at_ (h b) i) 12289)
    /\ (forall i, n <= i < zlen (h c) -> at_ (h' c) i = at_ (h c) i)
    /\ (forall p, p <> c -> h' p = h p).
Proof.
  intros Hn Hc Ha Hb Hr.
  destruct (zip_h (fun x y => do z <- mul32 x y; rem32 z 12289) n h c a b
     (fun i => Z.rem (at_ (h a) i * at_ (h b) i) 12289)) as (h' & E & H); auto.
  - intros i Hi. destruct (Hr i Hi) as [H1 H2]. assert (HM := mul_can1 _ _ H1 H2).
    unfold mul32. rewrite i32_ok by lia. cbn [bind]. apply rem32_ok.
  - exists h'. split; [|exact H]. rewrite <- E. unfold ModelNaive.mul_array_naive_h.
    apply cfor_ext; auto. intros i s. unfold zip_body.
    destruct (rd (s a) i); cbn [bind]; [|reflexivity].
    destruct (rd (s b) i); cbn [bind]; [|reflexivity].
    match goal with |- context [mul32 ?x ?y] => destruct (mul32 x y) end; cbn [bind]; reflexivity.
Qed.

Lemma mul_reduce_array_h_spec n h c a b :
  0 <= n < 4294967296 -> n <= zlen (h c) -> n <= zlen (h a) -> n <= zlen (h b) ->
  (forall i, 0 <= i < n -> mulrange (at_ (h a) i * at_ (h b) i)) ->
  exists h', ModelRed.mul_reduce_array_h h c n a b = Ok h' /\ zlen (h' c) = zlen (h c)
    /\ (forall i, 0 <= i < n -> at_ (h' c) i = redz (at_ (h a) i * at_ (h b) i))
    /\ (forall i, n <= i < zlen (h c) -> at_ (h' c) i = at_ (h c) i)
    /\ (forall p, p <> c -> h' p = h p).
Proof.
  intros Hn Hc Ha Hb Hr.
  apply (zip_h ModelRed.mul_red n h c a b (fun i => redz (at_ (h a) i * at_ (h b) i))); auto.
  intros i Hi. apply mul_red_ok. apply Hr. exact Hi.
Qed.
