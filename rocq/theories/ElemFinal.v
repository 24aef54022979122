(** Lemmas behind [PropElem]: the element-wise functions. *)

From Coq Require Import ZArith List Bool Lia.
From Verif Require Import CSem Spec Loops ModQ RedElem NttElem HeapElem.
From Verif Require ModelNtt ModelRed.
Import ListNotations.
Open Scope Z_scope.

Lemma all_in_i a lo hi n : all_in lo hi a -> n <= zlen a ->
  forall i, 0 <= i < n -> lo <= at_ a i <= hi.
Proof. intros H Hn i Hi. apply (all_in_at lo hi); auto. lia. Qed.

Lemma div_block z q : 4096 * q <= z < 4096 * q + 4096 -> z / 4096 = q.
Proof. intros H. symmetry. apply Z.div_unique with (r := z - 4096 * q); lia. Qed.

Lemma mul_red_facts x y : -8796042698752 <= x * y <= 2 ^ 43 - 1 ->
  eqQ (redz (x * y)) (3 * (x * y)) /\ - 2 ^ 31 <= redz (x * y) < 2 ^ 31
  /\ (0 <= x <= 12288 -> 0 <= y <= 12288 -> -36864 <= redz (x * y) <= 12285)
  /\ (-6144 <= x <= 6144 -> -6144 <= y <= 6144 -> -9216 <= redz (x * y) <= 21499).
Proof.
  intros H. split; [apply redz_cong|].
  change (2 ^ 43) with 8796093022208 in H.
  split.
  { unfold redz. assert (D := Z.div_mod (x * y) 4096 ltac:(lia)).
    assert (B := Z.mod_pos_bound (x * y) 4096 eq_refl). change (2 ^ 31) with 2147483648.
    lia. }
  split; intros Hx Hy.
  - assert (P : 0 <= x * y <= 150994944) by nia. apply redz_bounds in P. cbn in P. lia.
  - destruct (Z_le_gt_dec (-37740544) (x * y)) as [P|P].
    + assert (P' : -37740544 <= x * y <= 37748736) by nia. apply redz_bounds in P'. cbn in P'. lia.
    + (* only +-6144 * +-6144 and +-6144 * +-6143 are that small *)
      assert (X : x <= -6143 \/ 6143 <= x) by nia. assert (Y : y <= -6143 \/ 6143 <= y) by nia.
      assert (X' : x = -6144 \/ x = -6143 \/ x = 6143 \/ x = 6144) by lia.
      assert (Y' : y = -6144 \/ y = -6143 \/ y = 6143 \/ y = 6144) by lia.
      clear - X' Y'. destruct X' as [-> | [-> | [-> | ->]]], Y' as [-> | [-> | [-> | ->]]];
        vm_compute; split; congruence.
Qed.

Lemma reduce_array_correct_L :
  forall a n, 0 <= n < 2 ^ 32 -> n <= zlen a -> all_in (- 2 ^ 31) (2 ^ 31 - 1) a ->
  exists r, ModelRed.reduce_array a n = Ok r /\ zlen r = zlen a
    /\ (forall i, 0 <= i < n ->
          eqQ (at_ r i) (3 * at_ a i) /\ -524287 <= at_ r i <= 536573)
    /\ (forall i, n <= i < zlen a -> at_ r i = at_ a i).
Proof.
  intros a n Hn Hl Ha. assert (Hi := all_in_i _ _ _ _ Ha Hl). cbn in Hi.
  destruct (reduce_array_spec a n) as (r & E & HL & H1 & H2); auto.
  exists r. split; [exact E|]. split; [exact HL|]. split; [|exact H2].
  intros i I. rewrite H1 by auto. split; [apply redz_cong|apply redz_i32; auto].
Qed.

Lemma reduce_array_twice_correct_L :
  forall a n, 0 <= n < 2 ^ 32 -> n <= zlen a -> all_in (- 2 ^ 31) (2 ^ 31 - 1) a ->
  exists r, ModelRed.reduce_array_twice a n = Ok r /\ zlen r = zlen a
    /\ (forall i, 0 <= i < n ->
          eqQ (at_ r i) (9 * at_ a i) /\ -130 <= at_ r i <= 12413)
    /\ (forall i, n <= i < zlen a -> at_ r i = at_ a i).
Proof.
  intros a n Hn Hl Ha. assert (Hi := all_in_i _ _ _ _ Ha Hl). cbn in Hi.
  destruct (reduce_array_twice_spec a n) as (r & E & HL & H1 & H2); auto.
  exists r. split; [exact E|]. split; [exact HL|]. split; [|exact H2].
  intros i I. rewrite H1 by auto. split; [|apply redz_twice; auto].
  rewrite !redz_cong. replace (3 * (3 * at_ a i)) with (9 * at_ a i) by lia. reflexivity.
Qed.

Lemma reduce_array_twice_tight_L :
  exists x y, - 2 ^ 31 <= x < 2 ^ 31 /\ - 2 ^ 31 <= y < 2 ^ 31
    /\ ModelRed.reduce_array_twice [x; y] 2 = Ok [-130; 12413].
Proof.
  exists (-2147476821), 2147472724. vm_compute. repeat split; congruence.
Qed.

Lemma correct_canonical_L :
  forall a n, 0 <= n < 2 ^ 32 -> n <= zlen a -> all_in (- Q) (2 * Q - 1) a ->
  exists r, ModelRed.correct a n = Ok r /\ zlen r = zlen a
    /\ (forall i, 0 <= i < n -> at_ r i = at_ a i mod Q)
    /\ (forall i, n <= i < zlen a -> at_ r i = at_ a i).
Proof.
  intros a n Hn Hl Ha. assert (Hi := all_in_i _ _ _ _ Ha Hl). unfold Q in *.
  destruct (correct_spec a n) as (r & E & HL & H1 & H2); auto.
  exists r. auto.
Qed.

Lemma reduce_twice_correct_canonical_L :
  forall a n, 0 <= n < 2 ^ 32 -> n <= zlen a -> all_in (- 2 ^ 31) (2 ^ 31 - 1) a ->
  exists r, (do b <- ModelRed.reduce_array_twice a n; ModelRed.correct b n) = Ok r
    /\ zlen r = zlen a
    /\ (forall i, 0 <= i < n -> at_ r i = (9 * at_ a i) mod Q)
    /\ (forall i, n <= i < zlen a -> at_ r i = at_ a i).
Proof.
  intros a n Hn Hl Ha.
  destruct (reduce_array_twice_correct_L a n Hn Hl Ha) as (b & E & HL & H1 & H2).
  rewrite E. cbn [bind].
  destruct (correct_spec b n) as (r & E' & HL' & H1' & H2'); [exact Hn|lia| |].
  { intros i I. destruct (H1 i I) as [_ B]. lia. }
  exists r. split; [exact E'|]. split; [lia|]. split.
  - intros i I. rewrite H1' by auto. destruct (H1 i I) as [C _]. exact C.
  - intros i I. rewrite H2' by lia. apply H2; auto.
Qed.

Lemma normalize_canonical_L :
  forall a n, 0 <= n < 2 ^ 32 -> n <= zlen a -> all_in (- 2 ^ 31) (2 ^ 31 - 1) a ->
  exists r, ModelRed.normalize a n = Ok r /\ zlen r = zlen a
    /\ (forall i, 0 <= i < n -> at_ r i = at_ a i mod Q)
    /\ (forall i, n <= i < zlen a -> at_ r i = at_ a i).
Proof.
  intros a n Hn Hl Ha. assert (Hi := all_in_i _ _ _ _ Ha Hl). cbn in Hi.
  apply normalize_spec; auto.
Qed.

Lemma normalize_inv3_canonical_L :
  forall a n, 0 <= n < 2 ^ 32 -> n <= zlen a -> all_in (- 2 ^ 31) (2 ^ 31 - 1) a ->
  exists r, ModelRed.normalize_inv3 a n = Ok r /\ zlen r = zlen a
    /\ (forall i, 0 <= i < n -> 0 <= at_ r i < Q /\ eqQ (3 * at_ r i) (at_ a i))
    /\ (forall i, n <= i < zlen a -> at_ r i = at_ a i).
Proof.
  intros a n Hn Hl Ha. assert (Hi := all_in_i _ _ _ _ Ha Hl). cbn in Hi.
  destruct (normalize_inv3_spec a n) as (r & E & HL & H1 & H2); auto.
  exists r. split; [exact E|]. split; [exact HL|]. split; [|exact H2].
  intros i I. rewrite H1 by auto. split; [apply Z.mod_pos_bound; reflexivity|].
  rewrite eqQ_modn. replace (3 * (at_ a i * 8193)) with (3 * (8193 * at_ a i)) by lia. apply inv3.
Qed.

Lemma shift_array_centred_L :
  forall a n, 0 <= n < 2 ^ 32 -> n <= zlen a -> all_in 0 (Q - 1) a ->
  exists r, ModelRed.shift_array a n = Ok r /\ zlen r = zlen a
    /\ (forall i, 0 <= i < n -> -6144 <= at_ r i <= 6144 /\ eqQ (at_ r i) (at_ a i))
    /\ (forall i, n <= i < zlen a -> at_ r i = at_ a i).
Proof.
  intros a n Hn Hl Ha. assert (Hi := all_in_i _ _ _ _ Ha Hl). unfold Q in Hi.
  destruct (shift_array_spec a n) as (r & E & HL & H1 & H2); auto.
  { intros i I. specialize (Hi i I). lia. }
  exists r. split; [exact E|]. split; [exact HL|]. split; [|exact H2].
  intros i I. rewrite H1 by auto. specialize (Hi i I).
  destruct (Z.ltb_spec 6144 (at_ a i)); split; try lia; [|reflexivity].
  apply eqQ_iff. exists (-1). unfold Q. lia.
Qed.

Lemma mul_reduce_array16_correct_L :
  forall a n p, 0 <= n < 2 ^ 32 -> n <= zlen a -> n <= zlen p ->
  (forall i, 0 <= i < n -> -8796042698752 <= at_ a i * at_ p i <= 2 ^ 43 - 1) ->
  exists r, ModelRed.mul_reduce_array16 a n p = Ok r /\ zlen r = zlen a
    /\ (forall i, 0 <= i < n -> eqQ (at_ r i) (3 * (at_ a i * at_ p i))
          /\ - 2 ^ 31 <= at_ r i < 2 ^ 31
          /\ (0 <= at_ a i <= 12288 -> 0 <= at_ p i <= 12288 -> -36864 <= at_ r i <= 12285)
          /\ (-6144 <= at_ a i <= 6144 -> -6144 <= at_ p i <= 6144 -> -9216 <= at_ r i <= 21499))
    /\ (forall i, n <= i < zlen a -> at_ r i = at_ a i).
Proof.
  intros a n p Hn Hl Hp Ha.
  destruct (mul_reduce_array16_spec a n p) as (r & E & HL & H1 & H2); auto.
  exists r. split; [exact E|]. split; [exact HL|]. split; [|exact H2].
  intros i I. rewrite H1 by auto. apply mul_red_facts. apply Ha, I.
Qed.

Lemma mul_reduce_array_correct_L :
  forall h c n a b, 0 <= n < 2 ^ 32 -> n <= zlen (h c) -> n <= zlen (h a) -> n <= zlen (h b) ->
  (forall i, 0 <= i < n -> -8796042698752 <= at_ (h a) i * at_ (h b) i <= 2 ^ 43 - 1) ->
  exists h', ModelRed.mul_reduce_array_h h c n a b = Ok h' /\ zlen (h' c) = zlen (h c)
    /\ (forall i, 0 <= i < n -> eqQ (at_ (h' c) i) (3 * (at_ (h a) i * at_ (h b) i))
          /\ - 2 ^ 31 <= at_ (h' c) i < 2 ^ 31
          /\ (0 <= at_ (h a) i <= 12288 -> 0 <= at_ (h b) i <= 12288 ->
              -36864 <= at_ (h' c) i <= 12285)
          /\ (-6144 <= at_ (h a) i <= 6144 -> -6144 <= at_ (h b) i <= 6144 ->
              -9216 <= at_ (h' c) i <= 21499))
    /\ (forall i, n <= i < zlen (h c) -> at_ (h' c) i = at_ (h c) i)
    /\ (forall p, p <> c -> h' p = h p).
Proof.
  intros h c n a b Hn Hc Hl Hp Ha.
  destruct (mul_reduce_array_h_spec n h c a b) as (r & E & HL & H1 & H2 & H3); auto.
  exists r. split; [exact E|]. split; [exact HL|]. split; [|auto].
  intros i I. rewrite H1 by auto. apply mul_red_facts. apply Ha, I.
Qed.

Lemma scalar_mul_reduce_array_correct_L :
  forall a n c, 0 <= n < 2 ^ 32 -> n <= zlen a ->
  (forall i, 0 <= i < n -> -8796042698752 <= at_ a i * c <= 2 ^ 43 - 1) ->
  exists r, ModelRed.scalar_mul_reduce_array a n c = Ok r /\ zlen r = zlen a
    /\ (forall i, 0 <= i < n -> eqQ (at_ r i) (3 * (at_ a i * c))
          /\ - 2 ^ 31 <= at_ r i < 2 ^ 31
          /\ (0 <= at_ a i <= 12288 -> 0 <= c <= 12288 -> -36864 <= at_ r i <= 12285)
          /\ (-6144 <= at_ a i <= 6144 -> -6144 <= c <= 6144 -> -9216 <= at_ r i <= 21499))
    /\ (forall i, n <= i < zlen a -> at_ r i = at_ a i).
Proof.
  intros a n c Hn Hl Ha.
  destruct (scalar_mul_reduce_array_spec a n c) as (r & E & HL & H1 & H2); auto.
  exists r. split; [exact E|]. split; [exact HL|]. split; [|exact H2].
  intros i I. rewrite H1 by auto. apply mul_red_facts. apply Ha, I.
Qed.

Lemma mul_reduce_lower_end_tight_L :
  let z := -8796042698753 in
  3 * Z.land z 4095 - Z.shiftr z 12 > 2 ^ 31 - 1
  /\ (exists x y, - 2 ^ 31 <= x < 2 ^ 31 /\ - 2 ^ 31 <= y < 2 ^ 31 /\ x * y = z
        /\ ModelRed.scalar_mul_reduce_array [x] 1 y = Err AssertFail).
Proof.
  cbv zeta. split; [vm_compute; reflexivity|]. exists 104586551, (-84103).
  vm_compute. repeat split; congruence.
Qed.

Lemma mul_reduce_documented_upper_end_refuted_L :
  exists h c a b, zlen (h a) = 1 /\ zlen (h b) = 1 /\ zlen (h c) = 1
    /\ all_in (- 2 ^ 31) (2 ^ 31 - 1) (h a) /\ all_in (- 2 ^ 31) (2 ^ 31 - 1) (h b)
    /\ -8796042698752 <= at_ (h a) 0 * at_ (h b) 0 <= 8796093026303
    /\ ModelRed.mul_reduce_array_h h c 1 a b = Err SignedOverflow.
Proof.
  exists (fun p => if p =? 1 then [1073741824] else [8192]), 0, 1, 2.
  do 3 (split; [reflexivity|]).
  split; [intros v [<-|[]]; vm_compute; split; congruence|].
  split; [intros v [<-|[]]; vm_compute; split; congruence|].
  split; [vm_compute; split; congruence|]. vm_compute. reflexivity.
Qed.

Lemma mul_reduce_all_large_products_overflow_L :
  forall x y, 2 ^ 43 <= x * y <= 8796093026303 ->
  ModelRed.mul_reduce_array16 [x] 1 [y] = Err SignedOverflow.
Proof.
  intros x y H. change (2 ^ 43) with 8796093022208 in H.
  unfold ModelRed.mul_reduce_array16. cbn [cfor fuel Z.to_nat Pos.to_nat Pos.iter_op].
  change (0 <? 1) with true. cbv iota.
  rewrite (rd_ok [x] 0), (rd_ok [y] 0) by (unfold zlen; cbn; lia). cbn [bind].
  change (at_ [x] 0) with x. change (at_ [y] 0) with y.
  unfold ModelRed.mul_red. unfold mul64. rewrite i64_ok by lia. cbn [bind].
  replace ((-8796042698752 <=? x * y) && (x * y <=? 8796093026303)) with true by lia.
  cbn [cassert bind]. rewrite shiftr12, land4095.
  assert (D : x * y / 4096 = 2147483648) by (apply div_block; lia). rewrite D.
  change (to_i32 2147483648) with (-2147483648).
  assert (B := Z.mod_pos_bound (x * y) 4096 eq_refl).
  rewrite to_i32_small by lia. unfold mul32. rewrite i32_ok by lia. cbn [bind].
  unfold sub32, i32, in_i32.
  replace (3 * ((x * y) mod 4096) - -2147483648 <=? 2147483647) with false by lia.
  rewrite andb_false_r. reflexivity.
Qed.

Lemma modq_exact_L :
  (forall x, 0 <= x <= 254259408 -> ModelNtt.modq x = x mod Q)
  /\ ModelNtt.modq 254259409 <> 254259409 mod Q.
Proof.
  split; [intros x Hx; apply modq_ok; lia|]. vm_compute. congruence.
Qed.

Lemma mul_array16_exact_L :
  forall a n p, 0 <= n < 2 ^ 32 -> n <= zlen a -> n <= zlen p ->
  all_in 0 (Q - 1) a -> all_in 0 (Q - 1) p ->
  exists r, ModelNtt.mul_array16 a n p = Ok r /\ zlen r = zlen a
    /\ (forall i, 0 <= i < n -> at_ r i = (at_ a i * at_ p i) mod Q)
    /\ (forall i, n <= i < zlen a -> at_ r i = at_ a i).
Proof.
  intros a n p Hn Hl Hp Ha HP. assert (H1 := all_in_i _ _ _ _ Ha Hl).
  assert (H2 := all_in_i _ _ _ _ HP Hp). unfold Q in *.
  apply mul_array16_spec; auto. intros i I.
  assert (HM := mul_can (at_ a i) (at_ p i)). unfold can in HM.
  specialize (H1 i I). specialize (H2 i I). lia.
Qed.

Lemma mul_array_exact_L :
  forall h c n a b, 0 <= n < 2 ^ 32 -> n <= zlen (h c) -> n <= zlen (h a) -> n <= zlen (h b) ->
  all_in 0 (Q - 1) (h a) -> all_in 0 (Q - 1) (h b) ->
  exists h', ModelNtt.mul_array_h h c n a b = Ok h' /\ zlen (h' c) = zlen (h c)
    /\ (forall i, 0 <= i < n -> at_ (h' c) i = (at_ (h a) i * at_ (h b) i) mod Q)
    /\ (forall i, n <= i < zlen (h c) -> at_ (h' c) i = at_ (h c) i)
    /\ (forall p, p <> c -> h' p = h p).
Proof.
  intros h c n a b Hn Hc Hl Hp Ha HP. assert (H1 := all_in_i _ _ _ _ Ha Hl).
  assert (H2 := all_in_i _ _ _ _ HP Hp). unfold Q in *.
  apply mul_array_h_spec; auto. intros i I. unfold can.
  specialize (H1 i I). specialize (H2 i I). lia.
Qed.

Lemma scalar_mul_array_exact_L :
  forall a n c, 0 <= n < 2 ^ 32 -> n <= zlen a -> all_in 0 (Q - 1) a -> 0 <= c <= Q - 1 ->
  exists r, ModelNtt.scalar_mul_array a n c = Ok r /\ zlen r = zlen a
    /\ (forall i, 0 <= i < n -> at_ r i = (at_ a i * c) mod Q)
    /\ (forall i, n <= i < zlen a -> at_ r i = at_ a i).
Proof.
  intros a n c Hn Hl Ha HP. assert (H1 := all_in_i _ _ _ _ Ha Hl). unfold Q in *.
  apply scalar_mul_array_spec; auto. intros i I.
  assert (HM := mul_can (at_ a i) c). unfold can in HM. specialize (H1 i I). lia.
Qed.

Lemma reciprocal_constants_L :
  forall k K, In (k, K)
    [(41, 178942409); (42, 357884817); (43, 715769634); (44, 1431539267); (45, 2863078533)] ->
  forall x, 0 <= x <= (Q - 1) ^ 2 -> x * K / 2 ^ k = x / Q.
Proof.
  intros k K HIn x Hx. change ((Q - 1) ^ 2) with 150994944 in Hx. unfold Q.
  assert (D := Z.div_mod x 12289 ltac:(lia)). assert (B := Z.mod_pos_bound x 12289 eq_refl).
  set (d := x / 12289) in *. set (r := x mod 12289) in *.
  cbn [In] in HIn.
  destruct HIn as [H|[H|[H|[H|[H|[]]]]]]; injection H as <- <-;
    match goal with |- ?a / ?b = _ =>
      let v := eval vm_compute in b in change b with v;
      symmetry; apply Z.div_unique_pos with (r := a - v * d); lia
    end.
Qed.

Lemma add_mod_sub_mod_exact_L :
  forall x y, 0 <= x <= Q - 1 -> 0 <= y <= Q - 1 ->
  ModelNtt.add_mod x y = Ok ((x + y) mod Q) /\ ModelNtt.sub_mod x y = Ok ((x - y) mod Q).
Proof.
  intros x y Hx Hy. unfold Q in *. split; [apply add_mod_ok|apply sub_mod_ok]; unfold can; lia.
Qed.

(** Data of the examples in PropElem. *)
Definition ex_heap : heap := fun p =>
  if p =? 1 then [6144; -6144; 100; 7] else if p =? 2 then [-6143; -6144; 200; 8] else [0; 0; 0; 9].
