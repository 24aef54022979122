(** Proofs about src/test_mod.c (property C69). *)

From Coq Require Import ZArith List Bool Lia.
From Verif Require Import CSem ModelTestMod.
Import ListNotations.
Open Scope Z_scope.

(** ** Searching loops *)

Lemma search_up_hit f x0 F more next bad :
  0 <= F - x0 < Z.of_nat f ->
  (forall x, x0 <= x <= F -> more x = true) ->
  (forall x, x0 <= x < F -> next x = Ok (x + 1)) ->
  (forall x, x0 <= x < F -> bad x = Ok false) ->
  bad F = Ok true ->
  search f x0 more next bad = Ok (true, F).
Proof.
  revert x0; induction f as [|f IH]; intros x0 Hf Hm Hn Hb HF; [lia|].
  cbn [search]. rewrite Hm by lia.
  destruct (Z.eq_dec x0 F) as [->|Hne].
  - rewrite HF; reflexivity.
  - rewrite Hb by lia; cbn [bind]. rewrite Hn by lia; cbn [bind].
    apply IH; [lia| | | |assumption]; intros x Hx.
    + apply Hm; lia.
    + apply Hn; lia.
    + apply Hb; lia.
Qed.

Lemma search_up_err f x0 F more next bad e :
  0 <= F - x0 < Z.of_nat f ->
  (forall x, x0 <= x <= F -> more x = true) ->
  (forall x, x0 <= x < F -> next x = Ok (x + 1)) ->
  (forall x, x0 <= x < F -> bad x = Ok false) ->
  bad F = Err e ->
  search f x0 more next bad = Err e.
Proof.
  revert x0; induction f as [|f IH]; intros x0 Hf Hm Hn Hb HF; [lia|].
  cbn [search]. rewrite Hm by lia.
  destruct (Z.eq_dec x0 F) as [->|Hne].
  - rewrite HF; reflexivity.
  - rewrite Hb by lia; cbn [bind]. rewrite Hn by lia; cbn [bind].
    apply IH; [lia| | | |assumption]; intros x Hx.
    + apply Hm; lia.
    + apply Hn; lia.
    + apply Hb; lia.
Qed.

Lemma search_up_none f x0 F more next bad :
  0 <= F - x0 < Z.of_nat f ->
  (forall x, x0 <= x < F -> more x = true) ->
  more F = false ->
  (forall x, x0 <= x < F -> next x = Ok (x + 1)) ->
  (forall x, x0 <= x < F -> bad x = Ok false) ->
  search f x0 more next bad = Ok (false, F).
Proof.
  revert x0; induction f as [|f IH]; intros x0 Hf Hm HF Hn Hb; [lia|].
  cbn [search].
  destruct (Z.eq_dec x0 F) as [->|Hne].
  - rewrite HF; reflexivity.
  - rewrite Hm by lia. rewrite Hb by lia; cbn [bind]. rewrite Hn by lia; cbn [bind].
    apply IH; [lia| |assumption| |]; intros x Hx.
    + apply Hm; lia.
    + apply Hn; lia.
    + apply Hb; lia.
Qed.

Lemma search_down_err f x0 F more next bad e :
  0 <= x0 - F < Z.of_nat f ->
  (forall x, F <= x <= x0 -> more x = true) ->
  (forall x, F < x <= x0 -> next x = Ok (x - 1)) ->
  (forall x, F < x <= x0 -> bad x = Ok false) ->
  bad F = Err e ->
  search f x0 more next bad = Err e.
Proof.
  revert x0; induction f as [|f IH]; intros x0 Hf Hm Hn Hb HF; [lia|].
  cbn [search]. rewrite Hm by lia.
  destruct (Z.eq_dec x0 F) as [->|Hne].
  - rewrite HF; reflexivity.
  - rewrite Hb by lia; cbn [bind]. rewrite Hn by lia; cbn [bind].
    apply IH; [lia| | | |assumption]; intros x Hx.
    + apply Hm; lia.
    + apply Hn; lia.
    + apply Hb; lia.
Qed.

Lemma fuel_of n : 0 <= n -> Z.of_nat (fuel n) = n + 1.
Proof. intros H; unfold fuel; rewrite Nat2Z.inj_succ, Z2Nat.id; lia. Qed.

(** ** The approximation of 1/Q *)

(** What 2^n/Q + 1 exceeds 2^n/Q by, times Q *)
Definition excess (n : Z) : Z := (2 ^ n / Q + 1) * Q - 2 ^ n.

(** The quotient is right as long as the excess is small *)
Lemma quotient_ok D e p x :
  0 < D -> p * Q = D + e -> 0 <= (x mod Q) * D + x * e < Q * D ->
  (x * p) / D = x / Q.
Proof.
  intros HD Hp Hx. unfold Q in *.
  symmetry. apply Z.div_unique with (x * p - D * (x / 12289)); [|lia].
  left. pose proof (Z.div_mod x 12289 ltac:(lia)) as E.
  assert (12289 * (x * p - D * (x / 12289)) = (x mod 12289) * D + x * e) by nia.
  nia.
Qed.

Lemma quotient_less D e p x :
  0 < D -> p * Q = D + e -> - (Q * D) <= (x mod Q) * D + x * e < 0 ->
  (x * p) / D = x / Q - 1.
Proof.
  intros HD Hp Hx. unfold Q in *.
  symmetry. apply Z.div_unique with (x * p - D * (x / 12289 - 1)); [|lia].
  left. pose proof (Z.div_mod x 12289 ltac:(lia)) as E.
  assert (12289 * (x * p - D * (x / 12289)) = (x mod 12289) * D + x * e) by nia.
  nia.
Qed.

(** Below the first failure F the excess is small *)
Lemma small_below D e F x :
  0 < D -> 0 <= e -> F mod Q = Q - 1 -> (F - 1) * e < 2 * D -> (F - Q) * e < D ->
  0 <= x < F ->
  0 <= (x mod Q) * D + x * e < Q * D.
Proof.
  intros HD He HF H1 H2 Hx. unfold Q in *.
  pose proof (Z.mod_pos_bound x 12289 ltac:(lia)) as B.
  split; [nia|].
  destruct (Z.eq_dec (x mod 12289) 12288) as [E|E].
  - assert (x <= F - 12289).
    { pose proof (Z.div_mod x 12289 ltac:(lia)). pose proof (Z.div_mod F 12289 ltac:(lia)). lia. }
    rewrite E. nia.
  - assert (x mod 12289 <= 12287) by lia.
    assert (x * e <= (F - 1) * e) by nia.
    assert ((x mod 12289) * D <= 12287 * D) by nia. lia.
Qed.

Lemma small_flat D e L x :
  0 < D -> 0 <= e -> L * e < D -> 0 <= x <= L ->
  0 <= (x mod Q) * D + x * e < Q * D.
Proof.
  intros HD He H1 Hx. unfold Q in *.
  pose proof (Z.mod_pos_bound x 12289 ltac:(lia)) as B. nia.
Qed.

(** ** Unsigned approximation *)

Lemma approx_modq_ok n e p x :
  30 <= n <= 45 -> approx_qinv n = p -> p * Q = 2 ^ n + e -> 0 <= p < 4294967296 ->
  0 <= x < 4294967296 ->
  0 <= (x mod Q) * 2 ^ n + x * e < Q * 2 ^ n ->
  approx_modq x n = x mod Q.
Proof.
  intros Hn Hq Hp Hr Hx Hs.
  assert (HD : 0 < 2 ^ n) by (apply Z.pow_pos_nonneg; lia).
  unfold approx_modq, approx_divq. rewrite Hq.
  unfold u64. rewrite (Z.mod_small (x * p)) by nia.
  rewrite Z.shiftr_div_pow2 by lia.
  rewrite (quotient_ok _ e) by assumption.
  unfold u32. unfold Q in *.
  pose proof (Z.div_mod x 12289 ltac:(lia)) as E.
  pose proof (Z.mod_pos_bound x 12289 ltac:(lia)) as B.
  assert (0 <= x / 12289 <= x) by (split; [apply Z.div_pos; lia|apply Z.div_le_upper_bound; lia]).
  rewrite (Z.mod_small (x / 12289)) by lia.
  rewrite (Z.mod_small (x / 12289 * 12289)) by lia.
  rewrite Z.mod_small; lia.
Qed.

Lemma approx_modq_below n F :
  30 <= n <= 45 ->
  (let e := excess n in
   (approx_qinv n =? 2 ^ n / Q + 1) && (2 ^ n / Q + 1 <? 4294967296) && (F mod Q =? Q - 1) && (0 <=? e)
   && ((F - 1) * e <? 2 * 2 ^ n) && ((F - Q) * e <? 2 ^ n)) = true ->
  forall x, 0 <= x < F -> x < 4294967296 -> approx_modq x n = x mod Q.
Proof.
  intros Hn H x Hx Hx'. cbv zeta in H.
  rewrite !andb_true_iff, !Z.leb_le, !Z.ltb_lt, !Z.eqb_eq in H.
  destruct H as (((((H1 & H2) & H3) & H4) & H5) & H6).
  assert (HD : 0 < 2 ^ n) by (apply Z.pow_pos_nonneg; lia).
  apply approx_modq_ok with (e := excess n) (p := 2 ^ n / Q + 1); try lia.
  - unfold excess; ring.
  - assert (0 <= 2 ^ n / Q) by (apply Z.div_pos; unfold Q; lia). lia.
  - apply small_below with F; assumption.
Qed.

Lemma approx_modq_flat n L :
  30 <= n <= 45 ->
  (let e := excess n in
   (approx_qinv n =? 2 ^ n / Q + 1) && (2 ^ n / Q + 1 <? 4294967296) && (0 <=? e) && (L * e <? 2 ^ n)) = true ->
  forall x, 0 <= x <= L -> x < 4294967296 -> approx_modq x n = x mod Q.
Proof.
  intros Hn H x Hx Hx'. cbv zeta in H.
  rewrite !andb_true_iff, !Z.leb_le, !Z.ltb_lt, !Z.eqb_eq in H.
  destruct H as (((H1 & H2) & H4) & H6).
  assert (HD : 0 < 2 ^ n) by (apply Z.pow_pos_nonneg; lia).
  apply approx_modq_ok with (e := excess n) (p := 2 ^ n / Q + 1); try lia.
  - unfold excess; ring.
  - assert (0 <= 2 ^ n / Q) by (apply Z.div_pos; unfold Q; lia). lia.
  - apply small_flat with L; assumption.
Qed.

(** 46 and above: the 32-bit qinv is truncated *)
Lemma approx_modq_small n x :
  46 <= n <= 49 -> 0 <= x < Q -> approx_modq x n = x mod Q.
Proof.
  intros Hn Hx. unfold Q in Hx.
  assert (HD : 2 ^ 46 <= 2 ^ n) by (apply Z.pow_le_mono_r; lia).
  unfold approx_modq, approx_divq.
  assert (Hq : 0 <= approx_qinv n < 4294967296) by (apply Z.mod_pos_bound; lia).
  unfold u64. rewrite (Z.mod_small (x * _)) by nia.
  rewrite Z.shiftr_div_pow2 by lia.
  rewrite Z.div_small.
  - unfold u32, Q. change (0 mod 4294967296) with 0. rewrite Z.mul_0_l, Z.sub_0_r, !Z.mod_small by lia. reflexivity.
  - change (2 ^ 46) with 70368744177664 in HD. nia.
Qed.

(** First failure of the unsigned approximation, n = 30..44 *)
Definition first_failure (n : Z) : Z :=
  match n with
  | 30 => 122889
  | 31 => 319513
  | 32 | 33 | 34 | 35 => 3219717
  | 36 => 7557734
  | 37 | 38 => 23238498
  | 39 => 48320347
  | 40 => 105034082
  | 41 => 254259409
  | 42 | 43 => 878036760
  | 44 => 2270847442
  | _ => Q
  end.

Ltac each n H :=
  match type of H with
  | ?lo <= n <= ?hi =>
      let D := fresh "D" in
      assert (D : n = lo \/ lo + 1 <= n <= hi) by lia;
      let l := eval vm_compute in (lo + 1) in
      change (lo + 1) with l in D;
      clear H; destruct D as [D|H]; [subst n| tryif (assert (l <= hi) by (vm_compute; discriminate)) then each n H else (exfalso; lia)]
  end.

Lemma approx_modq_first n x :
  30 <= n <= 44 -> 0 <= x < first_failure n -> approx_modq x n = x mod Q.
Proof.
  intros Hn Hx.
  assert (first_failure n < 4294967296) by (clear Hx; each n Hn; vm_compute; reflexivity).
  assert (x < 4294967296) by lia.
  apply approx_modq_below with (first_failure n); [lia| |assumption|assumption].
  clear - Hn; each n Hn; vm_compute; reflexivity.
Qed.

Lemma approx_modq_fails n :
  30 <= n <= 44 -> approx_modq (first_failure n) n <> (first_failure n) mod Q.
Proof. intros Hn. each n Hn; vm_compute; discriminate. Qed.

Lemma approx_modq_45 x : 0 <= x < 4294967296 -> approx_modq x 45 = x mod Q.
Proof.
  intros Hx. apply approx_modq_flat with 4294967296; [lia|vm_compute; reflexivity|lia|lia].
Qed.

Lemma test_approx_fails n F :
  0 <= F <= 150994944 ->
  (forall x, 0 <= x < F -> approx_modq x n = x mod Q) ->
  approx_modq F n <> F mod Q ->
  test_approx n = Ok (Some F).
Proof.
  intros HF Hb Hf. unfold test_approx.
  rewrite search_up_hit with (F := F).
  - reflexivity.
  - rewrite fuel_of; change ((Q - 1) * (Q - 1)) with 150994944; lia.
  - intros x Hx. apply Z.leb_le. change ((Q - 1) * (Q - 1)) with 150994944; lia.
  - intros x Hx. unfold u32. rewrite Z.mod_small by lia. reflexivity.
  - intros x Hx. rewrite Hb by lia. rewrite Z.eqb_refl. reflexivity.
  - apply Z.eqb_neq in Hf. rewrite Hf. reflexivity.
Qed.

Lemma test_approx_works n :
  (forall x, 0 <= x <= 150994944 -> approx_modq x n = x mod Q) ->
  test_approx n = Ok None.
Proof.
  intros Hb. unfold test_approx.
  rewrite search_up_none with (F := 150994945).
  - reflexivity.
  - rewrite fuel_of; change ((Q - 1) * (Q - 1)) with 150994944; lia.
  - intros x Hx. apply Z.leb_le. change ((Q - 1) * (Q - 1)) with 150994944; lia.
  - reflexivity.
  - intros x Hx. unfold u32. rewrite Z.mod_small by lia. reflexivity.
  - intros x Hx. rewrite Hb by lia. rewrite Z.eqb_refl. reflexivity.
Qed.

(** What test_approx reports for n = 30..49 *)
Definition approx_report (n : Z) : option Z :=
  if (41 <=? n) && (n <=? 45) then None else Some (first_failure n).

Lemma test_approx_report n : 30 <= n <= 49 -> test_approx n = Ok (approx_report n).
Proof.
  intros Hn.
  destruct (Z_le_gt_dec n 40).
  { assert (Hn' : 30 <= n <= 40) by lia. unfold approx_report.
    replace ((41 <=? n) && (n <=? 45)) with false
      by (symmetry; apply andb_false_intro1; apply Z.leb_gt; lia).
    apply test_approx_fails.
    - clear Hn l. each n Hn'; cbv; split; discriminate.
    - intros x Hx. apply approx_modq_first; [lia|assumption].
    - apply approx_modq_fails; lia. }
  destruct (Z_le_gt_dec n 45).
  { unfold approx_report.
    replace ((41 <=? n) && (n <=? 45)) with true
      by (symmetry; apply andb_true_intro; split; apply Z.leb_le; lia).
    apply test_approx_works. intros x Hx.
    destruct (Z.eq_dec n 45) as [->|]; [apply approx_modq_45; lia|].
    apply approx_modq_first; [lia|].
    assert (Hn' : 41 <= n <= 44) by lia. clear - Hn' Hx. split; [lia|].
    assert (150994944 < first_failure n) by (each n Hn'; vm_compute; reflexivity). lia. }
  unfold approx_report.
  replace ((41 <=? n) && (n <=? 45)) with false
    by (symmetry; apply andb_false_intro2; apply Z.leb_gt; lia).
  assert (Hn' : 46 <= n <= 49) by lia.
  apply test_approx_fails.
  - assert (first_failure n = Q) as -> by (clear - Hn'; each n Hn'; reflexivity). unfold Q; lia.
  - intros x Hx. apply approx_modq_small; [lia|].
    assert (first_failure n = Q) as E by (clear - Hn'; each n Hn'; reflexivity). rewrite E in Hx. assumption.
  - clear - Hn'. each n Hn'; vm_compute; discriminate.
Qed.

Lemma test_all_approx_eq :
  test_all_approx = Ok (map (fun n => (n, approx_qinv n, approx_report n)) (map (fun k => 30 + Z.of_nat k) (seq 0 20))).
Proof.
  unfold test_all_approx.
  set (f := fun (n : Z) (out : list (Z * Z * option Z)) => do v <- test_approx n; Ok (out ++ [(n, approx_qinv n, v)])).
  assert (Hf : forall n out, 30 <= n <= 49 -> f n out = Ok (out ++ [(n, approx_qinv n, approx_report n)])).
  { intros n out Hn. unfold f. rewrite test_approx_report by assumption. reflexivity. }
  clearbody f.
  change (fuel 20) with 21%nat.
  assert (H : forall k m out, Z.of_nat k = 50 - m -> 30 <= m <= 50 ->
    cfor (S k) m (fun n => n <? 50) (fun n => u32 (n + 1)) f out
    = Ok (out ++ map (fun n => (n, approx_qinv n, approx_report n)) (map (fun i => m + Z.of_nat i) (seq 0 k)))).
  { induction k as [|k IH]; intros m out Hk Hm.
    - cbn [cfor]. replace (m <? 50) with false by (symmetry; apply Z.ltb_ge; lia). cbn. rewrite app_nil_r. reflexivity.
    - remember (S k) as k1. cbn [cfor]. subst k1. replace (m <? 50) with true by (symmetry; apply Z.ltb_lt; lia).
      rewrite Hf by lia. cbn [bind]. unfold u32. rewrite Z.mod_small by lia.
      change (fun n : Z => u32 (n + 1)) with (fun n : Z => (n + 1) mod 4294967296) in IH.
      rewrite IH by lia. f_equal. rewrite <- app_assoc. f_equal.
      cbn [seq map app]. rewrite Z.add_0_r. f_equal.
      rewrite <- seq_shift, !map_map. apply map_ext. intros i. rewrite Nat2Z.inj_succ.
      replace (m + 1 + Z.of_nat i) with (m + Z.succ (Z.of_nat i)) by lia. reflexivity. }
  rewrite (H 20%nat 30 []) by (cbn; lia). reflexivity.
Qed.

Lemma test_all_approx_printed :
  test_all_approx = Ok
    [(30, 87375, Some 122889); (31, 174749, Some 319513); (32, 349497, Some 3219717); (33, 698994, Some 3219717);
     (34, 1397988, Some 3219717); (35, 2795976, Some 3219717); (36, 5591951, Some 7557734); (37, 11183901, Some 23238498);
     (38, 22367802, Some 23238498); (39, 44735603, Some 48320347); (40, 89471205, Some 105034082);
     (41, 178942409, None); (42, 357884817, None); (43, 715769634, None); (44, 1431539267, None); (45, 2863078533, None);
     (46, 1431189770, Some 12289); (47, 2862379539, Some 12289); (48, 1429791782, Some 12289); (49, 2859583564, Some 12289)].
Proof. rewrite test_all_approx_eq. vm_compute. reflexivity. Qed.

(** ** Remainders *)

Lemma pmodq_ok x : pmodq x = Ok (x mod Q).
Proof.
  unfold pmodq, smodq, rem32. cbn [Z.eqb Q]. change (12289 =? -1) with false. rewrite andb_false_r. cbn [bind].
  unfold Q.
  pose proof (Z.rem_bound_abs x 12289 ltac:(lia)) as B.
  pose proof (Z.quot_rem x 12289 ltac:(lia)) as E.
  pose proof (Z.div_mod x 12289 ltac:(lia)) as E'.
  pose proof (Z.mod_pos_bound x 12289 ltac:(lia)) as B'.
  destruct (Z.ltb_spec (Z.rem x 12289) 0).
  - unfold add32, i32, in_i32.
    replace (Z.rem x 12289 + 12289) with (x mod 12289) by lia.
    replace ((-2147483648 <=? x mod 12289) && (x mod 12289 <=? 2147483647)) with true
      by (symmetry; apply andb_true_intro; split; apply Z.leb_le; lia).
    reflexivity.
  - f_equal. lia.
Qed.

(** ** Signed approximation *)

Lemma approx_pinv_ok n : 30 <= n <= 49 -> approx_pinv n = Ok (2 ^ n / Q + 1).
Proof. intros Hn; each n Hn; vm_compute; reflexivity. Qed.

Lemma in_i32_true z : -2147483648 <= z <= 2147483647 -> in_i32 z = true.
Proof. intros H; apply andb_true_intro; split; apply Z.leb_le; lia. Qed.
Lemma in_i32_false z : z < -2147483648 -> in_i32 z = false.
Proof. intros H; apply andb_false_intro1; apply Z.leb_gt; lia. Qed.
Lemma in_i64_true z : -9223372036854775808 <= z <= 9223372036854775807 -> in_i64 z = true.
Proof. intros H; apply andb_true_intro; split; apply Z.leb_le; lia. Qed.
Lemma to_i32_id z : -2147483648 <= z <= 2147483647 -> to_i32 z = z.
Proof.
  intros H. unfold to_i32. cbv zeta. destruct (Z_le_gt_dec 0 z).
  - rewrite Z.mod_small by lia. destruct (Z.ltb_spec z 2147483648); lia.
  - rewrite <- (Z.mod_unique z 4294967296 (-1) (z + 4294967296)) by lia.
    destruct (Z.ltb_spec (z + 4294967296) 2147483648); lia.
Qed.

Lemma approx_pmodq_eq n x p :
  30 <= n <= 49 -> p = 2 ^ n / Q + 1 ->
  -9223372036854775808 <= x * p <= 9223372036854775807 ->
  -2147483648 <= (x * p) / 2 ^ n <= 2147483647 ->
  approx_pmodq x n =
  (do m <- i32 ((x * p) / 2 ^ n * Q); do r <- i32 (x - m); Ok (if r <? Q then r else 0)).
Proof.
  intros Hn -> H1 H2. unfold approx_pmodq, approx_pdivq.
  rewrite approx_pinv_ok by assumption. cbn [bind].
  unfold mul64, i64. rewrite in_i64_true by assumption. cbn [bind].
  rewrite Z.shiftr_div_pow2 by lia. rewrite to_i32_id by assumption. reflexivity.
Qed.

(** Non-negative arguments *)
Lemma approx_pmodq_pos n e p x :
  30 <= n <= 49 -> p = 2 ^ n / Q + 1 -> p * Q = 2 ^ n + e -> 0 <= p ->
  0 <= x <= 2147483647 -> x * p <= 9223372036854775807 ->
  0 <= (x mod Q) * 2 ^ n + x * e < Q * 2 ^ n ->
  approx_pmodq x n = Ok (x mod Q).
Proof.
  intros Hn Hp He Hp0 Hx Hxp Hs.
  assert (HD : 0 < 2 ^ n) by (apply Z.pow_pos_nonneg; lia).
  pose proof (quotient_ok (2 ^ n) e p x HD He Hs) as Hq.
  assert (B : 0 <= x / Q <= x) by (unfold Q; split; [apply Z.div_pos; lia|apply Z.div_le_upper_bound; lia]).
  rewrite approx_pmodq_eq with (p := p); [|assumption|assumption|nia|rewrite Hq; lia].
  rewrite Hq. clear - Hx B. unfold Q in *.
  pose proof (Z.div_mod x 12289 ltac:(lia)) as E'.
  pose proof (Z.mod_pos_bound x 12289 ltac:(lia)) as B'.
  unfold i32. rewrite in_i32_true by lia. cbn [bind]. rewrite in_i32_true by lia. cbn [bind].
  replace (x - x / 12289 * 12289) with (x mod 12289) by lia.
  destruct (Z.ltb_spec (x mod 12289) 12289); [reflexivity|lia].
Qed.

Lemma pinv_nonneg n : 0 <= n -> 0 <= 2 ^ n / Q + 1.
Proof.
  intros H. assert (0 <= 2 ^ n / Q); [|lia].
  apply Z.div_pos; [|reflexivity]. apply Z.pow_nonneg; lia.
Qed.

Lemma approx_pmodq_below n F :
  30 <= n <= 49 ->
  (let e := excess n in
   (F mod Q =? Q - 1) && (0 <=? e) && (F <=? 2147483648) && (F * (2 ^ n / Q + 1) <=? 9223372036854775807)
   && ((F - 1) * e <? 2 * 2 ^ n) && ((F - Q) * e <? 2 ^ n)) = true ->
  forall x, 0 <= x < F -> approx_pmodq x n = Ok (x mod Q).
Proof.
  intros Hn H x Hx. cbv zeta in H.
  rewrite !andb_true_iff, !Z.leb_le, !Z.ltb_lt, !Z.eqb_eq in H.
  destruct H as (((((H1 & H2) & H3) & H4) & H5) & H6).
  pose proof (pinv_nonneg n ltac:(lia)) as Hp.
  assert (HD : 0 < 2 ^ n) by (apply Z.pow_pos_nonneg; lia).
  apply approx_pmodq_pos with (e := excess n) (p := 2 ^ n / Q + 1); try lia; try assumption.
  - unfold excess; ring.
  - clear - H4 Hp Hx. nia.
  - apply small_below with F; assumption.
Qed.

Lemma approx_pmodq_flat n L :
  30 <= n <= 49 ->
  (let e := excess n in
   (0 <=? e) && (L <=? 2147483647) && (L * (2 ^ n / Q + 1) <=? 9223372036854775807) && (L * e <? 2 ^ n)) = true ->
  forall x, 0 <= x <= L -> approx_pmodq x n = Ok (x mod Q).
Proof.
  intros Hn H x Hx. cbv zeta in H.
  rewrite !andb_true_iff, !Z.leb_le, !Z.ltb_lt in H.
  destruct H as (((H2 & H3) & H4) & H5).
  pose proof (pinv_nonneg n ltac:(lia)) as Hp.
  assert (HD : 0 < 2 ^ n) by (apply Z.pow_pos_nonneg; lia).
  apply approx_pmodq_pos with (e := excess n) (p := 2 ^ n / Q + 1); try lia; try assumption.
  - unfold excess; ring.
  - clear - H4 Hp Hx. nia.
  - apply small_flat with L; assumption.
Qed.

(** Negative arguments: the quotient of a multiple of Q is one too small *)
Lemma approx_pmodq_neg n e p x :
  30 <= n <= 49 -> p = 2 ^ n / Q + 1 -> p * Q = 2 ^ n + e -> 0 <= p -> 0 < e ->
  -2147483648 <= x < 0 -> 2147483648 * p <= 9223372036854775807 -> 2147483648 * e < 2 ^ n ->
  approx_pmodq x n = if x <=? -2147478172 then Err SignedOverflow else Ok (x mod Q).
Proof.
  intros Hn Hp He Hp0 He0 Hx Hxp Hs.
  assert (HD : 0 < 2 ^ n) by (apply Z.pow_pos_nonneg; lia).
  assert (Hxe : - 2 ^ n < x * e < 0) by nia.
  assert (Hxp' : -9223372036854775808 <= x * p <= 9223372036854775807) by nia.
  pose proof (Z.div_mod x 12289 ltac:(lia)) as E'.
  pose proof (Z.mod_pos_bound x 12289 ltac:(lia)) as B'.
  destruct (Z.eq_dec (x mod 12289) 0) as [Z0|Z0].
  - assert (Hq : (x * p) / 2 ^ n = x / Q - 1).
    { apply quotient_less with e; [assumption|assumption|]. unfold Q. rewrite Z0. lia. }
    unfold Q in Hq.
    rewrite approx_pmodq_eq with (p := p); [|assumption|assumption|assumption|rewrite Hq; lia].
    rewrite Hq. clear - Z0 E' Hx. unfold Q, i32.
    destruct (Z.leb_spec x (-2147478172)).
    + rewrite in_i32_false by lia. reflexivity.
    + rewrite in_i32_true by lia. cbn [bind]. rewrite in_i32_true by lia. cbn [bind].
      replace (x - (x / 12289 - 1) * 12289) with 12289 by lia. rewrite Z0. reflexivity.
  - assert (Hq : (x * p) / 2 ^ n = x / Q).
    { apply quotient_ok with e; [assumption|assumption|]. unfold Q. clear - Hxe Z0 B' HD. nia. }
    unfold Q in Hq.
    rewrite approx_pmodq_eq with (p := p); [|assumption|assumption|assumption|rewrite Hq; lia].
    rewrite Hq. clear - Z0 E' B' Hx. unfold Q, i32.
    destruct (Z.leb_spec x (-2147478172)).
    + rewrite in_i32_false by lia. reflexivity.
    + rewrite in_i32_true by lia. cbn [bind]. rewrite in_i32_true by lia. cbn [bind].
      replace (x - x / 12289 * 12289) with (x mod 12289) by lia.
      destruct (Z.ltb_spec (x mod 12289) 12289); [reflexivity|lia].
Qed.

Lemma approx_pmodq_44_45 n x :
  n = 44 \/ n = 45 -> -2147483648 <= x <= 2147483647 ->
  approx_pmodq x n = if x <=? -2147478172 then Err SignedOverflow else Ok (x mod Q).
Proof.
  intros Hn Hx. assert (Hn' : 44 <= n <= 45) by lia. clear Hn.
  destruct (Z_le_gt_dec 0 x).
  - replace (x <=? -2147478172) with false by (symmetry; apply Z.leb_gt; lia).
    apply approx_pmodq_flat with 2147483647; [lia| |lia].
    clear - Hn'. each n Hn'; vm_compute; reflexivity.
  - pose proof (pinv_nonneg n ltac:(lia)).
    apply approx_pmodq_neg with (e := excess n) (p := 2 ^ n / Q + 1); try lia.
    + unfold excess; ring.
    + clear - Hn'. each n Hn'; vm_compute; reflexivity.
    + clear - Hn'. each n Hn'; vm_compute; discriminate.
    + clear - Hn'. each n Hn'; vm_compute; reflexivity.
Qed.

(** From 46 on the 64-bit product overflows for large x *)
Definition first_overflow (n : Z) : Z :=
  match n with
  | 46 => 1610743808
  | 47 => 805371904
  | 48 => 402685952
  | _ => 201342976
  end.

Lemma approx_pmodq_46_49 n x :
  46 <= n <= 49 -> 0 <= x <= 2147483647 ->
  approx_pmodq x n = if x <? first_overflow n then Ok (x mod Q) else Err SignedOverflow.
Proof.
  intros Hn Hx. destruct (Z.ltb_spec x (first_overflow n)) as [H|H].
  - apply approx_pmodq_flat with (first_overflow n - 1); [lia| |lia].
    clear - Hn. each n Hn; vm_compute; reflexivity.
  - unfold approx_pmodq, approx_pdivq. rewrite approx_pinv_ok by lia. cbn [bind].
    unfold mul64, i64, in_i64.
    replace (x * (2 ^ n / Q + 1) <=? 9223372036854775807) with false.
    + rewrite andb_false_r. reflexivity.
    + symmetry. apply Z.leb_gt. apply Z.lt_le_trans with (first_overflow n * (2 ^ n / Q + 1)).
      * clear - Hn. each n Hn; vm_compute; reflexivity.
      * apply Z.mul_le_mono_nonneg_r; [apply pinv_nonneg; lia|assumption].
Qed.

Lemma approx_pmodq_first n x :
  30 <= n <= 43 -> 0 <= x < first_failure n -> approx_pmodq x n = Ok (x mod Q).
Proof.
  intros Hn Hx. apply approx_pmodq_below with (first_failure n); [lia| |assumption].
  clear - Hn; each n Hn; vm_compute; reflexivity.
Qed.

Lemma approx_pmodq_fails n :
  30 <= n <= 43 -> approx_pmodq (first_failure n) n = Ok (-1) /\ (first_failure n) mod Q = 12288.
Proof. intros Hn. each n Hn; vm_compute; split; reflexivity. Qed.

(** ** The signed tests *)

Definition pmod_differs (n x : Z) : res bool :=
  do a <- approx_pmodq x n; do p <- pmodq x; Ok (negb (a =? p)).

Lemma differs_false n x : approx_pmodq x n = Ok (x mod Q) -> pmod_differs n x = Ok false.
Proof.
  intros H. unfold pmod_differs. rewrite H. cbn [bind]. rewrite pmodq_ok. cbn [bind]. rewrite Z.eqb_refl. reflexivity.
Qed.
Lemma differs_true n x v : approx_pmodq x n = Ok v -> v <> x mod Q -> pmod_differs n x = Ok true.
Proof.
  intros H Hv. unfold pmod_differs. rewrite H. cbn [bind]. rewrite pmodq_ok. cbn [bind].
  apply Z.eqb_neq in Hv. rewrite Hv. reflexivity.
Qed.
Lemma differs_err n x e : approx_pmodq x n = Err e -> pmod_differs n x = Err e.
Proof. intros H. unfold pmod_differs. rewrite H. reflexivity. Qed.

Lemma add32_up x : 0 <= x < 2147483647 -> add32 x 1 = Ok (x + 1).
Proof. intros H. unfold add32, i32. rewrite in_i32_true by lia. reflexivity. Qed.
Lemma sub32_down x : -2147483648 < x <= 0 -> sub32 x 1 = Ok (x - 1).
Proof. intros H. unfold sub32, i32. rewrite in_i32_true by lia. reflexivity. Qed.

Lemma all_int32_hit bad F :
  0 <= F < 2147483647 -> (forall x, 0 <= x < F -> bad x = Ok false) -> bad F = Ok true ->
  all_int32 bad = Ok (Some F).
Proof.
  intros HF H HT. unfold all_int32.
  rewrite search_up_hit with (F := F); [reflexivity| | | |assumption|assumption].
  - rewrite fuel_of; unfold INT32_MAX; lia.
  - intros x Hx. apply Z.ltb_lt. unfold INT32_MAX; lia.
  - intros x Hx. apply add32_up; lia.
Qed.

Lemma all_int32_err bad F e :
  0 <= F < 2147483647 -> (forall x, 0 <= x < F -> bad x = Ok false) -> bad F = Err e ->
  all_int32 bad = Err e.
Proof.
  intros HF H HT. unfold all_int32.
  rewrite search_up_err with (F := F) (e := e); [reflexivity| | | |assumption|assumption].
  - rewrite fuel_of; unfold INT32_MAX; lia.
  - intros x Hx. apply Z.ltb_lt. unfold INT32_MAX; lia.
  - intros x Hx. apply add32_up; lia.
Qed.

Lemma all_int32_err_neg bad F e :
  -2147483648 < F < 0 -> (forall x, F < x <= 2147483647 -> bad x = Ok false) -> bad F = Err e ->
  all_int32 bad = Err e.
Proof.
  intros HF H HT. unfold all_int32.
  rewrite search_up_none with (F := INT32_MAX).
  - cbn [bind]. rewrite H by (unfold INT32_MAX; lia). cbn [bind].
    rewrite search_down_err with (F := F) (e := e); [reflexivity| | | | |assumption].
    + rewrite fuel_of; unfold INT32_MAX; lia.
    + intros x Hx. apply Z.ltb_lt. unfold INT32_MIN; lia.
    + intros x Hx. apply sub32_down; lia.
    + intros x Hx. apply H; lia.
  - rewrite fuel_of; unfold INT32_MAX; lia.
  - intros x Hx. apply Z.ltb_lt. lia.
  - apply Z.ltb_irrefl.
  - intros x Hx. apply add32_up; unfold INT32_MAX in Hx; lia.
  - intros x Hx. apply H; unfold INT32_MAX in Hx; lia.
Qed.

Lemma test_pmod_approx_fails n :
  30 <= n <= 43 -> test_pmod_approx n = Ok (Fails (first_failure n) 12288 (-1)).
Proof.
  intros Hn. destruct (approx_pmodq_fails n Hn) as [E1 E2].
  unfold test_pmod_approx. fold (pmod_differs n).
  rewrite all_int32_hit with (F := first_failure n).
  - cbn [bind]. rewrite pmodq_ok. cbn [bind]. rewrite E1. cbn [bind]. rewrite E2. reflexivity.
  - clear - Hn. each n Hn; vm_compute; split; (discriminate || reflexivity).
  - intros x Hx. apply differs_false. apply approx_pmodq_first; assumption.
  - apply differs_true with (-1); [assumption|]. rewrite E2. discriminate.
Qed.

Lemma test_pmod_approx_overflows n :
  44 <= n <= 49 -> test_pmod_approx n = Err SignedOverflow.
Proof.
  intros Hn. unfold test_pmod_approx. fold (pmod_differs n).
  destruct (Z_le_gt_dec n 45).
  - rewrite all_int32_err_neg with (F := -2147478172) (e := SignedOverflow); [reflexivity|lia| |].
    + intros x Hx. apply differs_false. rewrite approx_pmodq_44_45 by lia.
      replace (x <=? -2147478172) with false by (symmetry; apply Z.leb_gt; lia). reflexivity.
    + apply differs_err. rewrite approx_pmodq_44_45 by lia. reflexivity.
  - assert (Hn' : 46 <= n <= 49) by lia.
    assert (0 <= first_overflow n < 2147483647)
      by (clear - Hn'; each n Hn'; vm_compute; split; (discriminate || reflexivity)).
    rewrite all_int32_err with (F := first_overflow n) (e := SignedOverflow); [reflexivity|assumption| |].
    + intros x Hx. apply differs_false. rewrite approx_pmodq_46_49 by lia.
      replace (x <? first_overflow n) with true by (symmetry; apply Z.ltb_lt; lia). reflexivity.
    + apply differs_err. rewrite approx_pmodq_46_49 by lia. rewrite Z.ltb_irrefl. reflexivity.
Qed.

Lemma test_all_pmod_approx_overflows : test_all_pmod_approx = Err SignedOverflow.
Proof.
  unfold test_all_pmod_approx.
  set (f := fun (n : Z) (out : list (Z * Z * verdict)) =>
    do p <- approx_pinv n; do v <- test_pmod_approx n; Ok (out ++ [(n, p, v)])).
  assert (Hf : forall n out, 30 <= n <= 43 -> f n out = Ok (out ++ [(n, 2 ^ n / Q + 1, Fails (first_failure n) 12288 (-1))])).
  { intros n out Hn. unfold f. rewrite approx_pinv_ok by lia. cbn [bind].
    rewrite test_pmod_approx_fails by assumption. reflexivity. }
  assert (He : forall out, f 44 out = Err SignedOverflow).
  { intros out. unfold f. rewrite approx_pinv_ok by lia. cbn [bind].
    rewrite test_pmod_approx_overflows by lia. reflexivity. }
  clearbody f.
  change (fuel 20) with (6 + 15)%nat.
  assert (H : forall k m out, Z.of_nat k = 44 - m -> 30 <= m <= 44 ->
    cfor (6 + S k) m (fun n => n <? 50) (fun n => u32 (n + 1)) f out = Err SignedOverflow).
  { induction k as [|k IH]; intros m out Hk Hm.
    - assert (m = 44) as -> by lia. cbn [Nat.add cfor]. change (44 <? 50) with true. cbn iota. rewrite He. reflexivity.
    - replace (6 + S (S k))%nat with (S (6 + S k)) by lia. remember (6 + S k)%nat as k1. cbn [cfor].
      replace (m <? 50) with true by (symmetry; apply Z.ltb_lt; lia).
      rewrite Hf by lia. cbn [bind]. unfold u32 at 1. rewrite Z.mod_small by lia.
      apply IH; lia. }
  apply (H 14%nat 30 []); cbn; lia.
Qed.

Lemma main_overflows : main = Err SignedOverflow.
Proof.
  unfold main.
  replace (sequence_loop R) with (Err (A := Z * Z) SignedOverflow); [reflexivity|].
  unfold sequence_loop.
  replace (fuel 100000) with (20 + Z.to_nat 99981)%nat.
  - generalize (Z.to_nat 99981); intros k. vm_compute. reflexivity.
  - unfold fuel. change 100000 with (19 + 99981). rewrite Z2Nat.inj_add by lia. reflexivity.
Qed.

(** ** Statements of the property *)

Lemma approx_exact_L n x :
  41 <= n <= 45 -> 0 <= x <= 12288 * 12288 -> approx_modq x n = x mod 12289.
Proof.
  intros Hn Hx. change (12288 * 12288) with 150994944 in Hx.
  destruct (Z.eq_dec n 45) as [->|]; [apply approx_modq_45; lia|].
  apply approx_modq_first; [lia|].
  assert (Hn' : 41 <= n <= 44) by lia. split; [lia|].
  assert (150994944 < first_failure n) by (clear - Hn'; each n Hn'; vm_compute; reflexivity). lia.
Qed.

Lemma approx_first_L n F :
  In (n, F) [(41, 254259409); (42, 878036760); (43, 878036760); (44, 2270847442)] ->
  (forall x, 0 <= x < F -> approx_modq x n = x mod 12289) /\ approx_modq F n <> F mod 12289.
Proof.
  intros H.
  assert (Hn : 41 <= n <= 44 /\ F = first_failure n).
  { cbn in H. repeat destruct H as [H|H]; try contradiction; injection H as <- <-; split; (lia || reflexivity). }
  destruct Hn as [Hn ->]. split.
  - intros x Hx. apply approx_modq_first; [lia|assumption].
  - apply approx_modq_fails; lia.
Qed.

Lemma approx_pmodq_exact_L n x :
  n = 44 \/ n = 45 -> -2147478171 <= x <= 2147483647 -> approx_pmodq x n = Ok (x mod 12289).
Proof.
  intros Hn Hx. rewrite approx_pmodq_44_45 by lia.
  replace (x <=? -2147478172) with false by (symmetry; apply Z.leb_gt; lia). reflexivity.
Qed.

Lemma approx_pmodq_overflow_L n x :
  n = 44 \/ n = 45 -> -2147483648 <= x <= -2147478172 -> approx_pmodq x n = Err SignedOverflow.
Proof.
  intros Hn Hx. rewrite approx_pmodq_44_45 by lia.
  replace (x <=? -2147478172) with true by (symmetry; apply Z.leb_le; lia). reflexivity.
Qed.

Lemma signed_report_L n F :
  In (n, F) [(30, 122889); (31, 319513); (32, 3219717); (33, 3219717); (34, 3219717); (35, 3219717); (36, 7557734);
    (37, 23238498); (38, 23238498); (39, 48320347); (40, 105034082); (41, 254259409); (42, 878036760); (43, 878036760)] ->
  test_pmod_approx n = Ok (Fails F 12288 (-1)) /\ (forall x, 0 <= x < F -> approx_pmodq x n = Ok (x mod 12289)).
Proof.
  intros H.
  assert (Hn : 30 <= n <= 43 /\ F = first_failure n).
  { cbn in H. repeat destruct H as [H|H]; try contradiction; injection H as <- <-; split; (lia || reflexivity). }
  destruct Hn as [Hn ->]. split.
  - apply test_pmod_approx_fails; assumption.
  - intros x Hx. apply approx_pmodq_first; assumption.
Qed.

Lemma signed_46_L n F :
  In (n, F) [(46, 1610743808); (47, 805371904); (48, 402685952); (49, 201342976)] ->
  (forall x, 0 <= x < F -> approx_pmodq x n = Ok (x mod 12289))
  /\ (forall x, F <= x <= 2147483647 -> approx_pmodq x n = Err SignedOverflow).
Proof.
  intros H.
  assert (Hn : 46 <= n <= 49 /\ F = first_overflow n /\ 0 <= F <= 2147483647).
  { cbn in H. repeat destruct H as [H|H]; try contradiction; injection H as <- <-; repeat split; (lia || reflexivity). }
  destruct Hn as (Hn & E & B). split; intros x Hx; rewrite approx_pmodq_46_49 by lia; rewrite <- E.
  - replace (x <? F) with true by (symmetry; apply Z.ltb_lt; lia). reflexivity.
  - replace (x <? F) with false by (symmetry; apply Z.ltb_ge; lia). reflexivity.
Qed.

Lemma sequence_overflows_L : sequence_loop 4 = Err SignedOverflow.
Proof.
  unfold sequence_loop.
  replace (fuel 100000) with (20 + Z.to_nat 99981)%nat.
  - generalize (Z.to_nat 99981); intros k. vm_compute. reflexivity.
  - unfold fuel. change 100000 with (19 + 99981). rewrite Z2Nat.inj_add by lia. reflexivity.
Qed.
