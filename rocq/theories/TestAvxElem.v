(** The parts of test_avx.c. *)

From Coq Require Import ZArith List Bool Lia.
From Verif Require Import CSem Spec Loops ModQ Conv HeapElem RedElem AvxSem AvxElem AvxArrays AvxFinal ModelRed ModelAvx ModelSort ElemFinal
  ModelTests TestsElem TestsSound TestsRun ModelTestAvx.
Import ListNotations.
Open Scope Z_scope.

(** ** Runs that end in a state satisfying [P], or stop for a reason in [E] *)

Definition ends {A} (E : err -> Prop) (m : res A) (P : A -> Prop) : Prop :=
  match m with Ok x => P x | Err e => E e end.

Lemma ends_bind {A B} E (m : res A) (f : A -> res B) P R :
  ends E m P -> (forall x, P x -> ends E (f x) R) -> ends E (do x <- m; f x) R.
Proof. destruct m; cbn; auto. Qed.

Lemma ends_ok {A} E (m : res A) x (P : A -> Prop) : m = Ok x -> P x -> ends E m P.
Proof. intros ->. auto. Qed.

Lemma ends_weaken {A} E (m : res A) (P R : A -> Prop) : ends E m P -> (forall x, P x -> R x) -> ends E m R.
Proof. destruct m; cbn; auto. Qed.

Lemma loop_ends {S} E (J : Z -> S -> Prop) n body (st : S) : 0 <= n < 4294967296 -> J 0 st ->
  (forall i st, 0 <= i < n -> J i st -> ends E (body i st) (J (i + 1))) ->
  ends E (loop n body st) (J n).
Proof.
  intros Hn H0 Hb. unfold loop.
  assert (G : forall f i st, 0 <= i <= n -> (Z.to_nat (n - i) < f)%nat -> J i st ->
    ends E (cfor f i (fun i => i <? n) (fun i => u32 (i + 1)) body st) (J n)).
  { clear st H0. induction f; intros i st Hi Hf HJ; [lia|]. cbn [cfor].
    destruct (Z.ltb_spec i n); [|replace n with i by lia; exact HJ].
    apply (ends_bind E _ _ (J (i + 1))); [apply Hb; [lia|exact HJ]|].
    intros s Hs. rewrite u32_small by lia. apply IHf; [lia|lia|exact Hs]. }
  apply G; [lia|unfold fuel; lia|exact H0].
Qed.

(** ** Products *)

Definition lo43 := -8796042698752.
Definition hi43 := 8796093026303.

Lemma mul_red_ends (E : err -> Prop) x y : - 2 ^ 63 <= x * y < 2 ^ 63 ->
  (x * y < lo43 \/ hi43 < x * y -> E AssertFail) -> (2 ^ 43 <= x * y <= hi43 -> E SignedOverflow) ->
  ends E (mul_red x y) (fun v => lo43 <= x * y < 2 ^ 43 /\ v = redz (x * y)).
Proof.
  unfold lo43, hi43. change (2 ^ 63) with 9223372036854775808. change (2 ^ 43) with 8796093022208. intros Hz HA HS.
  destruct (mul_red x y) as [v|e] eqn:EM; cbn [ends].
  - assert (K := mul_red_inv x y v EM). split; [|apply K]. unfold mul_red in EM. unfold mul64 in EM.
    rewrite i64_ok in EM by lia. cbn [bind] in EM.
    destruct ((-8796042698752 <=? x * y) && (x * y <=? 8796093026303)) eqn:C; [|discriminate].
    apply andb_true_iff in C. destruct C as [C1 C2]. apply Z.leb_le in C1. apply Z.leb_le in C2.
    assert (D : x * y < 8796093022208 \/ 8796093022208 <= x * y) by lia. destruct D as [D|D]; [lia|].
    assert (X := mul_reduce_all_large_products_overflow_L x y ltac:(change (2 ^ 43) with 8796093022208; lia)).
    exfalso. revert X. unfold mul_reduce_array16. cbn [cfor fuel Z.to_nat Pos.to_nat Pos.iter_op].
    change (0 <? 1) with true. cbv iota.
    rewrite (rd_ok [x] 0), (rd_ok [y] 0) by (unfold zlen; cbn; lia). cbn [bind].
    change (at_ [x] 0) with x. change (at_ [y] 0) with y. unfold mul_red, mul64. rewrite i64_ok by lia. cbn [bind].
    replace ((-8796042698752 <=? x * y) && (x * y <=? 8796093026303)) with true by lia. cbn [cassert bind] in EM |- *.
    rewrite EM. cbn [bind]. discriminate.
  - assert (D : (x * y < -8796042698752 \/ 8796093026303 < x * y) \/ -8796042698752 <= x * y <= 8796093026303) by lia.
    destruct D as [D|D].
    + unfold mul_red, mul64 in EM. rewrite i64_ok in EM by lia. cbn [bind] in EM.
      replace ((-8796042698752 <=? x * y) && (x * y <=? 8796093026303)) with false in EM by lia.
      cbn [cassert bind] in EM. injection EM as <-. apply HA, D.
    + assert (D2 : x * y < 8796093022208 \/ 8796093022208 <= x * y) by lia. destruct D2 as [D2|D2].
      * exfalso. unfold mul_red, mul64 in EM. rewrite i64_ok in EM by lia. cbn [bind] in EM.
        replace ((-8796042698752 <=? x * y) && (x * y <=? 8796093026303)) with true in EM by lia.
        cbn [cassert bind] in EM. rewrite shiftr12, land4095 in EM.
        assert (B := Z.mod_pos_bound (x * y) 4096 eq_refl).
        assert (D3 : -2147471362 <= x * y / 4096 <= 2147483647) by lia.
        rewrite !to_i32_small in EM by lia. unfold mul32 in EM. rewrite i32_ok in EM by lia. cbn [bind] in EM.
        unfold sub32 in EM. rewrite i32_ok in EM by lia. discriminate.
      * assert (X := mul_reduce_all_large_products_overflow_L x y ltac:(change (2 ^ 43) with 8796093022208; lia)).
        revert X. unfold mul_reduce_array16. cbn [cfor fuel Z.to_nat Pos.to_nat Pos.iter_op].
        change (0 <? 1) with true. cbv iota.
        rewrite (rd_ok [x] 0), (rd_ok [y] 0) by (unfold zlen; cbn; lia). cbn [bind].
        change (at_ [x] 0) with x. change (at_ [y] 0) with y. rewrite EM. cbn [bind]. injection 1 as ->. apply HS. lia.
Qed.

Lemma in_bounds_spec z : in_bounds z = true <-> lo43 <= z <= hi43.
Proof. unfold in_bounds, lo43, hi43. rewrite andb_true_iff, !Z.leb_le. tauto. Qed.

(** A loop that replaces [a[i]] by a product *)
Lemma mul_loop_ends (E : err -> Prop) (y : Z -> Z) body a n N :
  0 <= n < 4294967296 -> zlen a = n ->
  (forall i, 0 <= i < n -> - 2 ^ 63 <= at_ a i * y i < 2 ^ 63) ->
  (forall i, 0 <= i < n -> at_ a i * y i < lo43 \/ hi43 < at_ a i * y i -> E AssertFail) ->
  (forall i, 0 <= i < n -> 2 ^ 43 <= at_ a i * y i <= hi43 -> E SignedOverflow) ->
  (forall i b, 0 <= i < n -> zlen b = n -> body i b = do v <- mul_red (at_ b i) (y i); wr b i v) ->
  N = n ->
  ends E (loop n body a) (fun r => zlen r = n /\ forall i, 0 <= i < n -> at_ r i = redz (at_ a i * y i) /\ lo43 <= at_ a i * y i < 2 ^ 43).
Proof.
  intros Hn La Hz HA HS Hb ->.
  eapply ends_weaken.
  - apply (loop_ends E (fun m b => zlen b = n /\ (forall i, 0 <= i < m -> at_ b i = redz (at_ a i * y i) /\ lo43 <= at_ a i * y i < 2 ^ 43)
      /\ forall i, m <= i < n -> at_ b i = at_ a i)).
    + exact Hn.
    + split; [exact La|]. split; [intros; lia|]. reflexivity.
    + intros i b Hi (Lb & H1 & H2). rewrite Hb by assumption. rewrite H2 by lia.
      eapply ends_bind; [apply mul_red_ends; [apply Hz, Hi|apply HA, Hi|apply HS, Hi]|].
      intros v [Rv ->]. rewrite wr_ok by lia. cbn [ends]. split; [rewrite aset_len; exact Lb|]. split.
      * intros j Hj. destruct (Z.eq_dec j i) as [->|]; [rewrite at_aset_same by lia; auto|].
        rewrite at_aset_other by lia. apply H1. lia.
      * intros j Hj. rewrite at_aset_other by lia. apply H2. lia.
  - intros r (L & H & _). auto.
Qed.

(** ** Random numbers *)

Section Random.
Variable rnd : Z -> Z.
Hypothesis Hrnd : forall k, 0 <= rnd k < 2147483648.

Definition draw (n r : Z) : Z := rnd r mod (2 * n) - n.

Lemma draw_range n r : 0 < n -> - n <= draw n r <= n - 1.
Proof. intros Hn. unfold draw. assert (B := Z.mod_pos_bound (rnd r) (2 * n) ltac:(lia)). lia. Qed.

Lemma random_coeff_ok n r : 0 < n <= 1073741824 -> random_coeff rnd wide n r = Ok (draw n r, r + 1).
Proof.
  intros Hn. unfold random_coeff, wide. replace (0 <? n) with true by lia. cbn [cassert bind].
  assert (B := Hrnd r). unfold rem64. replace (2 * n =? 0) with false by lia.
  replace (rnd r =? -9223372036854775808) with false by lia. cbn [andb bind].
  rewrite Z.rem_mod_nonneg by lia. assert (C := Z.mod_pos_bound (rnd r) (2 * n) ltac:(lia)).
  rewrite to_i32_small by lia. unfold sub32. rewrite i32_ok by lia. cbn [bind]. fold (draw n r).
  assert (D := draw_range n r ltac:(lia)).
  replace ((- n <=? draw n r) && (draw n r <=? n - 1)) with true by lia. reflexivity.
Qed.

Definition coef (r : Z) : Z := draw 1073741824 r.
Definition coef16 (r : Z) : Z := draw 32768 r.
Lemma coef_ok r : random_coeff rnd wide 1073741824 r = Ok (coef r, r + 1).
Proof. apply random_coeff_ok. lia. Qed.
Lemma coef16_ok r : random_coeff rnd wide 32768 r = Ok (coef16 r, r + 1).
Proof. apply random_coeff_ok. lia. Qed.
Lemma coef_eq r : coef r = rnd r - 1073741824.
Proof. unfold coef, draw. rewrite Z.mod_small; [reflexivity|]. apply Hrnd. Qed.
Lemma coef_range r : -1073741824 <= coef r <= 1073741823.
Proof. exact (draw_range 1073741824 r ltac:(lia)). Qed.
Lemma coef16_range r : -32768 <= coef16 r <= 32767.
Proof. exact (draw_range 32768 r ltac:(lia)). Qed.

(** [a] holds [n] values of [v] *)
Definition holds (a : list Z) (n : Z) (v : Z -> Z) : Prop := zlen a = n /\ forall i, 0 <= i < n -> at_ a i = v i.

Lemma fill_draws n a r (v : Z -> Z) (body : Z -> list Z * Z -> res (list Z * Z)) :
  0 <= n < 4294967296 -> zlen a = n ->
  (forall i b, 0 <= i < n -> zlen b = n -> body i (b, r + i) = do b <- wr b i (v (r + i)); Ok (b, r + i + 1)) ->
  exists b, loop n body (a, r) = Ok (b, r + n) /\ holds b n (fun i => v (r + i)).
Proof.
  intros Hn La Hb.
  destruct (loop_ok (fun m s => snd s = r + m /\ zlen (fst s) = n /\ forall i, 0 <= i < m -> at_ (fst s) i = v (r + i)) n body (a, r))
    as ((b & r') & E & Er & L & V).
  - exact Hn.
  - cbn [fst snd]. split; [lia|]. split; [exact La|]. intros; lia.
  - intros i (b & r') Hi (Er & Lb & V). cbn [fst snd] in *. subst r'. rewrite Hb by assumption.
    rewrite wr_ok by lia. cbn [bind]. eexists. split; [reflexivity|]. cbn [fst snd]. split; [lia|].
    split; [rewrite aset_len; exact Lb|]. intros j Hj. destruct (Z.eq_dec j i) as [->|].
    + apply at_aset_same. lia.
    + rewrite at_aset_other by lia. apply V. lia.
  - cbn [fst snd] in *. subst r'. exists b. split; [exact E|]. split; [exact L|exact V].
Qed.

Lemma random_array_ok n a r : 0 <= n < 4294967296 -> zlen a = n ->
  exists b, random_array rnd wide a n r = Ok (b, r + n) /\ holds b n (fun i => coef (r + i)).
Proof.
  intros Hn La. unfold random_array. apply fill_draws; auto. intros i b Hi Lb. rewrite coef_ok. reflexivity.
Qed.

Lemma random_array16_ok n a r : 0 <= n < 4294967296 -> zlen a = n ->
  exists b, random_array16 rnd wide a n r = Ok (b, r + n) /\ holds b n (fun i => coef16 (r + i)).
Proof.
  intros Hn La. unfold random_array16. apply fill_draws; auto. intros i b Hi Lb. rewrite coef16_ok. cbn [bind].
  rewrite to_i16_small by apply coef16_range. reflexivity.
Qed.

Definition coefc (r : Z) : Z := rnd r mod 36867 - 12289.
Lemma random_array_for_correct_ok n a r : 0 <= n < 4294967296 -> zlen a = n ->
  exists b, random_array_for_correct rnd a n r = Ok (b, r + n) /\ holds b n (fun i => coefc (r + i)).
Proof.
  intros Hn La. unfold random_array_for_correct. apply fill_draws; auto. intros i b Hi Lb.
  unfold random_elem_for_correct. change (mul32 3 ModelTests.Q) with (Ok 36867). cbn [bind].
  assert (B := Hrnd (r + i)). unfold rem64. replace (rnd (r + i) =? -9223372036854775808) with false by lia.
  change (36867 =? 0) with false. cbn [andb bind].
  rewrite Z.rem_mod_nonneg by lia. assert (C := Z.mod_pos_bound (rnd (r + i)) 36867 ltac:(lia)).
  rewrite to_i32_small by lia. unfold sub32. change ModelTests.Q with 12289. rewrite i32_ok by lia. cbn [bind]. fold (coefc (r + i)).
  replace ((- (12289) <=? coefc (r + i)) && (coefc (r + i) <=? 2 * 12289 - 1)) with true by (unfold coefc; lia). reflexivity.
Qed.
Lemma coefc_range r : -12289 <= coefc r <= 2 * 12289 - 1.
Proof. unfold coefc. assert (C := Z.mod_pos_bound (rnd r) 36867 ltac:(lia)). lia. Qed.

Definition coefs (r : Z) : Z := rnd r mod 12289.
Lemma random_array_for_shift_ok n a r : 0 <= n < 4294967296 -> zlen a = n ->
  exists b, random_array_for_shift rnd a n r = Ok (b, r + n) /\ holds b n (fun i => coefs (r + i)).
Proof.
  intros Hn La. unfold random_array_for_shift. apply fill_draws; auto. intros i b Hi Lb.
  assert (B := Hrnd (r + i)). unfold rem64. replace (rnd (r + i) =? -9223372036854775808) with false by lia.
  change (ModelTests.Q =? 0) with false. cbn [andb bind]. change ModelTests.Q with 12289.
  rewrite Z.rem_mod_nonneg by lia. assert (C := Z.mod_pos_bound (rnd (r + i)) 12289 ltac:(lia)).
  rewrite to_i32_small by lia. reflexivity.
Qed.
Lemma coefs_range r : 0 <= coefs r <= 12289 - 1.
Proof. unfold coefs. assert (C := Z.mod_pos_bound (rnd r) 12289 ltac:(lia)). lia. Qed.

Lemma copy_array_ok b a n : 0 <= n < 4294967296 -> zlen a = n -> zlen b = n -> copy_array b a n = Ok a.
Proof.
  intros Hn La Lb. unfold copy_array.
  destruct (TestsElem.fill_ok n b (at_ a) (fun i b => do x <- rd a i; wr b i x) Hn Lb) as (c & E & Lc & V).
  - intros i c Hi Lc. rewrite rd_ok by lia. reflexivity.
  - rewrite E. f_equal. apply list_ext; [lia|]. intros i Hi. apply V. lia.
Qed.

(** ** The tests *)

Variables (stk : Z -> heap) (tries : nat).

Definition sized (n : Z) : Prop := forall i, zlen (stk n i) = n.

(** [f] and [g] return the same array when the entries of the argument are in [lo .. hi] *)
Definition agree (f g : list Z -> Z -> res (list Z)) (n lo hi : Z) : Prop :=
  forall a, zlen a = n -> all_in lo hi a -> exists x, f a n = Ok x /\ g a n = Ok x /\ zlen x = n.

Lemma holds_in a n v lo hi : holds a n v -> (forall r, lo <= v r <= hi) -> all_in lo hi a.
Proof. intros [L V] H. apply all_in_of. intros i Hi. rewrite V by lia. apply H. Qed.

Lemma cross_check_ok n f g r : 0 <= n < 4294967296 -> sized n ->
  agree f g n (-1073741824) 1073741823 -> cross_check rnd stk wide n f g r = Ok (r + 10000 * n).
Proof.
  intros Hn HS HA. unfold cross_check.
  match goal with |- context [loop 10000 ?B ?s0] =>
    destruct (loop_ok (fun m s => snd s = r + m * n /\ zlen (fst (fst s)) = n /\ zlen (snd (fst s)) = n) 10000 B s0)
      as (((a & b) & r') & E & Er & La & Lb) end.
  - lia.
  - cbn [fst snd]. split; [lia|]. split; apply HS.
  - intros j ((a & b) & r') Hj (Er & La & Lb). cbn [fst snd] in *.
    destruct (random_array_ok n a r' Hn La) as (a1 & -> & H1). cbn [bind].
    rewrite copy_array_ok by (apply H1 || assumption). cbn [bind].
    destruct (HA a1 (proj1 H1)) as (x & -> & -> & Lx).
    { apply (holds_in _ _ _ _ _ H1). intros. apply coef_range. }
    cbn [bind]. rewrite equal_arrays_ok by auto. cbn [expect bind]. eexists. split; [reflexivity|]. cbn [fst snd].
    split; [lia|auto].
  - rewrite E. cbn [fst snd bind] in *. f_equal. lia.
Qed.

Lemma test_against_ok n dr (v : Z -> Z) f g r lo hi : 0 <= n < 4294967296 -> sized n ->
  (forall a r, zlen a = n -> exists b, dr a n r = Ok (b, r + n) /\ holds b n (fun i => v (r + i))) ->
  (forall r, lo <= v r <= hi) ->
  agree f g n lo hi -> test_against stk n dr f g r = Ok (r + 10000 * n).
Proof.
  intros Hn HS HD HV HA. unfold test_against.
  match goal with |- context [loop 10000 ?B ?s0] =>
    destruct (loop_ok (fun m s => snd s = r + m * n /\ zlen (fst (fst (fst s))) = n /\ zlen (snd (fst (fst s))) = n
      /\ zlen (snd (fst s)) = n) 10000 B s0) as ((((a & b) & c) & r') & E & Er & La & Lb & Lc) end.
  - lia.
  - cbn [fst snd]. split; [lia|]. repeat split; apply HS.
  - intros j (((a & b) & c) & r') Hj (Er & La & Lb & Lc). cbn [fst snd] in *.
    destruct (HD a r' La) as (a1 & -> & H1). cbn [bind].
    rewrite !copy_array_ok by (apply H1 || assumption). cbn [bind].
    destruct (HA a1 (proj1 H1)) as (x & -> & -> & Lx).
    { apply (holds_in _ _ _ _ _ H1). intros. apply HV. }
    cbn [bind]. rewrite equal_arrays_ok by auto. cbn [expect bind]. eexists. split; [reflexivity|]. cbn [fst snd].
    split; [lia|]. split; [exact Lx|]. split; [exact Lx|apply H1].
  - rewrite E. cbn [fst snd bind] in *. f_equal. lia.
Qed.

Lemma agree_reduce n : 0 < n < 2 ^ 32 -> n mod 16 = 0 ->
  agree reduce_array_asm reduce_array n (-1073741824) 1073741823 /\ agree reduce_array_asm2 reduce_array n (-1073741824) 1073741823.
Proof.
  intros Hn H16. assert (G : forall a, zlen a = n -> all_in (-1073741824) 1073741823 a ->
    exists x, reduce_array_asm a n = Ok x /\ reduce_array_asm2 a n = Ok x /\ reduce_array a n = Ok x /\ zlen x = n).
  { intros a La Ha. assert (Ha' : all_in (- 2 ^ 31) (2 ^ 31 - 1) a).
    { apply all_in_of. intros i Hi. assert (X := all_in_at _ _ _ i Ha Hi). lia. }
    destruct (reduce_array_correct_L a n ltac:(lia) ltac:(lia) Ha') as (x & E & L & _).
    destruct (reduce_array_same a n x (m16 n Hn H16) Ha' E) as [E1 E2]. exists x. rewrite E1, E2, E. repeat split; lia. }
  split; intros a La Ha; destruct (G a La Ha) as (x & E1 & E2 & E & L); eauto.
Qed.

Lemma agree_twice n : 0 < n < 2 ^ 32 -> n mod 16 = 0 ->
  agree reduce_array_twice_asm reduce_array_twice n (-1073741824) 1073741823
  /\ agree reduce_array_twice_asm2 reduce_array_twice n (-1073741824) 1073741823.
Proof.
  intros Hn H16. assert (G : forall a, zlen a = n -> all_in (-1073741824) 1073741823 a ->
    exists x, reduce_array_twice_asm a n = Ok x /\ reduce_array_twice_asm2 a n = Ok x /\ reduce_array_twice a n = Ok x /\ zlen x = n).
  { intros a La Ha. assert (Ha' : all_in (- 2 ^ 31) (2 ^ 31 - 1) a).
    { apply all_in_of. intros i Hi. assert (X := all_in_at _ _ _ i Ha Hi). lia. }
    destruct (reduce_array_twice_correct_L a n ltac:(lia) ltac:(lia) Ha') as (x & E & L & _).
    destruct (reduce_array_twice_same a n x (m16 n Hn H16) Ha' E) as [E1 E2]. exists x. rewrite E1, E2, E. repeat split; lia. }
  split; intros a La Ha; destruct (G a La Ha) as (x & E1 & E2 & E & L); eauto.
Qed.

Lemma agree_correct n : 0 < n < 2 ^ 32 -> n mod 16 = 0 -> agree correct_asm normalize n (-12289) (2 * 12289 - 1).
Proof.
  intros Hn H16 a La Ha.
  destruct (correct_asm_canonical_L a n Hn H16 ltac:(lia) Ha) as (x & E & L & V & _).
  destruct (normalize_canonical_L a n ltac:(lia) ltac:(lia)) as (y & E' & L' & V' & _).
  { apply all_in_of. intros i Hi. assert (X := all_in_at _ _ _ i Ha Hi). lia. }
  exists x. split; [exact E|]. split; [|lia]. rewrite E'. f_equal. apply list_ext; [lia|].
  intros i Hi. rewrite V, V' by lia. reflexivity.
Qed.

Lemma agree_shift n : 0 < n < 2 ^ 32 -> n mod 16 = 0 -> agree shift_array_asm shift_array n 0 (12289 - 1).
Proof.
  intros Hn H16 a La Ha.
  destruct (shift_array_centred_L a n ltac:(lia) ltac:(lia) Ha) as (x & E & L & _).
  exists x. split; [|split; [exact E|lia]]. refine (shift_array_same a n x (m16 n Hn H16) _ E).
  apply all_in_of. intros i Hi. assert (Y := all_in_at _ _ _ i Ha Hi). lia.
Qed.

(** *** Products *)

(** The pair drawn at [r] passes the filter of random_arrays_for_mul_reduce16 *)
Definition accepted (r : Z) : Prop := lo43 <= coef r * coef16 (r + 1) <= hi43.

(** One out of [m] successive pairs does *)
Definition often (m : Z) : Prop := forall r, exists j, 0 <= j < m /\ accepted (r + 2 * j).

Definition window (z : Z) : Prop := 2 ^ 43 <= z <= hi43.

Lemma draw16_ends (E : err -> Prop) n a p r m : 0 <= n < 4294967296 -> zlen a = n -> zlen p = n ->
  E NoFuel \/ (often m /\ m * n < Z.of_nat tries) ->
  ends E (random_arrays_for_mul_reduce16 rnd wide tries a p n r) (fun '(a, p, r') =>
    zlen a = n /\ zlen p = n /\ (forall i, 0 <= i < n -> exists k, at_ a i = coef k /\ at_ p i = coef16 (k + 1)
      /\ accepted k) /\ (0 < n -> accepted r -> at_ a 0 = coef r /\ at_ p 0 = coef16 (r + 1))).
Proof.
  intros Hn La Lp HT. unfold random_arrays_for_mul_reduce16. set (r0 := r) at 2 3 4.
  match goal with |- context [cwhile tries ?C ?B _] => set (c := C); set (body := B) end.
  set (J := fun (s : Z * list Z * list Z * Z) => let '(i, a, p, r) := s in
    0 <= i <= n /\ zlen a = n /\ zlen p = n /\ (forall j, 0 <= j < i -> exists k, at_ a j = coef k /\ at_ p j = coef16 (k + 1) /\ accepted k)
    /\ (accepted r0 -> (i = 0 /\ r = r0) \/ (0 < i /\ at_ a 0 = coef r0 /\ at_ p 0 = coef16 (r0 + 1)))).
  assert (G : forall f i a p r, J (i, a, p, r) ->
    E NoFuel \/ (often m /\ i = n /\ (0 < f)%nat) \/ (often m /\ i < n /\ exists j, 0 <= j < m /\ accepted (r + 2 * j) /\ m * (n - i - 1) + j + 1 < Z.of_nat f) ->
    ends E (cwhile f c body (i, a, p, r)) (fun s => let '(i, _, _, _) := s in i = n /\ J s)).
  { clearbody r0. clear La Lp a p r HT. induction f; intros i a p r HJ HT.
    - cbn. destruct HT as [H|[[_ H]|[_ H]]]; [exact H|lia|]. destruct H as (Hin & j & Hj & _ & H). exfalso.
      assert (0 <= m * (n - i - 1)) by (apply Z.mul_nonneg_nonneg; lia). change (Z.of_nat 0) with 0 in H. lia.
    - cbn [cwhile]. unfold J in HJ. destruct HJ as (Hi & La & Lp & HV & H0). unfold c at 1.
      destruct (Z.ltb_spec i n) as [Hin|Hin].
      2:{ cbn [ends]. split; [lia|]. unfold J. auto. }
      unfold body at 1. rewrite coef_ok. cbn [bind]. rewrite coef16_ok. cbn [bind].
      assert (B1 := coef_range r). assert (B2 := coef16_range (r + 1)).
      replace ((INT16_MIN <=? coef16 (r + 1)) && (coef16 (r + 1) <=? INT16_MAX)) with true by (unfold INT16_MIN, INT16_MAX; lia).
      cbn [cassert bind]. unfold mul64. rewrite i64_ok by nia. cbn [bind].
      destruct (in_bounds (coef r * coef16 (r + 1))) eqn:EB.
      + apply in_bounds_spec in EB. rewrite !wr_ok by lia. cbn [bind]. rewrite to_i16_small by exact B2. rewrite u32_small by lia.
        apply IHf.
        * unfold J. rewrite !aset_len. split; [lia|]. split; [exact La|]. split; [exact Lp|].
          split.
          -- intros j Hj. destruct (Z.eq_dec j i) as [->|].
             ++ exists r. rewrite !at_aset_same by lia. auto.
             ++ rewrite !at_aset_other by lia. apply HV. lia.
          -- intros HA. right. split; [lia|]. destruct (H0 HA) as [[-> ->]|(Hp & H0a & H0p)].
             ++ rewrite !at_aset_same by lia. auto.
             ++ rewrite !at_aset_other by lia. auto.
        * destruct HT as [H|[(H & Hi2 & _)|(HO & _ & j & Hj & HA & Hf)]]; [left; exact H|lia|right].
          assert (D : i + 1 = n \/ i + 1 < n) by lia. destruct D as [D|D].
          -- left. split; [exact HO|]. split; [exact D|]. replace (n - i - 1) with 0 in Hf by lia. lia.
          -- right. split; [exact HO|]. split; [exact D|]. destruct (HO (r + 1 + 1)) as (j' & Hj' & HA').
             exists j'. split; [exact Hj'|]. split; [exact HA'|]. nia.
      + assert (HN : ~ accepted r) by (intros HA; apply in_bounds_spec in HA; congruence).
        cbn [bind]. apply IHf.
        * unfold J. split; [exact Hi|]. split; [exact La|]. split; [exact Lp|]. split; [exact HV|].
          intros HA. destruct (H0 HA) as [[-> ->]|H1]; [destruct (HN HA)|right; exact H1].
        * destruct HT as [H|[(H & Hi2 & _)|(HO & _ & j & Hj & HA & Hf)]]; [left; exact H|lia|right; right].
          split; [exact HO|]. split; [exact Hin|]. exists (j - 1).
          assert (D : j <> 0) by (intros ->; apply HN; replace r with (r + 2 * 0) by lia; exact HA).
          split; [lia|]. split; [replace (r + 1 + 1 + 2 * (j - 1)) with (r + 2 * j) by lia; exact HA|lia]. }
  eapply ends_bind.
  - apply G.
    + unfold J. split; [lia|]. split; [exact La|]. split; [exact Lp|]. split; [intros; lia|]. intros _. left. auto.
    + destruct HT as [H|[HO Hf]]; [left; exact H|right]. assert (D : 0 = n \/ 0 < n) by lia. destruct D as [D|D].
      * left. split; [exact HO|]. split; [exact D|]. lia.
      * right. split; [exact HO|]. split; [exact D|]. destruct (HO r) as (j & Hj & HA). exists j.
        split; [exact Hj|]. split; [exact HA|]. nia.
  - intros (((i & a') & p') & r') [-> HJ]. cbn [ends]. unfold J in HJ. destruct HJ as (_ & L1 & L2 & HV & H0).
    split; [exact L1|]. split; [exact L2|]. split; [exact HV|]. intros Hn0 HA. destruct (H0 HA) as [[? _]|[_ H]]; [lia|exact H].
Qed.

Lemma test16_ends (E : err -> Prop) n r m : 0 < n < 2 ^ 32 -> n mod 16 = 0 -> sized n ->
  E NoFuel \/ (often m /\ m * n < Z.of_nat tries) ->
  E SignedOverflow \/ (forall k, ~ window (coef k * coef16 (k + 1))) ->
  ends E (test_mul_reduce_array16 rnd stk wide tries n r) (fun _ => True).
Proof.
  intros Hn H16 HS HT HW. assert (Hn' : 0 <= n < 4294967296) by lia. unfold test_mul_reduce_array16.
  match goal with |- context [loop 10000 ?B ?s0] =>
    assert (L := loop_ends E (fun _ (s : list Z * list Z * list Z * list Z * Z) => let '(a, b, c, p, _) := s in
      zlen a = n /\ zlen b = n /\ zlen c = n /\ zlen p = n) 10000 B s0 ltac:(lia)) end.
  eapply ends_bind; [apply L|].
  - repeat split; apply HS.
  - intros j ((((a & b) & c) & p) & r') Hj (La & Lb & Lc & Lp).
    eapply ends_bind; [apply (draw16_ends E n a p r' m Hn' La Lp HT)|].
    intros ((a1 & p1) & r1) (La1 & Lp1 & HV & _).
    rewrite !copy_array_ok by assumption. cbn [bind].
    assert (HA : forall i, 0 <= i < n -> -1073741824 <= at_ a1 i <= 1073741823 /\ -32768 <= at_ p1 i <= 32767
      /\ lo43 <= at_ a1 i * at_ p1 i <= hi43 /\ (E SignedOverflow \/ ~ window (at_ a1 i * at_ p1 i))).
    { intros i Hi. destruct (HV i Hi) as (k & -> & -> & K). split; [apply coef_range|]. split; [apply coef16_range|].
      split; [exact K|]. destruct HW as [W|W]; [left; exact W|right; apply W]. }
    destruct (mul_reduce_array16_asm_spec a1 n p1 (m16 n Hn H16) ltac:(lia) ltac:(lia)) as (x & Ex & Lx & Vx).
    rewrite Ex. cbn [bind].
    assert (M := mul_loop_ends E (at_ p1) (fun i a => do x <- rd a i; do y <- rd p1 i; do v <- mul_red x y; wr a i v) a1 n n Hn' La1).
    change (mul_reduce_array16 a1 n p1) with (loop n (fun i a => do x <- rd a i; do y <- rd p1 i; do v <- mul_red x y; wr a i v) a1).
    eapply ends_bind; [apply M; clear M|].
    + intros i Hi. destruct (HA i Hi) as (B1 & B2 & _). change (2 ^ 63) with 9223372036854775808. nia.
    + intros i Hi H. destruct (HA i Hi) as (_ & _ & B & _). lia.
    + intros i Hi H. destruct (HA i Hi) as (_ & _ & _ & [B|B]); [exact B|]. exfalso. apply B. exact H.
    + intros i d Hi Ld. rewrite !rd_ok by lia. reflexivity.
    + reflexivity.
    + intros y (Ly & Vy).
      rewrite equal_arrays_ok; [|exact Hn'|lia|exact Ly|].
      * cbn [expect bind ends]. repeat split; auto; lia.
      * intros i Hi. rewrite Vx by lia. replace (i <? n) with true by lia. destruct (Vy i Hi) as [-> HB].
        apply to_i32_small. unfold lo43 in HB. change (2 ^ 43) with 8796093022208 in HB. unfold redz.
        set (z := at_ a1 i * at_ p1 i) in *. clearbody z. clear - HB. lia.
  - intros s _. destruct s as [[[[? ?] ?] ?] ?]. exact I.
Qed.

(** A first pair in the window stops the test *)
Lemma test16_stops n r m : 0 < n < 2 ^ 32 -> n mod 16 = 0 -> sized n -> often m -> m * n < Z.of_nat tries ->
  window (coef r * coef16 (r + 1)) -> test_mul_reduce_array16 rnd stk wide tries n r = Err SignedOverflow.
Proof.
  intros Hn H16 HS HO HT HW. assert (Hn' : 0 <= n < 4294967296) by lia.
  cut (ends (fun e => e = SignedOverflow) (test_mul_reduce_array16 rnd stk wide tries n r) (fun _ => False)).
  { destruct (test_mul_reduce_array16 rnd stk wide tries n r); cbn [ends]; [tauto|]. intros ->. reflexivity. }
  set (E := fun e => e = SignedOverflow).
  unfold test_mul_reduce_array16.
  match goal with |- context [loop 10000 ?B ?s0] =>
    assert (L := loop_ends E (fun m (s : list Z * list Z * list Z * list Z * Z) => m = 0 /\ s = s0) 10000 B s0 ltac:(lia)) end.
  eapply ends_bind; [apply L; clear L|].
  - auto.
  - intros j s Hj [-> ->]. cbv beta iota.
    eapply ends_bind; [apply (draw16_ends E n (stk n 0) (stk n 3) r m Hn' (HS 0) (HS 3) (or_intror (conj HO HT)))|].
    intros ((a1 & p1) & r1) (La1 & Lp1 & HV & H0).
    destruct H0 as [A0 P0]; [lia|unfold accepted; unfold window, lo43 in *; change (2 ^ 43) with 8796093022208 in HW; lia|].
    rewrite !copy_array_ok by (apply HS || assumption). cbn [bind].
    destruct (mul_reduce_array16_asm_spec a1 n p1 (m16 n Hn H16) ltac:(lia) ltac:(lia)) as (x & Ex & Lx & Vx).
    rewrite Ex. cbn [bind].
    assert (M := mul_loop_ends E (at_ p1) (fun i a => do x <- rd a i; do y <- rd p1 i; do v <- mul_red x y; wr a i v) a1 n n Hn' La1).
    change (mul_reduce_array16 a1 n p1) with (loop n (fun i a => do x <- rd a i; do y <- rd p1 i; do v <- mul_red x y; wr a i v) a1).
    eapply ends_bind; [apply M; clear M|].
    + intros i Hi. destruct (HV i Hi) as (k & -> & -> & _). assert (B1 := coef_range k). assert (B2 := coef16_range (k + 1)).
      change (2 ^ 63) with 9223372036854775808. nia.
    + intros i Hi H. destruct (HV i Hi) as (k & Ea & Ep & K). rewrite Ea, Ep in H. unfold accepted in K. lia.
    + intros i Hi H. reflexivity.
    + intros i d Hi Ld. rewrite !rd_ok by lia. reflexivity.
    + reflexivity.
    + intros y (Ly & Vy). exfalso. destruct (Vy 0 ltac:(lia)) as [_ V]. rewrite A0, P0 in V. unfold window in HW. lia.
  - intros s [H _]. discriminate.
Qed.
End Random.
