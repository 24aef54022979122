(** Vector instructions and the array routines of the assembly: lemmas. *)

From Coq Require Import ZArith List Bool Lia.
From Verif Require Import CSem Spec Loops RedElem AvxSem ModelAvx.
Import ListNotations.
Open Scope Z_scope.

(** ** 32-bit wrap-around *)

Lemma to_i32_mod z : to_i32 z mod 4294967296 = z mod 4294967296.
Proof.
  unfold to_i32. cbv zeta. destruct (z mod 4294967296 <? 2147483648).
  - apply Z.mod_mod. lia.
  - replace (z mod 4294967296 - 4294967296) with (z mod 4294967296 + (-1) * 4294967296) by ring.
    rewrite Z.mod_add by lia. apply Z.mod_mod. lia.
Qed.

Lemma to_i32_eqm x y : x mod 4294967296 = y mod 4294967296 -> to_i32 x = to_i32 y.
Proof. intros H. unfold to_i32. now rewrite H. Qed.

Lemma to_i32_range z : -2147483648 <= to_i32 z <= 2147483647.
Proof. unfold to_i32. cbv zeta. assert (H := Z.mod_pos_bound z 4294967296 ltac:(lia)).
  destruct (Z.ltb_spec (z mod 4294967296) 2147483648); lia. Qed.

Lemma addW_r x y : to_i32 (x + to_i32 y) = to_i32 (x + y).
Proof. apply to_i32_eqm. rewrite <- Zplus_mod_idemp_r, to_i32_mod, Zplus_mod_idemp_r. reflexivity. Qed.
Lemma addW_l x y : to_i32 (to_i32 x + y) = to_i32 (x + y).
Proof. rewrite Z.add_comm, addW_r. now rewrite Z.add_comm. Qed.
Lemma subW_r x y : to_i32 (x - to_i32 y) = to_i32 (x - y).
Proof. apply to_i32_eqm. rewrite <- Zminus_mod_idemp_r, to_i32_mod, Zminus_mod_idemp_r. reflexivity. Qed.
Lemma subW_l x y : to_i32 (to_i32 x - y) = to_i32 (x - y).
Proof. apply to_i32_eqm. rewrite <- Zminus_mod_idemp_l, to_i32_mod, Zminus_mod_idemp_l. reflexivity. Qed.
Lemma to_i32_idem x : to_i32 (to_i32 x) = to_i32 x.
Proof. apply to_i32_eqm. apply to_i32_mod. Qed.

(** ** Multiply and reduce, one lane *)

Definition c0 (z : Z) : Z := Z.land (to_i32 z) 4095.
Definition c1 (z : Z) : Z := to_i32 (Z.shiftr (u64of (to_i32 z) (to_i32 (Z.shiftr z 32))) 12).

Lemma c0_eq z : c0 z = z mod 4096.
Proof.
  unfold c0. rewrite land4095. assert (H := to_i32_mod z).
  replace (to_i32 z mod 4096) with ((to_i32 z mod 4294967296) mod 4096).
  - rewrite H. clear. lia.
  - generalize (to_i32 z). clear. intros. lia.
Qed.

Lemma u64of_eq z : u64of (to_i32 z) (to_i32 (Z.shiftr z 32)) = z mod 18446744073709551616.
Proof.
  unfold u64of, u32. rewrite !to_i32_mod, Z.shiftr_div_pow2 by lia. change (2 ^ 32) with 4294967296.
  change 18446744073709551616 with (4294967296 * 4294967296).
  now rewrite Z.rem_mul_r by lia.
Qed.

Lemma c1_eq z : c1 z = to_i32 (z / 4096).
Proof.
  unfold c1. rewrite u64of_eq, shiftr12. apply to_i32_eqm.
  assert (E : z = z mod 18446744073709551616 + (z / 18446744073709551616 * 4503599627370496) * 4096).
  { assert (H := Z.div_mod z 18446744073709551616 ltac:(lia)). lia. }
  set (m := z mod 18446744073709551616) in *. set (q := z / 18446744073709551616) in *. clearbody m q.
  rewrite E, Z.div_add by lia.
  replace (q * 4503599627370496) with (q * 1048576 * 4294967296) by ring.
  now rewrite Z.mod_add by lia.
Qed.

(** the usual order: (c0 + 2 c0) - c1 *)
Definition mr (z : Z) : Z := to_i32 (to_i32 (c0 z + to_i32 (Z.shiftl (c0 z) 1)) - c1 z).

Lemma mr_eq z : mr z = to_i32 (redz z).
Proof.
  unfold mr. rewrite c0_eq, c1_eq. rewrite subW_l, subW_r, Z.shiftl_mul_pow2 by lia.
  change (2 ^ 1) with 2. unfold redz.
  replace (z mod 4096 + to_i32 (z mod 4096 * 2) - z / 4096)
    with (z mod 4096 - z / 4096 + to_i32 (z mod 4096 * 2)) by ring.
  rewrite addW_r. f_equal. ring.
Qed.

(** mul_reduce_array16_asm2: (c0 - c1) + 2 c0 *)
Lemma mr2_eq z : to_i32 (to_i32 (c0 z - c1 z) + to_i32 (Z.shiftl (c0 z) 1)) = to_i32 (redz z).
Proof.
  rewrite c0_eq, c1_eq, addW_l, Z.shiftl_mul_pow2 by lia. change (2 ^ 1) with 2.
  rewrite addW_r. replace (z mod 4096 - to_i32 (z / 4096) + z mod 4096 * 2)
    with (z mod 4096 + z mod 4096 * 2 - to_i32 (z / 4096)) by ring.
  rewrite subW_r. unfold redz. f_equal. ring.
Qed.

(** ** Loops *)

Lemma cdowhile_count {S} (J : Z -> S -> Prop) (C : Z) (body : S -> res S) (cond : S -> bool) f st :
  1 <= C ->
  (forall c st, 0 <= c < C -> J c st ->
     exists st', body st = Ok st' /\ J (c + 1) st' /\ cond st' = (c + 1 <? C)) ->
  C <= Z.of_nat f -> J 0 st ->
  exists st', cdowhile f body cond st = Ok st' /\ J C st'.
Proof.
  intros HC Hb Hf HJ. unfold cdowhile.
  destruct (Hb 0 st ltac:(lia) HJ) as (st1 & E1 & J1 & C1). rewrite E1. cbn [bind].
  assert (G : forall f c st, 0 < c <= C -> C - c < Z.of_nat f -> J c st -> cond st = (c <? C) ->
    exists st', cwhile f cond body st = Ok st' /\ J C st').
  { clear - Hb. induction f; intros c st Hc Hf HJ Hcd; [lia|]. cbn [cwhile]. rewrite Hcd.
    destruct (Z.ltb_spec c C).
    - destruct (Hb c st ltac:(lia) HJ) as (st1 & E1 & J1 & C1). rewrite E1. cbn [bind].
      apply (IHf (c + 1)); try assumption; lia.
    - replace c with C in HJ by lia. eauto. }
  apply (G f (0 + 1)); try assumption; lia.
Qed.

Lemma fuel_ge n c : c <= n + 1 -> 0 <= n -> c <= Z.of_nat (fuel n).
Proof. unfold fuel. lia. Qed.

(** ** Loads and stores *)

Lemma eidx_ok size i : 0 < size -> eidx size (size * i) = Ok i.
Proof.
  intros H. unfold eidx. rewrite Z.mul_comm, Z.mod_mul, Z.eqb_refl, Z.div_mul by lia. reflexivity.
Qed.

Ltac rds := repeat (rewrite rd_ok by lia; cbn [bind]).

Lemma ld8_ok a off i : off = 4 * i -> 0 <= i -> i + 8 <= zlen a ->
  ld8 a off = Ok (V (at_ a i) (at_ a (i + 1)) (at_ a (i + 2)) (at_ a (i + 3))
                    (at_ a (i + 4)) (at_ a (i + 5)) (at_ a (i + 6)) (at_ a (i + 7))).
Proof. intros -> H1 H2. unfold ld8. rewrite eidx_ok by lia. cbn [bind]. rds. reflexivity. Qed.

Lemma vpmovsxdq_ok a off i : off = 4 * i -> 0 <= i -> i + 4 <= zlen a ->
  vpmovsxdq a off = Ok (V (lo64 (at_ a i)) (hi64 (at_ a i)) (lo64 (at_ a (i + 1))) (hi64 (at_ a (i + 1)))
                    (lo64 (at_ a (i + 2))) (hi64 (at_ a (i + 2))) (lo64 (at_ a (i + 3))) (hi64 (at_ a (i + 3)))).
Proof. intros -> H1 H2. unfold vpmovsxdq. rewrite eidx_ok by lia. cbn [bind]. rds. reflexivity. Qed.

Lemma vpmovsxwd_ok a off i : off = 2 * i -> 0 <= i -> i + 8 <= zlen a ->
  vpmovsxwd a off = Ok (V (at_ a i) (at_ a (i + 1)) (at_ a (i + 2)) (at_ a (i + 3))
                    (at_ a (i + 4)) (at_ a (i + 5)) (at_ a (i + 6)) (at_ a (i + 7))).
Proof. intros -> H1 H2. unfold vpmovsxwd. rewrite eidx_ok by lia. cbn [bind]. rds. reflexivity. Qed.

Lemma vpmovsxwq_ok a off i : off = 2 * i -> 0 <= i -> i + 4 <= zlen a ->
  vpmovsxwq a off = Ok (V (lo64 (at_ a i)) (hi64 (at_ a i)) (lo64 (at_ a (i + 1))) (hi64 (at_ a (i + 1)))
                    (lo64 (at_ a (i + 2))) (hi64 (at_ a (i + 2))) (lo64 (at_ a (i + 3))) (hi64 (at_ a (i + 3)))).
Proof. intros -> H1 H2. unfold vpmovsxwq. rewrite eidx_ok by lia. cbn [bind]. rds. reflexivity. Qed.

Lemma vpmovsxwq_x_ok a off i : off = 2 * i -> 0 <= i -> i + 2 <= zlen a ->
  vpmovsxwq_x a off = Ok (V (lo64 (at_ a i)) (hi64 (at_ a i)) (lo64 (at_ a (i + 1))) (hi64 (at_ a (i + 1))) 0 0 0 0).
Proof. intros -> H1 H2. unfold vpmovsxwq_x. rewrite eidx_ok by lia. cbn [bind]. rds. reflexivity. Qed.

Definition dup16 (x : Z) : Z := to_i32 (u16 x + 65536 * u16 x).
Lemma vpbroadcastw_ok a off i : off = 2 * i -> 0 <= i -> i + 1 <= zlen a ->
  vpbroadcastw a off = Ok (V (dup16 (at_ a i)) (dup16 (at_ a i)) (dup16 (at_ a i)) (dup16 (at_ a i)) 0 0 0 0).
Proof. intros -> H1 H2. unfold vpbroadcastw. rewrite eidx_ok by lia. cbn [bind]. rds. reflexivity. Qed.

(** the low lane of a sign-extended 16-bit element *)
Lemma lo16 w : -32768 <= w <= 32767 -> lo64 w = w.
Proof. intros. apply to_i32_small. lia. Qed.

Lemma to_i16_small w : -32768 <= w <= 32767 -> to_i16 w = w.
Proof.
  intros H. unfold to_i16. cbv zeta. destruct (Z.ltb_spec (w mod 65536) 32768); lia.
Qed.

Lemma dup16_mod x : dup16 x mod 65536 = x mod 65536.
Proof.
  unfold dup16, u16. assert (H := to_i32_mod (x mod 65536 + 65536 * (x mod 65536))).
  revert H. generalize (to_i32 (x mod 65536 + 65536 * (x mod 65536))). intros y H.
  assert (E : y mod 65536 = (y mod 4294967296) mod 65536) by (clear; lia).
  rewrite E, H. clear. lia.
Qed.

Lemma dup16_lo w : -32768 <= w <= 32767 -> to_i16 (dup16 w) = w.
Proof. intros H. rewrite <- (to_i16_small w) at 2 by lia. unfold to_i16. now rewrite dup16_mod. Qed.

Lemma dup16_hi w : -32768 <= w <= 32767 -> to_i16 (Z.shiftr (dup16 w) 16) = w.
Proof.
  intros H. rewrite <- (to_i16_small w) at 2 by lia. unfold to_i16.
  replace (Z.shiftr (dup16 w) 16 mod 65536) with (w mod 65536); [reflexivity|].
  rewrite Z.shiftr_div_pow2 by lia. change (2 ^ 16) with 65536.
  unfold dup16, u16. assert (E := to_i32_mod (w mod 65536 + 65536 * (w mod 65536))).
  revert E. generalize (to_i32 (w mod 65536 + 65536 * (w mod 65536))). intros y E.
  assert (E2 : y / 65536 mod 65536 = (y mod 4294967296) / 65536 mod 65536) by (clear; lia).
  rewrite E2, E. clear. lia.
Qed.

Lemma lo_dup16 w : -32768 <= w <= 32767 -> lo64 (to_i16 (dup16 w)) = w.
Proof. intros. rewrite dup16_lo by assumption. now apply lo16. Qed.
Lemma lo_dup16h w : -32768 <= w <= 32767 -> lo64 (to_i16 (Z.shiftr (dup16 w) 16)) = w.
Proof. intros. rewrite dup16_hi by assumption. now apply lo16. Qed.

(** [j] is one of the [m] indices from [i] on *)
Definition inw (i m j : Z) : bool := (i <=? j) && (j <? i + m).

Lemma inw_true i m j : i <= j < i + m -> inw i m j = true.
Proof. unfold inw. intros. lia. Qed.
Lemma inw_false i m j : ~ (i <= j < i + m) -> inw i m j = false.
Proof. unfold inw. intros. lia. Qed.
Lemma inw_spec i m j : Bool.reflect (i <= j < i + m) (inw i m j).
Proof. destruct (inw i m j) eqn:E; constructor; unfold inw in E; lia. Qed.

Ltac ats := repeat (first [rewrite at_aset_same by (rewrite ?aset_len; lia)
                          |rewrite at_aset_other by (rewrite ?aset_len; lia)]).

Lemma st8_G (G : Z -> Z) a off i x : off = 4 * i -> 0 <= i -> i + 8 <= zlen a ->
  x = V (G i) (G (i + 1)) (G (i + 2)) (G (i + 3)) (G (i + 4)) (G (i + 5)) (G (i + 6)) (G (i + 7)) ->
  exists b, st8 a off x = Ok b /\ zlen b = zlen a
    /\ forall j, 0 <= j < zlen a -> at_ b j = if inw i 8 j then G j else at_ a j.
Proof.
  intros -> H1 H2 ->. unfold st8. rewrite eidx_ok by lia. cbn [bind lane].
  repeat (rewrite wr_ok by (rewrite ?aset_len; lia); cbn [bind]).
  eexists. split; [reflexivity|]. split; [now rewrite !aset_len|].
  intros j Hj. destruct (inw_spec i 8 j).
  - assert (D : j = i \/ j = i + 1 \/ j = i + 2 \/ j = i + 3 \/ j = i + 4 \/ j = i + 5 \/ j = i + 6 \/ j = i + 7) by lia.
    repeat (destruct D as [->|D]; [ats; reflexivity|]). subst j. ats. reflexivity.
  - ats. reflexivity.
Qed.

Lemma st4_G (G : Z -> Z) a off i x : off = 4 * i -> 0 <= i -> i + 4 <= zlen a ->
  lane x 0 = G i -> lane x 1 = G (i + 1) -> lane x 2 = G (i + 2) -> lane x 3 = G (i + 3) ->
  exists b, st4 a off x = Ok b /\ zlen b = zlen a
    /\ forall j, 0 <= j < zlen a -> at_ b j = if inw i 4 j then G j else at_ a j.
Proof.
  intros -> H1 H2 E0 E1 E2 E3. unfold st4. rewrite eidx_ok by lia. cbn [bind]. rewrite E0, E1, E2, E3.
  repeat (rewrite wr_ok by (rewrite ?aset_len; lia); cbn [bind]).
  eexists. split; [reflexivity|]. split; [now rewrite !aset_len|].
  intros j Hj. destruct (inw_spec i 4 j).
  - assert (D : j = i \/ j = i + 1 \/ j = i + 2 \/ j = i + 3) by lia.
    repeat (destruct D as [->|D]; [ats; reflexivity|]). subst j. ats. reflexivity.
  - ats. reflexivity.
Qed.

(** ** Groups of instructions *)

Definition redv (x : Z) : Z := to_i32 (to_i32 (Z.land x 4095 + to_i32 (Z.shiftl (Z.land x 4095) 1)) - Z.shiftr x 12).

(** reduce every lane *)
Definition vredv (x : ymm) : ymm := vmap redv x.
Lemma vredv_eq x :
  vpsubd (vpaddd (vpand x mask) (vpslld (vpand x mask) 1)) (vpsrad x 12) = vredv x.
Proof. destruct x. reflexivity. Qed.

(** multiply and reduce the even lanes; the odd lanes are not used afterwards *)
Definition junk (z : Z) : Z :=
  to_i32 (to_i32 (Z.land (hi64 z) 4095 + to_i32 (Z.shiftl (Z.land (hi64 z) 4095) 1))
          - hi64 (Z.shiftr (u64of (lo64 z) (hi64 z)) 12)).
Definition vmr64 (x y : ymm) : ymm :=
  V (mr (lane x 0 * lane y 0)) (junk (lane x 0 * lane y 0))
    (mr (lane x 2 * lane y 2)) (junk (lane x 2 * lane y 2))
    (mr (lane x 4 * lane y 4)) (junk (lane x 4 * lane y 4))
    (mr (lane x 6 * lane y 6)) (junk (lane x 6 * lane y 6)).
Lemma vmr64_eq x y :
  vpsubd (vpaddd (vpand (vpmuldq x y) mask) (vpslld (vpand (vpmuldq x y) mask) 1))
         (vpsrlq (vpmuldq x y) 12) = vmr64 x y.
Proof. destruct x, y. reflexivity. Qed.

(** multiply and reduce eight lanes: even lanes of [x], [y], odd lanes from [x'], [y'] *)
Definition vmrx (x y x' y' : ymm) : ymm :=
  V (mr (lane x 0 * lane y 0)) (mr (lane x' 0 * lane y' 0))
    (mr (lane x 2 * lane y 2)) (mr (lane x' 2 * lane y' 2))
    (mr (lane x 4 * lane y 4)) (mr (lane x' 4 * lane y' 4))
    (mr (lane x 6 * lane y 6)) (mr (lane x' 6 * lane y' 6)).
Lemma vmrx_eq x y x' y' :
  vpsubd
    (vpaddd (vpand (vpblendd (vpslldq (vpmuldq x' y') 4) (vpmuldq x y) 85) mask)
       (vpslld (vpand (vpblendd (vpslldq (vpmuldq x' y') 4) (vpmuldq x y) 85) mask) 1))
    (vpblendd (vpslldq (vpsrlq (vpmuldq x' y') 12) 4) (vpsrlq (vpmuldq x y) 12) 85)
  = vmrx x y x' y'.
Proof. destruct x, y, x', y'. reflexivity. Qed.

(** ** Symbolic execution of vector code *)

Ltac vfold := cbv zeta; cbn [bind]; cbv zeta; rewrite ?vredv_eq, ?vmr64_eq, ?vmrx_eq.


Ltac vexec :=
  cbv beta iota zeta delta [bind
    vpaddd vpsubd vpand vpcmpgtd vpsrad vpslld vpmuldq vpsrlq vpslldq vpsrldq vpblendd sel2 vpshufd
    vshufps vshufpd half128 vperm2i128 idx8 vpermd vmovd vpbroadcastd vpbroadcastq word vpmovsxwq_r
    lane vgen vmap vmap2 vgen64 bit b2n
    vredv vmr64 vmrx
    q_x8 q_minus1_x8 half_q_x8 perm0246 perm5 perm4 perm3 perm2020 perm0426 perm04152637
    perm5070 perm4060 perm_bdcst1 perm_bdcst2 perm_bdcst3
    Nat.add Nat.mul Nat.sub Nat.div Nat.modulo Nat.divmod Nat.ltb Nat.leb Nat.eqb fst snd
    Z.testbit Z.odd Pos.testbit Pos.pred_N Z.of_nat Pos.of_succ_nat Pos.succ
    Z.to_nat Pos.to_nat Pos.iter_op Pos.pred_double].

