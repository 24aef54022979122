(** Lemmas behind PropTestAvx. *)

From Coq Require Import ZArith List Bool Lia.
From Verif Require Import CSem Spec Loops ModQ Conv HeapElem RedElem AvxSem AvxElem AvxArrays AvxFinal ModelRed ModelAvx ModelSort ElemFinal
  ModelTests TestsElem TestsSound TestsRun ModelTestAvx TestAvxElem TestAvxRuns.
Import ListNotations.
Open Scope Z_scope.

(** ** The program as it is *)

Lemma main_undefined rnd clk stk tries : main rnd clk stk (mul32 2) tries true = Err SignedOverflow.
Proof.
  unfold main, run_tests. cbn [fuel Z.to_nat Pos.to_nat Pos.iter_op Nat.add cfor]. change (16 <=? 2048) with true. cbv iota.
  unfold compare_all at 1. unfold cross_check at 1.
  match goal with |- context [loop 10000 ?B ?s0] =>
    assert (H : ends (fun e => e = SignedOverflow) (loop 10000 B s0) (fun _ => False)) end.
  { eapply ends_weaken.
    - apply (loop_ends (fun e => e = SignedOverflow) (fun i s => i = 0 /\ s = (stk 16 0, stk 16 1, 0))); [lia|auto|].
      intros i s Hi [-> ->]. unfold random_array. reflexivity.
    - intros s [H _]. discriminate. }
  destruct (loop 10000 _ _) as [x|e]; cbn [ends] in H; [destruct H|subst e; reflexivity].
Qed.

Lemma main_without_avx2 rnd clk stk twice tries : main rnd clk stk twice tries false = Ok 0.
Proof. reflexivity. Qed.

(** ** What a successful cross check says *)

Lemma equal_arrays_inv a b n : equal_arrays a b n = Ok true -> 0 <= n < 4294967296 -> forall i, 0 <= i < n -> at_ a i = at_ b i.
Proof.
  intros E Hn. unfold equal_arrays in E.
  destruct (scan_inv (fun m _ => forall i, 0 <= i < m -> at_ a i = at_ b i) n _ tt E Hn) as (_ & H).
  - intros; lia.
  - intros i [] [] Hi HJ Es k Hk. destruct (Z.eq_dec k i) as [->|]; [|apply HJ; lia].
    apply bind_inv in Es. destruct Es as (x & Ex & Es). apply bind_inv in Es. destruct Es as (y & Ey & Es).
    apply rd_inv in Ex. apply rd_inv in Ey. destruct Ex as [_ ->]. destruct Ey as [_ ->].
    destruct (Z.eqb_spec (at_ a i) (at_ b i)) as [D|D]; [exact D|discriminate].
  - exact H.
Qed.

Section Random.
Variables (rnd clk : Z -> Z).
Hypothesis Hrnd : forall k, 0 <= rnd k < 2147483648.

Lemma cross_check_certifies_L stk n f g r r' : 0 <= n < 4294967296 -> (forall i, zlen (stk n i) = n) ->
  (forall a b, zlen a = n -> f a n = Ok b \/ g a n = Ok b -> zlen b = n) ->
  cross_check rnd stk wide n f g r = Ok r' ->
  r' = r + 10000 * n /\ forall j, 0 <= j < 10000 -> exists a x y, zlen a = n
    /\ (forall i, 0 <= i < n -> at_ a i = rnd (r + n * j + i) - 1073741824)
    /\ f a n = Ok x /\ g a n = Ok y /\ forall i, 0 <= i < n -> at_ x i = at_ y i.
Proof.
  intros Hn HS HF E. unfold cross_check in E. apply bind_inv in E. destruct E as (((a & b) & s) & E & Es).
  assert (I : s = r + n * 10000 /\ zlen a = n /\ zlen b = n /\ forall j, 0 <= j < 10000 -> exists a x y, zlen a = n
    /\ (forall i, 0 <= i < n -> at_ a i = rnd (r + n * j + i) - 1073741824)
    /\ f a n = Ok x /\ g a n = Ok y /\ forall i, 0 <= i < n -> at_ x i = at_ y i).
  { refine (loop_inv (fun m (s : list Z * list Z * Z) => let '(a, b, s) := s in s = r + n * m /\ zlen a = n /\ zlen b = n
      /\ forall j, 0 <= j < m -> exists a x y, zlen a = n
    /\ (forall i, 0 <= i < n -> at_ a i = rnd (r + n * j + i) - 1073741824)
    /\ f a n = Ok x /\ g a n = Ok y /\ forall i, 0 <= i < n -> at_ x i = at_ y i) 10000 _ _ _ E ltac:(lia) _ _).
    - split; [lia|]. split; [apply HS|]. split; [apply HS|]. intros; lia.
    - clear E a b s Es. intros m ((a & b) & s) ((a' & b') & s') Hm (-> & La & Lb & V) E.
      destruct (random_array_ok rnd Hrnd n a (r + n * m) Hn La) as (a1 & E1 & L1 & V1). rewrite E1 in E. cbn [bind] in E.
      rewrite (copy_array_ok rnd Hrnd) in E by assumption. cbn [bind] in E.
      apply bind_inv in E. destruct E as (x & Ex & E). apply bind_inv in E. destruct E as (y & Ey & E).
      apply bind_inv in E. destruct E as (ok & Eok & E). destruct ok; [|discriminate]. cbn [expect bind] in E.
      injection E as <- <- <-. split; [lia|]. split; [apply (HF a1 x L1); auto|]. split; [apply (HF a1 y L1); auto|].
      intros j Hj. destruct (Z.eq_dec j m) as [->|]; [|apply V; lia].
      exists a1, x, y. split; [exact L1|]. split.
      + intros i Hi. rewrite V1 by lia. apply (coef_eq rnd Hrnd).
      + split; [exact Ex|]. split; [exact Ey|]. apply (equal_arrays_inv x y n Eok Hn). }
  destruct I as (-> & _ & _ & I). injection Es as <-. split; [lia|exact I].
Qed.

(** ** Speed tests *)

Lemma fill_draws_le n a r (v : Z -> Z) (body : Z -> list Z * Z -> res (list Z * Z)) :
  0 <= n < 4294967296 -> n <= zlen a ->
  (forall i b, 0 <= i < n -> zlen b = zlen a -> body i (b, r + i) = do b <- wr b i (v (r + i)); Ok (b, r + i + 1)) ->
  exists b, loop n body (a, r) = Ok (b, r + n) /\ zlen b = zlen a /\ (forall i, 0 <= i < n -> at_ b i = v (r + i))
    /\ forall i, n <= i < zlen a -> at_ b i = at_ a i.
Proof.
  intros Hn La Hb.
  destruct (loop_ok (fun m s => snd s = r + m /\ zlen (fst s) = zlen a /\ (forall i, 0 <= i < m -> at_ (fst s) i = v (r + i))
    /\ forall i, m <= i < zlen a -> at_ (fst s) i = at_ a i) n body (a, r))
    as ((b & r') & E & Er & L & V & W).
  - exact Hn.
  - cbn [fst snd]. split; [lia|]. split; [reflexivity|]. split; [intros; lia|reflexivity].
  - intros i (b & r') Hi (Er & Lb & V & W). cbn [fst snd] in *. subst r'. rewrite Hb by assumption.
    rewrite wr_ok by lia. cbn [bind]. eexists. split; [reflexivity|]. cbn [fst snd]. split; [lia|].
    split; [rewrite aset_len; exact Lb|]. split.
    + intros j Hj. destruct (Z.eq_dec j i) as [->|]; [apply at_aset_same; lia|].
      rewrite at_aset_other by lia. apply V. lia.
    + intros j Hj. rewrite at_aset_other by lia. apply W. lia.
  - cbn [fst snd] in *. subst r'. exists b. auto.
Qed.

Definition i32s (a : list Z) : Prop := zlen a = 2048 /\ forall i, 0 <= i < 2048 -> -2147483648 <= at_ a i <= 2147483647.

(** [a] is an array of 2048 entries, the first [n] of which are in [lo .. hi] *)
Definition pre (n lo hi : Z) (a : list Z) : Prop := i32s a /\ forall i, 0 <= i < n -> lo <= at_ a i <= hi.

Definition globals_ok (s : globals) : Prop :=
  let '(t, h, r, c) := s in zlen t = 102400 /\ i32s (h 0) /\ i32s (h 1) /\ i32s (h 2) /\ zlen (h 3) = 2048.

Lemma report_fine t c : zlen t = 102400 -> exists t', report clk t c = Ok (t', c + 1) /\ zlen t' = 102400.
Proof. intros L. exact (report_ok clk (fun _ => []) 0 (fun _ => eq_refl) t c L). Qed.

Lemma measured_ok (P : heap -> Prop) f t h r c : zlen t = 102400 -> P h ->
  (forall h, P h -> exists h', f h = Ok h' /\ P h') ->
  exists t' h' c', measured clk f (t, h, r, c) = Ok (t', h', r, c') /\ zlen t' = 102400 /\ P h'.
Proof.
  intros Lt HP Hf. unfold measured.
  match goal with |- context [loop NTESTS ?B ?s0] =>
    destruct (loop_ok (fun _ (s : list Z * heap * Z) => zlen (fst (fst s)) = 102400 /\ P (snd (fst s))) NTESTS B s0)
      as (((t1 & h1) & c1) & E1 & Lt1 & Ph1) end.
  - unfold NTESTS. lia.
  - auto.
  - intros i ((u & g1) & d) Hi [Lu Pg]. cbn [fst snd] in *. unfold NTESTS in Hi. rewrite wr_ok by lia. cbn [bind].
    destruct (Hf g1 Pg) as (g2 & -> & Pg2). cbn [bind]. eexists. split; [reflexivity|]. cbn [fst snd].
    split; [rewrite aset_len; exact Lu|exact Pg2].
  - rewrite E1. cbn [bind fst snd] in *. destruct (report_fine t1 c1 Lt1) as (t2 & -> & L2). cbn [bind]. eauto 8.
Qed.

Lemma random_global n a r : 0 < n <= 2048 -> i32s a ->
  exists b, random_array rnd wide a n r = Ok (b, r + n) /\ i32s b /\ (forall i, 0 <= i < n -> at_ b i = coef rnd (r + i)).
Proof.
  intros Hn [La Ha]. unfold random_array.
  destruct (fill_draws_le n a r (coef rnd) (fun i '(a, r) => do '(x, r) <- random_coeff rnd wide 1073741824 r; do a <- wr a i x; Ok (a, r)))
    as (b & -> & Lb & V & W); [lia|lia| |].
  - intros i b Hi Lb. rewrite (coef_ok rnd Hrnd). reflexivity.
  - exists b. split; [reflexivity|]. split; [|exact V]. split; [lia|]. intros i Hi.
    assert (D : i < n \/ n <= i) by lia. destruct D.
    + rewrite V by lia. assert (B := coef_range rnd Hrnd (r + i)). lia.
    + rewrite W by lia. apply Ha, Hi.
Qed.

Lemma fill_random_ok x n t h r c : 0 < n <= 2048 -> (x = 0 \/ x = 1 \/ x = 2) -> globals_ok (t, h, r, c) ->
  exists a, fill_random rnd wide x n (t, h, r, c) = Ok (t, hset h x a, r + n, c) /\ globals_ok (t, hset h x a, r + n, c)
    /\ i32s a /\ (forall i, 0 <= i < n -> at_ a i = coef rnd (r + i)).
Proof.
  intros Hn Hx (Lt & H0 & H1 & H2 & H3). unfold fill_random.
  destruct (random_global n (h x) r Hn) as (a & -> & Ha & V).
  { destruct Hx as [-> |[-> | ->]]; assumption. }
  cbn [bind]. exists a. split; [reflexivity|]. split; [|auto].
  split; [exact Lt|]. unfold hset. destruct Hx as [-> |[-> | ->]]; cbn; auto.
Qed.

(** [f] can be called over and over on such arrays *)
Definition steady (n lo hi : Z) (f : list Z -> res (list Z)) : Prop :=
  forall a, pre n lo hi a -> exists b, f a = Ok b /\ pre n lo hi b.

Lemma on_a_measured n lo hi f s : 0 < n <= 2048 -> lo <= -1073741824 -> 1073741823 <= hi -> steady n lo hi f ->
  globals_ok s -> exists s', (do s <- fill_random rnd wide 0 n s; measured clk (on_a f) s) = Ok s' /\ globals_ok s'.
Proof.
  intros Hn Hlo Hhi Hf Hs. destruct s as (((t & h) & r) & c).
  destruct (fill_random_ok 0 n t h r c Hn (or_introl eq_refl) Hs) as (a & -> & Hg & Ha & V). cbn [bind].
  destruct Hg as (Lt & G0 & G1 & G2 & G3).
  destruct (measured_ok (fun g => pre n lo hi (g 0) /\ i32s (g 1) /\ i32s (g 2) /\ zlen (g 3) = 2048)
    (on_a f) t (hset h 0 a) (r + n) c Lt) as (t' & h' & c' & -> & Lt' & (P0 & P1 & P2 & P3)).
  - rewrite hset_same. split; [|auto]. split; [exact Ha|]. intros i Hi. rewrite V by exact Hi.
    assert (B := coef_range rnd Hrnd (r + i)). lia.
  - intros g (P0 & P1 & P2 & P3). unfold on_a. destruct (Hf (g 0) P0) as (b & -> & Pb). cbn [bind].
    eexists. split; [reflexivity|]. rewrite hset_same. unfold hset. cbn. auto.
  - eexists. split; [reflexivity|]. cbn. destruct P0. auto.
Qed.

Lemma pre_all n lo hi a : pre n lo hi a -> all_in (- 2 ^ 31) (2 ^ 31 - 1) a.
Proof.
  intros [[La Ha] _]. apply all_in_of. intros i Hi. specialize (Ha i ltac:(lia)). lia.
Qed.

(** From the facts about a function on a prefix *)
Lemma pre_of n lo hi a b : 0 < n <= 2048 -> i32s a -> zlen b = zlen a -> -2147483648 <= lo -> hi <= 2147483647 ->
  (forall i, 0 <= i < n -> lo <= at_ b i <= hi) -> (forall i, n <= i < zlen a -> at_ b i = at_ a i) -> pre n lo hi b.
Proof.
  intros Hn [La Ha] Lb Hlo Hhi V W. split; [|exact V]. split; [lia|]. intros i Hi. assert (D : i < n \/ n <= i) by lia. destruct D.
  - specialize (V i ltac:(lia)). lia.
  - rewrite W by lia. apply Ha, Hi.
Qed.

Notation lo32 := (-2147483648).
Notation hi32 := 2147483647.

Lemma steady_reduce n : 0 < n <= 2048 -> steady n lo32 hi32 (fun a => reduce_array a n)
  /\ steady n lo32 hi32 (fun a => reduce_array_twice a n) /\ steady n lo32 hi32 (fun a => shift_array a n).
Proof.
  intros Hn. split; [|split].
  - intros a Ha. assert (X := pre_all _ _ _ _ Ha). destruct Ha as [Ha _].
    destruct (reduce_array_correct_L a n ltac:(lia) ltac:(destruct Ha; lia) X) as (b & E & L & V & W).
    exists b. split; [exact E|]. apply (pre_of n lo32 hi32 a); auto; lia || (intros i Hi; destruct (V i Hi); lia).
  - intros a Ha. assert (X := pre_all _ _ _ _ Ha). destruct Ha as [Ha _].
    destruct (reduce_array_twice_correct_L a n ltac:(lia) ltac:(destruct Ha; lia) X) as (b & E & L & V & W).
    exists b. split; [exact E|]. apply (pre_of n lo32 hi32 a); auto; lia || (intros i Hi; destruct (V i Hi); lia).
  - intros a Ha. destruct Ha as [Ha _]. destruct Ha as [La Ha].
    destruct (shift_array_spec a n ltac:(lia) ltac:(lia)) as (b & E & L & V & W).
    { intros i Hi. specialize (Ha i ltac:(lia)). lia. }
    exists b. split; [exact E|]. apply (pre_of n lo32 hi32 a); auto; try lia; [split; assumption|].
    intros i Hi. rewrite V by exact Hi. specialize (Ha i ltac:(lia)). destruct (Z.ltb_spec 6144 (at_ a i)); lia.
Qed.

(** correct, for entries in the range of the random numbers: bits 28 and 29 keep the
    entries there *)
Lemma land_Q u : Z.land u 12289 = 4096 * ((u / 4096) mod 4) + u mod 2.
Proof.
  change 12289 with (Z.lor 12288 1). rewrite Z.land_lor_distr_r.
  assert (D : Z.land (Z.land u 12288) (Z.land u 1) = 0).
  { rewrite (Z.land_comm u 1), Z.land_assoc, <- (Z.land_assoc u 12288 1). change (Z.land 12288 1) with 0.
    rewrite Z.land_0_r. apply Z.land_0_l. }
  rewrite <- (Z.lxor_lor _ _ D), <- (Z.add_nocarry_lxor _ _ D).
  assert (E1 : Z.land u 1 = u mod 2) by (apply (Z.land_ones u 1); lia).
  assert (E2 : Z.land u 12288 = 4096 * ((u / 4096) mod 4)).
  { change 12288 with (Z.shiftl 3 12). replace (4096 * ((u / 4096) mod 4)) with (Z.shiftl (Z.land (Z.shiftr u 12) 3) 12).
    - apply Z.bits_inj'. intros k Hk. rewrite Z.land_spec. assert (C : k < 12 \/ 12 <= k) by lia. destruct C.
      + rewrite !Z.shiftl_spec_low by lia. apply andb_false_r.
      + rewrite !Z.shiftl_spec_high by lia. rewrite Z.land_spec, Z.shiftr_spec by lia. f_equal. f_equal. lia.
    - rewrite Z.shiftl_mul_pow2 by lia. change 3 with (Z.ones 2). rewrite (Z.land_ones (Z.shiftr u 12) 2) by lia.
      rewrite Z.shiftr_div_pow2 by lia. change (2 ^ 12) with 4096. change (2 ^ 2) with 4. lia. }
  lia.
Qed.

Lemma land_up u : 16384 <= u < 16384 + 4096 -> 0 <= Z.land u 12289 <= 1.
Proof. intros Hu. rewrite land_Q. lia. Qed.
Lemma land_down u : -16384 - 4096 <= u < -16384 -> 12288 <= Z.land u 12289 <= 12289.
Proof. intros Hu. rewrite land_Q. lia. Qed.
Lemma land_any u : 0 <= Z.land u 12289 <= 12289.
Proof. rewrite land_Q. lia. Qed.

Definition step16 (x : Z) : Z :=
  let y := x + Z.land (x / 65536) 12289 - 12289 in y + Z.land (y / 65536) 12289.

Lemma step16_range x : -1073741824 - 2 * 12289 <= x <= 1073741823 + 2 * 12289 ->
  -1073741824 - 2 * 12289 <= step16 x <= 1073741823 + 2 * 12289.
Proof.
  intros Hx. unfold step16. cbv zeta. set (a := Z.land (x / 65536) 12289). set (y := x + a - 12289). set (b := Z.land (y / 65536) 12289).
  assert (Ra := land_any (x / 65536) : 0 <= a <= 12289). assert (Rb := land_any (y / 65536) : 0 <= b <= 12289).
  assert (U1 : 1073741824 <= x -> 0 <= a <= 1) by (intros; apply land_up; lia).
  assert (U2 : 1073741824 <= y -> 0 <= b <= 1) by (intros; apply land_up; unfold y in *; lia).
  assert (D1 : x < -1073741824 -> 12288 <= a <= 12289) by (intros; apply land_down; lia).
  assert (D2 : y < -1073741824 -> 12288 <= b <= 12289) by (intros; apply land_down; unfold y in *; lia).
  unfold y in *. clearbody a b. clear y. lia.
Qed.

Lemma steady_correct n : 0 < n <= 2048 -> steady n (-1073741824 - 2 * 12289) (1073741823 + 2 * 12289) (fun a => correct a n).
Proof.
  intros Hn a [Ha V0]. destruct Ha as [La Ha].
  assert (L : exists b, correct a n = Ok b /\ zlen b = zlen a /\ (forall i, 0 <= i < n -> at_ b i = step16 (at_ a i))
    /\ forall i, n <= i < zlen a -> at_ b i = at_ a i).
  { unfold correct. apply map_loop with (P := fun _ x => -1073741824 - 2 * 12289 <= x <= 1073741823 + 2 * 12289)
      (R := fun _ x v => v = step16 x); [lia|lia|exact V0|].
    intros i b Hi Hb Hx. rewrite rd_ok by lia. cbn [bind]. set (x := at_ b i) in *.
    rewrite !Z.shiftr_div_pow2 by lia. change (2 ^ 16) with 65536. change ModelRed.Q with 12289.
    assert (R := step16_range x Hx). unfold step16 in R |- *. cbv zeta in R |- *.
    assert (Ra := land_any (x / 65536)). unfold add32, sub32. rewrite i32_ok by lia. cbn [bind]. rewrite i32_ok by lia. cbn [bind].
    rewrite Z.shiftr_div_pow2 by lia. change (2 ^ 16) with 65536. rewrite i32_ok by lia. cbn [bind].
    rewrite wr_ok by lia. eauto. }
  destruct L as (b & E & L & V & W). exists b. split; [exact E|].
  apply (pre_of n _ _ a); auto; try lia; [split; assumption|]. intros i Hi. rewrite V by exact Hi. apply step16_range, V0, Hi.
Qed.

Lemma steady_scalar n : 0 < n <= 2048 -> steady n (-1073741824) 1073741823 (fun a => scalar_mul_reduce_array a n 273).
Proof.
  intros Hn a [Ha V0]. destruct Ha as [La Ha].
  destruct (scalar_mul_reduce_array_spec a n 273 ltac:(lia) ltac:(lia)) as (b & E & L & V & W).
  { intros i Hi. specialize (V0 i Hi). unfold mulrange. lia. }
  exists b. split; [exact E|]. apply (pre_of n _ _ a); auto; try lia; [split; assumption|].
  intros i Hi. rewrite V by exact Hi. specialize (V0 i Hi). unfold redz. lia.
Qed.

Lemma steady_eltw n G f : 0 < n <= 2048 -> n mod 16 = 0 -> (forall a j, lo32 <= G a j <= hi32) ->
  (forall a, n <= zlen a -> exists r, f a = Ok r /\ eltw (G a) a n r) -> steady n lo32 hi32 f.
Proof.
  intros Hn H16 HG Hf a [Ha _]. destruct (Hf a ltac:(destruct Ha; lia)) as (r & E & L & V).
  exists r. split; [exact E|]. apply (pre_of n _ _ a); auto; try lia.
  - intros i Hi. rewrite V by (destruct Ha; lia). replace (i <? n) with true by lia. apply HG.
  - intros i Hi. rewrite V by lia. replace (i <? n) with false by lia. reflexivity.
Qed.

Lemma steady_asm n : 0 < n <= 2048 -> n mod 16 = 0 ->
  steady n lo32 hi32 (fun a => reduce_array_asm a n) /\ steady n lo32 hi32 (fun a => reduce_array_asm2 a n)
  /\ steady n lo32 hi32 (fun a => reduce_array_twice_asm a n) /\ steady n lo32 hi32 (fun a => reduce_array_twice_asm2 a n)
  /\ steady n lo32 hi32 (fun a => correct_asm a n) /\ steady n lo32 hi32 (fun a => shift_array_asm a n)
  /\ steady n lo32 hi32 (fun a => scalar_mul_reduce_array_asm a n 273).
Proof.
  intros Hn H16. assert (M : mult16 n) by (split; [lia|exact H16]).
  split; [|split; [|split; [|split; [|split; [|split]]]]].
  - apply (steady_eltw n (fun a j => redv (at_ a j))); auto; [intros; apply to_i32_range|].
    intros a La. exact (reduce_array_asm_spec a n M La).
  - apply (steady_eltw n (fun a j => redv (at_ a j))); auto; [intros; apply to_i32_range|].
    intros a La. exact (reduce_array_asm2_spec a n M La).
  - apply (steady_eltw n (fun a j => redv (redv (at_ a j)))); auto; [intros; apply to_i32_range|].
    intros a La. exact (reduce_array_twice_asm_spec a n M La).
  - apply (steady_eltw n (fun a j => redv (redv (at_ a j)))); auto; [intros; apply to_i32_range|].
    intros a La. exact (reduce_array_twice_asm2_spec a n M La).
  - apply (steady_eltw n (fun a j => corrv (at_ a j))); auto; [intros; apply to_i32_range|].
    intros a La. exact (correct_asm_spec a n M La).
  - apply (steady_eltw n (fun a j => shiftv (at_ a j))); auto; [intros; apply to_i32_range|].
    intros a La. exact (shift_array_asm_spec a n M La).
  - apply (steady_eltw n (fun a j => to_i32 (redz (at_ a j * 273)))); auto; [intros; apply to_i32_range|].
    intros a La. apply (scalar_mul_reduce_array_asm_spec a n 273 M La). unfold AvxArrays.w32. lia.
Qed.

(** The speed tests of functions of one array *)
Lemma speed_tests_ok n s : 0 < n <= 2048 -> n mod 16 = 0 -> globals_ok s ->
  (forall f, In f [reduce_array; reduce_array_twice; correct; shift_array; reduce_array_asm; reduce_array_asm2;
     reduce_array_twice_asm; reduce_array_twice_asm2; correct_asm; shift_array_asm] ->
     exists s', speed_test rnd clk wide n f s = Ok s' /\ globals_ok s')
  /\ (forall f, In f [scalar_mul_reduce_array; scalar_mul_reduce_array_asm] ->
     exists s', speed_test4 rnd clk wide n f s = Ok s' /\ globals_ok s').
Proof.
  intros Hn H16 Hs.
  assert (K : forall lo hi f, steady n lo hi f -> lo <= -1073741824 -> 1073741823 <= hi ->
    exists s', (do s <- fill_random rnd wide 0 n s; measured clk (on_a f) s) = Ok s' /\ globals_ok s').
  { intros lo hi f H3 H1 H2. exact (on_a_measured n lo hi f s Hn H1 H2 H3 Hs). }
  destruct (steady_reduce n Hn) as (S1 & S2 & S3).
  destruct (steady_asm n Hn H16) as (A1 & A2 & A3 & A4 & A5 & A6 & A7).
  assert (C := steady_correct n Hn). assert (D := steady_scalar n Hn).
  split; intros f Hf; repeat (destruct Hf as [<-|Hf]; [|]); try destruct Hf.
  - apply (K _ _ _ S1); lia.
  - apply (K _ _ _ S2); lia.
  - apply (K _ _ _ C); lia.
  - apply (K _ _ _ S3); lia.
  - apply (K _ _ _ A1); lia.
  - apply (K _ _ _ A2); lia.
  - apply (K _ _ _ A3); lia.
  - apply (K _ _ _ A4); lia.
  - apply (K _ _ _ A5); lia.
  - apply (K _ _ _ A6); lia.
  - apply (K _ _ _ D); lia.
  - apply (K _ _ _ A7); lia.
Qed.

Lemma eltw_i32s n G a x : 0 < n <= 2048 -> i32s a -> eltw G a n x -> (forall j, -2147483648 <= G j <= 2147483647) -> i32s x.
Proof.
  intros Hn [La Ha] [Lx Vx] HG. split; [lia|]. intros i Hi. rewrite Vx by lia. destruct (i <? n); [apply HG|apply Ha, Hi].
Qed.

(** The speed tests of the assembly products *)
Lemma speed2_start n s : 0 < n <= 2048 -> globals_ok s ->
  exists t h r c a p, s = (t, h, r, c) /\ zlen t = 102400
    /\ (forall f, speed_test2 rnd clk wide n f s
        = measured clk (fun h => on_a (fun a => f a n (h 3)) h) (t, hset (hset h 0 a) 3 p, r + n + n, c))
    /\ i32s a /\ zlen p = 2048 /\ i32s (h 1) /\ i32s (h 2)
    /\ (forall i, 0 <= i < n -> at_ a i = coef rnd (r + i)) /\ (forall i, 0 <= i < n -> at_ p i = coef16 rnd (r + n + i)).
Proof.
  intros Hn Hs. destruct s as (((t & h) & r) & c). unfold speed_test2.
  destruct (fill_random_ok 0 n t h r c Hn (or_introl eq_refl) Hs) as (a & E & Hg & Ha & V).
  destruct Hg as (Lt & G0 & G1 & G2 & G3). rewrite E. cbn [bind]. unfold random_array16.
  destruct (fill_draws_le n (hset h 0 a 3) (r + n) (coef16 rnd)
    (fun i '(p, r) => do '(x, r) <- random_coeff rnd wide 32768 r; do p <- wr p i (to_i16 x); Ok (p, r))) as (p & Ep & Lp & Vp & _).
  - lia.
  - lia.
  - intros i b Hi Lb. rewrite (coef16_ok rnd Hrnd). cbn [bind]. rewrite to_i16_small by apply (coef16_range rnd Hrnd). reflexivity.
  - exists t, h, r, c, a, p. rewrite Ep. cbn [bind]. split; [reflexivity|]. split; [exact Lt|]. split; [reflexivity|].
    split; [exact Ha|]. split; [lia|]. split; [exact G1|]. split; [exact G2|]. auto.
Qed.

Lemma speed2_asm_ok n s : 0 < n <= 2048 -> n mod 16 = 0 -> globals_ok s ->
  forall f, In f [mul_reduce_array16_asm; mul_reduce_array16_asm2] ->
  exists s', speed_test2 rnd clk wide n f s = Ok s' /\ globals_ok s'.
Proof.
  intros Hn H16 Hs f Hf. assert (M : mult16 n) by (split; [lia|exact H16]).
  destruct (speed2_start n s Hn Hs) as (t & h & r & c & a & p & -> & Lt & -> & Ha & Lp & G1 & G2 & Va & Vp).
  assert (Kf : forall a, i32s a -> exists x, f a n p = Ok x /\ eltw (fun j => to_i32 (redz (at_ a j * at_ p j))) a n x).
  { intros b [Lb Hb]. destruct Hf as [<-|[<-|[]]].
    - apply mul_reduce_array16_asm_spec; [exact M|lia|lia].
    - apply mul_reduce_array16_asm2_spec; [exact M|lia|lia|]. intros i Hi. split; [apply Hb; lia|].
      rewrite Vp by lia. apply (coef16_range rnd Hrnd). }
  destruct (measured_ok (fun g => i32s (g 0) /\ i32s (g 1) /\ i32s (g 2) /\ g 3 = p)
    (fun h => on_a (fun a => f a n (h 3)) h) t (hset (hset h 0 a) 3 p) (r + n + n) c Lt)
    as (t' & h' & c' & -> & Lt' & (P0 & P1 & P2 & P3)).
  - unfold hset. cbn. auto.
  - intros g (P0 & P1 & P2 & P3). unfold on_a. rewrite P3. destruct (Kf (g 0) P0) as (x & -> & Lx & Vx). cbn [bind].
    eexists. split; [reflexivity|]. rewrite hset_same. unfold hset. cbn. split; [|auto].
    apply (eltw_i32s n _ (g 0) x Hn P0 (conj Lx Vx)). intros j. apply to_i32_range.
  - eexists. split; [reflexivity|]. cbn. rewrite P3. auto.
Qed.
Lemma speed3_start n s : 0 < n <= 2048 -> globals_ok s ->
  exists t h r c a b, s = (t, h, r, c) /\ zlen t = 102400
    /\ (forall f, speed_test3 rnd clk wide n f s = measured clk (fun h => f h 0 n 1 2) (t, hset (hset h 1 a) 2 b, r + n + n, c))
    /\ i32s a /\ i32s b /\ i32s (h 0) /\ zlen (h 3) = 2048
    /\ (forall i, 0 <= i < n -> at_ a i = coef rnd (r + i)) /\ (forall i, 0 <= i < n -> at_ b i = coef rnd (r + n + i)).
Proof.
  intros Hn Hs. destruct s as (((t & h) & r) & c). unfold speed_test3.
  destruct (fill_random_ok 1 n t h r c Hn (or_intror (or_introl eq_refl)) Hs) as (a & E & Hg & Ha & Va).
  destruct (fill_random_ok 2 n t (hset h 1 a) (r + n) c Hn (or_intror (or_intror eq_refl)) Hg) as (b & E2 & _ & Hb & Vb).
  destruct Hs as (Lt & G0 & _ & _ & G3).
  exists t, h, r, c, a, b. split; [reflexivity|]. split; [exact Lt|]. split; [|auto 8].
  intros f. rewrite E. cbn [bind]. rewrite E2. reflexivity.
Qed.

Lemma speed3_asm_ok n s : 0 < n <= 2048 -> n mod 16 = 0 -> globals_ok s ->
  exists s', speed_test3 rnd clk wide n mul_reduce_array_asm_h s = Ok s' /\ globals_ok s'.
Proof.
  intros Hn H16 Hs. assert (M : mult16 n) by (split; [lia|exact H16]).
  destruct (speed3_start n s Hn Hs) as (t & h & r & c & a & b & -> & Lt & -> & Ha & Hb & H0 & H3 & Va & Vb).
  destruct (measured_ok (fun g => i32s (g 0) /\ i32s (g 1) /\ i32s (g 2) /\ zlen (g 3) = 2048)
    (fun h => mul_reduce_array_asm_h h 0 n 1 2) t (hset (hset h 1 a) 2 b) (r + n + n) c Lt)
    as (t' & h' & c' & -> & Lt' & (P0 & P1 & P2 & P3)).
  - unfold hset. cbn. auto.
  - intros g (P0 & P1 & P2 & P3).
    destruct (mul_reduce_array_asm_h_spec g 0 n 1 2 M) as (x & -> & V & F); [destruct P0; lia|destruct P1; lia|destruct P2; lia|].
    eexists. split; [reflexivity|]. rewrite !(F 1), !(F 2), !(F 3) by lia. split; [|auto].
    apply (eltw_i32s n _ (g 0) (x 0) Hn P0 V). intros j. apply to_i32_range.
  - eexists. split; [reflexivity|]. cbn. auto.
Qed.

(** *** The speed tests of the C products *)

Definition stopped {A} (m : res A) : Prop := m = Err AssertFail \/ m = Err SignedOverflow.
Definition stopE (e : err) : Prop := e = AssertFail \/ e = SignedOverflow.

Lemma stopped_of {A} (m : res A) : ends stopE m (fun _ => False) -> stopped m.
Proof. unfold stopped. destruct m; cbn [ends]; [tauto|]. intros [-> | ->]; auto. Qed.

Lemma measured_stops f t h r c : zlen t = 102400 -> ends stopE (f h) (fun _ => False) -> stopped (measured clk f (t, h, r, c)).
Proof.
  intros Lt Hf. apply stopped_of. unfold measured. eapply ends_bind.
  - apply (loop_ends stopE (fun m (s : list Z * heap * Z) => m = 0 /\ s = (t, h, c))); [unfold NTESTS; lia|auto|].
    intros i s Hi [-> ->]. cbv beta iota. rewrite wr_ok by lia. cbn [bind]. eapply ends_bind; [exact Hf|]. intros x [].
  - intros s [H _]. discriminate.
Qed.

Definition outside (z : Z) : Prop := z < lo43 \/ hi43 < z.

Lemma speed2_c_stops n s i : 0 < n <= 2048 -> globals_ok s -> 0 <= i < n ->
  outside (coef rnd (snd (fst s) + i) * coef16 rnd (snd (fst s) + n + i)) ->
  stopped (speed_test2 rnd clk wide n mul_reduce_array16 s).
Proof.
  intros Hn Hs Hi HO.
  destruct (speed2_start n s Hn Hs) as (t & h & r & c & a & p & -> & Lt & -> & Ha & Lp & G1 & G2 & Va & Vp).
  cbn [fst snd] in HO. apply measured_stops; [exact Lt|]. unfold on_a. rewrite hset_same.
  replace (hset (hset h 0 a) 3 p 0) with a by reflexivity.
  eapply ends_bind with (P := fun _ => False); [|intros x []].
  change (mul_reduce_array16 a n p) with (loop n (fun i a => do x <- rd a i; do y <- rd p i; do v <- mul_red x y; wr a i v) a).
  destruct Ha as [La Ha]. eapply ends_weaken.
  - apply (loop_ends stopE (fun m b => zlen b = 2048 /\ (forall j, m <= j < n -> at_ b j = at_ a j)
      /\ forall j, 0 <= j < m -> lo43 <= at_ a j * at_ p j < 2 ^ 43)).
    + lia.
    + split; [exact La|]. split; [reflexivity|]. intros; lia.
    + intros j b Hj (Lb & H1 & H2). rewrite !rd_ok by lia. cbn [bind]. rewrite H1 by lia.
      eapply ends_bind; [apply mul_red_ends|].
      * rewrite Va, Vp by lia. assert (B1 := coef_range rnd Hrnd (r + j)). assert (B2 := coef16_range rnd Hrnd (r + n + j)).
        change (2 ^ 63) with 9223372036854775808. nia.
      * intros _. left. reflexivity.
      * intros _. right. reflexivity.
      * intros v [Rv ->]. rewrite wr_ok by lia. cbn [ends]. split; [rewrite aset_len; exact Lb|]. split.
        -- intros k Hk. rewrite at_aset_other by lia. apply H1. lia.
        -- intros k Hk. destruct (Z.eq_dec k j) as [->|]; [exact Rv|apply H2; lia].
  - intros b (_ & _ & H). specialize (H i Hi). rewrite Va, Vp in H by lia. unfold outside, lo43, hi43 in *.
    change (2 ^ 43) with 8796093022208 in H. lia.
Qed.

Lemma speed3_c_stops n s i : 0 < n <= 2048 -> globals_ok s -> 0 <= i < n ->
  outside (coef rnd (snd (fst s) + i) * coef rnd (snd (fst s) + n + i)) ->
  stopped (speed_test3 rnd clk wide n mul_reduce_array_h s).
Proof.
  intros Hn Hs Hi HO.
  destruct (speed3_start n s Hn Hs) as (t & h & r & c & a & b & -> & Lt & -> & Ha & Hb & H0 & H3 & Va & Vb).
  cbn [fst snd] in HO. apply measured_stops; [exact Lt|].
  destruct Ha as [La Ha]. destruct Hb as [Lb Hb]. destruct H0 as [L0 _]. set (g := hset (hset h 1 a) 2 b).
  assert (G0 : g 0 = h 0) by reflexivity. assert (G1 : g 1 = a) by reflexivity. assert (G2 : g 2 = b) by reflexivity.
  eapply ends_weaken.
  - apply (mul_h_ends rnd (fun _ _ => []) Hrnd stopE g 0 1 2 n); [lia|lia|lia|rewrite G0; lia|rewrite G1; lia|rewrite G2; lia| | | ].
    + intros j Hj. rewrite G1, G2, Va, Vb by lia. assert (B1 := coef_range rnd Hrnd (r + j)).
      assert (B2 := coef_range rnd Hrnd (r + n + j)). change (2 ^ 63) with 9223372036854775808. nia.
    + intros. left. reflexivity.
    + intros. right. reflexivity.
  - intros h' (_ & _ & V). destruct (V i Hi) as [_ H]. rewrite G1, G2, Va, Vb in H by lia. unfold outside, lo43, hi43 in *.
    change (2 ^ 43) with 8796093022208 in H. lia.
Qed.
End Random.

(** ** The statements of PropTestAvx *)

Definition source (rnd : Z -> Z) : Prop := forall k, 0 <= rnd k < 2 ^ 31.

Lemma source_of rnd : source rnd -> forall k, 0 <= rnd k < 2147483648.
Proof. intros H k. specialize (H k). change (2 ^ 31) with 2147483648 in H. exact H. Qed.

Lemma test_avx_reductions_pass_L rnd stk n r : source rnd -> 0 < n < 2 ^ 32 -> n mod 16 = 0 -> (forall i, zlen (stk n i) = n) ->
  cross_check rnd stk wide n reduce_array_asm reduce_array r = Ok (r + 10000 * n)
  /\ cross_check rnd stk wide n reduce_array_asm2 reduce_array r = Ok (r + 10000 * n)
  /\ cross_check rnd stk wide n reduce_array_twice_asm reduce_array_twice r = Ok (r + 10000 * n)
  /\ cross_check rnd stk wide n reduce_array_twice_asm2 reduce_array_twice r = Ok (r + 10000 * n)
  /\ test_correction rnd stk n r = Ok (r + 10000 * n)
  /\ test_shift rnd stk n r = Ok (r + 10000 * n).
Proof.
  intros HR Hn H16 HS. assert (Hrnd := source_of rnd HR). assert (Hn' : 0 <= n < 4294967296) by lia.
  destruct (agree_reduce rnd Hrnd stk n Hn H16) as [A1 A2]. destruct (agree_twice rnd Hrnd stk n Hn H16) as [A3 A4].
  split; [apply (cross_check_ok rnd Hrnd); assumption|]. split; [apply (cross_check_ok rnd Hrnd); assumption|].
  split; [apply (cross_check_ok rnd Hrnd); assumption|]. split; [apply (cross_check_ok rnd Hrnd); assumption|].
  split.
  - unfold test_correction. apply (test_against_ok rnd Hrnd stk n _ (coefc rnd) correct_asm normalize r (-12289) (2 * 12289 - 1) Hn' HS).
    + intros a r0 La. exact (random_array_for_correct_ok rnd Hrnd n a r0 Hn' La).
    + intros k. unfold coefc. lia.
    + exact (agree_correct rnd Hrnd stk n Hn H16).
  - unfold test_shift. apply (test_against_ok rnd Hrnd stk n _ (coefs rnd) shift_array_asm shift_array r 0 (12289 - 1) Hn' HS).
    + intros a r0 La. exact (random_array_for_shift_ok rnd Hrnd n a r0 Hn' La).
    + intros k. unfold coefs. lia.
    + exact (agree_shift rnd Hrnd stk n Hn H16).
Qed.

(** What random_coeff draws for the 32-bit and for the 16-bit entries *)
Definition entry (rnd : Z -> Z) (k : Z) : Z := rnd k - 2 ^ 30.
Definition entry16 (rnd : Z -> Z) (k : Z) : Z := rnd k mod 2 ^ 16 - 2 ^ 15.

(** The bounds on line 104 and 378: MIN_REDUCE_IN .. MAX_REDUCE_IN *)
Definition admitted (z : Z) : Prop := -8796042698752 <= z <= 8796093026303.

Lemma coef_entry rnd k : source rnd -> coef rnd k = entry rnd k.
Proof. intros H. apply (coef_eq rnd (source_of rnd H)). Qed.
Lemma coef16_entry rnd k : coef16 rnd k = entry16 rnd k.
Proof. reflexivity. Qed.

Lemma test_avx_products_never_mismatch_L rnd stk tries n r : source rnd -> 0 < n < 2 ^ 32 -> n mod 16 = 0 -> (forall i, zlen (stk n i) = n) ->
  let t16 := test_mul_reduce_array16 rnd stk wide tries n r in
  let tm := test_mul_reduce_array rnd stk wide n r in
  let ts := test_scalar_mul_reduce_array rnd stk wide n r in
  ((exists r', t16 = Ok r') \/ t16 = Err SignedOverflow \/ t16 = Err NoFuel)
  /\ (tm = Ok (r + 20000 * n) \/ tm = Err SignedOverflow)
  /\ (ts = Ok (r + 10000 * (n + 1)) \/ ts = Err AssertFail \/ ts = Err SignedOverflow).
Proof.
  intros HR Hn H16 HS. cbv zeta. assert (Hrnd := source_of rnd HR). split; [|split].
  - assert (H := test16_ends rnd Hrnd stk tries (fun e => e = SignedOverflow \/ e = NoFuel) n r 0 Hn H16 HS
      (or_introl (or_intror eq_refl)) (or_introl (or_introl eq_refl))).
    destruct (test_mul_reduce_array16 rnd stk wide tries n r) as [x|e]; cbn [ends] in H; [eauto|]. destruct H as [-> | ->]; auto.
  - assert (H := testmul_ends rnd stk Hrnd (fun e => e = SignedOverflow) n r Hn H16 HS (or_introl eq_refl)).
    destruct (test_mul_reduce_array rnd stk wide n r) as [x|e]; cbn [ends] in H; subst; auto.
  - assert (H := testscalar_ends rnd stk tries Hrnd (fun e => e = AssertFail \/ e = SignedOverflow) n r Hn H16 HS
      (or_introl (or_introl eq_refl)) (or_introl (or_intror eq_refl))).
    destruct (test_scalar_mul_reduce_array rnd stk wide n r) as [x|e]; cbn [ends] in H; [subst; auto|]. destruct H as [-> | ->]; auto.
Qed.

Lemma test_avx_products_pass_L rnd stk tries n r m : source rnd -> 0 < n < 2 ^ 32 -> n mod 16 = 0 -> (forall i, zlen (stk n i) = n) ->
  let x := entry rnd in let y := entry16 rnd in
  ((forall k, exists j, 0 <= j < m /\ admitted (x (k + 2 * j) * y (k + 2 * j + 1))) -> m * n < Z.of_nat tries ->
   (forall k, admitted (x k * y (k + 1)) -> x k * y (k + 1) < 2 ^ 43) ->
   exists r', test_mul_reduce_array16 rnd stk wide tries n r = Ok r')
  /\ ((forall k l j, 0 <= j <= 31 -> admitted (x k * (x l / 2 ^ j)) -> x k * (x l / 2 ^ j) < 2 ^ 43) ->
   test_mul_reduce_array rnd stk wide n r = Ok (r + 20000 * n)
   /\ ((forall j, 0 <= j < 10000 -> 0 <= x (r + (n + 1) * j + n)) ->
    test_scalar_mul_reduce_array rnd stk wide n r = Ok (r + 10000 * (n + 1)))).
Proof.
  intros HR Hn H16 HS. cbv zeta. assert (Hrnd := source_of rnd HR). split.
  - intros HO HT HW.
    assert (H := test16_ends rnd Hrnd stk tries (fun e => False) n r m Hn H16 HS).
    destruct (test_mul_reduce_array16 rnd stk wide tries n r) as [x|e]; [eauto|]. exfalso. apply H.
    + right. split; [|exact HT]. intros k. destruct (HO k) as (j & Hj & HA). exists j. split; [exact Hj|].
      unfold accepted. rewrite coef_entry, coef16_entry by exact HR. exact HA.
    + right. intros k. rewrite coef_entry, coef16_entry by exact HR. intros [W1 W2]. specialize (HW k).
      unfold admitted in HW. unfold hi43 in W2. change (2 ^ 43) with 8796093022208 in *. lia.
  - intros HW.
    assert (C : clear_of_window rnd).
    { intros k l j Hj [W1 W2]. rewrite !coef_entry in W1, W2 by exact HR. specialize (HW k l j Hj).
      unfold admitted in HW. unfold hi43 in W2. set (z := entry rnd k * (entry rnd l / 2 ^ j)) in *. clearbody z.
      change (2 ^ 43) with 8796093022208 in *. lia. }
    split.
    + assert (H := testmul_ends rnd stk Hrnd (fun e => False) n r Hn H16 HS (or_intror C)).
      destruct (test_mul_reduce_array rnd stk wide n r) as [x|e]; cbn [ends] in H; [subst; reflexivity|destruct H].
    + intros HA. assert (H := testscalar_ends rnd stk tries Hrnd (fun e => False) n r Hn H16 HS).
      destruct (test_scalar_mul_reduce_array rnd stk wide n r) as [x|e].
      * cbn [ends] in H. rewrite H; [reflexivity| |right; exact C]. right. intros j Hj. rewrite coef_entry by exact HR. apply HA, Hj.
      * exfalso. apply H; [|right; exact C]. right. intros j Hj. rewrite coef_entry by exact HR. apply HA, Hj.
Qed.

(** ** Draws that stop the tests *)

Lemma test_avx_scalar_stops_L rnd stk n r i0 i1 i2 : source rnd -> 0 < n < 2 ^ 32 -> n mod 16 = 0 -> (forall i, zlen (stk n i) = n) ->
  let x := entry rnd in
  x (r + n) < 0 -> 0 <= i0 < n -> x (r + i0) <= 0 -> 0 <= i1 < n -> 0 <= x (r + i1) ->
  0 <= i2 < n -> ~ admitted (x (r + i2) * x (r + n)) ->
  test_scalar_mul_reduce_array rnd stk wide n r = Err AssertFail \/ test_scalar_mul_reduce_array rnd stk wide n r = Err SignedOverflow.
Proof.
  intros HR Hn H16 HS. cbv zeta. intros Hneg Hi0 H0 Hi1 H1 Hi2 H2. assert (Hrnd := source_of rnd HR).
  apply (testscalar_stops rnd stk O Hrnd n r i0 i1 i2 Hn H16 HS); rewrite ?coef_entry by exact HR; try assumption.
  unfold admitted in H2. unfold lo43, hi43. lia.
Qed.

Lemma test_avx_mul16_stops_L rnd stk tries n r m : source rnd -> 0 < n < 2 ^ 32 -> n mod 16 = 0 -> (forall i, zlen (stk n i) = n) ->
  let x := entry rnd in let y := entry16 rnd in
  (forall k, exists j, 0 <= j < m /\ admitted (x (k + 2 * j) * y (k + 2 * j + 1))) -> m * n < Z.of_nat tries ->
  2 ^ 43 <= x r * y (r + 1) -> admitted (x r * y (r + 1)) ->
  test_mul_reduce_array16 rnd stk wide tries n r = Err SignedOverflow.
Proof.
  intros HR Hn H16 HS. cbv zeta. intros HO HT HL HA. assert (Hrnd := source_of rnd HR).
  apply (test16_stops rnd Hrnd stk tries n r m Hn H16 HS).
  - intros k. destruct (HO k) as (j & Hj & HB). exists j. split; [exact Hj|].
    unfold accepted. rewrite coef_entry, coef16_entry by exact HR. exact HB.
  - exact HT.
  - rewrite coef_entry, coef16_entry by exact HR. split; [exact HL|]. apply HA.
Qed.

Lemma test_avx_mul16_stops_L2 rnd stk tries n r m : source rnd -> 0 < n < 2 ^ 32 -> n mod 16 = 0 -> (forall i, zlen (stk n i) = n) ->
  let x := entry rnd in let y := entry16 rnd in
  (forall k, exists j, 0 <= j < m /\ admitted (x (k + 2 * j) * y (k + 2 * j + 1))) -> m * n < Z.of_nat tries ->
  2 ^ 43 <= x r * y (r + 1) <= 2 ^ 43 + 4095 ->
  test_mul_reduce_array16 rnd stk wide tries n r = Err SignedOverflow.
Proof.
  intros HR Hn H16 HS. cbv zeta. intros HO HT HL. apply (test_avx_mul16_stops_L rnd stk tries n r m HR Hn H16 HS HO HT); [lia|].
  unfold admitted. change (2 ^ 43) with 8796093022208 in HL. lia.
Qed.

Lemma test_avx_speed_stops_L rnd clk n t h r c i : source rnd -> 0 < n <= 2048 -> zlen t = 102400 ->
  (forall j, 0 <= j <= 3 -> zlen (h j) = 2048) -> (forall j, 0 <= j <= 2 -> all_in (- 2 ^ 31) (2 ^ 31 - 1) (h j)) -> 0 <= i < n ->
  let x := entry rnd in let y := entry16 rnd in
  let s2 := speed_test2 rnd clk wide n mul_reduce_array16 (t, h, r, c) in
  let s3 := speed_test3 rnd clk wide n mul_reduce_array_h (t, h, r, c) in
  (~ admitted (x (r + i) * y (r + n + i)) -> s2 = Err AssertFail \/ s2 = Err SignedOverflow)
  /\ (~ admitted (x (r + i) * x (r + n + i)) -> s3 = Err AssertFail \/ s3 = Err SignedOverflow).
Proof.
  intros HR Hn Lt Lh Ah Hi. cbv zeta. assert (Hrnd := source_of rnd HR).
  assert (G : globals_ok (t, h, r, c)).
  { assert (K : forall j, 0 <= j <= 2 -> i32s (h j)).
    { intros j Hj. split; [apply Lh; lia|]. intros k Hk. assert (L := Lh j ltac:(lia)).
      assert (B := all_in_at _ _ _ k (Ah j Hj) ltac:(lia)). lia. }
    split; [exact Lt|]. split; [apply K; lia|]. split; [apply K; lia|]. split; [apply K; lia|]. apply Lh. lia. }
  split; intros HA.
  - apply (speed2_c_stops rnd clk Hrnd n (t, h, r, c) i Hn G Hi). cbn [fst snd].
    rewrite coef_entry, coef16_entry by exact HR. unfold admitted in HA. unfold outside, lo43, hi43. lia.
  - apply (speed3_c_stops rnd clk Hrnd n (t, h, r, c) i Hn G Hi). cbn [fst snd].
    rewrite !coef_entry by exact HR. unfold admitted in HA. unfold outside, lo43, hi43. lia.
Qed.

Lemma test_avx_speed_tests_run_L rnd clk n t h r c : source rnd -> 0 < n <= 2048 -> n mod 16 = 0 -> zlen t = 102400 ->
  (forall j, 0 <= j <= 3 -> zlen (h j) = 2048) -> (forall j, 0 <= j <= 2 -> all_in (- 2 ^ 31) (2 ^ 31 - 1) (h j)) ->
  (forall f, In f [reduce_array; reduce_array_twice; correct; shift_array; reduce_array_asm; reduce_array_asm2;
     reduce_array_twice_asm; reduce_array_twice_asm2; correct_asm; shift_array_asm] ->
     exists s', speed_test rnd clk wide n f (t, h, r, c) = Ok s')
  /\ (forall f, In f [mul_reduce_array16_asm; mul_reduce_array16_asm2] ->
     exists s', speed_test2 rnd clk wide n f (t, h, r, c) = Ok s')
  /\ (exists s', speed_test3 rnd clk wide n mul_reduce_array_asm_h (t, h, r, c) = Ok s')
  /\ (forall f, In f [scalar_mul_reduce_array; scalar_mul_reduce_array_asm] ->
     exists s', speed_test4 rnd clk wide n f (t, h, r, c) = Ok s').
Proof.
  intros HR Hn H16 Lt Lh Ah. assert (Hrnd := source_of rnd HR).
  assert (G : globals_ok (t, h, r, c)).
  { assert (K : forall j, 0 <= j <= 2 -> i32s (h j)).
    { intros j Hj. split; [apply Lh; lia|]. intros k Hk. assert (L := Lh j ltac:(lia)).
      assert (B := all_in_at _ _ _ k (Ah j Hj) ltac:(lia)). lia. }
    split; [exact Lt|]. split; [apply K; lia|]. split; [apply K; lia|]. split; [apply K; lia|]. apply Lh. lia. }
  destruct (speed_tests_ok rnd clk Hrnd n _ Hn H16 G) as [S1 S4].
  split; [intros f Hf; destruct (S1 f Hf) as (s & E & _); eauto|].
  split; [intros f Hf; destruct (speed2_asm_ok rnd clk Hrnd n _ Hn H16 G f Hf) as (s & E & _); eauto|].
  split; [destruct (speed3_asm_ok rnd clk Hrnd n _ Hn H16 G) as (s & E & _); eauto|].
  intros f Hf; destruct (S4 f Hf) as (s & E & _); eauto.
Qed.

(** ** Examples *)

(** Entries 0 to 10 *)
Definition rnd_small (k : Z) : Z := 1073741824 + k mod 11.
(** Entries -2^30 and 2^30 - 1, and the scalar -2^30 after 16 draws *)
Definition rnd_scalar (k : Z) : Z := if k =? 0 then 0 else if k =? 1 then 2147483647 else if k =? 16 then 0 else 1073741824.
(** -2^30 and -2^13 in the first pair *)
Definition rnd_window (k : Z) : Z := if k =? 0 then 0 else if k =? 1 then 24576 else 1073741824.
Definition stk_zero (n i : Z) : list Z := zeros n.

Lemma zeros_len n : 0 <= n -> zlen (zeros n) = n.
Proof. intros H. unfold zeros, zlen. rewrite repeat_length. lia. Qed.

Lemma rnd_small_source : source rnd_small.
Proof. intros k. unfold rnd_small. change (2 ^ 31) with 2147483648. lia. Qed.
Lemma rnd_scalar_source : source rnd_scalar.
Proof. intros k. unfold rnd_scalar. change (2 ^ 31) with 2147483648. destruct (k =? 0), (k =? 1), (k =? 16); lia. Qed.
Lemma rnd_window_source : source rnd_window.
Proof. intros k. unfold rnd_window. change (2 ^ 31) with 2147483648. destruct (k =? 0), (k =? 1); lia. Qed.

Lemma rnd_small_entry k : 0 <= entry rnd_small k <= 10.
Proof. unfold entry, rnd_small. change (2 ^ 30) with 1073741824. lia. Qed.
Lemma rnd_small_entry16 k : -32768 <= entry16 rnd_small k <= 32767.
Proof. unfold entry16. change (2 ^ 16) with 65536. change (2 ^ 15) with 32768. lia. Qed.
Lemma rnd_small_half k l j : 0 <= j <= 31 -> 0 <= entry rnd_small k * (entry rnd_small l / 2 ^ j) <= 100.
Proof.
  intros Hj. assert (A := rnd_small_entry k). assert (B := rnd_small_entry l).
  assert (0 < 2 ^ j) by (apply Z.pow_pos_nonneg; lia).
  assert (0 <= entry rnd_small l / 2 ^ j) by (apply Z.div_pos; lia).
  assert (entry rnd_small l / 2 ^ j <= 10).
  { apply Z.div_le_upper_bound; [lia|]. nia. }
  nia.
Qed.

Lemma rnd_window_often k : exists j, 0 <= j < 2 /\ admitted (entry rnd_window (k + 2 * j) * entry16 rnd_window (k + 2 * j + 1)).
Proof.
  assert (D : k = 1 \/ k <> 1) by lia. destruct D as [->|D].
  - exists 1. split; [lia|]. vm_compute. split; discriminate.
  - exists 0. split; [lia|]. replace (k + 2 * 0) with k by lia. assert (D2 : k = 0 \/ k <> 0) by lia. destruct D2 as [->|D2].
    + vm_compute. split; discriminate.
    + replace (entry rnd_window k) with 0; [unfold admitted; lia|].
      unfold entry, rnd_window. replace (k =? 0) with false by lia. replace (k =? 1) with false by lia. reflexivity.
Qed.

Lemma zeros_in : all_in (- 2 ^ 31) (2 ^ 31 - 1) (zeros 2048).
Proof.
  assert (L : zlen (zeros 2048) = 2048) by (apply zeros_len; lia).
  apply all_in_of. intros i Hi. unfold zeros, at_. rewrite nth_repeat. lia.
Qed.

Lemma rnd_small_often k : exists j, 0 <= j < 1 /\ admitted (entry rnd_small (k + 2 * j) * entry16 rnd_small (k + 2 * j + 1)).
Proof.
  exists 0. split; [lia|]. assert (A := rnd_small_entry (k + 2 * 0)). assert (B := rnd_small_entry16 (k + 2 * 0 + 1)).
  unfold admitted. nia.
Qed.
Lemma rnd_small_clear16 k : admitted (entry rnd_small k * entry16 rnd_small (k + 1)) -> entry rnd_small k * entry16 rnd_small (k + 1) < 2 ^ 43.
Proof.
  intros _. assert (A := rnd_small_entry k). assert (B := rnd_small_entry16 (k + 1)). change (2 ^ 43) with 8796093022208. nia.
Qed.
Lemma rnd_small_clear k l j : 0 <= j <= 31 -> admitted (entry rnd_small k * (entry rnd_small l / 2 ^ j)) ->
  entry rnd_small k * (entry rnd_small l / 2 ^ j) < 2 ^ 43.
Proof. intros Hj _. assert (A := rnd_small_half k l j Hj). change (2 ^ 43) with 8796093022208. lia. Qed.
Lemma rnd_small_scalar j : 0 <= j < 10000 -> 0 <= entry rnd_small (7 + (48 + 1) * j + 48).
Proof. intros _. apply rnd_small_entry. Qed.
