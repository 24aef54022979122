(** Lemmas behind [PropInterval]. *)

From Coq Require Import ZArith List Bool Lia.
From Verif Require Import CSem Spec SpecInterval Loops RedElem BoundsElem BoundsRound ModelInterval IntervalElem
  IntervalLoops IntervalSound.
From Verif Require ModelRed ModelBounds.
Import ListNotations.
Open Scope Z_scope.

Lemma proper_wfi V : proper V -> wfi V.
Proof. unfold proper, wfi, i64r. change (2 ^ 63) with 9223372036854775808. lia. Qed.

Lemma encl_at A a : encloses A a -> ilen A = zlen a
  /\ forall i, 0 <= i < zlen a -> mem (at_ a i) (ati A i).
Proof.
  unfold encloses, ilen, zlen, at_, ati. intros H. split; [f_equal; induction H; cbn [length]; congruence|].
  intros i Hi. assert (Hi' : (Z.to_nat i < length a)%nat) by lia. clear Hi.
  revert Hi'. generalize (Z.to_nat i). induction H as [|V x A a HV HF IH]; intros m Hm; [cbn in Hm; lia|].
  destruct m; [exact HV|]. cbn [nth]. apply IH. cbn in Hm. lia.
Qed.

Lemma encl_of A a : ilen A = zlen a -> (forall i, 0 <= i < zlen a -> mem (at_ a i) (ati A i)) ->
  encloses A a.
Proof.
  unfold encloses, ilen, zlen, at_, ati. revert a. induction A as [|V A IH]; intros [|x a] HL H; cbn in HL; try lia.
  - constructor.
  - constructor; [apply (H 0); cbn; lia|]. apply IH; [lia|]. intros i Hi.
    specialize (H (i + 1)). replace (Z.to_nat (i + 1)) with (S (Z.to_nat i)) in H by lia. apply H. cbn [length]. lia.
Qed.

Lemma proper_at A i : Forall proper A -> 0 <= i < ilen A -> wfi (ati A i).
Proof.
  intros H Hi. apply proper_wfi. rewrite Forall_forall in H. apply H. unfold ati, ilen in *. apply nth_In. lia.
Qed.

Lemma rows_of B out : printed_within B out -> rows B out.
Proof.
  unfold printed_within, rows. intros H sh V Hs HV. rewrite Forall_forall in H. specialize (H sh Hs).
  rewrite Forall_forall in H. apply H. exact HV.
Qed.

Lemma in_removelast {T} (x : T) l : In x (removelast l) -> In x l.
Proof.
  induction l as [|y [|z l] IH]; intros H; [exact H|destruct H|]. cbn [removelast] in *. destruct H as [<-|H].
  - left. reflexivity.
  - right. apply IH. exact H.
Qed.

Lemma printed_removelast B out : printed_within B out -> printed_within B (removelast out).
Proof.
  unfold printed_within. rewrite !Forall_forall. intros H sh Hs. apply H, in_removelast, Hs.
Qed.

(** Common end of the eight transforms. *)
Lemma sound_transform k B B2 rnd (abs : list itv -> Z -> list Z -> res (list shown * list itv))
      (con : list Z -> Z -> list Z -> res (list Z)) A p a out A' :
  0 <= k <= 31 -> zlen p = 2 ^ k -> all_in (-32768) 32767 p -> zlen a = 2 ^ k ->
  Forall proper A -> encloses A a ->
  (zlen p = 2 ^ k -> (forall i, 0 <= i < 2 ^ k -> -32768 <= at_ p i <= 32767) -> ilen A = 2 ^ k ->
   (forall i, 0 <= i < 2 ^ k -> wfi (ati A i) /\ mem (at_ a i) (ati A i)) ->
   pc (abs A (2 ^ k) p) (fun '(out, A') => encl k (2 ^ k) B rnd (at_ a) out A')) ->
  (inB k (2 ^ k) B2 a rnd -> inC k (2 ^ k) a B rnd -> exists r, con a (2 ^ k) p = Ok r /\ zlen r = 2 ^ k
    /\ (forall i, 0 <= i < 2 ^ k -> at_ r i = Tr rnd (at_ a) k i)) ->
  abs A (2 ^ k) p = Ok (out, A') -> B <= B2 -> printed_within B (removelast out) -> printed_within B2 out ->
  exists r, con a (2 ^ k) p = Ok r /\ encloses A' r.
Proof.
  intros Hk HLp Hp HLa HA HE Habs Hcon E HBB HR HR2. destruct (encl_at A a HE) as [HLA HM].
  assert (E1 : pc (abs A (2 ^ k) p) (fun '(out, A') => encl k (2 ^ k) B rnd (at_ a) out A')).
  { apply Habs; try assumption; try lia.
    - intros i Hi. apply all_in_at; [exact Hp|lia].
    - intros i Hi. split; [apply proper_at; [assumption|lia]|apply HM; lia]. }
  specialize (E1 _ E). cbv beta iota in E1. destruct (E1 B2 (rows_of _ _ HR) (rows_of _ _ HR2)) as (HL' & HM' & HB & HB2).
  destruct (Hcon) as (r & Er & HLr & Hr); [|exact HB|].
  { intros c i Hc Hi. destruct (Z.eq_dec c k) as [->|]; [apply HB2; exact Hi|]. specialize (HB c i ltac:(lia) Hi). lia. }
  exists r. split; [exact Er|].
  apply encl_of; [lia|]. intros i Hi. rewrite Hr by lia. apply HM'. lia.
Qed.

Lemma normal_mem V r x : wfi V -> normal V = Ok r -> mem x V -> mem (x mod 12289) r.
Proof.
  intros HW E Hx. assert (D : i64r (snd V - fst V) \/ ~ i64r (snd V - fst V)) by (unfold i64r; lia).
  destruct D as [D|D].
  - destruct (normal_ok V HW D) as (r' & E' & _ & _ & _ & H & _). rewrite E in E'. inversion E'; subst r'. auto.
  - unfold normal in E. rewrite size_bad in E by assumption. discriminate.
Qed.

Lemma sound_map f (con : list Z -> Z -> res (list Z)) (g : Z -> Z -> Z) (P : Z -> Z -> Prop) A a n A' :
  zlen a = n -> n < 4294967296 -> Forall proper A -> encloses A a ->
  amap f A n = Ok A' ->
  (forall i V r x, 0 <= i < n -> wfi V -> f i V = Ok r -> mem x V -> at_ a i = x -> ati A' i = r ->
     P i x /\ mem (g i x) r) ->
  ((forall i, 0 <= i < n -> P i (at_ a i)) ->
   exists r, con a n = Ok r /\ zlen r = zlen a /\ (forall i, 0 <= i < n -> at_ r i = g i (at_ a i))
     /\ (forall i, n <= i < zlen a -> at_ r i = at_ a i)) ->
  exists r, con a n = Ok r /\ encloses A' r.
Proof.
  intros HLa Hn HA HE E HP Hcon. destruct (encl_at A a HE) as [HLA HM].
  assert (Hn0 : 0 <= n) by (rewrite <- HLa; unfold zlen; lia).
  destruct (amap_pc f A n ltac:(lia) A' E) as (_ & HL' & Hf & _).
  assert (HPi : forall i, 0 <= i < n -> P i (at_ a i) /\ mem (g i (at_ a i)) (ati A' i)).
  { intros i Hi. apply (HP i (ati A i)); auto.
    - apply proper_at; [assumption|lia].
    - apply HM. lia. }
  destruct Hcon as (r & Er & HLr & Hr & _). { intros i Hi. apply HPi. exact Hi. }
  exists r. split; [exact Er|]. apply encl_of; [lia|]. intros i Hi. rewrite Hr by lia. apply HPi. lia.
Qed.

Lemma red_scale_mem w V r x : wfi V -> -2147483648 <= w <= 2147483647 ->
  -2147483648 <= fst V -> snd V <= 2147483647 -> red_scale w V = Ok r -> mem x V ->
  mem (redz (x * w)) r.
Proof.
  intros HW Hw H1 H2 E Hx. destruct (Z.eq_dec w 0) as [W0|W0].
  { subst w. exfalso. unfold red_scale in E. assert (H := proj1 HW).
    destruct (ModelBounds.min_red_mul (fst V) (snd V) 0) as [q|] eqn:Em; [|discriminate].
    unfold ModelBounds.min_red_mul in Em. replace (fst V <=? snd V) with true in Em by lia.
    cbn [cassert bind] in Em. cbn -[ModelBounds.min_loop] in Em. discriminate. }
  assert (MW : forall v, fst V <= v <= snd V -> -4611686018427387904 <= w * v <= 4611686018427387904) by (intros; nia).
  assert (H0 := proj1 HW).
  destruct (red_scale_ok w V) as (u & v & Eu & Mu & Mv & HR); try assumption; try lia;
    try (unfold sbnd; specialize (MW (fst V)); lia); try (unfold sbnd; specialize (MW (snd V)); lia).
  rewrite E in Eu. inversion Eu; subst r. rewrite Z.mul_comm. apply HR. exact Hx.
Qed.

Fixpoint enclb (A : list itv) (a : list Z) : bool :=
  match A, a with
  | V :: A, x :: a => (fst V <=? x) && (x <=? snd V) && enclb A a
  | [], [] => true
  | _, _ => false
  end.

Lemma enclb_of A a : encloses A a -> enclb A a = true.
Proof.
  intros H. induction H as [|V x A a HV HF IH]; [reflexivity|]. cbn [enclb]. rewrite IH. unfold member in HV. lia.
Qed.

Ltac intervals := repeat (constructor; [unfold proper, member; cbn [fst snd]; lia|]); constructor.
Ltac elements := unfold all_in; cbn [In]; intros ? ?; lia.

Lemma interval_constructors_L :
  forall x y, (x <= y -> interval x y = Ok (x, y)) /\ (y < x -> interval x y = Err Exited)
    /\ point x = Ok (x, x).
Proof.
  intros x y. unfold interval, point, make_interval. split; [|split].
  - intros H. replace (y <? x) with false by lia. replace (x <=? y) with true by lia. reflexivity.
  - intros H. replace (y <? x) with true by lia. reflexivity.
  - rewrite Z.leb_refl. reflexivity.
Qed.

Lemma interval_add_exact_L :
  forall a b, proper a -> proper b ->
  (in_i64 (fst a + fst b) = true -> in_i64 (snd a + snd b) = true ->
     exists r, add a b = Ok r /\ proper r
       /\ forall z, member z r <-> exists x y, member x a /\ member y b /\ z = x + y)
  /\ (in_i64 (fst a + fst b) = false \/ in_i64 (snd a + snd b) = false -> add a b = Err SignedOverflow).
Proof.
  intros a b Ha Hb. assert (Wa := proper_wfi _ Ha). assert (Wb := proper_wfi _ Hb).
  destruct Wa as (A0 & A1 & A2), Wb as (B0 & B1 & B2). unfold in_i64. split.
  - intros H1 H2. eexists. split; [apply add_ok; unfold wfi; auto; unfold i64r; lia|].
    unfold proper, member. cbn [fst snd]. change (2 ^ 63) with 9223372036854775808. split; [lia|].
    intros z. split.
    + intros Hz. exists (Z.max (fst a) (z - snd b)), (z - Z.max (fst a) (z - snd b)). lia.
    + intros (x & y & Hx & Hy & ->). lia.
  - intros H. apply add_bad; auto. unfold i64r. lia.
Qed.

Lemma interval_sub_exact_L :
  forall a b, proper a -> proper b ->
  (in_i64 (fst a - snd b) = true -> in_i64 (snd a - fst b) = true ->
     exists r, sub a b = Ok r /\ proper r
       /\ forall z, member z r <-> exists x y, member x a /\ member y b /\ z = x - y)
  /\ (in_i64 (fst a - snd b) = false \/ in_i64 (snd a - fst b) = false -> sub a b = Err SignedOverflow).
Proof.
  intros a b Ha Hb. assert (Wa := proper_wfi _ Ha). assert (Wb := proper_wfi _ Hb).
  destruct Wa as (A0 & A1 & A2), Wb as (B0 & B1 & B2). unfold in_i64. split.
  - intros H1 H2. eexists. split; [apply sub_ok; unfold wfi; auto; unfold i64r; lia|].
    unfold proper, member. cbn [fst snd]. change (2 ^ 63) with 9223372036854775808. split; [lia|].
    intros z. split.
    + intros Hz. exists (Z.max (fst a) (z + fst b)), (Z.max (fst a) (z + fst b) - z). lia.
    + intros (x & y & Hx & Hy & ->). lia.
  - intros H. apply sub_bad; auto. unfold i64r. lia.
Qed.

Lemma interval_neg_exact_L :
  forall a, proper a ->
  (fst a <> - 2 ^ 63 -> exists r, neg a = Ok r /\ proper r
     /\ forall z, member z r <-> exists x, member x a /\ z = - x)
  /\ (fst a = - 2 ^ 63 -> neg a = Err Exited).
Proof.
  intros a Ha. assert (Wa := proper_wfi _ Ha). unfold proper in Ha. revert Ha.
  change (2 ^ 63) with 9223372036854775808. intros Ha. split.
  - intros H. eexists. split; [apply neg_ok; [assumption|lia]|]. unfold proper, member. cbn [fst snd].
    change (2 ^ 63) with 9223372036854775808. split; [lia|]. intros z. split.
    + intros Hz. exists (- z). lia.
    + intros (x & Hx & ->). lia.
  - intros H. unfold neg. rewrite H. reflexivity.
Qed.

Lemma interval_red_exact_L :
  forall a, proper a -> exists r, red a = Ok r /\ proper r /\ tight (fun x => member x a) ln_red r.
Proof.
  intros a Ha. assert (Wa := proper_wfi _ Ha). destruct (red_itv_ok a Wa) as (u & v & E & Hu & Hv & H).
  exists (redz u, redz v). split; [exact E|]. unfold proper, tight, member. cbn [fst snd]. split.
  - destruct Wa as (W0 & W1 & W2). unfold mem in *. unfold i64r in *. change (2 ^ 63) with 9223372036854775808.
    assert (Bu := redz_i64 u). assert (Bv := redz_i64 v). unfold i64r in *.
    assert (redz u <= redz v) by (apply (H v); lia). lia.
  - split; [|split; [exists u; auto|exists v; auto]]. intros x Hx. apply (H x Hx).
Qed.

Lemma interval_red_twice_sound_L :
  forall a, proper a -> exists m r, red a = Ok m /\ red_twice a = Ok r
    /\ tight (fun x => member x m) ln_red r
    /\ (forall x, member x a -> member (ln_red (ln_red x)) r)
    /\ (- 2 ^ 31 <= fst a -> snd a <= 2 ^ 31 - 1 -> -130 <= fst r /\ snd r <= 12413).
Proof.
  intros a Ha. assert (Wa := proper_wfi _ Ha).
  destruct (red_twice_itv_ok a Wa) as (lo & hi & E & H & u & v & Hu & Hv & l & h & Hl & Hh & B1 & B2).
  destruct (interval_red_exact_L a Ha) as (m & Em & Hm & _).
  destruct (interval_red_exact_L m Hm) as (r & Er & _ & Tr).
  assert (E' : red_twice a = red m).
  { revert Em. unfold red_twice, red.
    destruct (ModelBounds.min_red (fst a) (snd a)) as [[x1 x2]|]; [|discriminate]. cbn [bind].
    destruct (ModelBounds.max_red (fst a) (snd a)) as [[y1 y2]|]; [|discriminate]. cbn [bind].
    unfold make_interval at 1. destruct (x1 <=? y1); [|discriminate]. cbn [cassert bind].
    intros X. inversion X; subst m. reflexivity. }
  assert (Er' : r = (lo, hi)) by (rewrite E', Er in E; inversion E; reflexivity). subst r.
  exists m, (lo, hi). split; [exact Em|]. split; [exact E|]. split; [exact Tr|]. split; [exact H|]. cbn [fst snd].
  change (2 ^ 31) with 2147483648. intros H1 H2. unfold mem in *. subst lo hi.
  assert (X1 := redz_bounds (-2147483648) 2147483647 l ltac:(lia)).
  assert (X2 := redz_bounds (-2147483648) 2147483647 h ltac:(lia)). cbn in X1, X2.
  assert (X3 := redz_bounds (-524287) 536573 u ltac:(lia)).
  assert (X4 := redz_bounds (-524287) 536573 v ltac:(lia)). cbn in X3, X4. lia.
Qed.

Lemma interval_red_scale_exact_L :
  forall k a, proper a -> k <> 0 -> Z.abs k <= 2 ^ 61 -> Z.abs (k * fst a) <= 2 ^ 62 -> Z.abs (k * snd a) <= 2 ^ 62 ->
  exists r, red_scale k a = Ok r /\ tight (fun x => member x a) (fun x => ln_red (k * x)) r.
Proof.
  change (2 ^ 61) with 2305843009213693952. change (2 ^ 62) with 4611686018427387904.
  intros k a Ha Hk Hk' H1 H2. destruct (proper_wfi _ Ha) as (W0 & _).
  destruct (red_scale_ok k a) as (u & v & E & Hu & Hv & H); try assumption; try (unfold sbnd; lia).
  eexists. split; [exact E|]. unfold tight, member. cbn [fst snd].
  split; [exact H|split; [exists u; auto|exists v; auto]].
Qed.

Lemma interval_red_mul_exact_L :
  forall a b B, proper a -> proper b -> fst b <> 0 -> snd b <> 0 ->
  Z.abs (fst a) <= B -> Z.abs (snd a) <= B -> B <= 2 ^ 61 -> Z.abs (fst b) <= 2 ^ 61 -> Z.abs (snd b) <= 2 ^ 61 ->
  Z.abs (fst b) * B <= 2 ^ 62 -> Z.abs (snd b) * B <= 2 ^ 62 ->
  snd b - fst b <= snd a - fst a ->
  exists r, red_mul a b = Ok r /\ (snd b - fst b < snd a - fst a -> red_mul b a = Ok r)
    /\ fst r <= 0 <= snd r
    /\ (fst r = 0 \/ exists x y, member x a /\ member y b /\ ln_red (x * y) = fst r)
    /\ (snd r = 0 \/ exists x y, member x a /\ member y b /\ ln_red (x * y) = snd r)
    /\ (- snd a <= fst a -> forall x y, member x a -> member y b -> member (ln_red (x * y)) r).
Proof.
  change (2 ^ 61) with 2305843009213693952. change (2 ^ 62) with 4611686018427387904.
  intros a b B Hpa Hpb H1 H2 H3 H4 H5 H6 H7 H8 H9 H10.
  assert (Wb := proper_wfi _ Hpb). assert (Wa := proper_wfi _ Hpa). assert (W0 := proj1 Wb). assert (W1 := proj1 Wa).
  assert (HW : wrange B (fst b) (snd b)) by (unfold wrange; lia).
  destruct (min_red_mul_interval_gen (fst a) (snd a) B (fst b) (snd b)) as (mn & x1 & w1 & E1 & Z1 & A1 & R1 & M1);
    [lia|lia|exact HW|exact H1|exact H2|].
  destruct (max_red_mul_interval_gen (fst a) (snd a) B (fst b) (snd b)) as (mx & x2 & w2 & E2 & Z2 & A2 & R2 & M2);
    [lia|lia|exact HW|].
  assert (S1 : size a = Ok (snd a - fst a)) by (apply size_ok; [assumption|unfold i64r; lia]).
  assert (S2 : size b = Ok (snd b - fst b)) by (apply size_ok; [assumption|unfold i64r; lia]).
  exists (mn, mx). split; [|split].
  - unfold red_mul. rewrite S1, S2. cbn [bind]. replace (snd a - fst a <? snd b - fst b) with false by lia.
    rewrite E1, E2. cbn [bind]. apply make_ok. lia.
  - intros Hlt. unfold red_mul. rewrite S1, S2. cbn [bind]. replace (snd b - fst b <? snd a - fst a) with true by lia.
    rewrite E1, E2. cbn [bind]. apply make_ok. lia.
  - unfold member. cbn [fst snd]. split; [lia|]. split; [|split].
    + destruct R1 as [R1|[R1 R1']]; [left; exact R1|right]. exists x1, w1. rewrite Z.mul_comm. auto.
    + destruct R2 as [R2|[R2 R2']]; [left; exact R2|right]. exists x2, w2. rewrite Z.mul_comm. auto.
    + intros Hba x y Hx Hy. rewrite Z.mul_comm. split; [apply M1|apply M2]; assumption.
Qed.

Lemma interval_red_mul_refuted_L :
  exists a b r x y, proper a /\ proper b /\ red_mul a b = Ok r /\ member x a /\ member y b
    /\ ~ member (ln_red (x * y)) r.
Proof.
  exists (-60000000, -59999999), (1, 1), (0, 0), (-60000000), 1.
  unfold proper, member. cbn [fst snd]. repeat (split; [try lia; try (vm_compute; reflexivity)|]).
  all: vm_compute; intuition congruence.
Qed.

Lemma interval_normal_sound_L :
  forall a, proper a ->
  (in_i64 (snd a - fst a) = true -> exists r, normal a = Ok r /\ 0 <= fst r /\ fst r <= snd r /\ snd r <= 12288
     /\ (forall x, member x a -> member (x mod 12289) r)
     /\ (fst a / 12289 = snd a / 12289 -> tight (fun x => member x a) (fun x => x mod 12289) r))
  /\ (in_i64 (snd a - fst a) = false -> normal a = Err SignedOverflow).
Proof.
  intros a Ha. assert (Wa := proper_wfi _ Ha). unfold in_i64. split.
  - intros H. destruct (normal_ok a Wa) as (r & E & H1 & H2 & H3 & H4 & H5); [unfold i64r; lia|].
    exists r. split; [exact E|]. split; [exact H1|]. split; [exact H2|]. split; [exact H3|]. split; [exact H4|].
    intros Hd. rewrite (H5 Hd) in *. clear H5. destruct Wa as (W0 & _). unfold tight, member. cbn [fst snd].
    split; [exact H4|]. split; [exists (fst a)|exists (snd a)]; split; try reflexivity; lia.
  - intros H. unfold normal. rewrite size_bad; [reflexivity|assumption|unfold i64r; lia].
Qed.

Lemma interval_normal_inv3_sound_L :
  forall a, proper a -> exists r, normal_inv3 a = Ok r /\ 0 <= fst r /\ fst r <= snd r /\ snd r <= 12288
     /\ (forall x, member x a -> member ((x * 8193) mod 12289) r)
     /\ (fst a = snd a -> fst r = snd r).
Proof.
  intros a Ha. apply normal_inv3_ok. apply proper_wfi. exact Ha.
Qed.

Lemma interval_shift_sound_L :
  forall a, (0 <= fst a -> fst a <= snd a -> snd a <= 12288 ->
     exists r, shift a = Ok r /\ -6144 <= fst r /\ fst r <= snd r /\ snd r <= 6144
       /\ (forall x, member x a -> exists y, member y r /\ (y - x) mod 12289 = 0 /\ -6144 <= y <= 6144)
       /\ (snd a <= 6144 -> r = a)
       /\ (6144 < fst a -> r = (fst a - 12289, snd a - 12289)))
  /\ (~ (0 <= fst a /\ fst a <= snd a /\ snd a <= 12288) -> shift a = Err AssertFail).
Proof.
  intros a. split; [|apply shift_bad]. intros H1 H2 H3.
  destruct (shift_ok a H1 H2 H3) as (r & E & R1 & R2 & R3 & H). exists r.
  split; [exact E|]. split; [exact R1|]. split; [exact R2|]. split; [exact R3|].
  split; [|split].
  - intros x Hx. eexists. split; [apply (H x Hx)|]. unfold member in Hx. destruct (Z.ltb_spec 6144 x).
    + replace (x - 12289 - x) with (-12289) by ring. split; [reflexivity|lia].
    + replace (x - x) with 0 by ring. split; [reflexivity|lia].
  - intros H4. revert E. unfold shift. replace (_ && _) with true by lia. cbn [cassert bind].
    replace (6144 <? fst a) with false by lia. replace (snd a <=? 6144) with true by lia.
    rewrite make_ok by lia. intros E. inversion E. destruct a; reflexivity.
  - intros H4. revert E. unfold shift, sub64. replace (_ && _) with true by lia. cbn [cassert bind].
    replace (6144 <? fst a) with true by lia. rewrite !i64_ok by (unfold i64r; lia). cbn [bind].
    rewrite make_ok by lia. intros E. inversion E. reflexivity.
Qed.

Lemma interval_correct_sound_L :
  forall a, (-12289 <= fst a -> fst a <= snd a -> snd a <= 24577 ->
     exists r, correct a = Ok r /\ 0 <= fst r /\ fst r <= snd r /\ snd r <= 12288
       /\ (forall x, member x a -> member (x mod 12289) r)
       /\ (fst a / 12289 = snd a / 12289 -> r = (fst a mod 12289, snd a mod 12289)))
  /\ (~ (-12289 <= fst a /\ fst a <= snd a /\ snd a <= 24577) -> correct a = Err AssertFail).
Proof.
  intros a. split; [|apply correct_itv_bad]. intros H1 H2 H3.
  destruct (correct_itv_ok a H1 H2 H3) as (r & E & R1 & R2 & R3 & H). exists r.
  split; [exact E|]. split; [exact R1|]. split; [exact R2|]. split; [exact R3|]. split; [exact H|].
  intros HF. revert E. unfold correct, sub64, add64. replace (_ && _) with true by lia. cbn [cassert bind].
  destruct (Z.ltb_spec (snd a) 0); [|destruct (Z.leb_spec 12289 (fst a))].
  - rewrite !i64_ok by (unfold i64r; lia). cbn [bind]. replace (_ && _) with true by lia. cbn [cassert bind].
    rewrite make_ok by lia. intros E. inversion E. f_equal; lia.
  - rewrite !i64_ok by (unfold i64r; lia). cbn [bind]. replace (_ && _) with true by lia. cbn [cassert bind].
    rewrite make_ok by lia. intros E. inversion E. f_equal; lia.
  - replace ((0 <=? fst a) && (snd a <? 12289)) with true by lia.
    rewrite make_ok by lia. intros E. inversion E. f_equal; lia.
Qed.

Lemma abstract_arrays_sound_L :
  forall f g, In (f, g)
    [(abstract_normalize, ModelRed.normalize); (abstract_normalize_inv3, ModelRed.normalize_inv3);
     (abstract_shift_array, ModelRed.shift_array); (abstract_reduce_array, ModelRed.reduce_array);
     (abstract_reduce_array_twice, ModelRed.reduce_array_twice); (abstract_correct, ModelRed.correct)] ->
  forall A a A', zlen a < 2 ^ 32 -> all_in (- 2 ^ 31) (2 ^ 31 - 1) a -> Forall proper A -> encloses A a ->
  f A (zlen a) = Ok A' ->
  exists r, g a (zlen a) = Ok r /\ encloses A' r.
Proof.
  change (2 ^ 32) with 4294967296. change (2 ^ 31) with 2147483648. intros f g Hin A a A' Hn Ha HA HE E.
  assert (Hn0 : 0 <= zlen a) by (unfold zlen; lia).
  assert (Ha' : forall i, 0 <= i < zlen a -> -2147483648 <= at_ a i <= 2147483647).
  { intros i Hi. apply (all_in_at _ _ a i) in Ha; [lia|exact Hi]. }
  cbn [In] in Hin.
  destruct Hin as [Hin|[Hin|[Hin|[Hin|[Hin|[Hin|[]]]]]]]; injection Hin as <- <-.
  - apply (sound_map _ ModelRed.normalize (fun _ x => x mod 12289) (fun _ _ => True) A a (zlen a) A' eq_refl Hn HA HE E).
    + intros i V r x Hi HW Er Hx _ _. split; [exact I|]. eapply normal_mem; eauto.
    + intros _. apply normalize_spec; auto; lia.
  - apply (sound_map _ ModelRed.normalize_inv3 (fun _ x => (x * 8193) mod 12289) (fun _ _ => True) A a (zlen a) A' eq_refl Hn HA HE E).
    + intros i V r x Hi HW Er Hx _ _. split; [exact I|].
      destruct (normal_inv3_ok V HW) as (r' & E' & _ & _ & _ & H & _). rewrite Er in E'. inversion E'; subst r'. auto.
    + intros _. apply normalize_inv3_spec; auto; lia.
  - apply (sound_map _ ModelRed.shift_array (fun _ x => if 6144 <? x then x - 12289 else x) (fun _ _ => True) A a (zlen a) A' eq_refl Hn HA HE E).
    + intros i V r x Hi HW Er Hx _ _. split; [exact I|].
      assert (D : (0 <= fst V /\ fst V <= snd V /\ snd V <= 12288) \/ ~ (0 <= fst V /\ fst V <= snd V /\ snd V <= 12288)) by lia.
      destruct D as [(D1 & D2 & D3)|D]; [|rewrite shift_bad in Er by exact D; discriminate].
      destruct (shift_ok V D1 D2 D3) as (r' & E' & _ & _ & _ & H). rewrite Er in E'. inversion E'; subst r'. auto.
    + intros _. apply shift_array_spec; auto; lia.
  - apply (sound_map _ ModelRed.reduce_array (fun _ x => redz x) (fun _ _ => True) A a (zlen a) A' eq_refl Hn HA HE E).
    + intros i V r x Hi HW Er Hx _ _. split; [exact I|].
      destruct (red_itv_ok V HW) as (u & v & E' & _ & _ & H). rewrite Er in E'. inversion E'; subst r. apply (H x Hx).
    + intros _. apply reduce_array_spec; auto; lia.
  - apply (sound_map _ ModelRed.reduce_array_twice (fun _ x => redz (redz x)) (fun _ _ => True) A a (zlen a) A' eq_refl Hn HA HE E).
    + intros i V r x Hi HW Er Hx _ _. split; [exact I|].
      destruct (red_twice_itv_ok V HW) as (lo & hi & E' & H & _). rewrite Er in E'. inversion E'; subst r. apply (H x Hx).
    + intros _. apply reduce_array_twice_spec; auto; lia.
  - apply (sound_map _ ModelRed.correct (fun _ x => x mod 12289) (fun _ x => -12289 <= x <= 24577) A a (zlen a) A' eq_refl Hn HA HE E).
    + intros i V r x Hi HW Er Hx _ _.
      destruct (_ || _) eqn:D in Er; [discriminate|]. unfold mem in Hx. split; [lia|].
      destruct (correct_itv_ok V) as (r' & E' & _ & _ & _ & H); try lia. rewrite Er in E'. inversion E'; subst r'. auto.
    + intros HP. apply correct_spec; auto; lia.
Qed.

Lemma abstract_products_sound_L :
  forall A a p c A', zlen a < 2 ^ 32 -> zlen p = zlen a ->
  all_in (- 2 ^ 31) (2 ^ 31 - 1) a -> all_in (-32768) 32767 p -> - 2 ^ 31 <= c <= 2 ^ 31 - 1 ->
  Forall (fun V => - 2 ^ 31 <= fst V /\ fst V <= snd V /\ snd V <= 2 ^ 31 - 1) A -> encloses A a ->
  Forall (fun V => - 2147471362 <= fst V /\ snd V <= 2147471362) A' ->
  (abstract_mul_reduce_array16 A (zlen a) p = Ok A' ->
     exists r, ModelRed.mul_reduce_array16 a (zlen a) p = Ok r /\ encloses A' r)
  /\ (abstract_scalar_mul_reduce_array A (zlen a) c = Ok A' ->
     exists r, ModelRed.scalar_mul_reduce_array a (zlen a) c = Ok r /\ encloses A' r).
Proof.
  change (2 ^ 32) with 4294967296. change (2 ^ 31) with 2147483648.
  intros A a p c A' Hn HLp Ha Hp Hc HA HE HA'.
  assert (Hn0 : 0 <= zlen a) by (unfold zlen; lia).
  assert (HP : Forall proper A).
  { revert HA. apply Forall_impl. intros V HV. unfold proper. change (2 ^ 63) with 9223372036854775808. lia. }
  destruct (encl_at A a HE) as [HLA HM].
  assert (HAi : forall i, 0 <= i < zlen a -> -2147483648 <= fst (ati A i) /\ snd (ati A i) <= 2147483647).
  { intros i Hi. rewrite Forall_forall in HA. specialize (HA (ati A i)).
    assert (X : In (ati A i) A) by (unfold ati; apply nth_In; unfold ilen, zlen in *; lia). specialize (HA X). lia. }
  assert (HBi : forall i, 0 <= i < ilen A' -> -2147471362 <= fst (ati A' i) /\ snd (ati A' i) <= 2147471362).
  { intros i Hi. rewrite Forall_forall in HA'. apply HA'. unfold ati. apply nth_In. unfold ilen in Hi. lia. }
  split; intros E.
  - assert (L := amap_pc _ A (zlen a) ltac:(lia) A' E). destruct L as (_ & HL' & Hf & _).
    assert (HR : forall i, 0 <= i < zlen a -> mem (redz (at_ a i * at_ p i)) (ati A' i)).
    { intros i Hi. specialize (Hf i Hi). rewrite rd_ok in Hf by lia. cbn [bind] in Hf.
      assert (Bp : -32768 <= at_ p i <= 32767) by (apply all_in_at; [exact Hp|lia]).
      apply (red_scale_mem (at_ p i) (ati A i)); auto; try lia; try apply HAi; auto.
      apply proper_at; [assumption|lia]. }
    destruct (mul_reduce_array16_spec a (zlen a) p) as (r & Er & HLr & Hr & _); try lia.
    { intros i Hi. apply redz_back. specialize (HR i Hi). specialize (HBi i ltac:(lia)). unfold mem in HR. lia. }
    exists r. split; [exact Er|]. apply encl_of; [lia|]. intros i Hi. rewrite Hr by lia. apply HR. lia.
  - assert (L := amap_pc _ A (zlen a) ltac:(lia) A' E). destruct L as (_ & HL' & Hf & _).
    assert (HR : forall i, 0 <= i < zlen a -> mem (redz (at_ a i * c)) (ati A' i)).
    { intros i Hi. specialize (Hf i Hi).
      apply (red_scale_mem c (ati A i)); auto; try lia; try apply HAi; auto.
      apply proper_at; [assumption|lia]. }
    destruct (scalar_mul_reduce_array_spec a (zlen a) c) as (r & Er & HLr & Hr & _); try lia.
    { intros i Hi. apply redz_back. specialize (HR i Hi). specialize (HBi i ltac:(lia)). unfold mem in HR. lia. }
    exists r. split; [exact Er|]. apply encl_of; [lia|]. intros i Hi. rewrite Hr by lia. apply HR. lia.
Qed.

Lemma abstract_mul_reduce_array_refuted_L :
  exists A B C h C' h', Forall proper A /\ Forall proper B /\ encloses A (h 1) /\ encloses B (h 2)
    /\ abstract_mul_reduce_array C 1 A B = Ok C' /\ ModelRed.mul_reduce_array_h h 0 1 1 2 = Ok h'
    /\ ~ encloses C' (h' 0).
Proof.
  exists [(-60000000, -59999999)], [(1, 1)], [(0, 0)],
    (fun x => if x =? 1 then [-60000000] else if x =? 2 then [1] else [0]), [(0, 0)].
  eexists. split; [intervals|]. split; [intervals|]. split; [intervals|]. split; [intervals|].
  split; [vm_compute; reflexivity|]. split; [cbv -[ModelRed.mul_red]; change (ModelRed.mul_red (-60000000) 1) with (Ok 21561); reflexivity|].
  intros H. apply enclb_of in H. vm_compute in H. discriminate.
Qed.

Lemma show_intervals_exact_L :
  forall A, Z.of_nat (length A) <= 2 ^ 31 -> exists ws, show_intervals A (Z.of_nat (length A)) = Ok (A, ws)
    /\ forall i, In i ws <-> exists V, 0 <= i /\ nth_error A (Z.to_nat i) = Some V
                             /\ ~ (- 2 ^ 31 <= fst V /\ snd V <= 2 ^ 31 - 1).
Proof.
  change (2 ^ 31) with 2147483648. intros A HL.
  destruct (show_ok A (Z.of_nat (length A)) eq_refl) as (ws & E & H); [lia|].
  exists ws. split; [exact E|]. intros i. rewrite H. unfold ati. split.
  - intros [Hi HV]. exists (nth (Z.to_nat i) A (0, 0)). split; [lia|]. split; [|lia].
    apply nth_error_nth'. lia.
  - intros (V & Hi & HV & HB). assert (X := nth_error_nth A (Z.to_nat i) (0, 0) HV). rewrite X.
    assert (Y : (Z.to_nat i < length A)%nat) by (apply nth_error_Some; rewrite HV; discriminate). lia.
Qed.

Lemma abstract_ct_sound_L :
  forall f g, In (f, g)
    [(abstract_ntt_red_ct_rev2std, ModelRed.ntt_red_ct_rev2std);
     (abstract_mulntt_red_ct_rev2std, ModelRed.mulntt_red_ct_rev2std);
     (abstract_ntt_red_ct_std2rev, ModelRed.ntt_red_ct_std2rev);
     (abstract_mulntt_red_ct_std2rev, ModelRed.mulntt_red_ct_std2rev)] ->
  forall k A p a out A', 0 <= k <= 31 -> zlen p = 2 ^ k -> all_in (-32768) 32767 p ->
  zlen a = 2 ^ k -> Forall proper A -> encloses A a ->
  f A (2 ^ k) p = Ok (out, A') -> printed_within 2147471362 out ->
  exists r, g a (2 ^ k) p = Ok r /\ encloses A' r.
Proof.
  intros f g Hin k A p a out A' Hk HLp Hp HLa HA HE E HR. cbn [In] in Hin. assert (HR1 := printed_removelast _ _ HR).
  destruct Hin as [Hin|[Hin|[Hin|[Hin|[]]]]]; injection Hin as <- <-.
  - apply (sound_transform k 2147471362 2147471362 (r_ctA true p k) abstract_ntt_red_ct_rev2std _ A p a out A'); auto; [| |lia].
    + intros. apply abs_ntt_red_ct_rev2std; auto; lia.
    + intros. apply (con_ntt_red_ct_rev2std k (2 ^ k) 2147471362); auto; lia.
  - apply (sound_transform k 2147471362 2147471362 (r_ctA false p k) abstract_mulntt_red_ct_rev2std _ A p a out A'); auto; [| |lia].
    + intros. apply abs_mulntt_red_ct_rev2std; auto; lia.
    + intros. apply (con_mulntt_red_ct_rev2std k (2 ^ k) 2147471362); auto; lia.
  - apply (sound_transform k 2147471362 2147471362 (r_ctB true p k) abstract_ntt_red_ct_std2rev _ A p a out A'); auto; [| |lia].
    + intros. apply abs_ntt_red_ct_std2rev; auto; lia.
    + intros. apply (con_ntt_red_ct_std2rev k (2 ^ k) 2147471362); auto; lia.
  - apply (sound_transform k 2147471362 2147471362 (r_ctB false p k) abstract_mulntt_red_ct_std2rev _ A p a out A'); auto; [| |lia].
    + intros. apply abs_mulntt_red_ct_std2rev; auto; lia.
    + intros. apply (con_mulntt_red_ct_std2rev k (2 ^ k) 2147471362); auto; lia.
Qed.

Lemma abstract_gs_sound_L :
  forall f g, In (f, g)
    [(abstract_ntt_red_gs_rev2std, ModelRed.ntt_red_gs_rev2std);
     (abstract_nttmul_red_gs_rev2std, ModelRed.nttmul_red_gs_rev2std);
     (abstract_ntt_red_gs_std2rev, ModelRed.ntt_red_gs_std2rev);
     (abstract_nttmul_red_gs_std2rev, ModelRed.nttmul_red_gs_std2rev)] ->
  forall k A p a out A', 0 <= k <= 31 -> zlen p = 2 ^ k -> all_in (-32768) 32767 p ->
  zlen a = 2 ^ k -> Forall proper A -> encloses A a ->
  f A (2 ^ k) p = Ok (out, A') ->
  printed_within (2 ^ 30 - 1) (removelast out) -> printed_within 2147471362 out ->
  exists r, g a (2 ^ k) p = Ok r /\ encloses A' r.
Proof.
  change (2 ^ 30 - 1) with 1073741823.
  intros f g Hin k A p a out A' Hk HLp Hp HLa HA HE E HR HR2. cbn [In] in Hin.
  destruct Hin as [Hin|[Hin|[Hin|[Hin|[]]]]]; injection Hin as <- <-.
  - apply (sound_transform k 1073741823 2147471362 (r_gsB true p k) abstract_ntt_red_gs_rev2std _ A p a out A'); auto; [| |lia].
    + intros. apply abs_ntt_red_gs_rev2std; auto; lia.
    + intros. apply (con_ntt_red_gs_rev2std k (2 ^ k) 2147471362); auto; lia.
  - apply (sound_transform k 1073741823 2147471362 (r_gsB false p k) abstract_nttmul_red_gs_rev2std _ A p a out A'); auto; [| |lia].
    + intros. apply abs_nttmul_red_gs_rev2std; auto; lia.
    + intros. apply (con_nttmul_red_gs_rev2std k (2 ^ k) 2147471362); auto; lia.
  - apply (sound_transform k 1073741823 2147471362 (r_gsA true p k) abstract_ntt_red_gs_std2rev _ A p a out A'); auto; [| |lia].
    + intros. apply abs_ntt_red_gs_std2rev; auto; lia.
    + intros. apply (con_ntt_red_gs_std2rev k (2 ^ k) 2147471362); auto; lia.
  - apply (sound_transform k 1073741823 2147471362 (r_gsA false p k) abstract_nttmul_red_gs_std2rev _ A p a out A'); auto; [| |lia].
    + intros. apply abs_nttmul_red_gs_std2rev; auto; lia.
    + intros. apply (con_nttmul_red_gs_std2rev k (2 ^ k) 2147471362); auto; lia.
Qed.

Lemma no_warning_refuted_L :
  forall f g, In (f, g)
    [(abstract_ntt_red_ct_rev2std, ModelRed.ntt_red_ct_rev2std);
     (abstract_mulntt_red_ct_rev2std, ModelRed.mulntt_red_ct_rev2std);
     (abstract_ntt_red_ct_std2rev, ModelRed.ntt_red_ct_std2rev);
     (abstract_mulntt_red_ct_std2rev, ModelRed.mulntt_red_ct_std2rev);
     (abstract_ntt_red_gs_rev2std, ModelRed.ntt_red_gs_rev2std);
     (abstract_nttmul_red_gs_rev2std, ModelRed.nttmul_red_gs_rev2std);
     (abstract_ntt_red_gs_std2rev, ModelRed.ntt_red_gs_std2rev);
     (abstract_nttmul_red_gs_std2rev, ModelRed.nttmul_red_gs_std2rev)] ->
  exists k A p a out A', 0 <= k <= 31 /\ zlen p = 2 ^ k /\ all_in (-6144) 6144 p /\ zlen a = 2 ^ k
  /\ Forall proper A /\ encloses A a
  /\ f A (2 ^ k) p = Ok (out, A') /\ no_warning out /\ g a (2 ^ k) p = Err SignedOverflow.
Proof.
  intros f g Hin. cbn [In] in Hin.
  destruct Hin as [Hin|[Hin|[Hin|[Hin|[Hin|[Hin|[Hin|[Hin|[]]]]]]]]]; injection Hin as <- <-;
  [ exists 2, [(0, 0); (0, 0); (0, 0); (-1759218605, -1759218605)], [1; 1; 1; 5000], [0; 0; 0; -1759218605]
  | exists 1, [(0, 0); (1759218605, 1759218605)], [1; 5000], [0; 1759218605]
  | exists 2, [(0, 0); (0, 0); (0, 0); (-1759218605, -1759218605)], [1; 1; 1; 5000], [0; 0; 0; -1759218605]
  | exists 1, [(0, 0); (1759218605, 1759218605)], [1; 5000], [0; 1759218605]
  | exists 2, [(0, 0); (0, 0); (1073741824, 1073741824); (-1073741825, -1073741825)], [1; 1; 1; 1],
      [0; 0; 1073741824; -1073741825]
  | exists 1, [(1073741824, 1073741824); (-1073741825, -1073741825)], [1; 1], [1073741824; -1073741825]
  | exists 2, [(0, 0); (1073741824, 1073741824); (0, 0); (-1073741825, -1073741825)], [1; 1; 1; 1],
      [0; 1073741824; 0; -1073741825]
  | exists 1, [(1073741824, 1073741824); (-1073741825, -1073741825)], [1; 1], [1073741824; -1073741825] ];
  (do 2 eexists; split; [lia|]; split; [reflexivity|]; split; [elements|]; split; [reflexivity|];
   split; [intervals|]; split; [intervals|]; split; [vm_compute; reflexivity|];
   split; [repeat (constructor; [reflexivity|]); constructor|vm_compute; reflexivity]).
Qed.

Lemma abstract2_refuted_L :
  forall f g, In (f, g)
    [(abstract2_ntt_red_ct_rev2std, ModelRed.ntt_red_ct_rev2std);
     (abstract2_mulntt_red_ct_rev2std, ModelRed.mulntt_red_ct_rev2std);
     (abstract2_ntt_red_ct_std2rev, ModelRed.ntt_red_ct_std2rev);
     (abstract2_mulntt_red_ct_std2rev, ModelRed.mulntt_red_ct_std2rev);
     (abstract2_ntt_red_gs_rev2std, ModelRed.ntt_red_gs_rev2std);
     (abstract2_nttmul_red_gs_rev2std, ModelRed.nttmul_red_gs_rev2std);
     (abstract2_ntt_red_gs_std2rev, ModelRed.ntt_red_gs_std2rev);
     (abstract2_nttmul_red_gs_std2rev, ModelRed.nttmul_red_gs_std2rev)] ->
  exists k A P p a out A' r, 0 <= k <= 31 /\ zlen p = 2 ^ k /\ zlen a = 2 ^ k
  /\ Forall proper A /\ Forall proper P /\ encloses A a /\ encloses P p
  /\ f A (2 ^ k) P = Ok (out, A') /\ printed_within (2 ^ 30 - 1) out
  /\ g a (2 ^ k) p = Ok r /\ ~ encloses A' r.
Proof.
  change (2 ^ 30 - 1) with 1073741823. intros f g Hin. cbn [In] in Hin.
  destruct Hin as [Hin|[Hin|[Hin|[Hin|[Hin|[Hin|[Hin|[Hin|[]]]]]]]]]; injection Hin as <- <-;
  [ exists 2, [(0, 0); (0, 0); (0, 0); (59999999, 60000000)], [(1, 1); (1, 1); (1, 1); (1, 1)], [1; 1; 1; 1],
      [0; 0; 0; 60000000]
  | exists 1, [(0, 0); (-60000000, -59999999)], [(1, 1); (1, 1)], [1; 1], [0; -60000000]
  | exists 2, [(0, 0); (0, 0); (0, 0); (59999999, 60000000)], [(1, 1); (1, 1); (1, 1); (1, 1)], [1; 1; 1; 1],
      [0; 0; 0; 60000000]
  | exists 1, [(0, 0); (-60000000, -59999999)], [(1, 1); (1, 1)], [1; 1], [0; -60000000]
  | exists 2, [(0, 0); (0, 0); (-60000000, -59999999); (0, 0)], [(1, 1); (1, 1); (1, 1); (1, 1)], [1; 1; 1; 1],
      [0; 0; -60000000; 0]
  | exists 1, [(-60000000, -59999999); (0, 0)], [(1, 1); (1, 1)], [1; 1], [-60000000; 0]
  | exists 2, [(0, 0); (-60000000, -59999999); (0, 0); (0, 0)], [(1, 1); (1, 1); (1, 1); (1, 1)], [1; 1; 1; 1],
      [0; -60000000; 0; 0]
  | exists 1, [(-60000000, -59999999); (0, 0)], [(1, 1); (1, 1)], [1; 1], [-60000000; 0] ];
  (do 3 eexists; split; [lia|]; split; [reflexivity|]; split; [reflexivity|];
   split; [intervals|]; split; [intervals|]; split; [intervals|]; split; [intervals|];
   split; [vm_compute; reflexivity|];
   split; [repeat (constructor; [cbn [fst]; repeat (constructor; [cbn [fst snd]; lia|]); constructor|]); constructor|];
   split; [vm_compute; reflexivity|intros H; apply enclb_of in H; vm_compute in H; discriminate]).
Qed.
