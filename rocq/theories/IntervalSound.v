(** The abstract transforms enclose the concrete ones: proofs. *)

From Coq Require Import ZArith List Bool Lia.
From Verif Require Import CSem Spec Loops Stages OuterLoops RedElem NttElem NaiveElem BoundsElem
  ModelInterval IntervalElem IntervalLoops.
From Verif Require ModelRed.
Import ListNotations.
Open Scope Z_scope.

(** ** The values computed by the concrete transforms, without overflow *)

(** One round with distance [h]; [m s x] is the product of [x] by the constant for the
    pair at [s], [s + h]. *)
Definition ctround (h : Z) (m : Z -> Z -> Z) (F : Z -> Z) (i : Z) : Z :=
  if (i / h) mod 2 =? 0 then F i + m i (F (i + h)) else F (i - h) - m (i - h) (F i).
Definition gsround (h : Z) (m : Z -> Z -> Z) (F : Z -> Z) (i : Z) : Z :=
  if (i / h) mod 2 =? 0 then F i + F (i + h) else m (i - h) (F (i - h) - F i).

Definition mA (pl : bool) (p : list Z) (t : Z) (s x : Z) : Z :=
  if pl && (s mod t =? 0) then x else redz (at_ p (t + s mod t) * x).
Definition mB (pl : bool) (p : list Z) (t d : Z) (s x : Z) : Z :=
  if pl && (s / (2 * d) =? 0) then x else redz (at_ p (t + s / (2 * d)) * x).

Fixpoint trn (rnd : Z -> (Z -> Z) -> Z -> Z) (F : Z -> Z) (c : nat) : Z -> Z :=
  match c with
  | O => F
  | S c' => rnd (Z.of_nat c') (trn rnd F c')
  end.
Definition Tr (rnd : Z -> (Z -> Z) -> Z -> Z) (F : Z -> Z) (c : Z) : Z -> Z := trn rnd F (Z.to_nat c).

Lemma Tr_succ rnd F c : 0 <= c -> Tr rnd F (c + 1) = rnd c (Tr rnd F c).
Proof.
  intros H. unfold Tr. replace (Z.to_nat (c + 1)) with (S (Z.to_nat c)) by lia. cbn [trn].
  now rewrite Z2Nat.id by lia.
Qed.

Lemma half_lo h q j : 0 < h -> 0 <= j < h -> ((j + q * (2 * h)) / h) mod 2 = 0.
Proof. intros. replace (j + q * (2 * h)) with (j + (2 * q) * h) by ring.
  rewrite Z.div_add, Z.div_small by lia. rewrite Z.add_0_l, Z.mul_comm. apply Z.mod_mul. lia. Qed.
Lemma half_hi h q j : 0 < h -> 0 <= j < h -> ((j + q * (2 * h) + h) / h) mod 2 = 1.
Proof. intros. replace (j + q * (2 * h) + h) with (j + (2 * q + 1) * h) by ring.
  rewrite Z.div_add, Z.div_small by lia. rewrite Z.add_0_l. rewrite Z.add_comm, Z.mul_comm, Z.mod_add by lia. reflexivity. Qed.

Lemma ctround_lo h m F q j : 0 < h -> 0 <= j < h ->
  ctround h m F (j + q * (2 * h)) = F (j + q * (2 * h)) + m (j + q * (2 * h)) (F (j + q * (2 * h) + h)).
Proof. intros. unfold ctround. rewrite half_lo by assumption. reflexivity. Qed.
Lemma ctround_hi h m F q j : 0 < h -> 0 <= j < h ->
  ctround h m F (j + q * (2 * h) + h) = F (j + q * (2 * h)) - m (j + q * (2 * h)) (F (j + q * (2 * h) + h)).
Proof. intros. unfold ctround. rewrite half_hi by assumption.
  replace (j + q * (2 * h) + h - h) with (j + q * (2 * h)) by ring. reflexivity. Qed.
Lemma gsround_lo h m F q j : 0 < h -> 0 <= j < h ->
  gsround h m F (j + q * (2 * h)) = F (j + q * (2 * h)) + F (j + q * (2 * h) + h).
Proof. intros. unfold gsround. rewrite half_lo by assumption. reflexivity. Qed.
Lemma gsround_hi h m F q j : 0 < h -> 0 <= j < h ->
  gsround h m F (j + q * (2 * h) + h) = m (j + q * (2 * h)) (F (j + q * (2 * h)) - F (j + q * (2 * h) + h)).
Proof. intros. unfold gsround. rewrite half_hi by assumption.
  replace (j + q * (2 * h) + h - h) with (j + q * (2 * h)) by ring. reflexivity. Qed.

Lemma mA_at pl p t j c x : 0 < t -> 0 <= j < t ->
  mA pl p t (posA t j c) x = if pl && (j =? 0) then x else redz (at_ p (t + j) * x).
Proof.
  intros. unfold mA, posA. replace (j + c * (2 * t)) with (j + (2 * c) * t) by ring.
  rewrite Z.mod_add, Z.mod_small by lia. reflexivity.
Qed.
Lemma mB_at pl p t d j c x : 0 < d -> 0 <= c < d ->
  mB pl p t d (posB d j c) x = if pl && (j =? 0) then x else redz (at_ p (t + j) * x).
Proof.
  intros. unfold mB, posB. replace (2 * d * j + c) with (c + j * (2 * d)) by ring.
  rewrite Z.div_add, Z.div_small by lia. reflexivity.
Qed.

(** ** Butterflies on intervals *)

Definition PA (B : Z) (F : Z -> Z) (i : Z) (V : itv) : Prop :=
  wfi V /\ - B <= fst V /\ snd V <= B /\ mem (F i) V.
Definition PB (F : Z -> Z) (i : Z) (V : itv) : Prop := wfi V /\ mem (F i) V.

Section IBfly.
Variables (n h s B : Z) (F G : Z -> Z).
Hypothesis Hn : n <= 2147483648.
Hypothesis Hs : 0 <= s.
Hypothesis Hh : 0 < h.
Hypothesis Hsh : s + h < n.
Hypothesis HB : B <= 2147483648.

Lemma abfly0_spec : G s = F s + F (s + h) -> G (s + h) = F s - F (s + h) ->
  ibspec n h (PA B F) (PB G) s (abfly0 s h).
Proof.
  intros G1 G2 a HL (Y1 & Y2 & Y3 & Y4) (X1 & X2 & X3 & X4) r E.
  unfold abfly0 in E. rewrite (pair_idx n s h) in E by lia.
  rewrite rdi_ok in E by lia. cbn [bind] in E. rewrite rdi_ok in E by lia. cbn [bind] in E.
  set (x := ati a (s + h)) in *. set (y := ati a s) in *.
  assert (Y5 := proj1 Y1). assert (X5 := proj1 X1).
  rewrite sub_ok in E by (try assumption; unfold i64r; lia). cbn [bind] in E.
  rewrite wri_ok in E by lia. cbn [bind] in E.
  rewrite add_ok in E by (try assumption; unfold i64r; lia). cbn [bind] in E.
  rewrite wri_ok in E by (rewrite iset_len; lia). inversion E; subst r. clear E.
  do 2 eexists. split; [reflexivity|]. unfold PB, wfi, mem, i64r in *. cbn [fst snd].
  rewrite G1, G2. lia.
Qed.

Lemma redz_46 z : -70368744177664 <= z <= 70368744177664 -> -17179869184 <= redz z <= 17179881469.
Proof. intros H. apply redz_bounds in H. cbn in H. lia. Qed.

Lemma act_spec w : -32768 <= w <= 32767 ->
  G s = F s + redz (w * F (s + h)) -> G (s + h) = F s - redz (w * F (s + h)) ->
  ibspec n h (PA B F) (PB G) s (act_bfly red_scale w s h).
Proof.
  intros Hw G1 G2 a HL (Y1 & Y2 & Y3 & Y4) (X1 & X2 & X3 & X4) r E.
  unfold act_bfly in E. rewrite (pair_idx n s h) in E by lia.
  rewrite rdi_ok in E by lia. cbn [bind] in E. rewrite rdi_ok in E by lia. cbn [bind] in E.
  set (x := ati a (s + h)) in *. set (y := ati a s) in *.
  assert (Y5 := proj1 Y1). assert (X5 := proj1 X1).
  destruct (Z.eq_dec w 0) as [W0|W0].
  { subst w. exfalso. unfold red_scale in E.
    destruct (ModelBounds.min_red_mul (fst x) (snd x) 0) as [q|] eqn:Em; [|discriminate].
    unfold ModelBounds.min_red_mul in Em. replace (fst x <=? snd x) with true in Em by lia.
    cbn [cassert bind] in Em. cbn -[ModelBounds.min_loop] in Em. discriminate. }
  assert (MW : forall v, fst x <= v <= snd x -> -70368744177664 <= w * v <= 70368744177664) by (intros; nia).
  destruct (red_scale_ok w x) as (u & v & Eu & Mu & Mv & HR); try assumption; try lia;
    try (unfold sbnd; specialize (MW (fst x)); lia); try (unfold sbnd; specialize (MW (snd x)); lia).
  rewrite Eu in E. cbn [bind] in E.
  assert (Bu := redz_46 _ (MW u Mu)). assert (Bv := redz_46 _ (MW v Mv)).
  assert (Huv : redz (w * u) <= redz (w * v)) by (apply (HR v Mv)).
  assert (Wz : wfi (redz (w * u), redz (w * v))) by (unfold wfi, i64r; cbn [fst snd]; lia).
  rewrite sub_ok in E by (try assumption; unfold i64r; cbn [fst snd]; lia). cbn [bind] in E.
  rewrite wri_ok in E by lia. cbn [bind] in E.
  rewrite add_ok in E by (try assumption; unfold i64r; cbn [fst snd]; lia). cbn [bind] in E.
  rewrite wri_ok in E by (rewrite iset_len; lia). inversion E; subst r. clear E.
  do 2 eexists. split; [reflexivity|]. specialize (HR _ X4).
  unfold PB, wfi, mem, i64r in *. cbn [fst snd] in *.
  rewrite G1, G2. lia.
Qed.

Lemma ags_spec w : -32768 <= w <= 32767 -> B <= 1073741824 ->
  G s = F s + F (s + h) -> G (s + h) = redz (w * (F s - F (s + h))) ->
  ibspec n h (PA B F) (PB G) s (ags_bfly red_scale w s h).
Proof.
  intros Hw HB' G1 G2 a HL (Y1 & Y2 & Y3 & Y4) (X1 & X2 & X3 & X4) r E.
  unfold ags_bfly in E. rewrite (pair_idx n s h) in E by lia.
  rewrite rdi_ok in E by lia. cbn [bind] in E. rewrite rdi_ok in E by lia. cbn [bind] in E.
  set (x := ati a (s + h)) in *. set (y := ati a s) in *.
  assert (Y5 := proj1 Y1). assert (X5 := proj1 X1).
  rewrite sub_ok in E by (try assumption; unfold i64r; lia). cbn [bind] in E.
  set (z := (fst y - snd x, snd y - fst x)) in *.
  assert (Z0 : fst z <= snd z) by (unfold z; cbn [fst snd]; lia).
  assert (Z1 : -2147483648 <= fst z) by (unfold z; cbn [fst snd]; lia).
  assert (Z2 : snd z <= 2147483648) by (unfold z; cbn [fst snd]; lia).
  assert (Z3 : mem (F s - F (s + h)) z) by (unfold mem, z in *; cbn [fst snd]; lia).
  clearbody z.
  destruct (Z.eq_dec w 0) as [W0|W0].
  { subst w. exfalso. unfold red_scale in E.
    destruct (ModelBounds.min_red_mul (fst z) (snd z) 0) as [q|] eqn:Em; [|discriminate].
    unfold ModelBounds.min_red_mul in Em. replace (fst z <=? snd z) with true in Em by lia.
    cbn [cassert bind] in Em. cbn -[ModelBounds.min_loop] in Em. discriminate. }
  assert (MW : forall v, fst z <= v <= snd z -> -70368744177664 <= w * v <= 70368744177664) by (intros; nia).
  destruct (red_scale_ok w z) as (u & v & Eu & Mu & Mv & HR); try assumption; try lia;
    try (unfold sbnd; specialize (MW (fst z)); lia); try (unfold sbnd; specialize (MW (snd z)); lia).
  rewrite Eu in E. cbn [bind] in E.
  assert (Bu := redz_46 _ (MW u Mu)). assert (Bv := redz_46 _ (MW v Mv)).
  assert (Huv : redz (w * u) <= redz (w * v)) by (apply (HR v Mv)).
  rewrite wri_ok in E by lia. cbn [bind] in E.
  rewrite add_ok in E by (try assumption; unfold i64r; cbn [fst snd]; lia). cbn [bind] in E.
  rewrite wri_ok in E by (rewrite iset_len; lia). inversion E; subst r. clear E.
  do 2 eexists. split; [reflexivity|]. specialize (HR _ Z3).
  unfold PB, wfi, mem, i64r in *. cbn [fst snd] in *.
  rewrite G1, G2. lia.
Qed.

End IBfly.

Lemma halfpow c : Z.shiftr (2 ^ c) 1 = 2 ^ (c - 1).
Proof. exact (pow_half 0 (fun _ _ _ => True) c). Qed.

(** ** Show *)

Lemma show_ok a n : ilen a = n -> 0 <= n <= 2147483648 ->
  exists ws, show_intervals a n = Ok (a, ws)
    /\ (forall i, In i ws <-> 0 <= i < n /\ (fst (ati a i) < -2147483648 \/ 2147483647 < snd (ati a i))).
Proof.
  intros HL Hn. unfold show_intervals.
  destruct (cfor_count (fun c (out : list itv) => out = firstn (Z.to_nat c) a) n (fun c => c)
      (fun i => i <? n) (fun i => u32 (i + 1))
      (fun i out => do x <- rdi a i; Ok (out ++ [x]))) with (f := fuel n) (i0 := 0) (st := @nil itv)
      as (r & Er & Hr); auto; try lia; try (unfold fuel; lia).
  { intros. apply u32_small. lia. }
  { intros c out Hc ->. rewrite rdi_ok by lia. cbn [bind]. eexists. split; [reflexivity|].
    replace (Z.to_nat (c + 1)) with (S (Z.to_nat c)) by lia. unfold ati.
    unfold ilen in HL. clear - HL Hc. assert (H : (Z.to_nat c < length a)%nat) by lia.
    revert H. generalize (Z.to_nat c). intros m. revert a HL. clear. intros a _. revert m.
    induction a as [|x a IH]; intros m H; [cbn in H; lia|]. destruct m; [reflexivity|].
    cbn [firstn app nth]. f_equal. apply IH. cbn in H. lia. }
  rewrite Er. cbn [bind]. rewrite firstn_all2 in Hr by (unfold ilen in HL; lia). subst r. clear Er.
  destruct (cfor_count (fun c (out : list Z) => forall i, In i out <->
        0 <= i < c /\ (fst (ati a i) < -2147483648 \/ 2147483647 < snd (ati a i))) n (fun c => c)
      (fun i => i <? n) (fun i => u32 (i + 1))
      (fun i out => do x <- rdi a i;
         Ok (if (fst x <? -2147483648) || (2147483647 <? snd x) then out ++ [i] else out)))
      with (f := fuel n) (i0 := 0) (st := @nil Z)
      as (r & Er & Hr); auto; try lia; try (unfold fuel; lia).
  { intros. apply u32_small. lia. }
  { intros c out Hc IH. rewrite rdi_ok by lia. cbn [bind]. eexists. split; [reflexivity|].
    intros i. destruct (_ || _) eqn:E.
    - rewrite in_app_iff, IH. cbn [In]. split.
      + intros [H|[<-|[]]]; lia.
      + intros [H1 H2]. destruct (Z.eq_dec c i); [right; left; assumption|left; lia].
    - rewrite IH. split; [lia|]. intros [H1 H2]. destruct (Z.eq_dec c i); [subst; lia|lia]. }
  { intros i. cbn [In]. lia. }
  rewrite Er. cbn [bind]. eexists. split; [reflexivity|]. exact Hr.
Qed.

(** ** The rounds *)

(** Every printed bound is at most [B] in absolute value. *)
Definition rows (B : Z) (out : list shown) : Prop :=
  forall sh V, In sh out -> In V (fst sh) -> - B <= fst V /\ snd V <= B.

Section Rounds.
Variables (k n B : Z) (rnd : Z -> (Z -> Z) -> Z -> Z) (F0 : Z -> Z).
Hypothesis Hk : 0 <= k <= 31.
Hypothesis Hn : n = 2 ^ k.

Definition JJ (c : Z) (out : list shown) (a : list itv) : Prop :=
  rows B out -> ilen a = n /\ (forall i, 0 <= i < n -> PB (Tr rnd F0 c) i (ati a i))
    /\ (forall c' i, 0 <= c' < c -> 0 <= i < n -> - B <= Tr rnd F0 c' i <= B).

Lemma JJ_PA c out a sh : JJ c out a -> show_intervals a n = Ok sh -> rows B (out ++ [sh]) ->
  ilen a = n /\ (forall i, 0 <= i < n -> PA B (Tr rnd F0 c) i (ati a i)).
Proof.
  intros HJ Es HR. assert (HR0 : rows B out).
  { intros s V Hs HV. apply (HR s V); [|assumption]. apply in_or_app. now left. }
  destruct (HJ HR0) as (HL & HP & _). split; [assumption|]. intros i Hi.
  assert (Hn31 := n_le k n (fun _ _ _ => True) Hk Hn).
  destruct (show_ok a n HL) as (ws & Ew & _).
  { split; [|assumption]. rewrite <- HL. apply ilen_nonneg. }
  rewrite Es in Ew. inversion Ew; subst sh. clear Ew.
  destruct (HP i Hi) as [HW HM].
  assert (HB : - B <= fst (ati a i) /\ snd (ati a i) <= B).
  { apply (HR (a, ws)); [apply in_or_app; right; now left|]. cbn [fst]. unfold ati. apply nth_In.
    unfold ilen in HL. lia. }
  unfold PA. tauto.
Qed.

Lemma JJ_step c out a sh a' : 0 <= c -> JJ c out a -> show_intervals a n = Ok sh ->
  (ilen a = n -> (forall i, 0 <= i < n -> PA B (Tr rnd F0 c) i (ati a i)) ->
   ilen a' = n /\ (forall i, 0 <= i < n -> PB (rnd c (Tr rnd F0 c)) i (ati a' i))) ->
  JJ (c + 1) (out ++ [sh]) a'.
Proof.
  intros Hc HJ Es H HR. destruct (JJ_PA c out a sh HJ Es HR) as [HL HP].
  destruct (H HL HP) as [HL' HP']. split; [assumption|]. rewrite Tr_succ by assumption.
  split; [exact HP'|]. intros c' i Hc' Hi. destruct (Z.eq_dec c' c) as [->|].
  - destruct (HP i Hi) as (_ & H1 & H2 & H3). unfold mem in H3. lia.
  - assert (HR0 : rows B out).
    { intros s V Hs HV. apply (HR s V); [|assumption]. apply in_or_app. now left. }
    apply (HJ HR0); lia.
Qed.

Lemma JJ_end B2 out a sh : JJ k out a -> show_intervals a n = Ok sh ->
  rows B (removelast (out ++ [sh])) -> rows B2 (out ++ [sh]) ->
  ilen a = n /\ (forall i, 0 <= i < n -> wfi (ati a i) /\ mem (Tr rnd F0 k i) (ati a i))
    /\ (forall c i, 0 <= c < k -> 0 <= i < n -> - B <= Tr rnd F0 c i <= B)
    /\ (forall i, 0 <= i < n -> - B2 <= Tr rnd F0 k i <= B2).
Proof.
  intros HJ Es HR HR2. rewrite removelast_last in HR. destruct (HJ HR) as (HL & HP & HB).
  split; [assumption|]. split; [exact HP|]. split; [exact HB|]. intros i Hi.
  assert (Hn31 := n_le k n (fun _ _ _ => True) Hk Hn).
  destruct (show_ok a n HL) as (ws & Ew & _).
  { split; [|assumption]. rewrite <- HL. apply ilen_nonneg. }
  rewrite Es in Ew. inversion Ew; subst sh. clear Ew.
  destruct (HP i Hi) as [HW HM]. unfold mem in HM.
  assert (HB2 : - B2 <= fst (ati a i) /\ snd (ati a i) <= B2).
  { apply (HR2 (a, ws)); [apply in_or_app; right; now left|]. cbn [fst]. unfold ati. apply nth_In.
    unfold ilen in HL. lia. }
  lia.
Qed.

Lemma JJ_start a : ilen a = n -> (forall i, 0 <= i < n -> wfi (ati a i) /\ mem (F0 i) (ati a i)) ->
  JJ 0 [] a.
Proof. intros HL HP _. split; [assumption|]. split; [exact HP|]. intros; lia. Qed.

(** The loops around the rounds. *)

Lemma up_pc (body : Z -> list shown * list itv -> res (list shown * list itv)) :
  (forall c out a, 0 <= c < k -> JJ c out a ->
     pc (body (2 ^ c) (out, a)) (fun '(out, a) => JJ (c + 1) out a)) ->
  forall f a, JJ 0 [] a ->
  pc (cfor f 1 (fun t => t <? n) (fun t => u32 (t * 2)) body ([], a)) (fun '(out, a) => JJ k out a).
Proof.
  intros Hb f a Ha.
  apply (cfor_pc (fun c '(out, a) => JJ c out a) k (fun c => 2 ^ c)); try lia.
  - intros l Hl. apply Z.ltb_lt, (pow_lt_n k n (fun _ _ _ => True)); auto; lia.
  - intros l Hl. apply (pow_next k n (fun _ _ _ => True)); auto; lia.
  - intros c [out b] Hc HJ. apply Hb; assumption.
  - exact Ha.
Qed.

Lemma down_pc (body : Z -> list shown * list itv -> res (list shown * list itv)) :
  (forall c out a, 0 <= c < k -> JJ c out a ->
     pc (body (2 ^ (k - 1 - c)) (out, a)) (fun '(out, a) => JJ (c + 1) out a)) ->
  forall f a, JJ 0 [] a ->
  pc (cfor f (Z.shiftr n 1) (fun t => 0 <? t) (fun t => Z.shiftr t 1) body ([], a))
     (fun '(out, a) => JJ k out a).
Proof.
  intros Hb f a Ha.
  apply (cfor_pc (fun c '(out, a) => JJ c out a) k (fun c => 2 ^ (k - 1 - c))); try lia.
  - replace (k - 1 - k) with (-1) by lia. reflexivity.
  - intros c Hc. rewrite halfpow. f_equal. lia.
  - intros c [out b] Hc HJ. apply Hb; assumption.
  - rewrite Hn, halfpow. f_equal. lia.
  - exact Ha.
Qed.

Lemma upd_pc (body : Z -> list shown * Z * list itv -> res (list shown * Z * list itv)) :
  (forall c out a, 0 <= c < k -> JJ c out a ->
     pc (body (2 ^ c) (out, 2 ^ (k - c), a))
        (fun '(out, d, a) => d = 2 ^ (k - 1 - c) /\ JJ (c + 1) out a)) ->
  forall f a, JJ 0 [] a ->
  pc (cfor f 1 (fun t => t <? n) (fun t => u32 (t * 2)) body ([], n, a)) (fun '(out, _, a) => JJ k out a).
Proof.
  intros Hb f a Ha.
  apply pc_weak with (R := fun '(out, d, a) => d = 2 ^ (k - k) /\ JJ k out a).
  2:{ intros [[out d] b] [_ H]. exact H. }
  apply (cfor_pc (fun c '(out, d, a) => d = 2 ^ (k - c) /\ JJ c out a) k (fun c => 2 ^ c)); try lia.
  - intros l Hl. apply Z.ltb_lt, (pow_lt_n k n (fun _ _ _ => True)); auto; lia.
  - intros l Hl. apply (pow_next k n (fun _ _ _ => True)); auto; lia.
  - intros c [[out d] b] Hc [-> HJ]. replace (k - (c + 1)) with (k - 1 - c) by lia.
    apply Hb; assumption.
  - split; [|exact Ha]. rewrite Hn. f_equal. lia.
Qed.

(** What is concluded from the abstract run: [B] bounds the rows shown before the rounds,
    [B2] the last one as well. *)
Definition encl (out : list shown) (A : list itv) : Prop := forall B2, rows B (removelast out) -> rows B2 out ->
  ilen A = n /\ (forall i, 0 <= i < n -> wfi (ati A i) /\ mem (Tr rnd F0 k i) (ati A i))
    /\ (forall c i, 0 <= c < k -> 0 <= i < n -> - B <= Tr rnd F0 c i <= B)
    /\ (forall i, 0 <= i < n -> - B2 <= Tr rnd F0 k i <= B2).

Lemma finish_pc {S} (m : res S) (g : S -> list shown * list itv) :
  pc m (fun s => JJ k (fst (g s)) (snd (g s))) ->
  pc (do s <- m; do sh <- show_intervals (snd (g s)) n; Ok (fst (g s) ++ [sh], snd (g s)))
     (fun '(out, a) => encl out a).
Proof.
  intros H r E. destruct m as [s|]; [|discriminate]. cbn [bind] in E.
  destruct (show_intervals (snd (g s)) n) as [sh|] eqn:Es; [|discriminate]. cbn [bind] in E.
  inversion E; subst r. intros B2 HR HR2. apply (JJ_end B2 (fst (g s)) (snd (g s)) sh); auto.
Qed.
End Rounds.

(** ** One round at the positions visited by the loops *)

Section At.
Variables (pl : bool) (p : list Z) (F : Z -> Z) (t d j c : Z).
Lemma ctA_lo : 0 < t -> 0 <= j < t ->
  ctround t (mA pl p t) F (posA t j c) = F (posA t j c) + (if pl && (j =? 0) then F (posA t j c + t) else redz (at_ p (t + j) * F (posA t j c + t))).
Proof. intros. rewrite <- (mA_at pl p t j c) by assumption. unfold posA. apply ctround_lo; assumption. Qed.
Lemma ctA_hi : 0 < t -> 0 <= j < t ->
  ctround t (mA pl p t) F (posA t j c + t) = F (posA t j c) - (if pl && (j =? 0) then F (posA t j c + t) else redz (at_ p (t + j) * F (posA t j c + t))).
Proof. intros. rewrite <- (mA_at pl p t j c) by assumption. unfold posA. apply ctround_hi; assumption. Qed.
Lemma gsA_lo : 0 < t -> 0 <= j < t ->
  gsround t (mA pl p t) F (posA t j c) = F (posA t j c) + F (posA t j c + t).
Proof. intros. unfold posA. apply gsround_lo; assumption. Qed.
Lemma gsA_hi : 0 < t -> 0 <= j < t ->
  gsround t (mA pl p t) F (posA t j c + t) = (if pl && (j =? 0) then (F (posA t j c) - F (posA t j c + t)) else redz (at_ p (t + j) * (F (posA t j c) - F (posA t j c + t)))).
Proof. intros. rewrite <- (mA_at pl p t j c) by assumption. unfold posA. apply gsround_hi; assumption. Qed.
Lemma ctB_lo : 0 < d -> 0 <= c < d ->
  ctround d (mB pl p t d) F (posB d j c) = F (posB d j c) + (if pl && (j =? 0) then F (posB d j c + d) else redz (at_ p (t + j) * F (posB d j c + d))).
Proof. intros. rewrite <- (mB_at pl p t d j c) by assumption. unfold posB. replace (2 * d * j + c) with (c + j * (2 * d)) by ring. apply ctround_lo; assumption. Qed.
Lemma ctB_hi : 0 < d -> 0 <= c < d ->
  ctround d (mB pl p t d) F (posB d j c + d) = F (posB d j c) - (if pl && (j =? 0) then F (posB d j c + d) else redz (at_ p (t + j) * F (posB d j c + d))).
Proof. intros. rewrite <- (mB_at pl p t d j c) by assumption. unfold posB. replace (2 * d * j + c) with (c + j * (2 * d)) by ring. apply ctround_hi; assumption. Qed.
Lemma gsB_lo : 0 < d -> 0 <= c < d ->
  gsround d (mB pl p t d) F (posB d j c) = F (posB d j c) + F (posB d j c + d).
Proof. intros. unfold posB. replace (2 * d * j + c) with (c + j * (2 * d)) by ring. apply gsround_lo; assumption. Qed.
Lemma gsB_hi : 0 < d -> 0 <= c < d ->
  gsround d (mB pl p t d) F (posB d j c + d) = (if pl && (j =? 0) then (F (posB d j c) - F (posB d j c + d)) else redz (at_ p (t + j) * (F (posB d j c) - F (posB d j c + d)))).
Proof. intros. rewrite <- (mB_at pl p t d j c) by assumption. unfold posB. replace (2 * d * j + c) with (c + j * (2 * d)) by ring. apply gsround_hi; assumption. Qed.
End At.

(** ** The eight abstract transforms *)

Definition r_ctA (pl : bool) (p : list Z) (k c : Z) := ctround (2 ^ c) (mA pl p (2 ^ c)).
Definition r_ctB (pl : bool) (p : list Z) (k c : Z) :=
  ctround (2 ^ (k - 1 - c)) (mB pl p (2 ^ c) (2 ^ (k - 1 - c))).
Definition r_gsA (pl : bool) (p : list Z) (k c : Z) := gsround (2 ^ (k - 1 - c)) (mA pl p (2 ^ (k - 1 - c))).
Definition r_gsB (pl : bool) (p : list Z) (k c : Z) := gsround (2 ^ c) (mB pl p (2 ^ (k - 1 - c)) (2 ^ c)).

Lemma rd_int16 p n : zlen p = n -> (forall i, 0 <= i < n -> -32768 <= at_ p i <= 32767) ->
  forall i w, rd p i = Ok w -> w = at_ p i /\ -32768 <= w <= 32767.
Proof.
  intros HL HP i w E. destruct (Z_lt_ge_dec i 0) as [H|H].
  { unfold rd in E. destruct (Z.ltb_spec i 0); [discriminate|lia]. }
  destruct (Z_lt_ge_dec i n) as [H'|H'].
  - rewrite rd_ok in E by lia. inversion E; subst w. split; [reflexivity|]. apply HP. lia.
  - exfalso. unfold rd in E. destruct (Z.ltb_spec i 0); [lia|].
    unfold zlen in HL. rewrite (proj2 (nth_error_None p (Z.to_nat i))) in E by lia. discriminate.
Qed.

Section Abstract.
Variables (k n B : Z) (p a : list Z) (A : list itv).
Hypothesis Hk : 0 <= k <= 31.
Hypothesis Hn : n = 2 ^ k.
Hypothesis HpL : zlen p = n.
Hypothesis Hp : forall i, 0 <= i < n -> -32768 <= at_ p i <= 32767.
Hypothesis HAL : ilen A = n.
Hypothesis HA : forall i, 0 <= i < n -> wfi (ati A i) /\ mem (at_ a i) (ati A i).

Ltac facts c :=
  assert (Hn31 := n_le k n (fun _ _ _ => True) Hk Hn);
  assert (0 < 2 ^ c) by (apply Z.pow_pos_nonneg; lia);
  assert (0 < 2 ^ (k - 1 - c)) by (apply Z.pow_pos_nonneg; lia);
  assert (Hsp := pow_split k n (fun _ _ _ => True) Hn c ltac:(lia)).

(** The bodies of the pairs. *)
Ltac w16 Ew := destruct (rd_int16 p n HpL Hp _ _ Ew) as [-> ?].

Lemma abs_ntt_red_ct_rev2std : B <= 2147483648 ->
  pc (abstract_ntt_red_ct_rev2std A n p) (fun '(out, A') => encl k n B (r_ctA true p k) (at_ a) out A').
Proof.
  intros HB. unfold abstract_ntt_red_ct_rev2std, ai_ntt_ct_rev2std. intros r E.
  match type of E with bind ?m _ = _ => destruct m as [[out b]|] eqn:Em end; [|discriminate].
  cbn [bind] in E. destruct (show_intervals b n) as [sh|] eqn:Es; [|discriminate]. cbn [bind] in E.
  inversion E; subst r. clear E. intros B2 HR HR2. apply (JJ_end k n B _ (at_ a) Hk Hn B2 out b sh); auto.
  clear HR HR2 Es sh.
  refine (up_pc k n B (r_ctA true p k) (at_ a) Hk Hn _ _ _ A _ (out, b) Em); [|apply JJ_start; assumption].
  clear Em. clear out b. intros c out b Hc HJ. facts c. intros r E.
  destruct (show_intervals b n) as [sh|] eqn:Es; [|discriminate]. cbn [bind] in E. cbv zeta in E.
  set (T := 2 ^ c) in *. set (M := 2 ^ (k - 1 - c)) in *. assert (H1 : 0 < T) by assumption. assert (H2 : 0 < M) by assumption.
  assert (Hsp' : n = 2 * T * M) by (rewrite Hsp; ring).
  match type of E with bind ?m _ = _ => destruct m as [b1|] eqn:E1 end; [|discriminate]. cbn [bind] in E.
  match type of E with bind ?m _ = _ => destruct m as [b2|] eqn:E2 end; [|discriminate]. cbn [bind] in E.
  inversion E; subst r. clear E.
  apply (JJ_step k n B _ (at_ a) Hk Hn c out b sh b2); [lia | exact HJ | exact Es |].
  intros HLb HPb. set (F := Tr (r_ctA true p k) (at_ a) c) in *.
  assert (posR := posA_range n T M (fun _ _ => True) (fun _ _ => True) H1 H2 Hsp' Hn31).
  refine (i_stageA_plain n T M (PA B F) (PB ((r_ctA true p k) c F)) H1 H2 Hsp' Hn31 (rd p) (fun s => abfly0 s T) (fun w s => act_bfly red_scale w s T) (fuel n) (fuel n) (fuel n) b _ _ HLb HPb b2 _).
    3: { cbv beta iota zeta. rewrite E1. cbn [bind]. exact E2. }
    all: clear E1 E2 HJ Es; unfold r_ctA; fold T M.
    + intros x Hx. destruct (posR 0 x ltac:(lia) Hx) as [R1 R2].
      apply abfly0_spec; try lia; [rewrite (ctA_lo true p F T  0 x) by lia; reflexivity | rewrite (ctA_hi true p F T  0 x) by lia; reflexivity].
    + intros j x w Hj Hx Ew. w16 Ew. destruct (posR j x ltac:(lia) Hx) as [R1 R2].
      apply act_spec; try lia; [rewrite (ctA_lo true p F T  j x) by lia; replace (j =? 0) with false by lia; reflexivity | rewrite (ctA_hi true p F T  j x) by lia; replace (j =? 0) with false by lia; reflexivity].
Qed.

Lemma abs_mulntt_red_ct_rev2std : B <= 2147483648 ->
  pc (abstract_mulntt_red_ct_rev2std A n p) (fun '(out, A') => encl k n B (r_ctA false p k) (at_ a) out A').
Proof.
  intros HB. unfold abstract_mulntt_red_ct_rev2std, ai_mulntt_ct_rev2std. intros r E.
  match type of E with bind ?m _ = _ => destruct m as [[out b]|] eqn:Em end; [|discriminate].
  cbn [bind] in E. destruct (show_intervals b n) as [sh|] eqn:Es; [|discriminate]. cbn [bind] in E.
  inversion E; subst r. clear E. intros B2 HR HR2. apply (JJ_end k n B _ (at_ a) Hk Hn B2 out b sh); auto.
  clear HR HR2 Es sh.
  refine (up_pc k n B (r_ctA false p k) (at_ a) Hk Hn _ _ _ A _ (out, b) Em); [|apply JJ_start; assumption].
  clear Em. clear out b. intros c out b Hc HJ. facts c. intros r E.
  destruct (show_intervals b n) as [sh|] eqn:Es; [|discriminate]. cbn [bind] in E. cbv zeta in E.
  set (T := 2 ^ c) in *. set (M := 2 ^ (k - 1 - c)) in *. assert (H1 : 0 < T) by assumption. assert (H2 : 0 < M) by assumption.
  assert (Hsp' : n = 2 * T * M) by (rewrite Hsp; ring).
  match type of E with bind ?m _ = _ => destruct m as [b2|] eqn:E2 end; [|discriminate]. cbn [bind] in E.
  inversion E; subst r. clear E.
  apply (JJ_step k n B _ (at_ a) Hk Hn c out b sh b2); [lia | exact HJ | exact Es |].
  intros HLb HPb. set (F := Tr (r_ctA false p k) (at_ a) c) in *.
  assert (posR := posA_range n T M (fun _ _ => True) (fun _ _ => True) H1 H2 Hsp' Hn31).
  refine (i_stageA_mul n T M (PA B F) (PB ((r_ctA false p k) c F)) H1 H2 Hsp' Hn31 (rd p) (fun w s => act_bfly red_scale w s T) (fuel n) (fuel n) b _ HLb HPb b2 E2).
    all: clear E2 HJ Es; unfold r_ctA; fold T M.
    + intros j x w Hj Hx Ew. w16 Ew. destruct (posR j x ltac:(lia) Hx) as [R1 R2].
      apply act_spec; try lia; [rewrite (ctA_lo false p F T  j x) by lia; reflexivity | rewrite (ctA_hi false p F T  j x) by lia; reflexivity].
Qed.

Lemma abs_ntt_red_ct_std2rev : B <= 2147483648 ->
  pc (abstract_ntt_red_ct_std2rev A n p) (fun '(out, A') => encl k n B (r_ctB true p k) (at_ a) out A').
Proof.
  intros HB. unfold abstract_ntt_red_ct_std2rev, ai_ntt_ct_std2rev. intros r E.
  match type of E with bind ?m _ = _ => destruct m as [[[out d] b]|] eqn:Em end; [|discriminate].
  cbn [bind] in E. destruct (show_intervals b n) as [sh|] eqn:Es; [|discriminate]. cbn [bind] in E.
  inversion E; subst r. clear E. intros B2 HR HR2. apply (JJ_end k n B _ (at_ a) Hk Hn B2 out b sh); auto.
  clear HR HR2 Es sh.
  refine (upd_pc k n B (r_ctB true p k) (at_ a) Hk Hn _ _ _ A _ (out, d, b) Em); [|apply JJ_start; assumption].
  clear Em. clear out b d. intros c out b Hc HJ. facts c. intros r E.
  destruct (show_intervals b n) as [sh|] eqn:Es; [|discriminate]. cbn [bind] in E. cbv zeta in E.
  rewrite halfpow in E. replace (k - c - 1) with (k - 1 - c) in E by lia.
  set (T := 2 ^ c) in *. set (M := 2 ^ (k - 1 - c)) in *. assert (H1 : 0 < T) by assumption. assert (H2 : 0 < M) by assumption.
  assert (Hsp' : n = 2 * T * M) by (rewrite Hsp; ring).
  match type of E with bind ?m _ = _ => destruct m as [b1|] eqn:E1 end; [|discriminate]. cbn [bind] in E.
  match type of E with bind ?m _ = _ => destruct m as [[u2 b2]|] eqn:E2 end; [|discriminate]. cbn [bind] in E.
  inversion E; subst r. clear E. split; [reflexivity|].
  apply (JJ_step k n B _ (at_ a) Hk Hn c out b sh b2); [lia | exact HJ | exact Es |].
  intros HLb HPb. set (F := Tr (r_ctB true p k) (at_ a) c) in *.
  assert (posR := posB_range n T M (fun _ _ => True) (fun _ _ => True) H1 H2 Hsp' Hn31).
  refine (i_stageB_plain_ct n T M (PA B F) (PB ((r_ctB true p k) c F)) H1 H2 Hsp' Hn31 (rd p) (fun s => abfly0 s M) (fun w s => act_bfly red_scale w s M) (fuel n) (fuel n) (fuel n) b _ _ HLb HPb (u2, b2) _).
    3: { cbv beta iota zeta. rewrite E1. cbn [bind]. exact E2. }
    all: clear E1 E2 HJ Es; unfold r_ctB; fold T M.
    + intros x Hx. destruct (posR 0 x ltac:(lia) Hx) as [R1 R2].
      apply abfly0_spec; try lia; [rewrite (ctB_lo true p F T M 0 x) by lia; reflexivity | rewrite (ctB_hi true p F T M 0 x) by lia; reflexivity].
    + intros j x w Hj Hx Ew. w16 Ew. destruct (posR j x ltac:(lia) Hx) as [R1 R2].
      apply act_spec; try lia; [rewrite (ctB_lo true p F T M j x) by lia; replace (j =? 0) with false by lia; reflexivity | rewrite (ctB_hi true p F T M j x) by lia; replace (j =? 0) with false by lia; reflexivity].
Qed.

Lemma abs_mulntt_red_ct_std2rev : B <= 2147483648 ->
  pc (abstract_mulntt_red_ct_std2rev A n p) (fun '(out, A') => encl k n B (r_ctB false p k) (at_ a) out A').
Proof.
  intros HB. unfold abstract_mulntt_red_ct_std2rev, ai_mulntt_ct_std2rev. intros r E.
  match type of E with bind ?m _ = _ => destruct m as [[[out d] b]|] eqn:Em end; [|discriminate].
  cbn [bind] in E. destruct (show_intervals b n) as [sh|] eqn:Es; [|discriminate]. cbn [bind] in E.
  inversion E; subst r. clear E. intros B2 HR HR2. apply (JJ_end k n B _ (at_ a) Hk Hn B2 out b sh); auto.
  clear HR HR2 Es sh.
  refine (upd_pc k n B (r_ctB false p k) (at_ a) Hk Hn _ _ _ A _ (out, d, b) Em); [|apply JJ_start; assumption].
  clear Em. clear out b d. intros c out b Hc HJ. facts c. intros r E.
  destruct (show_intervals b n) as [sh|] eqn:Es; [|discriminate]. cbn [bind] in E. cbv zeta in E.
  rewrite halfpow in E. replace (k - c - 1) with (k - 1 - c) in E by lia.
  set (T := 2 ^ c) in *. set (M := 2 ^ (k - 1 - c)) in *. assert (H1 : 0 < T) by assumption. assert (H2 : 0 < M) by assumption.
  assert (Hsp' : n = 2 * T * M) by (rewrite Hsp; ring).
  match type of E with bind ?m _ = _ => destruct m as [[u2 b2]|] eqn:E2 end; [|discriminate]. cbn [bind] in E.
  inversion E; subst r. clear E. split; [reflexivity|].
  apply (JJ_step k n B _ (at_ a) Hk Hn c out b sh b2); [lia | exact HJ | exact Es |].
  intros HLb HPb. set (F := Tr (r_ctB false p k) (at_ a) c) in *.
  assert (posR := posB_range n T M (fun _ _ => True) (fun _ _ => True) H1 H2 Hsp' Hn31).
  refine (i_stageB_mul n T M (PA B F) (PB ((r_ctB false p k) c F)) H1 H2 Hsp' Hn31 (rd p) (fun w s => act_bfly red_scale w s M) (fuel n) (fuel n) b _ HLb HPb (u2, b2) E2).
    all: clear E2 HJ Es; unfold r_ctB; fold T M.
    + intros j x w Hj Hx Ew. w16 Ew. destruct (posR j x ltac:(lia) Hx) as [R1 R2].
      apply act_spec; try lia; [rewrite (ctB_lo false p F T M j x) by lia; reflexivity | rewrite (ctB_hi false p F T M j x) by lia; reflexivity].
Qed.

Lemma abs_ntt_red_gs_std2rev : B <= 1073741824 ->
  pc (abstract_ntt_red_gs_std2rev A n p) (fun '(out, A') => encl k n B (r_gsA true p k) (at_ a) out A').
Proof.
  intros HB. unfold abstract_ntt_red_gs_std2rev, ai_ntt_gs_std2rev. intros r E.
  match type of E with bind ?m _ = _ => destruct m as [[out b]|] eqn:Em end; [|discriminate].
  cbn [bind] in E. destruct (show_intervals b n) as [sh|] eqn:Es; [|discriminate]. cbn [bind] in E.
  inversion E; subst r. clear E. intros B2 HR HR2. apply (JJ_end k n B _ (at_ a) Hk Hn B2 out b sh); auto.
  clear HR HR2 Es sh.
  refine (down_pc k n B (r_gsA true p k) (at_ a) Hk Hn _ _ _ A _ (out, b) Em); [|apply JJ_start; assumption].
  clear Em. clear out b. intros c out b Hc HJ. facts c. intros r E.
  destruct (show_intervals b n) as [sh|] eqn:Es; [|discriminate]. cbn [bind] in E. cbv zeta in E.
  set (T := 2 ^ (k - 1 - c)) in *. set (M := 2 ^ c) in *. assert (H1 : 0 < T) by assumption. assert (H2 : 0 < M) by assumption.
  assert (Hsp' : n = 2 * T * M) by (rewrite Hsp; ring).
  match type of E with bind ?m _ = _ => destruct m as [b1|] eqn:E1 end; [|discriminate]. cbn [bind] in E.
  match type of E with bind ?m _ = _ => destruct m as [b2|] eqn:E2 end; [|discriminate]. cbn [bind] in E.
  inversion E; subst r. clear E.
  apply (JJ_step k n B _ (at_ a) Hk Hn c out b sh b2); [lia | exact HJ | exact Es |].
  intros HLb HPb. set (F := Tr (r_gsA true p k) (at_ a) c) in *.
  assert (posR := posA_range n T M (fun _ _ => True) (fun _ _ => True) H1 H2 Hsp' Hn31).
  refine (i_stageA_plain n T M (PA B F) (PB ((r_gsA true p k) c F)) H1 H2 Hsp' Hn31 (rd p) (fun s => abfly0 s T) (fun w s => ags_bfly red_scale w s T) (fuel n) (fuel n) (fuel n) b _ _ HLb HPb b2 _).
    3: { cbv beta iota zeta. rewrite E1. cbn [bind]. exact E2. }
    all: clear E1 E2 HJ Es; unfold r_gsA; fold T M.
    + intros x Hx. destruct (posR 0 x ltac:(lia) Hx) as [R1 R2].
      apply abfly0_spec; try lia; [rewrite (gsA_lo true p F T  0 x) by lia; reflexivity | rewrite (gsA_hi true p F T  0 x) by lia; reflexivity].
    + intros j x w Hj Hx Ew. w16 Ew. destruct (posR j x ltac:(lia) Hx) as [R1 R2].
      apply ags_spec; try lia; [rewrite (gsA_lo true p F T  j x) by lia; replace (j =? 0) with false by lia; reflexivity | rewrite (gsA_hi true p F T  j x) by lia; replace (j =? 0) with false by lia; reflexivity].
Qed.

Lemma abs_nttmul_red_gs_std2rev : B <= 1073741824 ->
  pc (abstract_nttmul_red_gs_std2rev A n p) (fun '(out, A') => encl k n B (r_gsA false p k) (at_ a) out A').
Proof.
  intros HB. unfold abstract_nttmul_red_gs_std2rev, ai_nttmul_gs_std2rev. intros r E.
  match type of E with bind ?m _ = _ => destruct m as [[out b]|] eqn:Em end; [|discriminate].
  cbn [bind] in E. destruct (show_intervals b n) as [sh|] eqn:Es; [|discriminate]. cbn [bind] in E.
  inversion E; subst r. clear E. intros B2 HR HR2. apply (JJ_end k n B _ (at_ a) Hk Hn B2 out b sh); auto.
  clear HR HR2 Es sh.
  refine (down_pc k n B (r_gsA false p k) (at_ a) Hk Hn _ _ _ A _ (out, b) Em); [|apply JJ_start; assumption].
  clear Em. clear out b. intros c out b Hc HJ. facts c. intros r E.
  destruct (show_intervals b n) as [sh|] eqn:Es; [|discriminate]. cbn [bind] in E. cbv zeta in E.
  set (T := 2 ^ (k - 1 - c)) in *. set (M := 2 ^ c) in *. assert (H1 : 0 < T) by assumption. assert (H2 : 0 < M) by assumption.
  assert (Hsp' : n = 2 * T * M) by (rewrite Hsp; ring).
  match type of E with bind ?m _ = _ => destruct m as [b2|] eqn:E2 end; [|discriminate]. cbn [bind] in E.
  inversion E; subst r. clear E.
  apply (JJ_step k n B _ (at_ a) Hk Hn c out b sh b2); [lia | exact HJ | exact Es |].
  intros HLb HPb. set (F := Tr (r_gsA false p k) (at_ a) c) in *.
  assert (posR := posA_range n T M (fun _ _ => True) (fun _ _ => True) H1 H2 Hsp' Hn31).
  refine (i_stageA_mul n T M (PA B F) (PB ((r_gsA false p k) c F)) H1 H2 Hsp' Hn31 (rd p) (fun w s => ags_bfly red_scale w s T) (fuel n) (fuel n) b _ HLb HPb b2 E2).
    all: clear E2 HJ Es; unfold r_gsA; fold T M.
    + intros j x w Hj Hx Ew. w16 Ew. destruct (posR j x ltac:(lia) Hx) as [R1 R2].
      apply ags_spec; try lia; [rewrite (gsA_lo false p F T  j x) by lia; reflexivity | rewrite (gsA_hi false p F T  j x) by lia; reflexivity].
Qed.

Lemma abs_ntt_red_gs_rev2std : B <= 1073741824 ->
  pc (abstract_ntt_red_gs_rev2std A n p) (fun '(out, A') => encl k n B (r_gsB true p k) (at_ a) out A').
Proof.
  intros HB. unfold abstract_ntt_red_gs_rev2std, ai_ntt_gs_rev2std. intros r E.
  match type of E with bind ?m _ = _ => destruct m as [[[out d] b]|] eqn:Em end; [|discriminate].
  cbn [bind] in E. destruct (show_intervals b n) as [sh|] eqn:Es; [|discriminate]. cbn [bind] in E.
  inversion E; subst r. clear E. intros B2 HR HR2. apply (JJ_end k n B _ (at_ a) Hk Hn B2 out b sh); auto.
  clear HR HR2 Es sh.
  refine (upd_pc k n B (r_gsB true p k) (at_ a) Hk Hn _ _ _ A _ (out, d, b) Em); [|apply JJ_start; assumption].
  clear Em. clear out b d. intros c out b Hc HJ. facts c. intros r E.
  destruct (show_intervals b n) as [sh|] eqn:Es; [|discriminate]. cbn [bind] in E. cbv zeta in E.
  rewrite halfpow in E. replace (k - c - 1) with (k - 1 - c) in E by lia.
  set (T := 2 ^ (k - 1 - c)) in *. set (M := 2 ^ c) in *. assert (H1 : 0 < T) by assumption. assert (H2 : 0 < M) by assumption.
  assert (Hsp' : n = 2 * T * M) by (rewrite Hsp; ring).
  match type of E with bind ?m _ = _ => destruct m as [b1|] eqn:E1 end; [|discriminate]. cbn [bind] in E.
  match type of E with bind ?m _ = _ => destruct m as [[u2 b2]|] eqn:E2 end; [|discriminate]. cbn [bind] in E.
  inversion E; subst r. clear E. split; [reflexivity|].
  apply (JJ_step k n B _ (at_ a) Hk Hn c out b sh b2); [lia | exact HJ | exact Es |].
  intros HLb HPb. set (F := Tr (r_gsB true p k) (at_ a) c) in *.
  assert (posR := posB_range n T M (fun _ _ => True) (fun _ _ => True) H1 H2 Hsp' Hn31).
  refine (i_stageB_plain_gs n T M (PA B F) (PB ((r_gsB true p k) c F)) H1 H2 Hsp' Hn31 (rd p) (fun s => abfly0 s M) (fun w s => ags_bfly red_scale w s M) (fuel n) (fuel n) (fuel n) b _ _ HLb HPb (u2, b2) _).
    3: { cbv beta iota zeta. rewrite E1. cbn [bind]. exact E2. }
    all: clear E1 E2 HJ Es; unfold r_gsB; fold T M.
    + intros x Hx. destruct (posR 0 x ltac:(lia) Hx) as [R1 R2].
      apply abfly0_spec; try lia; [rewrite (gsB_lo true p F T M 0 x) by lia; reflexivity | rewrite (gsB_hi true p F T M 0 x) by lia; reflexivity].
    + intros j x w Hj Hx Ew. w16 Ew. destruct (posR j x ltac:(lia) Hx) as [R1 R2].
      apply ags_spec; try lia; [rewrite (gsB_lo true p F T M j x) by lia; replace (j =? 0) with false by lia; reflexivity | rewrite (gsB_hi true p F T M j x) by lia; replace (j =? 0) with false by lia; reflexivity].
Qed.

Lemma abs_nttmul_red_gs_rev2std : B <= 1073741824 ->
  pc (abstract_nttmul_red_gs_rev2std A n p) (fun '(out, A') => encl k n B (r_gsB false p k) (at_ a) out A').
Proof.
  intros HB. unfold abstract_nttmul_red_gs_rev2std, ai_nttmul_gs_rev2std. intros r E.
  match type of E with bind ?m _ = _ => destruct m as [[[out d] b]|] eqn:Em end; [|discriminate].
  cbn [bind] in E. destruct (show_intervals b n) as [sh|] eqn:Es; [|discriminate]. cbn [bind] in E.
  inversion E; subst r. clear E. intros B2 HR HR2. apply (JJ_end k n B _ (at_ a) Hk Hn B2 out b sh); auto.
  clear HR HR2 Es sh.
  refine (upd_pc k n B (r_gsB false p k) (at_ a) Hk Hn _ _ _ A _ (out, d, b) Em); [|apply JJ_start; assumption].
  clear Em. clear out b d. intros c out b Hc HJ. facts c. intros r E.
  destruct (show_intervals b n) as [sh|] eqn:Es; [|discriminate]. cbn [bind] in E. cbv zeta in E.
  rewrite halfpow in E. replace (k - c - 1) with (k - 1 - c) in E by lia.
  set (T := 2 ^ (k - 1 - c)) in *. set (M := 2 ^ c) in *. assert (H1 : 0 < T) by assumption. assert (H2 : 0 < M) by assumption.
  assert (Hsp' : n = 2 * T * M) by (rewrite Hsp; ring).
  match type of E with bind ?m _ = _ => destruct m as [[u2 b2]|] eqn:E2 end; [|discriminate]. cbn [bind] in E.
  inversion E; subst r. clear E. split; [reflexivity|].
  apply (JJ_step k n B _ (at_ a) Hk Hn c out b sh b2); [lia | exact HJ | exact Es |].
  intros HLb HPb. set (F := Tr (r_gsB false p k) (at_ a) c) in *.
  assert (posR := posB_range n T M (fun _ _ => True) (fun _ _ => True) H1 H2 Hsp' Hn31).
  refine (i_stageB_mul n T M (PA B F) (PB ((r_gsB false p k) c F)) H1 H2 Hsp' Hn31 (rd p) (fun w s => ags_bfly red_scale w s M) (fuel n) (fuel n) b _ HLb HPb (u2, b2) E2).
    all: clear E2 HJ Es; unfold r_gsB; fold T M.
    + intros j x w Hj Hx Ew. w16 Ew. destruct (posR j x ltac:(lia) Hx) as [R1 R2].
      apply ags_spec; try lia; [rewrite (gsB_lo false p F T M j x) by lia; reflexivity | rewrite (gsB_hi false p F T M j x) by lia; reflexivity].
Qed.
End Abstract.

(** ** The concrete transforms compute the trace *)

Lemma redz_back z : -2147471362 <= redz z <= 2147471362 -> mulrange z.
Proof. unfold redz, mulrange. intros. Z.div_mod_to_equations. lia. Qed.

Definition isv (F : Z -> Z) (i v : Z) : Prop := v = F i.

Section CBfly.
Variables (n h s : Z) (F G : Z -> Z).
Hypothesis Hn : n <= 2147483648.
Hypothesis Hs : 0 <= s.
Hypothesis Hh : 0 < h.
Hypothesis Hsh : s + h < n.

Lemma bfly0_val : -2147483648 <= G s <= 2147483647 -> -2147483648 <= G (s + h) <= 2147483647 ->
  G s = F s + F (s + h) -> G (s + h) = F s - F (s + h) ->
  bspec n h (isv F) (isv G) s (ModelRed.bfly0_red s h).
Proof.
  intros B1 B2 G1 G2 a HL E1 E2. unfold isv in E1, E2. unfold ModelRed.bfly0_red.
  rewrite (pair_idx n s h) by lia. repeat step_rd. rewrite E1, E2. unfold sub32, add32.
  rewrite i32_ok by lia. cbn [bind].
  next_wr. next_rd. rewrite at_aset_other by lia. rewrite E1.
  rewrite i32_ok by lia. cbn [bind]. next_wr.
  do 2 eexists. split; [reflexivity|]. unfold isv. lia.
Qed.

Lemma ct_val w : -2147471362 <= G s <= 2147471362 -> -2147471362 <= G (s + h) <= 2147471362 ->
  G s = F s + redz (w * F (s + h)) -> G (s + h) = F s - redz (w * F (s + h)) ->
  bspec n h (isv F) (isv G) s (ModelRed.ct_bfly_red w s h).
Proof.
  intros B1 B2 G1 G2 a HL E1 E2. unfold isv in E1, E2. unfold ModelRed.ct_bfly_red.
  rewrite (pair_idx n s h) by lia. step_rd. rewrite E2.
  assert (HM : mulrange (F (s + h) * w)).
  { rewrite Z.mul_comm. apply redz_back. lia. }
  rewrite mul_red_ok by exact HM. cbn [bind]. rewrite (Z.mul_comm (F (s + h)) w).
  step_rd. rewrite E1. unfold sub32, add32.
  rewrite i32_ok by lia. cbn [bind].
  next_wr. next_rd. rewrite at_aset_other by lia. rewrite E1.
  rewrite i32_ok by lia. cbn [bind]. next_wr.
  do 2 eexists. split; [reflexivity|]. unfold isv. lia.
Qed.

Lemma gs_val w : -1073741823 <= F s <= 1073741823 -> -1073741823 <= F (s + h) <= 1073741823 ->
  -2147471362 <= G s <= 2147471362 -> -2147471362 <= G (s + h) <= 2147471362 ->
  G s = F s + F (s + h) -> G (s + h) = redz (w * (F s - F (s + h))) ->
  bspec n h (isv F) (isv G) s (ModelRed.gs_bfly_red w s h).
Proof.
  intros A1 A2 B1 B2 G1 G2 a HL E1 E2. unfold isv in E1, E2. unfold ModelRed.gs_bfly_red.
  rewrite (pair_idx n s h) by lia. step_rd. rewrite E2. step_rd. rewrite E1.
  unfold sub32, add32. rewrite i32_ok by lia. cbn [bind].
  assert (HM : mulrange ((F s - F (s + h)) * w)).
  { rewrite Z.mul_comm. apply redz_back. lia. }
  rewrite mul_red_ok by exact HM. cbn [bind]. rewrite (Z.mul_comm (F s - F (s + h)) w).
  next_wr. next_rd. rewrite at_aset_other by lia. rewrite E1.
  rewrite i32_ok by lia. cbn [bind]. next_wr.
  do 2 eexists. split; [reflexivity|]. unfold isv. lia.
Qed.
End CBfly.

Section Concrete.
Variables (k n B : Z) (p a : list Z).
Hypothesis Hk : 0 <= k <= 31.
Hypothesis Hn : n = 2 ^ k.
Hypothesis HpL : zlen p = n.
Hypothesis HaL : zlen a = n.

Definition inB (rnd : Z -> (Z -> Z) -> Z -> Z) : Prop :=
  forall c i, 0 <= c <= k -> 0 <= i < n -> - B <= Tr rnd (at_ a) c i <= B.

(** The values before each round. *)
Definition inC (C : Z) (rnd : Z -> (Z -> Z) -> Z -> Z) : Prop :=
  forall c i, 0 <= c < k -> 0 <= i < n -> - C <= Tr rnd (at_ a) c i <= C.

Lemma con_ntt_red_ct_rev2std : B <= 2147471362 -> inB (r_ctA true p k) ->
  exists r, ModelRed.ntt_red_ct_rev2std a n p = Ok r /\ zlen r = n
    /\ (forall i, 0 <= i < n -> at_ r i = Tr (r_ctA true p k) (at_ a) k i).
Proof.
  intros HB HI. assert (Hn31 := n_le k n (fun _ _ _ => True) Hk Hn). unfold inB in HI.
  destruct (nest_A_up_plain k n (fun l => isv (Tr (r_ctA true p k) (at_ a) l)) Hk Hn ModelRed.bfly0_red) with
    (body := ModelRed.ct_bfly_red) (p := p) (a := a) as (r & Er & HLr & HR); auto.
  - intros l x Hl Hx.
    assert (HT : 0 < 2 ^ l) by (apply Z.pow_pos_nonneg; lia);
    assert (HM : 0 < 2 ^ (k - 1 - l)) by (apply Z.pow_pos_nonneg; lia);
    assert (Hsp := pow_split k n (fun _ _ _ => True) Hn l ltac:(lia));
    assert (posR := posA_range n (2 ^ l) (2 ^ (k - 1 - l)) (fun _ _ => True) (fun _ _ => True) HT HM Hsp Hn31).
    assert (G1 := HI (l + 1)). rewrite Tr_succ in G1 by lia. assert (F1 := HI l).
    rewrite Tr_succ by lia. set (F := Tr (r_ctA true p k) (at_ a) l) in *.
    change ((r_ctA true p k) l F) with (ctround (2 ^ l) (mA true p (2 ^ l)) F) in *.

    set (T := 2 ^ l) in *. set (M := 2 ^ (k - 1 - l)) in *.
    destruct (posR 0 x ltac:(lia) ltac:(lia)) as [R1 R2].
    assert (B1 := G1 (posA T 0 x) ltac:(lia) ltac:(lia)). assert (B2 := G1 (posA T 0 x + T) ltac:(lia) ltac:(lia)).
    apply bfly0_val; try lia; [rewrite (ctA_lo true p F T  0 x) by lia; reflexivity | rewrite (ctA_hi true p F T  0 x) by lia; reflexivity].
  - intros l j x Hl Hj Hx.
    assert (HT : 0 < 2 ^ l) by (apply Z.pow_pos_nonneg; lia);
    assert (HM : 0 < 2 ^ (k - 1 - l)) by (apply Z.pow_pos_nonneg; lia);
    assert (Hsp := pow_split k n (fun _ _ _ => True) Hn l ltac:(lia));
    assert (posR := posA_range n (2 ^ l) (2 ^ (k - 1 - l)) (fun _ _ => True) (fun _ _ => True) HT HM Hsp Hn31).
    assert (G1 := HI (l + 1)). rewrite Tr_succ in G1 by lia. assert (F1 := HI l).
    rewrite Tr_succ by lia. set (F := Tr (r_ctA true p k) (at_ a) l) in *.
    change ((r_ctA true p k) l F) with (ctround (2 ^ l) (mA true p (2 ^ l)) F) in *.

    set (T := 2 ^ l) in *. set (M := 2 ^ (k - 1 - l)) in *.
    destruct (posR j x ltac:(lia) ltac:(lia)) as [R1 R2].
    assert (B1 := G1 (posA T j x) ltac:(lia) ltac:(lia)). assert (B2 := G1 (posA T j x + T) ltac:(lia) ltac:(lia)).
    apply ct_val; try lia; [rewrite (ctA_lo true p F T  j x) by lia; replace (j =? 0) with false by lia; reflexivity | rewrite (ctA_hi true p F T  j x) by lia; replace (j =? 0) with false by lia; reflexivity].
  - split; [exact HaL|]. intros i Hi. reflexivity.
  - exists r. split; [exact Er|]. split; [exact HLr|]. intros i Hi. apply (HR i Hi).
Qed.

Lemma con_mulntt_red_ct_rev2std : B <= 2147471362 -> inB (r_ctA false p k) ->
  exists r, ModelRed.mulntt_red_ct_rev2std a n p = Ok r /\ zlen r = n
    /\ (forall i, 0 <= i < n -> at_ r i = Tr (r_ctA false p k) (at_ a) k i).
Proof.
  intros HB HI. assert (Hn31 := n_le k n (fun _ _ _ => True) Hk Hn). unfold inB in HI.
  destruct (nest_A_up_mul k n (fun l => isv (Tr (r_ctA false p k) (at_ a) l)) Hk Hn ModelRed.bfly0_red) with
    (body := ModelRed.ct_bfly_red) (p := p) (a := a) as (r & Er & HLr & HR); auto.
  - intros l j x Hl Hj Hx.
    assert (HT : 0 < 2 ^ l) by (apply Z.pow_pos_nonneg; lia);
    assert (HM : 0 < 2 ^ (k - 1 - l)) by (apply Z.pow_pos_nonneg; lia);
    assert (Hsp := pow_split k n (fun _ _ _ => True) Hn l ltac:(lia));
    assert (posR := posA_range n (2 ^ l) (2 ^ (k - 1 - l)) (fun _ _ => True) (fun _ _ => True) HT HM Hsp Hn31).
    assert (G1 := HI (l + 1)). rewrite Tr_succ in G1 by lia. assert (F1 := HI l).
    rewrite Tr_succ by lia. set (F := Tr (r_ctA false p k) (at_ a) l) in *.
    change ((r_ctA false p k) l F) with (ctround (2 ^ l) (mA false p (2 ^ l)) F) in *.

    set (T := 2 ^ l) in *. set (M := 2 ^ (k - 1 - l)) in *.
    destruct (posR j x ltac:(lia) ltac:(lia)) as [R1 R2].
    assert (B1 := G1 (posA T j x) ltac:(lia) ltac:(lia)). assert (B2 := G1 (posA T j x + T) ltac:(lia) ltac:(lia)).
    apply ct_val; try lia; [rewrite (ctA_lo false p F T  j x) by lia; reflexivity | rewrite (ctA_hi false p F T  j x) by lia; reflexivity].
  - split; [exact HaL|]. intros i Hi. reflexivity.
  - exists r. split; [exact Er|]. split; [exact HLr|]. intros i Hi. apply (HR i Hi).
Qed.

Lemma con_ntt_red_ct_std2rev : B <= 2147471362 -> inB (r_ctB true p k) ->
  exists r, ModelRed.ntt_red_ct_std2rev a n p = Ok r /\ zlen r = n
    /\ (forall i, 0 <= i < n -> at_ r i = Tr (r_ctB true p k) (at_ a) k i).
Proof.
  intros HB HI. assert (Hn31 := n_le k n (fun _ _ _ => True) Hk Hn). unfold inB in HI.
  destruct (nest_B_up_plain k n (fun l => isv (Tr (r_ctB true p k) (at_ a) l)) Hk Hn ModelRed.bfly0_red) with
    (body := ModelRed.ct_bfly_red) (p := p) (a := a) as (r & Er & HLr & HR); auto.
  - intros l x Hl Hx.
    assert (HT : 0 < 2 ^ l) by (apply Z.pow_pos_nonneg; lia);
    assert (HM : 0 < 2 ^ (k - 1 - l)) by (apply Z.pow_pos_nonneg; lia);
    assert (Hsp := pow_split k n (fun _ _ _ => True) Hn l ltac:(lia));
    assert (posR := posB_range n (2 ^ l) (2 ^ (k - 1 - l)) (fun _ _ => True) (fun _ _ => True) HT HM Hsp Hn31).
    assert (G1 := HI (l + 1)). rewrite Tr_succ in G1 by lia. assert (F1 := HI l).
    rewrite Tr_succ by lia. set (F := Tr (r_ctB true p k) (at_ a) l) in *.
    change ((r_ctB true p k) l F) with (ctround (2 ^ (k - 1 - l)) (mB true p (2 ^ l) (2 ^ (k - 1 - l))) F) in *.

    set (T := 2 ^ l) in *. set (M := 2 ^ (k - 1 - l)) in *.
    destruct (posR 0 x ltac:(lia) ltac:(lia)) as [R1 R2].
    assert (B1 := G1 (posB M 0 x) ltac:(lia) ltac:(lia)). assert (B2 := G1 (posB M 0 x + M) ltac:(lia) ltac:(lia)).
    apply bfly0_val; try lia; [rewrite (ctB_lo true p F T M 0 x) by lia; reflexivity | rewrite (ctB_hi true p F T M 0 x) by lia; reflexivity].
  - intros l j x Hl Hj Hx.
    assert (HT : 0 < 2 ^ l) by (apply Z.pow_pos_nonneg; lia);
    assert (HM : 0 < 2 ^ (k - 1 - l)) by (apply Z.pow_pos_nonneg; lia);
    assert (Hsp := pow_split k n (fun _ _ _ => True) Hn l ltac:(lia));
    assert (posR := posB_range n (2 ^ l) (2 ^ (k - 1 - l)) (fun _ _ => True) (fun _ _ => True) HT HM Hsp Hn31).
    assert (G1 := HI (l + 1)). rewrite Tr_succ in G1 by lia. assert (F1 := HI l).
    rewrite Tr_succ by lia. set (F := Tr (r_ctB true p k) (at_ a) l) in *.
    change ((r_ctB true p k) l F) with (ctround (2 ^ (k - 1 - l)) (mB true p (2 ^ l) (2 ^ (k - 1 - l))) F) in *.

    set (T := 2 ^ l) in *. set (M := 2 ^ (k - 1 - l)) in *.
    destruct (posR j x ltac:(lia) ltac:(lia)) as [R1 R2].
    assert (B1 := G1 (posB M j x) ltac:(lia) ltac:(lia)). assert (B2 := G1 (posB M j x + M) ltac:(lia) ltac:(lia)).
    apply ct_val; try lia; [rewrite (ctB_lo true p F T M j x) by lia; replace (j =? 0) with false by lia; reflexivity | rewrite (ctB_hi true p F T M j x) by lia; replace (j =? 0) with false by lia; reflexivity].
  - split; [exact HaL|]. intros i Hi. reflexivity.
  - exists r. split; [exact Er|]. split; [exact HLr|]. intros i Hi. apply (HR i Hi).
Qed.

Lemma con_mulntt_red_ct_std2rev : B <= 2147471362 -> inB (r_ctB false p k) ->
  exists r, ModelRed.mulntt_red_ct_std2rev a n p = Ok r /\ zlen r = n
    /\ (forall i, 0 <= i < n -> at_ r i = Tr (r_ctB false p k) (at_ a) k i).
Proof.
  intros HB HI. assert (Hn31 := n_le k n (fun _ _ _ => True) Hk Hn). unfold inB in HI.
  destruct (nest_B_up_mul k n (fun l => isv (Tr (r_ctB false p k) (at_ a) l)) Hk Hn ModelRed.bfly0_red) with
    (body := ModelRed.ct_bfly_red) (p := p) (a := a) as (r & Er & HLr & HR); auto.
  - intros l j x Hl Hj Hx.
    assert (HT : 0 < 2 ^ l) by (apply Z.pow_pos_nonneg; lia);
    assert (HM : 0 < 2 ^ (k - 1 - l)) by (apply Z.pow_pos_nonneg; lia);
    assert (Hsp := pow_split k n (fun _ _ _ => True) Hn l ltac:(lia));
    assert (posR := posB_range n (2 ^ l) (2 ^ (k - 1 - l)) (fun _ _ => True) (fun _ _ => True) HT HM Hsp Hn31).
    assert (G1 := HI (l + 1)). rewrite Tr_succ in G1 by lia. assert (F1 := HI l).
    rewrite Tr_succ by lia. set (F := Tr (r_ctB false p k) (at_ a) l) in *.
    change ((r_ctB false p k) l F) with (ctround (2 ^ (k - 1 - l)) (mB false p (2 ^ l) (2 ^ (k - 1 - l))) F) in *.

    set (T := 2 ^ l) in *. set (M := 2 ^ (k - 1 - l)) in *.
    destruct (posR j x ltac:(lia) ltac:(lia)) as [R1 R2].
    assert (B1 := G1 (posB M j x) ltac:(lia) ltac:(lia)). assert (B2 := G1 (posB M j x + M) ltac:(lia) ltac:(lia)).
    apply ct_val; try lia; [rewrite (ctB_lo false p F T M j x) by lia; reflexivity | rewrite (ctB_hi false p F T M j x) by lia; reflexivity].
  - split; [exact HaL|]. intros i Hi. reflexivity.
  - exists r. split; [exact Er|]. split; [exact HLr|]. intros i Hi. apply (HR i Hi).
Qed.

Lemma con_ntt_red_gs_std2rev : B <= 2147471362 -> inB (r_gsA true p k) -> inC 1073741823 (r_gsA true p k) ->
  exists r, ModelRed.ntt_red_gs_std2rev a n p = Ok r /\ zlen r = n
    /\ (forall i, 0 <= i < n -> at_ r i = Tr (r_gsA true p k) (at_ a) k i).
Proof.
  intros HB HI HC. assert (Hn31 := n_le k n (fun _ _ _ => True) Hk Hn). unfold inB in HI. unfold inC in HC.
  destruct (nest_A_down_plain k n (fun l => isv (Tr (r_gsA true p k) (at_ a) (k - l))) Hk Hn ModelRed.bfly0_red) with
    (body := ModelRed.gs_bfly_red) (p := p) (a := a) as (r & Er & HLr & HR); auto.
  - intros l x Hl Hx.
    assert (HT : 0 < 2 ^ l) by (apply Z.pow_pos_nonneg; lia);
    assert (HM : 0 < 2 ^ (k - 1 - l)) by (apply Z.pow_pos_nonneg; lia);
    assert (Hsp := pow_split k n (fun _ _ _ => True) Hn l ltac:(lia));
    assert (posR := posA_range n (2 ^ l) (2 ^ (k - 1 - l)) (fun _ _ => True) (fun _ _ => True) HT HM Hsp Hn31).
    assert (G1 := HI ((k - 1 - l) + 1)). rewrite Tr_succ in G1 by lia. assert (F1 := HC (k - 1 - l)).
    replace (k - l) with ((k - 1 - l) + 1) by lia; replace (k - (l + 1)) with (k - 1 - l) by lia; rewrite Tr_succ by lia. set (F := Tr (r_gsA true p k) (at_ a) (k - 1 - l)) in *.
    change ((r_gsA true p k) (k - 1 - l) F) with (gsround (2 ^ (k - 1 - (k - 1 - l))) (mA true p (2 ^ (k - 1 - (k - 1 - l)))) F) in *.
    replace (k - 1 - (k - 1 - l)) with l in * by lia.
    set (T := 2 ^ l) in *. set (M := 2 ^ (k - 1 - l)) in *.
    destruct (posR 0 x ltac:(lia) ltac:(lia)) as [R1 R2].
    assert (B1 := G1 (posA T 0 x) ltac:(lia) ltac:(lia)). assert (B2 := G1 (posA T 0 x + T) ltac:(lia) ltac:(lia)).
    apply bfly0_val; try lia; [rewrite (gsA_lo true p F T  0 x) by lia; reflexivity | rewrite (gsA_hi true p F T  0 x) by lia; reflexivity].
  - intros l j x Hl Hj Hx.
    assert (HT : 0 < 2 ^ l) by (apply Z.pow_pos_nonneg; lia);
    assert (HM : 0 < 2 ^ (k - 1 - l)) by (apply Z.pow_pos_nonneg; lia);
    assert (Hsp := pow_split k n (fun _ _ _ => True) Hn l ltac:(lia));
    assert (posR := posA_range n (2 ^ l) (2 ^ (k - 1 - l)) (fun _ _ => True) (fun _ _ => True) HT HM Hsp Hn31).
    assert (G1 := HI ((k - 1 - l) + 1)). rewrite Tr_succ in G1 by lia. assert (F1 := HC (k - 1 - l)).
    replace (k - l) with ((k - 1 - l) + 1) by lia; replace (k - (l + 1)) with (k - 1 - l) by lia; rewrite Tr_succ by lia. set (F := Tr (r_gsA true p k) (at_ a) (k - 1 - l)) in *.
    change ((r_gsA true p k) (k - 1 - l) F) with (gsround (2 ^ (k - 1 - (k - 1 - l))) (mA true p (2 ^ (k - 1 - (k - 1 - l)))) F) in *.
    replace (k - 1 - (k - 1 - l)) with l in * by lia.
    set (T := 2 ^ l) in *. set (M := 2 ^ (k - 1 - l)) in *.
    destruct (posR j x ltac:(lia) ltac:(lia)) as [R1 R2].
    assert (B1 := G1 (posA T j x) ltac:(lia) ltac:(lia)). assert (B2 := G1 (posA T j x + T) ltac:(lia) ltac:(lia)).
    assert (A1 := F1 (posA T j x) ltac:(lia) ltac:(lia)). assert (A2 := F1 (posA T j x + T) ltac:(lia) ltac:(lia)).
    apply gs_val; try lia; [rewrite (gsA_lo true p F T  j x) by lia; replace (j =? 0) with false by lia; reflexivity | rewrite (gsA_hi true p F T  j x) by lia; replace (j =? 0) with false by lia; reflexivity].
  - split; [exact HaL|]. intros i Hi. replace (k - k) with 0 by lia. reflexivity.
  - exists r. split; [exact Er|]. split; [exact HLr|]. intros i Hi. rewrite Z.sub_0_r in HR. apply (HR i Hi).
Qed.

Lemma con_nttmul_red_gs_std2rev : B <= 2147471362 -> inB (r_gsA false p k) -> inC 1073741823 (r_gsA false p k) ->
  exists r, ModelRed.nttmul_red_gs_std2rev a n p = Ok r /\ zlen r = n
    /\ (forall i, 0 <= i < n -> at_ r i = Tr (r_gsA false p k) (at_ a) k i).
Proof.
  intros HB HI HC. assert (Hn31 := n_le k n (fun _ _ _ => True) Hk Hn). unfold inB in HI. unfold inC in HC.
  destruct (nest_A_down_mul k n (fun l => isv (Tr (r_gsA false p k) (at_ a) (k - l))) Hk Hn ModelRed.bfly0_red) with
    (body := ModelRed.gs_bfly_red) (p := p) (a := a) as (r & Er & HLr & HR); auto.
  - intros l j x Hl Hj Hx.
    assert (HT : 0 < 2 ^ l) by (apply Z.pow_pos_nonneg; lia);
    assert (HM : 0 < 2 ^ (k - 1 - l)) by (apply Z.pow_pos_nonneg; lia);
    assert (Hsp := pow_split k n (fun _ _ _ => True) Hn l ltac:(lia));
    assert (posR := posA_range n (2 ^ l) (2 ^ (k - 1 - l)) (fun _ _ => True) (fun _ _ => True) HT HM Hsp Hn31).
    assert (G1 := HI ((k - 1 - l) + 1)). rewrite Tr_succ in G1 by lia. assert (F1 := HC (k - 1 - l)).
    replace (k - l) with ((k - 1 - l) + 1) by lia; replace (k - (l + 1)) with (k - 1 - l) by lia; rewrite Tr_succ by lia. set (F := Tr (r_gsA false p k) (at_ a) (k - 1 - l)) in *.
    change ((r_gsA false p k) (k - 1 - l) F) with (gsround (2 ^ (k - 1 - (k - 1 - l))) (mA false p (2 ^ (k - 1 - (k - 1 - l)))) F) in *.
    replace (k - 1 - (k - 1 - l)) with l in * by lia.
    set (T := 2 ^ l) in *. set (M := 2 ^ (k - 1 - l)) in *.
    destruct (posR j x ltac:(lia) ltac:(lia)) as [R1 R2].
    assert (B1 := G1 (posA T j x) ltac:(lia) ltac:(lia)). assert (B2 := G1 (posA T j x + T) ltac:(lia) ltac:(lia)).
    assert (A1 := F1 (posA T j x) ltac:(lia) ltac:(lia)). assert (A2 := F1 (posA T j x + T) ltac:(lia) ltac:(lia)).
    apply gs_val; try lia; [rewrite (gsA_lo false p F T  j x) by lia; reflexivity | rewrite (gsA_hi false p F T  j x) by lia; reflexivity].
  - split; [exact HaL|]. intros i Hi. replace (k - k) with 0 by lia. reflexivity.
  - exists r. split; [exact Er|]. split; [exact HLr|]. intros i Hi. rewrite Z.sub_0_r in HR. apply (HR i Hi).
Qed.

Lemma con_ntt_red_gs_rev2std : B <= 2147471362 -> inB (r_gsB true p k) -> inC 1073741823 (r_gsB true p k) ->
  exists r, ModelRed.ntt_red_gs_rev2std a n p = Ok r /\ zlen r = n
    /\ (forall i, 0 <= i < n -> at_ r i = Tr (r_gsB true p k) (at_ a) k i).
Proof.
  intros HB HI HC. assert (Hn31 := n_le k n (fun _ _ _ => True) Hk Hn). unfold inB in HI. unfold inC in HC.
  destruct (nest_B_down_plain k n (fun l => isv (Tr (r_gsB true p k) (at_ a) (k - l))) Hk Hn ModelRed.bfly0_red) with
    (body := ModelRed.gs_bfly_red) (p := p) (a := a) as (r & Er & HLr & HR); auto.
  - intros l x Hl Hx.
    assert (HT : 0 < 2 ^ l) by (apply Z.pow_pos_nonneg; lia);
    assert (HM : 0 < 2 ^ (k - 1 - l)) by (apply Z.pow_pos_nonneg; lia);
    assert (Hsp := pow_split k n (fun _ _ _ => True) Hn l ltac:(lia));
    assert (posR := posB_range n (2 ^ l) (2 ^ (k - 1 - l)) (fun _ _ => True) (fun _ _ => True) HT HM Hsp Hn31).
    assert (G1 := HI ((k - 1 - l) + 1)). rewrite Tr_succ in G1 by lia. assert (F1 := HC (k - 1 - l)).
    replace (k - l) with ((k - 1 - l) + 1) by lia; replace (k - (l + 1)) with (k - 1 - l) by lia; rewrite Tr_succ by lia. set (F := Tr (r_gsB true p k) (at_ a) (k - 1 - l)) in *.
    change ((r_gsB true p k) (k - 1 - l) F) with (gsround (2 ^ (k - 1 - l)) (mB true p (2 ^ (k - 1 - (k - 1 - l))) (2 ^ (k - 1 - l))) F) in *.
    replace (k - 1 - (k - 1 - l)) with l in * by lia.
    set (T := 2 ^ l) in *. set (M := 2 ^ (k - 1 - l)) in *.
    destruct (posR 0 x ltac:(lia) ltac:(lia)) as [R1 R2].
    assert (B1 := G1 (posB M 0 x) ltac:(lia) ltac:(lia)). assert (B2 := G1 (posB M 0 x + M) ltac:(lia) ltac:(lia)).
    apply bfly0_val; try lia; [rewrite (gsB_lo true p F T M 0 x) by lia; reflexivity | rewrite (gsB_hi true p F T M 0 x) by lia; reflexivity].
  - intros l j x Hl Hj Hx.
    assert (HT : 0 < 2 ^ l) by (apply Z.pow_pos_nonneg; lia);
    assert (HM : 0 < 2 ^ (k - 1 - l)) by (apply Z.pow_pos_nonneg; lia);
    assert (Hsp := pow_split k n (fun _ _ _ => True) Hn l ltac:(lia));
    assert (posR := posB_range n (2 ^ l) (2 ^ (k - 1 - l)) (fun _ _ => True) (fun _ _ => True) HT HM Hsp Hn31).
    assert (G1 := HI ((k - 1 - l) + 1)). rewrite Tr_succ in G1 by lia. assert (F1 := HC (k - 1 - l)).
    replace (k - l) with ((k - 1 - l) + 1) by lia; replace (k - (l + 1)) with (k - 1 - l) by lia; rewrite Tr_succ by lia. set (F := Tr (r_gsB true p k) (at_ a) (k - 1 - l)) in *.
    change ((r_gsB true p k) (k - 1 - l) F) with (gsround (2 ^ (k - 1 - l)) (mB true p (2 ^ (k - 1 - (k - 1 - l))) (2 ^ (k - 1 - l))) F) in *.
    replace (k - 1 - (k - 1 - l)) with l in * by lia.
    set (T := 2 ^ l) in *. set (M := 2 ^ (k - 1 - l)) in *.
    destruct (posR j x ltac:(lia) ltac:(lia)) as [R1 R2].
    assert (B1 := G1 (posB M j x) ltac:(lia) ltac:(lia)). assert (B2 := G1 (posB M j x + M) ltac:(lia) ltac:(lia)).
    assert (A1 := F1 (posB M j x) ltac:(lia) ltac:(lia)). assert (A2 := F1 (posB M j x + M) ltac:(lia) ltac:(lia)).
    apply gs_val; try lia; [rewrite (gsB_lo true p F T M j x) by lia; replace (j =? 0) with false by lia; reflexivity | rewrite (gsB_hi true p F T M j x) by lia; replace (j =? 0) with false by lia; reflexivity].
  - split; [exact HaL|]. intros i Hi. replace (k - k) with 0 by lia. reflexivity.
  - exists r. split; [exact Er|]. split; [exact HLr|]. intros i Hi. rewrite Z.sub_0_r in HR. apply (HR i Hi).
Qed.

Lemma con_nttmul_red_gs_rev2std : B <= 2147471362 -> inB (r_gsB false p k) -> inC 1073741823 (r_gsB false p k) ->
  exists r, ModelRed.nttmul_red_gs_rev2std a n p = Ok r /\ zlen r = n
    /\ (forall i, 0 <= i < n -> at_ r i = Tr (r_gsB false p k) (at_ a) k i).
Proof.
  intros HB HI HC. assert (Hn31 := n_le k n (fun _ _ _ => True) Hk Hn). unfold inB in HI. unfold inC in HC.
  destruct (nest_B_down_mul k n (fun l => isv (Tr (r_gsB false p k) (at_ a) (k - l))) Hk Hn ModelRed.bfly0_red) with
    (body := ModelRed.gs_bfly_red) (p := p) (a := a) as (r & Er & HLr & HR); auto.
  - intros l j x Hl Hj Hx.
    assert (HT : 0 < 2 ^ l) by (apply Z.pow_pos_nonneg; lia);
    assert (HM : 0 < 2 ^ (k - 1 - l)) by (apply Z.pow_pos_nonneg; lia);
    assert (Hsp := pow_split k n (fun _ _ _ => True) Hn l ltac:(lia));
    assert (posR := posB_range n (2 ^ l) (2 ^ (k - 1 - l)) (fun _ _ => True) (fun _ _ => True) HT HM Hsp Hn31).
    assert (G1 := HI ((k - 1 - l) + 1)). rewrite Tr_succ in G1 by lia. assert (F1 := HC (k - 1 - l)).
    replace (k - l) with ((k - 1 - l) + 1) by lia; replace (k - (l + 1)) with (k - 1 - l) by lia; rewrite Tr_succ by lia. set (F := Tr (r_gsB false p k) (at_ a) (k - 1 - l)) in *.
    change ((r_gsB false p k) (k - 1 - l) F) with (gsround (2 ^ (k - 1 - l)) (mB false p (2 ^ (k - 1 - (k - 1 - l))) (2 ^ (k - 1 - l))) F) in *.
    replace (k - 1 - (k - 1 - l)) with l in * by lia.
    set (T := 2 ^ l) in *. set (M := 2 ^ (k - 1 - l)) in *.
    destruct (posR j x ltac:(lia) ltac:(lia)) as [R1 R2].
    assert (B1 := G1 (posB M j x) ltac:(lia) ltac:(lia)). assert (B2 := G1 (posB M j x + M) ltac:(lia) ltac:(lia)).
    assert (A1 := F1 (posB M j x) ltac:(lia) ltac:(lia)). assert (A2 := F1 (posB M j x + M) ltac:(lia) ltac:(lia)).
    apply gs_val; try lia; [rewrite (gsB_lo false p F T M j x) by lia; reflexivity | rewrite (gsB_hi false p F T M j x) by lia; reflexivity].
  - split; [exact HaL|]. intros i Hi. replace (k - k) with 0 by lia. reflexivity.
  - exists r. split; [exact Er|]. split; [exact HLr|]. intros i Hi. rewrite Z.sub_0_r in HR. apply (HR i Hi).
Qed.
End Concrete.
