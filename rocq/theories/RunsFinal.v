(** Lemmas behind [PropRuns]. *)

From Coq Require Import ZArith List Bool Lia.
From Verif Require Import CSem Spec SpecInterval Loops RedElem BoundsElem ModelInterval IntervalElem
  IntervalLoops IntervalSound IntervalTotal IntervalRuns IntervalFinal.
From Verif Require ModelRed.
Import ListNotations.
Open Scope Z_scope.

(** ** Arrays *)

Lemma amap_tot f A B n : ilen A = n -> ilen B = n -> n < 4294967296 ->
  (forall i, 0 <= i < n -> f i (ati A i) = Ok (ati B i)) -> amap f A n = Ok B.
Proof.
  intros HA HB Hn H. assert (N0 := ilen_nonneg A). unfold amap.
  destruct (cfor_count (fun c X => ilen X = n /\ (forall i, 0 <= i < c -> ati X i = ati B i)
      /\ (forall i, c <= i < n -> ati X i = ati A i)) n (fun c => c) (fun i => i <? n) (fun i => u32 (i + 1))
      (fun i a => do x <- rdi a i; do v <- f i x; wri a i v)) with (f := fuel n) (i0 := 0) (st := A)
      as (r & Er & HL & H1 & H2); auto; try lia; try (unfold fuel; lia).
  - intros. apply u32_small. lia.
  - intros c X Hc (HL & H1 & H2). rewrite rdi_ok by lia. cbn [bind]. rewrite (H2 c), (H c) by lia. cbn [bind].
    rewrite wri_ok by lia. eexists. split; [reflexivity|]. rewrite iset_len. split; [exact HL|]. split.
    + intros i Hi. destruct (Z.eq_dec i c) as [->|]; [apply ati_iset_same; lia|].
      rewrite ati_iset_other by lia. apply H1. lia.
    + intros i Hi. rewrite ati_iset_other by lia. apply H2. lia.
  - split; [exact HA|]. split; [intros; lia|reflexivity].
  - rewrite Er. f_equal. apply ilist_ext; [lia|]. intros i Hi. apply H1. lia.
Qed.

Lemma forall2_at (R : itv -> itv -> Prop) A B :
  Forall2 R A B <-> ilen A = ilen B /\ forall i, 0 <= i < ilen A -> R (ati A i) (ati B i).
Proof.
  unfold ilen, ati. split.
  - intros H. split; [f_equal; induction H; cbn [length]; congruence|].
    intros i Hi. assert (Hi' : (Z.to_nat i < length A)%nat) by lia. clear Hi. revert Hi'. generalize (Z.to_nat i).
    induction H as [|V x A B HV HF IH]; intros m Hm; [cbn in Hm; lia|].
    destruct m; [exact HV|]. cbn [nth]. apply IH. cbn in Hm. lia.
  - revert B. induction A as [|V A IH]; intros [|x B] [HL H]; cbn in HL; try lia; constructor.
    + apply (H 0). cbn; lia.
    + apply IH. split; [lia|]. intros i Hi. specialize (H (i + 1)).
      replace (Z.to_nat (i + 1)) with (S (Z.to_nat i)) in H by lia. apply H. cbn [length]. lia.
Qed.

Lemma Forall2_impl {S T} (R R' : S -> T -> Prop) A B :
  (forall x y, R x y -> R' x y) -> Forall2 R A B -> Forall2 R' A B.
Proof. intros H HF. induction HF; constructor; auto. Qed.

Lemma amap_iff h A A' : ilen A < 4294967296 ->
  (amap (fun _ x => h x) A (ilen A) = Ok A' <-> Forall2 (fun V V' => h V = Ok V') A A').
Proof.
  intros Hn. assert (N0 := ilen_nonneg A). rewrite forall2_at. split.
  - intros E. destruct (amap_pc _ A (ilen A) ltac:(lia) A' E) as (_ & HL & H & _). split; [lia|exact H].
  - intros [HL H]. apply amap_tot; auto; lia.
Qed.

Lemma abstract_arrays_pointwise_L :
  forall f h, In (f, h)
    [(abstract_normalize, normal); (abstract_normalize_inv3, normal_inv3); (abstract_shift_array, shift);
     (abstract_reduce_array, red); (abstract_reduce_array_twice, red_twice); (abstract_correct, correct)] ->
  forall A A', Z.of_nat (length A) < 2 ^ 32 ->
  (f A (Z.of_nat (length A)) = Ok A' <-> Forall2 (fun V V' => h V = Ok V') A A').
Proof.
  change (2 ^ 32) with 4294967296. intros f h Hin A A' Hn. cbn [In] in Hin.
  destruct Hin as [Hin|[Hin|[Hin|[Hin|[Hin|[Hin|[]]]]]]]; injection Hin as <- <-;
    try (apply (amap_iff _ A A' Hn)).
  unfold abstract_correct.
  assert (X : forall V V', (if (fst V <? -12289) || (2 * 12289 <=? snd V) then Err Exited else correct V) = Ok V'
    <-> correct V = Ok V').
  { intros V V'. destruct (_ || _) eqn:D; [|tauto]. split; [discriminate|].
    rewrite correct_itv_bad by lia. discriminate. }
  split.
  - intros E. apply (amap_iff (fun V => if (fst V <? -12289) || (2 * 12289 <=? snd V) then Err Exited else correct V)
      A A' Hn) in E. revert E. apply Forall2_impl. intros V V'. apply X.
  - intros E. apply (amap_iff (fun V => if (fst V <? -12289) || (2 * 12289 <=? snd V) then Err Exited else correct V)
      A A' Hn). revert E. apply Forall2_impl. intros V V'. apply X.
Qed.

Lemma abstract_correct_exits_L :
  forall A V B, Z.of_nat (length (A ++ V :: B)) < 2 ^ 32 ->
  Forall (fun U => -12289 <= fst U /\ fst U <= snd U /\ snd U <= 24577) A ->
  (fst V < -12289 \/ 24577 < snd V) ->
  abstract_correct (A ++ V :: B) (Z.of_nat (length (A ++ V :: B))) = Err Exited.
Proof.
  change (2 ^ 32) with 4294967296. intros A V B Hn HA HV. unfold abstract_correct, amap.
  set (n := Z.of_nat (length (A ++ V :: B))) in *.
  assert (HLn : n = Z.of_nat (length A) + 1 + Z.of_nat (length B)).
  { unfold n. rewrite app_length. cbn [length]. lia. }
  match goal with |- cfor _ _ ?c ?nx ?b _ = _ => set (cond := c); set (next := nx); set (body := b) end.
  assert (G : forall A2 A1 f, Forall (fun U => -12289 <= fst U /\ fst U <= snd U /\ snd U <= 24577) A2 ->
     n = Z.of_nat (length (A1 ++ A2 ++ V :: B)) -> (length (A2 ++ V :: B) < f)%nat ->
     cfor f (Z.of_nat (length A1)) cond next body (A1 ++ A2 ++ V :: B) = Err Exited).
  { clear HA. assert (RD : forall A1 U A2, rdi (A1 ++ U :: A2) (Z.of_nat (length A1)) = Ok U).
    { intros. unfold rdi. destruct (Z.ltb_spec (Z.of_nat (length A1)) 0); [lia|]. rewrite Nat2Z.id, nth_error_app2 by lia.
      rewrite Nat.sub_diag. reflexivity. }
    assert (UP : forall A1 U A2 v, updi (A1 ++ U :: A2) (length A1) v = Some (A1 ++ v :: A2)).
    { induction A1; intros; cbn [updi app length]; [reflexivity|]. rewrite IHA1. reflexivity. }
    assert (WR : forall A1 U A2 v, wri (A1 ++ U :: A2) (Z.of_nat (length A1)) v = Ok (A1 ++ v :: A2)).
    { intros. unfold wri. destruct (Z.ltb_spec (Z.of_nat (length A1)) 0); [lia|]. rewrite Nat2Z.id, UP. reflexivity. }
    induction A2 as [|U A2 IH]; intros A1 f HF HL Hf.
    - destruct f; [lia|]. cbn [cfor app] in *. rewrite app_length in HL. cbn [length] in HL. unfold cond at 1.
      replace (_ <? n) with true by lia. unfold body at 1. rewrite RD. cbn [bind].
      replace (_ || _) with true by lia. reflexivity.
    - destruct f; [lia|]. cbn [cfor app] in *. rewrite !app_length in HL. cbn [length] in HL. unfold cond at 1.
      replace (_ <? n) with true by lia. unfold body at 1. rewrite RD. cbn [bind].
      inversion HF as [|? ? HU HF']; subst. replace (_ || _) with false by lia.
      destruct (correct_itv_ok U) as (r & E & _); try lia. rewrite E. cbn [bind]. rewrite WR. cbn [bind].
      unfold next at 1. rewrite u32_small by lia.
      replace (Z.of_nat (length A1) + 1) with (Z.of_nat (length (A1 ++ [r]))) by (rewrite app_length; cbn [length]; lia).
      specialize (IH (A1 ++ [r]) f HF'). rewrite <- app_assoc in IH. cbn [app] in IH. apply IH.
      + rewrite !app_length. cbn [length]. rewrite HL, !app_length. cbn [length]. lia.
      + cbn [length] in Hf. lia. }
  apply (G A [] (fuel n) HA); [reflexivity|]. unfold fuel. rewrite app_length. cbn [length]. lia.
Qed.

Lemma combine_at A (B : list Z) R C : ilen A = zlen B ->
  (Forall2 (fun '(V, w) V' => R w V V') (combine A B) C <->
   ilen A = ilen C /\ forall i, 0 <= i < ilen A -> R (at_ B i) (ati A i) (ati C i)).
Proof.
  unfold ilen, zlen, ati, at_. revert B C. induction A as [|V A IH]; intros [|w B] C HL; cbn in HL; try lia.
  - cbn [combine]. split.
    + intros H. inversion H. split; [reflexivity|]. cbn. lia.
    + intros [H _]. destruct C; [constructor|cbn in H; lia].
  - cbn [combine]. split.
    + intros H. inversion H as [|? V' ? C' H1 H2]; subst. apply (IH B C') in H2; [|lia]. destruct H2 as [H2 H3].
      split; [cbn [length]; lia|]. intros i Hi. destruct (Z.eq_dec i 0) as [->|]; [exact H1|].
      replace (Z.to_nat i) with (S (Z.to_nat (i - 1))) by lia. apply H3. cbn [length] in Hi. lia.
    + intros [H1 H2]. destruct C as [|V' C]; [cbn in H1; lia|]. constructor.
      * apply (H2 0). cbn [length]. lia.
      * apply IH; [lia|]. split; [cbn in H1; lia|]. intros i Hi. specialize (H2 (i + 1)).
        replace (Z.to_nat (i + 1)) with (S (Z.to_nat i)) in H2 by lia. apply H2. cbn [length]. lia.
Qed.

Lemma combine_ati A B R C : ilen A = ilen B ->
  (Forall2 (fun '(V, U) V' => R V U V') (combine A B) C <->
   ilen A = ilen C /\ forall i, 0 <= i < ilen A -> R (ati A i) (ati B i) (ati C i)).
Proof.
  unfold ilen, ati. revert B C. induction A as [|V A IH]; intros [|w B] C HL; cbn in HL; try lia.
  - cbn [combine]. split.
    + intros H. inversion H. split; [reflexivity|]. cbn. lia.
    + intros [H _]. destruct C; [constructor|cbn in H; lia].
  - cbn [combine]. split.
    + intros H. inversion H as [|? V' ? C' H1 H2]; subst. apply (IH B C') in H2; [|lia]. destruct H2 as [H2 H3].
      split; [cbn [length]; lia|]. intros i Hi. destruct (Z.eq_dec i 0) as [->|]; [exact H1|].
      replace (Z.to_nat i) with (S (Z.to_nat (i - 1))) by lia. apply H3. cbn [length] in Hi. lia.
    + intros [H1 H2]. destruct C as [|V' C]; [cbn in H1; lia|]. constructor.
      * apply (H2 0). cbn [length]. lia.
      * apply IH; [lia|]. split; [cbn in H1; lia|]. intros i Hi. specialize (H2 (i + 1)).
        replace (Z.to_nat (i + 1)) with (S (Z.to_nat i)) in H2 by lia. apply H2. cbn [length]. lia.
Qed.

Lemma abstract_products_pointwise_L :
  forall A B C p c A', Z.of_nat (length A) < 2 ^ 32 ->
  length B = length A -> length C = length A -> length p = length A ->
  let n := Z.of_nat (length A) in
  (abstract_mul_reduce_array16 A n p = Ok A' <->
     Forall2 (fun '(V, w) V' => red_scale w V = Ok V') (combine A p) A')
  /\ (abstract_scalar_mul_reduce_array A n c = Ok A' <-> Forall2 (fun V V' => red_scale c V = Ok V') A A')
  /\ (abstract_mul_reduce_array C n A B = Ok A' <->
     Forall2 (fun '(V, U) V' => red_mul V U = Ok V') (combine A B) A').
Proof.
  change (2 ^ 32) with 4294967296. intros A B C p c A' Hn LB LC Lp. cbv zeta. fold (ilen A) in *.
  assert (N0 := ilen_nonneg A).
  assert (HLB : ilen B = ilen A) by (unfold ilen; lia). assert (HLC : ilen C = ilen A) by (unfold ilen; lia).
  assert (HLp : zlen p = ilen A) by (unfold ilen, zlen; lia). clear LB LC Lp.
  split; [|split].
  - rewrite (combine_at A p (fun w V V' => red_scale w V = Ok V') A') by lia.
    unfold abstract_mul_reduce_array16. split.
    + intros E. destruct (amap_pc _ A (ilen A) ltac:(lia) A' E) as (_ & HL & H & _). split; [lia|].
      intros i Hi. specialize (H i Hi). rewrite rd_ok in H by lia. exact H.
    + intros [HL H]. apply amap_tot; auto. intros i Hi. rewrite rd_ok by lia. apply H. exact Hi.
  - exact (amap_iff (red_scale c) A A' Hn).
  - rewrite (combine_ati A B (fun V U V' => red_mul V U = Ok V') A') by lia. set (n := ilen A) in *.
    unfold abstract_mul_reduce_array. split.
    + intros E.
      apply (cfor_pc (fun m X => ilen X = n /\ forall i, 0 <= i < m -> red_mul (ati A i) (ati B i) = Ok (ati X i))
        n (fun m => m)) in E; try lia.
      * destruct E as [HL H]. split; [lia|exact H].
      * intros. apply u32_small. lia.
      * intros m X Hm (HL & H). rewrite !rdi_ok by (unfold n in *; lia). cbn [bind]. intros r Er.
        destruct (red_mul (ati A m) (ati B m)) as [v|] eqn:Ev; [|discriminate]. cbn [bind] in Er.
        rewrite wri_ok in Er by lia. inversion Er; subst r. rewrite iset_len. split; [exact HL|].
        intros i Hi. destruct (Z.eq_dec i m) as [->|]; [rewrite ati_iset_same by lia; exact Ev|].
        rewrite ati_iset_other by lia. apply H. lia.
      * split; [exact HLC|]. intros; lia.
    + intros [HL H].
      destruct (cfor_count (fun m X => ilen X = n /\ forall i, 0 <= i < m -> ati X i = ati A' i) n (fun m => m)
        (fun i => i <? n) (fun i => u32 (i + 1))
        (fun i c => do x <- rdi A i; do y <- rdi B i; do v <- red_mul x y; wri c i v))
        with (f := fuel n) (i0 := 0) (st := C) as (r & Er & HLr & H1); auto; try lia; try (unfold fuel; lia).
      * intros. apply u32_small. lia.
      * intros m X Hm (HLX & H1). rewrite !rdi_ok by (unfold n in *; lia). cbn [bind]. rewrite H by lia. cbn [bind].
        rewrite wri_ok by lia. eexists. split; [reflexivity|]. rewrite iset_len. split; [exact HLX|].
        intros i Hi. destruct (Z.eq_dec i m) as [->|]; [apply ati_iset_same; lia|].
        rewrite ati_iset_other by lia. apply H1. lia.
      * split; [exact HLC|]. intros; lia.
      * rewrite Er. f_equal. apply ilist_ext; [lia|]. intros i Hi. apply H1. lia.
Qed.

(** ** Transforms *)

(** Bounds after [c] rounds. *)
Fixpoint wct (b : Z) (c : nat) : Z := match c with O => b | S c => (5 * wct b c + 24573) / 2 end.
Definition Wct (b c : Z) : Z := wct b (Z.to_nat c).
Definition Wgs (b c : Z) : Z := 3 ^ c * (b + 6143) - 6143.

Lemma Wct_succ b c : 0 <= c -> Wct b (c + 1) = (5 * Wct b c + 24573) / 2.
Proof. intros H. unfold Wct. replace (Z.to_nat (c + 1)) with (S (Z.to_nat c)) by lia. reflexivity. Qed.

Lemma Wct_pos b c : 0 <= b -> 0 <= c -> b <= Wct b c.
Proof.
  intros Hb Hc. pattern c. apply natlike_ind; [unfold Wct; cbn; lia| |exact Hc].
  intros x Hx IH. unfold Z.succ. rewrite Wct_succ by lia. lia.
Qed.

Lemma Wct_mono b c d : 0 <= b -> 0 <= c <= d -> Wct b c <= Wct b d.
Proof.
  intros Hb [Hc Hd]. replace d with (c + (d - c)) by lia. assert (H : 0 <= d - c) by lia. revert H.
  generalize (d - c). intros e He. pattern e. apply natlike_ind; [rewrite Z.add_0_r; lia| |exact He].
  intros x Hx IH. unfold Z.succ. rewrite Z.add_assoc, Wct_succ by lia.
  assert (X := Wct_pos b (c + x) Hb ltac:(lia)). lia.
Qed.

Lemma Wct_closed b c : 0 <= c -> 2 ^ c * (Wct b c + 8191) <= 5 ^ c * (b + 8191).
Proof.
  intros Hc. pattern c. apply natlike_ind; [unfold Wct; cbn; lia| |exact Hc].
  intros x Hx IH. rewrite !Z.pow_succ_r by lia. unfold Z.succ. rewrite Wct_succ by lia.
  assert (P : 0 < 2 ^ x) by (apply Z.pow_pos_nonneg; lia).
  assert (D : 2 * ((5 * Wct b x + 24573) / 2 + 8191) <= 5 * (Wct b x + 8191)) by lia.
  set (w := (5 * Wct b x + 24573) / 2) in *. nia.
Qed.

Lemma Wgs_succ b c : 0 <= c -> Wgs b (c + 1) = 3 * Wgs b c + 12286.
Proof. intros H. unfold Wgs. rewrite Z.pow_add_r by lia. change (3 ^ 1) with 3. ring. Qed.

Lemma Wgs_mono b c d : 0 <= b -> 0 <= c <= d -> 0 <= Wgs b c <= Wgs b d.
Proof.
  intros Hb Hc. unfold Wgs. assert (1 <= 3 ^ c) by (change 1 with (3 ^ 0); apply Z.pow_le_mono_r; lia).
  assert (3 ^ c <= 3 ^ d) by (apply Z.pow_le_mono_r; lia). nia.
Qed.

Lemma table_at p n : zlen p = n -> all_in (-6144) 6144 p -> Forall (fun w => w <> 0) (tl p) ->
  forall i, 0 < i < n -> at_ p i <> 0 /\ -6144 <= at_ p i <= 6144.
Proof.
  intros HL H1 H2 i Hi. split; [|apply (all_in_at _ _ p i) in H1; lia].
  rewrite Forall_forall in H2. apply H2. unfold at_. destruct p as [|w p]; [unfold zlen in HL; cbn in HL; lia|].
  replace (Z.to_nat i) with (S (Z.to_nat (i - 1))) by lia. cbn [tl nth]. apply nth_In.
  unfold zlen in HL. cbn [length] in HL. lia.
Qed.

Lemma Forall_wb b A n : ilen A = n -> Forall (fun V => - b <= fst V /\ fst V <= snd V /\ snd V <= b) A ->
  forall i, 0 <= i < n -> wb b (ati A i).
Proof.
  intros HL H i Hi. rewrite Forall_forall in H. apply H. unfold ati. apply nth_In. unfold ilen in HL. lia.
Qed.

Lemma printed_of B out : rows B out -> printed_within B out.
Proof.
  intros H. unfold printed_within. rewrite Forall_forall. intros sh Hs. rewrite Forall_forall. intros V HV.
  apply (H sh V Hs HV).
Qed.

(** The shape of a finished run. *)
Lemma run_of k Bmax W A m : tc m (finished k (2 ^ k) Bmax W A) ->
  exists out A', m = Ok (out, A') /\ printed_within Bmax out /\ (Bmax <= 2147483647 -> no_warning out) /\ Z.of_nat (length A') = 2 ^ k
    /\ Z.of_nat (length out) = k + 1 /\ fst (hd ([], []) out) = A /\ fst (last out ([], [])) = A'
    /\ forall m sh, nth_error out m = Some sh ->
       Forall (fun V => - W (Z.of_nat m) <= fst V /\ snd V <= W (Z.of_nat m)) (fst sh).
Proof.
  intros ([out A'] & E & HL & HO & HH & HT & (HR & HQ & HS) & _). exists out, A'. split; [exact E|].
  split; [apply printed_of; exact HR|].
  split; [intros HB; apply Forall_forall; apply HQ; exact HB|]. split; [exact HL|]. split; [exact HO|]. split; [|split].
  - destruct out; [cbn in HO; cbn [map hd] in HH; cbn in HT|]; [|exact HH]. subst. reflexivity.
  - rewrite <- HT. clear. induction out as [|x [|y l] IH]; [reflexivity|reflexivity|].
    change (last (x :: y :: l) ([], [])) with (last (y :: l) (@nil itv, @nil Z)). rewrite IH. reflexivity.
  - intros q sh Hm. apply Forall_forall. intros V HV. exact (HS q sh V Hm HV).
Qed.

Lemma nth_removelast {T} (x : T) l : In x (removelast l) -> exists m, (S m < length l)%nat /\ nth_error l m = Some x.
Proof.
  induction l as [|y [|z l] IH]; intros H; [destruct H|destruct H|]. cbn [removelast] in *. destruct H as [<-|H].
  - exists 0%nat. split; [cbn; lia|reflexivity].
  - destruct (IH H) as (m & Hm & E). exists (S m). split; [cbn [length] in *; lia|exact E].
Qed.

Section Run.
Variables (k b : Z) (p : list Z) (A : list itv).
Hypothesis Hk : 0 <= k <= 31.
Hypothesis HpL : zlen p = 2 ^ k.
Hypothesis Hp : forall i, 0 < i < 2 ^ k -> at_ p i <> 0 /\ -6144 <= at_ p i <= 6144.
Hypothesis HAL : ilen A = 2 ^ k.
Hypothesis Hb : 0 <= b.
Hypothesis HA : forall i, 0 <= i < 2 ^ k -> wb b (ati A i).

Lemma ct_run_tot f : In f [abstract_ntt_red_ct_rev2std; abstract_mulntt_red_ct_rev2std;
    abstract_ntt_red_ct_std2rev; abstract_mulntt_red_ct_std2rev] ->
  6144 * Wct b k <= 4611686018427387904 ->
  tc (f A (2 ^ k) p) (finished k (2 ^ k) (Wct b k) (Wct b) A).
Proof.
  intros Hin HB.
  assert (HW : forall c, 0 <= c <= k -> 0 <= Wct b c <= Wct b k).
  { intros c Hc. split; [assert (X := Wct_pos b c Hb ltac:(lia)); lia|apply Wct_mono; lia]. }
  assert (G : ct_grows k (Wct b)).
  { intros c Hc. rewrite Wct_succ by lia. specialize (HW c ltac:(lia)). lia. }
  assert (HBm : Wct b k <= 4611686018427387904) by (specialize (HW k ltac:(lia)); lia).
  assert (HA0 : forall i, 0 <= i < 2 ^ k -> wb (Wct b 0) (ati A i)) by exact HA.
  cbn [In] in Hin. destruct Hin as [<-|[<-|[<-|[<-|[]]]]].
  - apply tot_ntt_red_ct_rev2std; auto.
  - apply tot_mulntt_red_ct_rev2std; auto.
  - apply tot_ntt_red_ct_std2rev; auto.
  - apply tot_mulntt_red_ct_std2rev; auto.
Qed.

Lemma gs_run_tot f : In f [abstract_ntt_red_gs_rev2std; abstract_nttmul_red_gs_rev2std;
    abstract_ntt_red_gs_std2rev; abstract_nttmul_red_gs_std2rev] ->
  12288 * Wgs b (k - 1) <= 4611686018427387904 -> Wgs b k <= 4611686018427387904 ->
  tc (f A (2 ^ k) p) (finished k (2 ^ k) (Wgs b k) (Wgs b) A).
Proof.
  intros Hin HB HBm.
  assert (HW : forall c, 0 <= c <= k -> 0 <= Wgs b c <= Wgs b k) by (intros; apply Wgs_mono; lia).
  assert (G : gs_grows k (Wgs b)).
  { intros c Hc. rewrite Wgs_succ by lia. assert (X := Wgs_mono b c (k - 1) Hb ltac:(lia)). lia. }
  assert (HA0 : forall i, 0 <= i < 2 ^ k -> wb (Wgs b 0) (ati A i)).
  { unfold Wgs. change (3 ^ 0) with 1. replace (1 * (b + 6143) - 6143) with b by ring. exact HA. }
  cbn [In] in Hin. destruct Hin as [<-|[<-|[<-|[<-|[]]]]].
  - apply tot_ntt_red_gs_rev2std; auto.
  - apply tot_nttmul_red_gs_rev2std; auto.
  - apply tot_ntt_red_gs_std2rev; auto.
  - apply tot_nttmul_red_gs_std2rev; auto.
Qed.
End Run.

Lemma abstract_transforms_finish_L :
  forall f, In f [abstract_ntt_red_ct_rev2std; abstract_mulntt_red_ct_rev2std;
     abstract_ntt_red_ct_std2rev; abstract_mulntt_red_ct_std2rev;
     abstract_ntt_red_gs_rev2std; abstract_nttmul_red_gs_rev2std;
     abstract_ntt_red_gs_std2rev; abstract_nttmul_red_gs_std2rev] ->
  forall k A p, 0 <= k <= 11 -> zlen p = 2 ^ k -> all_in (-6144) 6144 p -> Forall (fun w => w <> 0) (tl p) ->
  Z.of_nat (length A) = 2 ^ k ->
  Forall (fun V => - 2 ^ 31 <= fst V /\ fst V <= snd V /\ snd V <= 2 ^ 31) A ->
  exists out A', f A (2 ^ k) p = Ok (out, A') /\ Z.of_nat (length A') = 2 ^ k
    /\ Z.of_nat (length out) = k + 1 /\ fst (hd ([], []) out) = A /\ fst (last out ([], [])) = A'.
Proof.
  change (2 ^ 31) with 2147483648. intros f Hin k A p Hk HpL Hp1 Hp2 HAL HA.
  assert (Hp := table_at p (2 ^ k) HpL Hp1 Hp2). assert (HA' := Forall_wb 2147483648 A (2 ^ k) HAL HA).
  assert (X : exists Bmax W, tc (f A (2 ^ k) p) (finished k (2 ^ k) Bmax W A)).
  { change (In f ([abstract_ntt_red_ct_rev2std; abstract_mulntt_red_ct_rev2std;
     abstract_ntt_red_ct_std2rev; abstract_mulntt_red_ct_std2rev] ++
     [abstract_ntt_red_gs_rev2std; abstract_nttmul_red_gs_rev2std;
     abstract_ntt_red_gs_std2rev; abstract_nttmul_red_gs_std2rev])) in Hin.
    apply in_app_or in Hin. destruct Hin as [Hin|Hin].
    - do 2 eexists. apply (ct_run_tot k 2147483648 p A); auto; try lia.
      assert (M := Wct_mono 2147483648 k 11 ltac:(lia) ltac:(lia)).
      assert (E : 6144 * Wct 2147483648 11 <= 4611686018427387904) by (vm_compute; discriminate). lia.
    - do 2 eexists. apply (gs_run_tot k 2147483648 p A); auto; try lia.
      + destruct (Z.eq_dec k 0) as [->|]; [vm_compute; discriminate|].
        assert (M := Wgs_mono 2147483648 (k - 1) 10 ltac:(lia) ltac:(lia)).
        assert (E : 12288 * Wgs 2147483648 10 <= 4611686018427387904) by (vm_compute; discriminate). lia.
      + assert (M := Wgs_mono 2147483648 k 11 ltac:(lia) ltac:(lia)).
        assert (E : Wgs 2147483648 11 <= 4611686018427387904) by (vm_compute; discriminate). lia. }
  destruct X as (Bmax & W & T). destruct (run_of k Bmax W A _ T) as (out & A' & E & _ & _ & H). exists out, A'. tauto.
Qed.

Lemma Forall_proper b A : 0 <= b <= 2147483648 ->
  Forall (fun V => - b <= fst V /\ fst V <= snd V /\ snd V <= b) A -> Forall proper A.
Proof.
  intros Hb. apply Forall_impl. intros V. unfold proper. change (2 ^ 63) with 9223372036854775808. lia.
Qed.

Lemma abstract_ct_run_L :
  forall f g, In (f, g)
    [(abstract_ntt_red_ct_rev2std, ModelRed.ntt_red_ct_rev2std);
     (abstract_mulntt_red_ct_rev2std, ModelRed.mulntt_red_ct_rev2std);
     (abstract_ntt_red_ct_std2rev, ModelRed.ntt_red_ct_std2rev);
     (abstract_mulntt_red_ct_std2rev, ModelRed.mulntt_red_ct_std2rev)] ->
  forall k b A p, 0 <= k <= 31 -> 0 <= b -> 5 ^ k * (b + 8191) <= 2 ^ k * 2147479553 ->
  zlen p = 2 ^ k -> all_in (-6144) 6144 p -> Forall (fun w => w <> 0) (tl p) ->
  Z.of_nat (length A) = 2 ^ k -> Forall (fun V => - b <= fst V /\ fst V <= snd V /\ snd V <= b) A ->
  exists out A', f A (2 ^ k) p = Ok (out, A') /\ no_warning out /\ printed_within 2147471362 out
    /\ forall a, encloses A a -> exists r, g a (2 ^ k) p = Ok r /\ encloses A' r.
Proof.
  intros f g Hin k b A p Hk Hb HB HpL Hp1 Hp2 HAL HA.
  assert (Hp := table_at p (2 ^ k) HpL Hp1 Hp2). assert (HA' := Forall_wb b A (2 ^ k) HAL HA).
  assert (HC := Wct_closed b k ltac:(lia)). assert (P2 : 0 < 2 ^ k) by (apply Z.pow_pos_nonneg; lia).
  assert (HBk : Wct b k <= 2147471362) by nia. assert (Hb0 := Wct_pos b k Hb ltac:(lia)).
  assert (T : tc (f A (2 ^ k) p) (finished k (2 ^ k) (Wct b k) (Wct b) A)).
  { apply (ct_run_tot k b p A); auto; try lia. cbn [In] in *.
    destruct Hin as [Hin|[Hin|[Hin|[Hin|[]]]]]; injection Hin as <- <-; tauto. }
  destruct (run_of k _ _ A _ T) as (out & A' & E & HP & HQ & _). exists out, A'. split; [exact E|].
  split; [apply HQ; clear - HBk; lia|].
  assert (HP' : printed_within 2147471362 out).
  { revert HP. unfold printed_within. apply Forall_impl. intros row. apply Forall_impl. intros V. clear - HBk. lia. }
  split; [exact HP'|]. intros a HE. destruct (encl_at A a HE) as [HL _].
  apply (abstract_ct_sound_L f g Hin k A p a out A'); auto.
  - clear - Hp1. apply all_in_of. intros i Hi. apply (all_in_at _ _ p i) in Hp1; lia.
  - rewrite <- HL. exact HAL.
  - apply (Forall_proper b A); [lia|exact HA].
Qed.

Lemma abstract_gs_run_L :
  forall f g, In (f, g)
    [(abstract_ntt_red_gs_rev2std, ModelRed.ntt_red_gs_rev2std);
     (abstract_nttmul_red_gs_rev2std, ModelRed.nttmul_red_gs_rev2std);
     (abstract_ntt_red_gs_std2rev, ModelRed.ntt_red_gs_std2rev);
     (abstract_nttmul_red_gs_std2rev, ModelRed.nttmul_red_gs_std2rev)] ->
  forall k b A p, 0 <= k <= 31 -> 0 <= b -> 3 ^ k * (b + 6143) <= 2147477505 ->
  zlen p = 2 ^ k -> all_in (-6144) 6144 p -> Forall (fun w => w <> 0) (tl p) ->
  Z.of_nat (length A) = 2 ^ k -> Forall (fun V => - b <= fst V /\ fst V <= snd V /\ snd V <= b) A ->
  exists out A', f A (2 ^ k) p = Ok (out, A') /\ no_warning out /\ printed_within 2147471362 out
    /\ forall a, encloses A a -> exists r, g a (2 ^ k) p = Ok r /\ encloses A' r.
Proof.
  intros f g Hin k b A p Hk Hb HB HpL Hp1 Hp2 HAL HA.
  assert (Hp := table_at p (2 ^ k) HpL Hp1 Hp2). assert (HA' := Forall_wb b A (2 ^ k) HAL HA).
  assert (HBk : Wgs b k <= 2147471362) by (unfold Wgs; lia).
  assert (Hb0 : b <= Wgs b k).
  { unfold Wgs. assert (1 <= 3 ^ k) by (change 1 with (3 ^ 0); apply Z.pow_le_mono_r; lia). clear - H Hb. nia. }
  assert (HBk1 : Wgs b (k - 1) <= 1073741823).
  { destruct (Z.eq_dec k 0) as [->|]; [unfold Wgs; change (3 ^ (0 - 1)) with 0; lia|].
    assert (X := Wgs_succ b (k - 1) ltac:(lia)). replace (k - 1 + 1) with k in X by lia. lia. }
  assert (T : tc (f A (2 ^ k) p) (finished k (2 ^ k) (Wgs b k) (Wgs b) A)).
  { apply (gs_run_tot k b p A); auto; try lia. cbn [In] in *.
    destruct Hin as [Hin|[Hin|[Hin|[Hin|[]]]]]; injection Hin as <- <-; tauto. }
  destruct (run_of k _ _ A _ T) as (out & A' & E & HP & HQ & _ & HO & _ & _ & HS). exists out, A'. split; [exact E|].
  split; [apply HQ; clear - HBk; lia|].
  assert (HP' : printed_within 2147471362 out).
  { revert HP. unfold printed_within. apply Forall_impl. intros row. apply Forall_impl. intros V. clear - HBk. lia. }
  split; [exact HP'|]. intros a HE. destruct (encl_at A a HE) as [HL _].
  apply (abstract_gs_sound_L f g Hin k A p a out A'); auto.
  - clear - Hp1. apply all_in_of. intros i Hi. apply (all_in_at _ _ p i) in Hp1; lia.
  - rewrite <- HL. exact HAL.
  - apply (Forall_proper b A); [lia|exact HA].
  - change (2 ^ 30 - 1) with 1073741823. unfold printed_within. apply Forall_forall. intros sh Hs.
    destruct (nth_removelast sh out Hs) as (m & Hm & Em). specialize (HS m sh Em). revert HS.
    assert (X0 : 0 <= Z.of_nat m <= k - 1).
    { clear - Hm HO. unfold shown, itv in *. apply Nat2Z.inj_lt in Hm. rewrite HO in Hm. lia. }
    assert (X := Wgs_mono b (Z.of_nat m) (k - 1) Hb X0).
    apply Forall_impl. intros V. clear - X HBk1. lia.
Qed.
