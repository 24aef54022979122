(** Bounds for the forward transform of size 1024 that follow the values of the table: the
    uniform bounds of RedRange are too coarse for product 1 of src/ntt_red_asm1024.c. *)

From Coq Require Import ZArith List Bool Lia Setoid Morphisms.
From Verif Require Import CSem Spec Loops ModQ Stages OuterLoops Tower TransformGen Forms ModelRed
  NttElem NaiveElem RedElem RedBfly.
Import ListNotations.
Open Scope Z_scope.

(** Bound after one butterfly with factor [w], from the bound [b]. *)
Definition grow (b w : Z) : Z :=
  if w =? -4096 then 2 * b else b + (12286 + b * Z.abs w / 4096).

Lemma redz_unit x : redz (x * -4096) = x.
Proof.
  unfold redz. replace (x * -4096) with ((- x) * 4096) by ring.
  rewrite Z.mod_mul, Z.div_mul by lia. lia.
Qed.

Lemma grow_ge b w : 0 <= b -> b <= grow b w.
Proof.
  intros Hb. unfold grow. destruct (w =? -4096); [lia|].
  assert (0 <= b * Z.abs w / 4096) by (apply Z.div_pos; [nia|lia]). lia.
Qed.

Lemma redz_grow x w b : Z.abs x <= b -> -6144 <= w <= 6144 -> Z.abs (redz (x * w)) <= grow b w - b.
Proof.
  intros Hx Hw. unfold grow. destruct (Z.eqb_spec w (-4096)) as [->|_].
  - rewrite redz_unit. lia.
  - assert (H : - (b * Z.abs w) <= x * w <= b * Z.abs w).
    { apply Z.abs_le. rewrite Z.abs_mul. apply Z.mul_le_mono_nonneg_r; lia. }
    apply redz_bounds in H.
    assert (0 <= b * Z.abs w) by nia.
    remember (b * Z.abs w) as m. clear - H H0. lia.
Qed.

Definition within (b v : Z) : Prop := Z.abs v <= b.

Lemma bfly0_fine n h s b b' : n <= 2147483648 -> 2 * b <= b' <= 2147483647 ->
  ct_pair n h 1 (within b) (within b') s (bfly0_red s h).
Proof.
  intros Hn Hb. unfold bfly0_red. pair_start n s h. unfold within in *.
  repeat step_rd. unfold sub32, add32. rewrite i32_ok by lia. cbn [bind].
  next_wr. next_rd. rewrite at_aset_other by lia.
  rewrite i32_ok by lia. cbn [bind]. next_wr.
  do 2 eexists. split; [reflexivity|].
  split; [qring|]. split; [qring|]. lia.
Qed.

Lemma ct_bfly_fine n h s w b b' : n <= 2147483648 -> -6144 <= w <= 6144 -> 0 <= b ->
  grow b w <= b' <= 2147483647 -> b <= 1000000000 ->
  ct_pair n h (3 * w) (within b) (within b') s (ct_bfly_red w s h).
Proof.
  intros Hn Hw Hb0 Hb Hb1. unfold ct_bfly_red. pair_start n s h. unfold within in *. step_rd.
  assert (E := mul_red_ok (at_ a (s + h)) w).
  rewrite E.
  2: { assert (H : Z.abs (at_ a (s + h) * w) <= 1000000000 * 6144).
       { rewrite Z.abs_mul. apply Z.mul_le_mono_nonneg; lia. } lia. }
  clear E. assert (HB := redz_grow (at_ a (s + h)) w b Bt Hw).
  cbn [bind]. step_rd.
  unfold sub32, add32. rewrite i32_ok by lia. cbn [bind].
  next_wr. next_rd. rewrite at_aset_other by lia.
  rewrite i32_ok by lia. cbn [bind]. next_wr.
  do 2 eexists. split; [reflexivity|].
  split; [rewrite redz_cong; qring|]. split; [rewrite redz_cong; qring|]. lia.
Qed.

(** ** Lists *)
Fixpoint map2 (f : Z -> Z -> Z) (x y : list Z) : list Z :=
  match x, y with
  | a :: x, b :: y => f a b :: map2 f x y
  | _, _ => []
  end.
Fixpoint dup (x : list Z) : list Z :=
  match x with
  | [] => []
  | a :: x => a :: a :: dup x
  end.

Lemma map2_len f x : forall y, zlen x = zlen y -> zlen (map2 f x y) = zlen x.
Proof.
  unfold zlen. induction x as [|a x IH]; intros [|b y] H; cbn [map2 length] in *; try reflexivity;
    try (exfalso; clear IH; lia).
  specialize (IH y). lia.
Qed.
Lemma dup_len x : zlen (dup x) = 2 * zlen x.
Proof. unfold zlen. induction x as [|a x IH]; cbn [dup length] in *; lia. Qed.
Lemma at_cons a x i : 0 < i -> at_ (a :: x) i = at_ x (i - 1).
Proof.
  intros Hi. unfold at_. replace (Z.to_nat i) with (S (Z.to_nat (i - 1))) by lia. reflexivity.
Qed.
Lemma at_head a x : at_ (a :: x) 0 = a.
Proof. reflexivity. Qed.
Lemma at_map2 f x : forall y i, zlen x = zlen y -> 0 <= i < zlen x ->
  at_ (map2 f x y) i = f (at_ x i) (at_ y i).
Proof.
  induction x as [|a x IH]; intros [|b y] i H Hi; unfold zlen in *; cbn [length] in *; try lia.
  cbn [map2]. destruct (Z.eq_dec i 0) as [->|Hne]; [reflexivity|].
  rewrite !at_cons by lia. apply IH; lia.
Qed.
Lemma at_dup x : forall i e, 0 <= i < zlen x -> 0 <= e <= 1 -> at_ (dup x) (2 * i + e) = at_ x i.
Proof.
  induction x as [|a x IH]; intros i e Hi He; unfold zlen in *; cbn [length] in *; [lia|].
  cbn [dup]. destruct (Z.eq_dec i 0) as [->|Hne].
  - rewrite at_head. destruct (Z.eq_dec e 0) as [->|]; [reflexivity|].
    replace e with 1 by lia. reflexivity.
  - rewrite (at_cons a x i) by lia. rewrite <- (IH (i - 1) e) by lia.
    rewrite at_cons by lia. rewrite at_cons by lia. f_equal. lia.
Qed.
Lemma at_app_l x y i : 0 <= i < zlen x -> at_ (x ++ y) i = at_ x i.
Proof. unfold at_, zlen. intros H. apply app_nth1. lia. Qed.
Lemma at_app_r x y i : zlen x <= i -> at_ (x ++ y) i = at_ y (i - zlen x).
Proof.
  unfold at_, zlen. intros H. rewrite app_nth2 by lia. f_equal. lia.
Qed.
Lemma at_map f x i : 0 <= i < zlen x -> at_ (map f x) i = f (at_ x i).
Proof.
  unfold at_, zlen. intros H. rewrite (nth_indep _ 0 (f 0)) by (rewrite map_length; lia).
  apply map_nth.
Qed.

(** ** The values of the table for size 1024 and psi = 1014 *)

(** The representative in -6144..6144. *)
Definition ctr (x : Z) : Z := let r := x mod 12289 in if r <=? 6144 then r else r - 12289.
Lemma ctr_rng x : -6144 <= ctr x <= 6144.
Proof. unfold ctr. destruct (Z.leb_spec (x mod 12289) 6144); lia. Qed.
Lemma ctr_eq x : eqQ (ctr x) x.
Proof.
  unfold ctr, eqQ, Spec.Q. destruct (x mod 12289 <=? 6144).
  - apply Z.mod_mod. discriminate.
  - replace (x mod 12289 - 12289) with (x mod 12289 + (-1) * 12289) by lia.
    rewrite Z.mod_add by discriminate. apply Z.mod_mod. discriminate.
Qed.
Lemma ctr_unique x y : eqQ x y -> -6144 <= x <= 6144 -> -6144 <= y <= 6144 -> x = y.
Proof. unfold eqQ, Spec.Q. lia. Qed.

(** [wpow m] = omega^(2^(8-m)). *)
Definition wpow (m : nat) : Z := Nat.iter (8 - m) (fun x => ctr (x * x)) (ctr (1014 * 1014)).
Lemma wpow_ok m : (m <= 8)%nat -> eqQ (wpow m) ((1014 ^ 2) ^ (2 ^ (8 - Z.of_nat m))).
Proof.
  intros Hm. unfold wpow. replace (8 - Z.of_nat m) with (Z.of_nat (8 - m)) by lia.
  clear Hm. generalize (8 - m)%nat. clear m. induction n as [|n IH].
  - cbn [Nat.iter nat_rect]. rewrite ctr_eq. reflexivity.
  - cbn [Nat.iter nat_rect]. change (nat_rect _ _ _ n) with (Nat.iter n (fun x => ctr (x * x)) (ctr (1014 * 1014))).
    rewrite ctr_eq, IH. rewrite Nat2Z.inj_succ, Z.pow_succ_r by lia.
    rewrite (Z.mul_comm 2), (Z.pow_mul_r _ _ 2) by lia. rewrite (Z.pow_2_r (_ ^ _)). reflexivity.
Qed.

(** Row [m] of the table (entries [2^m] to [2^(m+1)-1]) and the bounds after [m] rounds. *)
Definition row_next (m : nat) (r : list Z) : list Z := r ++ map (fun x => ctr (x * wpow m)) r.
Definition bnd_next (b r : list Z) : list Z := dup (map2 grow b r).
Fixpoint row (m : nat) : list Z :=
  match m with O => [-4096] | S m => row_next m (row m) end.
Fixpoint bnd (m : nat) : list Z :=
  match m with O => [30717] | S m => bnd_next (bnd m) (row m) end.

Lemma row_len m : zlen (row m) = 2 ^ Z.of_nat m.
Proof.
  induction m as [|m IH]; [reflexivity|]. rewrite Nat2Z.inj_succ, Z.pow_succ_r by lia.
  cbn [row]. unfold row_next, zlen in *. rewrite app_length, map_length. lia.
Qed.
Lemma bnd_len m : zlen (bnd m) = 2 ^ Z.of_nat m.
Proof.
  induction m as [|m IH]; [reflexivity|]. rewrite Nat2Z.inj_succ, Z.pow_succ_r by lia.
  cbn [bnd]. unfold bnd_next. rewrite dup_len, map2_len; [lia|]. rewrite IH, row_len. reflexivity.
Qed.
Lemma row_rng m i : 0 <= i < 2 ^ Z.of_nat m -> -6144 <= at_ (row m) i <= 6144.
Proof.
  revert i. induction m as [|m IH]; intros i Hi.
  - change (2 ^ Z.of_nat 0) with 1 in Hi. replace i with 0 by lia. cbn. lia.
  - assert (L := row_len m). rewrite Nat2Z.inj_succ, Z.pow_succ_r in Hi by lia.
    cbn [row]. unfold row_next. destruct (Z.ltb_spec i (zlen (row m))).
    + rewrite at_app_l by lia. apply IH. lia.
    + rewrite at_app_r by lia. rewrite at_map by lia. apply ctr_rng.
Qed.
Lemma row_ok m j : (m <= 9)%nat -> 0 <= j < 2 ^ Z.of_nat m ->
  eqQ (at_ (row m) j) (8193 * (1014 ^ 2) ^ (2 ^ (9 - Z.of_nat m) * bitrev (Z.of_nat m) j)).
Proof.
  revert j. induction m as [|m IH]; intros j Hm Hj.
  - change (2 ^ Z.of_nat 0) with 1 in Hj. replace j with 0 by lia.
    change (Z.of_nat 0) with 0. rewrite bitrev_0, Z.mul_0_r, Z.pow_0_r. reflexivity.
  - assert (L := row_len m). rewrite Nat2Z.inj_succ, Z.pow_succ_r in Hj by lia.
    rewrite Nat2Z.inj_succ. unfold Z.succ. set (l := Z.of_nat m) in *.
    assert (E8 : 2 ^ (9 - l) = 2 * 2 ^ (9 - (l + 1))).
    { replace (9 - l) with (Z.succ (9 - (l + 1))) by lia. rewrite Z.pow_succ_r by lia. reflexivity. }
    assert (P8 : 0 < 2 ^ (9 - (l + 1))) by (apply Z.pow_pos_nonneg; lia).
    cbn [row]. unfold row_next. destruct (Z.ltb_spec j (2 ^ l)) as [Hl|Hl].
    + rewrite at_app_l by lia. rewrite IH by lia. rewrite bitrev_low by lia. rewrite E8.
      replace (2 * 2 ^ (9 - (l + 1)) * bitrev l j) with (2 ^ (9 - (l + 1)) * (2 * bitrev l j)) by ring.
      reflexivity.
    + rewrite at_app_r by lia. rewrite at_map by lia. rewrite L.
      rewrite ctr_eq, IH, wpow_ok by lia. fold l.
      replace (8 - l) with (9 - (l + 1)) by lia.
      assert (EB := bitrev_high l (j - 2 ^ l) ltac:(lia) ltac:(lia)).
      replace (j - 2 ^ l + 2 ^ l) with j in EB by lia. replace (2 ^ l + (j - 2 ^ l)) with j in EB by lia.
      rewrite EB.
      assert (R := bitrev_range l (j - 2 ^ l) ltac:(lia)).
      rewrite E8. replace (2 ^ (9 - (l + 1)) * (2 * bitrev l (j - 2 ^ l) + 1)) with
        (2 * 2 ^ (9 - (l + 1)) * bitrev l (j - 2 ^ l) + 2 ^ (9 - (l + 1))) by ring.
      rewrite (Z.pow_add_r (1014 ^ 2)) by nia. rewrite Z.mul_assoc. reflexivity.
Qed.

(** All the bounds are at most 31454208. *)
Definition small (b : Z) : bool := (0 <=? b) && (b <=? 31454208).
Fixpoint check (f m : nat) (b r : list Z) : bool :=
  forallb small b && match f with O => true | S f => check f (S m) (bnd_next b r) (row_next m r) end.
Lemma check_all : check 10 0 [30717] [-4096] = true.
Proof. vm_compute. reflexivity. Qed.
Lemma check_small f : forall m, check f m (bnd m) (row m) = true ->
  forall m', (m <= m' <= m + f)%nat -> forallb small (bnd m') = true.
Proof.
  induction f as [|f IH]; intros m H m' Hm'; cbn [check] in H; apply andb_prop in H as [H1 H2].
  - replace m' with m by lia. exact H1.
  - destruct (Nat.eq_dec m' m) as [->|Hne]; [exact H1|]. apply (IH (S m)); [exact H2|lia].
Qed.
Lemma bnd_small m i : (m <= 10)%nat -> 0 <= i < 2 ^ Z.of_nat m -> 0 <= at_ (bnd m) i <= 31454208.
Proof.
  intros Hm Hi. assert (H := check_small 10 0 check_all m ltac:(lia)).
  rewrite forallb_forall in H. assert (L := bnd_len m). unfold zlen in L.
  assert (X : small (at_ (bnd m) i) = true) by (apply H; unfold at_; apply nth_In; lia).
  unfold small in X. lia.
Qed.
Lemma bnd_step m j e : 0 <= j < 2 ^ Z.of_nat m -> 0 <= e <= 1 ->
  at_ (bnd (S m)) (2 * j + e) = grow (at_ (bnd m) j) (at_ (row m) j).
Proof.
  intros Hj He. assert (L := bnd_len m). assert (L' := row_len m).
  cbn [bnd]. unfold bnd_next. rewrite at_dup; [|rewrite map2_len; lia|exact He].
  apply at_map2; lia.
Qed.
Lemma row_unit m : at_ (row m) 0 = -4096.
Proof.
  induction m as [|m IH]; [reflexivity|]. cbn [row]. unfold row_next.
  rewrite at_app_l; [exact IH|]. rewrite row_len. assert (0 < 2 ^ Z.of_nat m) by (apply Z.pow_pos_nonneg; lia). lia.
Qed.

(** ** The forward transform *)
Definition bd (l i v : Z) : Prop := within (at_ (bnd (Z.to_nat l)) (i / 2 ^ (10 - l))) v.

Lemma pos_block d j c : 0 < d -> 0 <= c < d ->
  posB d j c / (2 * d) = j /\ (posB d j c + d) / (2 * d) = j
  /\ posB d j c / d = 2 * j /\ (posB d j c + d) / d = 2 * j + 1.
Proof.
  intros Hd Hc. unfold posB. repeat split; symmetry.
  - apply (Z.div_unique _ _ _ c); lia.
  - apply (Z.div_unique _ _ _ (c + d)); lia.
  - apply (Z.div_unique _ _ _ c); lia.
  - apply (Z.div_unique _ _ _ c); lia.
Qed.

Lemma bd_pair l j c body z : 0 <= l < 10 -> 0 <= j < 2 ^ l -> 0 <= c < 2 ^ (9 - l) ->
  ct_pair 1024 (2 ^ (9 - l)) z (within (at_ (bnd (Z.to_nat l)) j))
    (within (grow (at_ (bnd (Z.to_nat l)) j) (at_ (row (Z.to_nat l)) j))) (posB (2 ^ (9 - l)) j c) body ->
  bspec 1024 (2 ^ (9 - l)) (bd l) (bd (l + 1)) (posB (2 ^ (9 - l)) j c) body.
Proof.
  intros Hl Hj Hc H a HL H1 H2. set (d := 2 ^ (9 - l)) in *.
  assert (Hd : 0 < d) by (apply Z.pow_pos_nonneg; lia).
  destruct (pos_block d j c Hd Hc) as (D1 & D2 & D3 & D4).
  assert (E1 : 2 ^ (10 - l) = 2 * d).
  { unfold d. replace (10 - l) with (Z.succ (9 - l)) by lia. apply Z.pow_succ_r. lia. }
  assert (E2 : 2 ^ (10 - (l + 1)) = d) by (unfold d; f_equal; lia).
  unfold bd in *. rewrite E1 in H1, H2. rewrite E2. rewrite D1 in H1. rewrite D2 in H2. rewrite D3, D4.
  assert (N : 2 ^ l * (2 * d) = 1024).
  { rewrite <- E1, <- Z.pow_add_r by lia. replace (l + (10 - l)) with 10 by lia. reflexivity. }
  destruct (H a HL) as (x & y & E & _ & _ & Hx & Hy); try assumption.
  { unfold posB. clear - Hd Hj Hc. nia. }
  { unfold posB. clear - Hd Hj Hc N. nia. }
  exists x, y. split; [exact E|].
  replace (Z.to_nat (l + 1)) with (S (Z.to_nat l)) by (clear - Hl; lia).
  assert (J : 0 <= j < 2 ^ Z.of_nat (Z.to_nat l)) by (rewrite Z2Nat.id by lia; exact Hj).
  rewrite (bnd_step _ j 1 J) by lia. rewrite <- (Z.add_0_r (2 * j)), (bnd_step _ j 0 J) by lia. auto.
Qed.

Lemma row_entry p l j : omega_table_rev 10 (1014 ^ 2) 8193 p ->
  (forall i, 1 <= i < 1024 -> -6144 <= at_ p i <= 6144) ->
  0 <= l < 10 -> 0 <= j < 2 ^ l -> at_ p (2 ^ l + j) = at_ (row (Z.to_nat l)) j.
Proof.
  intros HT HR Hl Hj.
  assert (N : 2 ^ l <= 2 ^ 9) by (apply Z.pow_le_mono_r; lia). change (2 ^ 9) with 512 in N.
  assert (P0 : 0 < 2 ^ l) by (apply Z.pow_pos_nonneg; lia).
  assert (J : 0 <= j < 2 ^ Z.of_nat (Z.to_nat l)) by (rewrite Z2Nat.id by lia; exact Hj).
  apply ctr_unique; [|apply HR; lia|apply row_rng, J].
  rewrite (omega_table_rev_z 10 (1014 ^ 2) 8193 p HT) by lia.
  assert (L9 : (Z.to_nat l <= 9)%nat) by lia. rewrite (row_ok _ _ L9 J). rewrite Z2Nat.id by lia. unfold zw.
  replace (10 - (l + 1)) with (9 - l) by lia. reflexivity.
Qed.

Lemma ct_std2rev_fine p a r : omega_table_rev 10 (1014 ^ 2) 8193 p ->
  (forall i, 1 <= i < 1024 -> -6144 <= at_ p i <= 6144) ->
  zlen a = 1024 -> (forall i, 0 <= i < 1024 -> Z.abs (at_ a i) <= 30717) ->
  ntt_red_ct_std2rev a 1024 p = Ok r ->
  forall i, 0 <= i < 1024 -> Z.abs (at_ r i) <= 31454208.
Proof.
  intros HT HR HL Ha E.
  destruct (nest_B_up_plain 10 1024 bd) with (body0 := bfly0_red) (body := ct_bfly_red) (p := p) (a := a)
    as (r' & E' & HLr & Hr'); try reflexivity; try lia.
  - exact (proj1 HT).
  - intros l c Hl Hc. change (10 - 1) with 9 in *. apply bd_pair with (z := 1); [exact Hl|split; [lia|apply Z.pow_pos_nonneg; lia]|exact Hc|].
    apply bfly0_fine; [lia|]. rewrite row_unit. unfold grow. rewrite Z.eqb_refl.
    assert (X := bnd_small (Z.to_nat l) 0 ltac:(lia) ltac:(split; [lia|apply Z.pow_pos_nonneg; lia])). lia.
  - intros l j c Hl Hj Hc. change (10 - 1) with 9 in *. apply bd_pair with (z := 3 * at_ p (2 ^ l + j)); [exact Hl|lia|exact Hc|].
    rewrite (row_entry p l j HT HR) by lia.
    assert (J : 0 <= j < 2 ^ Z.of_nat (Z.to_nat l)) by (rewrite Z2Nat.id by lia; lia).
    assert (X := bnd_small (Z.to_nat l) j ltac:(lia) J).
    apply ct_bfly_fine; try lia; [apply row_rng, J|].
    rewrite <- (bnd_step _ j 0 J) by lia.
    assert (Y := bnd_small (S (Z.to_nat l)) (2 * j + 0) ltac:(lia)).
    rewrite Nat2Z.inj_succ, Z.pow_succ_r in Y by lia. lia.
  - split; [exact HL|]. intros i Hi. unfold bd. change (2 ^ (10 - 0)) with 1024.
    rewrite Z.div_small by lia. apply Ha. exact Hi.
  - assert (r' = r) as ->.
    { assert (X : Ok r' = Ok r) by (rewrite <- E', <- E; reflexivity). injection X as ->. reflexivity. }
    intros i Hi. specialize (Hr' i Hi). unfold bd, within in Hr'. change (2 ^ (10 - 10)) with 1 in Hr'.
    rewrite Z.div_1_r in Hr'. assert (X := bnd_small (Z.to_nat 10) i ltac:(lia) Hi). lia.
Qed.
