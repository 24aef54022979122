(** The main functions of the table generators. *)

From Coq Require Import ZArith List Bool Lia Setoid Morphisms.
From Verif Require Import CSem Spec Loops ModQ NttElem TableSpec ModelGen GenElem GenTables ProdGen Fermat.
Import ListNotations.
Open Scope Z_scope.

(** ** is_primitive_root *)

Lemma is_primitive_root_ok x n q : 1 < q <= 65536 -> 0 <= x < q -> 0 < n < 4294967296 ->
  exists b, is_primitive_root x n q = Ok b /\
    (b = true <-> (x ^ n mod q = 1 /\ forall i, 0 < i < n -> x ^ i mod q <> 1)).
Proof.
  intros Hq Hx Hn. unfold is_primitive_root.
  destruct (cfor_count (fun c (ok : bool) => ok = true <-> forall i, 0 < i < c + 1 -> x ^ i mod q <> 1)
    (n - 1) (fun c => c + 1) (fun i => i <? n) (fun i => u32 (i + 1))
    (fun i ok => if ok : bool then do p <- power x i q; Ok (negb (p =? 1)) else Ok false))
    with (f := fuel n) (i0 := 1) (st := true) as (ok & E & HI).
  - lia.
  - intros. lia.
  - lia.
  - intros. rewrite u32_small by lia. lia.
  - intros c ok Hc HI. destruct ok.
    + rewrite power_ok by lia. cbn [bind]. eexists. split; [reflexivity|]. split.
      * intros H i Hi. destruct (Z.eq_dec i (c + 1)) as [->|Hne].
        -- intros EE. rewrite EE in H. discriminate.
        -- apply (proj1 HI eq_refl). lia.
      * intros H. specialize (H (c + 1) ltac:(lia)). destruct (Z.eqb_spec (x ^ (c + 1) mod q) 1); [contradiction|reflexivity].
    + exists false. split; [reflexivity|]. split; [discriminate|]. intros H.
      apply HI. intros i Hi. apply H. lia.
  - reflexivity.
  - unfold fuel. lia.
  - split; [intros _ i Hi; lia|reflexivity].
  - rewrite E. cbn [bind]. replace (n - 1 + 1) with n in HI by lia. destruct ok.
    + rewrite power_ok by lia. cbn [bind]. eexists. split; [reflexivity|].
      destruct (Z.eqb_spec (x ^ n mod q) 1) as [EE|EE]; split; intros H.
      * split; [exact EE|]. apply HI. reflexivity.
      * reflexivity.
      * discriminate.
      * destruct H. contradiction.
    + exists false. split; [reflexivity|]. split; [discriminate|]. intros [_ H]. apply HI. exact H.
Qed.

(** ** Tables of the two generators *)

Lemma table_ext k r f f' : (forall l j, 0 <= l < k -> 0 <= j < 2 ^ l -> eqQ (f l j) (f' l j)) ->
  table_at k r f -> table_at k r f'.
Proof. intros H [H1 H2]. split; [exact H1|]. intros l j Hl Hj. rewrite H2 by auto. apply H; auto. Qed.

Lemma one_form k y c l j : 0 <= k -> 0 <= l -> eqQ (std_form k 1 y c l j) (c * (y ^ (2 ^ k / (2 * 2 ^ l))) ^ j).
Proof.
  intros Hk Hl. unfold std_form. rewrite Z.pow_1_l.
  - qring.
  - assert (0 < 2 ^ l) by (apply pow2_pos; lia). assert (0 < 2 ^ k) by (apply pow2_pos; lia). apply Z.div_pos; lia.
Qed.
Lemma mixed_form k x y c l j : eqQ y (x ^ 2) ->
  eqQ (std_form k x y c l j) (c * (x ^ (2 ^ k / (2 * 2 ^ l)) * ((x ^ 2) ^ (2 ^ k / (2 * 2 ^ l))) ^ j)).
Proof. intros H. unfold std_form. rewrite H. reflexivity. Qed.

Section Main.
Variables (k psi : Z).
Hypothesis Hk : 0 <= k <= 11.
Hypothesis Hpsi : can psi.
Let n := 2 ^ k.
Variables (phi ipsi iphi inv_n : Z).
Hypothesis Cphi : can phi.
Hypothesis Cipsi : can ipsi.
Hypothesis Ciphi : can iphi.
Hypothesis Cin : can inv_n.
Hypothesis Ephi : eqQ phi (psi ^ 2).
Hypothesis Eipsi : eqQ (psi * ipsi) 1.
Hypothesis Eiphi : eqQ (phi * iphi) 1.
Hypothesis Ein : eqQ (2 ^ k * inv_n) 1.

Let Hn : 0 <= n < 4294967296.
Proof.
  unfold n. assert (0 < 2 ^ k) by (apply pow2_pos; lia).
  assert (2 ^ k <= 2 ^ 11) by (apply Z.pow_le_mono_r; lia). change (2 ^ 11) with 2048 in *. lia.
Qed.
Let Hk30 : 0 <= k <= 30.
Proof. lia. Qed.
Let Eisq : eqQ iphi (ipsi ^ 2) := inv_sq psi ipsi phi iphi Ephi Eipsi Eiphi.
Let C1 : can 1.
Proof. unfold can. lia. Qed.

Let pow_ok a x y : zlen a = n -> can x -> can y ->
  exists r, build_power_table a n 12289 x y = Ok r /\ zlen r = n /\
    (power_table n x y r /\ all_in 0 (Q - 1) r).
Proof.
  intros HL Hx Hy. destruct (build_power_table_ok a n x y Hn HL Hx Hy) as (r & E & H1 & H2).
  exists r. split; [exact E|]. split; [apply H1|]. auto.
Qed.

Let std1_ok a y : zlen a = n -> can y ->
  exists r, build_table a n 12289 1 y = Ok r /\ zlen r = n /\ (omega_table k y 1 r /\ all_in 0 (Q - 1) r).
Proof.
  intros HL Hy. destruct (build_table_ok k 1 y 0 Hk30 C1 Hy a HL) as (r & E & H1 & H2).
  exists r. split; [exact E|]. split; [apply H1|]. split; [|exact H2].
  eapply table_ext; [|exact H1]. intros l j Hl Hj. apply one_form; lia.
Qed.
Let rev1_ok a y : zlen a = n -> can y ->
  exists r, build_rev_table a n 12289 1 y = Ok r /\ zlen r = n /\ (omega_table_rev k y 1 r /\ all_in 0 (Q - 1) r).
Proof.
  intros HL Hy. destruct (build_rev_table_ok k 1 y 0 Hk30 C1 Hy a HL) as (r & E & H1 & H2).
  exists r. split; [exact E|]. split; [apply H1|]. split; [|exact H2].
  eapply table_ext; [|exact H1]. intros l j Hl Hj. apply one_form; lia.
Qed.
Let stdm_ok a x y : zlen a = n -> can x -> can y -> eqQ y (x ^ 2) ->
  exists r, build_table a n 12289 x y = Ok r /\ zlen r = n /\ (mixed_table k x 1 r /\ all_in 0 (Q - 1) r).
Proof.
  intros HL Hx Hy Hxy. destruct (build_table_ok k x y 0 Hk30 Hx Hy a HL) as (r & E & H1 & H2).
  exists r. split; [exact E|]. split; [apply H1|]. split; [|exact H2].
  eapply table_ext; [|exact H1]. intros l j Hl Hj. apply mixed_form; auto.
Qed.
Let revm_ok a x y : zlen a = n -> can x -> can y -> eqQ y (x ^ 2) ->
  exists r, build_rev_table a n 12289 x y = Ok r /\ zlen r = n /\ (mixed_table_rev k x 1 r /\ all_in 0 (Q - 1) r).
Proof.
  intros HL Hx Hy Hxy. destruct (build_rev_table_ok k x y 0 Hk30 Hx Hy a HL) as (r & E & H1 & H2).
  exists r. split; [exact E|]. split; [apply H1|]. split; [|exact H2].
  eapply table_ext; [|exact H1]. intros l j Hl Hj. apply mixed_form; auto.
Qed.

Lemma print_tables_ok malloc : zlen (malloc n) = n ->
  exists T, print_tables malloc 12289 n psi phi ipsi iphi inv_n = Ok T /\ tables_ok k psi T.
Proof.
  intros HL. unfold print_tables.
  destruct (pow_ok (malloc n) 1 psi HL C1 Hpsi) as (t1 & -> & L1 & P1). cbn [bind].
  destruct (pow_ok t1 1 ipsi L1 C1 Cipsi) as (t2 & -> & L2 & P2). cbn [bind].
  destruct (rev1_ok t2 ipsi L2 Cipsi) as (t3 & -> & L3 & P3). cbn [bind].
  destruct (pow_ok t3 inv_n ipsi L3 Cin Cipsi) as (t4 & -> & L4 & P4). cbn [bind].
  destruct (std1_ok t4 phi L4 Cphi) as (t5 & -> & L5 & P5). cbn [bind].
  destruct (rev1_ok t5 phi L5 Cphi) as (t6 & -> & L6 & P6). cbn [bind].
  destruct (std1_ok t6 iphi L6 Ciphi) as (t7 & -> & L7 & P7). cbn [bind].
  destruct (rev1_ok t7 iphi L7 Ciphi) as (t8 & -> & L8 & P8). cbn [bind].
  destruct (stdm_ok t8 psi phi L8 Hpsi Cphi Ephi) as (t9 & -> & L9 & P9). cbn [bind].
  destruct (revm_ok t9 psi phi L9 Hpsi Cphi Ephi) as (t10 & -> & L10 & P10). cbn [bind].
  destruct (stdm_ok t10 ipsi iphi L10 Cipsi Ciphi Eisq) as (t11 & -> & L11 & P11). cbn [bind].
  destruct (revm_ok t11 ipsi iphi L11 Cipsi Ciphi Eisq) as (t12 & -> & L12 & P12). cbn [bind].
  eexists. split; [reflexivity|]. constructor; cbn; try (split; assumption); try assumption; reflexivity.
Qed.

Let C3 : can 8193.
Proof. unfold can. lia. Qed.

Let prt a : zlen a = n -> all_in 0 (Q - 1) a ->
  exists r, print_table_red a n 12289 = Ok r /\ zlen r = n /\ all_in (-6144) 6144 r
    /\ (forall i, 0 <= i < n -> eqQ (at_ r i) (at_ a i)) := print_table_red_ok a n Hn.

Let table_prt f a r : (forall i, 0 <= i < n -> eqQ (at_ r i) (at_ a i)) -> zlen r = n ->
  table_at k a f -> table_at k r f.
Proof.
  intros H HL [H1 H2]. split; [exact HL|]. intros l j Hl Hj. rewrite H; [apply H2; auto|].
  unfold n. assert (0 < 2 ^ l) by (apply pow2_pos; lia).
  assert (2 ^ (l + 1) <= 2 ^ k) by (apply Z.pow_le_mono_r; lia). rewrite pow2_succ in * by lia. lia.
Qed.


Let rpow_ok a x y : zlen a = n -> can x -> can y ->
  exists r p, build_power_table a n 12289 x y = Ok r /\ print_table_red r n 12289 = Ok p /\ zlen r = n /\
    (power_table n x y p /\ all_in (-6144) 6144 p).
Proof.
  intros HL Hx Hy. destruct (build_power_table_ok a n x y Hn HL Hx Hy) as (r & E & H1 & H2).
  destruct (prt r (proj1 H1) H2) as (p & Ep & Lp & Bp & Hp).
  exists r, p. split; [exact E|]. split; [exact Ep|]. split; [apply H1|]. split; [|exact Bp].
  split; [exact Lp|]. intros i Hi. rewrite Hp by exact Hi. apply H1, Hi.
Qed.
Let rstd1_ok a y : zlen a = n -> can y ->
  exists r p, build_table_k a n 12289 1 y 8193 = Ok r /\ print_table_red r n 12289 = Ok p /\ zlen r = n /\
    (omega_table k y 8193 p /\ all_in (-6144) 6144 p).
Proof.
  intros HL Hy. destruct (build_table_k_ok k 1 y 8193 Hk30 C1 Hy C3 a HL) as (r & E & H1 & H2).
  destruct (prt r (proj1 H1) H2) as (p & Ep & Lp & Bp & Hp).
  exists r, p. split; [exact E|]. split; [exact Ep|]. split; [apply H1|]. split; [|exact Bp].
  eapply table_ext; [|exact (table_prt _ r p Hp Lp H1)]. intros l j Hl Hj. apply one_form; lia.
Qed.
Let rrev1_ok a y : zlen a = n -> can y ->
  exists r p, build_rev_table_k a n 12289 1 y 8193 = Ok r /\ print_table_red r n 12289 = Ok p /\ zlen r = n /\
    (omega_table_rev k y 8193 p /\ all_in (-6144) 6144 p).
Proof.
  intros HL Hy. destruct (build_rev_table_k_ok k 1 y 8193 Hk30 C1 Hy C3 a HL) as (r & E & H1 & H2).
  destruct (prt r (proj1 H1) H2) as (p & Ep & Lp & Bp & Hp).
  exists r, p. split; [exact E|]. split; [exact Ep|]. split; [apply H1|]. split; [|exact Bp].
  eapply table_ext; [|exact (table_prt _ r p Hp Lp H1)]. intros l j Hl Hj. apply one_form; lia.
Qed.
Let rstdm_ok a x y : zlen a = n -> can x -> can y -> eqQ y (x ^ 2) ->
  exists r p, build_table_k a n 12289 x y 8193 = Ok r /\ print_table_red r n 12289 = Ok p /\ zlen r = n /\
    (mixed_table k x 8193 p /\ all_in (-6144) 6144 p).
Proof.
  intros HL Hx Hy Hxy. destruct (build_table_k_ok k x y 8193 Hk30 Hx Hy C3 a HL) as (r & E & H1 & H2).
  destruct (prt r (proj1 H1) H2) as (p & Ep & Lp & Bp & Hp).
  exists r, p. split; [exact E|]. split; [exact Ep|]. split; [apply H1|]. split; [|exact Bp].
  eapply table_ext; [|exact (table_prt _ r p Hp Lp H1)]. intros l j Hl Hj. apply mixed_form; auto.
Qed.
Let rrevm_ok a x y : zlen a = n -> can x -> can y -> eqQ y (x ^ 2) ->
  exists r p, build_rev_table_k a n 12289 x y 8193 = Ok r /\ print_table_red r n 12289 = Ok p /\ zlen r = n /\
    (mixed_table_rev k x 8193 p /\ all_in (-6144) 6144 p).
Proof.
  intros HL Hx Hy Hxy. destruct (build_rev_table_k_ok k x y 8193 Hk30 Hx Hy C3 a HL) as (r & E & H1 & H2).
  destruct (prt r (proj1 H1) H2) as (p & Ep & Lp & Bp & Hp).
  exists r, p. split; [exact E|]. split; [exact Ep|]. split; [apply H1|]. split; [|exact Bp].
  eapply table_ext; [|exact (table_prt _ r p Hp Lp H1)]. intros l j Hl Hj. apply mixed_form; auto.
Qed.

Let rescale m v : can v -> eqQ (3 ^ m * v) 1 -> 
  (exists s, (do s <- Ok v; urem (u32 (s * inv_n)) 12289) = Ok s /\ eqQ (3 ^ m * 2 ^ k * s) 1 /\ 0 <= s < Q).
Proof.
  intros Cv Ev. cbn [bind]. destruct (mulmod_Q v inv_n Cv Cin) as (s & E & Es & Cs).
  exists s. split; [exact E|]. split; [|exact Cs]. rewrite Es.
  transitivity ((3 ^ m * v) * (2 ^ k * inv_n)); [qring|]. rewrite Ev, Ein. reflexivity.
Qed.

Let rescale8_ok : exists s, rescale_factor8 inv_n 8193 12289 = Ok s /\ eqQ (3 ^ 8 * 2 ^ k * s) 1 /\ 0 <= s < Q.
Proof.
  unfold rescale_factor8. rewrite power_ok by lia. apply rescale; [apply can_mod|]. vm_compute. reflexivity.
Qed.
Let rescale6_ok : exists s, rescale_factor6 inv_n 8193 12289 = Ok s /\ eqQ (3 ^ 6 * 2 ^ k * s) 1 /\ 0 <= s < Q.
Proof.
  unfold rescale_factor6. rewrite power_ok by lia. apply rescale; [apply can_mod|]. vm_compute. reflexivity.
Qed.

Lemma print_red_tables_ok malloc : zlen (malloc n) = n ->
  exists T, print_red_tables malloc 12289 n psi phi ipsi iphi inv_n 8193 = Ok T /\ red_tables_ok k psi T.
Proof.
  intros HL. unfold print_red_tables.
  destruct rescale8_ok as (s8 & E8 & R8). destruct rescale6_ok as (s6 & E6 & R6).
  rewrite E8, E6. cbn [bind].
  destruct (rpow_ok (malloc n) 8193 psi HL C3 Hpsi) as (t1 & p1 & -> & M & L1 & P1).
    cbn [bind]. rewrite M. clear M. cbn [bind].
  destruct (rrev1_ok t1 psi L1 Hpsi) as (t2 & p2 & -> & M & L2 & P2).
    cbn [bind]. rewrite M. clear M. cbn [bind].
  destruct (rpow_ok t2 8193 ipsi L2 C3 Cipsi) as (t3 & p3 & -> & M & L3 & P3).
    cbn [bind]. rewrite M. clear M. cbn [bind].
  destruct (rpow_ok t3 s8 ipsi L3 (proj2 R8) Cipsi) as (t4 & p4 & -> & M & L4 & P4).
    cbn [bind]. rewrite M. clear M. cbn [bind].
  destruct (rpow_ok t4 s6 ipsi L4 (proj2 R6) Cipsi) as (t5 & p5 & -> & M & L5 & P5).
    cbn [bind]. rewrite M. clear M. cbn [bind].
  destruct (rstd1_ok t5 phi L5 Cphi) as (t6 & p6 & -> & M & L6 & P6).
    cbn [bind]. rewrite M. clear M. cbn [bind].
  destruct (rrev1_ok t6 phi L6 Cphi) as (t7 & p7 & -> & M & L7 & P7).
    cbn [bind]. rewrite M. clear M. cbn [bind].
  destruct (rstd1_ok t7 iphi L7 Ciphi) as (t8 & p8 & -> & M & L8 & P8).
    cbn [bind]. rewrite M. clear M. cbn [bind].
  destruct (rrev1_ok t8 iphi L8 Ciphi) as (t9 & p9 & -> & M & L9 & P9).
    cbn [bind]. rewrite M. clear M. cbn [bind].
  destruct (rstdm_ok t9 psi phi L9 Hpsi Cphi Ephi) as (t10 & p10 & -> & M & L10 & P10).
    cbn [bind]. rewrite M. clear M. cbn [bind].
  destruct (rrevm_ok t10 psi phi L10 Hpsi Cphi Ephi) as (t11 & p11 & -> & M & L11 & P11).
    cbn [bind]. rewrite M. clear M. cbn [bind].
  destruct (rstdm_ok t11 ipsi iphi L11 Cipsi Ciphi Eisq) as (t12 & p12 & -> & M & L12 & P12).
    cbn [bind]. rewrite M. clear M. cbn [bind].
  destruct (rrevm_ok t12 ipsi iphi L12 Cipsi Ciphi Eisq) as (t13 & p13 & -> & M & L13 & P13).
    cbn [bind]. rewrite M. clear M. cbn [bind].
  eexists. split; [reflexivity|]. constructor; cbn [r_psi r_omega r_inv_psi r_inv_omega r_inv_n r_inv_k rescale8 rescale6
    red_psi_powers red_psi_powers_rev red_inv_psi_powers red_scaled_inv_psi_powers red_scaled_inv_psi_powers_var
    red_omega_powers red_omega_powers_rev red_inv_omega_powers red_inv_omega_powers_rev red_mixed_powers
    red_mixed_powers_rev red_inv_mixed_powers red_inv_mixed_powers_rev];
    first [assumption|split; assumption|reflexivity].
Qed.
End Main.

(** ** The acceptance tests of main *)

Definition acceptable (size psi : Z) : Prop :=
  exists k, 1 <= k /\ size = 2 ^ k /\ 1 < psi < Q /\ eqQ (psi ^ size) (-1).

Lemma inverse_Q x : 0 <= x <= 100000 -> Z.gcd x Q = 1 ->
  exists i, inverse x 12289 = Ok (Some i) /\ can i /\ eqQ (x * i) 1.
Proof.
  intros Hx Hg. destruct (inverse_ok x 12289) as [(_ & i & E & Hi & H)|[H _]]; [lia|lia|lia| |].
  - exists i. split; [exact E|]. split; [exact Hi|]. exact H.
  - unfold Q in Hg. contradiction.
Qed.

Lemma mod_m1 z : z mod 12289 = 12288 <-> eqQ z (-1).
Proof. unfold eqQ. change (-1 mod Q) with 12288. reflexivity. Qed.

Lemma inverse_3 : inverse 3 12289 = Ok (Some 8193).
Proof. vm_compute. reflexivity. Qed.
(** make_red_tables after the computation of [k]. *)
Definition after_k (malloc : Z -> list Z) (k size psi : Z) : res (outcome red_tables) :=
  let q := 12289 in
  if (k =? 0) || (q <=? k) then Ok (Exit BadK) else
  if size <=? 1 then Ok (Exit SizeTooSmall) else
  if 100000 <=? size then Ok (Exit SizeTooLarge) else
  let n := size in
  do lg <- logtwo n;
  match lg with None => Ok (Exit NotPowerOfTwo) | Some _ =>
  if (psi <=? 1) || (q <=? psi) then Ok (Exit BadPsi) else
  do i <- power psi n q;
  if negb (i =? u32 (q - 1)) then Ok (Exit NotRoot) else
  do phi <- urem (u32 (psi * psi)) q;
  do pr <- is_primitive_root phi n q;
  do _ <- cassert pr;
  do r <- inverse psi q;
  match r with None => Ok (Exit BugInverse) | Some inv_psi =>
  do r <- inverse k q;
  match r with None => Ok (Exit BugInverse) | Some inv_k =>
  do r <- inverse phi q;
  match r with None => Ok (Exit BugInverse) | Some inv_phi =>
  do r <- inverse n q;
  match r with None => Ok (Exit BugInverse) | Some inv_n =>
  do t <- print_red_tables malloc q n psi phi inv_psi inv_phi inv_n inv_k;
  Ok (Written t)
  end end end end end.
Lemma after_k_eq malloc size psi : make_red_tables malloc size psi = after_k malloc 3 size psi.
Proof. unfold make_red_tables. rewrite find_k_ok. reflexivity. Qed.

Lemma k_check : (3 =? 0) || (12289 <=? 3) = false.
Proof. reflexivity. Qed.
Lemma root_check : negb (12288 =? u32 (12289 - 1)) = false.
Proof. reflexivity. Qed.

Section Accepted.
Variables (k psi : Z).
Hypothesis Hk1 : 1 <= k.
Hypothesis Hpsi : 1 < psi < Q.
Hypothesis Hroot : eqQ (psi ^ (2 ^ k)) (-1).

Lemma accepted_k : k <= 11.
Proof. apply (root_bound k psi); [lia|exact Hroot]. Qed.

Lemma accepted_phi : exists phi, urem (u32 (psi * psi)) 12289 = Ok phi /\ can phi /\ eqQ phi (psi ^ 2)
  /\ is_primitive_root phi (2 ^ k) 12289 = Ok true
  /\ Z.gcd phi Q = 1.
Proof.
  assert (HK := accepted_k). change Q with 12289 in Hpsi.
  destruct (mulmod_Q psi psi) as (phi & E & Ep & Cp); [unfold can; lia|unfold can; lia|].
  rewrite <- Z.pow_2_r in Ep. exists phi. split; [exact E|]. split; [exact Cp|]. split; [exact Ep|].
  assert (H2 : 0 < 2 ^ (k - 1)) by (apply pow2_pos; lia).
  assert (H2k : 2 ^ k = 2 * 2 ^ (k - 1)) by (rewrite <- pow2_succ by lia; f_equal; lia).
  assert (Hhalf : eqQ (phi ^ 2 ^ (k - 1)) (-1)).
  { rewrite Ep. rewrite <- Z.pow_mul_r by lia. rewrite <- H2k. exact Hroot. }
  split.
  - assert (HB : 2 ^ k <= 2 ^ 11) by (apply Z.pow_le_mono_r; lia). change (2 ^ 11) with 2048 in HB.
    destruct (is_primitive_root_ok phi (2 ^ k) 12289) as (b & Eb & Hb); [lia|exact Cp|lia|].
    rewrite Eb. f_equal. apply Hb. split.
    + assert (H : eqQ (phi ^ (2 ^ k)) 1).
      { rewrite H2k, Z.mul_comm, Z.pow_mul_r by lia. rewrite Hhalf. reflexivity. }
      exact H.
    + intros i Hi H. apply (primitive k phi i); [lia|exact Hhalf|exact Hi|exact H].
  - apply (root_gcd (k - 1)); [lia|exact Hhalf].
Qed.

Variable malloc : Z -> list Z.
Hypothesis Hmalloc : forall n, 0 <= n -> zlen (malloc n) = n.

Let size_pos : 2 <= 2 ^ k <= 2048.
Proof.
  assert (HK := accepted_k). split.
  - change 2 with (2 ^ 1) at 1. apply Z.pow_le_mono_r; lia.
  - change 2048 with (2 ^ 11). apply Z.pow_le_mono_r; lia.
Qed.

Let power_psi : power psi (2 ^ k) 12289 = Ok 12288.
Proof.
  assert (H := size_pos). change Q with 12289 in Hpsi. rewrite power_ok by lia. f_equal.
  apply mod_m1. exact Hroot.
Qed.

Let log_some : exists j, logtwo (2 ^ k) = Ok (Some j).
Proof.
  assert (H := size_pos). destruct (logtwo_ok (2 ^ k)) as [(j & _ & _ & E)|[HH _]]; [lia|eauto|].
  exfalso. apply (HH k); [lia|reflexivity].
Qed.

Lemma make_tables_accepts : exists T, make_tables malloc (2 ^ k) psi = Ok (Written T) /\ tables_ok k psi T.
Proof.
  assert (H := size_pos). assert (HK := accepted_k). change Q with 12289 in Hpsi.
  unfold make_tables.
  replace (2 ^ k <=? 1) with false by lia. replace (100000 <=? 2 ^ k) with false by lia. cbv zeta.
  destruct log_some as [j ->]. cbn [bind].
  replace ((psi <=? 1) || (12289 <=? psi)) with false by lia.
  rewrite power_psi. cbn [bind]. rewrite root_check.
  destruct accepted_phi as (phi & -> & Cphi & Ephi & EP & Gphi). cbn [bind]. rewrite EP. cbn [bind cassert].
  destruct (inverse_Q psi) as (ipsi & -> & Cip & Eip); [lia|apply (root_gcd k); [lia|exact Hroot]|]. cbn [bind].
  destruct (inverse_Q phi) as (iphi & -> & Cif & Eif); [unfold can in Cphi; lia|exact Gphi|]. cbn [bind].
  destruct (inverse_Q (2 ^ k)) as (inv & -> & Cin & Ein); [lia|apply pow2_gcd; lia|]. cbn [bind].
  destruct (print_tables_ok k psi ltac:(lia) ltac:(unfold can; lia) phi ipsi iphi inv Cphi Cip Cif Cin Ephi Eip Eif Ein malloc)
    as (T & -> & HT); [apply Hmalloc; lia|].
  cbn [bind]. exists T. auto.
Qed.

Lemma make_red_tables_accepts :
  exists T, make_red_tables malloc (2 ^ k) psi = Ok (Written T) /\ red_tables_ok k psi T.
Proof.
  assert (H := size_pos). assert (HK := accepted_k). change Q with 12289 in Hpsi.
  rewrite after_k_eq. assert (I3 := inverse_3). assert (K3 := k_check). revert I3 K3.
  generalize 3. intros k3 I3 K3. unfold after_k. rewrite K3.
  replace (2 ^ k <=? 1) with false by lia. replace (100000 <=? 2 ^ k) with false by lia. cbv zeta.
  destruct log_some as [j ->]. cbn [bind].
  replace ((psi <=? 1) || (12289 <=? psi)) with false by lia.
  rewrite power_psi. cbn [bind]. rewrite root_check.
  destruct accepted_phi as (phi & -> & Cphi & Ephi & EP & Gphi). cbn [bind]. rewrite EP. cbn [bind cassert].
  destruct (inverse_Q psi) as (ipsi & -> & Cip & Eip); [lia|apply (root_gcd k); [lia|exact Hroot]|]. cbn [bind].
  rewrite I3. cbn [bind].
  destruct (inverse_Q phi) as (iphi & -> & Cif & Eif); [unfold can in Cphi; lia|exact Gphi|]. cbn [bind].
  destruct (inverse_Q (2 ^ k)) as (inv & -> & Cin & Ein); [lia|apply pow2_gcd; lia|]. cbn [bind].
  destruct (print_red_tables_ok k psi ltac:(lia) ltac:(unfold can; lia) phi ipsi iphi inv Cphi Cip Cif Cin Ephi Eip Eif Ein malloc)
    as (T & -> & HT); [apply Hmalloc; lia|].
  cbn [bind]. exists T. auto.
Qed.
End Accepted.

Section Decide.
Variable malloc : Z -> list Z.
Hypothesis Hmalloc : forall n, 0 <= n -> zlen (malloc n) = n.
Variables (size psi : Z).

Lemma make_tables_cases :
  (exists k T, 1 <= k <= 11 /\ size = 2 ^ k /\ 1 < psi < Q /\ eqQ (psi ^ size) (-1)
     /\ make_tables malloc size psi = Ok (Written T) /\ tables_ok k psi T)
  \/ (~ acceptable size psi /\ exists why, make_tables malloc size psi = Ok (Exit why) /\ why <> BugInverse).
Proof.
  unfold make_tables.
  destruct (Z.leb_spec size 1) as [H1|H1].
  { right. split; [|eexists; split; [reflexivity|discriminate]]. intros (k & Hk & -> & _).
    assert (2 ^ 1 <= 2 ^ k) by (apply Z.pow_le_mono_r; lia). change (2 ^ 1) with 2 in *. lia. }
  destruct (Z.leb_spec 100000 size) as [H2|H2].
  { right. split; [|eexists; split; [reflexivity|discriminate]]. intros (k & Hk & -> & Hp & Hr). assert (HK := accepted_k k psi Hk Hr).
    assert (2 ^ k <= 2 ^ 11) by (apply Z.pow_le_mono_r; lia). change (2 ^ 11) with 2048 in *. lia. }
  cbv zeta. destruct (logtwo_ok size) as [(k & Hk & -> & E)|[HH E]]; [lia| |]; rewrite E; cbn [bind].
  2: { right. split; [|eexists; split; [reflexivity|discriminate]]. intros (k & Hk & -> & _). apply (HH k); [lia|reflexivity]. }
  assert (Hk1 : 1 <= k).
  { destruct (Z.eq_dec k 0) as [->|]; [cbn in H1; lia|lia]. }
  destruct ((psi <=? 1) || (12289 <=? psi)) eqn:Ep.
  { right. split; [|eexists; split; [reflexivity|discriminate]]. intros (k' & _ & _ & Hp & _). unfold Q in Hp. lia. }
  rewrite power_ok by lia. cbn [bind].
  change (u32 (12289 - 1)) with 12288. destruct (Z.eqb_spec (psi ^ 2 ^ k mod 12289) 12288) as [Er|Er].
  - left. apply mod_m1 in Er. assert (Hp : 1 < psi < Q) by (unfold Q; lia).
    assert (HK := accepted_k k psi Hk1 Er).
    destruct (make_tables_accepts k psi Hk1 Hp Er malloc Hmalloc) as (T & ET & HT).
    exists k, T. do 4 (split; [auto|]). split; [|exact HT]. rewrite <- ET. unfold make_tables.
    replace (2 ^ k <=? 1) with false by lia. replace (100000 <=? 2 ^ k) with false by lia. cbv zeta.
    rewrite E. cbn [bind]. rewrite Ep. rewrite power_ok by lia. cbn [bind].
    change (u32 (12289 - 1)) with 12288. rewrite (proj2 (mod_m1 _) Er). reflexivity.
  - right. cbn [negb]. split; [|eexists; split; [reflexivity|discriminate]]. intros (k' & _ & Ek & _ & Hr). apply Er, mod_m1. exact Hr.
Qed.

Lemma make_red_tables_cases :
  (exists k T, 1 <= k <= 11 /\ size = 2 ^ k /\ 1 < psi < Q /\ eqQ (psi ^ size) (-1)
     /\ make_red_tables malloc size psi = Ok (Written T) /\ red_tables_ok k psi T)
  \/ (~ acceptable size psi /\ exists why, make_red_tables malloc size psi = Ok (Exit why) /\ why <> BugInverse /\ why <> BadK).
Proof.
  rewrite after_k_eq. assert (K3 := k_check). assert (AE := after_k_eq malloc size psi). revert K3 AE.
  generalize 3. intros k3 K3 AE. unfold after_k. rewrite K3.
  destruct (Z.leb_spec size 1) as [H1|H1].
  { right. split; [|eexists; split; [reflexivity|split; discriminate]]. intros (k & Hk & -> & _).
    assert (2 ^ 1 <= 2 ^ k) by (apply Z.pow_le_mono_r; lia). change (2 ^ 1) with 2 in *. lia. }
  destruct (Z.leb_spec 100000 size) as [H2|H2].
  { right. split; [|eexists; split; [reflexivity|split; discriminate]]. intros (k & Hk & -> & Hp & Hr). assert (HK := accepted_k k psi Hk Hr).
    assert (2 ^ k <= 2 ^ 11) by (apply Z.pow_le_mono_r; lia). change (2 ^ 11) with 2048 in *. lia. }
  cbv zeta. destruct (logtwo_ok size) as [(k & Hk & -> & E)|[HH E]]; [lia| |]; rewrite E; cbn [bind].
  2: { right. split; [|eexists; split; [reflexivity|split; discriminate]]. intros (k & Hk & -> & _). apply (HH k); [lia|reflexivity]. }
  assert (Hk1 : 1 <= k).
  { destruct (Z.eq_dec k 0) as [->|]; [cbn in H1; lia|lia]. }
  destruct ((psi <=? 1) || (12289 <=? psi)) eqn:Ep.
  { right. split; [|eexists; split; [reflexivity|split; discriminate]]. intros (k' & _ & _ & Hp & _). unfold Q in Hp. lia. }
  rewrite power_ok by lia. cbn [bind].
  change (u32 (12289 - 1)) with 12288. destruct (Z.eqb_spec (psi ^ 2 ^ k mod 12289) 12288) as [Er|Er].
  - left. apply mod_m1 in Er. assert (Hp : 1 < psi < Q) by (unfold Q; lia).
    assert (HK := accepted_k k psi Hk1 Er).
    destruct (make_red_tables_accepts k psi Hk1 Hp Er malloc Hmalloc) as (T & ET & HT).
    exists k, T. do 4 (split; [auto|]). split; [|exact HT]. rewrite <- ET, AE. unfold after_k. rewrite K3.
    replace (2 ^ k <=? 1) with false by lia. replace (100000 <=? 2 ^ k) with false by lia. cbv zeta.
    rewrite E. cbn [bind]. rewrite Ep. rewrite power_ok by lia. cbn [bind].
    change (u32 (12289 - 1)) with 12288. rewrite (proj2 (mod_m1 _) Er). reflexivity.
  - right. cbn [negb]. split; [|eexists; split; [reflexivity|split; discriminate]]. intros (k' & _ & Ek & _ & Hr). apply Er, mod_m1. exact Hr.
Qed.
End Decide.
