(** The table-building loops of the generators. *)

From Coq Require Import ZArith List Bool Lia Setoid Morphisms.
From Verif Require Import CSem Spec Loops ModQ NttElem TableSpec ModelGen GenElem.
Import ListNotations.
Open Scope Z_scope.

Lemma power_Q x e : can x -> 0 <= e < 4294967296 ->
  exists v, power x e 12289 = Ok v /\ eqQ v (x ^ e) /\ can v.
Proof.
  intros Hx He. exists (x ^ e mod 12289). split.
  - apply power_ok; [lia|exact Hx|exact He].
  - split; [apply eqQ_modn|apply can_mod].
Qed.

Lemma mulmod_Q x y : can x -> can y ->
  exists v, urem (u32 (x * y)) 12289 = Ok v /\ eqQ v (x * y) /\ can v.
Proof.
  intros Hx Hy. exists ((x * y) mod 12289). split.
  - apply mulmod_ok; [exact Hx|exact Hy|lia].
  - split; [apply eqQ_modn|apply can_mod].
Qed.

Lemma build_power_table_ok a n x y : 0 <= n < 4294967296 -> zlen a = n -> can x -> can y ->
  exists r, build_power_table a n 12289 x y = Ok r /\ power_table n x y r /\ all_in 0 (Q - 1) r.
Proof.
  intros Hn HL Hx Hy. unfold build_power_table.
  destruct (cfor_count (fun c '(z, b) => can z /\ eqQ z (x * y ^ c) /\ zlen b = n
      /\ (forall i, 0 <= i < c -> eqQ (at_ b i) (x * y ^ i) /\ can (at_ b i)))
    n (fun c => c) (fun i => i <? n) (fun i => u32 (i + 1))
    (fun i '(x, a) =>
    do a <- wr a i x;
    do x <- urem (u32 (x * y)) 12289;
    Ok (x, a))) with (f := fuel n) (i0 := 0) (st := (x, a)) as ([z b] & E & H1 & H2 & H3 & H4).
  - lia.
  - intros. lia.
  - lia.
  - intros. apply u32_small. lia.
  - intros c [z b] Hc (H1 & H2 & H3 & H4). rewrite wr_ok by lia. cbn [bind].
    destruct (mulmod_Q z y H1 Hy) as (v & -> & Ev & Cv). cbn [bind]. eexists. split; [reflexivity|].
    split; [exact Cv|]. split.
    + rewrite Ev, H2. rewrite Z.pow_add_r by lia. qring.
    + rewrite aset_len. split; [exact H3|]. intros i Hi. destruct (Z.eq_dec i c) as [->|Hne].
      * rewrite at_aset_same by lia. auto.
      * rewrite at_aset_other by lia. apply H4. lia.
  - reflexivity.
  - unfold fuel. lia.
  - split; [exact Hx|]. split; [rewrite Z.pow_0_r, Z.mul_1_r; reflexivity|]. split; [exact HL|]. intros; lia.
  - rewrite E. cbn [bind]. exists b. split; [reflexivity|]. split.
    + split; [exact H3|]. intros i Hi. apply H4, Hi.
    + apply all_in_of. intros i Hi. assert (H := proj2 (H4 i ltac:(lia))). unfold can, Q in *. lia.
Qed.

(** One row: entries [t .. 2t-1]. *)
Lemma fill_row_ok n t b c a : 0 < t -> 2 * t <= n -> n < 2147483648 -> zlen a = n -> can b -> can c ->
  exists b' r, fill_row n 12289 t c (t, b, a) = Ok (2 * t, b', r) /\ zlen r = n
    /\ (forall j, 0 <= j < t -> eqQ (at_ r (t + j)) (b * c ^ j) /\ can (at_ r (t + j)))
    /\ (forall i, 0 <= i < n -> ~ (t <= i < 2 * t) -> at_ r i = at_ a i).
Proof.
  intros Ht Htn Hn HL Hb Hc. unfold fill_row.
  destruct (cfor_count (fun m '(i, z, r) => i = t + m /\ can z /\ eqQ z (b * c ^ m) /\ zlen r = n
      /\ (forall j, 0 <= j < m -> eqQ (at_ r (t + j)) (b * c ^ j) /\ can (at_ r (t + j)))
      /\ (forall i, 0 <= i < n -> ~ (t <= i < t + m) -> at_ r i = at_ a i))
    t (fun c => c) (fun j => j <? t) (fun j => u32 (j + 1))
    (fun j '(i, b, a) =>
    do _ <- cassert ((i =? u32 (t + j)) && (i <? n));
    do a <- wr a i b;
    do b <- urem (u32 (b * c)) 12289;
    Ok (u32 (i + 1), b, a))) with (f := fuel n) (i0 := 0) (st := (t, b, a))
    as ([[i z] r] & E & H1 & H2 & H3 & H4 & H5 & H6).
  - lia.
  - intros. lia.
  - lia.
  - intros. apply u32_small. lia.
  - intros m [[i z] r] Hm (H1 & H2 & H3 & H4 & H5 & H6). subst i.
    rewrite u32_small by lia. replace ((t + m =? t + m) && (t + m <? n)) with true by lia.
    cbn [cassert bind]. rewrite wr_ok by lia. cbn [bind].
    destruct (mulmod_Q z c H2 Hc) as (v & -> & Ev & Cv). cbn [bind]. eexists. split; [reflexivity|].
    cbv beta iota. rewrite u32_small by lia. split; [lia|]. split; [exact Cv|]. split.
    + rewrite Ev, H3. rewrite Z.pow_add_r by lia. qring.
    + rewrite aset_len. split; [exact H4|]. split.
      * intros j Hj. destruct (Z.eq_dec j m) as [->|Hne].
        -- rewrite at_aset_same by lia. auto.
        -- rewrite at_aset_other by lia. apply H5. lia.
      * intros i Hi Hni. rewrite at_aset_other by lia. apply H6; lia.
  - reflexivity.
  - unfold fuel. lia.
  - split; [lia|]. split; [exact Hb|]. split; [rewrite Z.pow_0_r, Z.mul_1_r; reflexivity|].
    split; [exact HL|]. split; [intros; lia|reflexivity].
  - subst i. exists z, r. split; [rewrite E; do 3 f_equal; lia|]. split; [exact H4|]. split; [exact H5|].
    intros i Hi Hni. apply H6; lia.
Qed.

Lemma fill_row_rev_ok n l b c a : 0 <= l <= 30 -> 2 * 2 ^ l <= n -> n < 2147483648 -> zlen a = n ->
  can b -> can c ->
  exists b' r, fill_row_rev n 12289 (2 ^ l) l c (b, a) = Ok (b', r) /\ zlen r = n
    /\ (forall j, 0 <= j < 2 ^ l -> eqQ (at_ r (2 ^ l + j)) (b * c ^ bitrev l j) /\ can (at_ r (2 ^ l + j)))
    /\ (forall i, 0 <= i < n -> ~ (2 ^ l <= i < 2 * 2 ^ l) -> at_ r i = at_ a i).
Proof.
  intros Hl Htn Hn HL Hb Hc. assert (Ht : 0 < 2 ^ l) by (apply pow2_pos; lia).
  unfold fill_row_rev. set (t := 2 ^ l) in *.
  destruct (cfor_count (fun m '(z, r) => can z /\ eqQ z (b * c ^ m) /\ zlen r = n
      /\ (forall j, 0 <= j < m -> eqQ (at_ r (t + bitrev l j)) (b * c ^ j) /\ can (at_ r (t + bitrev l j)))
      /\ (forall i, 0 <= i < n -> ~ (t <= i < 2 * t) -> at_ r i = at_ a i))
    t (fun c => c) (fun j => j <? t) (fun j => u32 (j + 1))
    (fun j '(b, a) =>
    do r <- reverse j l;
    let i := u32 (t + r) in
    do _ <- cassert ((t <=? i) && (i <? u32 (2 * t)));
    do a <- wr a i b;
    do b <- urem (u32 (b * c)) 12289;
    Ok (b, a))) with (f := fuel n) (i0 := 0) (st := (b, a))
    as ([z r] & E & H2 & H3 & H4 & H5 & H6).
  - lia.
  - intros. lia.
  - lia.
  - intros. apply u32_small. lia.
  - intros m [z r] Hm (H2 & H3 & H4 & H5 & H6).
    rewrite reverse_ok by lia. cbn [bind].
    assert (HR := bitrev_range l m ltac:(lia)). fold t in HR.
    rewrite !u32_small by lia. cbv zeta.
    replace ((t <=? t + bitrev l m) && (t + bitrev l m <? 2 * t)) with true by lia.
    cbn [cassert bind]. rewrite wr_ok by lia. cbn [bind].
    destruct (mulmod_Q z c H2 Hc) as (v & -> & Ev & Cv). cbn [bind]. eexists. split; [reflexivity|].
    cbv beta iota. split; [exact Cv|]. split.
    + rewrite Ev, H3. rewrite Z.pow_add_r by lia. qring.
    + rewrite aset_len. split; [exact H4|]. split.
      * intros j Hj. assert (HRj := bitrev_range l j ltac:(lia)). fold t in HRj.
        destruct (Z.eq_dec j m) as [->|Hne].
        -- rewrite at_aset_same by lia. auto.
        -- rewrite at_aset_other; [apply H5; lia|lia|lia|].
           intros EE. apply Hne. apply (bitrev_inj l); [lia|fold t; lia|fold t; lia|lia].
      * intros i Hi Hni. rewrite at_aset_other by lia. apply H6; lia.
  - reflexivity.
  - unfold fuel. lia.
  - split; [exact Hb|]. split; [rewrite Z.pow_0_r, Z.mul_1_r; reflexivity|].
    split; [exact HL|]. split; [intros; lia|reflexivity].
  - exists z, r. split; [exact E|]. split; [exact H4|]. split; [|exact H6].
    intros j Hj. assert (HR := bitrev_range l j ltac:(lia)). fold t in HR.
    specialize (H5 (bitrev l j) HR). rewrite bitrev_invol in H5 by (fold t; lia). exact H5.
Qed.

(** ** The outer loops *)

Section Outer.
Variables (k : Z) (B C : Z -> Z).
Hypothesis Hk : 0 <= k <= 30.
Let n := 2 ^ k.
Hypothesis HB : forall l, 0 <= l < k -> can (B l).
Hypothesis HC : forall l, 0 <= l < k -> can (C l).

Let Hn31 : n < 2147483648.
Proof.
  unfold n. assert (2 ^ k <= 2 ^ 30) by (apply Z.pow_le_mono_r; lia).
  change (2 ^ 30) with 1073741824 in *. lia.
Qed.
Let Hrow l : 0 <= l < k -> 0 < 2 ^ l /\ 2 * 2 ^ l <= n.
Proof.
  intros Hl. split; [apply pow2_pos; lia|]. unfold n. rewrite <- pow2_succ by lia.
  apply Z.pow_le_mono_r; lia.
Qed.
Let k_fuel : (Z.to_nat k < fuel n)%nat.
Proof. unfold fuel, n. assert (k < 2 ^ k) by (apply Z.pow_gt_lin_r; lia). lia. Qed.
Let next l : 0 <= l < k -> u32 (Z.shiftl (2 ^ l) 1) = 2 ^ (l + 1).
Proof.
  intros Hl. rewrite Z.shiftl_mul_pow2 by lia. change (2 ^ 1) with 2. destruct (Hrow l Hl).
  rewrite u32_small by lia. rewrite pow2_succ by lia. ring.
Qed.
Let lt_n l : 0 <= l < k -> (2 ^ l <? n) = true.
Proof. intros Hl. destruct (Hrow l Hl). lia. Qed.

(** State after the rows of levels below [l]. *)
Definition rows (g : Z -> Z -> Z) (l : Z) (r : list Z) : Prop :=
  zlen r = n /\ at_ r 0 = 0 /\
  forall l' j, 0 <= l' < l -> 0 <= j < 2 ^ l' ->
    eqQ (at_ r (2 ^ l' + j)) (B l' * C l' ^ g l' j) /\ can (at_ r (2 ^ l' + j)).

Let pow_lt l l' : 0 <= l' < l -> 2 * 2 ^ l' <= 2 ^ l.
Proof. intros H. rewrite <- pow2_succ by lia. apply Z.pow_le_mono_r; lia. Qed.

Lemma rows_step g l r r' : 0 <= l < k -> rows g l r -> zlen r' = n ->
  (forall j, 0 <= j < 2 ^ l -> eqQ (at_ r' (2 ^ l + j)) (B l * C l ^ g l j) /\ can (at_ r' (2 ^ l + j))) ->
  (forall i, 0 <= i < n -> ~ (2 ^ l <= i < 2 * 2 ^ l) -> at_ r' i = at_ r i) ->
  rows g (l + 1) r'.
Proof.
  intros Hl (R1 & R2 & R3) HL Hnew Hold. destruct (Hrow l Hl). split; [exact HL|]. split.
  - rewrite Hold; [exact R2|clear - H H0; lia|clear - H; lia].
  - intros l' j Hl' Hj. destruct (Z.eq_dec l' l) as [->|Hne]; [apply Hnew, Hj|].
    assert (HP := pow_lt l l' ltac:(lia)). assert (0 < 2 ^ l') by (apply pow2_pos; lia).
    rewrite Hold; [apply R3; [clear - Hl' Hne; lia|exact Hj]|clear - HP Hj H0 H1 H; lia|clear - HP Hj; lia].
Qed.

Lemma rows_done g r : rows g k r ->
  table_at k r (fun l j => B l * C l ^ g l j) /\ all_in 0 (Q - 1) r.
Proof.
  intros (R1 & R2 & R3). split.
  - split; [exact R1|]. intros l j Hl Hj. apply R3; lia.
  - apply all_in_of. intros i Hi. rewrite R1 in Hi. destruct (Z.eq_dec i 0) as [->|Hne].
    + rewrite R2. unfold Q. lia.
    + assert (HL := Z.log2_spec i ltac:(lia)). assert (H0 := Z.log2_nonneg i).
      rewrite Z.pow_succ_r in HL by lia.
      assert (Z.log2 i < k) by (apply Z.log2_lt_pow2; [lia|apply Hi]).
      destruct (R3 (Z.log2 i) (i - 2 ^ Z.log2 i)) as [_ HR]; [lia|lia|].
      replace (2 ^ Z.log2 i + (i - 2 ^ Z.log2 i)) with i in HR by lia. unfold can, Q in *. lia.
Qed.

Lemma outer_std (body : Z -> Z * list Z -> res (Z * list Z)) a :
  (forall l i r, 0 <= l < k -> body (2 ^ l) (i, r) =
     do '(i, _, r) <- fill_row n 12289 (2 ^ l) (C l) (i, B l, r); Ok (i, r)) ->
  zlen a = n -> at_ a 0 = 0 ->
  exists i r, cfor (fuel n) 1 (fun t => t <? n) (fun t => u32 (Z.shiftl t 1)) body (1, a) = Ok (i, r)
    /\ table_at k r (fun l j => B l * C l ^ j) /\ all_in 0 (Q - 1) r.
Proof.
  intros Hb HL H0.
  destruct (cfor_count (fun l '(i, r) => i = 2 ^ l /\ rows (fun _ j => j) l r) k (fun l => 2 ^ l)
    (fun t => t <? n) (fun t => u32 (Z.shiftl t 1)) body) with (f := fuel n) (i0 := 1) (st := (1, a))
    as ([i r] & E & _ & HR).
  - lia.
  - intros l Hl. apply lt_n, Hl.
  - apply Z.ltb_irrefl.
  - intros l Hl. apply next, Hl.
  - intros l [i r] Hl [-> HR]. rewrite Hb by exact Hl. destruct (Hrow l Hl).
    destruct (fill_row_ok n (2 ^ l) (B l) (C l) r) as (b' & r' & -> & HL' & Hnew & Hold);
      [assumption|assumption|assumption|apply HR|apply HB, Hl|apply HC, Hl|].
    cbn [bind]. exists (2 * 2 ^ l, r'). split; [reflexivity|].
    split; [rewrite pow2_succ by lia; reflexivity|]. eapply rows_step; eauto.
  - reflexivity.
  - exact k_fuel.
  - split; [reflexivity|]. split; [exact HL|]. split; [exact H0|]. intros; lia.
  - exists i, r. split; [exact E|]. apply (rows_done (fun _ j => j)), HR.
Qed.

Lemma outer_rev (body : Z -> Z * list Z -> res (Z * list Z)) a :
  (forall l r, 0 <= l < k -> body (2 ^ l) (l, r) =
     do '(_, r) <- fill_row_rev n 12289 (2 ^ l) l (C l) (B l, r); Ok (u32 (l + 1), r)) ->
  zlen a = n -> at_ a 0 = 0 ->
  exists i r, cfor (fuel n) 1 (fun t => t <? n) (fun t => u32 (Z.shiftl t 1)) body (0, a) = Ok (i, r)
    /\ table_at k r (fun l j => B l * C l ^ bitrev l j) /\ all_in 0 (Q - 1) r.
Proof.
  intros Hb HL H0.
  destruct (cfor_count (fun l '(i, r) => i = l /\ rows (fun l j => bitrev l j) l r) k (fun l => 2 ^ l)
    (fun t => t <? n) (fun t => u32 (Z.shiftl t 1)) body) with (f := fuel n) (i0 := 1) (st := (0, a))
    as ([i r] & E & _ & HR).
  - lia.
  - intros l Hl. apply lt_n, Hl.
  - apply Z.ltb_irrefl.
  - intros l Hl. apply next, Hl.
  - intros l [i r] Hl [-> HR]. rewrite Hb by exact Hl. destruct (Hrow l Hl).
    destruct (fill_row_rev_ok n l (B l) (C l) r) as (b' & r' & -> & HL' & Hnew & Hold);
      [lia|assumption|assumption|apply HR|apply HB, Hl|apply HC, Hl|].
    cbn [bind]. exists (u32 (l + 1), r'). split; [reflexivity|].
    rewrite u32_small by (clear - Hl Hk; lia). split; [reflexivity|]. eapply rows_step; eauto.
  - reflexivity.
  - exact k_fuel.
  - split; [reflexivity|]. split; [exact HL|]. split; [exact H0|]. intros; lia.
  - exists i, r. split; [exact E|]. apply (rows_done (fun l j => bitrev l j)), HR.
Qed.
End Outer.

(** ** build_table and build_rev_table *)

Section Build.
Variables (k x y ik : Z).
Hypothesis Hk : 0 <= k <= 30.
Hypothesis Hx : can x.
Hypothesis Hy : can y.
Hypothesis Hik : can ik.
Let n := 2 ^ k.
Let e l := 2 ^ k / (2 * 2 ^ l).

Let He l : 0 <= l < k -> 0 <= e l < 4294967296 /\ udiv n (u32 (2 * 2 ^ l)) = Ok (e l).
Proof.
  intros Hl. assert (H1 : 0 < 2 ^ l) by (apply pow2_pos; lia).
  assert (H2 : 2 ^ (l + 1) <= 2 ^ 30) by (apply Z.pow_le_mono_r; lia).
  assert (H3 : 2 ^ k <= 2 ^ 30) by (apply Z.pow_le_mono_r; lia).
  assert (H4 : 0 < 2 ^ k) by (apply pow2_pos; lia).
  rewrite pow2_succ in H2 by lia. change (2 ^ 30) with 1073741824 in *.
  split.
  - unfold e. split; [apply Z.div_pos; lia|]. apply Z.div_lt_upper_bound; [lia|]. nia.
  - rewrite u32_small by lia. apply udiv_ok. lia.
Qed.

Let P z l := z ^ e l mod 12289.
Let Ppow z l : can z -> 0 <= l < k -> power z (e l) 12289 = Ok (P z l).
Proof. intros Hz Hl. apply power_ok; [lia|exact Hz|apply He, Hl]. Qed.
Let Peq z l : eqQ (P z l) (z ^ e l).
Proof. apply eqQ_modn. Qed.
Let Pcan z l : can (P z l).
Proof. apply can_mod. Qed.
Let PK l := (P x l * ik) mod 12289.

Definition std_form (c : Z) (l j : Z) : Z := c * (x ^ (2 ^ k / (2 * 2 ^ l)) * (y ^ (2 ^ k / (2 * 2 ^ l))) ^ j).

Let npos : 0 < n.
Proof. apply pow2_pos. lia. Qed.

Let table_ext r f f' : (forall l j, eqQ (f l j) (f' l j)) -> table_at k r f -> table_at k r f'.
Proof. intros H [H1 H2]. split; [exact H1|]. intros l j Hl Hj. rewrite H2 by auto. apply H. Qed.

Let first_zero a : zlen a = n -> wr a 0 0 = Ok (aset a 0 0) /\ zlen (aset a 0 0) = n /\ at_ (aset a 0 0) 0 = 0.
Proof.
  intros HL. split; [apply wr_ok; lia|]. split; [rewrite aset_len; exact HL|].
  apply at_aset_same. lia.
Qed.

Lemma build_table_ok a : zlen a = n ->
  exists r, build_table a n 12289 x y = Ok r /\ table_at k r (std_form 1) /\ all_in 0 (Q - 1) r.
Proof.
  intros HL. unfold build_table. destruct (first_zero a HL) as (-> & L0 & Z0). cbn [bind].
  match goal with |- context [cfor _ _ _ _ ?b _] =>
    destruct (outer_std k (P x) (P y) Hk (fun l _ => Pcan x l) (fun l _ => Pcan y l) b (aset a 0 0))
      as (i & r & E & HT & HA) end.
  - intros l i r Hl. destruct (He l Hl) as [_ E]. fold n. rewrite E. cbn [bind].
    rewrite !Ppow by assumption. reflexivity.
  - exact L0.
  - exact Z0.
  - fold n in E. rewrite E. cbn [bind]. exists r. split; [reflexivity|]. split; [|exact HA].
    eapply table_ext; [|exact HT]. intros l j. cbv beta. rewrite !Peq. unfold std_form. fold (e l). qring.
Qed.

Lemma build_rev_table_ok a : zlen a = n ->
  exists r, build_rev_table a n 12289 x y = Ok r
    /\ table_at k r (fun l j => std_form 1 l (bitrev l j)) /\ all_in 0 (Q - 1) r.
Proof.
  intros HL. unfold build_rev_table. destruct (first_zero a HL) as (-> & L0 & Z0). cbn [bind].
  match goal with |- context [cfor _ _ _ _ ?b _] =>
    destruct (outer_rev k (P x) (P y) Hk (fun l _ => Pcan x l) (fun l _ => Pcan y l) b (aset a 0 0))
      as (i & r & E & HT & HA) end.
  - intros l r Hl. destruct (He l Hl) as [_ E]. fold n. rewrite E. cbn [bind].
    rewrite !Ppow by assumption. reflexivity.
  - exact L0.
  - exact Z0.
  - fold n in E. rewrite E. cbn [bind]. exists r. split; [reflexivity|]. split; [|exact HA].
    eapply table_ext; [|exact HT]. intros l j. cbv beta. rewrite !Peq. unfold std_form. fold (e l). qring.
Qed.

Let PKok l : urem (u32 (P x l * ik)) 12289 = Ok (PK l).
Proof. apply mulmod_ok; [apply Pcan|exact Hik|lia]. Qed.
Let PKeq l : eqQ (PK l) (x ^ e l * ik).
Proof. unfold PK. rewrite eqQ_modn. rewrite Peq. reflexivity. Qed.

Lemma build_table_k_ok a : zlen a = n ->
  exists r, build_table_k a n 12289 x y ik = Ok r /\ table_at k r (std_form ik) /\ all_in 0 (Q - 1) r.
Proof.
  intros HL. unfold build_table_k. destruct (first_zero a HL) as (-> & L0 & Z0). cbn [bind].
  match goal with |- context [cfor _ _ _ _ ?b _] =>
    destruct (outer_std k PK (P y) Hk (fun l _ => can_mod _) (fun l _ => Pcan y l) b (aset a 0 0))
      as (i & r & E & HT & HA) end.
  - intros l i r Hl. destruct (He l Hl) as [_ E]. fold n. rewrite E. cbn [bind].
    rewrite Ppow by assumption. cbn [bind]. rewrite PKok. cbn [bind]. rewrite Ppow by assumption. reflexivity.
  - exact L0.
  - exact Z0.
  - fold n in E. rewrite E. cbn [bind]. exists r. split; [reflexivity|]. split; [|exact HA].
    eapply table_ext; [|exact HT]. intros l j. cbv beta. rewrite PKeq, Peq. unfold std_form. fold (e l). qring.
Qed.

Lemma build_rev_table_k_ok a : zlen a = n ->
  exists r, build_rev_table_k a n 12289 x y ik = Ok r
    /\ table_at k r (fun l j => std_form ik l (bitrev l j)) /\ all_in 0 (Q - 1) r.
Proof.
  intros HL. unfold build_rev_table_k. destruct (first_zero a HL) as (-> & L0 & Z0). cbn [bind].
  match goal with |- context [cfor _ _ _ _ ?b _] =>
    destruct (outer_rev k PK (P y) Hk (fun l _ => can_mod _) (fun l _ => Pcan y l) b (aset a 0 0))
      as (i & r & E & HT & HA) end.
  - intros l r Hl. destruct (He l Hl) as [_ E]. fold n. rewrite E. cbn [bind].
    rewrite Ppow by assumption. cbn [bind]. rewrite PKok. cbn [bind]. rewrite Ppow by assumption. reflexivity.
  - exact L0.
  - exact Z0.
  - fold n in E. rewrite E. cbn [bind]. exists r. split; [reflexivity|]. split; [|exact HA].
    eapply table_ext; [|exact HT]. intros l j. cbv beta. rewrite PKeq, Peq. unfold std_form. fold (e l). qring.
Qed.
End Build.

(** ** Printing signed tables *)

Lemma shift_ok x : can x -> exists v, shift x 12289 = Ok v /\ eqQ v x /\ -6144 <= v <= 6144.
Proof.
  intros Hx. unfold can in Hx. unfold shift. replace (x <? 12289) with true by lia. cbn [cassert bind].
  rewrite udiv_ok by lia. cbn [bind]. change (12289 / 2) with 6144. destruct (Z.leb_spec x 6144).
  - rewrite to_i32_small by lia. exists x. split; [reflexivity|]. split; [reflexivity|lia].
  - exists (x - 12289). split; [|split; [|lia]].
    + f_equal. unfold to_i32, u32. rewrite Z.mod_mod by lia.
      replace ((x - 12289) mod 4294967296) with (x - 12289 + 4294967296) by lia.
      replace (x - 12289 + 4294967296 <? 2147483648) with false by lia. lia.
    + apply eqQ_iff. exists (-1). unfold Q. ring.
Qed.

Lemma print_table_red_ok a n : 0 <= n < 4294967296 -> zlen a = n -> all_in 0 (Q - 1) a ->
  exists r, print_table_red a n 12289 = Ok r /\ zlen r = n /\ all_in (-6144) 6144 r
    /\ (forall i, 0 <= i < n -> eqQ (at_ r i) (at_ a i)).
Proof.
  intros Hn HL HA. unfold print_table_red.
  destruct (cfor_count (fun c r => zlen r = c /\ all_in (-6144) 6144 r
      /\ (forall i, 0 <= i < c -> eqQ (at_ r i) (at_ a i)))
    n (fun c => c) (fun i => i <? n) (fun i => u32 (i + 1))
    (fun i out =>
    do x <- rd a i;
    do v <- shift x 12289;
    Ok (out ++ [v]))) with (f := fuel n) (i0 := 0) (st := @nil Z) as (r & E & H1 & H2 & H3).
  - lia.
  - intros. lia.
  - lia.
  - intros. apply u32_small. lia.
  - intros c r Hc (H1 & H2 & H3). rewrite rd_ok by lia. cbn [bind].
    assert (Hcan : can (at_ a c)).
    { assert (H := all_in_at _ _ _ c HA ltac:(lia)). unfold can, Q in *. lia. }
    destruct (shift_ok _ Hcan) as (v & -> & Ev & Bv). cbn [bind]. eexists. split; [reflexivity|].
    assert (HLr : Z.of_nat (length r) = c) by exact H1.
    split; [unfold zlen; rewrite app_length; cbn; lia|]. split.
    + intros z Hz. apply in_app_or in Hz as [Hz|[<-|[]]]; [apply H2, Hz|exact Bv].
    + intros i Hi. unfold at_. destruct (Z.eq_dec i c) as [->|Hne].
      * rewrite app_nth2 by lia. replace (Z.to_nat c - length r)%nat with 0%nat by lia. exact Ev.
      * rewrite app_nth1 by lia. apply H3. lia.
  - reflexivity.
  - unfold fuel. lia.
  - split; [reflexivity|]. split; [intros z []|]. intros; lia.
  - exists r. auto.
Qed.
