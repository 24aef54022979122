(** Pieces shared by the transforms of the assembly: sizes, block loops, sixteen-element
    chunks, table loads. *)

From Coq Require Import ZArith List Bool Lia.
From Verif Require Import CSem Spec Loops OuterLoops RedElem IntervalSound AvxSem ModelAvx AvxElem AvxArrays AvxRound
  AvxPairs AvxExec.
Import ListNotations.
Open Scope Z_scope.

(** ** Sixteen elements *)

Lemma ld8_V8 (F : Z -> Z) b off i : off = 4 * i + 32 -> 0 <= i -> i + 16 <= zlen b ->
  (forall j, i <= j < i + 16 -> at_ b j = F j) ->
  ld8 b off = Ok (V (F (i + 8)) (F (i + 9)) (F (i + 10)) (F (i + 11)) (F (i + 12)) (F (i + 13)) (F (i + 14)) (F (i + 15))).
Proof.
  intros H0 H1 H2 H3. rewrite (ld8_V F b off (i + 8)); [|lia..|intros; apply H3; lia].
  rewrite <- !Z.add_assoc. reflexivity.
Qed.

Lemma wp_st16 (G : Z -> Z) {A} b off1 off2 i x y (f : list Z -> res A) R :
  off1 = 4 * i -> off2 = 4 * i + 32 -> 0 <= i -> i + 16 <= zlen b ->
  x = V (G i) (G (i + 1)) (G (i + 2)) (G (i + 3)) (G (i + 4)) (G (i + 5)) (G (i + 6)) (G (i + 7)) ->
  y = V (G (i + 8)) (G (i + 9)) (G (i + 10)) (G (i + 11)) (G (i + 12)) (G (i + 13)) (G (i + 14)) (G (i + 15)) ->
  (forall b', zlen b' = zlen b -> (forall j, 0 <= j < zlen b -> at_ b' j = if inw i 16 j then G j else at_ b j) ->
     wp (f b') R) ->
  wp (bind (st8 b off1 x) (fun b => bind (st8 b off2 y) f)) R.
Proof.
  intros O1 O2 H1 H2 Ex Ey HK. apply (wp_st8 G b off1 i); [lia..|exact Ex|]. intros b1 L1 A1.
  apply (wp_st8 G b1 off2 (i + 8)); [lia..| |].
  { rewrite Ey, <- !Z.add_assoc. reflexivity. }
  intros b2 L2 A2. apply HK; [lia|]. intros j Hj. rewrite A2, A1 by lia.
  destruct (inw_spec (i + 8) 8 j), (inw_spec i 8 j), (inw_spec i 16 j); lia || reflexivity.
Qed.

(** ** Table loads *)

Section W.
Variable p : list Z.
Hypothesis Hp16 : forall i, 0 <= i < zlen p -> -32768 <= at_ p i <= 32767.

Lemma vpmovsxwq_w off i : off = 2 * i -> 0 <= i -> i + 4 <= zlen p ->
  vpmovsxwq p off = Ok (V (at_ p i) (hi64 (at_ p i)) (at_ p (i + 1)) (hi64 (at_ p (i + 1)))
                    (at_ p (i + 2)) (hi64 (at_ p (i + 2))) (at_ p (i + 3)) (hi64 (at_ p (i + 3)))).
Proof. intros H0 H1 H2. rewrite (vpmovsxwq_ok p off i) by assumption. rewrite !lo16 by (apply Hp16; lia). reflexivity. Qed.
Lemma vpmovsxwq_x_w off i : off = 2 * i -> 0 <= i -> i + 2 <= zlen p ->
  vpmovsxwq_x p off = Ok (V (at_ p i) (hi64 (at_ p i)) (at_ p (i + 1)) (hi64 (at_ p (i + 1))) 0 0 0 0).
Proof. intros H0 H1 H2. rewrite (vpmovsxwq_x_ok p off i) by assumption. rewrite !lo16 by (apply Hp16; lia). reflexivity. Qed.
End W.

(** ** Butterflies, by position *)

Section P.
Variable p : list Z.

Lemma cB t h F i j w : 0 < h -> i mod (2 * h) < h -> j = i + h -> t + i / (2 * h) = w ->
  cw h (mwB p t h) F i = to_i32 (F i + mr (F j * at_ p w)) /\ cw h (mwB p t h) F j = to_i32 (F i - mr (F j * at_ p w)).
Proof.
  intros Hh Hm Hj <-. assert (E := Z.div_mod i (2 * h) ltac:(lia)). assert (B := Z.mod_pos_bound i (2 * h) ltac:(lia)).
  apply (cwB_at p t h F (i / (2 * h)) (i mod (2 * h))); lia.
Qed.
Lemma gB t h F i j w : 0 < h -> i mod (2 * h) < h -> j = i + h -> t + i / (2 * h) = w ->
  gw h (mwB p t h) F i = to_i32 (F i + F j) /\ gw h (mwB p t h) F j = mr (to_i32 (F i - F j) * at_ p w).
Proof.
  intros Hh Hm Hj <-. assert (E := Z.div_mod i (2 * h) ltac:(lia)). assert (B := Z.mod_pos_bound i (2 * h) ltac:(lia)).
  apply (gwB_at p t h F (i / (2 * h)) (i mod (2 * h))); lia.
Qed.
Lemma gA h F i j w : 0 < h -> i mod (2 * h) < h -> j = i + h -> h + i mod (2 * h) = w ->
  gw h (mwA p h) F i = to_i32 (F i + F j) /\ gw h (mwA p h) F j = mr (to_i32 (F i - F j) * at_ p w).
Proof.
  intros Hh Hm Hj <-. assert (E := Z.div_mod i (2 * h) ltac:(lia)). assert (B := Z.mod_pos_bound i (2 * h) ltac:(lia)).
  apply (gwA_at p h F (i / (2 * h)) (i mod (2 * h))); lia.
Qed.
End P.

Ltac prs L := let A := fresh "A" in let B := fresh "A" in destruct L as [A B]; [lia..|]; rewrite A, B; clear A B.

(** ** Sizes *)

Lemma pow_pos c : 0 <= c -> 0 < 2 ^ c.
Proof. intros. apply Z.pow_pos_nonneg; lia. Qed.
Lemma pow8 c : 3 <= c -> 2 ^ c = 8 * 2 ^ (c - 3).
Proof. intros. change 8 with (2 ^ 3). rewrite <- Z.pow_add_r by lia. f_equal. lia. Qed.
Lemma pow_half c : 1 <= c -> Z.shiftr (2 ^ c) 1 = 2 ^ (c - 1).
Proof. intros. rewrite Z.shiftr_div_pow2 by lia. rewrite <- Z.pow_sub_r by lia. reflexivity. Qed.
Lemma pow_dbl c : 0 <= c -> 2 ^ (c + 1) = 2 * 2 ^ c.
Proof. intros. rewrite Z.pow_add_r by lia. ring. Qed.
Lemma pow_lt_iff c d : 0 <= c -> 0 <= d -> (2 ^ c <? 2 ^ d) = (c <? d).
Proof.
  intros Hc Hd. destruct (Z.ltb_spec c d); apply Z.ltb_lt || apply Z.ltb_ge.
  - apply Z.pow_lt_mono_r; lia.
  - apply Z.pow_le_mono_r; lia.
Qed.
Lemma pow_le_iff c d : 0 <= c -> 0 <= d -> (2 ^ c <=? 2 ^ d) = (c <=? d).
Proof.
  intros Hc Hd. destruct (Z.leb_spec c d); apply Z.leb_le || apply Z.leb_gt.
  - apply Z.pow_le_mono_r; lia.
  - apply Z.pow_lt_mono_r; lia.
Qed.

Section N.
Variables (k n : Z).
Hypothesis Hk : 4 <= k <= 31.
Hypothesis En : n = 2 ^ k.

Lemma n_bounds : 16 <= n <= 2147483648.
Proof. rewrite En. change 16 with (2 ^ 4). change 2147483648 with (2 ^ 31). split; apply Z.pow_le_mono_r; lia. Qed.
Lemma k_lt_n : k < n.
Proof. rewrite En. apply Z.pow_gt_lin_r; lia. Qed.
Lemma n_split c : 0 <= c < k -> n = 2 * 2 ^ c * 2 ^ (k - 1 - c).
Proof. intros. rewrite En. rewrite <- Z.pow_succ_r, <- Z.pow_add_r by lia. f_equal. lia. Qed.
End N.

Lemma gs_skip x : mr (to_i32 x * -4096) = to_i32 x.
Proof. rewrite mr_skip. apply to_i32_idem. Qed.

Lemma bcw_V w : -32768 <= w <= 32767 ->
  vpmovsxwq_r (V (dup16 w) (dup16 w) (dup16 w) (dup16 w) 0 0 0 0)
  = V w (hi64 w) w (hi64 w) w (hi64 w) w (hi64 w).
Proof. intros H. vexec. rewrite dup16_lo, dup16_hi, lo16 by assumption. reflexivity. Qed.
Ltac bcv H :=
  lazymatch goal with |- wp (let x := ?e in @?b x) ?R => refine (wp_let e _ b R (bcw_V _ H) _); cbv beta end.
