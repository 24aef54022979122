(** Checking the sequences of bounds of src/red-bounds.txt. *)

From Coq Require Import ZArith List Bool Lia.
From Verif Require Import CSem Spec SpecNotes SpecRedBoundsTxt ModQ RedElem BoundsElem BoundsRound BoundsNtt NotesElem.
Import ListNotations.
Open Scope Z_scope.

(** ** One round *)

(** |redz (w * y)| <= C for the constants [w] of the row and |y| <= Y *)
Definition fits (Y C : Z) (row : list Z) : bool :=
  let T := 4096 * (C - 12286) / Y in
  forallb (fun w => let v := Z.abs w in
    if v <=? T then true else if (v * Y / 4096 <=? C) && (0 <? v) then scan_w v C (- Y) else false) row.

Lemma fits_ok Y C row : 0 < Y -> fits Y C row = true ->
  forall w y, In w row -> Z.abs y <= Y -> Z.abs (redz (w * y)) <= C.
Proof.
  intros HY H w y Hw Hy. unfold fits in H. rewrite forallb_forall in H. specialize (H w Hw). cbv zeta in H.
  assert (P : forall z, Z.abs z <= Y -> Z.abs (redz (Z.abs w * z)) <= C).
  { intros z Hz. assert (A := abs_prod (Z.abs w) (Z.abs w) z Y ltac:(lia) ltac:(lia)). apply redz_abs in A.
    destruct (Z.leb_spec (Z.abs w) (4096 * (C - 12286) / Y)) as [H1|_].
    - assert (H2 : Y * (4096 * (C - 12286) / Y) <= 4096 * (C - 12286)) by (apply Z.mul_div_le; exact HY).
      assert (H3 : Z.abs w * Y <= (4096 * (C - 12286) / Y) * Y) by (apply Z.mul_le_mono_nonneg_r; lia).
      set (T := 4096 * (C - 12286) / Y) in *. clearbody T. clear - A H2 H3. lia.
    - destruct ((Z.abs w * Y / 4096 <=? C) && (0 <? Z.abs w)) eqn:E; [|discriminate H]. apply andb_prop in E as [H1 H0].
      apply Z.leb_le in H1. apply Z.ltb_lt in H0.
      assert (R := scan_w_ok _ _ _ H0 H z ltac:(lia)). clear - A H1 R. lia. }
  destruct (Z.le_gt_cases 0 w) as [Hp|Hn].
  - rewrite <- (Z.abs_eq w) by lia. apply P. exact Hy.
  - replace (w * y) with (Z.abs w * - y) by (rewrite Z.abs_neq by lia; ring). apply P. lia.
Qed.

(** One round from [b] to [c], attained with the constant [j] of the row and the operand [y] *)
Definition round_chk (gs : bool) (row : list Z) (b c j y : Z) : bool :=
  (0 <? b) && (0 <=? j) && (j <? zlen row) &&
  if gs then (2 * b <=? c) && fits (2 * b) c row
             && ((c =? 2 * b) || ((Z.abs y <=? 2 * b) && (redz (at_ row j * y) =? c)))
  else fits b (c - b) row && (Z.abs y <=? b) && (redz (at_ row j * y) =? c - b).

Definition row_of (gs : bool) (row : list Z) (b c : Z) : Prop :=
  forall j x y, 0 <= j < zlen row -> Z.abs x <= b -> Z.abs y <= b ->
    if gs then Z.abs (x + y) <= c /\ Z.abs (ln_red (at_ row j * (x - y))) <= c
    else Z.abs (x + ln_red (at_ row j * y)) <= c /\ Z.abs (x - ln_red (at_ row j * y)) <= c.

Lemma at_In (l : list Z) j : 0 <= j < zlen l -> In (at_ l j) l.
Proof. intros H. unfold at_, zlen in *. apply nth_In. lia. Qed.

Lemma round_chk_ok gs row b c j y : round_chk gs row b c j y = true -> least (row_of gs row) b c.
Proof.
  intros H. unfold round_chk in H. apply andb_prop in H as [H H']. apply andb_prop in H as [H Hj]. apply andb_prop in H as [Hb Hj0].
  apply Z.leb_le in Hj0. apply Z.ltb_lt in Hb, Hj. destruct gs.
  - apply andb_prop in H' as [H' Hh]. apply andb_prop in H' as [H2 HF]. apply Z.leb_le in H2. split.
    + intros i x z Hi Hx Hz. split; [lia|]. rewrite <- redz_ln.
      apply (fits_ok (2 * b) c row ltac:(lia) HF); [apply at_In; exact Hi|lia].
    + intros d Hd. apply orb_prop in Hh as [Hh|Hh].
      * apply Z.eqb_eq in Hh. destruct (Hd j b b) as [HE _]; lia.
      * apply andb_prop in Hh as [Hy HE]. apply Z.leb_le in Hy. apply Z.eqb_eq in HE.
        destruct (Hd j (y / 2) (y / 2 - y)) as [_ HD]; [lia|lia|lia|].
        replace (y / 2 - (y / 2 - y)) with y in HD by ring. rewrite <- redz_ln in HD. lia.
  - apply andb_prop in H' as [H' HE]. apply andb_prop in H' as [HF Hy]. apply Z.leb_le in Hy. apply Z.eqb_eq in HE. split.
    + intros i x z Hi Hx Hz. rewrite <- redz_ln.
      assert (P := fits_ok b (c - b) row Hb HF (at_ row i) z (at_In _ _ Hi) Hz). lia.
    + intros d Hd. destruct (Hd j b y) as [HD _]; [lia|lia|lia|]. rewrite <- redz_ln in HD. lia.
Qed.

(** ** All rounds *)

Fixpoint rounds_chk (gs : bool) (rows : list (list Z)) (b : Z) (l : list Z) (cert : list (Z * Z)) : bool :=
  match rows, l, cert with
  | [], [], [] => true
  | row :: rows, c :: l, (j, y) :: cert => round_chk gs row b c j y && rounds_chk gs rows c l cert
  | _, _, _ => false
  end.

Lemma rounds_chk_ok gs : forall rows b l cert, rounds_chk gs rows b l cert = true ->
  length rows = length l
  /\ forall i, (i < length rows)%nat -> least (row_of gs (nth i rows [])) (nth i (b :: l) 0) (nth (S i) (b :: l) 0).
Proof.
  induction rows as [|row rows IH]; intros b [|c l] [|[j y] cert] H; try discriminate; cbn [rounds_chk length] in *.
  - split; [reflexivity|]. intros i Hi. lia.
  - apply andb_prop in H as [H1 H2]. destruct (IH c l cert H2) as [HL HR]. split; [lia|]. intros [|i] Hi.
    + cbn [nth]. exact (round_chk_ok _ _ _ _ _ _ H1).
    + cbn [nth]. apply HR. lia.
Qed.

(** The rows of a table of 2^k constants: 1, 2, 4, .. constants *)
Definition rows (k : nat) (p : list Z) : list (list Z) :=
  map (fun i => firstn (Nat.pow 2 i) (skipn (Nat.pow 2 i) p)) (seq 0 k).

Lemma row_at p t j : 0 <= j < t -> 2 * t <= zlen p -> at_ (firstn (Z.to_nat t) (skipn (Z.to_nat t) p)) j = at_ p (t + j).
Proof.
  intros Hj HL. unfold at_, zlen in *.
  rewrite <- (firstn_skipn (Z.to_nat t) p) at 2.
  assert (HF : length (firstn (Z.to_nat t) p) = Z.to_nat t) by (apply firstn_length_le; lia).
  rewrite app_nth2 by lia. rewrite HF. replace (Z.to_nat (t + j) - Z.to_nat t)%nat with (Z.to_nat j) by lia.
  set (q := skipn (Z.to_nat t) p). rewrite <- (firstn_skipn (Z.to_nat t) q) at 2.
  rewrite app_nth1; [reflexivity|]. rewrite firstn_length. unfold q. rewrite skipn_length. lia.
Qed.

Lemma row_len p t : 0 <= t -> 2 * t <= zlen p -> zlen (firstn (Z.to_nat t) (skipn (Z.to_nat t) p)) = t.
Proof. intros Ht HL. unfold zlen in *. rewrite firstn_length, skipn_length. lia. Qed.

Lemma pow_nat i : Nat.pow 2 i = Z.to_nat (2 ^ Z.of_nat i).
Proof. apply Nat2Z.inj. rewrite Nat2Z.inj_pow, Z2Nat.id; [reflexivity|]. apply Z.pow_nonneg. lia. Qed.

Lemma rows_nth k p i : (i < k)%nat ->
  nth i (rows k p) [] = firstn (Z.to_nat (2 ^ Z.of_nat i)) (skipn (Z.to_nat (2 ^ Z.of_nat i)) p).
Proof.
  intros Hi. unfold rows. rewrite <- pow_nat.
  set (f := fun i => _). rewrite (nth_indep _ [] (f 0%nat)) by (rewrite map_length, seq_length; exact Hi).
  rewrite map_nth, seq_nth by exact Hi. reflexivity.
Qed.

Lemma least_ext (P P' : Z -> Z -> Prop) b c : (forall d, P b d <-> P' b d) -> least P b c -> least P' b c.
Proof. intros H [H1 H2]. split; [apply H; exact H1|]. intros d Hd. apply H2, H, Hd. Qed.

Lemma row_ct p t b c : 0 <= t -> 2 * t <= zlen p ->
  row_of false (firstn (Z.to_nat t) (skipn (Z.to_nat t) p)) b c <-> ct_row p t b c.
Proof.
  intros Ht HL. split; intros H j x y Hj Hx Hy.
  - rewrite <- row_at by lia. apply (H j x y); [rewrite row_len by lia; exact Hj|exact Hx|exact Hy].
  - rewrite row_len in Hj by lia. rewrite row_at by lia. apply (H j x y); assumption.
Qed.

Lemma row_gs p t b c : 0 <= t -> 2 * t <= zlen p ->
  row_of true (firstn (Z.to_nat t) (skipn (Z.to_nat t) p)) b c <-> gs_row p t b c.
Proof.
  intros Ht HL. split; intros H j x y Hj Hx Hy.
  - rewrite <- row_at by lia. apply (H j x y); [rewrite row_len by lia; exact Hj|exact Hx|exact Hy].
  - rewrite row_len in Hj by lia. rewrite row_at by lia. apply (H j x y); assumption.
Qed.

Definition seq_chk (gs : bool) (k : nat) (p B : list Z) (cert : list (Z * Z)) : bool :=
  match B with
  | b :: l => rounds_chk gs (if gs then rev (rows k p) else rows k p) b l cert
  | [] => false
  end.

Lemma rows_length k p : length (rows k p) = k.
Proof. unfold rows. rewrite map_length, seq_length. reflexivity. Qed.

Lemma at_nth (B : list Z) i : 0 <= i -> at_ B i = nth (Z.to_nat i) B 0.
Proof. reflexivity. Qed.

Lemma seq_chk_ct k p B cert : zlen p = 2 ^ Z.of_nat k -> seq_chk false k p B cert = true -> ct_best (2 ^ Z.of_nat k) p B.
Proof.
  intros HP H. destruct B as [|b l]; [discriminate|]. cbn [seq_chk] in H. apply rounds_chk_ok in H as [HL HR].
  rewrite rows_length in HL, HR.
  assert (HZ : zlen (b :: l) - 1 = Z.of_nat k) by (unfold zlen; cbn [length]; lia).
  split; [rewrite HZ; reflexivity|]. rewrite HZ. intros i Hi.
  specialize (HR (Z.to_nat i) ltac:(lia)). rewrite rows_nth in HR by lia. rewrite Z2Nat.id in HR by lia.
  assert (HT : 2 * 2 ^ i <= 2 ^ Z.of_nat k) by (rewrite <- Z.pow_succ_r by lia; apply Z.pow_le_mono_r; lia).
  rewrite !at_nth by lia. replace (Z.to_nat (i + 1)) with (S (Z.to_nat i)) by lia.
  eapply least_ext; [|exact HR]. intros d. apply row_ct; lia.
Qed.

Lemma seq_chk_gs k p B cert : zlen p = 2 ^ Z.of_nat k -> seq_chk true k p B cert = true -> gs_best (2 ^ Z.of_nat k) p B.
Proof.
  intros HP H. destruct B as [|b l]; [discriminate|]. cbn [seq_chk] in H. apply rounds_chk_ok in H as [HL HR].
  rewrite rev_length, rows_length in HL, HR.
  assert (HZ : zlen (b :: l) - 1 = Z.of_nat k) by (unfold zlen; cbn [length]; lia).
  split; [rewrite HZ; reflexivity|]. rewrite HZ. intros i Hi.
  specialize (HR (Z.to_nat i) ltac:(lia)). rewrite rev_nth, rows_length, rows_nth in HR by (rewrite ?rows_length; lia).
  replace (Z.of_nat (k - S (Z.to_nat i))) with (Z.of_nat k - (i + 1)) in HR by lia.
  replace (2 ^ Z.of_nat k / 2 ^ (i + 1)) with (2 ^ (Z.of_nat k - (i + 1))) by (apply Z.pow_sub_r; lia).
  assert (HT : 2 * 2 ^ (Z.of_nat k - (i + 1)) <= 2 ^ Z.of_nat k) by (rewrite <- Z.pow_succ_r by lia; apply Z.pow_le_mono_r; lia).
  rewrite !at_nth by lia. replace (Z.to_nat (i + 1)) with (S (Z.to_nat i)) by lia.
  eapply least_ext; [|exact HR]. intros d. apply row_gs; [apply Z.pow_nonneg; lia|lia].
Qed.

(** ** What red_bounds.c computes *)

Lemma ct_unique k b0 p bd B : 0 <= k -> seq_ok good_ct b0 p (fun m => m) k bd -> seq_tgt tgt_ct p (fun m => m) k bd ->
  at_ B 0 = b0 -> (forall i, 0 <= i < k -> least (ct_row p (2 ^ i)) (at_ B i) (at_ B (i + 1))) ->
  forall i, 0 <= i <= k -> at_ bd i = at_ B i.
Proof.
  intros Hk (H0 & _ & HG) HT HB0 HB i [Hi Hik]. revert i Hi Hik.
  apply (natlike_ind (fun i => i <= k -> at_ bd i = at_ B i)); [intros _; congruence|].
  intros i Hi IH Hik. unfold Z.succ in *. specialize (IH ltac:(lia)).
  destruct (HB i ltac:(lia)) as [L1 L2]. rewrite <- IH in L1, L2. destruct (HG i ltac:(lia)) as [_ HG'].
  apply Z.le_antisymm.
  - destruct (HT i ltac:(lia)) as (j & Hj & (x & y & w & Hx & Hy & <- & E) & _).
    destruct (L1 j x y Hj ltac:(lia) ltac:(lia)) as [A1 A2]. rewrite <- redz_ln in A1, A2. destruct E as [E|E]; lia.
  - apply L2. intros j x y Hj Hx Hy. destruct (HG' j Hj) as [S _]. rewrite <- redz_ln.
    apply (S x y _ ltac:(lia) ltac:(lia) eq_refl).
Qed.

Lemma gs_unique k b0 p bd B : 0 <= k -> seq_ok good_gs b0 p (fun m => k - 1 - m) k bd -> seq_tgt tgt_gs p (fun m => k - 1 - m) k bd ->
  at_ B 0 = b0 -> (forall i, 0 <= i < k -> least (gs_row p (2 ^ k / 2 ^ (i + 1))) (at_ B i) (at_ B (i + 1))) ->
  forall i, 0 <= i <= k -> at_ bd i = at_ B i.
Proof.
  intros Hk (H0 & _ & HG) HT HB0 HB i [Hi Hik]. revert i Hi Hik.
  apply (natlike_ind (fun i => i <= k -> at_ bd i = at_ B i)); [intros _; congruence|].
  intros i Hi IH Hik. unfold Z.succ in *. specialize (IH ltac:(lia)).
  destruct (HB i ltac:(lia)) as [L1 L2]. rewrite <- IH in L1, L2. destruct (HG i ltac:(lia)) as [_ HG'].
  assert (E2 : 2 ^ k / 2 ^ (i + 1) = 2 ^ (k - 1 - i)) by (rewrite <- Z.pow_sub_r by lia; f_equal; lia). rewrite E2 in L1, L2.
  apply Z.le_antisymm.
  - destruct (HT i ltac:(lia)) as (j & Hj & (x & y & w & Hx & Hy & <- & E) & _).
    destruct (L1 j x y Hj ltac:(lia) ltac:(lia)) as [A1 A2]. rewrite <- redz_ln in A2. destruct E as [E|E]; lia.
  - apply L2. intros j x y Hj Hx Hy. destruct (HG' j Hj) as [S _]. rewrite <- redz_ln.
    apply (S x y _ ltac:(lia) ltac:(lia) eq_refl).
Qed.

Lemma firstn_at (bd B : list Z) : (length B <= length bd)%nat -> (forall i, 0 <= i < zlen B -> at_ bd i = at_ B i) ->
  firstn (length B) bd = B.
Proof.
  intros HL H. apply (nth_ext _ _ 0 0).
  - apply firstn_length_le. exact HL.
  - rewrite firstn_length_le by exact HL. intros i Hi. specialize (H (Z.of_nat i) ltac:(unfold zlen; lia)). unfold at_ in H.
    rewrite Nat2Z.id in H. rewrite <- H. rewrite <- (firstn_skipn (length B) bd) at 2.
    rewrite app_nth1; [reflexivity|]. rewrite firstn_length_le by exact HL. exact Hi.
Qed.
