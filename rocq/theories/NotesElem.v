(** Lemmas on the reduction of src/notes.txt and a checker for the sequences of bounds. *)

From Coq Require Import ZArith List Bool Lia Znumtheory.
From Verif Require Import CSem Spec ModQ RedElem BoundsElem BoundsRound SpecNotes.
Import ListNotations.
Open Scope Z_scope.

(** ** Any modulus k * 2^m + 1 *)

Section General.
Variables (k m q : Z).
Hypothesis Hk : 1 <= k.
Hypothesis Hm : 0 <= m.
Hypothesis Hq : q = k * 2 ^ m + 1.

Let D := 2 ^ m.
Let HD : 1 <= D.
Proof. unfold D. assert (0 < 2 ^ m) by (apply Z.pow_pos_nonneg; lia). lia. Qed.

Lemma redkm_eq x : exists a r, x = a * D + r /\ 0 <= r <= D - 1 /\ redkm k m x = k * r - a.
Proof.
  exists (x / D), (x mod D). assert (H := Z.div_mod x D ltac:(lia)). assert (H' := Z.mod_pos_bound x D ltac:(lia)).
  split; [lia|]. split; [lia|]. reflexivity.
Qed.

Lemma redkm_cong x : (redkm k m x) mod q = (k * x) mod q.
Proof.
  destruct (redkm_eq x) as (a & r & -> & _ & ->).
  replace (k * (a * D + r)) with (k * r - a + a * q) by (rewrite Hq; unfold D; ring).
  rewrite Z.mod_add; [reflexivity|]. rewrite Hq. fold D. nia.
Qed.

(** D red(x) + x = q r *)
Lemma redkm_scaled x : exists r, 0 <= r <= D - 1 /\ (exists a, x = a * D + r) /\ D * redkm k m x = q * r - x.
Proof.
  destruct (redkm_eq x) as (a & r & E & Hr & ->). exists r. split; [exact Hr|]. split; [exists a; exact E|].
  rewrite E, Hq. fold D. ring.
Qed.

Lemma redkm_range x : - x <= D * redkm k m x < - x + D * (q - k).
Proof.
  destruct (redkm_scaled x) as (r & Hr & _ & ->).
  assert (q * r <= q * (D - 1)) by (apply Z.mul_le_mono_nonneg_l; [rewrite Hq; fold D; nia|lia]).
  assert (0 <= q * r) by (apply Z.mul_nonneg_nonneg; [rewrite Hq; fold D; nia|lia]).
  assert (q * (D - 1) = D * (q - k) - 1) by (rewrite Hq; fold D; ring). lia.
Qed.

Lemma redkm_abs x : D * Z.abs (redkm k m x) <= Z.abs x + D * (q - k).
Proof.
  assert (H := redkm_range x).
  assert (0 <= D * (q - k)) by (apply Z.mul_nonneg_nonneg; [lia|rewrite Hq; fold D; nia]).
  assert (E : D * Z.abs (redkm k m x) = Z.abs (D * redkm k m x)) by (rewrite Z.abs_mul; rewrite (Z.abs_eq D) by lia; reflexivity).
  rewrite E. lia.
Qed.

Lemma scaled_le u v : D * u <= D * v -> u <= v.
Proof. intros H. apply Z.mul_le_mono_pos_l in H; lia. Qed.

Lemma redkm_mul_abs w x : 0 <= w <= q - 1 -> Z.abs (redkm k m (w * x)) <= k * Z.abs x + (q - k).
Proof.
  intros Hw. apply scaled_le. eapply Z.le_trans; [apply redkm_abs|].
  rewrite Z.abs_mul, (Z.abs_eq w) by lia.
  assert (w * Z.abs x <= (q - 1) * Z.abs x) by (apply Z.mul_le_mono_nonneg_r; lia).
  replace (q - 1) with (k * D) in H by (rewrite Hq; unfold D; ring).
  replace (D * (k * Z.abs x + (q - k))) with (k * D * Z.abs x + D * (q - k)) by ring. lia.
Qed.

(** The range of arguments for which the result has [bits] + 1 bits. *)
Lemma redkm_safe M x : - (M * D) + D * (q - k) <= x <= M * D + (D - 1) -> - M <= redkm k m x <= M - 1.
Proof.
  intros Hx. destruct (redkm_eq x) as (a & r & E & Hr & ->).
  assert (Ha1 : a <= M).
  { apply Z.lt_succ_r. apply (Z.mul_lt_mono_pos_r D); [lia|]. rewrite Z.mul_succ_l. lia. }
  assert (Ha2 : - M + (q - k) <= a).
  { assert (H : (- M + (q - k)) * D < Z.succ a * D) by (rewrite Z.mul_succ_l; lia).
    apply Z.mul_lt_mono_pos_r in H; [|lia]. apply Z.lt_succ_r in H. exact H. }
  assert (0 <= k * r <= k * (D - 1)) by (split; [apply Z.mul_nonneg_nonneg; lia|apply Z.mul_le_mono_nonneg_l; lia]).
  assert (Q : q - k = k * (D - 1) + 1) by (rewrite Hq; unfold D; ring). lia.
Qed.

Lemma redkm_unsafe M : redkm k m (M * D + D) = - M - 1 /\ redkm k m (- (M * D) + D * (q - k) - 1) = M.
Proof.
  unfold redkm. fold D. split.
  - replace (M * D + D) with ((M + 1) * D) by ring. rewrite Z.mod_mul, Z.div_mul by lia. ring.
  - assert (E : - (M * D) + D * (q - k) - 1 = (D - 1) + (- M + (q - k) - 1) * D) by ring.
    rewrite E, Z.mod_add, Z.div_add by lia. rewrite Z.mod_small, Z.div_small by lia.
    rewrite Hq. fold D. ring.
Qed.

(** src/notes.txt, "Tighter Bounds". *)
Lemma redkm_tight B w x : 0 <= w <= q - 1 -> - B <= x <= B ->
  - (k * B) <= redkm k m (w * x)
  /\ (D * (q - k) <= B + 1 -> redkm k m (w * x) <= k * B)
  /\ (B + 1 < D * (q - k) -> D * redkm k m (w * x) <= D * (k * B + (q - k)) - (B + 1)).
Proof.
  intros Hw Hx. assert (HB : 0 <= B) by lia.
  assert (Hq1 : q - 1 = k * D) by (rewrite Hq; unfold D; ring).
  assert (Hwx : Z.abs (w * x) <= w * B).
  { rewrite Z.abs_mul, (Z.abs_eq w) by lia. apply Z.mul_le_mono_nonneg_l; lia. }
  assert (HwB : w * B <= k * D * B) by (rewrite <- Hq1; apply Z.mul_le_mono_nonneg_r; lia).
  assert (HR := redkm_range (w * x)).
  assert (L : - (k * B) <= redkm k m (w * x)).
  { apply scaled_le. replace (D * - (k * B)) with (- (k * D * B)) by ring. lia. }
  split; [exact L|].
  destruct (Z.eq_dec w (q - 1)) as [Ew|Nw].
  - (* the product is a multiple of D *)
    assert (E : redkm k m (w * x) = - (k * x)).
    { unfold redkm. fold D. rewrite Ew, Hq1. replace (k * D * x) with (k * x * D) by ring.
      rewrite Z.mod_mul, Z.div_mul by lia. ring. }
    rewrite E. assert (HkB : - (k * x) <= k * B) by (replace (- (k * x)) with (k * - x) by ring; apply Z.mul_le_mono_nonneg_l; lia).
    split; [intros; exact HkB|]. intros HB1.
    assert (D * - (k * x) <= D * (k * B)) by (apply Z.mul_le_mono_nonneg_l; lia).
    rewrite Z.mul_add_distr_l. lia.
  - assert (U : D * redkm k m (w * x) <= D * (k * B + (q - k)) - (B + 1)).
    { assert (w * B <= (q - 2) * B) by (apply Z.mul_le_mono_nonneg_r; lia).
      replace ((q - 2) * B) with (k * D * B - B) in H by (rewrite <- Hq1; ring).
      replace (D * (k * B + (q - k))) with (k * D * B + D * (q - k)) by ring. lia. }
    split; [|intros; exact U]. intros HB1. apply scaled_le.
    rewrite Z.mul_add_distr_l in U. lia.
Qed.
End General.

Lemma redkm_ln x : redkm 3 12 x = ln_red x.
Proof. reflexivity. Qed.

(** ** Checking a sequence *)

Lemma redz_ln x : redz x = ln_red x.
Proof. reflexivity. Qed.

(** All y >= x have redz (a * y) <= C: one segment of constant a * y / 4096 at a time. *)
Fixpoint scan (f : nat) (a g C x : Z) : bool :=
  match f with
  | O => false
  | S f' =>
      let d := a * x / 4096 in
      if 3 * (4096 - g) - d <=? C then true
      else let x2 := (4096 * (d + 1) - 1) / a in (redz (a * x2) <=? C) && scan f' a g C (x2 + 1)
  end.

Lemma scan_ok a g C : 0 < a -> (g | 4096) -> (g | a) -> 0 < g ->
  forall f x, scan f a g C x = true -> forall y, x <= y -> redz (a * y) <= C.
Proof.
  intros Ha G1 G2 Hg. induction f as [|f IH]; [discriminate|]. intros x H y Hy. cbn [scan] in H. cbv zeta in H.
  destruct (Z.leb_spec (3 * (4096 - g) - a * x / 4096) C) as [HC|_].
  - assert (R := rem_gcd g a y G1 G2 Hg). assert (a * x / 4096 <= a * y / 4096).
    { apply Z.div_le_mono; [lia|]. apply Z.mul_le_mono_nonneg_l; lia. }
    unfold redz. lia.
  - apply andb_prop in H. destruct H as [H1 H2]. apply Z.leb_le in H1.
    set (d := a * x / 4096) in *. set (x2 := (4096 * (d + 1) - 1) / a) in *.
    destruct (Z.le_gt_cases y x2) as [Hle|Hgt]; [|apply (IH (x2 + 1) H2); lia].
    eapply Z.le_trans; [|exact H1]. apply same_div_le; [apply Z.mul_le_mono_nonneg_l; lia|].
    assert (E2 : a * x2 <= 4096 * (d + 1) - 1) by (unfold x2; apply Z.mul_div_le; lia).
    assert (a * x <= a * y) by (apply Z.mul_le_mono_nonneg_l; lia).
    assert (a * y <= a * x2) by (apply Z.mul_le_mono_nonneg_l; lia).
    assert (4096 * d <= a * x) by (unfold d; apply Z.mul_div_le; lia).
    clear - E2 H H0 H3. lia.
Qed.

(** The same one by one, where a = 4096 s + t and the first product is 4096 d + r. *)
Fixpoint scan1 (f : nat) (s t lim C d r : Z) : bool :=
  match f with
  | O => false
  | S f' =>
      if lim - d <=? C then true
      else (3 * r - d <=? C) &&
           let r' := r + t in
           if r' <? 4096 then scan1 f' s t lim C (d + s) r' else scan1 f' s t lim C (d + s + 1) (r' - 4096)
  end.

Lemma scan1_ok s t g C : 0 <= s -> 0 <= t < 4096 -> 0 < 4096 * s + t -> (g | 4096) -> (g | 4096 * s + t) -> 0 < g ->
  forall f x d r, (4096 * s + t) * x = 4096 * d + r -> 0 <= r < 4096 ->
  scan1 f s t (3 * (4096 - g)) C d r = true ->
  forall y, x <= y -> redz ((4096 * s + t) * y) <= C.
Proof.
  intros Hs Ht Ha G1 G2 Hg. induction f as [|f IH]; [discriminate|]. intros x d r E Hr H y Hy. cbn [scan1] in H.
  assert (Hd : (4096 * s + t) * x / 4096 = d) by (rewrite E; clear - Hr; lia).
  destruct (Z.leb_spec (3 * (4096 - g) - d) C) as [HC|_].
  - assert (R := rem_gcd g _ y G1 G2 Hg).
    assert (D : (4096 * s + t) * x / 4096 <= (4096 * s + t) * y / 4096).
    { apply Z.div_le_mono; [lia|]. apply Z.mul_le_mono_nonneg_l; lia. }
    unfold redz. rewrite Hd in D. clear - R D HC. lia.
  - apply andb_prop in H. destruct H as [H1 H2]. apply Z.leb_le in H1. cbv zeta in H2.
    destruct (Z.eq_dec y x) as [->|N].
    + unfold redz. rewrite E. clear - H1 Hr. lia.
    + destruct (Z.ltb_spec (r + t) 4096) as [L|L].
      * apply (IH (x + 1) (d + s) (r + t)); [rewrite Z.mul_add_distr_l, E; ring|lia|exact H2|lia].
      * apply (IH (x + 1) (d + s + 1) (r + t - 4096)); [rewrite Z.mul_add_distr_l, E; ring|lia|exact H2|lia].
Qed.

Definition scan_w (w C x : Z) : bool :=
  if 4096 <=? w then
    scan1 (Z.to_nat 5000) (w / 4096) (w mod 4096) (3 * (4096 - Z.gcd w 4096)) C (w * x / 4096) ((w * x) mod 4096)
  else scan (Z.to_nat 5000) w (Z.gcd w 4096) C x.

Lemma scan_w_ok w C x : 0 < w -> scan_w w C x = true -> forall y, x <= y -> redz (w * y) <= C.
Proof.
  intros Hw H y Hy. assert (Hg : 0 < Z.gcd w 4096).
  { assert (Z.gcd w 4096 <> 0) by (intros E; apply Z.gcd_eq_0_r in E; discriminate).
    assert (0 <= Z.gcd w 4096) by apply Z.gcd_nonneg. lia. }
  unfold scan_w in H. destruct (4096 <=? w).
  - assert (E : 4096 * (w / 4096) + w mod 4096 = w) by (symmetry; apply Z.div_mod; lia).
    rewrite <- E. apply (scan1_ok (w / 4096) (w mod 4096) (Z.gcd w 4096) C) with (f := Z.to_nat 5000) (x := x)
      (d := w * x / 4096) (r := (w * x) mod 4096); try rewrite E; try assumption.
    + apply Z.div_pos; lia.
    + apply Z.mod_pos_bound; lia.
    + apply Z.gcd_divide_r.
    + apply Z.gcd_divide_l.
    + apply Z.div_mod; lia.
    + apply Z.mod_pos_bound; lia.
  - apply (scan_ok w (Z.gcd w 4096) C Hw (Z.gcd_divide_r _ _) (Z.gcd_divide_l _ _) Hg _ x H y Hy).
Qed.

(** All w between 0 and [w] and all |y| <= Y have redz (w * y) <= C. *)
Fixpoint scan_down (f : nat) (Y C w : Z) : bool :=
  match f with
  | O => false
  | S f' => if w * Y / 4096 + 12286 <=? C then true
            else (0 <? w) && scan_w w C (- Y) && scan_down f' Y C (w - 1)
  end.

Lemma scan_down_ok Y C : 0 <= Y -> forall f w, scan_down f Y C w = true ->
  forall v y, 0 <= v <= w -> - Y <= y <= Y -> redz (v * y) <= C.
Proof.
  intros HY. induction f as [|f IH]; [discriminate|]. intros w H v y Hv Hy. cbn [scan_down] in H.
  destruct (Z.leb_spec (w * Y / 4096 + 12286) C) as [HC|_].
  - assert (- (w * Y) <= v * y <= w * Y).
    { assert (A := abs_prod v w y Y ltac:(lia) Hy). exact A. }
    apply redz_abs in H0. lia.
  - apply andb_prop in H. destruct H as [H H2]. apply andb_prop in H. destruct H as [H0 H1].
    apply Z.ltb_lt in H0. destruct (Z.eq_dec v w) as [->|N]; [|apply (IH (w - 1) H2); lia].
    apply (scan_w_ok w C (- Y) H0 H1). lia.
Qed.

(** All |w| <= W and |y| <= Y have |redz (w * y)| <= C. *)
Definition products (Y C W : Z) : bool := (0 <=? Y) && (W * Y / 4096 <=? C) && scan_down 60 Y C W.

Lemma products_ok Y C W : products Y C W = true ->
  forall w y, - W <= w <= W -> - Y <= y <= Y -> - C <= redz (w * y) <= C.
Proof.
  intros H w y Hw Hy. apply andb_prop in H. destruct H as [H H2]. apply andb_prop in H. destruct H as [H0 H1].
  apply Z.leb_le in H0, H1.
  assert (P : forall v z, 0 <= v <= W -> - Y <= z <= Y -> - C <= redz (v * z) <= C).
  { intros v z Hv Hz. split; [|exact (scan_down_ok Y C H0 _ W H2 v z Hv Hz)].
    assert (A := abs_prod v W z Y ltac:(lia) Hz). apply redz_abs in A. lia. }
  destruct (Z.le_gt_cases 0 w) as [Hp|Hn].
  - apply P; lia.
  - replace (w * y) with ((- w) * (- y)) by ring. apply P; lia.
Qed.

Definition update_of (gs : bool) (low high : Z) : Z -> Z -> Prop :=
  if gs then gs_update low high else ct_update low high.

(** Soundness of one update. *)
Definition upd (gs : bool) (low high b c : Z) : bool :=
  let W := Z.max (Z.abs low) (Z.abs high) in
  if gs then (2 * b <=? c) && products (2 * b) c W else products b (c - b) W.

Lemma upd_ok gs low high b c : upd gs low high b c = true -> update_of gs low high b c.
Proof.
  unfold upd, update_of. destruct gs.
  - intros H. apply andb_prop in H. destruct H as [H1 H2]. apply Z.leb_le in H1. intros x y w Hx Hy Hw.
    split; [lia|]. rewrite Z.mul_comm, <- redz_ln. apply (products_ok _ _ _ H2); lia.
  - intros H x y w Hx Hy Hw. rewrite <- redz_ln.
    assert (P := products_ok _ _ _ H w y ltac:(lia) Hy). lia.
Qed.

Lemma red_step b c : products b c 1 = true -> reduction b c.
Proof.
  intros H x Hx. rewrite <- redz_ln. replace x with (1 * x) by ring. apply (products_ok _ _ _ H); lia.
Qed.

Fixpoint sound_from (gs : bool) (low high b : Z) (l : list line) : bool :=
  match l with
  | [] => true
  | Bound c :: l' => upd gs low high b c && sound_from gs low high c l'
  | Reduced c :: l' => products b c 1 && sound_from gs low high c l'
  end.

Lemma sound_from_ok gs low high : forall l b, sound_from gs low high b l = true ->
  follows (update_of gs low high) reduction b l.
Proof.
  induction l as [|[c|c] l IH]; intros b H; [exact I| |]; cbn [sound_from] in H; apply andb_prop in H;
    destruct H as [H1 H2]; (split; [|apply IH; exact H2]).
  - apply upd_ok; exact H1.
  - apply red_step; exact H1.
Qed.

(** One update attained, at the constant [w] and the operand [y]. *)
Definition hit (gs : bool) (low high b c w y : Z) : bool :=
  (low <=? w) && (w <=? high) &&
  (if gs then (- (2 * b) <=? y) && (y <=? 2 * b) && (redz (w * y) =? c)
   else (- b <=? y) && (y <=? b) && (redz (w * y) =? c - b)).

Lemma hit_ok gs low high b c w y : 0 <= b -> hit gs low high b c w y = true ->
  forall d, update_of gs low high b d -> c <= d.
Proof.
  intros Hb H d Hd. unfold hit in H. rewrite !andb_true_iff, !Z.leb_le in H. destruct H as [Hw H]. destruct gs; cbn [update_of] in Hd.
  - rewrite !andb_true_iff, !Z.leb_le, Z.eqb_eq in H. destruct H as [Hy E].
    destruct (Hd (y / 2) (y / 2 - y) w) as [_ HE]; [lia|lia|lia|].
    replace ((y / 2 - (y / 2 - y)) * w) with (w * y) in HE by ring. rewrite <- redz_ln in HE. lia.
  - rewrite !andb_true_iff, !Z.leb_le, Z.eqb_eq in H. destruct H as [Hy E].
    destruct (Hd b y w) as [HE _]; [lia|lia|lia|]. rewrite <- redz_ln in HE. lia.
Qed.

Fixpoint least_from (gs : bool) (low high b : Z) (l : list line) (cert : list (Z * Z)) : bool :=
  match l, cert with
  | [], [] => true
  | Bound c :: l', (w, y) :: cert' =>
      (0 <=? b) && upd gs low high b c && hit gs low high b c w y && least_from gs low high c l' cert'
  | Reduced c :: l', (_, y) :: cert' =>
      products b c 1 && (- b <=? y) && (y <=? b) && (redz y =? c) && least_from gs low high c l' cert'
  | _, _ => false
  end.

Lemma least_from_ok gs low high : forall l cert b, least_from gs low high b l cert = true ->
  follows (least (update_of gs low high)) (least reduction) b l.
Proof.
  induction l as [|[c|c] l IH]; intros [|[w y] cert] b H; try discriminate; [exact I| |]; cbn [least_from] in H;
    rewrite !andb_true_iff in H.
  - destruct H as [[[H0 H1] H2] H3]. apply Z.leb_le in H0. split; [|apply (IH cert); exact H3].
    split; [apply upd_ok; exact H1|]. exact (hit_ok _ _ _ _ _ _ _ H0 H2).
  - destruct H as [[[[H0 H1] H2] H3] H4]. apply Z.leb_le in H1, H2. apply Z.eqb_eq in H3. split; [|apply (IH cert); exact H4].
    split; [apply red_step; exact H0|]. intros d Hd. specialize (Hd y ltac:(lia)). rewrite <- redz_ln in Hd. lia.
Qed.
