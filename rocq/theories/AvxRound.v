(** The rounds of the transforms with 32-bit wrap-around, and the C transforms in terms of
    them: if a run of the C code returns, the array is the one these rounds give. *)

From Coq Require Import ZArith List Bool Lia.
From Verif Require Import CSem Spec Loops Stages OuterLoops RedElem NttElem IntervalLoops IntervalSound PcLoops
  AvxSem AvxElem AvxArrays ModelRed.
Import ListNotations.
Open Scope Z_scope.

(** ** Rounds *)

Definition cw (h : Z) (m : Z -> Z -> Z) (F : Z -> Z) (i : Z) : Z :=
  if (i / h) mod 2 =? 0 then to_i32 (F i + m i (F (i + h))) else to_i32 (F (i - h) - m (i - h) (F i)).
Definition gw (h : Z) (m : Z -> Z -> Z) (F : Z -> Z) (i : Z) : Z :=
  if (i / h) mod 2 =? 0 then to_i32 (F i + F (i + h)) else m (i - h) (to_i32 (F (i - h) - F i)).
Definition mwA (p : list Z) (t s x : Z) : Z := mr (x * at_ p (t + s mod t)).
Definition mwB (p : list Z) (t d s x : Z) : Z := mr (x * at_ p (t + s / (2 * d))).

Lemma mr_skip x : mr (x * -4096) = to_i32 x.
Proof. rewrite mr_eq. f_equal. unfold redz. replace (x * -4096) with (- x * 4096) by ring.
  rewrite Z.mod_mul, Z.div_mul by lia. ring. Qed.
Lemma add_skip y x : to_i32 (y + mr (x * -4096)) = to_i32 (y + x).
Proof. rewrite mr_skip. apply addW_r. Qed.
Lemma sub_skip y x : to_i32 (y - mr (x * -4096)) = to_i32 (y - x).
Proof. rewrite mr_skip. apply subW_r. Qed.

Lemma cw_pair h m F i j : 0 < h -> j = i + h -> (i / h) mod 2 = 0 ->
  cw h m F i = to_i32 (F i + m i (F j)) /\ cw h m F j = to_i32 (F i - m i (F j)).
Proof.
  intros Hh -> Hi. unfold cw. rewrite Hi. replace (i + h) with (i + 1 * h) by ring.
  rewrite Z.div_add by lia. replace ((i / h + 1) mod 2) with 1 by lia. cbn [Z.eqb].
  replace (i + 1 * h - h) with i by ring. split; reflexivity.
Qed.
Lemma gw_pair h m F i j : 0 < h -> j = i + h -> (i / h) mod 2 = 0 ->
  gw h m F i = to_i32 (F i + F j) /\ gw h m F j = m i (to_i32 (F i - F j)).
Proof.
  intros Hh -> Hi. unfold gw. rewrite Hi. replace (i + h) with (i + 1 * h) by ring.
  rewrite Z.div_add by lia. replace ((i / h + 1) mod 2) with 1 by lia. cbn [Z.eqb].
  replace (i + 1 * h - h) with i by ring. split; reflexivity.
Qed.

Lemma mwA_at p t j c x : 0 < t -> 0 <= j < t -> mwA p t (posA t j c) x = mr (x * at_ p (t + j)).
Proof.
  intros. unfold mwA, posA. replace (j + c * (2 * t)) with (j + (2 * c) * t) by ring.
  rewrite Z.mod_add, Z.mod_small by lia. reflexivity.
Qed.
Lemma mwB_at p t d j c x : 0 < d -> 0 <= c < d -> mwB p t d (posB d j c) x = mr (x * at_ p (t + j)).
Proof.
  intros. unfold mwB, posB. replace (2 * d * j + c) with (c + j * (2 * d)) by ring.
  rewrite Z.div_add, Z.div_small by lia. reflexivity.
Qed.
Lemma posA_lo t j c : 0 < t -> 0 <= j < t -> (posA t j c / t) mod 2 = 0.
Proof. intros. unfold posA. apply half_lo; assumption. Qed.
Lemma posB_lo d j c : 0 < d -> 0 <= c < d -> (posB d j c / d) mod 2 = 0.
Proof. intros. unfold posB. replace (2 * d * j + c) with (c + j * (2 * d)) by ring. apply half_lo; assumption. Qed.

(** ** C butterflies that return *)

Definition isF (F : Z -> Z) (i v : Z) : Prop := v = F i.

Section Bfly.
Variables (n h s : Z) (F G : Z -> Z).
Hypothesis Hn : n <= 2147483648.
Hypothesis Hs : 0 <= s.
Hypothesis Hh : 0 < h.
Hypothesis Hsh : s + h < n.

Lemma add32_inv x y v : add32 x y = Ok v -> v = to_i32 (x + y).
Proof. intros H. apply i32_inv in H. destruct H as (-> & H). symmetry. apply to_i32_small. lia. Qed.
Lemma sub32_inv x y v : sub32 x y = Ok v -> v = to_i32 (x - y).
Proof. intros H. apply i32_inv in H. destruct H as (-> & H). symmetry. apply to_i32_small. lia. Qed.

Ltac nxt E := apply bind_inv in E; let x := fresh "x" in let Ex := fresh "Ex" in destruct E as (x & Ex & E).

Lemma zb0 : G s = to_i32 (F s + F (s + h)) -> G (s + h) = to_i32 (F s - F (s + h)) ->
  zbspec n h (isF F) (isF G) s (bfly0_red s h).
Proof.
  unfold isF. intros G1 G2 a HL Y X r E. unfold bfly0_red in E. rewrite (pair_idx n s h) in E by lia.
  rewrite rd_ok in E by lia. cbn [bind] in E. rewrite rd_ok in E by lia. cbn [bind] in E.
  nxt E. rewrite wr_ok in E by lia. cbn [bind] in E.
  rewrite rd_ok in E by (rewrite aset_len; lia). cbn [bind] in E. nxt E.
  rewrite wr_ok in E by (rewrite aset_len; lia). inversion E; subst r.
  rewrite at_aset_other in Ex0 by lia. apply add32_inv in Ex0. apply sub32_inv in Ex.
  exists x0, x. split; [reflexivity|]. rewrite G1, G2, <- X, <- Y. split; assumption.
Qed.

Lemma zb_ct w : G s = to_i32 (F s + mr (F (s + h) * w)) -> G (s + h) = to_i32 (F s - mr (F (s + h) * w)) ->
  zbspec n h (isF F) (isF G) s (ct_bfly_red w s h).
Proof.
  unfold isF. intros G1 G2 a HL Y X r E. unfold ct_bfly_red in E. rewrite (pair_idx n s h) in E by lia.
  rewrite rd_ok in E by lia. cbn [bind] in E. nxt E. rewrite rd_ok in E by lia. cbn [bind] in E.
  nxt E. rewrite wr_ok in E by lia. cbn [bind] in E.
  rewrite rd_ok in E by (rewrite aset_len; lia). cbn [bind] in E. nxt E.
  rewrite wr_ok in E by (rewrite aset_len; lia). inversion E; subst r.
  rewrite at_aset_other in Ex1 by lia. apply add32_inv in Ex1. apply sub32_inv in Ex0.
  apply mul_red_inv in Ex. destruct Ex as (Ex & _). rewrite <- mr_eq in Ex. subst x.
  exists x1, x0. split; [reflexivity|]. rewrite G1, G2, <- X, <- Y. split; assumption.
Qed.

Lemma zb_gs w : G s = to_i32 (F s + F (s + h)) -> G (s + h) = mr (to_i32 (F s - F (s + h)) * w) ->
  zbspec n h (isF F) (isF G) s (gs_bfly_red w s h).
Proof.
  unfold isF. intros G1 G2 a HL Y X r E. unfold gs_bfly_red in E. rewrite (pair_idx n s h) in E by lia.
  rewrite rd_ok in E by lia. cbn [bind] in E. rewrite rd_ok in E by lia. cbn [bind] in E.
  nxt E. nxt E. rewrite wr_ok in E by lia. cbn [bind] in E.
  rewrite rd_ok in E by (rewrite aset_len; lia). cbn [bind] in E. nxt E.
  rewrite wr_ok in E by (rewrite aset_len; lia). inversion E; subst r.
  rewrite at_aset_other in Ex1 by lia. apply add32_inv in Ex1. apply sub32_inv in Ex.
  apply mul_red_inv in Ex0. destruct Ex0 as (Ex0 & _). rewrite <- mr_eq in Ex0.
  exists x1, x0. split; [reflexivity|]. rewrite G1, G2, <- X, <- Y. split; [assumption|].
  rewrite Ex0. now rewrite Ex.
Qed.
End Bfly.

(** ** The eight C transforms *)

Definition w_ctA (p : list Z) (k c : Z) := cw (2 ^ c) (mwA p (2 ^ c)).
Definition w_ctB (p : list Z) (k c : Z) := cw (2 ^ (k - 1 - c)) (mwB p (2 ^ c) (2 ^ (k - 1 - c))).
Definition w_gsA (p : list Z) (k c : Z) := gw (2 ^ (k - 1 - c)) (mwA p (2 ^ (k - 1 - c))).
Definition w_gsB (p : list Z) (k c : Z) := gw (2 ^ c) (mwB p (2 ^ (k - 1 - c)) (2 ^ c)).

(** [b] is the array of the values [F] *)
Definition isA (n : Z) (F : Z -> Z) (b : list Z) : Prop := zlen b = n /\ forall i, 0 <= i < n -> isF F i (at_ b i).

Section Outer.
Variables (k n : Z) (rnd : Z -> (Z -> Z) -> Z -> Z) (F0 : Z -> Z).
Hypothesis Hk : 0 <= k <= 31.
Hypothesis Hn : n = 2 ^ k.
Let J c := isA n (Tr rnd F0 c).

Lemma zup_pc (body : Z -> list Z -> res (list Z)) :
  (forall c a, 0 <= c < k -> J c a -> pc (body (2 ^ c) a) (J (c + 1))) ->
  forall f a, J 0 a -> pc (cfor f 1 (fun t => t <? n) (fun t => u32 (t * 2)) body a) (J k).
Proof.
  intros Hb f a Ha. apply (cfor_pc J k (fun c => 2 ^ c)); try lia; try assumption.
  - intros l Hl. apply Z.ltb_lt, (pow_lt_n k n (fun _ _ _ => True)); auto; lia.
  - intros l Hl. apply (pow_next k n (fun _ _ _ => True)); auto; lia.
Qed.

Lemma zdown_pc (body : Z -> list Z -> res (list Z)) :
  (forall c a, 0 <= c < k -> J c a -> pc (body (2 ^ (k - 1 - c)) a) (J (c + 1))) ->
  forall f a, J 0 a -> pc (cfor f (Z.shiftr n 1) (fun t => 0 <? t) (fun t => Z.shiftr t 1) body a) (J k).
Proof.
  intros Hb f a Ha. apply (cfor_pc J k (fun c => 2 ^ (k - 1 - c))); try lia; try assumption.
  - replace (k - 1 - k) with (-1) by lia. reflexivity.
  - intros c Hc. rewrite halfpow. f_equal. lia.
  - rewrite Hn, halfpow. f_equal. lia.
Qed.

Lemma zupd_pc (body : Z -> Z * list Z -> res (Z * list Z)) :
  (forall c a, 0 <= c < k -> J c a ->
     pc (body (2 ^ c) (2 ^ (k - c), a)) (fun '(d, a) => d = 2 ^ (k - 1 - c) /\ J (c + 1) a)) ->
  forall f a, J 0 a ->
  pc (cfor f 1 (fun t => t <? n) (fun t => u32 (t * 2)) body (n, a)) (fun '(_, a) => J k a).
Proof.
  intros Hb f a Ha.
  apply pc_weak with (R := fun '(d, a) => d = 2 ^ (k - k) /\ J k a).
  2:{ intros [d b] [_ H]. exact H. }
  apply (cfor_pc (fun c '(d, a) => d = 2 ^ (k - c) /\ J c a) k (fun c => 2 ^ c)); try lia.
  - intros l Hl. apply Z.ltb_lt, (pow_lt_n k n (fun _ _ _ => True)); auto; lia.
  - intros l Hl. apply (pow_next k n (fun _ _ _ => True)); auto; lia.
  - intros c [d b] Hc [-> HJ]. replace (k - (c + 1)) with (k - 1 - c) by lia. apply Hb; assumption.
  - split; [|exact Ha]. rewrite Hn. f_equal. lia.
Qed.
End Outer.

Section C.
Variables (k n : Z) (p a : list Z).
Hypothesis Hk : 0 <= k <= 31.
Hypothesis Hn : n = 2 ^ k.
Hypothesis HL : zlen a = n.

Ltac facts c :=
  assert (Hn31 := n_le k n (fun _ _ _ => True) Hk Hn);
  assert (0 < 2 ^ c) by (apply Z.pow_pos_nonneg; lia);
  assert (0 < 2 ^ (k - 1 - c)) by (apply Z.pow_pos_nonneg; lia);
  assert (Hsp := pow_split k n (fun _ _ _ => True) Hn c ltac:(lia)).
Ltac wtab Ew := apply rd_inv in Ew; destruct Ew as [_ ->].

Lemma isA0 : isA n (Tr (w_ctA p k) (at_ a) 0) a.
Proof. split; [exact HL|]. intros i _. reflexivity. Qed.

Lemma ntt_red_ct_rev2std_pc : (forall c, 0 <= c < k -> at_ p (2 ^ c) = -4096) ->
  pc (ntt_red_ct_rev2std a n p) (isA n (Tr (w_ctA p k) (at_ a) k)).
Proof.
  intros H4. intros r E. unfold ntt_red_ct_rev2std in E.
  refine (zup_pc k n (w_ctA p k) (at_ a) Hk Hn _ _ (fuel n) a isA0 r E).
  clear E r. intros c b Hc [HLb HPb]. facts c. intros r E.
  set (T := 2 ^ c) in *. set (M := 2 ^ (k - 1 - c)) in *. assert (H1 : 0 < T) by assumption. assert (H2 : 0 < M) by assumption.
  assert (Hsp' : n = 2 * T * M) by (rewrite Hsp; ring).
  assert (HT : at_ p T = -4096) by (apply H4; lia).
  unfold isA. rewrite Tr_succ by lia. set (F := Tr (w_ctA p k) (at_ a) c) in *.
  assert (posR := posA_range n T M (fun _ _ => True) (fun _ _ => True) H1 H2 Hsp' Hn31).
  refine (z_stageA_plain n T M (isF F) (isF (w_ctA p k c F)) H1 H2 Hsp' Hn31 p (fun s => bfly0_red s T) (fun w s => ct_bfly_red w s T) (fuel n) (fuel n) (fuel n) b _ _ HLb HPb r E).
  all: clear E; unfold w_ctA; fold T M.
  - intros x Hx. destruct (posR 0 x ltac:(lia) Hx) as [R1 R2].
    destruct (cw_pair T (mwA p T) F (posA T 0 x) (posA T 0 x + T)) as [G1 G2]; [lia|reflexivity|apply posA_lo; lia|].
    apply zb0; try lia; (rewrite G1 || rewrite G2); rewrite ?mwA_at, ?Z.add_0_r by lia; rewrite ?HT, ?add_skip, ?sub_skip, ?mr_skip, ?to_i32_idem; reflexivity.
  - intros j x w Hj Hx Ew. wtab Ew. destruct (posR j x ltac:(lia) Hx) as [R1 R2].
    destruct (cw_pair T (mwA p T) F (posA T j x) (posA T j x + T)) as [G1 G2]; [lia|reflexivity|apply posA_lo; lia|].
    apply zb_ct; try lia; (rewrite G1 || rewrite G2); rewrite ?mwA_at by lia; reflexivity.
Qed.

Lemma mulntt_red_ct_rev2std_pc :
  pc (mulntt_red_ct_rev2std a n p) (isA n (Tr (w_ctA p k) (at_ a) k)).
Proof.
  intros r E. unfold mulntt_red_ct_rev2std in E.
  refine (zup_pc k n (w_ctA p k) (at_ a) Hk Hn _ _ (fuel n) a isA0 r E).
  clear E r. intros c b Hc [HLb HPb]. facts c. intros r E.
  set (T := 2 ^ c) in *. set (M := 2 ^ (k - 1 - c)) in *. assert (H1 : 0 < T) by assumption. assert (H2 : 0 < M) by assumption.
  assert (Hsp' : n = 2 * T * M) by (rewrite Hsp; ring).
  unfold isA. rewrite Tr_succ by lia. set (F := Tr (w_ctA p k) (at_ a) c) in *.
  assert (posR := posA_range n T M (fun _ _ => True) (fun _ _ => True) H1 H2 Hsp' Hn31).
  refine (z_stageA_mul n T M (isF F) (isF (w_ctA p k c F)) H1 H2 Hsp' Hn31 p (fun w s => ct_bfly_red w s T) (fuel n) (fuel n) b _ HLb HPb r E).
  all: clear E; unfold w_ctA; fold T M.
  - intros j x w Hj Hx Ew. wtab Ew. destruct (posR j x ltac:(lia) Hx) as [R1 R2].
    destruct (cw_pair T (mwA p T) F (posA T j x) (posA T j x + T)) as [G1 G2]; [lia|reflexivity|apply posA_lo; lia|].
    apply zb_ct; try lia; (rewrite G1 || rewrite G2); rewrite ?mwA_at by lia; reflexivity.
Qed.

Lemma ntt_red_ct_std2rev_pc : (forall c, 0 <= c < k -> at_ p (2 ^ c) = -4096) ->
  pc (ntt_red_ct_std2rev a n p) (isA n (Tr (w_ctB p k) (at_ a) k)).
Proof.
  intros H4. intros r E. unfold ntt_red_ct_std2rev in E.
  match type of E with bind ?m _ = _ => destruct m as [[d r']|] eqn:Em end; [|discriminate].
  inversion E; subst r'. clear E.
  refine (zupd_pc k n (w_ctB p k) (at_ a) Hk Hn _ _ (fuel n) a isA0 (d, r) Em).
  clear Em d r. intros c b Hc [HLb HPb]. facts c. intros r E. cbv beta iota zeta in E.
  rewrite halfpow in E. replace (k - c - 1) with (k - 1 - c) in E by lia.
  set (T := 2 ^ c) in *. set (M := 2 ^ (k - 1 - c)) in *. assert (H1 : 0 < T) by assumption. assert (H2 : 0 < M) by assumption.
  assert (Hsp' : n = 2 * T * M) by (rewrite Hsp; ring).
  assert (HT : at_ p T = -4096) by (apply H4; lia).
  match type of E with bind ?m _ = _ => destruct m as [b1|] eqn:E1 end; [|discriminate]. cbn [bind] in E.
  match type of E with bind ?m _ = _ => destruct m as [[u2 b2]|] eqn:E2 end; [|discriminate]. cbn [bind] in E.
  inversion E; subst r. clear E. split; [reflexivity|].
  unfold isA. rewrite Tr_succ by lia. set (F := Tr (w_ctB p k) (at_ a) c) in *.
  assert (posR := posB_range n T M (fun _ _ => True) (fun _ _ => True) H1 H2 Hsp' Hn31).
  refine (z_stageB_plain_ct n T M (isF F) (isF (w_ctB p k c F)) H1 H2 Hsp' Hn31 p (fun s => bfly0_red s M) (fun w s => ct_bfly_red w s M) (fuel n) (fuel n) (fuel n) b _ _ HLb HPb (u2, b2) _).
  3: { cbv beta iota zeta. rewrite E1. cbn [bind]. exact E2. }
  all: clear E1 E2; unfold w_ctB; fold T M.
  - intros x Hx. destruct (posR 0 x ltac:(lia) Hx) as [R1 R2].
    destruct (cw_pair M (mwB p T M) F (posB M 0 x) (posB M 0 x + M)) as [G1 G2]; [lia|reflexivity|apply posB_lo; lia|].
    apply zb0; try lia; (rewrite G1 || rewrite G2); rewrite ?mwB_at, ?Z.add_0_r by lia; rewrite ?HT, ?add_skip, ?sub_skip, ?mr_skip, ?to_i32_idem; reflexivity.
  - intros j x w Hj Hx Ew. wtab Ew. destruct (posR j x ltac:(lia) Hx) as [R1 R2].
    destruct (cw_pair M (mwB p T M) F (posB M j x) (posB M j x + M)) as [G1 G2]; [lia|reflexivity|apply posB_lo; lia|].
    apply zb_ct; try lia; (rewrite G1 || rewrite G2); rewrite ?mwB_at by lia; reflexivity.
Qed.

Lemma mulntt_red_ct_std2rev_pc :
  pc (mulntt_red_ct_std2rev a n p) (isA n (Tr (w_ctB p k) (at_ a) k)).
Proof.
  intros r E. unfold mulntt_red_ct_std2rev in E.
  match type of E with bind ?m _ = _ => destruct m as [[d r']|] eqn:Em end; [|discriminate].
  inversion E; subst r'. clear E.
  refine (zupd_pc k n (w_ctB p k) (at_ a) Hk Hn _ _ (fuel n) a isA0 (d, r) Em).
  clear Em d r. intros c b Hc [HLb HPb]. facts c. intros r E. cbv beta iota zeta in E.
  rewrite halfpow in E. replace (k - c - 1) with (k - 1 - c) in E by lia.
  set (T := 2 ^ c) in *. set (M := 2 ^ (k - 1 - c)) in *. assert (H1 : 0 < T) by assumption. assert (H2 : 0 < M) by assumption.
  assert (Hsp' : n = 2 * T * M) by (rewrite Hsp; ring).
  match type of E with bind ?m _ = _ => destruct m as [[u2 b2]|] eqn:E2 end; [|discriminate]. cbn [bind] in E.
  inversion E; subst r. clear E. split; [reflexivity|].
  unfold isA. rewrite Tr_succ by lia. set (F := Tr (w_ctB p k) (at_ a) c) in *.
  assert (posR := posB_range n T M (fun _ _ => True) (fun _ _ => True) H1 H2 Hsp' Hn31).
  refine (z_stageB_mul n T M (isF F) (isF (w_ctB p k c F)) H1 H2 Hsp' Hn31 p (fun w s => ct_bfly_red w s M) (fuel n) (fuel n) b _ HLb HPb (u2, b2) E2).
  all: clear E2; unfold w_ctB; fold T M.
  - intros j x w Hj Hx Ew. wtab Ew. destruct (posR j x ltac:(lia) Hx) as [R1 R2].
    destruct (cw_pair M (mwB p T M) F (posB M j x) (posB M j x + M)) as [G1 G2]; [lia|reflexivity|apply posB_lo; lia|].
    apply zb_ct; try lia; (rewrite G1 || rewrite G2); rewrite ?mwB_at by lia; reflexivity.
Qed.

Lemma ntt_red_gs_rev2std_pc : (forall c, 0 <= c < k -> at_ p (2 ^ c) = -4096) ->
  pc (ntt_red_gs_rev2std a n p) (isA n (Tr (w_gsB p k) (at_ a) k)).
Proof.
  intros H4. intros r E. unfold ntt_red_gs_rev2std in E.
  match type of E with bind ?m _ = _ => destruct m as [[d r']|] eqn:Em end; [|discriminate].
  inversion E; subst r'. clear E.
  refine (zupd_pc k n (w_gsB p k) (at_ a) Hk Hn _ _ (fuel n) a isA0 (d, r) Em).
  clear Em d r. intros c b Hc [HLb HPb]. facts c. intros r E. cbv beta iota zeta in E.
  rewrite halfpow in E. replace (k - c - 1) with (k - 1 - c) in E by lia.
  set (T := 2 ^ (k - 1 - c)) in *. set (M := 2 ^ c) in *. assert (H1 : 0 < T) by assumption. assert (H2 : 0 < M) by assumption.
  assert (Hsp' : n = 2 * T * M) by (rewrite Hsp; ring).
  assert (HT : at_ p T = -4096) by (apply H4; lia).
  match type of E with bind ?m _ = _ => destruct m as [b1|] eqn:E1 end; [|discriminate]. cbn [bind] in E.
  match type of E with bind ?m _ = _ => destruct m as [[u2 b2]|] eqn:E2 end; [|discriminate]. cbn [bind] in E.
  inversion E; subst r. clear E. split; [reflexivity|].
  unfold isA. rewrite Tr_succ by lia. set (F := Tr (w_gsB p k) (at_ a) c) in *.
  assert (posR := posB_range n T M (fun _ _ => True) (fun _ _ => True) H1 H2 Hsp' Hn31).
  refine (z_stageB_plain_gs n T M (isF F) (isF (w_gsB p k c F)) H1 H2 Hsp' Hn31 p (fun s => bfly0_red s M) (fun w s => gs_bfly_red w s M) (fuel n) (fuel n) (fuel n) b _ _ HLb HPb (u2, b2) _).
  3: { cbv beta iota zeta. rewrite E1. cbn [bind]. exact E2. }
  all: clear E1 E2; unfold w_gsB; fold T M.
  - intros x Hx. destruct (posR 0 x ltac:(lia) Hx) as [R1 R2].
    destruct (gw_pair M (mwB p T M) F (posB M 0 x) (posB M 0 x + M)) as [G1 G2]; [lia|reflexivity|apply posB_lo; lia|].
    apply zb0; try lia; (rewrite G1 || rewrite G2); rewrite ?mwB_at, ?Z.add_0_r by lia; rewrite ?HT, ?add_skip, ?sub_skip, ?mr_skip, ?to_i32_idem; reflexivity.
  - intros j x w Hj Hx Ew. wtab Ew. destruct (posR j x ltac:(lia) Hx) as [R1 R2].
    destruct (gw_pair M (mwB p T M) F (posB M j x) (posB M j x + M)) as [G1 G2]; [lia|reflexivity|apply posB_lo; lia|].
    apply zb_gs; try lia; (rewrite G1 || rewrite G2); rewrite ?mwB_at by lia; reflexivity.
Qed.

Lemma nttmul_red_gs_rev2std_pc :
  pc (nttmul_red_gs_rev2std a n p) (isA n (Tr (w_gsB p k) (at_ a) k)).
Proof.
  intros r E. unfold nttmul_red_gs_rev2std in E.
  match type of E with bind ?m _ = _ => destruct m as [[d r']|] eqn:Em end; [|discriminate].
  inversion E; subst r'. clear E.
  refine (zupd_pc k n (w_gsB p k) (at_ a) Hk Hn _ _ (fuel n) a isA0 (d, r) Em).
  clear Em d r. intros c b Hc [HLb HPb]. facts c. intros r E. cbv beta iota zeta in E.
  rewrite halfpow in E. replace (k - c - 1) with (k - 1 - c) in E by lia.
  set (T := 2 ^ (k - 1 - c)) in *. set (M := 2 ^ c) in *. assert (H1 : 0 < T) by assumption. assert (H2 : 0 < M) by assumption.
  assert (Hsp' : n = 2 * T * M) by (rewrite Hsp; ring).
  match type of E with bind ?m _ = _ => destruct m as [[u2 b2]|] eqn:E2 end; [|discriminate]. cbn [bind] in E.
  inversion E; subst r. clear E. split; [reflexivity|].
  unfold isA. rewrite Tr_succ by lia. set (F := Tr (w_gsB p k) (at_ a) c) in *.
  assert (posR := posB_range n T M (fun _ _ => True) (fun _ _ => True) H1 H2 Hsp' Hn31).
  refine (z_stageB_mul n T M (isF F) (isF (w_gsB p k c F)) H1 H2 Hsp' Hn31 p (fun w s => gs_bfly_red w s M) (fuel n) (fuel n) b _ HLb HPb (u2, b2) E2).
  all: clear E2; unfold w_gsB; fold T M.
  - intros j x w Hj Hx Ew. wtab Ew. destruct (posR j x ltac:(lia) Hx) as [R1 R2].
    destruct (gw_pair M (mwB p T M) F (posB M j x) (posB M j x + M)) as [G1 G2]; [lia|reflexivity|apply posB_lo; lia|].
    apply zb_gs; try lia; (rewrite G1 || rewrite G2); rewrite ?mwB_at by lia; reflexivity.
Qed.

Lemma ntt_red_gs_std2rev_pc : (forall c, 0 <= c < k -> at_ p (2 ^ c) = -4096) ->
  pc (ntt_red_gs_std2rev a n p) (isA n (Tr (w_gsA p k) (at_ a) k)).
Proof.
  intros H4. intros r E. unfold ntt_red_gs_std2rev in E.
  refine (zdown_pc k n (w_gsA p k) (at_ a) Hk Hn _ _ (fuel n) a isA0 r E).
  clear E r. intros c b Hc [HLb HPb]. facts c. intros r E.
  set (T := 2 ^ (k - 1 - c)) in *. set (M := 2 ^ c) in *. assert (H1 : 0 < T) by assumption. assert (H2 : 0 < M) by assumption.
  assert (Hsp' : n = 2 * T * M) by (rewrite Hsp; ring).
  assert (HT : at_ p T = -4096) by (apply H4; lia).
  unfold isA. rewrite Tr_succ by lia. set (F := Tr (w_gsA p k) (at_ a) c) in *.
  assert (posR := posA_range n T M (fun _ _ => True) (fun _ _ => True) H1 H2 Hsp' Hn31).
  refine (z_stageA_plain n T M (isF F) (isF (w_gsA p k c F)) H1 H2 Hsp' Hn31 p (fun s => bfly0_red s T) (fun w s => gs_bfly_red w s T) (fuel n) (fuel n) (fuel n) b _ _ HLb HPb r E).
  all: clear E; unfold w_gsA; fold T M.
  - intros x Hx. destruct (posR 0 x ltac:(lia) Hx) as [R1 R2].
    destruct (gw_pair T (mwA p T) F (posA T 0 x) (posA T 0 x + T)) as [G1 G2]; [lia|reflexivity|apply posA_lo; lia|].
    apply zb0; try lia; (rewrite G1 || rewrite G2); rewrite ?mwA_at, ?Z.add_0_r by lia; rewrite ?HT, ?add_skip, ?sub_skip, ?mr_skip, ?to_i32_idem; reflexivity.
  - intros j x w Hj Hx Ew. wtab Ew. destruct (posR j x ltac:(lia) Hx) as [R1 R2].
    destruct (gw_pair T (mwA p T) F (posA T j x) (posA T j x + T)) as [G1 G2]; [lia|reflexivity|apply posA_lo; lia|].
    apply zb_gs; try lia; (rewrite G1 || rewrite G2); rewrite ?mwA_at by lia; reflexivity.
Qed.

Lemma nttmul_red_gs_std2rev_pc :
  pc (nttmul_red_gs_std2rev a n p) (isA n (Tr (w_gsA p k) (at_ a) k)).
Proof.
  intros r E. unfold nttmul_red_gs_std2rev in E.
  refine (zdown_pc k n (w_gsA p k) (at_ a) Hk Hn _ _ (fuel n) a isA0 r E).
  clear E r. intros c b Hc [HLb HPb]. facts c. intros r E.
  set (T := 2 ^ (k - 1 - c)) in *. set (M := 2 ^ c) in *. assert (H1 : 0 < T) by assumption. assert (H2 : 0 < M) by assumption.
  assert (Hsp' : n = 2 * T * M) by (rewrite Hsp; ring).
  unfold isA. rewrite Tr_succ by lia. set (F := Tr (w_gsA p k) (at_ a) c) in *.
  assert (posR := posA_range n T M (fun _ _ => True) (fun _ _ => True) H1 H2 Hsp' Hn31).
  refine (z_stageA_mul n T M (isF F) (isF (w_gsA p k c F)) H1 H2 Hsp' Hn31 p (fun w s => gs_bfly_red w s T) (fuel n) (fuel n) b _ HLb HPb r E).
  all: clear E; unfold w_gsA; fold T M.
  - intros j x w Hj Hx Ew. wtab Ew. destruct (posR j x ltac:(lia) Hx) as [R1 R2].
    destruct (gw_pair T (mwA p T) F (posA T j x) (posA T j x + T)) as [G1 G2]; [lia|reflexivity|apply posA_lo; lia|].
    apply zb_gs; try lia; (rewrite G1 || rewrite G2); rewrite ?mwA_at by lia; reflexivity.
Qed.

End C.
