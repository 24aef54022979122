(** The benchmark copies of the transforms agree with src/ntt_red.c, and the loops of the
    harnesses. *)

From Coq Require Import ZArith List Bool Lia.
From Verif Require Import CSem Spec Loops RedElem ModelHarness.
From Verif Require ModelRed.
Import ListNotations.
Open Scope Z_scope.

(** ** A run with another multiplication *)

(** The second computation succeeds with the same result when the first does. *)
Definition le {A} (m m' : res A) : Prop := forall v, m = Ok v -> m' = Ok v.

Lemma le_refl {A} (m : res A) : le m m.
Proof. intros v H. exact H. Qed.

Lemma le_bind {A B} (m m' : res A) (f g : A -> res B) :
  le m m' -> (forall x, le (f x) (g x)) -> le (bind m f) (bind m' g).
Proof.
  intros H F v E. destruct m as [x|]; [|discriminate]. rewrite (H x eq_refl). exact (F x v E).
Qed.

Lemma le_cfor {S} fu i c nx (f g : Z -> S -> res S) st :
  (forall i st, le (f i st) (g i st)) -> le (cfor fu i c nx f st) (cfor fu i c nx g st).
Proof.
  intros H. revert i st. induction fu as [|fu IH]; intros i st; [apply le_refl|]. cbn [cfor].
  destruct (c i); [|apply le_refl]. apply le_bind; [apply H|]. intros x. apply IH.
Qed.

Section Same.
Variable b : bool.

Lemma mul_red_same x y : le (ModelRed.mul_red x y) (mul_red true b x y).
Proof.
  intros v. unfold ModelRed.mul_red, mul_red. destruct (mul64 x y) as [z|]; [|discriminate]. cbn [bind].
  destruct (Z.leb_spec (-8796042698752) z) as [L|L]; [|discriminate].
  destruct (Z.leb_spec z 8796093026303) as [U|U]; [|discriminate]. cbn [andb cassert bind].
  destruct b; [|exact (fun H => H)]. rewrite land4095, shiftr12. unfold mul32, sub32.
  assert (M := Z.mod_pos_bound z 4096 ltac:(lia)).
  rewrite (to_i32_small (z mod 4096)) by lia. rewrite (i32_ok (3 * (z mod 4096))) by lia. cbn [bind].
  destruct (Z.leb_spec z 8796093022207) as [U2|U2].
  - rewrite (to_i32_small (z / 4096)); [exact (fun H => H)|]. clear M. Z.div_mod_to_equations. lia.
  - assert (D : z / 4096 = 2147483648) by (clear M; Z.div_mod_to_equations; lia). rewrite D.
    change (to_i32 2147483648) with (-2147483648). unfold i32 at 1, in_i32.
    replace (3 * (z mod 4096) - -2147483648 <=? 2147483647) with false by lia. rewrite andb_false_r. discriminate.
Qed.

Lemma ct_bfly_same w s t a : le (ModelRed.ct_bfly_red w s t a) (ct_bfly true b w s t a).
Proof.
  unfold ModelRed.ct_bfly_red, ct_bfly. apply le_bind; [apply le_refl|]. intros y.
  apply le_bind; [apply mul_red_same|]. intros x. apply le_refl.
Qed.
Lemma gs_bfly_same w s t a : le (ModelRed.gs_bfly_red w s t a) (gs_bfly true b w s t a).
Proof.
  unfold ModelRed.gs_bfly_red, gs_bfly. apply le_bind; [apply le_refl|]. intros x.
  apply le_bind; [apply le_refl|]. intros y. apply le_bind; [apply le_refl|]. intros v.
  apply le_bind; [apply mul_red_same|]. intros z. apply le_refl.
Qed.

Lemma ct_rev2std_same a n p : le (ModelRed.ntt_red_ct_rev2std a n p) (ntt_red_ct_rev2std true b a n p).
Proof.
  unfold ModelRed.ntt_red_ct_rev2std, ntt_red_ct_rev2std. apply le_cfor. intros t st.
  apply le_bind; [apply le_cfor; intros; apply le_refl|]. intros a1.
  apply le_cfor. intros j a2. apply le_bind; [apply le_refl|]. intros w. apply le_cfor. intros s a3. apply ct_bfly_same.
Qed.
Lemma ct_std2rev_same a n p : le (ModelRed.ntt_red_ct_std2rev a n p) (ntt_red_ct_std2rev true b a n p).
Proof.
  unfold ModelRed.ntt_red_ct_std2rev, ntt_red_ct_std2rev. apply le_bind; [|intros [d r]; apply le_refl].
  apply le_cfor. intros t [d st]. cbv zeta.
  apply le_bind; [apply le_cfor; intros; apply le_refl|]. intros a1.
  apply le_bind; [|intros [d' r]; apply le_refl].
  apply le_cfor. intros j [u a2]. apply le_bind; [apply le_refl|]. intros w.
  apply le_bind; [|intros; apply le_refl]. apply le_cfor. intros s a3. apply ct_bfly_same.
Qed.
Lemma gs_rev2std_same a n p : le (ModelRed.ntt_red_gs_rev2std a n p) (ntt_red_gs_rev2std true b a n p).
Proof.
  unfold ModelRed.ntt_red_gs_rev2std, ntt_red_gs_rev2std. apply le_bind; [|intros [d r]; apply le_refl].
  apply le_cfor. intros d [t st]. cbv zeta.
  apply le_bind; [apply le_cfor; intros; apply le_refl|]. intros a1.
  apply le_bind; [|intros [d' r]; apply le_refl].
  apply le_cfor. intros j [u a2]. apply le_bind; [apply le_refl|]. intros w.
  apply le_bind; [|intros; apply le_refl]. apply le_cfor. intros s a3. apply gs_bfly_same.
Qed.
Lemma gs_std2rev_same a n p : le (ModelRed.ntt_red_gs_std2rev a n p) (ntt_red_gs_std2rev true b a n p).
Proof.
  unfold ModelRed.ntt_red_gs_std2rev, ntt_red_gs_std2rev. apply le_cfor. intros t st.
  apply le_bind; [apply le_cfor; intros; apply le_refl|]. intros a1.
  apply le_cfor. intros j a2. apply le_bind; [apply le_refl|]. intros w. apply le_cfor. intros s a3. apply gs_bfly_same.
Qed.
End Same.

(** ** ASSUME_FORALL *)

Lemma assume_spec nd c0 conv a size lb ub : 0 <= size -> zlen a = size ->
  (exists i, 0 <= i < size /\ ~ (lb <= nd (c0 + i) < ub)) /\ assume_forall nd c0 conv a size lb ub = Ok None
  \/ (forall i, 0 <= i < size -> lb <= nd (c0 + i) < ub)
     /\ exists r, assume_forall nd c0 conv a size lb ub = Ok (Some r) /\ zlen r = size
        /\ forall i, 0 <= i < size -> at_ r i = conv (nd (c0 + i)).
Proof.
  intros Hs HL. unfold assume_forall. match goal with |- context [cfor _ _ ?cd ?nx ?bd _] =>
  destruct (cfor_count (fun c (st : option (list Z)) => match st with
     | None => exists i, 0 <= i < c /\ ~ (lb <= nd (c0 + i) < ub)
     | Some r => zlen r = size /\ forall i, 0 <= i < c -> lb <= nd (c0 + i) < ub /\ at_ r i = conv (nd (c0 + i)) end)
     size (fun c => c) cd nx bd) with (f := fuel size) (i0 := 0) (st := Some a)
    as (st & E & J) end; try lia.
  - intros c st Hc HJ. destruct st as [r|].
    + cbv zeta. destruct HJ as [HLr HJ].
      destruct (Z.leb_spec lb (nd (c0 + c))) as [L|L]; cbn [negb].
      2:{ exists None. split; [reflexivity|]. exists c. lia. }
      destruct (Z.ltb_spec (nd (c0 + c)) ub) as [U|U]; cbn [negb].
      2:{ exists None. split; [reflexivity|]. exists c. lia. }
      rewrite wr_ok by lia. cbn [bind]. eexists. split; [reflexivity|]. cbv beta iota. split; [rewrite aset_len; exact HLr|].
      intros i Hi. destruct (Z.eq_dec i c) as [->|Hne].
      * split; [lia|]. apply at_aset_same. lia.
      * rewrite at_aset_other by lia. apply HJ. lia.
    + exists None. split; [reflexivity|]. destruct HJ as (i & Hi & HN). exists i. split; [lia|exact HN].
  - unfold fuel. lia.
  - split; [exact HL|]. intros i Hi. lia.
  - rewrite E. destruct st as [r|].
    + right. destruct J as [HLr J]. split; [intros i Hi; apply J, Hi|]. exists r. split; [reflexivity|].
      split; [exact HLr|]. intros i Hi. apply J, Hi.
    + left. split; [exact J|reflexivity].
Qed.

Lemma static_len : zlen static_array = 1024.
Proof. unfold static_array, zlen. rewrite repeat_length. lia. Qed.
