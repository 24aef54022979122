(** The transforms of src/ntt_red.c on arbitrary arrays: the same loops with unbounded
    integers compute the NTT of every array, and the C code either follows them or stops
    with an overflow or a failed assertion. *)

From Coq Require Import ZArith List Bool Lia Setoid Morphisms.
From Verif Require Import CSem Spec Loops ModQ Stages OuterLoops Tower TransformGen Forms ModelRed
  NttElem NaiveElem RedElem RedBfly RedTransforms.
Import ListNotations.
Open Scope Z_scope.

(** [m] does what [m'] does, or overflows, or fails an assertion *)
Definition tracks {A} (m m' : res A) : Prop := m = m' \/ m = Err SignedOverflow \/ m = Err AssertFail.

Lemma tracks_refl {A} (m : res A) : tracks m m.
Proof. left. reflexivity. Qed.
Lemma tracks_bind {A B} (m m' : res A) (f f' : A -> res B) : tracks m m' -> (forall x, tracks (f x) (f' x)) ->
  tracks (bind m f) (bind m' f').
Proof.
  intros [->|[->| ->]] Hf.
  - destruct m' as [x|e]; cbn [bind]; [apply Hf|apply tracks_refl].
  - right. left. reflexivity.
  - right. right. reflexivity.
Qed.
Lemma tracks_cfor {S} cond next (body body' : Z -> S -> res S) : (forall i s, tracks (body i s) (body' i s)) ->
  forall f i s, tracks (cfor f i cond next body s) (cfor f i cond next body' s).
Proof.
  intros H. induction f as [|f IH]; intros i s; cbn [cfor].
  - apply tracks_refl.
  - destruct (cond i); [|apply tracks_refl]. apply tracks_bind; [apply H|]. intros x. apply IH.
Qed.
Lemma tracks_i32 v : tracks (i32 v) (Ok v).
Proof. unfold i32. destruct (in_i32 v); [left|right; left]; reflexivity. Qed.
Lemma tracks_bind_i32 {B} v (f f' : Z -> res B) : (forall x, tracks (f x) (f' x)) -> tracks (bind (i32 v) f) (f' v).
Proof. intros H. exact (tracks_bind _ (Ok v) f f' (tracks_i32 v) H). Qed.

Lemma mul_red_tracks x y : tracks (mul_red x y) (Ok (redz (x * y))).
Proof.
  unfold mul_red, mul64, i64. destruct (in_i64 (x * y)) eqn:E; [|right; left; reflexivity]. cbn [bind].
  destruct ((-8796042698752 <=? x * y) && (x * y <=? 8796093026303)) eqn:R; [|right; right; reflexivity].
  destruct (Z.le_gt_cases (x * y) 8796093022207) as [H|H].
  - assert (X := mul_red_ok x y ltac:(lia)). unfold mul_red, mul64, i64 in X. rewrite E in X. cbn [bind] in X.
    rewrite R in X. left. exact X.
  - right. left. cbn [cassert bind]. rewrite land4095, shiftr12.
    replace ((x * y) / 4096) with 2147483648 by lia.
    unfold to_i32 at 1. rewrite (Z.mod_small ((x * y) mod 4096)) by lia.
    replace ((x * y) mod 4096 <? 2147483648) with true by lia. cbv zeta.
    change (to_i32 2147483648) with (-2147483648).
    unfold mul32. rewrite i32_ok by lia. cbn [bind]. unfold sub32, i32, in_i32.
    replace (_ && _) with false by lia. reflexivity.
Qed.

(** The butterflies with unbounded integers *)
Definition bfly0_ideal (s t : Z) (a : list Z) : res (list Z) :=
  do x <- rd a (u32 (s + t));
  do y <- rd a s;
  do a <- wr a (u32 (s + t)) (y - x);
  do y <- rd a s;
  wr a s (y + x).
Definition ct_ideal (w s t : Z) (a : list Z) : res (list Z) :=
  do x <- rd a (u32 (s + t));
  do y <- rd a s;
  do a <- wr a (u32 (s + t)) (y - redz (x * w));
  do y <- rd a s;
  wr a s (y + redz (x * w)).
Definition gs_ideal (w s t : Z) (a : list Z) : res (list Z) :=
  do x <- rd a (u32 (s + t));
  do y <- rd a s;
  do a <- wr a (u32 (s + t)) (redz ((y - x) * w));
  do y <- rd a s;
  wr a s (y + x).

Lemma bfly0_tracks s t a : tracks (bfly0_red s t a) (bfly0_ideal s t a).
Proof.
  unfold bfly0_red, bfly0_ideal, sub32, add32.
  apply tracks_bind; [apply tracks_refl|]. intros x. apply tracks_bind; [apply tracks_refl|]. intros y.
  apply (tracks_bind_i32 (y - x) _ (fun v => do a <- wr a (u32 (s + t)) v; do y <- rd a s; wr a s (y + x))). intros v.
  apply tracks_bind; [apply tracks_refl|]. intros a1. apply tracks_bind; [apply tracks_refl|]. intros y1.
  apply (tracks_bind_i32 (y1 + x) _ (fun v => wr a1 s v)). intros v1. apply tracks_refl.
Qed.
Lemma ct_tracks w s t a : tracks (ct_bfly_red w s t a) (ct_ideal w s t a).
Proof.
  unfold ct_bfly_red, ct_ideal, sub32, add32.
  apply tracks_bind; [apply tracks_refl|]. intros x.
  apply (tracks_bind (mul_red x w) (Ok (redz (x * w))) _
    (fun x => do y <- rd a s; do a <- wr a (u32 (s + t)) (y - x); do y <- rd a s; wr a s (y + x))); [apply mul_red_tracks|].
  intros z. apply tracks_bind; [apply tracks_refl|]. intros y.
  apply (tracks_bind_i32 (y - z) _ (fun v => do a <- wr a (u32 (s + t)) v; do y <- rd a s; wr a s (y + z))). intros v.
  apply tracks_bind; [apply tracks_refl|]. intros a1. apply tracks_bind; [apply tracks_refl|]. intros y1.
  apply (tracks_bind_i32 (y1 + z) _ (fun v => wr a1 s v)). intros v1. apply tracks_refl.
Qed.
Lemma gs_tracks w s t a : tracks (gs_bfly_red w s t a) (gs_ideal w s t a).
Proof.
  unfold gs_bfly_red, gs_ideal, sub32, add32.
  apply tracks_bind; [apply tracks_refl|]. intros x. apply tracks_bind; [apply tracks_refl|]. intros y.
  apply (tracks_bind_i32 (y - x) _ (fun v => do a <- wr a (u32 (s + t)) (redz (v * w)); do y <- rd a s; wr a s (y + x))).
  intros u.
  apply (tracks_bind (mul_red u w) (Ok (redz (u * w))) _
    (fun z => do a <- wr a (u32 (s + t)) z; do y <- rd a s; wr a s (y + x))); [apply mul_red_tracks|]. intros v.
  apply tracks_bind; [apply tracks_refl|]. intros a1. apply tracks_bind; [apply tracks_refl|]. intros y1.
  apply (tracks_bind_i32 (y1 + x) _ (fun v => wr a1 s v)). intros v1. apply tracks_refl.
Qed.

Definition anyv (_ : Z) : Prop := True.

Lemma bfly0_ideal_ct n h s : n <= 2147483648 -> ct_pair n h 1 anyv anyv s (bfly0_ideal s h).
Proof.
  intros Hn. unfold bfly0_ideal. pair_start n s h. repeat step_rd.
  next_wr. next_rd. rewrite at_aset_other by lia. next_wr.
  do 2 eexists. split; [reflexivity|]. split; [qring|]. split; [qring|]. unfold anyv. auto.
Qed.
Lemma bfly0_ideal_gs n h s : n <= 2147483648 -> gs_pair n h 1 anyv anyv s (bfly0_ideal s h).
Proof.
  intros Hn. unfold bfly0_ideal. pair_start n s h. repeat step_rd.
  next_wr. next_rd. rewrite at_aset_other by lia. next_wr.
  do 2 eexists. split; [reflexivity|]. split; [qring|]. split; [qring|]. unfold anyv. auto.
Qed.
Lemma ct_ideal_ct n h s w z : n <= 2147483648 -> eqQ (3 * w) z -> ct_pair n h z anyv anyv s (ct_ideal w s h).
Proof.
  intros Hn Hz. unfold ct_ideal. pair_start n s h. repeat step_rd.
  next_wr. next_rd. rewrite at_aset_other by lia. next_wr.
  do 2 eexists. split; [reflexivity|].
  split; [rewrite redz_cong, <- Hz; qring|]. split; [rewrite redz_cong, <- Hz; qring|]. unfold anyv. auto.
Qed.
Lemma gs_ideal_gs n h s w z : n <= 2147483648 -> eqQ (3 * w) z -> gs_pair n h z anyv anyv s (gs_ideal w s h).
Proof.
  intros Hn Hz. unfold gs_ideal. pair_start n s h. repeat step_rd.
  next_wr. next_rd. rewrite at_aset_other by lia. next_wr.
  do 2 eexists. split; [reflexivity|].
  split; [qring|]. split; [rewrite redz_cong, <- Hz; qring|]. unfold anyv. auto.
Qed.

(** ** The transforms *)

(** The result is right, or the run overflows or fails an assertion *)
Definition or_stops (m : res (list Z)) (n : Z) (R : list Z -> Prop) : Prop :=
  (exists r, m = Ok r /\ zlen r = n /\ R r) \/ m = Err SignedOverflow \/ m = Err AssertFail.

Lemma tracks_stops m m' r n (R : list Z -> Prop) : tracks m m' -> m' = Ok r -> zlen r = n -> R r -> or_stops m n R.
Proof.
  intros [->|[->| ->]] E L H.
  - left. exists r. auto.
  - right. left. reflexivity.
  - right. right. reflexivity.
Qed.

Ltac track :=
  repeat first
    [ progress cbv beta iota zeta
    | apply bfly0_tracks | apply ct_tracks | apply gs_tracks
    | apply tracks_cfor; intros ? ?
    | match goal with |- tracks (bind ?m _) (bind ?m _) => apply tracks_bind; [apply tracks_refl|intros ?] end
    | apply tracks_refl
    | apply tracks_bind; [|intros ?]
    | match goal with |- tracks (match ?x with _ => _ end) _ => destruct x end ].

Lemma ct_rev2std_any k w a p : 0 <= k <= 31 -> (0 < k -> eqQ (w ^ (2 ^ (k - 1))) (-1)) ->
  omega_table k w 8193 p -> zlen a = 2 ^ k ->
  or_stops (ntt_red_ct_rev2std a (2 ^ k) p) (2 ^ k) (fun r => forall j, 0 <= j < 2 ^ k ->
    eqQ (at_ r j) (NTT (2 ^ k) w (fun i => at_ a (bitrev k i)) j)).
Proof.
  intros Hk Hw Ht HL. assert (Hn := pow31 k Hk).
  destruct (gen_A_up_plain k (2 ^ k) (zw k w) (fun _ => anyv) Hk eq_refl) with
    (body0 := bfly0_ideal) (body := ct_ideal) (p := p) (a := a)
    as (r & E & HLr & HR); auto; try exact (fun _ _ => I).
  { apply tower_omega. exact Hw. }
  { apply Ht. }
  { intros. apply zw_0. }
  { intros l s Hl. apply bfly0_ideal_ct. lia. }
  { intros l j s Hl Hj. apply ct_ideal_ct; [lia|].
    rewrite (omega_table_z k w 8193 p Ht) by lia. apply inv3. }
  eapply tracks_stops; [|exact E|exact HLr|].
  - unfold ntt_red_ct_rev2std. track.
  - intros j Hj. destruct (HR j Hj) as [HE _]. rewrite HE. clear HE.
    rewrite (form_ct_rev k w (at_ a)) by lia. reflexivity.
Qed.

Lemma mul_ct_rev2std_any k w a p : 0 <= k <= 31 -> eqQ (w ^ (2 ^ k)) (-1) ->
  mixed_table k w 8193 p -> zlen a = 2 ^ k ->
  or_stops (mulntt_red_ct_rev2std a (2 ^ k) p) (2 ^ k) (fun r => forall j, 0 <= j < 2 ^ k ->
    eqQ (at_ r j) (NTT (2 ^ k) (w ^ 2) (fun i => at_ a (bitrev k i) * w ^ i) j)).
Proof.
  intros Hk Hw Ht HL. assert (Hn := pow31 k Hk).
  destruct (gen_A_up_mul k (2 ^ k) (zp k w) (fun _ => anyv) Hk eq_refl) with
    (body := ct_ideal) (p := p) (a := a)
    as (r & E & HLr & HR); auto; try exact (fun _ _ => I).
  { apply tower_psi. exact Hw. }
  { exact bfly0_ideal. }
  { apply Ht. }
  { intros l j s Hl Hj. apply ct_ideal_ct; [lia|].
    rewrite (mixed_table_z k w 8193 p Ht) by lia. apply inv3. }
  eapply tracks_stops; [|exact E|exact HLr|].
  - unfold mulntt_red_ct_rev2std. track.
  - intros j Hj. destruct (HR j Hj) as [HE _]. rewrite HE. clear HE.
    rewrite (form_ct_rev_mul k w (at_ a)) by lia. reflexivity.
Qed.

Lemma ct_std2rev_any k w a p : 0 <= k <= 31 -> (0 < k -> eqQ (w ^ (2 ^ (k - 1))) (-1)) ->
  omega_table_rev k w 8193 p -> zlen a = 2 ^ k ->
  or_stops (ntt_red_ct_std2rev a (2 ^ k) p) (2 ^ k) (fun r => forall j, 0 <= j < 2 ^ k ->
    eqQ (at_ r (bitrev k j)) (NTT (2 ^ k) w (at_ a) j)).
Proof.
  intros Hk Hw Ht HL. assert (Hn := pow31 k Hk).
  destruct (gen_B_up_plain k (2 ^ k) (zw k w) (fun _ => anyv) Hk eq_refl) with
    (body0 := bfly0_ideal) (body := ct_ideal) (p := p) (a := a)
    as (r & E & HLr & HR); auto; try exact (fun _ _ => I).
  { apply tower_omega. exact Hw. }
  { apply Ht. }
  { intros. apply zw_0. }
  { intros l h s Hl Hh. apply bfly0_ideal_ct. lia. }
  { intros l j h s Hl Hj Hh. apply ct_ideal_ct; [lia|].
    rewrite (omega_table_rev_z k w 8193 p Ht) by lia. apply inv3. }
  eapply tracks_stops; [|exact E|exact HLr|].
  - unfold ntt_red_ct_std2rev. track.
  - intros j Hj. assert (R := bitrev_range k j ltac:(lia)).
    destruct (HR (bitrev k j) R) as [HE _]. rewrite HE. clear HE.
    rewrite (form_ct_std k w (at_ a)) by lia. reflexivity.
Qed.

Lemma mul_ct_std2rev_any k w a p : 0 <= k <= 31 -> eqQ (w ^ (2 ^ k)) (-1) ->
  mixed_table_rev k w 8193 p -> zlen a = 2 ^ k ->
  or_stops (mulntt_red_ct_std2rev a (2 ^ k) p) (2 ^ k) (fun r => forall j, 0 <= j < 2 ^ k ->
    eqQ (at_ r (bitrev k j)) (NTT (2 ^ k) (w ^ 2) (fun i => at_ a i * w ^ i) j)).
Proof.
  intros Hk Hw Ht HL. assert (Hn := pow31 k Hk).
  destruct (gen_B_up_mul k (2 ^ k) (zp k w) (fun _ => anyv) Hk eq_refl) with
    (body := ct_ideal) (p := p) (a := a)
    as (r & E & HLr & HR); auto; try exact (fun _ _ => I).
  { apply tower_psi. exact Hw. }
  { exact bfly0_ideal. }
  { apply Ht. }
  { intros l j h s Hl Hj Hh. apply ct_ideal_ct; [lia|].
    rewrite (mixed_table_rev_z k w 8193 p Ht) by lia. apply inv3. }
  eapply tracks_stops; [|exact E|exact HLr|].
  - unfold mulntt_red_ct_std2rev. track.
  - intros j Hj. assert (R := bitrev_range k j ltac:(lia)).
    destruct (HR (bitrev k j) R) as [HE _]. rewrite HE. clear HE.
    rewrite (form_ct_std_mul k w (at_ a)) by lia. reflexivity.
Qed.

Lemma gs_rev2std_any k w a p : 0 <= k <= 31 -> (0 < k -> eqQ (w ^ (2 ^ (k - 1))) (-1)) ->
  omega_table_rev k w 8193 p -> zlen a = 2 ^ k ->
  or_stops (ntt_red_gs_rev2std a (2 ^ k) p) (2 ^ k) (fun r => forall j, 0 <= j < 2 ^ k ->
    eqQ (at_ r j) (NTT (2 ^ k) w (fun i => at_ a (bitrev k i)) j)).
Proof.
  intros Hk Hw Ht HL. assert (Hn := pow31 k Hk).
  destruct (gen_B_down_plain k (2 ^ k) (zw k w) (fun _ => anyv) Hk eq_refl) with
    (body0 := bfly0_ideal) (body := gs_ideal) (p := p) (a := a)
    as (r & E & HLr & HR); auto; try exact (fun _ _ => I).
  { apply tower_omega. exact Hw. }
  { apply Ht. }
  { intros. apply zw_0. }
  { intros l h s Hl Hh. apply bfly0_ideal_gs. lia. }
  { intros l j h s Hl Hj Hh. apply gs_ideal_gs; [lia|].
    rewrite (omega_table_rev_z k w 8193 p Ht) by lia. apply inv3. }
  eapply tracks_stops; [|exact E|exact HLr|].
  - unfold ntt_red_gs_rev2std. track.
  - intros j Hj. destruct (HR j Hj) as [HE _]. rewrite HE. clear HE.
    rewrite (form_gs_rev k w (at_ a)) by lia. reflexivity.
Qed.

Lemma gs_mul_rev2std_any k w a p : 0 <= k <= 31 -> eqQ (w ^ (2 ^ k)) (-1) ->
  mixed_table_rev k w 8193 p -> zlen a = 2 ^ k ->
  or_stops (nttmul_red_gs_rev2std a (2 ^ k) p) (2 ^ k) (fun r => forall j, 0 <= j < 2 ^ k ->
    eqQ (at_ r j) (w ^ j * NTT (2 ^ k) (w ^ 2) (fun i => at_ a (bitrev k i)) j)).
Proof.
  intros Hk Hw Ht HL. assert (Hn := pow31 k Hk).
  destruct (gen_B_down_mul k (2 ^ k) (zp k w) (fun _ => anyv) Hk eq_refl) with
    (body := gs_ideal) (p := p) (a := a)
    as (r & E & HLr & HR); auto; try exact (fun _ _ => I).
  { apply tower_psi. exact Hw. }
  { exact bfly0_ideal. }
  { apply Ht. }
  { intros l j h s Hl Hj Hh. apply gs_ideal_gs; [lia|].
    rewrite (mixed_table_rev_z k w 8193 p Ht) by lia. apply inv3. }
  eapply tracks_stops; [|exact E|exact HLr|].
  - unfold nttmul_red_gs_rev2std. track.
  - intros j Hj. destruct (HR j Hj) as [HE _]. rewrite HE. clear HE.
    rewrite (form_gs_rev_mul k w (at_ a)) by lia. reflexivity.
Qed.

Lemma gs_std2rev_any k w a p : 0 <= k <= 31 -> (0 < k -> eqQ (w ^ (2 ^ (k - 1))) (-1)) ->
  omega_table k w 8193 p -> zlen a = 2 ^ k ->
  or_stops (ntt_red_gs_std2rev a (2 ^ k) p) (2 ^ k) (fun r => forall j, 0 <= j < 2 ^ k ->
    eqQ (at_ r (bitrev k j)) (NTT (2 ^ k) w (at_ a) j)).
Proof.
  intros Hk Hw Ht HL. assert (Hn := pow31 k Hk).
  destruct (gen_A_down_plain k (2 ^ k) (zw k w) (fun _ => anyv) Hk eq_refl) with
    (body0 := bfly0_ideal) (body := gs_ideal) (p := p) (a := a)
    as (r & E & HLr & HR); auto; try exact (fun _ _ => I).
  { apply tower_omega. exact Hw. }
  { apply Ht. }
  { intros. apply zw_0. }
  { intros l s Hl. apply bfly0_ideal_gs. lia. }
  { intros l j s Hl Hj. apply gs_ideal_gs; [lia|].
    rewrite (omega_table_z k w 8193 p Ht) by lia. apply inv3. }
  eapply tracks_stops; [|exact E|exact HLr|].
  - unfold ntt_red_gs_std2rev. track.
  - intros j Hj. assert (R := bitrev_range k j ltac:(lia)).
    destruct (HR (bitrev k j) R) as [HE _]. rewrite HE. clear HE.
    rewrite (form_gs_std k w (at_ a)) by lia. reflexivity.
Qed.

Lemma gs_mul_std2rev_any k w a p : 0 <= k <= 31 -> eqQ (w ^ (2 ^ k)) (-1) ->
  mixed_table k w 8193 p -> zlen a = 2 ^ k ->
  or_stops (nttmul_red_gs_std2rev a (2 ^ k) p) (2 ^ k) (fun r => forall j, 0 <= j < 2 ^ k ->
    eqQ (at_ r (bitrev k j)) (w ^ j * NTT (2 ^ k) (w ^ 2) (at_ a) j)).
Proof.
  intros Hk Hw Ht HL. assert (Hn := pow31 k Hk).
  destruct (gen_A_down_mul k (2 ^ k) (zp k w) (fun _ => anyv) Hk eq_refl) with
    (body := gs_ideal) (p := p) (a := a)
    as (r & E & HLr & HR); auto; try exact (fun _ _ => I).
  { apply tower_psi. exact Hw. }
  { exact bfly0_ideal. }
  { apply Ht. }
  { intros l j s Hl Hj. apply gs_ideal_gs; [lia|].
    rewrite (mixed_table_z k w 8193 p Ht) by lia. apply inv3. }
  eapply tracks_stops; [|exact E|exact HLr|].
  - unfold nttmul_red_gs_std2rev. track.
  - intros j Hj. assert (R := bitrev_range k j ltac:(lia)).
    destruct (HR (bitrev k j) R) as [HE _]. rewrite HE. clear HE.
    rewrite (form_gs_std_mul k w (at_ a)) by lia. reflexivity.
Qed.
