(** Butterflies of src/ntt_red.c, with interval bounds per level. *)

From Coq Require Import ZArith List Bool Lia Setoid Morphisms.
From Verif Require Import CSem Spec Loops ModQ Stages Tower RedElem ModelRed NttElem NaiveElem.
Import ListNotations.
Open Scope Z_scope.

(** Values at level [l] are in [lo l, hi l]. *)
Definition rng (lo hi : Z -> Z) (l v : Z) : Prop := lo l <= v <= hi l.

(** Bounds on [mul_red x w] when [|x| <= m] and [|w| <= 6144]. *)
Definition mr_lo (m : Z) : Z := - (6144 * m / 4096).
Definition mr_hi (m : Z) : Z := 12285 - (- (6144 * m)) / 4096.

Lemma mul_red_bound x w m :
  - m <= x <= m -> -6144 <= w <= 6144 -> 6144 * m <= 8796042698752 ->
  mul_red x w = Ok (redz (x * w)) /\ mr_lo m <= redz (x * w) <= mr_hi m.
Proof.
  intros Hx Hw Hm.
  assert (H : - (6144 * m) <= x * w <= 6144 * m) by nia.
  split; [apply mul_red_ok; lia|]. apply redz_bounds in H. unfold mr_lo, mr_hi. lia.
Qed.

(** Cooley-Tukey: from level [l] to level [l+1]. *)
Definition ct_step (lo hi lo' hi' : Z) : Prop :=
  exists m, - m <= lo /\ hi <= m /\ 6144 * m <= 8796042698752
    /\ -2147483648 <= lo' /\ hi' <= 2147483647
    /\ lo' <= lo - mr_hi m /\ hi + mr_hi m <= hi'.
Definition ct_grow (lo hi : Z -> Z) (l : Z) : Prop :=
  ct_step (lo l) (hi l) (lo (l + 1)) (hi (l + 1)).

(** Gentleman-Sande: from level [l+1] to level [l]; [gs_step0] is the
    statement group without multiplication. *)
Definition gs_step0 (lo hi lo' hi' : Z) : Prop :=
  -2147483648 <= lo' /\ hi' <= 2147483647
  /\ lo' <= 2 * lo /\ lo' <= lo - hi /\ 2 * hi <= hi' /\ hi - lo <= hi'.
Definition gs_step (lo hi lo' hi' : Z) : Prop :=
  -2147483648 <= lo' /\ hi' <= 2147483647
  /\ lo' <= 2 * lo /\ 2 * hi <= hi' /\ 6144 * (hi - lo) <= 8796042698752
  /\ lo' <= mr_lo (hi - lo) /\ mr_hi (hi - lo) <= hi'.
Definition gs_grow0 (lo hi : Z -> Z) (l : Z) : Prop :=
  gs_step0 (lo (l + 1)) (hi (l + 1)) (lo l) (hi l).
Definition gs_grow (lo hi : Z -> Z) (l : Z) : Prop :=
  gs_step (lo (l + 1)) (hi (l + 1)) (lo l) (hi l).

Section Bfly.
Variables (lo hi : Z -> Z) (l : Z).

Lemma bfly0_red_ct n h s : n <= 2147483648 -> ct_grow lo hi l ->
  ct_pair n h 1 (rng lo hi l) (rng lo hi (l + 1)) s (bfly0_red s h).
Proof.
  intros Hn (m & H1 & H2 & H3 & H4 & H5 & H6 & H7). unfold bfly0_red. pair_start n s h.
  unfold rng, mr_hi in *.
  repeat step_rd. unfold sub32, add32. rewrite i32_ok by lia. cbn [bind].
  next_wr. next_rd. rewrite at_aset_other by lia.
  rewrite i32_ok by lia. cbn [bind]. next_wr.
  do 2 eexists. split; [reflexivity|].
  split; [qring|]. split; [qring|]. lia.
Qed.

Lemma bfly0_red_gs n h s : n <= 2147483648 -> gs_grow0 lo hi l ->
  gs_pair n h 1 (rng lo hi (l + 1)) (rng lo hi l) s (bfly0_red s h).
Proof.
  intros Hn (H1 & H2 & H3 & H4 & H5 & H6). unfold bfly0_red. pair_start n s h.
  unfold rng in *.
  repeat step_rd. unfold sub32, add32. rewrite i32_ok by lia. cbn [bind].
  next_wr. next_rd. rewrite at_aset_other by lia.
  rewrite i32_ok by lia. cbn [bind]. next_wr.
  do 2 eexists. split; [reflexivity|].
  split; [qring|]. split; [qring|]. lia.
Qed.

Lemma ct_bfly_red_ct n h s w z :
  n <= 2147483648 -> -6144 <= w <= 6144 -> eqQ (3 * w) z -> ct_grow lo hi l ->
  ct_pair n h z (rng lo hi l) (rng lo hi (l + 1)) s (ct_bfly_red w s h).
Proof.
  intros Hn Hw Hz (m & H1 & H2 & H3 & H4 & H5 & H6 & H7). unfold ct_bfly_red. pair_start n s h.
  unfold rng in *. step_rd.
  destruct (mul_red_bound (at_ a (s + h)) w m) as [E HB]; try lia.
  rewrite E. cbn [bind]. step_rd. assert (mr_lo m >= - mr_hi m) by (unfold mr_lo, mr_hi; lia).
  unfold sub32, add32. rewrite i32_ok by lia. cbn [bind].
  next_wr. next_rd. rewrite at_aset_other by lia.
  rewrite i32_ok by lia. cbn [bind]. next_wr.
  do 2 eexists. split; [reflexivity|].
  split; [rewrite redz_cong, <- Hz; qring|]. split; [rewrite redz_cong, <- Hz; qring|]. lia.
Qed.

Lemma gs_bfly_red_gs n h s w z :
  n <= 2147483648 -> -6144 <= w <= 6144 -> eqQ (3 * w) z -> gs_grow lo hi l ->
  gs_pair n h z (rng lo hi (l + 1)) (rng lo hi l) s (gs_bfly_red w s h).
Proof.
  intros Hn Hw Hz (H1 & H2 & H3 & H4 & H5 & H6 & H7). unfold gs_bfly_red. pair_start n s h.
  unfold rng in *. repeat step_rd. unfold sub32, add32.
  rewrite i32_ok by lia. cbn [bind].
  destruct (mul_red_bound (at_ a s - at_ a (s + h)) w (hi (l + 1) - lo (l + 1))) as [E HB];
    try lia.
  rewrite E. cbn [bind].
  next_wr. next_rd. rewrite at_aset_other by lia.
  rewrite i32_ok by lia. cbn [bind]. next_wr.
  do 2 eexists. split; [reflexivity|].
  split; [qring|]. split; [rewrite redz_cong, <- Hz; qring|]. lia.
Qed.
End Bfly.

(** Bounds only. *)
Lemma ct_pair_bounds n h z B B' s body : 0 <= s -> 0 < h -> s + h < n ->
  ct_pair n h z B B' s body -> bspec n h (fun _ => B) (fun _ => B') s body.
Proof.
  intros Hs Hh Hsh H a HL H1 H2.
  destruct (H a HL Hs Hh Hsh H1 H2) as (x & y & E & _ & _ & Bx & By). eauto.
Qed.

Lemma gs_pair_bounds n h z B B' s body : 0 <= s -> 0 < h -> s + h < n ->
  gs_pair n h z B B' s body -> bspec n h (fun _ => B) (fun _ => B') s body.
Proof.
  intros Hs Hh Hsh H a HL H1 H2.
  destruct (H a HL Hs Hh Hsh H1 H2) as (x & y & E & _ & _ & Bx & By). eauto.
Qed.
