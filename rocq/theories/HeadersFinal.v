(** Lemmas behind [PropHeaders]. *)

From Coq Require Import ZArith List Bool Lia.
From Verif Require Import CSem Spec Loops ModQ NttElem TableSpec ModelGen ModelProducts ModelAvx ModelAvxProd ProdGen ProdFinal RoundTrip HeadersElem.
From Verif Require ModelRed.
Import ListNotations.
Open Scope Z_scope.

Lemma size_le k : 1 <= k <= 11 -> 2 ^ k <= 1024 -> 0 <= k <= 10.
Proof.
  intros Hk H. destruct (Z.leb_spec k 10); [lia|]. assert (2 ^ 11 <= 2 ^ k) by (apply Z.pow_le_mono_r; lia).
  change (2 ^ 11) with 2048 in *. lia.
Qed.
Lemma size_ge k : 1 <= k <= 11 -> 16 <= 2 ^ k <= 1024 -> 4 <= k <= 10.
Proof.
  intros Hk H. split; [|apply size_le; lia].
  destruct (Z.leb_spec 4 k); [lia|]. assert (2 ^ k <= 2 ^ 3) by (apply Z.pow_le_mono_r; lia).
  change (2 ^ 3) with 8 in *. lia.
Qed.
Lemma s2r_can k w pre post F : s2r k 0 (Q - 1) 0 (Q - 1) w pre post F ->
  forall a, zlen a = 2 ^ k -> all_in 0 (Q - 1) a ->
  exists r, F a = Ok r /\ zlen r = 2 ^ k /\ all_in 0 (Q - 1) r
    /\ forall j, 0 <= j < 2 ^ k ->
         at_ r (bitrev k j) = (post j * NTT (2 ^ k) w (fun i => at_ a i * pre i) j) mod Q.
Proof.
  intros H a HL Ha. destruct (H a HL Ha) as (r & E & L & R & V). exists r. split; [exact E|]. split; [exact L|].
  split; [exact R|]. intros j Hj. apply can_eq; [|apply V, Hj].
  assert (0 <= k) by (destruct (Z.leb_spec 0 k); [lia|rewrite Z.pow_neg_r in Hj by lia; lia]).
  assert (Y := all_in_at _ _ _ (bitrev k j) R). rewrite L in Y. specialize (Y (bitrev_range k j ltac:(assumption))).
  unfold can, Spec.Q in *. clear - Y. lia.
Qed.
Lemma r2s_can k w pre post F : r2s k 0 (Q - 1) 0 (Q - 1) w pre post F ->
  forall a, zlen a = 2 ^ k -> all_in 0 (Q - 1) a ->
  exists r, F a = Ok r /\ zlen r = 2 ^ k /\ all_in 0 (Q - 1) r
    /\ forall j, 0 <= j < 2 ^ k ->
         at_ r j = (post j * NTT (2 ^ k) w (fun i => at_ a (bitrev k i) * pre i) j) mod Q.
Proof.
  intros H a HL Ha. destruct (H a HL Ha) as (r & E & L & R & V). exists r. split; [exact E|]. split; [exact L|].
  split; [exact R|]. intros j Hj. apply can_eq; [|apply V, Hj].
  assert (Y := all_in_at _ _ _ j R). rewrite L in Y. specialize (Y Hj). unfold can, Spec.Q in *. clear - Y. lia.
Qed.
Ltac line := match goal with H : (_, _, _, _) = (_, _, _, _) |- _ => injection H as <- <- <- <- end.

Lemma ntt_header_std2rev_L :
forall malloc size psi T, (forall n, 0 <= n -> zlen (malloc n) = n) ->
  make_tables malloc size psi = Ok (Written T) ->
  exists k, 1 <= k <= 11 /\ size = 2 ^ k /\
  forall psi', eqQ (psi * psi') 1 ->
  forall F w pre post, In (F, w, pre, post) [
    (n_ct_std2rev size T, psi ^ 2, fun _ => 1, fun _ => 1);
    (n_gs_std2rev size T, psi ^ 2, fun _ => 1, fun _ => 1);
    (n_intt_ct_std2rev size T, psi' ^ 2, fun _ => 1, fun _ => 1);
    (n_intt_gs_std2rev size T, psi' ^ 2, fun _ => 1, fun _ => 1);
    (n_mulntt_ct_std2rev size T, psi ^ 2, fun i => psi ^ i, fun _ => 1);
    (n_inttmul_gs_std2rev size T, psi' ^ 2, fun _ => 1, fun j => psi' ^ j)] ->
  forall a, zlen a = size -> all_in 0 (Q - 1) a ->
  exists r, F a = Ok r /\ zlen r = size /\ all_in 0 (Q - 1) r
    /\ forall j, 0 <= j < size -> at_ r (bitrev k j) = (post j * NTT size w (fun i => at_ a i * pre i) j) mod Q.
Proof.
  intros malloc size psi T HM E.
  destruct (gen_tables _ _ _ _ HM E) as (k & Hk & -> & Hr & HT). assert (HK : 0 <= k <= 31) by lia.
  exists k. split; [exact Hk|]. split; [reflexivity|]. intros psi' Hp F w pre post HI.
  assert (Hu := inv_unique psi _ _ (proj1 (ok_inv_psi _ _ _ HT)) Hp).
  cbn [In] in HI. destruct HI as [H|[H|[H|[H|[H|[H|[]]]]]]]; line.
  - exact (s2r_can k _ _ _ _ (t_n_ct_std2rev k psi T HK Hr HT)).
  - exact (s2r_can k _ _ _ _ (t_n_gs_std2rev k psi T HK Hr HT)).
  - exact (s2r_can k _ _ _ _ (s2r_inv k _ _ _ _ _ _ _ Hu (t_n_intt_ct_std2rev k psi T HK Hr HT))).
  - exact (s2r_can k _ _ _ _ (s2r_inv k _ _ _ _ _ _ _ Hu (t_n_intt_gs_std2rev k psi T HK Hr HT))).
  - exact (s2r_can k _ _ _ _ (t_n_mulntt_ct_std2rev k psi T HK Hr HT)).
  - exact (s2r_can k _ _ _ _ (s2r_invmul k _ _ _ _ _ _ _ Hu (t_n_inttmul_gs_std2rev k psi T HK Hr HT))).
Qed.

Lemma ntt_header_rev2std_L :
forall malloc size psi T, (forall n, 0 <= n -> zlen (malloc n) = n) ->
  make_tables malloc size psi = Ok (Written T) ->
  exists k, 1 <= k <= 11 /\ size = 2 ^ k /\
  forall psi', eqQ (psi * psi') 1 ->
  forall F w pre post, In (F, w, pre, post) [
    (n_ct_rev2std size T, psi ^ 2, fun _ => 1, fun _ => 1);
    (n_gs_rev2std size T, psi ^ 2, fun _ => 1, fun _ => 1);
    (n_intt_ct_rev2std size T, psi' ^ 2, fun _ => 1, fun _ => 1);
    (n_intt_gs_rev2std size T, psi' ^ 2, fun _ => 1, fun _ => 1);
    (n_mulntt_ct_rev2std size T, psi ^ 2, fun i => psi ^ i, fun _ => 1);
    (n_inttmul_gs_rev2std size T, psi' ^ 2, fun _ => 1, fun j => psi' ^ j)] ->
  forall a, zlen a = size -> all_in 0 (Q - 1) a ->
  exists r, F a = Ok r /\ zlen r = size /\ all_in 0 (Q - 1) r
    /\ forall j, 0 <= j < size -> at_ r j = (post j * NTT size w (fun i => at_ a (bitrev k i) * pre i) j) mod Q.
Proof.
  intros malloc size psi T HM E.
  destruct (gen_tables _ _ _ _ HM E) as (k & Hk & -> & Hr & HT). assert (HK : 0 <= k <= 31) by lia.
  exists k. split; [exact Hk|]. split; [reflexivity|]. intros psi' Hp F w pre post HI.
  assert (Hu := inv_unique psi _ _ (proj1 (ok_inv_psi _ _ _ HT)) Hp).
  cbn [In] in HI. destruct HI as [H|[H|[H|[H|[H|[H|[]]]]]]]; line.
  - exact (r2s_can k _ _ _ _ (t_n_ct_rev2std k psi T HK Hr HT)).
  - exact (r2s_can k _ _ _ _ (t_n_gs_rev2std k psi T HK Hr HT)).
  - exact (r2s_can k _ _ _ _ (r2s_inv k _ _ _ _ _ _ _ Hu (t_n_intt_ct_rev2std k psi T HK Hr HT))).
  - exact (r2s_can k _ _ _ _ (r2s_inv k _ _ _ _ _ _ _ Hu (t_n_intt_gs_rev2std k psi T HK Hr HT))).
  - exact (r2s_can k _ _ _ _ (t_n_mulntt_ct_rev2std k psi T HK Hr HT)).
  - exact (r2s_can k _ _ _ _ (r2s_invmul k _ _ _ _ _ _ _ Hu (t_n_inttmul_gs_rev2std k psi T HK Hr HT))).
Qed.

Lemma naive_header_std2rev_L :
forall malloc size psi T, (forall n, 0 <= n -> zlen (malloc n) = n) ->
  make_tables malloc size psi = Ok (Written T) ->
  exists k, 1 <= k <= 11 /\ size = 2 ^ k /\
  forall psi', eqQ (psi * psi') 1 ->
  forall F w pre post, In (F, w, pre, post) [
    (v_ct_std2rev size T, psi ^ 2, fun _ => 1, fun _ => 1);
    (v_gs_std2rev size T, psi ^ 2, fun _ => 1, fun _ => 1);
    (v_intt_ct_std2rev size T, psi' ^ 2, fun _ => 1, fun _ => 1);
    (v_intt_gs_std2rev size T, psi' ^ 2, fun _ => 1, fun _ => 1);
    (v_mulntt_ct_std2rev size T, psi ^ 2, fun i => psi ^ i, fun _ => 1);
    (v_inttmul_gs_std2rev size T, psi' ^ 2, fun _ => 1, fun j => psi' ^ j)] ->
  forall a, zlen a = size -> all_in (- Q + 1) (Q - 1) a ->
  exists r, F a = Ok r /\ zlen r = size /\ all_in (- Q + 1) (Q - 1) r
    /\ forall j, 0 <= j < size -> eqQ (at_ r (bitrev k j)) (post j * NTT size w (fun i => at_ a i * pre i) j).
Proof.
  intros malloc size psi T HM E.
  destruct (gen_tables _ _ _ _ HM E) as (k & Hk & -> & Hr & HT). assert (HK : 0 <= k <= 31) by lia.
  exists k. split; [exact Hk|]. split; [reflexivity|]. intros psi' Hp F w pre post HI.
  assert (Hu := inv_unique psi _ _ (proj1 (ok_inv_psi _ _ _ HT)) Hp).
  cbn [In] in HI. destruct HI as [H|[H|[H|[H|[H|[H|[]]]]]]]; line.
  - exact (t_v_ct_std2rev k psi T HK Hr HT).
  - exact (t_v_gs_std2rev k psi T HK Hr HT).
  - exact (s2r_inv k _ _ _ _ _ _ _ Hu (t_v_intt_ct_std2rev k psi T HK Hr HT)).
  - exact (s2r_inv k _ _ _ _ _ _ _ Hu (t_v_intt_gs_std2rev k psi T HK Hr HT)).
  - exact (t_v_mulntt_ct_std2rev k psi T HK Hr HT).
  - exact (s2r_invmul k _ _ _ _ _ _ _ Hu (t_v_inttmul_gs_std2rev k psi T HK Hr HT)).
Qed.

Lemma naive_header_rev2std_L :
forall malloc size psi T, (forall n, 0 <= n -> zlen (malloc n) = n) ->
  make_tables malloc size psi = Ok (Written T) ->
  exists k, 1 <= k <= 11 /\ size = 2 ^ k /\
  forall psi', eqQ (psi * psi') 1 ->
  forall F w pre post, In (F, w, pre, post) [
    (v_ct_rev2std size T, psi ^ 2, fun _ => 1, fun _ => 1);
    (v_gs_rev2std size T, psi ^ 2, fun _ => 1, fun _ => 1);
    (v_intt_ct_rev2std size T, psi' ^ 2, fun _ => 1, fun _ => 1);
    (v_intt_gs_rev2std size T, psi' ^ 2, fun _ => 1, fun _ => 1);
    (v_mulntt_ct_rev2std size T, psi ^ 2, fun i => psi ^ i, fun _ => 1);
    (v_inttmul_gs_rev2std size T, psi' ^ 2, fun _ => 1, fun j => psi' ^ j)] ->
  forall a, zlen a = size -> all_in (- Q + 1) (Q - 1) a ->
  exists r, F a = Ok r /\ zlen r = size /\ all_in (- Q + 1) (Q - 1) r
    /\ forall j, 0 <= j < size -> eqQ (at_ r j) (post j * NTT size w (fun i => at_ a (bitrev k i) * pre i) j).
Proof.
  intros malloc size psi T HM E.
  destruct (gen_tables _ _ _ _ HM E) as (k & Hk & -> & Hr & HT). assert (HK : 0 <= k <= 31) by lia.
  exists k. split; [exact Hk|]. split; [reflexivity|]. intros psi' Hp F w pre post HI.
  assert (Hu := inv_unique psi _ _ (proj1 (ok_inv_psi _ _ _ HT)) Hp).
  cbn [In] in HI. destruct HI as [H|[H|[H|[H|[H|[H|[]]]]]]]; line.
  - exact (t_v_ct_rev2std k psi T HK Hr HT).
  - exact (t_v_gs_rev2std k psi T HK Hr HT).
  - exact (r2s_inv k _ _ _ _ _ _ _ Hu (t_v_intt_ct_rev2std k psi T HK Hr HT)).
  - exact (r2s_inv k _ _ _ _ _ _ _ Hu (t_v_intt_gs_rev2std k psi T HK Hr HT)).
  - exact (t_v_mulntt_ct_rev2std k psi T HK Hr HT).
  - exact (r2s_invmul k _ _ _ _ _ _ _ Hu (t_v_inttmul_gs_rev2std k psi T HK Hr HT)).
Qed.

Lemma red_header_std2rev_L :
forall malloc size psi T, (forall n, 0 <= n -> zlen (malloc n) = n) ->
  make_red_tables malloc size psi = Ok (Written T) -> size <= 1024 ->
  exists k, 1 <= k <= 11 /\ size = 2 ^ k /\
  forall psi', eqQ (psi * psi') 1 ->
  forall F w pre post, In (F, w, pre, post) [
    (r_ct_std2rev size T, psi ^ 2, fun _ => 1, fun _ => 1);
    (r_gs_std2rev size T, psi ^ 2, fun _ => 1, fun _ => 1);
    (r_intt_ct_std2rev size T, psi' ^ 2, fun _ => 1, fun _ => 1);
    (r_intt_gs_std2rev size T, psi' ^ 2, fun _ => 1, fun _ => 1);
    (r_mulntt_ct_std2rev size T, psi ^ 2, fun i => psi ^ i, fun _ => 1);
    (r_inttmul_gs_std2rev size T, psi' ^ 2, fun _ => 1, fun j => psi' ^ j)] ->
  forall a, zlen a = size -> all_in (-21499) 21499 a ->
  exists r, F a = Ok r /\ zlen r = size /\ all_in (- 2 ^ 31) (2 ^ 31 - 1) r
    /\ forall j, 0 <= j < size -> eqQ (at_ r (bitrev k j)) (post j * NTT size w (fun i => at_ a i * pre i) j).
Proof.
  intros malloc size psi T HM E Hsz.
  destruct (gen_red_tables _ _ _ _ HM E) as (k & Hk & -> & Hr & HT). assert (HK := size_le k Hk Hsz).
  exists k. split; [exact Hk|]. split; [reflexivity|]. intros psi' Hp F w pre post HI.
  assert (Hu := inv_unique psi _ _ (proj1 (rok_inv_psi _ _ _ HT)) Hp).
  cbn [In] in HI. destruct HI as [H|[H|[H|[H|[H|[H|[]]]]]]]; line.
  - exact (t_r_ct_std2rev k psi T HK Hr HT).
  - exact (t_r_gs_std2rev k psi T HK Hr HT).
  - exact (s2r_inv k _ _ _ _ _ _ _ Hu (t_r_intt_ct_std2rev k psi T HK Hr HT)).
  - exact (s2r_inv k _ _ _ _ _ _ _ Hu (t_r_intt_gs_std2rev k psi T HK Hr HT)).
  - exact (t_r_mulntt_ct_std2rev k psi T HK Hr HT).
  - exact (s2r_invmul k _ _ _ _ _ _ _ Hu (t_r_inttmul_gs_std2rev k psi T HK Hr HT)).
Qed.

Lemma red_header_rev2std_L :
forall malloc size psi T, (forall n, 0 <= n -> zlen (malloc n) = n) ->
  make_red_tables malloc size psi = Ok (Written T) -> size <= 1024 ->
  exists k, 1 <= k <= 11 /\ size = 2 ^ k /\
  forall psi', eqQ (psi * psi') 1 ->
  forall F w pre post, In (F, w, pre, post) [
    (r_ct_rev2std size T, psi ^ 2, fun _ => 1, fun _ => 1);
    (r_gs_rev2std size T, psi ^ 2, fun _ => 1, fun _ => 1);
    (r_intt_ct_rev2std size T, psi' ^ 2, fun _ => 1, fun _ => 1);
    (r_intt_gs_rev2std size T, psi' ^ 2, fun _ => 1, fun _ => 1);
    (r_mulntt_ct_rev2std size T, psi ^ 2, fun i => psi ^ i, fun _ => 1);
    (r_inttmul_gs_rev2std size T, psi' ^ 2, fun _ => 1, fun j => psi' ^ j)] ->
  forall a, zlen a = size -> all_in (-21499) 21499 a ->
  exists r, F a = Ok r /\ zlen r = size /\ all_in (- 2 ^ 31) (2 ^ 31 - 1) r
    /\ forall j, 0 <= j < size -> eqQ (at_ r j) (post j * NTT size w (fun i => at_ a (bitrev k i) * pre i) j).
Proof.
  intros malloc size psi T HM E Hsz.
  destruct (gen_red_tables _ _ _ _ HM E) as (k & Hk & -> & Hr & HT). assert (HK := size_le k Hk Hsz).
  exists k. split; [exact Hk|]. split; [reflexivity|]. intros psi' Hp F w pre post HI.
  assert (Hu := inv_unique psi _ _ (proj1 (rok_inv_psi _ _ _ HT)) Hp).
  cbn [In] in HI. destruct HI as [H|[H|[H|[H|[H|[H|[]]]]]]]; line.
  - exact (t_r_ct_rev2std k psi T HK Hr HT).
  - exact (t_r_gs_rev2std k psi T HK Hr HT).
  - exact (r2s_inv k _ _ _ _ _ _ _ Hu (t_r_intt_ct_rev2std k psi T HK Hr HT)).
  - exact (r2s_inv k _ _ _ _ _ _ _ Hu (t_r_intt_gs_rev2std k psi T HK Hr HT)).
  - exact (t_r_mulntt_ct_rev2std k psi T HK Hr HT).
  - exact (r2s_invmul k _ _ _ _ _ _ _ Hu (t_r_inttmul_gs_rev2std k psi T HK Hr HT)).
Qed.

Lemma asm_header_std2rev_L :
forall malloc size psi T, (forall n, 0 <= n -> zlen (malloc n) = n) ->
  make_red_tables malloc size psi = Ok (Written T) -> 16 <= size <= 1024 ->
  exists k, 1 <= k <= 11 /\ size = 2 ^ k /\
  forall psi', eqQ (psi * psi') 1 ->
  forall F w pre post, In (F, w, pre, post) [
    (x_ct_std2rev size T, psi ^ 2, fun _ => 1, fun _ => 1);
    (x_gs_std2rev size T, psi ^ 2, fun _ => 1, fun _ => 1);
    (x_intt_ct_std2rev size T, psi' ^ 2, fun _ => 1, fun _ => 1);
    (x_intt_gs_std2rev size T, psi' ^ 2, fun _ => 1, fun _ => 1);
    (x_mulntt_ct_std2rev size T, psi ^ 2, fun i => psi ^ i, fun _ => 1);
    (x_inttmul_gs_std2rev size T, psi' ^ 2, fun _ => 1, fun j => psi' ^ j)] ->
  forall a, zlen a = size -> all_in (-21499) 21499 a ->
  exists r, F a = Ok r /\ zlen r = size /\ all_in (- 2 ^ 31) (2 ^ 31 - 1) r
    /\ forall j, 0 <= j < size -> eqQ (at_ r (bitrev k j)) (post j * NTT size w (fun i => at_ a i * pre i) j).
Proof.
  intros malloc size psi T HM E Hsz.
  destruct (gen_red_tables _ _ _ _ HM E) as (k & Hk & -> & Hr & HT). assert (HK := size_ge k Hk Hsz).
  exists k. split; [exact Hk|]. split; [reflexivity|]. intros psi' Hp F w pre post HI.
  assert (Hu := inv_unique psi _ _ (proj1 (rok_inv_psi _ _ _ HT)) Hp).
  cbn [In] in HI. destruct HI as [H|[H|[H|[H|[H|[H|[]]]]]]]; line.
  - exact (t_x_ct_std2rev k psi T HK Hr HT).
  - exact (t_x_gs_std2rev k psi T HK Hr HT).
  - exact (s2r_inv k _ _ _ _ _ _ _ Hu (t_x_intt_ct_std2rev k psi T HK Hr HT)).
  - exact (s2r_inv k _ _ _ _ _ _ _ Hu (t_x_intt_gs_std2rev k psi T HK Hr HT)).
  - exact (t_x_mulntt_ct_std2rev k psi T HK Hr HT).
  - exact (s2r_invmul k _ _ _ _ _ _ _ Hu (t_x_inttmul_gs_std2rev k psi T HK Hr HT)).
Qed.

Lemma asm_header_rev2std_L :
forall malloc size psi T, (forall n, 0 <= n -> zlen (malloc n) = n) ->
  make_red_tables malloc size psi = Ok (Written T) -> 16 <= size <= 1024 ->
  exists k, 1 <= k <= 11 /\ size = 2 ^ k /\
  forall psi', eqQ (psi * psi') 1 ->
  forall F w pre post, In (F, w, pre, post) [
    (x_ct_rev2std size T, psi ^ 2, fun _ => 1, fun _ => 1);
    (x_gs_rev2std size T, psi ^ 2, fun _ => 1, fun _ => 1);
    (x_intt_ct_rev2std size T, psi' ^ 2, fun _ => 1, fun _ => 1);
    (x_intt_gs_rev2std size T, psi' ^ 2, fun _ => 1, fun _ => 1);
    (x_mulntt_ct_rev2std size T, psi ^ 2, fun i => psi ^ i, fun _ => 1);
    (x_inttmul_gs_rev2std size T, psi' ^ 2, fun _ => 1, fun j => psi' ^ j)] ->
  forall a, zlen a = size -> all_in (-21499) 21499 a ->
  exists r, F a = Ok r /\ zlen r = size /\ all_in (- 2 ^ 31) (2 ^ 31 - 1) r
    /\ forall j, 0 <= j < size -> eqQ (at_ r j) (post j * NTT size w (fun i => at_ a (bitrev k i) * pre i) j).
Proof.
  intros malloc size psi T HM E Hsz.
  destruct (gen_red_tables _ _ _ _ HM E) as (k & Hk & -> & Hr & HT). assert (HK := size_ge k Hk Hsz).
  exists k. split; [exact Hk|]. split; [reflexivity|]. intros psi' Hp F w pre post HI.
  assert (Hu := inv_unique psi _ _ (proj1 (rok_inv_psi _ _ _ HT)) Hp).
  cbn [In] in HI. destruct HI as [H|[H|[H|[H|[H|[H|[]]]]]]]; line.
  - exact (t_x_ct_rev2std k psi T HK Hr HT).
  - exact (t_x_gs_rev2std k psi T HK Hr HT).
  - exact (r2s_inv k _ _ _ _ _ _ _ Hu (t_x_intt_ct_rev2std k psi T HK Hr HT)).
  - exact (r2s_inv k _ _ _ _ _ _ _ Hu (t_x_intt_gs_rev2std k psi T HK Hr HT)).
  - exact (t_x_mulntt_ct_rev2std k psi T HK Hr HT).
  - exact (r2s_invmul k _ _ _ _ _ _ _ Hu (t_x_inttmul_gs_rev2std k psi T HK Hr HT)).
Qed.

Lemma asm_header_equal_c_L :
forall malloc size psi T, (forall n, 0 <= n -> zlen (malloc n) = n) ->
  make_red_tables malloc size psi = Ok (Written T) -> 16 <= size <= 1024 ->
  forall F G, In (F, G) [
    (r_ct_std2rev size T, x_ct_std2rev size T);
    (r_gs_std2rev size T, x_gs_std2rev size T);
    (r_intt_ct_std2rev size T, x_intt_ct_std2rev size T);
    (r_intt_gs_std2rev size T, x_intt_gs_std2rev size T);
    (r_mulntt_ct_std2rev size T, x_mulntt_ct_std2rev size T);
    (r_inttmul_gs_std2rev size T, x_inttmul_gs_std2rev size T);
    (r_ct_rev2std size T, x_ct_rev2std size T);
    (r_gs_rev2std size T, x_gs_rev2std size T);
    (r_intt_ct_rev2std size T, x_intt_ct_rev2std size T);
    (r_intt_gs_rev2std size T, x_intt_gs_rev2std size T);
    (r_mulntt_ct_rev2std size T, x_mulntt_ct_rev2std size T);
    (r_inttmul_gs_rev2std size T, x_inttmul_gs_rev2std size T)] ->
  forall a, zlen a = size -> all_in (-21499) 21499 a ->
  exists r, F a = Ok r /\ G a = Ok r.
Proof.
  intros malloc size psi T HM E Hsz F G HI a HL Ha.
  destruct (gen_red_tables _ _ _ _ HM E) as (k & Hk & -> & Hr & HT).
  assert (HK := size_ge k Hk Hsz). assert (HK0 := size_le k Hk (proj2 Hsz)).
  assert (B : exists r, F a = Ok r).
  { cbn [In] in HI.
    destruct HI as [H|[H|[H|[H|[H|[H|[H|[H|[H|[H|[H|[H|[]]]]]]]]]]]]]; injection H as <- <-.
    - destruct (t_r_ct_std2rev k psi T HK0 Hr HT a HL Ha) as (r & Er & _). exists r. exact Er.
    - destruct (t_r_gs_std2rev k psi T HK0 Hr HT a HL Ha) as (r & Er & _). exists r. exact Er.
    - destruct (t_r_intt_ct_std2rev k psi T HK0 Hr HT a HL Ha) as (r & Er & _). exists r. exact Er.
    - destruct (t_r_intt_gs_std2rev k psi T HK0 Hr HT a HL Ha) as (r & Er & _). exists r. exact Er.
    - destruct (t_r_mulntt_ct_std2rev k psi T HK0 Hr HT a HL Ha) as (r & Er & _). exists r. exact Er.
    - destruct (t_r_inttmul_gs_std2rev k psi T HK0 Hr HT a HL Ha) as (r & Er & _). exists r. exact Er.
    - destruct (t_r_ct_rev2std k psi T HK0 Hr HT a HL Ha) as (r & Er & _). exists r. exact Er.
    - destruct (t_r_gs_rev2std k psi T HK0 Hr HT a HL Ha) as (r & Er & _). exists r. exact Er.
    - destruct (t_r_intt_ct_rev2std k psi T HK0 Hr HT a HL Ha) as (r & Er & _). exists r. exact Er.
    - destruct (t_r_intt_gs_rev2std k psi T HK0 Hr HT a HL Ha) as (r & Er & _). exists r. exact Er.
    - destruct (t_r_mulntt_ct_rev2std k psi T HK0 Hr HT a HL Ha) as (r & Er & _). exists r. exact Er.
    - destruct (t_r_inttmul_gs_rev2std k psi T HK0 Hr HT a HL Ha) as (r & Er & _). exists r. exact Er. }
  destruct B as (r & Er). exists r. split; [exact Er|]. cbn [In] in HI.
  destruct HI as [H|[H|[H|[H|[H|[H|[H|[H|[H|[H|[H|[H|[]]]]]]]]]]]]]; injection H as <- <-.
  - exact (same_ct_std2rev k psi T HK HT a r HL Er).
  - exact (same_gs_std2rev k psi T HK HT a r HL Er).
  - exact (same_intt_ct_std2rev k psi T HK HT a r HL Er).
  - exact (same_intt_gs_std2rev k psi T HK HT a r HL Er).
  - exact (same_mulntt_ct_std2rev k psi T HK HT a r HL Er).
  - exact (same_inttmul_gs_std2rev k psi T HK HT a r HL Er).
  - exact (same_ct_rev2std k psi T HK HT a r HL Er).
  - exact (same_gs_rev2std k psi T HK HT a r HL Er).
  - exact (same_intt_ct_rev2std k psi T HK HT a r HL Er).
  - exact (same_intt_gs_rev2std k psi T HK HT a r HL Er).
  - exact (same_mulntt_ct_rev2std k psi T HK HT a r HL Er).
  - exact (same_inttmul_gs_rev2std k psi T HK HT a r HL Er).
Qed.

Lemma trip_same k (F M G F' M' G' : list Z -> res (list Z)) a lo hi : zlen a = 2 ^ k ->
  (forall r, F a = Ok r -> F' a = Ok r) ->
  (exists x, F a = Ok x /\ all_in lo hi x) ->
  (forall x y, all_in lo hi x -> M x = Ok y -> M' x = Ok y) ->
  (forall x y, all_in lo hi x -> F a = Ok x -> M x = Ok y -> zlen y = 2 ^ k) ->
  (forall y r, zlen y = 2 ^ k -> G y = Ok r -> G' y = Ok r) ->
  forall r, (do x <- F a; do y <- M x; G y) = Ok r -> (do x <- F' a; do y <- M' x; G' y) = Ok r.
Proof.
  intros HL HF (x & Ex & Hx) HM HL2 HG r. rewrite Ex, (HF x Ex). cbn [bind]. destruct (M x) eqn:EM; [|discriminate].
  cbn [bind]. rewrite (HM x _ Hx EM). cbn [bind]. intros Er. apply HG; [|exact Er]. exact (HL2 x _ Hx Ex EM).
Qed.

Lemma asm_round_trip_L :
forall malloc size psi T, (forall n, 0 <= n -> zlen (malloc n) = n) ->
  make_red_tables malloc size psi = Ok (Written T) -> 16 <= size <= 1024 ->
  forall F G, In (F, G) [
    (x_ct_std2rev size T, x_intt_ct_rev2std size T);
    (x_ct_std2rev size T, x_intt_gs_rev2std size T);
    (x_gs_std2rev size T, x_intt_ct_rev2std size T);
    (x_gs_std2rev size T, x_intt_gs_rev2std size T);
    (x_ct_rev2std size T, x_intt_ct_std2rev size T);
    (x_ct_rev2std size T, x_intt_gs_std2rev size T);
    (x_gs_rev2std size T, x_intt_ct_std2rev size T);
    (x_gs_rev2std size T, x_intt_gs_std2rev size T);
    (x_mulntt_ct_std2rev size T, x_inttmul_gs_rev2std size T);
    (x_mulntt_ct_rev2std size T, x_inttmul_gs_std2rev size T)] ->
  forall a, zlen a = size -> all_in (-21499) 21499 a ->
  exists r, (do x <- F a; do y <- reduce_array_twice_asm x size; G y) = Ok r /\ zlen r = size
    /\ all_in (- 2 ^ 31) (2 ^ 31 - 1) r
    /\ (forall i, 0 <= i < size -> eqQ (at_ r i) (9 * (size * at_ a i))).
Proof.
  intros malloc size psi T HM E Hsz F G HI a HL Ha.
  assert (RT := red_round_trip_L malloc size psi T HM E (proj2 Hsz)).
  destruct (gen_red_tables _ _ _ _ HM E) as (k & Hk & -> & Hr & HT).
  assert (HK := size_ge k Hk Hsz). assert (HK0 := size_le k Hk (proj2 Hsz)).
  assert (TW := twice_scales k HK0).
  assert (FIN : forall F0 G0,
    In (F0, G0) [
    (r_ct_std2rev (2 ^ k) T, r_intt_ct_rev2std (2 ^ k) T);
    (r_ct_std2rev (2 ^ k) T, r_intt_gs_rev2std (2 ^ k) T);
    (r_gs_std2rev (2 ^ k) T, r_intt_ct_rev2std (2 ^ k) T);
    (r_gs_std2rev (2 ^ k) T, r_intt_gs_rev2std (2 ^ k) T);
    (r_ct_rev2std (2 ^ k) T, r_intt_ct_std2rev (2 ^ k) T);
    (r_ct_rev2std (2 ^ k) T, r_intt_gs_std2rev (2 ^ k) T);
    (r_gs_rev2std (2 ^ k) T, r_intt_ct_std2rev (2 ^ k) T);
    (r_gs_rev2std (2 ^ k) T, r_intt_gs_std2rev (2 ^ k) T);
    (r_mulntt_ct_std2rev (2 ^ k) T, r_inttmul_gs_rev2std (2 ^ k) T);
    (r_mulntt_ct_rev2std (2 ^ k) T, r_inttmul_gs_std2rev (2 ^ k) T)] ->
    (exists x, F0 a = Ok x /\ zlen x = 2 ^ k /\ all_in (- 2 ^ 31) (2 ^ 31 - 1) x) ->
    (forall r, F0 a = Ok r -> F a = Ok r) -> (forall y r, zlen y = 2 ^ k -> G0 y = Ok r -> G y = Ok r) ->
    exists r, (do x <- F a; do y <- reduce_array_twice_asm x (2 ^ k); G y) = Ok r /\ zlen r = 2 ^ k
    /\ all_in (- 2 ^ 31) (2 ^ 31 - 1) r
    /\ (forall i, 0 <= i < 2 ^ k -> eqQ (at_ r i) (9 * (2 ^ k * at_ a i)))).
  { intros F0 G0 HI0 (x & Ex & Lx & Ix) HF HG. destruct (RT F0 G0 HI0 a HL Ha) as (r & Er & X).
    exists r. split; [|exact X].
    apply (trip_same k F0 (fun x => ModelRed.reduce_array_twice x (2 ^ k)) G0 F
      (fun x => reduce_array_twice_asm x (2 ^ k)) G a (- 2 ^ 31) (2 ^ 31 - 1) HL HF); [eauto| | |exact HG|exact Er].
    - intros u v. apply (same_twice k _ _ HK).
    - intros u v Iu Eu Ev. assert (u = x) by congruence. subst u.
      destruct (TW x Lx Ix) as (y & Ey & Ly & _). cbv beta in Ey. assert (v = y) by congruence. subst v. exact Ly. }
  cbn [In] in HI. destruct HI as [H|[H|[H|[H|[H|[H|[H|[H|[H|[H|[]]]]]]]]]]]; injection H as <- <-.
  - apply (FIN (r_ct_std2rev (2 ^ k) T) (r_intt_ct_rev2std (2 ^ k) T)).
    + cbn [In]. left. reflexivity.
    + destruct (t_r_ct_std2rev k psi T HK0 Hr HT a HL Ha) as (x & Ex & Lx & Ix & _). exists x. auto.
    + intros r. exact (same_ct_std2rev k psi T HK HT a r HL).
    + intros y r Ly. exact (same_intt_ct_rev2std k psi T HK HT y r Ly).
  - apply (FIN (r_ct_std2rev (2 ^ k) T) (r_intt_gs_rev2std (2 ^ k) T)).
    + cbn [In]. right. left. reflexivity.
    + destruct (t_r_ct_std2rev k psi T HK0 Hr HT a HL Ha) as (x & Ex & Lx & Ix & _). exists x. auto.
    + intros r. exact (same_ct_std2rev k psi T HK HT a r HL).
    + intros y r Ly. exact (same_intt_gs_rev2std k psi T HK HT y r Ly).
  - apply (FIN (r_gs_std2rev (2 ^ k) T) (r_intt_ct_rev2std (2 ^ k) T)).
    + cbn [In]. right. right. left. reflexivity.
    + destruct (t_r_gs_std2rev k psi T HK0 Hr HT a HL Ha) as (x & Ex & Lx & Ix & _). exists x. auto.
    + intros r. exact (same_gs_std2rev k psi T HK HT a r HL).
    + intros y r Ly. exact (same_intt_ct_rev2std k psi T HK HT y r Ly).
  - apply (FIN (r_gs_std2rev (2 ^ k) T) (r_intt_gs_rev2std (2 ^ k) T)).
    + cbn [In]. right. right. right. left. reflexivity.
    + destruct (t_r_gs_std2rev k psi T HK0 Hr HT a HL Ha) as (x & Ex & Lx & Ix & _). exists x. auto.
    + intros r. exact (same_gs_std2rev k psi T HK HT a r HL).
    + intros y r Ly. exact (same_intt_gs_rev2std k psi T HK HT y r Ly).
  - apply (FIN (r_ct_rev2std (2 ^ k) T) (r_intt_ct_std2rev (2 ^ k) T)).
    + cbn [In]. right. right. right. right. left. reflexivity.
    + destruct (t_r_ct_rev2std k psi T HK0 Hr HT a HL Ha) as (x & Ex & Lx & Ix & _). exists x. auto.
    + intros r. exact (same_ct_rev2std k psi T HK HT a r HL).
    + intros y r Ly. exact (same_intt_ct_std2rev k psi T HK HT y r Ly).
  - apply (FIN (r_ct_rev2std (2 ^ k) T) (r_intt_gs_std2rev (2 ^ k) T)).
    + cbn [In]. right. right. right. right. right. left. reflexivity.
    + destruct (t_r_ct_rev2std k psi T HK0 Hr HT a HL Ha) as (x & Ex & Lx & Ix & _). exists x. auto.
    + intros r. exact (same_ct_rev2std k psi T HK HT a r HL).
    + intros y r Ly. exact (same_intt_gs_std2rev k psi T HK HT y r Ly).
  - apply (FIN (r_gs_rev2std (2 ^ k) T) (r_intt_ct_std2rev (2 ^ k) T)).
    + cbn [In]. right. right. right. right. right. right. left. reflexivity.
    + destruct (t_r_gs_rev2std k psi T HK0 Hr HT a HL Ha) as (x & Ex & Lx & Ix & _). exists x. auto.
    + intros r. exact (same_gs_rev2std k psi T HK HT a r HL).
    + intros y r Ly. exact (same_intt_ct_std2rev k psi T HK HT y r Ly).
  - apply (FIN (r_gs_rev2std (2 ^ k) T) (r_intt_gs_std2rev (2 ^ k) T)).
    + cbn [In]. right. right. right. right. right. right. right. left. reflexivity.
    + destruct (t_r_gs_rev2std k psi T HK0 Hr HT a HL Ha) as (x & Ex & Lx & Ix & _). exists x. auto.
    + intros r. exact (same_gs_rev2std k psi T HK HT a r HL).
    + intros y r Ly. exact (same_intt_gs_std2rev k psi T HK HT y r Ly).
  - apply (FIN (r_mulntt_ct_std2rev (2 ^ k) T) (r_inttmul_gs_rev2std (2 ^ k) T)).
    + cbn [In]. right. right. right. right. right. right. right. right. left. reflexivity.
    + destruct (t_r_mulntt_ct_std2rev k psi T HK0 Hr HT a HL Ha) as (x & Ex & Lx & Ix & _). exists x. auto.
    + intros r. exact (same_mulntt_ct_std2rev k psi T HK HT a r HL).
    + intros y r Ly. exact (same_inttmul_gs_rev2std k psi T HK HT y r Ly).
  - apply (FIN (r_mulntt_ct_rev2std (2 ^ k) T) (r_inttmul_gs_std2rev (2 ^ k) T)).
    + cbn [In]. right. right. right. right. right. right. right. right. right. left. reflexivity.
    + destruct (t_r_mulntt_ct_rev2std k psi T HK0 Hr HT a HL Ha) as (x & Ex & Lx & Ix & _). exists x. auto.
    + intros r. exact (same_mulntt_ct_rev2std k psi T HK HT a r HL).
    + intros y r Ly. exact (same_inttmul_gs_std2rev k psi T HK HT y r Ly).
Qed.
