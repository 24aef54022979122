(** Lemmas behind [PropRed]. *)

From Coq Require Import ZArith List Bool Lia.
From Verif Require Import CSem Spec Loops ModQ RedElem RedBfly RedTransforms RedRange FastArr.
From Verif Require ModelRed.
Import ListNotations.
Open Scope Z_scope.

Lemma from_spec k (B : Z -> Prop) lo hi m f g :
  (forall v, B v -> lo <= v <= hi) ->
  (exists r, m = Ok r /\ zlen r = 2 ^ k /\
     (forall j, 0 <= j < 2 ^ k -> eqQ (at_ r (f j)) (g j) /\ B (at_ r j))) ->
  exists r : list Z, m = Ok r /\ zlen r = 2 ^ k /\ all_in lo hi r /\
     (forall j, 0 <= j < 2 ^ k -> eqQ (at_ r (f j)) (g j)).
Proof.
  intros HB (r & E & HL & H). exists r. split; [exact E|]. split; [exact HL|]. split.
  - apply all_in_of. intros i Hi. apply HB. apply H. lia.
  - intros j Hj. apply H, Hj.
Qed.

(** Values after [m] rounds fit in 32 bits. *)
Lemma ct_i32 k : 0 <= k <= 12 ->
  forall v, rng (ct_lo 21499) (ct_hi 21499) k v -> - 2 ^ 31 <= v <= 2 ^ 31 - 1.
Proof.
  assert (C : forallb (fun m => ctb 21499 m <=? 2147483647) (seq 0 13) = true)
    by (vm_compute; reflexivity).
  intros Hk v. unfold rng, ct_lo, ct_hi.
  apply check_seq with (m := Z.to_nat k) in C; [|lia]. apply Z.leb_le in C.
  change (2 ^ 31) with 2147483648. lia.
Qed.

Definition i32b (r : Z * Z) : bool := (-2147483648 <=? fst r) && (snd r <=? 2147483647).

Lemma gs_i32 k : 0 <= k <= 10 ->
  forall v, rng (gs_lo (-21499, 21499) k) (gs_hi (-21499, 21499) k) 0 v ->
  - 2 ^ 31 <= v <= 2 ^ 31 - 1.
Proof.
  assert (C : forallb (fun m => i32b (gsb (-21499, 21499) m)) (seq 0 11) = true)
    by (vm_compute; reflexivity).
  intros Hk v. unfold rng, gs_lo, gs_hi. rewrite Z.sub_0_r.
  apply check_seq with (m := Z.to_nat k) in C; [|lia]. unfold i32b in C.
  change (2 ^ 31) with 2147483648. lia.
Qed.

Lemma gsp_i32 k : 0 <= k <= 10 ->
  forall v, rng (gsp_lo (-21499, 21499) k) (gsp_hi (-21499, 21499) k) 0 v ->
  - 2 ^ 31 <= v <= 2 ^ 31 - 1.
Proof.
  assert (C : forallb (fun m => i32b (gs_last (gsb (-21499, 21499) m))) (seq 0 10) = true)
    by (vm_compute; reflexivity).
  intros Hk v. unfold rng, gsp_lo, gsp_hi. change (0 <=? 0) with true. cbv iota.
  apply check_seq with (m := Z.to_nat (k - 1)) in C; [|lia]. unfold i32b in C.
  change (2 ^ 31) with 2147483648. lia.
Qed.

Lemma ntt_one w x : NTT (2 ^ 0) w x 0 = x 0.
Proof.
  unfold NTT, Sum. change (Z.to_nat (2 ^ 0)) with 1%nat. cbn [sum_nat]. change (Z.of_nat 0) with 0.
  change (w ^ (0 * 0)) with 1. lia.
Qed.

Lemma i32_of_doc a : all_in (-21499) 21499 a -> all_in (- 2 ^ 31) (2 ^ 31 - 1) a.
Proof. intros H v Hv. apply H in Hv. change (2 ^ 31) with 2147483648. lia. Qed.

Lemma safe_i32 k lo hi l m : 0 <= k -> safe_result k lo hi m l ->
  (forall v, rng lo hi l v -> - 2 ^ 31 <= v <= 2 ^ 31 - 1) ->
  exists r, m = Ok r /\ zlen r = 2 ^ k /\ all_in (- 2 ^ 31) (2 ^ 31 - 1) r.
Proof.
  intros Hk (r & E & HL & H) HB. exists r. split; [exact E|]. split; [exact HL|].
  apply all_in_of. intros i Hi. apply HB, H. lia.
Qed.

Lemma ntt_red_ct_rev2std_correct_L :
  forall k omega a p, 0 <= k <= 12 -> (0 < k -> eqQ (omega ^ (2 ^ (k - 1))) (-1)) ->
  omega_table k omega 8193 p -> (forall i, 1 <= i < 2 ^ k -> -6144 <= at_ p i <= 6144) ->
  zlen a = 2 ^ k -> all_in (-21499) 21499 a ->
  exists r, ModelRed.ntt_red_ct_rev2std a (2 ^ k) p = Ok r /\ zlen r = 2 ^ k /\ all_in (- 2 ^ 31) (2 ^ 31 - 1) r
    /\ forall j, 0 <= j < 2 ^ k ->
         eqQ (at_ r j) (NTT (2 ^ k) omega (fun i => at_ a (bitrev k i)) j).
Proof.
  intros k w a p Hk Hw Ht Hp HL Ha.
  apply from_spec with (B := rng (ct_lo 21499) (ct_hi 21499) k); [apply ct_i32; lia|].
  apply ntt_red_ct_rev2std_spec; auto; [lia | | ].
  - intros l Hl. apply ct_grow_ok with (K := 12%nat); [apply ct_doc|lia].
  - apply all_in_rng with (lo := -21499) (hi := 21499); auto; reflexivity || (cbv; congruence).
Qed.

Lemma ntt_red_ct_std2rev_correct_L :
  forall k omega a p, 0 <= k <= 12 -> (0 < k -> eqQ (omega ^ (2 ^ (k - 1))) (-1)) ->
  omega_table_rev k omega 8193 p -> (forall i, 1 <= i < 2 ^ k -> -6144 <= at_ p i <= 6144) ->
  zlen a = 2 ^ k -> all_in (-21499) 21499 a ->
  exists r, ModelRed.ntt_red_ct_std2rev a (2 ^ k) p = Ok r /\ zlen r = 2 ^ k /\ all_in (- 2 ^ 31) (2 ^ 31 - 1) r
    /\ forall j, 0 <= j < 2 ^ k ->
         eqQ (at_ r (bitrev k j)) (NTT (2 ^ k) omega (at_ a) j).
Proof.
  intros k w a p Hk Hw Ht Hp HL Ha.
  apply from_spec with (B := rng (ct_lo 21499) (ct_hi 21499) k); [apply ct_i32; lia|].
  apply ntt_red_ct_std2rev_spec; auto; [lia | | ].
  - intros l Hl. apply ct_grow_ok with (K := 12%nat); [apply ct_doc|lia].
  - apply all_in_rng with (lo := -21499) (hi := 21499); auto; reflexivity || (cbv; congruence).
Qed.

Lemma ntt_red_gs_rev2std_correct_L :
  forall k omega a p, 0 <= k <= 10 -> (0 < k -> eqQ (omega ^ (2 ^ (k - 1))) (-1)) ->
  omega_table_rev k omega 8193 p -> (forall i, 1 <= i < 2 ^ k -> -6144 <= at_ p i <= 6144) ->
  zlen a = 2 ^ k -> all_in (-21499) 21499 a ->
  exists r, ModelRed.ntt_red_gs_rev2std a (2 ^ k) p = Ok r /\ zlen r = 2 ^ k /\ all_in (- 2 ^ 31) (2 ^ 31 - 1) r
    /\ forall j, 0 <= j < 2 ^ k ->
         eqQ (at_ r j) (NTT (2 ^ k) omega (fun i => at_ a (bitrev k i)) j).
Proof.
  intros k w a p Hk Hw Ht Hp HL Ha.
  destruct (Z.eq_dec k 0) as [->|Hk0].
  { exists a. split; [vm_compute; reflexivity|]. split; [exact HL|].
    split; [apply i32_of_doc, Ha|]. intros j Hj. change (2 ^ 0) with 1 in Hj.
    assert (j = 0) as -> by lia. rewrite ntt_one. reflexivity. }
  apply from_spec with (B := rng (gsp_lo (-21499, 21499) k) (gsp_hi (-21499, 21499) k) 0);
    [apply gsp_i32; lia|].
  apply ntt_red_gs_rev2std_spec; auto; [lia | | | ].
  - intros l Hl. apply gsp_grow0_ok with (K := 9%nat); [apply gs_doc9|apply gs_doc_last|lia|lia].
  - intros l Hl. apply gsp_grow_ok with (K := 9%nat); [apply gs_doc9|lia|lia].
  - apply all_in_rng with (lo := -21499) (hi := 21499); auto;
      unfold gsp_lo, gsp_hi, gs_lo, gs_hi; replace (k <=? 0) with false by lia; rewrite Z.sub_diag; cbv; congruence.
Qed.

Lemma ntt_red_gs_std2rev_correct_L :
  forall k omega a p, 0 <= k <= 10 -> (0 < k -> eqQ (omega ^ (2 ^ (k - 1))) (-1)) ->
  omega_table k omega 8193 p -> (forall i, 1 <= i < 2 ^ k -> -6144 <= at_ p i <= 6144) ->
  zlen a = 2 ^ k -> all_in (-21499) 21499 a ->
  exists r, ModelRed.ntt_red_gs_std2rev a (2 ^ k) p = Ok r /\ zlen r = 2 ^ k /\ all_in (- 2 ^ 31) (2 ^ 31 - 1) r
    /\ forall j, 0 <= j < 2 ^ k ->
         eqQ (at_ r (bitrev k j)) (NTT (2 ^ k) omega (at_ a) j).
Proof.
  intros k w a p Hk Hw Ht Hp HL Ha.
  destruct (Z.eq_dec k 0) as [->|Hk0].
  { exists a. split; [vm_compute; reflexivity|]. split; [exact HL|].
    split; [apply i32_of_doc, Ha|]. intros j Hj. change (2 ^ 0) with 1 in Hj.
    assert (j = 0) as -> by lia. rewrite ntt_one. reflexivity. }
  apply from_spec with (B := rng (gsp_lo (-21499, 21499) k) (gsp_hi (-21499, 21499) k) 0);
    [apply gsp_i32; lia|].
  apply ntt_red_gs_std2rev_spec; auto; [lia | | | ].
  - intros l Hl. apply gsp_grow0_ok with (K := 9%nat); [apply gs_doc9|apply gs_doc_last|lia|lia].
  - intros l Hl. apply gsp_grow_ok with (K := 9%nat); [apply gs_doc9|lia|lia].
  - apply all_in_rng with (lo := -21499) (hi := 21499); auto;
      unfold gsp_lo, gsp_hi, gs_lo, gs_hi; replace (k <=? 0) with false by lia; rewrite Z.sub_diag; cbv; congruence.
Qed.

Lemma mulntt_red_ct_rev2std_correct_L :
  forall k psi a p, 0 <= k <= 12 -> eqQ (psi ^ (2 ^ k)) (-1) ->
  mixed_table k psi 8193 p -> (forall i, 1 <= i < 2 ^ k -> -6144 <= at_ p i <= 6144) ->
  zlen a = 2 ^ k -> all_in (-21499) 21499 a ->
  exists r, ModelRed.mulntt_red_ct_rev2std a (2 ^ k) p = Ok r /\ zlen r = 2 ^ k /\ all_in (- 2 ^ 31) (2 ^ 31 - 1) r
    /\ forall j, 0 <= j < 2 ^ k ->
         eqQ (at_ r j) (NTT (2 ^ k) (psi ^ 2) (fun i => at_ a (bitrev k i) * psi ^ i) j).
Proof.
  intros k w a p Hk Hw Ht Hp HL Ha.
  apply from_spec with (B := rng (ct_lo 21499) (ct_hi 21499) k); [apply ct_i32; lia|].
  apply mulntt_red_ct_rev2std_spec; auto; [lia | | ].
  - intros l Hl. apply ct_grow_ok with (K := 12%nat); [apply ct_doc|lia].
  - apply all_in_rng with (lo := -21499) (hi := 21499); auto; reflexivity || (cbv; congruence).
Qed.

Lemma mulntt_red_ct_std2rev_correct_L :
  forall k psi a p, 0 <= k <= 12 -> eqQ (psi ^ (2 ^ k)) (-1) ->
  mixed_table_rev k psi 8193 p -> (forall i, 1 <= i < 2 ^ k -> -6144 <= at_ p i <= 6144) ->
  zlen a = 2 ^ k -> all_in (-21499) 21499 a ->
  exists r, ModelRed.mulntt_red_ct_std2rev a (2 ^ k) p = Ok r /\ zlen r = 2 ^ k /\ all_in (- 2 ^ 31) (2 ^ 31 - 1) r
    /\ forall j, 0 <= j < 2 ^ k ->
         eqQ (at_ r (bitrev k j)) (NTT (2 ^ k) (psi ^ 2) (fun i => at_ a i * psi ^ i) j).
Proof.
  intros k w a p Hk Hw Ht Hp HL Ha.
  apply from_spec with (B := rng (ct_lo 21499) (ct_hi 21499) k); [apply ct_i32; lia|].
  apply mulntt_red_ct_std2rev_spec; auto; [lia | | ].
  - intros l Hl. apply ct_grow_ok with (K := 12%nat); [apply ct_doc|lia].
  - apply all_in_rng with (lo := -21499) (hi := 21499); auto; reflexivity || (cbv; congruence).
Qed.

Lemma nttmul_red_gs_rev2std_correct_L :
  forall k psi a p, 0 <= k <= 10 -> eqQ (psi ^ (2 ^ k)) (-1) ->
  mixed_table_rev k psi 8193 p -> (forall i, 1 <= i < 2 ^ k -> -6144 <= at_ p i <= 6144) ->
  zlen a = 2 ^ k -> all_in (-21499) 21499 a ->
  exists r, ModelRed.nttmul_red_gs_rev2std a (2 ^ k) p = Ok r /\ zlen r = 2 ^ k /\ all_in (- 2 ^ 31) (2 ^ 31 - 1) r
    /\ forall j, 0 <= j < 2 ^ k ->
         eqQ (at_ r j) (psi ^ j * NTT (2 ^ k) (psi ^ 2) (fun i => at_ a (bitrev k i)) j).
Proof.
  intros k w a p Hk Hw Ht Hp HL Ha.
  apply from_spec with (B := rng (gs_lo (-21499, 21499) k) (gs_hi (-21499, 21499) k) 0);
    [apply gs_i32; lia|].
  apply nttmul_red_gs_rev2std_spec; auto; [lia | | ].
  - intros l Hl. apply gs_grow_ok with (K := 10%nat); [apply gs_doc|lia|lia].
  - apply all_in_rng with (lo := -21499) (hi := 21499); auto;
      unfold gs_lo, gs_hi; rewrite Z.sub_diag; cbv; congruence.
Qed.

Lemma nttmul_red_gs_std2rev_correct_L :
  forall k psi a p, 0 <= k <= 10 -> eqQ (psi ^ (2 ^ k)) (-1) ->
  mixed_table k psi 8193 p -> (forall i, 1 <= i < 2 ^ k -> -6144 <= at_ p i <= 6144) ->
  zlen a = 2 ^ k -> all_in (-21499) 21499 a ->
  exists r, ModelRed.nttmul_red_gs_std2rev a (2 ^ k) p = Ok r /\ zlen r = 2 ^ k /\ all_in (- 2 ^ 31) (2 ^ 31 - 1) r
    /\ forall j, 0 <= j < 2 ^ k ->
         eqQ (at_ r (bitrev k j)) (psi ^ j * NTT (2 ^ k) (psi ^ 2) (at_ a) j).
Proof.
  intros k w a p Hk Hw Ht Hp HL Ha.
  apply from_spec with (B := rng (gs_lo (-21499, 21499) k) (gs_hi (-21499, 21499) k) 0);
    [apply gs_i32; lia|].
  apply nttmul_red_gs_std2rev_spec; auto; [lia | | ].
  - intros l Hl. apply gs_grow_ok with (K := 10%nat); [apply gs_doc|lia|lia].
  - apply all_in_rng with (lo := -21499) (hi := 21499); auto;
      unfold gs_lo, gs_hi; rewrite Z.sub_diag; cbv; congruence.
Qed.

Lemma ntt_red_ct_rev2std_safe_L :
  forall k a p, 0 <= k <= 12 -> zlen a = 2 ^ k -> zlen p = 2 ^ k ->
  all_in (-21499) 21499 a -> all_in (-6144) 6144 p ->
  exists r, ModelRed.ntt_red_ct_rev2std a (2 ^ k) p = Ok r /\ zlen r = 2 ^ k
    /\ all_in (- 2 ^ 31) (2 ^ 31 - 1) r.
Proof.
    intros k a p Hk HL HLp Ha HP;
  assert (Hp : forall i, 1 <= i < 2 ^ k -> -6144 <= at_ p i <= 6144)
    by (intros i Hi; apply (all_in_at (-6144) 6144); [exact HP|lia]); eapply safe_i32; [lia | apply safe_ct_rev2std; auto; [lia | |] | apply (ct_i32 k); lia];
  [ intros l Hl; apply ct_grow_ok with (K := 12%nat); [apply ct_doc|lia]
  | apply all_in_rng with (lo := -21499) (hi := 21499); auto; reflexivity || (cbv; congruence) ].
Qed.

Lemma ntt_red_ct_std2rev_safe_L :
  forall k a p, 0 <= k <= 12 -> zlen a = 2 ^ k -> zlen p = 2 ^ k ->
  all_in (-21499) 21499 a -> all_in (-6144) 6144 p ->
  exists r, ModelRed.ntt_red_ct_std2rev a (2 ^ k) p = Ok r /\ zlen r = 2 ^ k
    /\ all_in (- 2 ^ 31) (2 ^ 31 - 1) r.
Proof.
    intros k a p Hk HL HLp Ha HP;
  assert (Hp : forall i, 1 <= i < 2 ^ k -> -6144 <= at_ p i <= 6144)
    by (intros i Hi; apply (all_in_at (-6144) 6144); [exact HP|lia]); eapply safe_i32; [lia | apply safe_ct_std2rev; auto; [lia | |] | apply (ct_i32 k); lia];
  [ intros l Hl; apply ct_grow_ok with (K := 12%nat); [apply ct_doc|lia]
  | apply all_in_rng with (lo := -21499) (hi := 21499); auto; reflexivity || (cbv; congruence) ].
Qed.

Lemma mulntt_red_ct_rev2std_safe_L :
  forall k a p, 0 <= k <= 12 -> zlen a = 2 ^ k -> zlen p = 2 ^ k ->
  all_in (-21499) 21499 a -> all_in (-6144) 6144 p ->
  exists r, ModelRed.mulntt_red_ct_rev2std a (2 ^ k) p = Ok r /\ zlen r = 2 ^ k
    /\ all_in (- 2 ^ 31) (2 ^ 31 - 1) r.
Proof.
    intros k a p Hk HL HLp Ha HP;
  assert (Hp : forall i, 1 <= i < 2 ^ k -> -6144 <= at_ p i <= 6144)
    by (intros i Hi; apply (all_in_at (-6144) 6144); [exact HP|lia]); eapply safe_i32; [lia | apply safe_mul_ct_rev2std; auto; [lia | |] | apply (ct_i32 k); lia];
  [ intros l Hl; apply ct_grow_ok with (K := 12%nat); [apply ct_doc|lia]
  | apply all_in_rng with (lo := -21499) (hi := 21499); auto; reflexivity || (cbv; congruence) ].
Qed.

Lemma mulntt_red_ct_std2rev_safe_L :
  forall k a p, 0 <= k <= 12 -> zlen a = 2 ^ k -> zlen p = 2 ^ k ->
  all_in (-21499) 21499 a -> all_in (-6144) 6144 p ->
  exists r, ModelRed.mulntt_red_ct_std2rev a (2 ^ k) p = Ok r /\ zlen r = 2 ^ k
    /\ all_in (- 2 ^ 31) (2 ^ 31 - 1) r.
Proof.
    intros k a p Hk HL HLp Ha HP;
  assert (Hp : forall i, 1 <= i < 2 ^ k -> -6144 <= at_ p i <= 6144)
    by (intros i Hi; apply (all_in_at (-6144) 6144); [exact HP|lia]); eapply safe_i32; [lia | apply safe_mul_ct_std2rev; auto; [lia | |] | apply (ct_i32 k); lia];
  [ intros l Hl; apply ct_grow_ok with (K := 12%nat); [apply ct_doc|lia]
  | apply all_in_rng with (lo := -21499) (hi := 21499); auto; reflexivity || (cbv; congruence) ].
Qed.

Lemma ntt_red_gs_rev2std_safe_L :
  forall k a p, 0 <= k <= 10 -> zlen a = 2 ^ k -> zlen p = 2 ^ k ->
  all_in (-21499) 21499 a -> all_in (-6144) 6144 p ->
  exists r, ModelRed.ntt_red_gs_rev2std a (2 ^ k) p = Ok r /\ zlen r = 2 ^ k
    /\ all_in (- 2 ^ 31) (2 ^ 31 - 1) r.
Proof.
    intros k a p Hk HL HLp Ha HP;
  assert (Hp : forall i, 1 <= i < 2 ^ k -> -6144 <= at_ p i <= 6144)
    by (intros i Hi; apply (all_in_at (-6144) 6144); [exact HP|lia]);
  destruct (Z.eq_dec k 0) as [K0|K0];
  [ subst k; exists a; split; [vm_compute; reflexivity|]; split; [exact HL|apply i32_of_doc, Ha]
  | eapply safe_i32; [lia | apply safe_gs_rev2std; auto; [lia | | |] | apply (gsp_i32 k); lia];
    [ apply all_in_rng with (lo := -21499) (hi := 21499); auto;
        unfold gsp_lo, gsp_hi, gs_lo, gs_hi; replace (k <=? 0) with false by lia;
        rewrite Z.sub_diag; cbv; congruence
    | intros l Hl; apply gsp_grow0_ok with (K := 9%nat); [apply gs_doc9|apply gs_doc_last|lia|lia]
    | intros l Hl; apply gsp_grow_ok with (K := 9%nat); [apply gs_doc9|lia|lia] ] ].
Qed.

Lemma ntt_red_gs_std2rev_safe_L :
  forall k a p, 0 <= k <= 10 -> zlen a = 2 ^ k -> zlen p = 2 ^ k ->
  all_in (-21499) 21499 a -> all_in (-6144) 6144 p ->
  exists r, ModelRed.ntt_red_gs_std2rev a (2 ^ k) p = Ok r /\ zlen r = 2 ^ k
    /\ all_in (- 2 ^ 31) (2 ^ 31 - 1) r.
Proof.
    intros k a p Hk HL HLp Ha HP;
  assert (Hp : forall i, 1 <= i < 2 ^ k -> -6144 <= at_ p i <= 6144)
    by (intros i Hi; apply (all_in_at (-6144) 6144); [exact HP|lia]);
  destruct (Z.eq_dec k 0) as [K0|K0];
  [ subst k; exists a; split; [vm_compute; reflexivity|]; split; [exact HL|apply i32_of_doc, Ha]
  | eapply safe_i32; [lia | apply safe_gs_std2rev; auto; [lia | | |] | apply (gsp_i32 k); lia];
    [ apply all_in_rng with (lo := -21499) (hi := 21499); auto;
        unfold gsp_lo, gsp_hi, gs_lo, gs_hi; replace (k <=? 0) with false by lia;
        rewrite Z.sub_diag; cbv; congruence
    | intros l Hl; apply gsp_grow0_ok with (K := 9%nat); [apply gs_doc9|apply gs_doc_last|lia|lia]
    | intros l Hl; apply gsp_grow_ok with (K := 9%nat); [apply gs_doc9|lia|lia] ] ].
Qed.

Lemma nttmul_red_gs_rev2std_safe_L :
  forall k a p, 0 <= k <= 10 -> zlen a = 2 ^ k -> zlen p = 2 ^ k ->
  all_in (-21499) 21499 a -> all_in (-6144) 6144 p ->
  exists r, ModelRed.nttmul_red_gs_rev2std a (2 ^ k) p = Ok r /\ zlen r = 2 ^ k
    /\ all_in (- 2 ^ 31) (2 ^ 31 - 1) r.
Proof.
    intros k a p Hk HL HLp Ha HP;
  assert (Hp : forall i, 1 <= i < 2 ^ k -> -6144 <= at_ p i <= 6144)
    by (intros i Hi; apply (all_in_at (-6144) 6144); [exact HP|lia]); eapply safe_i32; [lia | apply safe_mul_gs_rev2std; auto; [lia | | ] | apply (gs_i32 k); lia];
  [ apply all_in_rng with (lo := -21499) (hi := 21499); auto;
      unfold gs_lo, gs_hi; rewrite Z.sub_diag; cbv; congruence
  | intros l Hl; apply gs_grow_ok with (K := 10%nat); [apply gs_doc|lia|lia] ].
Qed.

Lemma nttmul_red_gs_std2rev_safe_L :
  forall k a p, 0 <= k <= 10 -> zlen a = 2 ^ k -> zlen p = 2 ^ k ->
  all_in (-21499) 21499 a -> all_in (-6144) 6144 p ->
  exists r, ModelRed.nttmul_red_gs_std2rev a (2 ^ k) p = Ok r /\ zlen r = 2 ^ k
    /\ all_in (- 2 ^ 31) (2 ^ 31 - 1) r.
Proof.
    intros k a p Hk HL HLp Ha HP;
  assert (Hp : forall i, 1 <= i < 2 ^ k -> -6144 <= at_ p i <= 6144)
    by (intros i Hi; apply (all_in_at (-6144) 6144); [exact HP|lia]); eapply safe_i32; [lia | apply safe_mul_gs_std2rev; auto; [lia | | ] | apply (gs_i32 k); lia];
  [ apply all_in_rng with (lo := -21499) (hi := 21499); auto;
      unfold gs_lo, gs_hi; rewrite Z.sub_diag; cbv; congruence
  | intros l Hl; apply gs_grow_ok with (K := 10%nat); [apply gs_doc|lia|lia] ].
Qed.

Lemma ntt_red_gs_rev2std_2048_refuted_L :
  exists a p, zlen a = 2048 /\ zlen p = 2048 /\ all_in (-21499) 21499 a /\ all_in (-6144) 6144 p
    /\ ModelRed.ntt_red_gs_rev2std a 2048 p = Err SignedOverflow.
Proof.
  exists (map bad_b (Exlib.ztimes 2048)), (repeat (-6143) (Z.to_nat 2048)).
  split; [apply zlen_times; lia|]. split; [apply rep_len|].
  split; [apply bad_in, bad_b_in|]. split; [apply rep_in; lia|].
  exact (err_rev2std 11 bad_b (-6143) _ bad_rev2std).
Qed.

Lemma ntt_red_gs_std2rev_2048_refuted_L :
  exists a p, zlen a = 2048 /\ zlen p = 2048 /\ all_in (-21499) 21499 a /\ all_in (-6144) 6144 p
    /\ ModelRed.ntt_red_gs_std2rev a 2048 p = Err SignedOverflow.
Proof.
  exists (map bad_a (Exlib.ztimes 2048)), (repeat (-6143) (Z.to_nat 2048)).
  split; [apply zlen_times; lia|]. split; [apply rep_len|].
  split; [apply bad_in, bad_a_in|]. split; [apply rep_in; lia|].
  exact (err_std2rev 11 bad_a (-6143) _ bad_std2rev).
Qed.

Lemma nttmul_red_gs_rev2std_2048_refuted_L :
  exists a p, zlen a = 2048 /\ zlen p = 2048 /\ all_in (-21499) 21499 a /\ all_in (-6144) 6144 p
    /\ ModelRed.nttmul_red_gs_rev2std a 2048 p = Err SignedOverflow.
Proof.
  exists (map bad_b (Exlib.ztimes 2048)), (repeat (-6143) (Z.to_nat 2048)).
  split; [apply zlen_times; lia|]. split; [apply rep_len|].
  split; [apply bad_in, bad_b_in|]. split; [apply rep_in; lia|].
  exact (err_mul_rev2std 11 bad_b (-6143) _ bad_mul_rev2std).
Qed.

Lemma nttmul_red_gs_std2rev_2048_refuted_L :
  exists a p, zlen a = 2048 /\ zlen p = 2048 /\ all_in (-21499) 21499 a /\ all_in (-6144) 6144 p
    /\ ModelRed.nttmul_red_gs_std2rev a 2048 p = Err SignedOverflow.
Proof.
  exists (map bad_a (Exlib.ztimes 2048)), (repeat (-6143) (Z.to_nat 2048)).
  split; [apply zlen_times; lia|]. split; [apply rep_len|].
  split; [apply bad_in, bad_a_in|]. split; [apply rep_in; lia|].
  exact (err_mul_std2rev 11 bad_a (-6143) _ bad_mul_std2rev).
Qed.
