(** Lemmas behind [PropShuffle]. *)

From Coq Require Import ZArith List Bool Lia.
From Verif Require Import CSem Spec Loops ModQ ModelNtt ModelGen Shuffle ExTables CommittedTables.
Import ListNotations.
Open Scope Z_scope.

Lemma power_table_indep n q y : 0 <= n < 4294967296 -> forall f i x a1 a2,
  0 <= i <= n -> zlen a1 = n -> zlen a2 = n -> (forall p, 0 <= p < i -> at_ a1 p = at_ a2 p) ->
  (do '(_, a) <- cfor f i (fun i => i <? n) (fun i => u32 (i + 1)) (fun i '(x, a) =>
    do a <- wr a i x;
    do x <- urem (u32 (x * y)) q;
    Ok (x, a)) (x, a1); Ok a)
  = (do '(_, a) <- cfor f i (fun i => i <? n) (fun i => u32 (i + 1)) (fun i '(x, a) =>
    do a <- wr a i x;
    do x <- urem (u32 (x * y)) q;
    Ok (x, a)) (x, a2); Ok a).
Proof.
  intros Hn. induction f as [|f IH]; intros i x a1 a2 Hi H1 H2 HE; [reflexivity|].
  cbn [cfor]. destruct (Z.ltb_spec i n).
  - rewrite !wr_ok by lia. cbn [bind]. destruct (urem (u32 (x * y)) q) as [v|e]; [|reflexivity].
    cbn [bind]. rewrite u32_small by lia. apply IH; [lia|rewrite aset_len; lia|rewrite aset_len; lia|].
    intros p Hp. destruct (Z.eq_dec p i) as [->|].
    + rewrite !at_aset_same by lia. reflexivity.
    + rewrite !at_aset_other by lia. apply HE. lia.
  - cbn [bind]. f_equal. apply list_ext; [lia|]. intros p Hp. apply HE. lia.
Qed.

Lemma build_power_table_indep n q x y a1 a2 : 0 <= n < 4294967296 -> zlen a1 = n -> zlen a2 = n ->
  build_power_table a1 n q x y = build_power_table a2 n q x y.
Proof. intros. apply power_table_indep; try assumption; [lia|intros; lia]. Qed.

Lemma bitrev_shuffle_correct_L :
  forall k a, 0 <= k <= 31 -> zlen a = 2 ^ k ->
  exists r, bitrev_shuffle a (2 ^ k) = Ok r /\ zlen r = 2 ^ k
    /\ forall i, 0 <= i < 2 ^ k -> at_ r (bitrev k i) = at_ a i.
Proof.
  intros k a Hk HL. destruct (bitrev_shuffle_ok k a Hk HL) as (r & E & HR & H).
  exists r. split; [exact E|]. split; [exact HR|]. intros i Hi.
  rewrite H by (apply bitrev_range; lia). rewrite bitrev_invol by lia. reflexivity.
Qed.

Lemma bitrev_shuffle_involutive_L :
  forall k a, 0 <= k <= 31 -> zlen a = 2 ^ k ->
  (do r <- bitrev_shuffle a (2 ^ k); bitrev_shuffle r (2 ^ k)) = Ok a.
Proof.
  intros k a Hk HL. destruct (bitrev_shuffle_ok k a Hk HL) as (r & E & HR & H).
  destruct (bitrev_shuffle_ok k r Hk HR) as (r' & E' & HR' & H'). rewrite E. cbn [bind]. rewrite E'.
  f_equal. apply list_ext; [lia|]. intros i Hi. rewrite HR' in Hi. assert (HB := bitrev_range k i ltac:(lia)).
  rewrite H' by lia. rewrite H by lia. rewrite bitrev_invol by lia. reflexivity.
Qed.

Lemma make_bitrev_table_accepts_iff_L :
  forall size,
  ((exists t, make_bitrev_table size = Ok (Written t)) <-> exists k, 1 <= k <= 15 /\ size = 2 ^ k)
  /\ exists out, make_bitrev_table size = Ok out.
Proof.
  intros size. destruct (make_bitrev_table_cases size) as [(k & t & Hk & Hs & E & _)|[HN (why & E)]]; rewrite E.
  - split; [|eauto]. split; intros _; eauto.
  - split; [|eauto]. split; [intros (t & HT); discriminate|intros HX; contradiction].
Qed.

Lemma bitrev_table_shuffle_agrees_L :
  forall size m t, make_bitrev_table size = Ok (Written (m, t)) ->
  m = Z.of_nat (length t)
  /\ (forall i j, In (i, j) t -> 0 <= i < j /\ j < size /\ j < 2 ^ 16)
  /\ forall a, zlen a = size ->
     exists r, shuffle_with_table a t m = Ok r /\ bitrev_shuffle a size = Ok r.
Proof.
  intros size m t HM. destruct (make_bitrev_table_cases size) as
    [(k & t' & Hk & Hs & E & HT & HF & _ & HS)|[HN (why & E)]]; rewrite HM in E; [|discriminate].
  injection E as E1 <-. split; [exact E1|].
  assert (HB : 2 ^ k <= 2 ^ 15) by (apply Z.pow_le_mono_r; lia). change (2 ^ 15) with 32768 in HB.
  split.
  - intros i j Hij. rewrite Forall_forall in HF. specialize (HF _ Hij). unfold good_pair in HF.
    cbn [fst snd] in HF. rewrite Hs. change (2 ^ 16) with 65536. lia.
  - intros a Ha. rewrite Hs in Ha. destruct (HS a Ha) as (r & Er & Hr). exists r. rewrite E1. split.
    + apply shuffle_with_table_eq; [lia|exact Er].
    + rewrite Hs. destruct (bitrev_shuffle_ok k a ltac:(lia) Ha) as (r' & -> & HL' & H').
      f_equal. apply part_end in Hr as [HL H]; [|lia|lia]. apply list_ext; [lia|].
      intros p Hp. rewrite HL' in Hp. rewrite H, H' by exact Hp. reflexivity.
Qed.

Lemma committed_bitrev_tables_L :
  make_bitrev_table 16 = Ok (Written (BITREV16_NPAIRS, bitrev16))
  /\ make_bitrev_table 256 = Ok (Written (BITREV256_NPAIRS, bitrev256))
  /\ make_bitrev_table 512 = Ok (Written (BITREV512_NPAIRS, bitrev512))
  /\ make_bitrev_table 1024 = Ok (Written (BITREV1024_NPAIRS, bitrev1024))
  /\ make_bitrev_table 32 = Ok (Written (BITREV32_NPAIRS, ntt32_bitrev)).
Proof.
  split; [vm_compute; reflexivity|]. split; [vm_compute; reflexivity|]. split; [vm_compute; reflexivity|].
  split; vm_compute; reflexivity.
Qed.

Lemma make_tables_memory_independent_L :
  forall m1 m2 size psi, (forall n, 0 <= n -> zlen (m1 n) = n) -> (forall n, 0 <= n -> zlen (m2 n) = n) ->
  make_tables m1 size psi = make_tables m2 size psi.
Proof.
  intros m1 m2 size psi H1 H2. unfold make_tables.
  destruct (Z.leb_spec size 1) as [|Hs1]; [reflexivity|].
  destruct (Z.leb_spec 100000 size) as [|Hs2]; [reflexivity|].
  assert (EP : forall q phi ip iphi inn, print_tables m1 q size psi phi ip iphi inn = print_tables m2 q size psi phi ip iphi inn).
  { intros. unfold print_tables. rewrite (build_power_table_indep size q 1 psi (m1 size) (m2 size)); [reflexivity|lia|apply H1; lia|apply H2; lia]. }
  cbv zeta. repeat (first [rewrite EP; reflexivity | match goal with |- ?x = ?x => reflexivity end | match goal with
    |- (if ?b then _ else _) = _ => destruct b
    | |- bind ?x _ = _ => destruct x; cbn [bind]
    | |- match ?x with _ => _ end = _ => destruct x end]).
Qed.

Lemma make_red_tables_memory_independent_L :
  forall m1 m2 size psi, (forall n, 0 <= n -> zlen (m1 n) = n) -> (forall n, 0 <= n -> zlen (m2 n) = n) ->
  make_red_tables m1 size psi = make_red_tables m2 size psi.
Proof.
  intros m1 m2 size psi H1 H2. unfold make_red_tables.
  destruct (Z.leb_spec size 1) as [|Hs1]; [reflexivity|].
  destruct (Z.leb_spec 100000 size) as [|Hs2]; [reflexivity|].
  assert (EP : forall q phi ip iphi inn ik, print_red_tables m1 q size psi phi ip iphi inn ik = print_red_tables m2 q size psi phi ip iphi inn ik).
  { intros. unfold print_red_tables.
    rewrite (build_power_table_indep size q ik psi (m1 size) (m2 size)); [reflexivity|lia|apply H1; lia|apply H2; lia]. }
  cbv zeta. repeat (first [rewrite EP; reflexivity | match goal with |- ?x = ?x => reflexivity end | match goal with
    |- (if ?b then _ else _) = _ => destruct b
    | |- bind ?x _ = _ => destruct x; cbn [bind]
    | |- match ?x with _ => _ end = _ => destruct x end]).
Qed.

Lemma committed_ntt32_tables_L :
  forall malloc, (forall n, 0 <= n -> zlen (malloc n) = n) ->
  exists T, make_tables malloc 32 ntt32_psi = Ok (Written T)
  /\ t_psi T = ntt32_psi /\ t_omega T = ntt32_omega /\ t_inv_psi T = ntt32_inv_psi
  /\ t_inv_omega T = ntt32_inv_omega /\ t_inv_n T = ntt32_inv_n
  /\ psi_powers T = ntt32_psi_powers /\ inv_psi_powers T = ntt32_inv_psi_powers
  /\ scaled_inv_psi_powers T = ntt32_scaled_inv_psi_powers
  /\ omega_powers T = ntt32_omega_powers /\ omega_powers_rev T = ntt32_omega_powers_rev
  /\ inv_omega_powers T = ntt32_inv_omega_powers /\ inv_omega_powers_rev T = ntt32_inv_omega_powers_rev
  /\ mixed_powers T = ntt32_mixed_powers /\ mixed_powers_rev T = ntt32_mixed_powers_rev
  /\ inv_mixed_powers T = ntt32_inv_mixed_powers /\ inv_mixed_powers_rev T = ntt32_inv_mixed_powers_rev.
Proof.
  intros malloc HM. rewrite (make_tables_memory_independent_L malloc malloc77 32 ntt32_psi HM).
  2:{ intros n Hn. unfold malloc77, zlen. rewrite repeat_length. lia. }
  eexists. split; [vm_compute; reflexivity|]. cbn [t_psi t_omega t_inv_psi t_inv_omega t_inv_n
    psi_powers inv_psi_powers scaled_inv_psi_powers omega_powers omega_powers_rev inv_omega_powers
    inv_omega_powers_rev mixed_powers mixed_powers_rev inv_mixed_powers inv_mixed_powers_rev].
  unfold ntt32_psi, ntt32_omega, ntt32_inv_psi, ntt32_inv_omega, ntt32_inv_n.
  repeat (split; [reflexivity|]). reflexivity.
Qed.
