(** Lemmas behind [PropNotes]. *)

From Coq Require Import ZArith List Bool Lia.
From Verif Require Import CSem Spec Loops NttElem ModelBounds BoundsElem BoundsRound BoundsNtt BoundsFinal SpecNotes NotesElem.
From Verif Require ModelRed Forms.
Import ListNotations.
Open Scope Z_scope.

(** Where the bounds are attained: a constant and an operand for each line. *)
Definition cert_ct_option1 : list (Z * Z) := [
  (12287, -12287); (12287, -61432); (12287, -257978); (12281, -1043894); (12287, -4186097);
  (12287, -16755610); (12288, -67027260); (12288, -268109040); (1, -1072435201); (12276, -274090);
  (12286, -1107843); (12286, -4442111); (12286, -17778687); (12288, -71118480);
  (12288, -284473920); (1, -1137893377); (12283, -289996); (12287, -1171455); (12287, -4698111);
  (12287, -18803840); (12288, -75220370)].
Definition cert_gs_option1 : list (Z * Z) := [
  (12287, -24575); (12287, -172010); (12287, -1056422); (12287, -6360518); (12288, -38181160);
  (12288, -229086960); (1, -687259649); (12287, -360148); (12287, -2183167); (12287, -13122508);
  (12288, -78746762); (12288, -472480572); (1, -1417441281); (12287, -716682); (12286, -4323327);
  (12287, -25960306); (12288, -155772886); (1, -467316737); (12285, -252586); (12287, -1539712);
  (12287, -9259794); (12288, -55571248)].
Definition cert_ct_option2 : list (Z * Z) := [
  (6143, -12286); (6143, -42997); (6137, -119661); (6143, -311294); (6143, -790446);
  (6141, -1987924); (6143, -4980672); (6143, -12462079); (6144, -31164923); (6144, -77918453);
  (6144, -194802277); (6144, -487011837); (1, -1217531905); (6143, -309247); (6142, -785407);
  (6142, -1975295); (6143, -4949887); (6143, -12384255); (6144, -30971055); (6144, -77433783)].
Definition cert_gs_option2 : list (Z * Z) := [
  (6143, -24574); (6143, -98276); (6138, -319145); (6143, -980991); (6143, -2967065);
  (6143, -8921086); (6144, -26783467); (6144, -80362689); (6144, -241100355); (6144, -723313353);
  (1, -1084973057); (6141, -554324); (6142, -1686527); (6142, -5082111); (6143, -15265790);
  (6144, -45814481); (6144, -137455731); (6144, -412379481); (6144, -1237150731); (1, -1855729665);
  (6141, -930473)].
Definition cert_ct_option1_psi : list (Z * Z) := [
  (12287, -36863); (12287, -159730); (12287, -651128); (12285, -2615978); (12287, -10473471);
  (12288, -41904677); (12288, -167618708); (1, -670474241); (12287, -175976); (12285, -715434);
  (12286, -2873343); (12287, -11504664); (12288, -46025136); (12288, -184100544); (1, -736399361);
  (12279, -192056); (12283, -779878); (12285, -3130709); (12287, -12533167); (12288, -50140118);
  (12288, -200560472); (1, -802238465)].
Definition cert_gs_option1_psi : list (Z * Z) := [
  (12287, -73727); (12287, -466898); (12287, -2825462); (12287, -16969727); (12288, -101834648);
  (12288, -611007888); (1, -1833021441); (12286, -919551); (12287, -5540974); (12287, -33262232);
  (12288, -199573424); (1, -598716417); (12285, -316757); (12287, -1924650); (12287, -11567103);
  (12288, -69421542); (12288, -416529252); (1, -1249587201); (12287, -634722); (12286, -3831652);
  (12287, -23007231); (12288, -138056724); (1, -414167041)].
Definition cert_ct_option2_psi : list (Z * Z) := [
  (6142, -21499); (6139, -65945); (6142, -177113); (6143, -454654); (6143, -1148903);
  (6143, -2883582); (6143, -7221144); (6143, -18063074); (6144, -45164705); (6144, -112917907);
  (6144, -282300913); (6144, -705758427); (1, -1764401153); (6141, -443047); (6141, -1119550);
  (6143, -2809854); (6143, -7036512); (6143, -17600510); (6144, -44009353); (6144, -110029527)].
Definition cert_gs_option2_psi : list (Z * Z) := [
  (6143, -42997); (6143, -153481); (6141, -484009); (6142, -1475583); (6143, -4449873);
  (6143, -13369342); (6144, -40126063); (6144, -120390477); (6144, -361183719);
  (6144, -1083563445); (1, -1625350145); (6142, -818175); (6143, -2478078); (6143, -7456767);
  (6143, -22390783); (6144, -67185987); (6144, -201570249); (6144, -604723035); (1, -907087873);
  (6140, -467455); (6143, -1425406)].

(** ** The transforms *)

Fixpoint steps_ok (P : Z -> Z -> bool) (b : Z) (l : list Z) : bool :=
  match l with [] => true | c :: l' => P b c && steps_ok P c l' end.

Lemma steps_at P : forall l b, steps_ok P b l = true ->
  forall i, 0 <= i < zlen l -> P (at_ (b :: l) i) (at_ (b :: l) (i + 1)) = true.
Proof.
  induction l as [|c l IH]; intros b H i Hi; [unfold zlen in Hi; cbn in Hi; lia|].
  cbn [steps_ok] in H. apply andb_prop in H. destruct H as [H1 H2].
  destruct (Z.eq_dec i 0) as [->|]; [exact H1|].
  assert (E : forall x t m, 0 <= m -> at_ (x :: t) (m + 1) = at_ t m).
  { intros x t m Hm. unfold at_. replace (Z.to_nat (m + 1)) with (S (Z.to_nat m)) by lia. reflexivity. }
  rewrite (E b (c :: l) i) by lia. replace (at_ (b :: c :: l) i) with (at_ (c :: l) (i - 1))
    by (replace i with (i - 1 + 1) at 2 by lia; rewrite E by lia; reflexivity).
  specialize (IH c H2 (i - 1)). replace (i - 1 + 1) with i in IH by lia.
  apply IH. unfold zlen in *. cbn [List.length] in Hi. lia.
Qed.

(** One round, for any table: an update with constants up to 6144. *)
Definition round_ok (gs : bool) (b c : Z) : bool :=
  (0 <=? b) && (b <=? c) && (2 * b <=? c) && (c <=? 3 * b + 12286) && (6144 * b / 4096 + b <=? c)
  && (if gs then 6144 * (2 * b) / 4096 <=? c else true) && upd gs (-6144) 6144 b c.

Lemma ct_good b c w : round_ok false b c = true -> -6144 <= w <= 6144 -> good_ct b w c.
Proof.
  intros H Hw. unfold round_ok in H. rewrite !andb_true_iff, !Z.leb_le in H. cbv iota in H. destruct H as [[[[[[H0 H1] H2] H3] H4] H5] H].
  apply upd_ok in H. split.
  - intros x y v Hx Hy <-. destruct (H x y w Hx Hy Hw). rewrite redz_ln. lia.
  - assert (Z.abs w * b <= 6144 * b) by (apply Z.mul_le_mono_nonneg_r; lia).
    assert (Z.abs w * b / 4096 <= 6144 * b / 4096) by (apply Z.div_le_mono; lia). lia.
Qed.
Lemma gs_good b c w : round_ok true b c = true -> -6144 <= w <= 6144 -> good_gs b w c.
Proof.
  intros H Hw. unfold round_ok in H. rewrite !andb_true_iff, !Z.leb_le in H. cbv iota in H. destruct H as [[[[[[H0 H1] H2] H3] H4] H5] H]. apply Z.leb_le in H5.
  apply upd_ok in H. split; [|split; [exact H2|]].
  - intros x y v Hx Hy <-. destruct (H x y w Hx Hy Hw) as [A B]. rewrite (Z.mul_comm w), redz_ln. lia.
  - assert (Z.abs w * (2 * b) <= 6144 * (2 * b)) by (apply Z.mul_le_mono_nonneg_r; lia).
    assert (Z.abs w * (2 * b) / 4096 <= 6144 * (2 * b) / 4096) by (apply Z.div_le_mono; lia). lia.
Qed.

Section Rounds.
Variables (gs : bool) (good : Z -> Z -> Z -> Prop) (b0 : Z) (l : list Z).
Hypothesis Hgood : forall b c w, round_ok gs b c = true -> -6144 <= w <= 6144 -> good b w c.
Hypothesis Hb0 : 0 <= b0.
Hypothesis HR : steps_ok (round_ok gs) b0 l = true.

Lemma table_seq p k lev : 0 <= k <= zlen l -> range_table k p ->
  (forall i, 0 <= i < k -> 0 <= lev i < k) -> seq_ok good b0 p lev k (b0 :: l).
Proof.
  intros Hk [_ HP] Hlev. assert (HS := steps_at _ _ _ HR).
  split; [reflexivity|]. split.
  - assert (G : forall i, 0 <= i -> i <= k -> 0 <= at_ (b0 :: l) i /\ at_ (b0 :: l) i + 6143 <= 3 ^ i * (b0 + 6143)).
    { apply (natlike_ind (fun i => i <= k -> 0 <= at_ (b0 :: l) i /\ at_ (b0 :: l) i + 6143 <= 3 ^ i * (b0 + 6143))).
      - intros _. change (at_ (b0 :: l) 0) with b0. change (3 ^ 0) with 1. lia.
      - intros i Hi IH Hik. specialize (IH ltac:(lia)). specialize (HS i ltac:(lia)). unfold round_ok in HS.
        rewrite !andb_true_iff, !Z.leb_le in HS. destruct HS as [[[[[[H0 H1] H2] H3] H4] H5] _].
        change (Z.succ i) with (i + 1). rewrite pow3_step by lia. rewrite <- Z.mul_assoc. lia. }
    intros i Hi. apply G; lia.
  - intros i Hi. specialize (HS i ltac:(lia)). split.
    + unfold round_ok in HS. rewrite !andb_true_iff, !Z.leb_le in HS. lia.
    + intros j Hj. apply Hgood; [exact HS|]. apply HP. specialize (Hlev i Hi).
      apply Forms.entry_range; lia.
Qed.
End Rounds.

Lemma table_doubling gs b0 l k : steps_ok (round_ok gs) b0 l = true -> 0 <= k <= zlen l -> doubling k (b0 :: l).
Proof.
  intros HR Hk i Hi. assert (HS := steps_at _ _ _ HR i ltac:(lia)).
  unfold round_ok in HS. rewrite !andb_true_iff, !Z.leb_le in HS. lia.
Qed.

Lemma in_range_table k p : zlen p = 2 ^ k -> all_in (-6144) 6144 p -> range_table k p.
Proof.
  intros HL HP. split; [exact HL|]. intros i Hi. apply HP. apply nth_In. unfold zlen in HL. lia.
Qed.
Lemma abs_input k a b : zlen a = 2 ^ k -> all_in (- b) b a -> forall i, 0 <= i < 2 ^ k -> Z.abs (at_ a i) <= b.
Proof.
  intros HL HA i Hi. assert (- b <= at_ a i <= b); [|lia]. apply HA. apply nth_In. unfold zlen in HL. lia.
Qed.
Lemma all_in_out n B r : zlen r = n -> (forall i, 0 <= i < n -> Z.abs (at_ r i) <= B) -> all_in (- B) B r.
Proof.
  intros HL H v Hv. apply (In_nth _ _ 0) in Hv. destruct Hv as (j & Hj & <-).
  specialize (H (Z.of_nat j)). unfold at_ in H. rewrite Nat2Z.id in H. unfold zlen in HL. lia.
Qed.

Lemma tables_ct : steps_ok (round_ok false) 12288 (tl (rounds notes_ct_option2)) = true
  /\ steps_ok (round_ok false) 21499 (tl (rounds notes_ct_option2_psi)) = true.
Proof. split; vm_compute; reflexivity. Qed.
Lemma tables_gs : steps_ok (round_ok true) 12288 (tl (rounds notes_gs_option2)) = true
  /\ steps_ok (round_ok true) 21499 (tl (rounds notes_gs_option2_psi)) = true.
Proof. split; vm_compute; reflexivity. Qed.

Lemma max_at (b0 B : Z) l k : forallb (fun c => c <=? B) (b0 :: l) = true -> at_ (b0 :: l) k <= Z.max B 0.
Proof.
  intros H. rewrite forallb_forall in H. unfold at_.
  destruct (nth_in_or_default (Z.to_nat k) (b0 :: l) 0) as [HI|HI]; [|rewrite HI; lia].
  specialize (H _ HI). apply Z.leb_le in H. lia.
Qed.

Lemma ct_table_bound k b0 l a p run : 0 <= b0 ->
  steps_ok (round_ok false) b0 l = true -> forallb (fun c => c <=? 2147483647) (b0 :: l) = true ->
  0 <= k <= 12 -> k <= zlen l ->
  zlen a = 2 ^ k -> zlen p = 2 ^ k -> all_in (- b0) b0 a -> all_in (-6144) 6144 p ->
  In run [ModelRed.ntt_red_ct_rev2std; ModelRed.ntt_red_ct_std2rev; ModelRed.mulntt_red_ct_rev2std; ModelRed.mulntt_red_ct_std2rev] ->
  exists r, run a (2 ^ k) p = Ok r /\ zlen r = 2 ^ k /\ all_in (- at_ (b0 :: l) k) (at_ (b0 :: l) k) r.
Proof.
  intros Hb0 HR HM Hk Hkl HLa HLp HA HP HI.
  assert (HT := in_range_table k p HLp HP). assert (HA' := abs_input k a b0 HLa HA).
  assert (HS : seq_ok good_ct b0 p (fun m => m) k (b0 :: l))
    by (apply (table_seq false good_ct b0 l ct_good Hb0 HR p k (fun m => m)); [lia|exact HT|intros; lia]).
  assert (HD := table_doubling false b0 l k HR ltac:(lia)).
  assert (HB : at_ (b0 :: l) k <= 2147483647) by (assert (X := max_at b0 2147483647 l k HM); lia).
  assert (F : bounded (at_ (b0 :: l) k) (run a (2 ^ k) p) (2 ^ k)).
  { destruct HI as [<-|[<-|[<-|[<-|[]]]]].
    - exact (bound_ct_rev2std k b0 p a (b0 :: l) Hk HT HLa HA' HS HB HD).
    - exact (bound_ct_std2rev k b0 p a (b0 :: l) Hk HT HLa HA' HS HB HD).
    - exact (bound_mul_ct_rev2std k b0 p a (b0 :: l) Hk HT HLa HA' HS HB).
    - exact (bound_mul_ct_std2rev k b0 p a (b0 :: l) Hk HT HLa HA' HS HB). }
  destruct F as (r & E & HLr & H). exists r. split; [exact E|]. split; [exact HLr|].
  exact (all_in_out _ _ r HLr H).
Qed.

Lemma gs_table_bound k b0 l a p run : 0 <= b0 ->
  steps_ok (round_ok true) b0 l = true -> forallb (fun c => c <=? 2147471361) (b0 :: l) = true ->
  0 <= k <= 12 -> k <= zlen l ->
  zlen a = 2 ^ k -> zlen p = 2 ^ k -> all_in (- b0) b0 a -> all_in (-6144) 6144 p ->
  In run [ModelRed.ntt_red_gs_rev2std; ModelRed.ntt_red_gs_std2rev; ModelRed.nttmul_red_gs_rev2std; ModelRed.nttmul_red_gs_std2rev] ->
  exists r, run a (2 ^ k) p = Ok r /\ zlen r = 2 ^ k /\ all_in (- at_ (b0 :: l) k) (at_ (b0 :: l) k) r.
Proof.
  intros Hb0 HR HM Hk Hkl HLa HLp HA HP HI.
  assert (HT := in_range_table k p HLp HP). assert (HA' := abs_input k a b0 HLa HA).
  assert (HS : seq_ok good_gs b0 p (fun m => k - 1 - m) k (b0 :: l))
    by (apply (table_seq true good_gs b0 l gs_good Hb0 HR p k (fun m => k - 1 - m)); [lia|exact HT|intros; lia]).
  assert (HB : at_ (b0 :: l) k <= 2147471361) by (assert (X := max_at b0 2147471361 l k HM); lia).
  assert (F : bounded (at_ (b0 :: l) k) (run a (2 ^ k) p) (2 ^ k)).
  { destruct HI as [<-|[<-|[<-|[<-|[]]]]].
    - exact (bound_gs_rev2std k b0 p a (b0 :: l) Hk HT HLa HA' HS HB).
    - exact (bound_gs_std2rev k b0 p a (b0 :: l) Hk HT HLa HA' HS HB).
    - exact (bound_mul_gs_rev2std k b0 p a (b0 :: l) Hk HT HLa HA' HS HB).
    - exact (bound_mul_gs_std2rev k b0 p a (b0 :: l) Hk HT HLa HA' HS HB). }
  destruct F as (r & E & HLr & H). exists r. split; [exact E|]. split; [exact HLr|].
  exact (all_in_out _ _ r HLr H).
Qed.

Definition ex_ones8 : list Z := [12288; -12288; -12288; 12288; -12288; 12288; 12288; -12288].
Definition ex_tab8 : list Z := [0; 6143; -6143; 6143; 1; 0; -6143; 5].

Lemma notes_propositions_L :
  forall k m q x, 1 <= k -> 0 <= m -> q = k * 2 ^ m + 1 ->
  redkm k m x mod q = (k * x) mod q
  /\ - x <= 2 ^ m * redkm k m x < - x + 2 ^ m * (q - k)
  /\ 2 ^ m * Z.abs (redkm k m x) <= Z.abs x + 2 ^ m * (q - k)
  /\ forall w, 0 <= w <= q - 1 -> Z.abs (redkm k m (w * x)) <= k * Z.abs x + (q - k).
Proof.
  intros k m q x Hk Hm Hq. split; [exact (redkm_cong k m q Hk Hm Hq x)|].
  split; [exact (redkm_range k m q Hk Hm Hq x)|]. split; [exact (redkm_abs k m q Hk Hm Hq x)|].
  intros w Hw. exact (redkm_mul_abs k m q Hk Hm Hq w x Hw).
Qed.

Lemma notes_safe_range_L :
  forall k m q, 1 <= k -> 0 <= m -> q = k * 2 ^ m + 1 ->
  let lower := - 2 ^ (31 + m) + 2 ^ m * (q - k) in
  let upper := 2 ^ (31 + m) + (2 ^ m - 1) in
  (forall x, lower <= x <= upper -> - 2 ^ 31 <= redkm k m x <= 2 ^ 31 - 1)
  /\ redkm k m (upper + 1) < - 2 ^ 31 /\ redkm k m (lower - 1) > 2 ^ 31 - 1
  /\ (forall w x, 0 <= w <= q - 1 -> lower <= x * (q - 1) <= upper -> lower <= 0 ->
        - 2 ^ 31 <= redkm k m (x * w) <= 2 ^ 31 - 1).
Proof.
  intros k m q Hk Hm Hq lower upper.
  assert (E : 2 ^ (31 + m) = 2 ^ 31 * 2 ^ m) by (apply Z.pow_add_r; lia).
  assert (HD : 0 < 2 ^ m) by (apply Z.pow_pos_nonneg; lia).
  assert (S : forall x, lower <= x <= upper -> - 2 ^ 31 <= redkm k m x <= 2 ^ 31 - 1).
  { intros x Hx. apply (redkm_safe k m q Hk Hm Hq (2 ^ 31)). unfold lower, upper in Hx. rewrite E in Hx. lia. }
  destruct (redkm_unsafe k m q Hm Hq (2 ^ 31)) as [U1 U2].
  split; [exact S|]. split; [|split].
  - unfold upper. rewrite E. replace (2 ^ 31 * 2 ^ m + (2 ^ m - 1) + 1) with (2 ^ 31 * 2 ^ m + 2 ^ m) by ring. rewrite U1. lia.
  - unfold lower. rewrite E, U2. lia.
  - intros w x Hw Hx HL. apply S.
    assert (HU : 0 <= upper) by (unfold upper; assert (0 < 2 ^ (31 + m)) by (apply Z.pow_pos_nonneg; lia); lia).
    destruct (Z.le_gt_cases 0 x) as [Hp|Hn].
    + assert (0 <= x * w <= x * (q - 1)) by (split; [apply Z.mul_nonneg_nonneg; lia|apply Z.mul_le_mono_nonneg_l; lia]). lia.
    + assert (x * (q - 1) <= x * w) by (apply Z.mul_le_mono_nonpos_l; lia).
      assert (x * w <= 0) by (apply Z.mul_nonpos_nonneg; lia). lia.
Qed.

Lemma notes_updates_L :
  forall k m q B x y w, 1 <= k -> 0 <= m -> q = k * 2 ^ m + 1 ->
  Z.abs x <= B -> Z.abs y <= B -> 0 <= w <= q - 1 ->
  Z.abs (x + redkm k m (w * y)) <= (k + 1) * B + (q - k)
  /\ Z.abs (x - redkm k m (w * y)) <= (k + 1) * B + (q - k)
  /\ Z.abs (x + y) <= 2 * k * B + (q - k)
  /\ Z.abs (redkm k m ((x - y) * w)) <= 2 * k * B + (q - k).
Proof.
  intros k m q B x y w Hk Hm Hq Hx Hy Hw.
  assert (H1 := redkm_mul_abs k m q Hk Hm Hq w y Hw).
  assert (H2 := redkm_mul_abs k m q Hk Hm Hq w (x - y) Hw). rewrite (Z.mul_comm w (x - y)) in H2.
  assert (HD : 0 < 2 ^ m) by (apply Z.pow_pos_nonneg; lia).
  assert (Hqk : 1 <= q - k).
  { assert (k * 1 <= k * 2 ^ m) by (apply Z.mul_le_mono_nonneg_l; lia). lia. }
  assert (K1 : k * Z.abs y <= k * B) by (apply Z.mul_le_mono_nonneg_l; lia).
  assert (K2 : k * Z.abs (x - y) <= k * (2 * B)) by (apply Z.mul_le_mono_nonneg_l; lia).
  assert (K3 : 2 * B <= k * (2 * B)) by (assert (1 * (2 * B) <= k * (2 * B)) by (apply Z.mul_le_mono_nonneg_r; lia); lia).
  replace ((k + 1) * B + (q - k)) with (k * B + B + (q - k)) by ring.
  replace (2 * k * B + (q - k)) with (k * (2 * B) + (q - k)) by ring. lia.
Qed.

Lemma notes_tighter_bounds_L :
  forall k m q B w x, 1 <= k -> 0 <= m -> q = k * 2 ^ m + 1 -> 0 <= w <= q - 1 -> - B <= x <= B ->
  - (k * B) <= redkm k m (w * x)
  /\ (2 ^ m * (q - k) <= B + 1 -> redkm k m (w * x) <= k * B)
  /\ (B + 1 < 2 ^ m * (q - k) -> 2 ^ m * redkm k m (w * x) <= 2 ^ m * (k * B + (q - k)) - (B + 1)).
Proof.
  intros k m q B w x Hk Hm Hq Hw Hx. exact (redkm_tight k m q Hk Hm Hq B w x Hw Hx).
Qed.

Lemma notes_coarse_sequences_L :
  sequence (ct_update 0 12288) reduction notes_ct_simple
  /\ sequence (ct_update 0 12288) reduction notes_ct_reduced
  /\ sequence (gs_update 0 12288) reduction notes_gs_simple
  /\ sequence (gs_update 0 12288) reduction notes_gs_reduced
  /\ sequence (ct_update 0 12288) reduction notes_ct_tighter
  /\ sequence (gs_update 0 12288) reduction notes_gs_tighter.
Proof.
  split; [|split; [|split; [|split; [|split]]]].
  - apply (sound_from_ok false 0 12288). vm_compute. reflexivity.
  - apply (sound_from_ok false 0 12288). vm_compute. reflexivity.
  - apply (sound_from_ok true 0 12288). vm_compute. reflexivity.
  - apply (sound_from_ok true 0 12288). vm_compute. reflexivity.
  - apply (sound_from_ok false 0 12288). vm_compute. reflexivity.
  - apply (sound_from_ok true 0 12288). vm_compute. reflexivity.
Qed.

Lemma notes_exact_sequences_L :
  sequence (least (ct_update 0 12288)) (least reduction) notes_ct_option1
  /\ sequence (least (gs_update 0 12288)) (least reduction) notes_gs_option1
  /\ sequence (least (ct_update (-6144) 6144)) (least reduction) notes_ct_option2
  /\ sequence (least (gs_update (-6144) 6144)) (least reduction) notes_gs_option2
  /\ sequence (least (ct_update 0 12288)) (least reduction) notes_ct_option1_psi
  /\ sequence (least (gs_update 0 12288)) (least reduction) notes_gs_option1_psi
  /\ sequence (least (ct_update (-6144) 6144)) (least reduction) notes_ct_option2_psi
  /\ sequence (least (gs_update (-6144) 6144)) (least reduction) notes_gs_option2_psi.
Proof.
  split; [|split; [|split; [|split; [|split; [|split; [|split]]]]]].
  - apply (least_from_ok false 0 12288) with (cert := cert_ct_option1). vm_compute. reflexivity.
  - apply (least_from_ok true 0 12288) with (cert := cert_gs_option1). vm_compute. reflexivity.
  - apply (least_from_ok false (-6144) 6144) with (cert := cert_ct_option2). vm_compute. reflexivity.
  - apply (least_from_ok true (-6144) 6144) with (cert := cert_gs_option2). vm_compute. reflexivity.
  - apply (least_from_ok false 0 12288) with (cert := cert_ct_option1_psi). vm_compute. reflexivity.
  - apply (least_from_ok true 0 12288) with (cert := cert_gs_option1_psi). vm_compute. reflexivity.
  - apply (least_from_ok false (-6144) 6144) with (cert := cert_ct_option2_psi). vm_compute. reflexivity.
  - apply (least_from_ok true (-6144) 6144) with (cert := cert_gs_option2_psi). vm_compute. reflexivity.
Qed.

Lemma notes_first_operands_L :
  least (fun b c => forall x y, 0 <= x <= b -> 0 <= y <= b -> - c <= ln_red (x * y) <= c) 12288 36864
  /\ least (fun b c => forall x y, - b <= x <= b -> - b <= y <= b -> - c <= ln_red (x * y) <= c) 6144 21499.
Proof.
  split; split.
  - intros x y Hx Hy. rewrite <- redz_ln.
    assert (0 <= x * y <= 12288 * 12288) by (split; [apply Z.mul_nonneg_nonneg; lia|apply Z.mul_le_mono_nonneg; lia]).
    unfold RedElem.redz. clear - H. lia.
  - intros d H. specialize (H 12288 12288 ltac:(lia) ltac:(lia)). change (ln_red (12288 * 12288)) with (-36864) in H. lia.
  - intros x y Hx Hy. rewrite <- redz_ln.
    apply (products_ok 6144 21499 6144); [vm_compute; reflexivity|exact Hx|exact Hy].
  - intros d H. specialize (H 6143 (-6143) ltac:(lia) ltac:(lia)). change (ln_red (6143 * -6143)) with 21499 in H. lia.
Qed.

Lemma notes_ct_transforms_L :
  forall l b0 k a p run,
  In (b0, l) [(12288, notes_ct_option2); (21499, notes_ct_option2_psi)] ->
  0 <= k <= 12 -> zlen a = 2 ^ k -> zlen p = 2 ^ k -> all_in (- b0) b0 a -> all_in (-6144) 6144 p ->
  In run [ModelRed.ntt_red_ct_rev2std; ModelRed.ntt_red_ct_std2rev; ModelRed.mulntt_red_ct_rev2std; ModelRed.mulntt_red_ct_std2rev] ->
  exists r, run a (2 ^ k) p = Ok r /\ zlen r = 2 ^ k
    /\ all_in (- at_ (rounds l) k) (at_ (rounds l) k) r.
Proof.
  intros l b0 k a p run HI Hk HLa HLp HA HP HR. destruct tables_ct as [T1 T2].
  destruct HI as [E|[E|[]]]; injection E as <- <-.
  - exact (ct_table_bound k 12288 (tl (rounds notes_ct_option2)) a p run ltac:(discriminate) T1 eq_refl (conj (proj1 Hk) (Z.le_trans _ _ 12 (proj2 Hk) ltac:(discriminate))) (proj2 Hk) HLa HLp HA HP HR).
  - exact (ct_table_bound k 21499 (tl (rounds notes_ct_option2_psi)) a p run ltac:(discriminate) T2 eq_refl (conj (proj1 Hk) (Z.le_trans _ _ 12 (proj2 Hk) ltac:(discriminate))) (proj2 Hk) HLa HLp HA HP HR).
Qed.

Lemma notes_gs_transforms_L :
  forall l b0 k a p run,
  In (b0, l) [(12288, notes_gs_option2); (21499, notes_gs_option2_psi)] ->
  0 <= k <= 10 -> zlen a = 2 ^ k -> zlen p = 2 ^ k -> all_in (- b0) b0 a -> all_in (-6144) 6144 p ->
  In run [ModelRed.ntt_red_gs_rev2std; ModelRed.ntt_red_gs_std2rev; ModelRed.nttmul_red_gs_rev2std; ModelRed.nttmul_red_gs_std2rev] ->
  exists r, run a (2 ^ k) p = Ok r /\ zlen r = 2 ^ k
    /\ all_in (- at_ (rounds l) k) (at_ (rounds l) k) r.
Proof.
  intros l b0 k a p run HI Hk HLa HLp HA HP HR. destruct tables_gs as [T1 T2].
  destruct HI as [E|[E|[]]]; injection E as <- <-.
  - exact (gs_table_bound k 12288 (tl (rounds notes_gs_option2)) a p run ltac:(discriminate) T1 eq_refl (conj (proj1 Hk) (Z.le_trans _ _ 12 (proj2 Hk) ltac:(discriminate))) (proj2 Hk) HLa HLp HA HP HR).
  - exact (gs_table_bound k 21499 (tl (rounds notes_gs_option2_psi)) a p run ltac:(discriminate) T2 eq_refl (conj (proj1 Hk) (Z.le_trans _ _ 12 (proj2 Hk) ltac:(discriminate))) (proj2 Hk) HLa HLp HA HP HR).
Qed.
