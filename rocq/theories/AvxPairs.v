(** Loops of the assembly that apply one butterfly to pairs of vectors. *)

From Coq Require Import ZArith List Bool Lia.
From Verif Require Import CSem Spec Loops RedElem IntervalSound AvxSem ModelAvx AvxElem AvxArrays AvxRound.
Import ListNotations.
Open Scope Z_scope.

(** ** Vectors as functions of the lane number *)

Definition vec (g : Z -> Z) : ymm := V (g 0) (g 1) (g 2) (g 3) (g 4) (g 5) (g 6) (g 7).

Lemma vec_ext f g : (forall l, 0 <= l < 8 -> f l = g l) -> vec f = vec g.
Proof. intros H. unfold vec. rewrite !H by lia. reflexivity. Qed.

Lemma vpaddd_vec f g : vpaddd (vec f) (vec g) = vec (fun l => to_i32 (f l + g l)).
Proof. reflexivity. Qed.
Lemma vpsubd_vec f g : vpsubd (vec f) (vec g) = vec (fun l => to_i32 (f l - g l)).
Proof. reflexivity. Qed.
Lemma vmrx_vec f w : vmrx (vec f) (vec w) (vpshufd (vec f) 49) (vpshufd (vec w) 49) = vec (fun l => mr (f l * w l)).
Proof. reflexivity. Qed.

(** a broadcast table element *)
Definition bcw (w : Z) : ymm := vpmovsxwq_r (V (dup16 w) (dup16 w) (dup16 w) (dup16 w) 0 0 0 0).
Lemma vmrx_bcw f w : -32768 <= w <= 32767 ->
  vmrx (vec f) (bcw w) (vpshufd (vec f) 49) (bcw w) = vec (fun l => mr (f l * w)).
Proof.
  intros H. unfold bcw. vexec. unfold vec. rewrite dup16_lo, dup16_hi, lo16 by assumption. reflexivity.
Qed.

Lemma ld8_vec (F : Z -> Z) a off i : off = 4 * i -> 0 <= i -> i + 8 <= zlen a ->
  (forall l, 0 <= l < 8 -> at_ a (i + l) = F (i + l)) -> ld8 a off = Ok (vec (fun l => F (i + l))).
Proof.
  intros H0 H1 H2 H. rewrite (ld8_ok a off i) by assumption. unfold vec. rewrite <- !H by lia.
  rewrite Z.add_0_r. reflexivity.
Qed.

Lemma vpmovsxwd_vec a off i : off = 2 * i -> 0 <= i -> i + 8 <= zlen a ->
  vpmovsxwd a off = Ok (vec (fun l => at_ a (i + l))).
Proof. intros H0 H1 H2. rewrite (vpmovsxwd_ok a off i) by assumption. unfold vec. rewrite Z.add_0_r. reflexivity. Qed.

Lemma vpbroadcastw_bcw {B} a off i (f : ymm -> res B) : off = 2 * i -> 0 <= i -> i + 1 <= zlen a ->
  (do x <- vpbroadcastw a off; f (vpmovsxwq_r x)) = f (bcw (at_ a i)).
Proof. intros H0 H1 H2. rewrite (vpbroadcastw_ok a off i) by assumption. reflexivity. Qed.

(** [b'] is [b] with the values [G] at the two vectors [s] and [s + h] *)
Definition upd (G : Z -> Z) (s h : Z) (b b' : list Z) : Prop :=
  zlen b' = zlen b /\
  forall j, 0 <= j < zlen b -> at_ b' j = if inw s 8 j || inw (s + h) 8 j then G j else at_ b j.

Lemma st_pair (G g1 g2 : Z -> Z) b s h off1 off2 x y :
  off1 = 4 * s -> off2 = 4 * (s + h) -> 0 <= s -> 8 <= h -> s + h + 8 <= zlen b ->
  x = vec g1 -> y = vec g2 ->
  (forall l, 0 <= l < 8 -> G (s + l) = g1 l) -> (forall l, 0 <= l < 8 -> G (s + h + l) = g2 l) ->
  exists b1 b2, st8 b off1 x = Ok b1 /\ st8 b1 off2 y = Ok b2 /\ upd G s h b b2.
Proof.
  intros O1 O2 H1 H2 H3 -> -> E1 E2.
  destruct (st8_G G b off1 s (vec g1)) as (b1 & S1 & L1 & A1); try lia.
  { unfold vec. rewrite <- !E1 by lia. rewrite Z.add_0_r. reflexivity. }
  destruct (st8_G G b1 off2 (s + h) (vec g2)) as (b2 & S2 & L2 & A2); try lia.
  { unfold vec. rewrite <- !E2 by lia. rewrite Z.add_0_r. reflexivity. }
  exists b1, b2. split; [exact S1|]. split; [exact S2|]. split; [lia|].
  intros j Hj. rewrite A2, A1 by lia. destruct (inw s 8 j), (inw (s + h) 8 j); reflexivity.
Qed.

(** ** The four kinds of butterflies at a pair of positions *)

Section At.
Variables (p : list Z) (t h : Z) (F : Z -> Z) (q u i j : Z).
Hypothesis Hh : 0 < h.
Hypothesis Hu : 0 <= u < h.
Hypothesis Hi : i = 2 * h * q + u.
Hypothesis Hj : j = i + h.

Lemma at_half : (i / h) mod 2 = 0.
Proof. rewrite Hi. replace (2 * h * q + u) with (u + q * (2 * h)) by ring. now apply half_lo. Qed.
Lemma mwA_u x : mwA p h i x = mr (x * at_ p (h + u)).
Proof. unfold mwA. rewrite Hi. replace (2 * h * q + u) with (u + 2 * q * h) by ring.
  rewrite Z.mod_add, Z.mod_small by lia. reflexivity. Qed.
Lemma mwB_u x : mwB p t h i x = mr (x * at_ p (t + q)).
Proof. unfold mwB. rewrite Hi. replace (2 * h * q + u) with (u + q * (2 * h)) by ring.
  rewrite Z.div_add, Z.div_small by lia. reflexivity. Qed.

Lemma cwA_at : cw h (mwA p h) F i = to_i32 (F i + mr (F j * at_ p (h + u)))
  /\ cw h (mwA p h) F j = to_i32 (F i - mr (F j * at_ p (h + u))).
Proof. destruct (cw_pair h (mwA p h) F i j Hh Hj at_half) as [-> ->]. now rewrite mwA_u. Qed.
Lemma cwB_at : cw h (mwB p t h) F i = to_i32 (F i + mr (F j * at_ p (t + q)))
  /\ cw h (mwB p t h) F j = to_i32 (F i - mr (F j * at_ p (t + q))).
Proof. destruct (cw_pair h (mwB p t h) F i j Hh Hj at_half) as [-> ->]. now rewrite mwB_u. Qed.
Lemma gwA_at : gw h (mwA p h) F i = to_i32 (F i + F j)
  /\ gw h (mwA p h) F j = mr (to_i32 (F i - F j) * at_ p (h + u)).
Proof. destruct (gw_pair h (mwA p h) F i j Hh Hj at_half) as [-> ->]. now rewrite mwA_u. Qed.
Lemma gwB_at : gw h (mwB p t h) F i = to_i32 (F i + F j)
  /\ gw h (mwB p t h) F j = mr (to_i32 (F i - F j) * at_ p (t + q)).
Proof. destruct (gw_pair h (mwB p t h) F i j Hh Hj at_half) as [-> ->]. now rewrite mwB_u. Qed.
End At.

(** ** Block by block *)

Section Blocks.
Variables (n h : Z) (F G : Z -> Z).

(** the first [q] blocks of [2h] have been rewritten *)
Definition blk (q : Z) (b : list Z) : Prop :=
  zlen b = n /\ forall j, 0 <= j < n -> at_ b j = if j <? 2 * h * q then G j else F j.

Lemma blk_0 b : isA n F b -> blk 0 b.
Proof. intros (HL & H). split; [exact HL|]. intros j Hj. destruct (Z.ltb_spec j (2 * h * 0)); [lia|]. now apply H. Qed.
Lemma blk_end C b : n = 2 * h * C -> blk C b -> isA n G b.
Proof. intros E (HL & H). split; [exact HL|]. intros j Hj. unfold isF. rewrite H by assumption.
  destruct (Z.ltb_spec j (2 * h * C)); [reflexivity|lia]. Qed.

Variables (S : Type) (arr : S -> list Z) (P : Z -> S -> Prop) (H q : Z).
Hypothesis HH : 1 <= H.
Hypothesis Hh : h = 8 * H.
Hypothesis Hq : 0 <= q.
Hypothesis Hn : 2 * h * (q + 1) <= n.

Lemma inner_pair (body : S -> res S) (cond : S -> bool) f st :
  (forall c st s, 0 <= c < H -> s = 2 * h * q + 8 * c -> P c st -> zlen (arr st) = n ->
     0 <= s -> s + h + 8 <= n ->
     (forall l, 0 <= l < 8 -> at_ (arr st) (s + l) = F (s + l)) ->
     (forall l, 0 <= l < 8 -> at_ (arr st) (s + h + l) = F (s + h + l)) ->
     exists st', body st = Ok st' /\ P (c + 1) st' /\ cond st' = (c + 1 <? H)
       /\ upd G s h (arr st) (arr st')) ->
  H <= Z.of_nat f -> P 0 st -> blk q (arr st) ->
  exists st', cdowhile f body cond st = Ok st' /\ P H st' /\ blk (q + 1) (arr st').
Proof.
  intros Hb Hf HP (HL & HA). set (X := 2 * h * q).
  assert (HX : 0 <= X) by (subst X; nia). assert (HX2 : X + 2 * h <= n) by (subst X; lia).
  destruct (cdowhile_count (fun c st => P c st /\ zlen (arr st) = n /\
    forall j, 0 <= j < n -> at_ (arr st) j = if (j <? X) || inw X (8 * c) j || inw (X + h) (8 * c) j then G j else F j)
    H body cond f st) as (st' & E & H1 & H2 & H3); try assumption.
  - intros c s Hc (H1 & H2 & H3).
    destruct (Hb c s (X + 8 * c) Hc eq_refl H1 H2) as (s' & E & H4 & H5 & H6 & H7); try lia.
    + intros l Hl. rewrite H3 by lia. rewrite !inw_false by lia. destruct (Z.ltb_spec (X + 8 * c + l) X); [lia|reflexivity].
    + intros l Hl. rewrite H3 by lia. rewrite !inw_false by lia. destruct (Z.ltb_spec (X + 8 * c + h + l) X); [lia|reflexivity].
    + exists s'. split; [exact E|]. split; [|exact H5]. split; [exact H4|]. split; [lia|].
      intros j Hj. rewrite H7 by lia. rewrite H3 by lia.
      destruct (inw_spec (X + 8 * c) 8 j), (inw_spec (X + 8 * c + h) 8 j), (Z.ltb_spec j X),
        (inw_spec X (8 * c) j), (inw_spec (X + h) (8 * c) j),
        (inw_spec X (8 * (c + 1)) j), (inw_spec (X + h) (8 * (c + 1)) j); cbn [orb]; lia || reflexivity.
  - split; [exact HP|]. split; [exact HL|]. intros j Hj. rewrite HA by lia. fold X.
    rewrite !inw_false by lia. rewrite !orb_false_r. reflexivity.
  - exists st'. split; [exact E|]. split; [exact H1|]. split; [exact H2|].
    intros j Hj. rewrite H3 by lia. replace (2 * h * (q + 1)) with (X + 2 * h) by (subst X; ring).
    destruct (Z.ltb_spec j X), (inw_spec X (8 * H) j), (inw_spec (X + h) (8 * H) j), (Z.ltb_spec j (X + 2 * h));
      cbn [orb]; lia || reflexivity.
Qed.
End Blocks.

(** ** Column by column *)

Section Columns.
Variables (n h : Z) (F G : Z -> Z).

(** the first [8 u] columns of every half block have been rewritten *)
Definition cols (u : Z) (b : list Z) : Prop :=
  zlen b = n /\ forall j, 0 <= j < n -> at_ b j = if j mod h <? 8 * u then G j else F j.

Variables (H Cb u : Z).
Hypothesis HH : 1 <= H.
Hypothesis Hh : h = 8 * H.
Hypothesis HC : 1 <= Cb.
Hypothesis Hn : n = 2 * h * Cb.

Lemma cols_0 b : isA n F b -> cols 0 b.
Proof. intros (HL & HA). split; [exact HL|]. intros j Hj.
  assert (X := Z.mod_pos_bound j h ltac:(lia)).
  destruct (Z.ltb_spec (j mod h) (8 * 0)); [lia|]. now apply HA. Qed.
Lemma cols_end b : cols H b -> isA n G b.
Proof. intros (HL & HA). split; [exact HL|]. intros j Hj. unfold isF. rewrite HA by assumption.
  assert (X := Z.mod_pos_bound j h ltac:(lia)).
  destruct (Z.ltb_spec (j mod h) (8 * H)); [reflexivity|lia]. Qed.

Variables (S : Type) (arr : S -> list Z) (P : Z -> S -> Prop).
Hypothesis Hu : 0 <= u < H.

Lemma mod_lo q r : 0 <= r < h -> (2 * h * q + r) mod h = r.
Proof. intros. replace (2 * h * q + r) with (r + 2 * q * h) by ring. rewrite Z.mod_add by lia. apply Z.mod_small. lia. Qed.
Lemma mod_hi q r : 0 <= r < h -> (2 * h * q + h + r) mod h = r.
Proof. intros. replace (2 * h * q + h + r) with (r + (2 * q + 1) * h) by ring. rewrite Z.mod_add by lia. apply Z.mod_small. lia. Qed.

Lemma column (body : S -> res S) (cond : S -> bool) f st :
  (forall q st s, 0 <= q < Cb -> s = 2 * h * q + 8 * u -> P q st -> zlen (arr st) = n ->
     0 <= s -> s + h + 8 <= n ->
     (forall l, 0 <= l < 8 -> at_ (arr st) (s + l) = F (s + l)) ->
     (forall l, 0 <= l < 8 -> at_ (arr st) (s + h + l) = F (s + h + l)) ->
     exists st', body st = Ok st' /\ P (q + 1) st' /\ cond st' = (q + 1 <? Cb)
       /\ upd G s h (arr st) (arr st')) ->
  Cb <= Z.of_nat f -> P 0 st -> cols u (arr st) ->
  exists st', cdowhile f body cond st = Ok st' /\ P Cb st' /\ cols (u + 1) (arr st').
Proof.
  intros Hb Hf HP (HL & HA).
  destruct (cdowhile_count (fun q st => P q st /\ zlen (arr st) = n /\
    forall j, 0 <= j < n -> at_ (arr st) j =
      if (j mod h <? 8 * u) || ((j <? 2 * h * q) && (j mod h <? 8 * u + 8)) then G j else F j)
    Cb body cond f st) as (st' & E & H1 & H2 & H3); try assumption.
  - intros q s Hq (H1 & H2 & H3).
    assert (B0 : 0 <= 2 * h * q) by nia. assert (B1 : 2 * h * q + 2 * h <= n) by nia.
    destruct (Hb q s (2 * h * q + 8 * u) Hq eq_refl H1 H2) as (s' & E & H4 & H5 & H6 & H7); try lia.
    + intros l Hl. rewrite H3 by lia. rewrite <- Z.add_assoc, mod_lo by lia.
      destruct (Z.ltb_spec (8 * u + l) (8 * u)), (Z.ltb_spec (2 * h * q + (8 * u + l)) (2 * h * q)); cbn [orb andb]; lia || reflexivity.
    + intros l Hl. replace (2 * h * q + 8 * u + h + l) with (2 * h * q + h + (8 * u + l)) by ring.
      rewrite H3 by lia. rewrite mod_hi by lia.
      destruct (Z.ltb_spec (8 * u + l) (8 * u)), (Z.ltb_spec (2 * h * q + h + (8 * u + l)) (2 * h * q)); cbn [orb andb]; lia || reflexivity.
    + exists s'. split; [exact E|]. split; [|exact H5]. split; [exact H4|]. split; [lia|].
      intros j Hj. rewrite H7 by lia. rewrite H3 by lia.
      replace (2 * h * (q + 1)) with (2 * h * q + 2 * h) by ring.
      set (X := 2 * h * q) in *.
      assert (Lo : X <= j < X + h -> j mod h = j - X).
      { intros. replace j with (2 * h * q + (j - X)) at 1 by (subst X; ring). apply mod_lo. lia. }
      assert (Hi : X + h <= j < X + 2 * h -> j mod h = j - X - h).
      { intros. replace j with (2 * h * q + h + (j - X - h)) at 1 by (subst X; ring). apply mod_hi. lia. }
      assert (Bm := Z.mod_pos_bound j h ltac:(lia)).
      set (m := j mod h) in *. clearbody m X. clear - Hu Hh HH Lo Hi Bm Hj.
      destruct (inw_spec (X + 8 * u) 8 j), (inw_spec (X + 8 * u + h) 8 j), (Z.ltb_spec m (8 * u)),
        (Z.ltb_spec j X), (Z.ltb_spec m (8 * u + 8)), (Z.ltb_spec j (X + 2 * h)); cbn [orb andb]; lia || reflexivity.
  - split; [exact HP|]. split; [exact HL|]. intros j Hj. rewrite HA by lia.
    destruct (Z.ltb_spec j (2 * h * 0)); [lia|]. cbn [andb]. rewrite orb_false_r. reflexivity.
  - exists st'. split; [exact E|]. split; [exact H1|]. split; [exact H2|].
    intros j Hj. rewrite H3 by lia. rewrite <- Hn.
    destruct (Z.ltb_spec j n); [|lia]. cbn [andb].
    destruct (Z.ltb_spec (j mod h) (8 * u)), (Z.ltb_spec (j mod h) (8 * u + 8)), (Z.ltb_spec (j mod h) (8 * (u + 1)));
      cbn [orb]; lia || reflexivity.
Qed.
End Columns.
