(** Running the Gentleman-Sande transforms of src/ntt_red.c on arrays stored as
    binary trees, with the proof that the outcome is that of the model.  Only
    used to keep the check of the counterexamples at n = 2048 short. *)

From Coq Require Import ZArith List Bool Lia.
From Verif Require Import CSem Spec Loops Exlib.
From Verif Require ModelRed.
Import ListNotations.
Open Scope Z_scope.

(** ** The transforms over any representation of arrays *)

Section Generic.
Variables (arr : Type) (grd : arr -> Z -> res Z) (gwr : arr -> Z -> Z -> res arr).
Variable (tw : Z -> res Z).

Definition g0 (s t : Z) (a : arr) : res arr :=
  do x <- grd a (u32 (s + t));
  do y <- grd a s;
  do v <- sub32 y x;
  do a <- gwr a (u32 (s + t)) v;
  do y <- grd a s;
  do v <- add32 y x;
  gwr a s v.

Definition g1 (w s t : Z) (a : arr) : res arr :=
  do x <- grd a (u32 (s + t));
  do y <- grd a s;
  do d <- sub32 y x;
  do v <- ModelRed.mul_red d w;
  do a <- gwr a (u32 (s + t)) v;
  do y <- grd a s;
  do v <- add32 y x;
  gwr a s v.

Definition g_rev2std (a : arr) (n : Z) : res arr :=
  do '(_, a) <- cfor (fuel n) 1 (fun d => d <? n) (fun d => u32 (d * 2)) (fun d '(t, a) =>
    let t := Z.shiftr t 1 in
    do a <- cfor (fuel n) 0 (fun s => s <? d) (fun s => u32 (s + 1)) (fun s a => g0 s d a) a;
    do '(_, a) <- cfor (fuel n) 1 (fun j => j <? t) (fun j => u32 (j + 1)) (fun j '(u, a) =>
      do w <- tw (u32 (t + j));
      do a <- cfor (fuel n) u (fun s => s <? u32 (u + d)) (fun s => u32 (s + 1))
                (fun s a => g1 w s d a) a;
      Ok (u32 (u + u32 (2 * d)), a)) (u32 (2 * d), a);
    Ok (t, a)) (n, a);
  Ok a.

Definition gmul_rev2std (a : arr) (n : Z) : res arr :=
  do '(_, a) <- cfor (fuel n) 1 (fun d => d <? n) (fun d => u32 (d * 2)) (fun d '(t, a) =>
    let t := Z.shiftr t 1 in
    do '(_, a) <- cfor (fuel n) 0 (fun j => j <? t) (fun j => u32 (j + 1)) (fun j '(u, a) =>
      do w <- tw (u32 (t + j));
      do a <- cfor (fuel n) u (fun s => s <? u32 (u + d)) (fun s => u32 (s + 1))
                (fun s a => g1 w s d a) a;
      Ok (u32 (u + u32 (2 * d)), a)) (0, a);
    Ok (t, a)) (n, a);
  Ok a.

Definition g_std2rev (a : arr) (n : Z) : res arr :=
  cfor (fuel n) (Z.shiftr n 1) (fun t => 0 <? t) (fun t => Z.shiftr t 1) (fun t a =>
    do a <- cfor (fuel n) 0 (fun s => s <? n) (fun s => u32 (s + u32 (t + t)))
              (fun s a => g0 s t a) a;
    cfor (fuel n) 1 (fun j => j <? t) (fun j => u32 (j + 1)) (fun j a =>
      do w <- tw (u32 (t + j));
      cfor (fuel n) j (fun s => s <? n) (fun s => u32 (s + u32 (t + t)))
        (fun s a => g1 w s t a) a) a) a.

Definition gmul_std2rev (a : arr) (n : Z) : res arr :=
  cfor (fuel n) (Z.shiftr n 1) (fun t => 0 <? t) (fun t => Z.shiftr t 1) (fun t a =>
    cfor (fuel n) 0 (fun j => j <? t) (fun j => u32 (j + 1)) (fun j a =>
      do w <- tw (u32 (t + j));
      cfor (fuel n) j (fun s => s <? n) (fun s => u32 (s + u32 (t + t)))
        (fun s a => g1 w s t a) a) a) a.
End Generic.

Lemma model_rev2std a n p : ModelRed.ntt_red_gs_rev2std a n p = g_rev2std _ rd wr (rd p) a n.
Proof. reflexivity. Qed.
Lemma model_std2rev a n p : ModelRed.ntt_red_gs_std2rev a n p = g_std2rev _ rd wr (rd p) a n.
Proof. reflexivity. Qed.
Lemma model_mul_rev2std a n p :
  ModelRed.nttmul_red_gs_rev2std a n p = gmul_rev2std _ rd wr (rd p) a n.
Proof. reflexivity. Qed.
Lemma model_mul_std2rev a n p :
  ModelRed.nttmul_red_gs_std2rev a n p = gmul_std2rev _ rd wr (rd p) a n.
Proof. reflexivity. Qed.

(** ** Simulation *)

Definition rsim {A B} (R : A -> B -> Prop) (x : res A) (y : res B) : Prop :=
  match x, y with
  | Ok a, Ok b => R a b
  | Err e, Err f => e = f
  | _, _ => False
  end.

Lemma bind_sim {A B C D} (R : A -> B -> Prop) (S : C -> D -> Prop) x y f g :
  rsim R x y -> (forall a b, R a b -> rsim S (f a) (g b)) -> rsim S (bind x f) (bind y g).
Proof. destruct x, y; cbn; intros H F; auto; contradiction. Qed.

Lemma bind_same {A C D} (S : C -> D -> Prop) (x : res A) f g :
  (forall a, rsim S (f a) (g a)) -> rsim S (bind x f) (bind x g).
Proof. destruct x; cbn; auto. Qed.

Lemma cfor_sim {A B} (R : A -> B -> Prop) fu i c nx f g a b :
  (forall i a b, R a b -> rsim R (f i a) (g i b)) -> R a b ->
  rsim R (cfor fu i c nx f a) (cfor fu i c nx g b).
Proof.
  intros H. revert i a b. induction fu; intros i a b HR; cbn; [reflexivity|].
  destruct (c i); [|exact HR]. eapply bind_sim; [apply H, HR|]. auto.
Qed.

Definition pr {A B} (R : A -> B -> Prop) (x : Z * A) (y : Z * B) : Prop :=
  fst x = fst y /\ R (snd x) (snd y).

Section Sim.
Variables (A B : Type) (R : A -> B -> Prop).
Variables (ard : A -> Z -> res Z) (awr : A -> Z -> Z -> res A).
Variables (brd : B -> Z -> res Z) (bwr : B -> Z -> Z -> res B).
Variables (tw tw' : Z -> res Z).
Hypothesis Hrd : forall a b i, R a b -> ard a i = brd b i.
Hypothesis Hwr : forall a b i v, R a b -> rsim R (awr a i v) (bwr b i v).
Hypothesis Htw : forall i, tw i = tw' i.

Ltac go := repeat first
  [ rewrite (Hrd _ _ _ ltac:(eassumption))
  | apply bind_same; intro
  | apply Hwr; eassumption
  | eapply bind_sim; [apply Hwr; eassumption | intros ? ? ?] ].

Lemma g0_sim s t a b : R a b -> rsim R (g0 A ard awr s t a) (g0 B brd bwr s t b).
Proof. intros H. unfold g0. go. Qed.
Lemma g1_sim w s t a b : R a b -> rsim R (g1 A ard awr w s t a) (g1 B brd bwr w s t b).
Proof. intros H. unfold g1. go. Qed.

Lemma g_std2rev_sim a b n : R a b ->
  rsim R (g_std2rev A ard awr tw a n) (g_std2rev B brd bwr tw' b n).
Proof.
  intros H. apply cfor_sim; [|exact H]. intros t a' b' H'.
  eapply bind_sim; [apply cfor_sim; [intros; apply g0_sim|]; eassumption|].
  intros a2 b2 H2. apply cfor_sim; [|exact H2]. intros j a3 b3 H3. rewrite Htw.
  apply bind_same. intros w. apply cfor_sim; [intros; apply g1_sim|]; assumption.
Qed.

Lemma gmul_std2rev_sim a b n : R a b ->
  rsim R (gmul_std2rev A ard awr tw a n) (gmul_std2rev B brd bwr tw' b n).
Proof.
  intros H. apply cfor_sim; [|exact H]. intros t a2 b2 H2.
  apply cfor_sim; [|exact H2]. intros j a3 b3 H3. rewrite Htw.
  apply bind_same. intros w. apply cfor_sim; [intros; apply g1_sim|]; assumption.
Qed.

Lemma inner_sim n d t i0 u a b : R a b ->
  rsim (pr R)
    (cfor (fuel n) i0 (fun j => j <? t) (fun j => u32 (j + 1)) (fun j '(u, a) =>
      do w <- tw (u32 (t + j));
      do a <- cfor (fuel n) u (fun s => s <? u32 (u + d)) (fun s => u32 (s + 1))
                (fun s a => g1 A ard awr w s d a) a;
      Ok (u32 (u + u32 (2 * d)), a)) (u, a))
    (cfor (fuel n) i0 (fun j => j <? t) (fun j => u32 (j + 1)) (fun j '(u, a) =>
      do w <- tw' (u32 (t + j));
      do a <- cfor (fuel n) u (fun s => s <? u32 (u + d)) (fun s => u32 (s + 1))
                (fun s a => g1 B brd bwr w s d a) a;
      Ok (u32 (u + u32 (2 * d)), a)) (u, b)).
Proof.
  intros H. apply cfor_sim; [|split; [reflexivity|exact H]].
  intros j [u1 a1] [u2 b1] [E H1]. cbn [fst snd] in E, H1. subst u2. rewrite Htw.
  apply bind_same. intros w.
  eapply bind_sim; [apply cfor_sim; [intros; apply g1_sim|]; eassumption|].
  intros. split; [reflexivity|assumption].
Qed.

Lemma g_rev2std_sim a b n : R a b ->
  rsim R (g_rev2std A ard awr tw a n) (g_rev2std B brd bwr tw' b n).
Proof.
  intros H. unfold g_rev2std. eapply bind_sim with (R := pr R).
  - apply cfor_sim; [|split; [reflexivity|exact H]].
    intros d [t a1] [t' b1] [E H1]. cbn [fst snd] in E, H1. subst t'. cbv zeta.
    eapply bind_sim; [apply cfor_sim; [intros; apply g0_sim|]; eassumption|].
    intros a2 b2 H2. eapply bind_sim; [apply inner_sim; exact H2|].
    intros [u3 a3] [u3' b3] [E3 H3]. split; [reflexivity|exact H3].
  - intros [u3 a3] [u3' b3] [E3 H3]. exact H3.
Qed.

Lemma gmul_rev2std_sim a b n : R a b ->
  rsim R (gmul_rev2std A ard awr tw a n) (gmul_rev2std B brd bwr tw' b n).
Proof.
  intros H. unfold gmul_rev2std. eapply bind_sim with (R := pr R).
  - apply cfor_sim; [|split; [reflexivity|exact H]].
    intros d [t a1] [t' b1] [E H1]. cbn [fst snd] in E, H1. subst t'. cbv zeta.
    eapply bind_sim; [apply inner_sim; exact H1|].
    intros [u3 a3] [u3' b3] [E3 H3]. split; [reflexivity|exact H3].
  - intros [u3 a3] [u3' b3] [E3 H3]. exact H3.
Qed.
End Sim.

(** ** Arrays as trees: the path of index [i] is read from its low bit *)

Inductive tree := Lf (v : Z) | Nd (l r : tree).

Fixpoint tget (t : tree) (i : Z) : Z :=
  match t with
  | Lf v => v
  | Nd l r => if Z.even i then tget l (Z.div2 i) else tget r (Z.div2 i)
  end.
Fixpoint tset (t : tree) (i v : Z) : tree :=
  match t with
  | Lf _ => Lf v
  | Nd l r => if Z.even i then Nd (tset l (Z.div2 i) v) r else Nd l (tset r (Z.div2 i) v)
  end.
Fixpoint tbuild (d : nat) (f : Z -> Z) : tree :=
  match d with
  | O => Lf (f 0)
  | S d => Nd (tbuild d (fun i => f (2 * i))) (tbuild d (fun i => f (2 * i + 1)))
  end.
Fixpoint shape (d : nat) (t : tree) : Prop :=
  match d, t with
  | O, Lf _ => True
  | S d, Nd l r => shape d l /\ shape d r
  | _, _ => False
  end.

Lemma even_div2 i : i = 2 * Z.div2 i + (if Z.even i then 0 else 1).
Proof.
  rewrite (Z.div2_odd i) at 1. rewrite <- Z.negb_even. destruct (Z.even i); reflexivity.
Qed.

Lemma tbuild_shape d : forall f, shape d (tbuild d f).
Proof. induction d; cbn; auto. Qed.

Lemma div2_range d i : 0 <= i < 2 ^ Z.of_nat (S d) -> 0 <= Z.div2 i < 2 ^ Z.of_nat d.
Proof.
  intros H. rewrite Nat2Z.inj_succ, Z.pow_succ_r in H by lia.
  assert (E := even_div2 i). destruct (Z.even i); lia.
Qed.

Lemma tget_build d : forall f i, 0 <= i < 2 ^ Z.of_nat d -> tget (tbuild d f) i = f i.
Proof.
  induction d as [|d IH]; intros f i Hi.
  - cbn in Hi. assert (i = 0) as -> by lia. reflexivity.
  - assert (R := div2_range d i Hi). assert (E := even_div2 i).
    cbn [tbuild tget]. destruct (Z.even i); rewrite IH by lia; f_equal; lia.
Qed.

Lemma tset_shape d : forall t i v, shape d t -> shape d (tset t i v).
Proof.
  induction d as [|d IH]; intros [x|l r] i v; cbn; try tauto.
  intros [H1 H2]. destruct (Z.even i); cbn; auto.
Qed.

Lemma tget_set d : forall t i j v, shape d t ->
  0 <= i < 2 ^ Z.of_nat d -> 0 <= j < 2 ^ Z.of_nat d ->
  tget (tset t i v) j = if j =? i then v else tget t j.
Proof.
  induction d as [|d IH]; intros [x|l r] i j v HS Hi Hj; cbn [shape] in HS; try tauto.
  - cbn in Hi, Hj. replace (j =? i) with true by lia. reflexivity.
  - destruct HS as [H1 H2].
    assert (Ri := div2_range d i Hi). assert (Ei := even_div2 i).
    assert (Rj := div2_range d j Hj). assert (Ej := even_div2 j).
    cbn [tset tget]. destruct (Z.even i) eqn:Vi; cbn [tget]; destruct (Z.even j) eqn:Vj; cbv iota.
    + rewrite IH by auto. destruct (Z.eqb_spec (Z.div2 j) (Z.div2 i)), (Z.eqb_spec j i); lia || reflexivity.
    + destruct (Z.eqb_spec j i); [lia|reflexivity].
    + destruct (Z.eqb_spec j i); [lia|reflexivity].
    + rewrite IH by auto. destruct (Z.eqb_spec (Z.div2 j) (Z.div2 i)), (Z.eqb_spec j i); lia || reflexivity.
Qed.

Section Trees.
Variable d : nat.
Let n := 2 ^ Z.of_nat d.

Definition trd (t : tree) (i : Z) : res Z :=
  if (0 <=? i) && (i <? n) then Ok (tget t i) else Err OutOfBounds.
Definition twr (t : tree) (i v : Z) : res tree :=
  if (0 <=? i) && (i <? n) then Ok (tset t i v) else Err OutOfBounds.
Definition rep (l : list Z) (t : tree) : Prop :=
  zlen l = n /\ shape d t /\ forall i, 0 <= i < n -> at_ l i = tget t i.

Lemma rd_out l i : (i < 0 \/ zlen l <= i) -> rd l i = Err OutOfBounds.
Proof.
  intros H. unfold rd. destruct (Z.ltb_spec i 0); [reflexivity|].
  destruct (nth_error l (Z.to_nat i)) eqn:E; [|reflexivity].
  assert (Z.to_nat i < length l)%nat by (apply nth_error_Some; congruence).
  unfold zlen in H. lia.
Qed.

Lemma upd_none l : forall i v, (length l <= i)%nat -> upd l i v = None.
Proof.
  induction l as [|x l IH]; intros i v H; [reflexivity|].
  destruct i; cbn in H; [lia|]. cbn. rewrite IH by lia. reflexivity.
Qed.

Lemma wr_out l i v : (i < 0 \/ zlen l <= i) -> wr l i v = Err OutOfBounds.
Proof.
  intros H. unfold wr. destruct (Z.ltb_spec i 0); [reflexivity|].
  rewrite upd_none; [reflexivity|]. unfold zlen in H. lia.
Qed.

Lemma rd_rep l t i : rep l t -> rd l i = trd t i.
Proof.
  intros (HL & HS & H). unfold trd.
  destruct (Z.leb_spec 0 i), (Z.ltb_spec i n); cbn [andb];
    try (apply rd_out; lia). rewrite rd_ok by lia. rewrite H by lia. reflexivity.
Qed.

Lemma wr_rep l t i v : rep l t -> rsim rep (wr l i v) (twr t i v).
Proof.
  intros (HL & HS & H). unfold twr.
  destruct (Z.leb_spec 0 i), (Z.ltb_spec i n); cbn [andb];
    try (rewrite wr_out by lia; reflexivity).
  rewrite wr_ok by lia. cbn. split; [rewrite aset_len; exact HL|].
  split; [apply tset_shape, HS|]. intros j Hj. rewrite (tget_set d) by auto.
  destruct (Z.eqb_spec j i) as [->|].
  - apply at_aset_same. lia.
  - rewrite at_aset_other by lia. apply H, Hj.
Qed.

Lemma rep_build f : rep (map f (ztimes n)) (tbuild d f).
Proof.
  assert (0 < n) by (unfold n; apply Z.pow_pos_nonneg; lia).
  split; [unfold zlen, ztimes; rewrite !map_length, seq_length; lia|].
  split; [apply tbuild_shape|]. intros i Hi. rewrite tget_build by exact Hi.
  unfold at_, ztimes. rewrite map_map.
  rewrite nth_indep with (d' := f (Z.of_nat 0)) by (rewrite map_length, seq_length; lia).
  rewrite (map_nth (fun x => f (Z.of_nat x)) _ 0%nat). rewrite seq_nth by lia. f_equal. lia.
Qed.

Definition ctw (c i : Z) : res Z := if (0 <=? i) && (i <? n) then Ok c else Err OutOfBounds.

Lemma ctw_ok c i : rd (repeat c (Z.to_nat n)) i = ctw c i.
Proof.
  assert (HL : zlen (repeat c (Z.to_nat n)) = n).
  { unfold zlen. rewrite repeat_length. assert (0 < n) by (unfold n; apply Z.pow_pos_nonneg; lia). lia. }
  unfold ctw. destruct (Z.leb_spec 0 i), (Z.ltb_spec i n); cbn [andb]; try (apply rd_out; lia).
  rewrite rd_ok by lia. f_equal. unfold at_. 
  rewrite nth_indep with (d' := c) by (rewrite repeat_length; lia). apply nth_repeat.
Qed.

(** The outcome of a run in the model is an error as soon as it is one on
    trees. *)
Lemma err_rev2std f c e :
  g_rev2std _ trd twr (ctw c) (tbuild d f) n = Err e ->
  ModelRed.ntt_red_gs_rev2std (map f (ztimes n)) n (repeat c (Z.to_nat n)) = Err e.
Proof.
  intros E. rewrite model_rev2std.
  assert (S := g_rev2std_sim _ _ rep rd wr trd twr (rd (repeat c (Z.to_nat n))) (ctw c)
     (fun a b i H => rd_rep a b i H) (fun a b i v H => wr_rep a b i v H) (ctw_ok c)
     _ _ n (rep_build f)).
  rewrite E in S. destruct (g_rev2std _ rd wr _ _ n); cbn in S; congruence || contradiction.
Qed.
Lemma err_std2rev f c e :
  g_std2rev _ trd twr (ctw c) (tbuild d f) n = Err e ->
  ModelRed.ntt_red_gs_std2rev (map f (ztimes n)) n (repeat c (Z.to_nat n)) = Err e.
Proof.
  intros E. rewrite model_std2rev.
  assert (S := g_std2rev_sim _ _ rep rd wr trd twr (rd (repeat c (Z.to_nat n))) (ctw c)
     (fun a b i H => rd_rep a b i H) (fun a b i v H => wr_rep a b i v H) (ctw_ok c)
     _ _ n (rep_build f)).
  rewrite E in S. destruct (g_std2rev _ rd wr _ _ n); cbn in S; congruence || contradiction.
Qed.
Lemma err_mul_rev2std f c e :
  gmul_rev2std _ trd twr (ctw c) (tbuild d f) n = Err e ->
  ModelRed.nttmul_red_gs_rev2std (map f (ztimes n)) n (repeat c (Z.to_nat n)) = Err e.
Proof.
  intros E. rewrite model_mul_rev2std.
  assert (S := gmul_rev2std_sim _ _ rep rd wr trd twr (rd (repeat c (Z.to_nat n))) (ctw c)
     (fun a b i H => rd_rep a b i H) (fun a b i v H => wr_rep a b i v H) (ctw_ok c)
     _ _ n (rep_build f)).
  rewrite E in S. destruct (gmul_rev2std _ rd wr _ _ n); cbn in S; congruence || contradiction.
Qed.
Lemma err_mul_std2rev f c e :
  gmul_std2rev _ trd twr (ctw c) (tbuild d f) n = Err e ->
  ModelRed.nttmul_red_gs_std2rev (map f (ztimes n)) n (repeat c (Z.to_nat n)) = Err e.
Proof.
  intros E. rewrite model_mul_std2rev.
  assert (S := gmul_std2rev_sim _ _ rep rd wr trd twr (rd (repeat c (Z.to_nat n))) (ctw c)
     (fun a b i H => rd_rep a b i H) (fun a b i v H => wr_rep a b i v H) (ctw_ok c)
     _ _ n (rep_build f)).
  rewrite E in S. destruct (gmul_std2rev _ rd wr _ _ n); cbn in S; congruence || contradiction.
Qed.
End Trees.

(** ** Inputs that overflow: signs by the parity of the number of ones, all
    constants -6143 *)
Fixpoint ones (p : positive) : bool :=
  match p with
  | xH => true
  | xO p => ones p
  | xI p => negb (ones p)
  end.
Definition sgn_ones (i v : Z) : Z :=
  match i with
  | Zpos p => if ones p then - v else v
  | _ => v
  end.
Definition bad_a (i : Z) : Z := sgn_ones i (if i <? 1024 then 21499 else 21498).
Definition bad_b (i : Z) : Z := sgn_ones i (if Z.even i then 21499 else 21498).

Lemma bad_rev2std : g_rev2std _ (trd 11) (twr 11) (ctw 11 (-6143)) (tbuild 11 bad_b) 2048
  = Err SignedOverflow.
Proof. vm_compute. reflexivity. Qed.
Lemma bad_std2rev : g_std2rev _ (trd 11) (twr 11) (ctw 11 (-6143)) (tbuild 11 bad_a) 2048
  = Err SignedOverflow.
Proof. vm_compute. reflexivity. Qed.
Lemma bad_mul_rev2std : gmul_rev2std _ (trd 11) (twr 11) (ctw 11 (-6143)) (tbuild 11 bad_b) 2048
  = Err SignedOverflow.
Proof. vm_compute. reflexivity. Qed.
Lemma bad_mul_std2rev : gmul_std2rev _ (trd 11) (twr 11) (ctw 11 (-6143)) (tbuild 11 bad_a) 2048
  = Err SignedOverflow.
Proof. vm_compute. reflexivity. Qed.

Lemma zlen_times f m : 0 <= m -> zlen (map f (ztimes m)) = m.
Proof. intros. unfold zlen, ztimes. rewrite !map_length, seq_length. lia. Qed.

Lemma sgn_bound i v : 0 <= v -> - v <= sgn_ones i v <= v.
Proof. intros. destruct i as [|p|p]; cbn; try lia. destruct (ones p); lia. Qed.

Lemma bad_in f m : (forall i, -21499 <= f i <= 21499) -> all_in (-21499) 21499 (map f (ztimes m)).
Proof. intros H v Hv. apply in_map_iff in Hv. destruct Hv as (i & <- & _). apply H. Qed.

Lemma bad_a_in i : -21499 <= bad_a i <= 21499.
Proof. unfold bad_a. destruct (i <? 1024); [assert (H := sgn_bound i 21499)|assert (H := sgn_bound i 21498)]; lia. Qed.
Lemma bad_b_in i : -21499 <= bad_b i <= 21499.
Proof. unfold bad_b. destruct (Z.even i); [assert (H := sgn_bound i 21499)|assert (H := sgn_bound i 21498)]; lia. Qed.

Lemma rep_in c m : -6144 <= c <= 6144 -> all_in (-6144) 6144 (repeat c m).
Proof. intros H v Hv. apply repeat_spec in Hv. lia. Qed.

Lemma rep_len c : zlen (repeat c (Z.to_nat 2048)) = 2048.
Proof. unfold zlen. rewrite repeat_length. reflexivity. Qed.
