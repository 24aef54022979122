(** Step-by-step execution of vector code in proofs. *)

From Coq Require Import ZArith List Bool Lia.
From Verif Require Import CSem Spec Loops RedElem AvxSem ModelAvx AvxElem AvxArrays AvxRound AvxPairs.
Import ListNotations.
Open Scope Z_scope.

Definition wp {A} (m : res A) (R : A -> Prop) : Prop := exists r, m = Ok r /\ R r.

Lemma wp_let {A B} (e v : B) (b : B -> res A) R : e = v -> wp (b v) R -> wp (let x := e in b x) R.
Proof. intros ->. exact (fun H => H). Qed.
Lemma wp_bind {A B} (m : res B) x (f : B -> res A) R : m = Ok x -> wp (f x) R -> wp (bind m f) R.
Proof. intros ->. exact (fun H => H). Qed.
Lemma wp_ok {A} (r : A) (R : A -> Prop) : R r -> wp (Ok r) R.
Proof. intros H. exists r. auto. Qed.

Lemma vmr64_at x y z : vmr64 x y = z ->
  vpsubd (vpaddd (vpand (vpmuldq x y) mask) (vpslld (vpand (vpmuldq x y) mask) 1))
         (vpsrlq (vpmuldq x y) 12) = z.
Proof. intros <-. apply vmr64_eq. Qed.
Lemma vmrx_at x y x' y' z : vmrx x y x' y' = z ->
  vpsubd
    (vpaddd (vpand (vpblendd (vpslldq (vpmuldq x' y') 4) (vpmuldq x y) 85) mask)
       (vpslld (vpand (vpblendd (vpslldq (vpmuldq x' y') 4) (vpmuldq x y) 85) mask) 1))
    (vpblendd (vpslldq (vpsrlq (vpmuldq x' y') 12) 4) (vpsrlq (vpmuldq x y) 12) 85) = z.
Proof. intros <-. apply vmrx_eq. Qed.

Ltac vcompute e :=
  eval cbv beta iota zeta delta [bind
    vpaddd vpsubd vpand vpcmpgtd vpsrad vpslld vpmuldq vpsrlq vpslldq vpsrldq vpblendd sel2 vpshufd
    vshufps vshufpd half128 vperm2i128 idx8 vpermd vmovd vpbroadcastd vpbroadcastq word vpmovsxwq_r
    lane vgen vmap vmap2 vgen64 bit b2n
    vredv vmr64 vmrx vec
    q_x8 q_minus1_x8 half_q_x8 perm0246 perm5 perm4 perm3 perm2020 perm0426 perm04152637
    perm5070 perm4060 perm_bdcst1 perm_bdcst2 perm_bdcst3
    Nat.add Nat.mul Nat.sub Nat.div Nat.modulo Nat.divmod Nat.ltb Nat.leb Nat.eqb fst snd
    Z.testbit Z.odd Pos.testbit Pos.pred_N Z.of_nat Pos.of_succ_nat Pos.succ
    Z.to_nat Pos.to_nat Pos.iter_op Pos.pred_double] in e.

(** instructions on registers given by their lanes *)
Lemma inst8 (f g : Z -> Z -> Z -> Z -> Z -> Z -> Z -> Z -> ymm) : f = g -> forall a0 a1 a2 a3 a4 a5 a6 a7, f a0 a1 a2 a3 a4 a5 a6 a7 = g a0 a1 a2 a3 a4 a5 a6 a7.
Proof. intros ->. reflexivity. Qed.
Lemma inst16 (f g : Z -> Z -> Z -> Z -> Z -> Z -> Z -> Z -> Z -> Z -> Z -> Z -> Z -> Z -> Z -> Z -> ymm) : f = g ->
  forall a0 a1 a2 a3 a4 a5 a6 a7 b0 b1 b2 b3 b4 b5 b6 b7, f a0 a1 a2 a3 a4 a5 a6 a7 b0 b1 b2 b3 b4 b5 b6 b7 = g a0 a1 a2 a3 a4 a5 a6 a7 b0 b1 b2 b3 b4 b5 b6 b7.
Proof. intros ->. reflexivity. Qed.
Lemma vpaddd_V a0 a1 a2 a3 a4 a5 a6 a7 b0 b1 b2 b3 b4 b5 b6 b7 : vpaddd (V a0 a1 a2 a3 a4 a5 a6 a7) (V b0 b1 b2 b3 b4 b5 b6 b7)
  = V (to_i32 (a0 + b0)) (to_i32 (a1 + b1)) (to_i32 (a2 + b2)) (to_i32 (a3 + b3)) (to_i32 (a4 + b4)) (to_i32 (a5 + b5)) (to_i32 (a6 + b6)) (to_i32 (a7 + b7)).
Proof. reflexivity. Qed.
Lemma vpsubd_V a0 a1 a2 a3 a4 a5 a6 a7 b0 b1 b2 b3 b4 b5 b6 b7 : vpsubd (V a0 a1 a2 a3 a4 a5 a6 a7) (V b0 b1 b2 b3 b4 b5 b6 b7)
  = V (to_i32 (a0 - b0)) (to_i32 (a1 - b1)) (to_i32 (a2 - b2)) (to_i32 (a3 - b3)) (to_i32 (a4 - b4)) (to_i32 (a5 - b5)) (to_i32 (a6 - b6)) (to_i32 (a7 - b7)).
Proof. reflexivity. Qed.
Lemma vmr64_V a0 a1 a2 a3 a4 a5 a6 a7 b0 b1 b2 b3 b4 b5 b6 b7 : vmr64 (V a0 a1 a2 a3 a4 a5 a6 a7) (V b0 b1 b2 b3 b4 b5 b6 b7)
  = V (mr (a0 * b0)) (junk (a0 * b0)) (mr (a2 * b2)) (junk (a2 * b2)) (mr (a4 * b4)) (junk (a4 * b4)) (mr (a6 * b6)) (junk (a6 * b6)).
Proof. reflexivity. Qed.
Lemma vmrx_V a0 a1 a2 a3 a4 a5 a6 a7 b0 b1 b2 b3 b4 b5 b6 b7 c0 c1 c2 c3 c4 c5 c6 c7 d0 d1 d2 d3 d4 d5 d6 d7 : vmrx (V a0 a1 a2 a3 a4 a5 a6 a7) (V b0 b1 b2 b3 b4 b5 b6 b7) (V c0 c1 c2 c3 c4 c5 c6 c7) (V d0 d1 d2 d3 d4 d5 d6 d7)
  = V (mr (a0 * b0)) (mr (c0 * d0)) (mr (a2 * b2)) (mr (c2 * d2)) (mr (a4 * b4)) (mr (c4 * d4)) (mr (a6 * b6)) (mr (c6 * d6)).
Proof. reflexivity. Qed.

Ltac vs_by e pf b R :=
  lazymatch type of pf with _ = ?v => refine (wp_let e v b R pf _); cbv beta end.
Ltac vs_un op a e b R :=
  lazymatch a with V ?a0 ?a1 ?a2 ?a3 ?a4 ?a5 ?a6 ?a7 =>
    let f := constr:(fun x0 x1 x2 x3 x4 x5 x6 x7 => op (V x0 x1 x2 x3 x4 x5 x6 x7)) in
    let g := vcompute f in
    let v := eval cbv beta in (g a0 a1 a2 a3 a4 a5 a6 a7) in
    refine (wp_let e v b R (inst8 f g eq_refl a0 a1 a2 a3 a4 a5 a6 a7) _); cbv beta
  end.
Ltac vs_bin op a c e b R :=
  lazymatch a with V ?a0 ?a1 ?a2 ?a3 ?a4 ?a5 ?a6 ?a7 => lazymatch c with V ?b0 ?b1 ?b2 ?b3 ?b4 ?b5 ?b6 ?b7 =>
    let f := constr:(fun x0 x1 x2 x3 x4 x5 x6 x7 y0 y1 y2 y3 y4 y5 y6 y7 => op (V x0 x1 x2 x3 x4 x5 x6 x7) (V y0 y1 y2 y3 y4 y5 y6 y7)) in
    let g := vcompute f in
    let v := eval cbv beta in (g a0 a1 a2 a3 a4 a5 a6 a7 b0 b1 b2 b3 b4 b5 b6 b7) in
    refine (wp_let e v b R (inst16 f g eq_refl a0 a1 a2 a3 a4 a5 a6 a7 b0 b1 b2 b3 b4 b5 b6 b7) _); cbv beta
  end end.

(** one instruction: the parts of a multiply-and-reduce are kept until its last
    instruction, everything else is computed *)
Ltac vs_keep e b R := refine (wp_let e e b R eq_refl _); cbv beta.
Ltac vs1 :=
  lazymatch goal with |- wp (let x := ?e in @?b x) ?R =>
    lazymatch e with
    | mask => vs_keep e b R
    | vpmuldq _ _ => vs_keep e b R
    | vpand _ mask => vs_keep e b R
    | vpslld _ _ => vs_keep e b R
    | vpsrlq _ _ => vs_keep e b R
    | vpslldq (vpmuldq _ _) _ => vs_keep e b R
    | vpslldq (vpsrlq _ _) _ => vs_keep e b R
    | vpblendd (vpslldq _ _) _ _ => vs_keep e b R
    | vpaddd (vpand _ _) _ => vs_keep e b R
    | vpsubd (vpaddd (vpand (vpmuldq (V ?a0 ?a1 ?a2 ?a3 ?a4 ?a5 ?a6 ?a7) (V ?b0 ?b1 ?b2 ?b3 ?b4 ?b5 ?b6 ?b7)) mask) _) _ =>
        let pf := constr:(vmr64_V a0 a1 a2 a3 a4 a5 a6 a7 b0 b1 b2 b3 b4 b5 b6 b7) in
        lazymatch type of pf with ?l = ?v =>
          refine (wp_let e v b R (vmr64_at _ _ v pf) _); cbv beta end
    | vpsubd (vpaddd (vpand (vpblendd (vpslldq (vpmuldq (V ?c0 ?c1 ?c2 ?c3 ?c4 ?c5 ?c6 ?c7) (V ?d0 ?d1 ?d2 ?d3 ?d4 ?d5 ?d6 ?d7)) 4) (vpmuldq (V ?a0 ?a1 ?a2 ?a3 ?a4 ?a5 ?a6 ?a7) (V ?b0 ?b1 ?b2 ?b3 ?b4 ?b5 ?b6 ?b7)) 85) mask) _) _ =>
        let pf := constr:(vmrx_V a0 a1 a2 a3 a4 a5 a6 a7 b0 b1 b2 b3 b4 b5 b6 b7 c0 c1 c2 c3 c4 c5 c6 c7 d0 d1 d2 d3 d4 d5 d6 d7) in
        lazymatch type of pf with ?l = ?v =>
          refine (wp_let e v b R (vmrx_at _ _ _ _ v pf) _); cbv beta end
    | vpaddd (V ?a0 ?a1 ?a2 ?a3 ?a4 ?a5 ?a6 ?a7) (V ?b0 ?b1 ?b2 ?b3 ?b4 ?b5 ?b6 ?b7) => let pf := constr:(vpaddd_V a0 a1 a2 a3 a4 a5 a6 a7 b0 b1 b2 b3 b4 b5 b6 b7) in vs_by e pf b R
    | vpsubd (V ?a0 ?a1 ?a2 ?a3 ?a4 ?a5 ?a6 ?a7) (V ?b0 ?b1 ?b2 ?b3 ?b4 ?b5 ?b6 ?b7) => let pf := constr:(vpsubd_V a0 a1 a2 a3 a4 a5 a6 a7 b0 b1 b2 b3 b4 b5 b6 b7) in vs_by e pf b R
    | vpsrldq ?a ?i => let op := constr:(fun x => vpsrldq x i) in vs_un op a e b R
    | vpslldq ?a ?i => let op := constr:(fun x => vpslldq x i) in vs_un op a e b R
    | vpshufd ?a ?i => let op := constr:(fun x => vpshufd x i) in vs_un op a e b R
    | vpermd ?i ?a => let op := constr:(fun x => vpermd i x) in vs_un op a e b R
    | vpbroadcastq ?a => vs_un vpbroadcastq a e b R
    | vpmovsxwq_r ?a => vs_un vpmovsxwq_r a e b R
    | vshufps ?x ?y ?i => let op := constr:(fun u v => vshufps u v i) in vs_bin op x y e b R
    | vshufpd ?x ?y ?i => let op := constr:(fun u v => vshufpd u v i) in vs_bin op x y e b R
    | vperm2i128 ?x ?y ?i => let op := constr:(fun u v => vperm2i128 u v i) in vs_bin op x y e b R
    | vpblendd ?x ?y ?i => let op := constr:(fun u v => vpblendd u v i) in vs_bin op x y e b R
    | _ => lazymatch type of e with
           | ymm => let v := vcompute e in refine (wp_let e v b R eq_refl _); cbv beta
           | _ => vs_keep e b R
           end
    end
  end.
Ltac vs := repeat vs1.

Lemma wp_st8 (G : Z -> Z) {A} a off i x (f : list Z -> res A) R : off = 4 * i -> 0 <= i -> i + 8 <= zlen a ->
  x = V (G i) (G (i + 1)) (G (i + 2)) (G (i + 3)) (G (i + 4)) (G (i + 5)) (G (i + 6)) (G (i + 7)) ->
  (forall b, zlen b = zlen a -> (forall j, 0 <= j < zlen a -> at_ b j = if inw i 8 j then G j else at_ a j) ->
     wp (f b) R) ->
  wp (bind (st8 a off x) f) R.
Proof.
  intros H1 H2 H3 H4 H5. destruct (st8_G G a off i x H1 H2 H3 H4) as (b & E & L & H).
  apply (wp_bind _ b); auto.
Qed.

(** reads of [b] at the positions not yet rewritten *)
Lemma ld8_V (F : Z -> Z) b off i : off = 4 * i -> 0 <= i -> i + 8 <= zlen b ->
  (forall j, i <= j < i + 8 -> at_ b j = F j) ->
  ld8 b off = Ok (V (F i) (F (i + 1)) (F (i + 2)) (F (i + 3)) (F (i + 4)) (F (i + 5)) (F (i + 6)) (F (i + 7))).
Proof. intros H0 H1 H2 H3. rewrite (ld8_ok b off i) by assumption. rewrite !H3 by lia. reflexivity. Qed.

Lemma wp_pair (G g1 g2 : Z -> Z) {A} b s h off1 off2 x y (f : list Z -> res A) R :
  off1 = 4 * s -> off2 = 4 * (s + h) -> 0 <= s -> 8 <= h -> s + h + 8 <= zlen b ->
  x = vec g1 -> y = vec g2 ->
  (forall l, 0 <= l < 8 -> G (s + l) = g1 l /\ G (s + h + l) = g2 l) ->
  (forall b', upd G s h b b' -> wp (f b') R) ->
  wp (bind (st8 b off1 x) (fun b => bind (st8 b off2 y) f)) R.
Proof.
  intros O1 O2 H1 H2 H3 Ex Ey HG HK.
  destruct (st_pair G g1 g2 b s h off1 off2 x y) as (b1 & b2 & S1 & S2 & HU); try assumption.
  1,2: intros l Hl; apply HG; assumption.
  apply (wp_bind _ b1); [exact S1|]. apply (wp_bind _ b2); [exact S2|]. now apply HK.
Qed.

Lemma wp_bcw {A} p off i (f : ymm -> res A) R : off = 2 * i -> 0 <= i < zlen p ->
  wp (f (bcw (at_ p i))) R -> wp (bind (vpbroadcastw p off) (fun x => let y := vpmovsxwq_r x in f y)) R.
Proof. intros H0 H1 H. rewrite (vpbroadcastw_ok p off i) by lia. exact H. Qed.

Lemma wp_weak {A} (m : res A) (R R' : A -> Prop) : wp m R -> (forall r, R r -> R' r) -> wp m R'.
Proof. intros (r & E & H) H'. exists r. auto. Qed.
Lemma wp_seq {A B} (m : res B) (f : B -> res A) (R : B -> Prop) R' :
  wp m R -> (forall r, R r -> wp (f r) R') -> wp (bind m f) R'.
Proof. intros (r & -> & H) H'. cbn [bind]. now apply H'. Qed.

Lemma wp_loop {S} (J : Z -> S -> Prop) (C : Z) (body : S -> res S) (cond : S -> bool) f st :
  1 <= C -> C <= Z.of_nat f ->
  (forall c st, 0 <= c < C -> J c st -> wp (body st) (fun st' => J (c + 1) st' /\ cond st' = (c + 1 <? C))) ->
  J 0 st -> wp (cdowhile f body cond st) (J C).
Proof. intros HC Hf Hb HJ. exact (cdowhile_count J C body cond f st HC Hb Hf HJ). Qed.

(** a loop over the vectors of one block *)
Lemma wp_inner n h (F G : Z -> Z) {S} (arr : S -> list Z) (P : Z -> S -> Prop) (H q : Z) (body : S -> res S) cond f st :
  1 <= H -> h = 8 * H -> 0 <= q -> 2 * h * (q + 1) <= n -> H <= Z.of_nat f ->
  (forall c st s, 0 <= c < H -> s = 2 * h * q + 8 * c -> P c st -> zlen (arr st) = n ->
     0 <= s -> s + h + 8 <= n ->
     (forall l, 0 <= l < 8 -> at_ (arr st) (s + l) = F (s + l)) ->
     (forall l, 0 <= l < 8 -> at_ (arr st) (s + h + l) = F (s + h + l)) ->
     wp (body st) (fun st' => P (c + 1) st' /\ cond st' = (c + 1 <? H) /\ upd G s h (arr st) (arr st'))) ->
  P 0 st -> blk n h F G q (arr st) ->
  wp (cdowhile f body cond st) (fun st' => P H st' /\ blk n h F G (q + 1) (arr st')).
Proof.
  intros H1 H2 H3 H4 H5 H6 H7 H8.
  exact (inner_pair n h F G S arr P H q H1 H2 H3 H4 body cond f st H6 H5 H7 H8).
Qed.

(** a block of one pair of vectors *)
Lemma blk_step n F G q b b' : blk n 8 F G q b -> 0 <= q -> upd G (16 * q) 8 b b' -> blk n 8 F G (q + 1) b'.
Proof.
  intros (HL & HA) Hq (HL' & HU). split; [lia|]. intros j Hj. rewrite HU, HA by lia.
  destruct (inw_spec (16 * q) 8 j), (inw_spec (16 * q + 8) 8 j), (Z.ltb_spec j (2 * 8 * q)),
    (Z.ltb_spec j (2 * 8 * (q + 1))); cbn [orb]; lia || reflexivity.
Qed.
Lemma blk_reads n h F G q b j : blk n h F G q b -> 0 <= j < n -> 2 * h * q <= j -> at_ b j = F j.
Proof. intros (HL & HA) Hj H. rewrite HA by lia. destruct (Z.ltb_spec j (2 * h * q)); [lia|reflexivity]. Qed.

Lemma after_F n M G F a c b : isA n F a -> after M G a c b ->
  zlen b = n /\ forall j, 0 <= j -> M * c <= j < n -> at_ b j = F j.
Proof.
  intros (HL & HA) Haft. split; [rewrite <- HL; apply Haft|]. intros j H0 Hj.
  rewrite (after_rest M G a c b j Haft) by lia. apply HA. lia.
Qed.

(** a loop over chunks *)
Lemma wp_chunks n M C (F G : Z -> Z) {S} (arr : S -> list Z) (P : Z -> S -> Prop) (body : S -> res S) cond f st :
  0 < M -> 1 <= C -> n = M * C -> C <= Z.of_nat f ->
  (forall c st, 0 <= c < C -> P c st -> zlen (arr st) = n -> 0 <= M * c -> M * c + M <= n ->
     (forall j, M * c <= j < M * c + M -> at_ (arr st) j = F j) ->
     wp (body st) (fun st' => P (c + 1) st' /\ cond st' = (c + 1 <? C) /\ zlen (arr st') = zlen (arr st)
       /\ forall j, 0 <= j < zlen (arr st) -> at_ (arr st') j = if inw (M * c) M j then G j else at_ (arr st) j)) ->
  P 0 st -> isA n F (arr st) ->
  wp (cdowhile f body cond st) (fun st' => P C st' /\ isA n G (arr st')).
Proof.
  intros HM HC En Hf Hb HP Ha.
  destruct (chunk_loop S arr P M C G (arr st) HM HC body cond f st) as (st' & E & H1 & H2 & H3); try assumption.
  - intros c s Hc HPc Haft. destruct (after_F n M G F (arr st) c (arr s) Ha Haft) as (Ls & Fs).
    assert (0 <= M * c) by nia. assert (M * c + M <= n) by nia.
    apply (Hb c s); try assumption. intros j Hj. apply Fs; lia.
  - reflexivity.
  - exists st'. split; [exact E|]. split; [exact H1|]. destruct Ha as (HL & _). split; [lia|].
    intros j Hj. unfold isF. rewrite H3 by lia. destruct (Z.ltb_spec j (M * C)); [reflexivity|lia].
Qed.
