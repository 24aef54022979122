(** The products of src/ntt_red{16,256,512,1024}.c on arbitrary int32 arrays. *)

From Coq Require Import ZArith List Bool Lia Setoid Morphisms.
From Verif Require Import CSem Spec Loops ModQ Conv HeapElem TransformGen Forms TableSpec
  ModelGen ModelProducts ProdGen NttElem ModelRed RedElem RedBfly RedTransforms RedRange ProdRed IdealRed.
Import ListNotations.
Open Scope Z_scope.

Definition stops {A} (m : res A) : Prop := m = Err SignedOverflow \/ m = Err AssertFail.

(** ** Every value that is stored is an int32 *)

Definition all32 (x : list Z) : Prop := forall i, 0 <= i < zlen x -> w32 (at_ x i).

(** [J] holds of the result of [m], if there is one. *)
Definition post {A} (J : A -> Prop) (m : res A) : Prop := forall r, m = Ok r -> J r.

Lemma post_ok {A} (J : A -> Prop) v : J v -> post J (Ok v).
Proof. intros H r E. injection E as <-. exact H. Qed.
Lemma post_bind {A B} (I : A -> Prop) (J : B -> Prop) (m : res A) f :
  post I m -> (forall x, I x -> post J (f x)) -> post J (bind m f).
Proof.
  intros Hm Hf r E. destruct m as [x|]; cbn [bind] in E; [|discriminate]. exact (Hf x (Hm x eq_refl) r E).
Qed.
Lemma post_skip {A B} (J : B -> Prop) (m : res A) f : (forall x, post J (f x)) -> post J (bind m f).
Proof. intros H. apply (post_bind (fun _ => True)); [intros r _; exact I|]. intros x _. apply H. Qed.
Lemma post_cfor {S} (J : S -> Prop) cond next (body : Z -> S -> res S) :
  (forall i s, J s -> post J (body i s)) -> forall f i s, J s -> post J (cfor f i cond next body s).
Proof.
  intros H. induction f as [|f IH]; intros i s HJ; cbn [cfor]; [intros r E; discriminate|].
  destruct (cond i).
  - apply (post_bind J); [apply H, HJ|]. intros x Hx. apply IH, Hx.
  - apply post_ok, HJ.
Qed.

Lemma loop_post {S} (J : Z -> S -> Prop) n body (st r : S) :
  cfor (fuel n) 0 (fun i => i <? n) (fun i => u32 (i + 1)) body st = Ok r -> 0 <= n < 4294967296 -> J 0 st ->
  (forall i st r, 0 <= i < n -> J i st -> body i st = Ok r -> J (i + 1) r) -> J n r.
Proof.
  intros E Hn H0 Hb.
  assert (G : forall f c st, 0 <= c <= n -> J c st ->
    cfor f c (fun i => i <? n) (fun i => u32 (i + 1)) body st = Ok r -> J n r).
  { clear E. induction f as [|f IH]; intros c s Hc HJ E; [discriminate|]. cbn [cfor] in E.
    destruct (Z.ltb_spec c n).
    - destruct (body c s) as [s'|] eqn:E1; cbn [bind] in E; [|discriminate]. rewrite u32_small in E by lia.
      apply (IH (c + 1) s'); [lia|apply (Hb c s); [lia|exact HJ|exact E1]|exact E].
    - injection E as <-. replace n with c by lia. exact HJ. }
  exact (G (fuel n) 0 st ltac:(lia) H0 E).
Qed.

Lemma i32_w32 v r : i32 v = Ok r -> w32 r.
Proof.
  unfold i32, in_i32, w32. destruct (_ && _) eqn:E; [|discriminate]. intros H. injection H as <-. lia.
Qed.
Lemma mul_red_w32 x y r : mul_red x y = Ok r -> w32 r.
Proof.
  unfold mul_red. destruct (mul64 x y); cbn [bind]; [|discriminate].
  destruct (cassert _); cbn [bind]; [|discriminate]. destruct (mul32 _ _); cbn [bind]; [|discriminate].
  apply i32_w32.
Qed.
Lemma rd_at a i v : rd a i = Ok v -> 0 <= i < zlen a /\ v = at_ a i.
Proof.
  unfold rd. destruct (Z.ltb_spec i 0); [discriminate|].
  destruct (nth_error a (Z.to_nat i)) as [x|] eqn:E; [|discriminate]. intros H1. injection H1 as <-.
  assert (L : (Z.to_nat i < length a)%nat) by (apply nth_error_Some; rewrite E; discriminate).
  split; [unfold zlen; lia|]. unfold at_. symmetry. apply nth_error_nth. exact E.
Qed.
Lemma wr_at a i v r : wr a i v = Ok r -> 0 <= i < zlen a /\ r = aset a i v.
Proof.
  intros E. destruct (Z.ltb_spec i 0) as [N|N]; [unfold wr in E; rewrite (proj2 (Z.ltb_lt i 0) N) in E; discriminate|].
  destruct (Z.ltb_spec i (zlen a)) as [L|L].
  - split; [lia|]. rewrite wr_ok in E by lia. injection E as <-. reflexivity.
  - unfold wr in E. destruct (i <? 0); [discriminate|]. exfalso.
    assert (X : forall l m, (length l <= m)%nat -> upd l m v = None).
    { induction l as [|y l IH]; intros [|m] Hm; cbn in *; try reflexivity; [lia|]. rewrite IH by lia. reflexivity. }
    rewrite X in E by (unfold zlen in L; lia). discriminate.
Qed.
Lemma wr_all32 a i v r : all32 a -> w32 v -> wr a i v = Ok r -> all32 r.
Proof.
  intros Ha Hv E. apply wr_at in E as [Hi ->].
  intros j Hj. rewrite aset_len in Hj.
  destruct (Z.eq_dec j i) as [->|N]; [rewrite at_aset_same by lia; exact Hv|].
  rewrite at_aset_other by lia. apply Ha, Hj.
Qed.

Lemma i32_post v : post w32 (i32 v).
Proof. intros r. apply i32_w32. Qed.
Lemma mul_red_post x y : post w32 (mul_red x y).
Proof. intros r. apply mul_red_w32. Qed.
Lemma wr_post a i v : all32 a -> w32 v -> post all32 (wr a i v).
Proof. intros Ha Hv r. apply wr_all32; assumption. Qed.

Lemma bfly0_keeps s t a : all32 a -> post all32 (bfly0_red s t a).
Proof.
  intros H. unfold bfly0_red, sub32, add32. do 2 (apply post_skip; intros ?).
  apply (post_bind w32); [apply i32_post|]. intros v Hv. apply (post_bind all32); [apply wr_post; assumption|].
  intros a1 H1. apply post_skip; intros y. apply (post_bind w32); [apply i32_post|]. intros u Hu.
  apply wr_post; assumption.
Qed.
Lemma ct_keeps w s t a : all32 a -> post all32 (ct_bfly_red w s t a).
Proof.
  intros H. unfold ct_bfly_red, sub32, add32. do 3 (apply post_skip; intros ?).
  apply (post_bind w32); [apply i32_post|]. intros v Hv. apply (post_bind all32); [apply wr_post; assumption|].
  intros a1 H1. apply post_skip; intros y. apply (post_bind w32); [apply i32_post|]. intros u Hu.
  apply wr_post; assumption.
Qed.
Lemma gs_keeps w s t a : all32 a -> post all32 (gs_bfly_red w s t a).
Proof.
  intros H. unfold gs_bfly_red, sub32, add32. do 3 (apply post_skip; intros ?).
  apply (post_bind w32); [apply mul_red_post|]. intros v Hv. apply (post_bind all32); [apply wr_post; assumption|].
  intros a1 H1. apply post_skip; intros y. apply (post_bind w32); [apply i32_post|]. intros u Hu.
  apply wr_post; assumption.
Qed.

Definition pair32 (x : Z * list Z) : Prop := all32 (snd x).

Ltac keep :=
  repeat first
    [ progress cbv beta iota zeta
    | assumption
    | match goal with x : (Z * list Z)%type |- _ => destruct x end
    | match goal with H : pair32 (_, _) |- _ => unfold pair32 in H; cbn [snd] in H end
    | match goal with |- pair32 (_, _) => unfold pair32; cbn [snd] end
    | apply bfly0_keeps | apply ct_keeps | apply gs_keeps
    | apply post_cfor; [intros ? ? ?|]
    | apply post_ok
    | match goal with
      | |- post _ (@bind Z _ _ _) => apply post_skip; intros ?
      | |- post _ (@bind (list Z) _ _ _) => apply (post_bind all32); [|intros ? ?]
      | |- post _ (@bind (Z * list Z) _ _ _) => apply (post_bind pair32); [|intros ? ?]
      end ].

Lemma ct_rev2std_keeps a n p : all32 a -> post all32 (ntt_red_ct_rev2std a n p).
Proof. intros H. unfold ntt_red_ct_rev2std. keep. Qed.
Lemma ct_std2rev_keeps a n p : all32 a -> post all32 (ntt_red_ct_std2rev a n p).
Proof. intros H. unfold ntt_red_ct_std2rev. keep. Qed.
Lemma gs_std2rev_keeps a n p : all32 a -> post all32 (ntt_red_gs_std2rev a n p).
Proof. intros H. unfold ntt_red_gs_std2rev. keep. Qed.
Lemma mul_ct_std2rev_keeps a n p : all32 a -> post all32 (mulntt_red_ct_std2rev a n p).
Proof. intros H. unfold mulntt_red_ct_std2rev. keep. Qed.

(** ** The products *)

Section P.
Variables (sh : bool) (k psi : Z) (T : red_tables).
Hypothesis Hk : 1 <= k <= 10.
Hypothesis Hpsi : eqQ (psi ^ (2 ^ k)) (-1).
Hypothesis HT : red_tables_ok k psi T.
Let n := 2 ^ k.

Let Hk31 : 0 <= k <= 31.
Proof. lia. Qed.
Let Hn32 : 0 <= n < 4294967296.
Proof. assert (H := pow31 k ltac:(lia)). unfold n in *. assert (0 < 2 ^ k) by (apply pow2_pos; lia). lia. Qed.
Let root : 0 < k -> eqQ ((psi ^ 2) ^ (2 ^ (k - 1))) (-1).
Proof. apply omega_root, Hpsi. Qed.
Let Hw : eqQ (r_omega T) (psi ^ 2).
Proof. apply HT. Qed.

Definition good (x : list Z) : Prop := zlen x = n /\ all32 x.
Definition gives (f : list Z -> res (list Z)) (R : list Z -> list Z -> Prop) : Prop :=
  forall x, good x -> (exists r, f x = Ok r /\ good r /\ R x r) \/ stops (f x).

Lemma or_stops_gives f R : (forall x, zlen x = n -> or_stops (f x) n (R x)) ->
  (forall x, all32 x -> post all32 (f x)) -> gives f R.
Proof.
  intros H1 H2 x [L A]. destruct (H1 x L) as [(r & E & Lr & HR)|H]; [left|right; exact H].
  exists r. split; [exact E|]. split; [split; [exact Lr|]|exact HR]. exact (H2 x A r E).
Qed.

Definition same (x r : list Z) : Prop := forall i, 0 <= i < n -> eqQ (at_ r i) (at_ x i).

Lemma any_shift : gives (maybe_shift sh n) same.
Proof.
  apply or_stops_gives; unfold maybe_shift; destruct sh.
  - intros x L.
    destruct (map_loop n (fun _ _ => True) (fun _ v u => u = if 6144 <? v then v - 12289 else v)
      (fun i a => do v <- rd a i; wr a i (if 6144 <? v then v - 12289 else v)) x Hn32)
      as (r & E & Lr & R & _); [lia|auto| |].
    { intros i b Hi Lb _. rewrite rd_ok by lia. cbn [bind]. rewrite wr_ok by lia. eauto. }
    eapply tracks_stops; [|exact E|lia|].
    + unfold shift_array. change ((ModelRed.Q - 1) / 2) with 6144. change ModelRed.Q with 12289.
      apply tracks_cfor. intros i s. apply tracks_bind; [apply tracks_refl|]. intros v.
      destruct (6144 <? v); [|apply tracks_refl]. unfold sub32.
      exact (tracks_bind_i32 (v - 12289) _ (fun u => wr s i u) (fun u => tracks_refl _)).
    + intros i Hi. rewrite R by exact Hi. destruct (6144 <? at_ x i); [|reflexivity].
      unfold eqQ, Spec.Q. replace (at_ x i - 12289) with (at_ x i + (-1) * 12289) by lia. apply Z.mod_add. discriminate.
  - intros x L. left. exists x. split; [reflexivity|]. split; [exact L|]. intros i Hi. reflexivity.
  - intros x A. unfold shift_array. apply post_cfor; [|exact A]. intros i s Hs.
    intros r E. destruct (rd s i) as [v|] eqn:Er; cbn [bind] in E; [|discriminate].
    assert (Hv : w32 v).
    { apply rd_at in Er as [Hi ->]. apply Hs, Hi. }
    destruct (_ <? v).
    + destruct (sub32 v ModelRed.Q) as [u|] eqn:Es; cbn [bind] in E; [|discriminate].
      exact (wr_post s i u Hs (i32_w32 _ _ Es) r E).
    + cbn [bind] in E. exact (wr_post s i v Hs Hv r E).
  - intros x A. apply post_ok, A.
Qed.

Let inv3 z : eqQ (3 * (8193 * z)) z.
Proof. unfold eqQ, Spec.Q. replace (3 * (8193 * z)) with (z + (2 * z) * 12289) by ring. apply Z.mod_add. discriminate. Qed.

Lemma any_mulpsi : gives (fun x => mul_reduce_array16 x n (red_psi_powers T))
  (fun x r => forall i, 0 <= i < n -> eqQ (at_ r i) (at_ x i * psi ^ i)).
Proof.
  destruct (rok_psi_powers _ _ _ HT) as [HP _].
  apply or_stops_gives.
  - intros x L.
    destruct (map_loop n (fun _ _ => True) (fun i v u => u = redz (v * at_ (red_psi_powers T) i))
      (fun i a => do v <- rd a i; do y <- rd (red_psi_powers T) i; wr a i (redz (v * y))) x Hn32)
      as (r & E & Lr & R & _); [lia|auto| |].
    { intros i b Hi Lb _. rewrite rd_ok by lia. cbn [bind]. rewrite rd_ok by (rewrite (proj1 HP); exact Hi).
      cbn [bind]. rewrite wr_ok by lia. eauto. }
    eapply tracks_stops; [|exact E|lia|].
    + unfold mul_reduce_array16. apply tracks_cfor. intros i s.
      apply tracks_bind; [apply tracks_refl|]. intros v. apply tracks_bind; [apply tracks_refl|]. intros y.
      exact (tracks_bind (mul_red v y) (Ok (redz (v * y))) _ (fun u => wr s i u) (mul_red_tracks v y) (fun u => tracks_refl _)).
    + intros i Hi. rewrite R by exact Hi. rewrite redz_cong. rewrite (proj2 HP) by exact Hi.
      rewrite <- (inv3 (at_ x i * psi ^ i)). qring.
  - intros x A. unfold mul_reduce_array16. apply post_cfor; [|exact A]. intros i s Hs.
    do 2 (apply post_skip; intros ?). apply (post_bind w32); [apply mul_red_post|]. intros v Hv. apply wr_post; assumption.
Qed.

Lemma any_reduce : gives (fun x => reduce_array x n)
  (fun x r => forall i, 0 <= i < n -> eqQ (at_ r i) (3 * at_ x i)).
Proof.
  intros x [L A]. left.
  destruct (reduce_array_spec x n) as (r & E & Lr & R & _);
    [exact Hn32|rewrite L; apply Z.le_refl|intros i Hi; apply A; rewrite L; exact Hi|].
  exists r. split; [exact E|]. split; [split|].
  - rewrite Lr. exact L.
  - intros i Hi. rewrite Lr, L in Hi. rewrite R by exact Hi.
    assert (H := redz_i32 (at_ x i) (A i ltac:(rewrite L; exact Hi))). unfold w32. lia.
  - intros i Hi. rewrite R by exact Hi. apply redz_cong.
Qed.

Definition ntt_of (x r : list Z) : Prop := forall j, 0 <= j < n -> eqQ (at_ r (bitrev k j)) (NTT n (psi ^ 2) (at_ x) j).

Lemma any_ct_std2rev : gives (r_ct_std2rev n T) ntt_of.
Proof.
  destruct (rok_omega_powers_rev _ _ _ HT) as [H1 _]. apply (omega_table_rev_root _ _ _ _ _ Hw) in H1.
  apply or_stops_gives.
  - intros x L. exact (ct_std2rev_any k (psi ^ 2) x _ Hk31 root H1 L).
  - intros x A. apply ct_std2rev_keeps, A.
Qed.
Lemma any_gs_std2rev : gives (r_gs_std2rev n T) ntt_of.
Proof.
  destruct (rok_omega_powers _ _ _ HT) as [H1 _]. apply (omega_table_root _ _ _ _ _ Hw) in H1.
  apply or_stops_gives.
  - intros x L. exact (gs_std2rev_any k (psi ^ 2) x _ Hk31 root H1 L).
  - intros x A. apply gs_std2rev_keeps, A.
Qed.
Lemma any_mulntt : gives (r_mulntt_ct_std2rev n T)
  (fun x r => forall j, 0 <= j < n -> eqQ (at_ r (bitrev k j)) (NTT n (psi ^ 2) (fun i => at_ x i * psi ^ i) j)).
Proof.
  destruct (rok_mixed_rev _ _ _ HT) as [H1 _].
  apply or_stops_gives.
  - intros x L. exact (mul_ct_std2rev_any k psi x _ Hk31 Hpsi H1 L).
  - intros x A. apply mul_ct_std2rev_keeps, A.
Qed.

(** The forward part *)
Definition fwd_any (F : list (list Z -> res (list Z))) : Prop := gives (runs F) (fun x r => forall j, 0 <= j < n ->
  eqQ (at_ r (bitrev k j)) (3 * NTT n (psi ^ 2) (fun i => at_ x i * psi ^ i) j)).

Lemma stops_bind {A B} (m : res A) (f : A -> res B) : stops m -> stops (bind m f).
Proof. intros [->| ->]; cbn [bind]; [left|right]; reflexivity. Qed.

Ltac run1 H x Hx r E G R :=
  destruct (H x Hx) as [(r & E & G & R)|X];
    [rewrite E; cbn [bind]|right; apply stops_bind, X].

Lemma fwd_plain_any f : gives f ntt_of ->
  fwd_any [maybe_shift sh n; (fun x => mul_reduce_array16 x n (red_psi_powers T)); f; (fun x => reduce_array x n)].
Proof.
  intros Hf x Hx. cbn [runs].
  run1 any_shift x Hx x1 E1 G1 R1. run1 any_mulpsi x1 G1 x2 E2 G2 R2. run1 Hf x2 G2 x3 E3 G3 R3.
  run1 any_reduce x3 G3 x4 E4 G4 R4.
  left. exists x4. split; [reflexivity|]. split; [exact G4|]. intros j Hj.
  rewrite (R4 _ (bitrev_range k j ltac:(lia))), (R3 j Hj).
  apply eqQ_mul; [reflexivity|]. apply NTT_extQ. intros i Hi. rewrite (R2 i Hi), (R1 i Hi). reflexivity.
Qed.
Lemma fwd_mul_any : fwd_any [maybe_shift sh n; r_mulntt_ct_std2rev n T; (fun x => reduce_array x n)].
Proof.
  intros x Hx. cbn [runs].
  run1 any_shift x Hx x1 E1 G1 R1. run1 any_mulntt x1 G1 x2 E2 G2 R2. run1 any_reduce x2 G2 x3 E3 G3 R3.
  left. exists x3. split; [reflexivity|]. split; [exact G3|]. intros j Hj.
  rewrite (R3 _ (bitrev_range k j ltac:(lia))), (R2 j Hj).
  apply eqQ_mul; [reflexivity|]. apply NTT_extQ. intros i Hi. rewrite (R1 i Hi). reflexivity.
Qed.

(** The pointwise product *)
Lemma pointwise_any h c a b : zlen (h c) = n -> zlen (h a) = n -> zlen (h b) = n ->
  (exists h', mul_reduce_array_h h c n a b = Ok h' /\ zlen (h' c) = n
    /\ (forall i, 0 <= i < n -> eqQ (at_ (h' c) i) (3 * (at_ (h a) i * at_ (h b) i)) /\ w32 (at_ (h' c) i))
    /\ (forall p, p <> c -> h' p = h p)) \/ stops (mul_reduce_array_h h c n a b).
Proof.
  intros Lc La Lb.
  destruct (zip_h (fun x y => Ok (redz (x * y))) n h c a b (fun i => redz (at_ (h a) i * at_ (h b) i)) Hn32)
    as (h' & E & L & R & _ & O); [lia|lia|lia|reflexivity|].
  assert (TR : tracks (mul_reduce_array_h h c n a b) (Ok h')).
  { rewrite <- E. unfold mul_reduce_array_h. apply tracks_cfor. intros i s. unfold zip_body.
    apply tracks_bind; [apply tracks_refl|]. intros x. apply tracks_bind; [apply tracks_refl|]. intros y.
    apply tracks_bind; [apply mul_red_tracks|]. intros v. apply tracks_refl. }
  destruct TR as [TR|TR]; [left|right; exact TR].
  exists h'. split; [exact TR|]. split; [lia|]. split; [|exact O].
  assert (W := loop_post (fun m g => zlen (g c) = n /\ forall j, 0 <= j < m -> w32 (at_ (g c) j)) n _ h h' TR Hn32).
  intros i Hi. split; [rewrite R by exact Hi; apply redz_cong|]. apply W; [| |exact Hi].
  - split; [exact Lc|]. intros j Hj. lia.
  - clear - Hn32. intros m g r Hm [Lg HJ] E.
    destruct (rd (g a) m) as [x|]; cbn [bind] in E; [|discriminate].
    destruct (rd (g b) m) as [y|]; cbn [bind] in E; [|discriminate].
    destruct (mul_red x y) as [v|] eqn:Ev; cbn [bind] in E; [|discriminate]. apply mul_red_w32 in Ev.
    destruct (wr (g c) m v) as [l|] eqn:Ew; cbn [bind] in E; [|discriminate]. injection E as <-.
    apply wr_at in Ew as [_ ->]. rewrite hset_same. rewrite aset_len. split; [exact Lg|].
    intros j Hj. destruct (Z.eq_dec j m) as [->|N]; [rewrite at_aset_same by lia; exact Ev|].
    rewrite at_aset_other by lia. apply HJ. lia.
Qed.

Lemma chain_stops p fs : forall h K, stops (runs fs (h p)) -> stops (chain p fs h K).
Proof.
  induction fs as [|f fs IH]; intros h K; cbn [runs chain].
  - intros [H|H]; discriminate H.
  - unfold on. destruct (f (h p)) as [y|e]; cbn [bind].
    + intros H. apply IH. rewrite hset_same. exact H.
    + intros [H|H]; injection H as ->; [left|right]; reflexivity.
Qed.

(** The result is the canonical product, or the run stops; [a] and [b] hold their transforms. *)
Definition product_any (F : list (list Z -> res (list Z))) (f : heap -> Z -> Z -> Z -> res heap) : Prop :=
  forall h c a b, a <> b -> zlen (h c) = n -> good (h a) -> good (h b) ->
  (exists h', f h c a b = Ok h' /\ zlen (h' c) = n
    /\ (forall m, 0 <= m < n ->
         eqQ (at_ (h' c) m) (negacyclic n (at_ (h a)) (at_ (h b)) m) /\ can (at_ (h' c) m))
    /\ (a <> c -> runs F (h a) = Ok (h' a)) /\ (b <> c -> runs F (h b) = Ok (h' b))
    /\ (forall p, p <> a -> p <> b -> p <> c -> h' p = h p)) \/ stops (f h c a b).

Lemma prod_any F G : fwd_any F -> bwd_ok k psi G ->
  product_any F (product F G (fun h c a b => mul_reduce_array_h h c n a b)).
Proof.
  intros HF HG h c a b Hab Lc Ga Gb. unfold product.
  destruct (HF (h a) Ga) as [(ra & Ea & Gra & Ra)|X]; [|right; apply chain_stops, X].
  destruct (chain_ok a F h ra Ea) as (h1 & C1 & V1 & O1). rewrite C1.
  assert (Hb1 : h1 b = h b) by (apply O1; auto).
  destruct (HF (h b) Gb) as [(rb & Eb & Grb & Rb)|X]; [|right; apply chain_stops; rewrite Hb1; exact X].
  destruct (chain_ok b F h1 rb ltac:(rewrite Hb1; exact Eb)) as (h2 & C2 & V2 & O2). rewrite C2.
  assert (Ha2 : h2 a = ra) by (rewrite O2 by auto; exact V1).
  assert (Lc2 : zlen (h2 c) = n).
  { destruct (Z.eq_dec c b) as [->|Hcb]; [rewrite V2; apply Grb|].
    rewrite O2 by auto. destruct (Z.eq_dec c a) as [->|Hca]; [rewrite V1; apply Gra|].
    rewrite O1 by auto. exact Lc. }
  destruct (pointwise_any h2 c a b Lc2) as [(h3 & E3 & L3 & R3 & O3)|X];
    [rewrite Ha2; apply Gra|rewrite V2; apply Grb| |right; apply stops_bind, X].
  rewrite E3. cbn [bind].
  destruct (HG (h3 c) (at_ (h a)) (at_ (h b)) L3) as (r & E4 & L4 & R4).
  + intros i Hi. apply R3, Hi.
  + intros j Hj. assert (HR := bitrev_range k j ltac:(lia)).
    rewrite (proj1 (R3 (bitrev k j) HR)). rewrite Ha2, V2.
    rewrite (Ra j Hj), (Rb j Hj). unfold n. qring.
  + destruct (chain_ok c G h3 r E4) as (h4 & C4 & V4 & O4). rewrite C4. left. exists h4.
    split; [reflexivity|]. rewrite V4. split; [exact L4|]. split; [exact R4|]. split; [|split].
    * intros N. rewrite O4, O3, Ha2 by auto. exact Ea.
    * intros N. rewrite O4, O3, V2 by auto. exact Eb.
    * intros p H1 H2 H3. rewrite O4, O3, O2, O1 by auto. reflexivity.
Qed.

Definition fwd_ct := [maybe_shift sh n; (fun x => mul_reduce_array16 x n (red_psi_powers T)); r_ct_std2rev n T; (fun x => reduce_array x n)].
Definition fwd_gs := [maybe_shift sh n; (fun x => mul_reduce_array16 x n (red_psi_powers T)); r_gs_std2rev n T; (fun x => reduce_array x n)].
Definition fwd_mul := [maybe_shift sh n; r_mulntt_ct_std2rev n T; (fun x => reduce_array x n)].

Lemma product1_any : product_any fwd_ct (red_product1 sh n T).
Proof. exact (prod_any _ _ (fwd_plain_any _ any_ct_std2rev) (r_bwd_ct k psi T Hk Hpsi HT)). Qed.
Lemma product2_any : product_any fwd_gs (red_product2 sh n T).
Proof. exact (prod_any _ _ (fwd_plain_any _ any_gs_std2rev) (r_bwd_ct k psi T Hk Hpsi HT)). Qed.
Lemma product3_any : product_any fwd_ct (red_product3 sh n T).
Proof. exact (prod_any _ _ (fwd_plain_any _ any_ct_std2rev) (r_bwd_gs k psi T Hk Hpsi HT)). Qed.
Lemma product4_any : product_any fwd_gs (red_product4 sh n T).
Proof. exact (prod_any _ _ (fwd_plain_any _ any_gs_std2rev) (r_bwd_gs k psi T Hk Hpsi HT)). Qed.
Lemma product5_any : product_any fwd_mul (red_product5 sh n T).
Proof. exact (prod_any _ _ fwd_mul_any (r_bwd_mul k psi T Hk Hpsi HT)). Qed.
End P.
