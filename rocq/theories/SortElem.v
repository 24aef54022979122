(** sort sorts: proofs. *)

From Coq Require Import ZArith List Bool Lia Permutation Sorted.
From Verif Require Import CSem Spec Loops ModelSort.
Import ListNotations.
Open Scope Z_scope.

(** ** Counting occurrences *)

Definition cnt (v : Z) (a : list Z) : Z := Z.of_nat (count_occ Z.eq_dec a v).
Definition eq1 (v w : Z) : Z := if Z.eq_dec v w then 1 else 0.

Lemma cnt_lupd a i w v : (i < length a)%nat ->
  cnt v (lupd a i w) = cnt v a - eq1 (nth i a 0) v + eq1 w v.
Proof.
  unfold cnt, eq1. revert i. induction a as [|x a IH]; intros i Hi; [cbn in Hi; lia|].
  destruct i as [|i]; cbn [lupd nth count_occ].
  - destruct (Z.eq_dec w v), (Z.eq_dec x v); lia.
  - specialize (IH i ltac:(cbn in Hi; lia)). destruct (Z.eq_dec x v); lia.
Qed.

Lemma cnt_aset a i w v : 0 <= i < zlen a ->
  cnt v (aset a i w) = cnt v a - eq1 (at_ a i) v + eq1 w v.
Proof. intros H. unfold aset, at_, zlen in *. apply cnt_lupd. lia. Qed.

Lemma cnt_perm a b : (forall v, cnt v a = cnt v b) -> Permutation a b.
Proof.
  intros H. apply (Permutation_count_occ Z.eq_dec). intros v. specialize (H v). unfold cnt in H. lia.
Qed.

(** ** What each function does to a segment *)

(** Only [p[0..n-1]] changes, and its elements are rearranged. *)
Definition shuffles (a b : list Z) (o n : Z) : Prop :=
  zlen b = zlen a /\ (forall k, 0 <= k < zlen a -> ~ (o <= k < o + n) -> at_ b k = at_ a k)
  /\ (forall v, cnt v b = cnt v a).

Lemma shuffles_refl a o n : shuffles a a o n.
Proof. unfold shuffles. auto. Qed.

Lemma shuffles_trans a b c o n o' n' o'' n'' :
  shuffles a b o n -> shuffles b c o' n' -> o'' <= o -> o + n <= o'' + n'' -> o'' <= o' -> o' + n' <= o'' + n'' ->
  shuffles a c o'' n''.
Proof.
  intros (L1 & F1 & C1) (L2 & F2 & C2) H1 H2 H3 H4. split; [lia|]. split.
  - intros k Hk Ho. rewrite F2 by lia. apply F1; lia.
  - intros v. rewrite C2. apply C1.
Qed.

Lemma skipn_add (m k : nat) (l : list Z) : skipn (m + k) l = skipn m (skipn k l).
Proof.
  revert l. induction k as [|k IH]; intros l.
  - rewrite Nat.add_0_r. reflexivity.
  - rewrite Nat.add_succ_r. destruct l as [|x l]; [now rewrite !skipn_nil|]. cbn [skipn]. apply IH.
Qed.

Lemma split3 (a : list Z) (o n : Z) : 0 <= o -> 0 <= n -> o + n <= zlen a ->
  a = firstn (Z.to_nat o) a ++ firstn (Z.to_nat n) (skipn (Z.to_nat o) a) ++ skipn (Z.to_nat (o + n)) a.
Proof.
  intros. replace (Z.to_nat (o + n)) with (Z.to_nat n + Z.to_nat o)%nat by lia.
  rewrite skipn_add. rewrite (firstn_skipn (Z.to_nat n)). rewrite firstn_skipn. reflexivity.
Qed.

Lemma seg_nth (a : list Z) o n k : 0 <= o -> 0 <= n -> o + n <= zlen a -> (k < Z.to_nat n)%nat ->
  nth k (firstn (Z.to_nat n) (skipn (Z.to_nat o) a)) 0 = at_ a (o + Z.of_nat k).
Proof.
  intros Ho Hn HL Hk. unfold at_. replace (Z.to_nat (o + Z.of_nat k)) with (Z.to_nat o + k)%nat by lia.
  assert (E : forall (l : list Z) m, nth k (skipn m l) 0 = nth (m + k) l 0).
  { clear. induction l as [|x l IH]; intros [|m]; cbn; auto. now destruct k. }
  rewrite <- E.
  assert (F : forall (l : list Z) m, (k < m)%nat -> nth k (firstn m l) 0 = nth k l 0).
  { clear. revert k. intros k l. revert k. induction l as [|x l IH]; intros k [|m] H; cbn; try lia; try (destruct k; reflexivity).
    destruct k; [reflexivity|]. apply IH. lia. }
  apply F. exact Hk.
Qed.

Lemma seg_length (a : list Z) o n : 0 <= o -> 0 <= n -> o + n <= zlen a ->
  length (firstn (Z.to_nat n) (skipn (Z.to_nat o) a)) = Z.to_nat n.
Proof. intros. rewrite firstn_length, skipn_length. unfold zlen in *. lia. Qed.

Lemma shuffles_perm a b o n : 0 <= o -> 0 <= n -> o + n <= zlen a -> shuffles a b o n ->
  Permutation (firstn (Z.to_nat n) (skipn (Z.to_nat o) b)) (firstn (Z.to_nat n) (skipn (Z.to_nat o) a))
  /\ firstn (Z.to_nat o) b = firstn (Z.to_nat o) a /\ skipn (Z.to_nat (o + n)) b = skipn (Z.to_nat (o + n)) a.
Proof.
  intros Ho Hn HL (HLb & HF & HC).
  assert (E1 : firstn (Z.to_nat o) b = firstn (Z.to_nat o) a).
  { apply list_ext.
    - unfold zlen in *. rewrite !firstn_length. lia.
    - intros i Hi. unfold zlen in Hi. rewrite firstn_length in Hi.
      assert (X : forall l : list Z, at_ (firstn (Z.to_nat o) l) i = nth (Z.to_nat i) (firstn (Z.to_nat o) (skipn (Z.to_nat 0) l)) 0) by reflexivity.
      rewrite !X. rewrite !seg_nth by (unfold zlen in *; lia). apply HF; unfold zlen in *; lia. }
  assert (E2 : skipn (Z.to_nat (o + n)) b = skipn (Z.to_nat (o + n)) a).
  { assert (S : forall (l : list Z) m k, nth k (skipn m l) 0 = nth (m + k) l 0).
    { clear. induction l as [|x l IH]; intros [|m] k; cbn; auto. now destruct k. }
    apply list_ext.
    - unfold zlen in *. rewrite !skipn_length. lia.
    - intros i Hi. unfold zlen in Hi. rewrite skipn_length in Hi. unfold at_. rewrite !S.
      assert (X := HF (o + n + i)). unfold at_ in X.
      replace (Z.to_nat (o + n + i)) with (Z.to_nat (o + n) + Z.to_nat i)%nat in X by lia. apply X; unfold zlen in *; lia. }
  split; [|auto].
  assert (P : Permutation b a) by (apply cnt_perm; exact HC).
  rewrite (split3 a o n) in P by assumption. rewrite (split3 b o n) in P by lia. rewrite E1, E2 in P.
  apply Permutation_app_inv_l in P. apply Permutation_app_inv_r in P. exact P.
Qed.

(** A property of the elements of the segment is kept. *)
Lemma shuffles_keep a b o n (P : Z -> Prop) : 0 <= o -> 0 <= n -> o + n <= zlen a -> shuffles a b o n ->
  (forall k, o <= k < o + n -> P (at_ a k)) -> (forall k, o <= k < o + n -> P (at_ b k)).
Proof.
  intros Ho Hn HL HS HP k Hk. destruct (shuffles_perm a b o n Ho Hn HL HS) as [HPm _].
  assert (HLb : zlen b = zlen a) by apply HS.
  assert (Hin : In (at_ b k) (firstn (Z.to_nat n) (skipn (Z.to_nat o) b))).
  { replace k with (o + Z.of_nat (Z.to_nat (k - o))) by lia. rewrite <- (seg_nth b o n) by lia.
    apply nth_In. rewrite seg_length by lia. lia. }
  apply (Permutation_in _ HPm) in Hin. apply (In_nth _ _ 0) in Hin. destruct Hin as (m & Hm & E).
  rewrite seg_length in Hm by lia. rewrite seg_nth in E by lia. rewrite <- E. apply HP. lia.
Qed.

Definition sorted_seg (a : list Z) (o n : Z) : Prop :=
  forall k l, o <= k <= l -> l < o + n -> at_ a k <= at_ a l.

Lemma shuffles_swap a o n i j : o <= i < o + n -> o <= j < o + n -> 0 <= o -> o + n <= zlen a ->
  shuffles a (aset (aset a i (at_ a j)) j (at_ a i)) o n.
Proof.
  intros Hi Hj Ho HL. split; [rewrite !aset_len; reflexivity|]. split.
  - intros k Hk Hs. rewrite !at_aset_other by (rewrite ?aset_len; lia). reflexivity.
  - intros v. rewrite !cnt_aset by (rewrite ?aset_len; lia).
    destruct (Z.eq_dec i j) as [->|].
    + rewrite at_aset_same by lia. lia.
    + rewrite at_aset_other by lia. lia.
Qed.

(** ** Insertion sort *)

Lemma isort_ok a o n : 0 <= o -> 0 <= n < 4294967296 -> o + n <= zlen a ->
  exists b, isort_int_array a o n = Ok b /\ shuffles a b o n /\ sorted_seg b o n.
Proof.
  intros Ho Hn HL. unfold isort_int_array.
  destruct (Z_le_gt_dec n 1) as [Hn1|Hn1].
  { exists a. unfold fuel. cbn [cfor]. replace (1 <? n) with false by lia. split; [reflexivity|].
    split; [apply shuffles_refl|]. intros k l H1 H2. replace l with k by lia. lia. }
  destruct (cfor_count (fun c b => shuffles a b o n /\ sorted_seg b o (c + 1)
       /\ (forall k, o + c < k < o + n -> at_ b k = at_ a k)) (n - 1) (fun c => c + 1)
     (fun i => i <? n) (fun i => u32 (i + 1)) (fun i a =>
    do x <- rd a (o + i);
    do '(_, j) <- cwhile (fuel n) go (fun '(_, j) =>
      do v <- rd a (o + j);
      Ok (if v <? x then (true, u32 (j + 1)) else (false, j))) (true, 0);
    do '(a, x, j) <- cwhile (fuel n) (fun '(_, _, j) => j <? i) (fun '(a, x, j) =>
      do y <- rd a (o + j);
      do a <- wr a (o + j) x;
      Ok (a, y, u32 (j + 1))) (a, x, j);
    wr a (o + j) x)) with (f := fuel n) (i0 := 1) (st := a) as (b & E & HS & HQ & _); auto; try lia.
  - intros c Hc. apply u32_small. lia.
  - intros c b Hc (HS & HQ & HR). set (i := c + 1) in *.
    assert (HLb : zlen b = zlen a) by apply HS.
    rewrite rd_ok by lia. cbn [bind]. set (x := at_ b (o + i)).
    (* the scan *)
    destruct (cwhile_rule (fun '(g, j) => 0 <= j <= i /\ (forall k, 0 <= k < j -> at_ b (o + k) < x)
        /\ (g = false -> x <= at_ b (o + j))) (fun '(g, j) => i - j + (if g : bool then 1 else 0)) go
        (fun '(_, j) => do v <- rd b (o + j);
           Ok (if v <? x then (true, u32 (j + 1)) else (false, j))))
      with (f := fuel n) (st := (true, 0)) as ([g j] & Ej & (Hj & Hlt & Hge) & Hg).
    { intros [g j] (Hj & Hlt & Hge) Hg. cbn [go fst] in Hg. subst g. rewrite rd_ok by lia. cbn [bind].
      destruct (Z.ltb_spec (at_ b (o + j)) x) as [C|C].
      - assert (j <> i) by (intros ->; unfold x in C; lia).
        eexists. split; [reflexivity|]. rewrite u32_small by lia. split; [|lia]. split; [lia|]. split.
        + intros k Hk. destruct (Z.eq_dec k j) as [->|]; [exact C|apply Hlt; lia].
        + discriminate.
      - eexists. split; [reflexivity|]. split; [|lia]. auto. }
    { split; [lia|]. split; [intros; lia|discriminate]. }
    { unfold fuel. lia. }
    rewrite Ej. cbn [bind]. cbn [go fst] in Hg. specialize (Hge Hg). clear Ej Hg g.
    (* the shift: y is the value taken out of the array, to be put at l *)
    assert (Hxi : x = at_ b (o + i)) by reflexivity. clearbody x.
    destruct (cwhile_rule (fun '(d, y, l) => j <= l <= i /\ zlen d = zlen b
        /\ (forall k, 0 <= k < zlen b -> ~ (o + j <= k < o + l) -> at_ d k = at_ b k)
        /\ (forall k, o + j < k < o + l -> at_ d k = at_ b (k - 1))
        /\ (j < l -> at_ d (o + j) = x /\ y = at_ b (o + l - 1)) /\ (l = j -> y = x)
        /\ (forall v, cnt v d = cnt v b + eq1 x v - eq1 y v))
        (fun '(d, y, l) => i - l) (fun '(_, _, l) => l <? i)
        (fun '(a, x, j) => do y <- rd a (o + j); do a <- wr a (o + j) x; Ok (a, y, u32 (j + 1))))
      with (f := fuel n) (st := (b, x, j)) as ([[d y] l] & Ed & (Hl & HLd & HF & HM & H1 & H2 & HC) & Hend).
    { intros [[d y] l] (Hl & HLd & HF & HM & H1 & H2 & HC) Hlt'. apply Z.ltb_lt in Hlt'.
      rewrite rd_ok by lia. cbn [bind]. rewrite wr_ok by lia. cbn [bind]. rewrite u32_small by lia.
      eexists. split; [reflexivity|]. split; [|lia].
      split; [lia|]. split; [rewrite aset_len; exact HLd|]. split; [|split; [|split; [|split]]].
      - intros k Hk Ho'. rewrite at_aset_other by lia. apply HF; lia.
      - intros k Hk. destruct (Z.eq_dec k (o + l)) as [->|].
        + rewrite at_aset_same by lia. destruct H1 as [_ H1]; [lia|]. rewrite H1. f_equal; lia.
        + rewrite at_aset_other by lia. apply HM. lia.
      - intros _. split.
        + destruct (Z.eq_dec l j) as [->|].
          * rewrite at_aset_same by lia. apply H2. reflexivity.
          * rewrite at_aset_other by lia. apply H1. lia.
        + rewrite HF by lia. f_equal; lia.
      - intros; lia.
      - intros v. rewrite cnt_aset by lia. rewrite HC. lia. }
    { split; [lia|]. split; [reflexivity|]. split; [auto|]. split; [intros; lia|]. split; [intros; lia|].
      split; [auto|]. intros; lia. }
    { unfold fuel. lia. }
    rewrite Ed. cbn [bind]. clear Ed. apply Z.ltb_ge in Hend. assert (l = i) by lia. subst l.
    rewrite wr_ok by lia. eexists. split; [reflexivity|].
    assert (Hfin : forall k, o <= k < o + n -> at_ (aset d (o + i) y) k =
              if k <? o + j then at_ b k else if k =? o + j then x else if k <=? o + i then at_ b (k - 1) else at_ b k).
    { intros k Hk. destruct (Z.ltb_spec k (o + j)).
      { rewrite at_aset_other by lia. apply HF; lia. }
      destruct (Z.eqb_spec k (o + j)) as [->|].
      { destruct (Z.eq_dec i j) as [->|].
        - rewrite at_aset_same by lia. apply H2. reflexivity.
        - rewrite at_aset_other by lia. apply H1. lia. }
      destruct (Z.leb_spec k (o + i)).
      { destruct (Z.eq_dec k (o + i)) as [->|].
        - rewrite at_aset_same by lia. destruct H1 as [_ H1]; [lia|]. exact H1.
        - rewrite at_aset_other by lia. apply HM. lia. }
      rewrite at_aset_other by lia. apply HF; lia. }
    split; [|split].
    + apply (shuffles_trans a b _ o n o n); try lia; [exact HS|]. split; [rewrite aset_len; exact HLd|]. split.
      * intros k Hk Hk'. rewrite at_aset_other by lia. apply HF; lia.
      * intros v. rewrite cnt_aset by lia. rewrite HC. rewrite HF by lia. rewrite <- Hxi. lia.
    + clear HF HM H1 H2 HC HLd HR. intros k k' Hk Hk'. rewrite !Hfin by lia. clear Hfin.
      assert (Hup : forall m, o + j <= m < o + i -> x <= at_ b m).
      { intros m Hm. apply Z.le_trans with (at_ b (o + j)); [exact Hge|]. apply HQ; lia. }
      assert (Hdn : forall m, o <= m < o + j -> at_ b m <= x).
      { intros m Hm. specialize (Hlt (m - o) ltac:(lia)). replace (o + (m - o)) with m in Hlt by lia. lia. }
      clear Hge Hlt Hxi HS Hn1. clearbody i.
      destruct (Z.ltb_spec k (o + j)), (Z.ltb_spec k' (o + j)); try lia.
      * apply HQ; lia.
      * destruct (Z.eqb_spec k' (o + j)); [apply Hdn; lia|]. replace (k' <=? o + i) with true by lia.
        apply Z.le_trans with x; [apply Hdn; lia|apply Hup; lia].
      * replace (k' <=? o + i) with true by lia. replace (k <=? o + i) with true by lia.
        destruct (Z.eqb_spec k (o + j)), (Z.eqb_spec k' (o + j)); try lia.
        -- apply Hup; lia.
        -- apply HQ; lia.
    + intros k Hk. rewrite Hfin by lia. replace (k <? o + j) with false by lia. replace (k =? o + j) with false by lia.
      replace (k <=? o + i) with false by lia. apply HR. lia.
  - unfold fuel. lia.
  - split; [apply shuffles_refl|]. split; [|auto]. intros k l H1 H2. replace l with k by lia. lia.
  - exists b. split; [exact E|]. split; [exact HS|]. replace (n - 1 + 1) with n in HQ by lia. exact HQ.
Qed.

(** ** Partition *)

Lemma scan_down_ok a o n x j s : 0 <= o -> 0 <= n < 4294967296 -> o + n <= zlen a ->
  0 <= s < j -> j <= n -> at_ a (o + s) <= x ->
  exists j', scan_down a o n x j = Ok j' /\ s <= j' < j /\ at_ a (o + j') <= x
    /\ (forall k, j' < k < j -> x <= at_ a (o + k)).
Proof.
  intros Ho Hn HL Hs Hj Hx. unfold scan_down.
  destruct (cwhile_rule (fun '(g, l) => s <= l <= j /\ (g = true -> s < l) /\ (g = false -> l < j /\ at_ a (o + l) <= x)
      /\ (forall k, l < k < j -> x <= at_ a (o + k)) /\ (g = true -> l < j -> x <= at_ a (o + l)))
      (fun '(_, l) => l - s) go
      (fun '(_, j) => let j := u32 (j - 1) in do v <- rd a (o + j); Ok (x <? v, j)))
    with (f := fuel n) (st := (true, j)) as ([g l] & E & (H1 & H2 & H3 & H4 & H5) & Hg).
  - intros [g l] (H1 & H2 & H3 & H4 & H5) Hg. cbn [go fst] in Hg. subst g. specialize (H2 eq_refl). specialize (H5 eq_refl).
    cbv zeta. rewrite u32_small by lia. rewrite rd_ok by lia. cbn [bind].
    eexists. split; [reflexivity|]. split; [|lia]. split; [lia|]. split; [|split; [|split]].
    + intros Hv. assert (l - 1 <> s); [|lia]. intros Es. rewrite Es in Hv. lia.
    + intros Hv. lia.
    + intros k Hk. destruct (Z.eq_dec k l) as [->|]; [apply H5; lia|apply H4; lia].
    + intros Hv _. lia.
  - split; [lia|]. split; [lia|]. split; [discriminate|]. split; intros; lia.
  - unfold fuel. lia.
  - cbv zeta in E |- *. rewrite E. cbn [bind]. exists l. split; [reflexivity|]. cbn [go fst] in Hg. destruct (H3 Hg). split; [lia|]. auto.
Qed.

Lemma scan_up_ok a o n x i s : 0 <= o -> 0 <= n < 4294967296 -> o + n <= zlen a ->
  0 <= i < s -> s < n -> x <= at_ a (o + s) ->
  exists i', scan_up a o n x i = Ok i' /\ i < i' <= s /\ x <= at_ a (o + i')
    /\ (forall k, i < k < i' -> at_ a (o + k) <= x).
Proof.
  intros Ho Hn HL Hs Hj Hx. unfold scan_up.
  destruct (cwhile_rule (fun '(g, l) => i <= l <= s /\ (g = true -> l < s) /\ (g = false -> i < l /\ x <= at_ a (o + l))
      /\ (forall k, i < k < l -> at_ a (o + k) <= x) /\ (g = true -> i < l -> at_ a (o + l) <= x))
      (fun '(_, l) => s - l) go
      (fun '(_, i) => let i := u32 (i + 1) in do v <- rd a (o + i); Ok (v <? x, i)))
    with (f := fuel n) (st := (true, i)) as ([g l] & E & (H1 & H2 & H3 & H4 & H5) & Hg).
  - intros [g l] (H1 & H2 & H3 & H4 & H5) Hg. cbn [go fst] in Hg. subst g. specialize (H2 eq_refl). specialize (H5 eq_refl).
    cbv zeta. rewrite u32_small by lia. rewrite rd_ok by lia. cbn [bind].
    eexists. split; [reflexivity|]. split; [|lia]. split; [lia|]. split; [|split; [|split]].
    + intros Hv. assert (l + 1 <> s); [|lia]. intros Es. rewrite Es in Hv. lia.
    + intros Hv. lia.
    + intros k Hk. destruct (Z.eq_dec k l) as [->|]; [apply H5; lia|apply H4; lia].
    + intros Hv _. lia.
  - split; [lia|]. split; [lia|]. split; [discriminate|]. split; intros; lia.
  - unfold fuel. lia.
  - cbv zeta in E |- *. rewrite E. cbn [bind]. exists l. split; [reflexivity|]. cbn [go fst] in Hg. destruct (H3 Hg). split; [lia|]. auto.
Qed.

Lemma scan_up_first_ok a o n x j : 0 <= o -> 0 <= n < 4294967296 -> o + n <= zlen a -> 0 <= j < n ->
  exists i', scan_up_first a o n x 0 j = Ok i' /\ 0 < i' <= j + 1 /\ (i' <= j -> x <= at_ a (o + i'))
    /\ (forall k, 0 < k < i' -> at_ a (o + k) <= x).
Proof.
  intros Ho Hn HL Hj. unfold scan_up_first.
  destruct (cwhile_rule (fun '(g, l) => 0 <= l <= j + 1 /\ (g = true -> l <= j)
      /\ (g = false -> 0 < l /\ (l <= j -> x <= at_ a (o + l)))
      /\ (forall k, 0 < k < l -> at_ a (o + k) <= x) /\ (g = true -> 0 < l -> at_ a (o + l) <= x))
      (fun '(_, l) => j + 1 - l) go
      (fun '(_, i) => let i := u32 (i + 1) in
         if i <=? j then do v <- rd a (o + i); Ok (v <? x, i) else Ok (false, i)))
    with (f := fuel n) (st := (true, 0)) as ([g l] & E & (H1 & H2 & H3 & H4 & H5) & Hg).
  - intros [g l] (H1 & H2 & H3 & H4 & H5) Hg. cbn [go fst] in Hg. subst g. specialize (H2 eq_refl). specialize (H5 eq_refl).
    cbv zeta. rewrite u32_small by lia. destruct (Z.leb_spec (l + 1) j).
    + rewrite rd_ok by lia. cbn [bind].
      eexists. split; [reflexivity|]. split; [|lia]. split; [lia|]. split; [|split; [|split]].
      * intros Hv. lia.
      * intros Hv. split; [lia|]. intros _. lia.
      * intros k Hk. destruct (Z.eq_dec k l) as [->|]; [apply H5; lia|apply H4; lia].
      * intros Hv _. lia.
    + eexists. split; [reflexivity|]. split; [|lia]. split; [lia|]. split; [discriminate|]. split; [intros; lia|]. split.
      * intros k Hk. destruct (Z.eq_dec k l) as [->|]; [apply H5; lia|apply H4; lia].
      * discriminate.
  - split; [lia|]. split; [lia|]. split; [discriminate|]. split; intros; lia.
  - unfold fuel. lia.
  - cbv zeta in E |- *. rewrite E. cbn [bind]. exists l. split; [reflexivity|]. cbn [go fst] in Hg. destruct (H3 Hg). split; [lia|]. auto.
Qed.

Lemma partition_ok a o n : 0 <= o -> 2 <= n < 4294967296 -> o + n <= zlen a ->
  exists b j, partition a o n = Ok (b, j) /\ 0 <= j < n /\ shuffles a b o n
    /\ (forall k, o <= k < o + j -> at_ b k <= at_ b (o + j))
    /\ (forall k, o + j < k < o + n -> at_ b (o + j) <= at_ b k).
Proof.
  intros Ho Hn HL. unfold partition. cbv zeta.
  assert (Hm : 0 <= n / 2 < n) by (split; [apply Z.div_pos; lia|apply Z.div_lt; lia]).
  set (m := n / 2) in *. clearbody m.
  rewrite (rd_ok a (o + m)) by lia. cbn [bind]. rewrite (rd_ok a o) by lia. cbn [bind].
  rewrite wr_ok by lia. cbn [bind]. rewrite wr_ok by (rewrite aset_len; lia). cbn [bind].
  set (x := at_ a (o + m)). set (a0 := aset (aset a (o + m) (at_ a o)) o x).
  assert (HS0 : shuffles a a0 o n) by (apply shuffles_swap; lia).
  assert (HL0 : zlen a0 = zlen a) by apply HS0.
  assert (H0x : at_ a0 o = x) by (unfold a0; apply at_aset_same; rewrite aset_len; lia).
  clearbody a0 x. clear Hm m.
  destruct (scan_down_ok a0 o n x n 0) as (j & Ej & Hj & Hjx & Hjs); try lia; [rewrite Z.add_0_r; lia|].
  rewrite Ej. cbn [bind]. clear Ej.
  destruct (scan_up_first_ok a0 o n x j) as (i & Ei & Hi & Hix & His); try lia.
  rewrite Ei. cbn [bind]. clear Ei.
  destruct (cwhile_rule (fun '(d, i, j) => shuffles a d o n /\ at_ d o = x /\ 1 <= i <= n /\ 0 <= j < n
        /\ (forall k, 0 < k < i -> at_ d (o + k) <= x) /\ (forall k, j < k < n -> x <= at_ d (o + k))
        /\ at_ d (o + j) <= x /\ (i < j -> x <= at_ d (o + i)))
      (fun '(_, i, j) => j - i) (fun '(_, i, j) => i <? j)
      (fun '(a, i, j) =>
        do y <- rd a (o + i);
        do v <- rd a (o + j);
        do a <- wr a (o + i) v;
        do a <- wr a (o + j) y;
        do j <- scan_down a o n x j;
        do i <- scan_up a o n x i;
        Ok (a, i, j)))
    with (f := fuel n) (st := (a0, i, j)) as ([[d i'] j'] & E & (HS & Hd0 & Hi' & Hj' & Hlo & Hhi & Hjl & Hih) & Hend).
  - clear - Ho Hn HL. intros [[d i] j] (HS & Hd0 & Hi & Hj & Hlo & Hhi & Hjl & Hih) Hlt. apply Z.ltb_lt in Hlt.
    specialize (Hih Hlt). assert (HLd : zlen d = zlen a) by apply HS.
    rewrite rd_ok by lia. cbn [bind]. rewrite rd_ok by lia. cbn [bind]. rewrite wr_ok by lia. cbn [bind].
    rewrite wr_ok by (rewrite aset_len; lia). cbn [bind].
    assert (Hsw := shuffles_swap d o n (o + i) (o + j) ltac:(lia) ltac:(lia) Ho ltac:(lia)).
    set (e := aset (aset d (o + i) (at_ d (o + j))) (o + j) (at_ d (o + i))) in *.
    assert (HLe : zlen e = zlen a) by (destruct Hsw as [Hsw _]; lia).
    assert (Hei : at_ e (o + i) = at_ d (o + j)).
    { unfold e. rewrite at_aset_other by (rewrite ?aset_len; lia). apply at_aset_same. lia. }
    assert (Hej : at_ e (o + j) = at_ d (o + i)) by (apply at_aset_same; rewrite aset_len; lia).
    assert (Heo : forall k, 0 <= k -> k <> i -> k <> j -> at_ e (o + k) = at_ d (o + k)).
    { intros k H0 H1 H2. unfold e. rewrite !at_aset_other by (rewrite ?aset_len; lia). reflexivity. }
    clearbody e.
    destruct (scan_down_ok e o n x j i) as (j' & Ej & Hj' & Hjx & Hjs); try lia.
    rewrite Ej. cbn [bind]. clear Ej.
    destruct (scan_up_ok e o n x i j) as (i' & Ei & Hi' & Hix & His); try lia.
    rewrite Ei. cbn [bind]. clear Ei.
    eexists. split; [reflexivity|]. split; [|lia].
    split; [apply (shuffles_trans a d _ o n o n); try lia; assumption|].
    split. { specialize (Heo 0 ltac:(lia) ltac:(lia) ltac:(lia)). rewrite Z.add_0_r in Heo. lia. }
    split; [lia|]. split; [lia|]. split; [|split; [|split; [exact Hjx|intros _; exact Hix]]].
    + intros k Hk. destruct (Z.compare_spec k i) as [->|C|C].
      * lia.
      * rewrite Heo by lia. apply Hlo. lia.
      * apply His. lia.
    + intros k Hk. destruct (Z.compare_spec k j) as [->|C|C].
      * lia.
      * apply Hjs. lia.
      * rewrite Heo by lia. apply Hhi. lia.
  - split; [exact HS0|]. split; [exact H0x|]. split; [lia|]. split; [lia|]. split; [exact His|]. split; [exact Hjs|].
    split; [exact Hjx|]. intros; apply Hix; lia.
  - unfold fuel. lia.
  - rewrite E. cbn [bind]. apply Z.ltb_ge in Hend. assert (HLd : zlen d = zlen a) by apply HS.
    rewrite rd_ok by lia. cbn [bind]. rewrite wr_ok by lia. cbn [bind]. rewrite wr_ok by (rewrite aset_len; lia). cbn [bind].
    eexists. exists j'. split; [reflexivity|]. split; [lia|].
    assert (Hsw : shuffles d (aset (aset d o (at_ d (o + j'))) (o + j') x) o n).
    { rewrite <- Hd0. apply shuffles_swap; lia. }
    split; [apply (shuffles_trans a d _ o n o n); try lia; assumption|].
    rewrite (at_aset_same _ (o + j')) by (rewrite aset_len; lia). split.
    + intros k Hk. rewrite at_aset_other by (rewrite ?aset_len; lia).
      destruct (Z.eq_dec k o) as [->|].
      * rewrite at_aset_same by lia. exact Hjl.
      * rewrite at_aset_other by lia. replace k with (o + (k - o)) by lia. apply Hlo. lia.
    + intros k Hk. rewrite at_aset_other by (rewrite ?aset_len; lia). rewrite at_aset_other by lia.
      replace k with (o + (k - o)) by lia. apply Hhi. lia.
Qed.

(** ** The whole sort *)

Lemma sort_array_ok f a o n : 0 <= o -> 0 <= n < 4294967296 -> o + n <= zlen a -> (Z.to_nat n < f)%nat ->
  exists b, sort_array f a o n = Ok b /\ shuffles a b o n /\ sorted_seg b o n.
Proof.
  revert a o n. induction f as [|f IH]; intros a o n Ho Hn HL Hf; [lia|].
  cbn [sort_array]. destruct (Z.ltb_spec n 10); [apply isort_ok; assumption|].
  destruct (partition_ok a o n) as (b & j & E & Hj & HS & H1 & H2); try lia.
  rewrite E. cbn [bind]. assert (HLb : zlen b = zlen a) by apply HS.
  destruct (IH b o j) as (c & Ec & HSc & HQc); try lia.
  rewrite Ec. cbn [bind]. cbv zeta. assert (HLc : zlen c = zlen b) by apply HSc.
  rewrite !u32_small by lia.
  destruct (IH c (o + (j + 1)) (n - (j + 1))) as (d & Ed & HSd & HQd); try lia.
  exists d. split; [exact Ed|]. assert (HLd : zlen d = zlen c) by apply HSd.
  split.
  - apply (shuffles_trans a b _ o n o n); try lia; [exact HS|].
    apply (shuffles_trans b c _ o j (o + (j + 1)) (n - (j + 1))); try lia; assumption.
  - set (x := at_ b (o + j)) in *.
    assert (Hx : at_ d (o + j) = x).
    { destruct HSd as (_ & F & _). rewrite F by lia. destruct HSc as (_ & F' & _). apply F'; lia. }
    assert (Hlo : forall k, o <= k < o + j -> at_ d k = at_ c k).
    { intros k Hk. destruct HSd as (_ & F & _). apply F; lia. }
    assert (Hlox : forall k, o <= k < o + j -> at_ d k <= x).
    { intros k Hk. rewrite Hlo by lia. apply (shuffles_keep b c o j (fun v => v <= x)); try lia; assumption. }
    assert (Hhix : forall k, o + j < k < o + n -> x <= at_ d k).
    { intros k Hk. apply (shuffles_keep c d (o + (j + 1)) (n - (j + 1)) (fun v => x <= v)); try lia; [assumption|].
      intros k' Hk'. destruct HSc as (_ & F & _). rewrite F by lia. apply H2. lia. }
    clear - Hx Hlo Hlox Hhix HQc HQd Hj. intros k l Hk Hl.
    destruct (Z_lt_le_dec l (o + j)) as [Cl|Cl].
    { rewrite !Hlo by lia. apply HQc; lia. }
    destruct (Z_lt_le_dec (o + j) k) as [Ck|Ck]; [apply HQd; lia|].
    apply Z.le_trans with x.
    + destruct (Z.eq_dec k (o + j)) as [->|]; [lia|apply Hlox; lia].
    + destruct (Z.eq_dec l (o + j)) as [->|]; [lia|apply Hhix; lia].
Qed.
