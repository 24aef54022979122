(** The array routines of the assembly: what they compute, and that it is what the C
    routines compute. *)

From Coq Require Import ZArith List Bool Lia.
From Verif Require Import CSem Spec Loops RedElem HeapElem IntervalLoops AvxSem ModelAvx AvxElem ModelRed.
Import ListNotations.
Open Scope Z_scope.

(** ** Loops that rewrite an array chunk by chunk *)

(** the first [c] chunks have been rewritten *)
Definition after (M : Z) (G : Z -> Z) (a : list Z) (c : Z) (b : list Z) : Prop :=
  zlen b = zlen a /\ forall j, 0 <= j < zlen a -> at_ b j = if j <? M * c then G j else at_ a j.

Lemma after_rest M G a c b j : after M G a c b -> 0 <= j -> M * c <= j < zlen a -> at_ b j = at_ a j.
Proof.
  intros (_ & H) Hc Hj. rewrite H by lia. destruct (Z.ltb_spec j (M * c)); [lia|reflexivity].
Qed.

Lemma after_step M G a c b b' : 0 < M -> after M G a c b -> 0 <= c -> zlen b' = zlen b ->
  (forall j, 0 <= j < zlen b -> at_ b' j = if inw (M * c) M j then G j else at_ b j) ->
  after M G a (c + 1) b'.
Proof.
  intros HM (H1 & H2) Hc H3 H4. split; [lia|]. intros j Hj. rewrite H4 by lia. rewrite H2 by lia.
  replace (M * (c + 1)) with (M * c + M) by ring.
  destruct (inw_spec (M * c) M j), (Z.ltb_spec j (M * c + M)), (Z.ltb_spec j (M * c)); lia || reflexivity.
Qed.

Section Chunk.
Variables (S : Type) (arr : S -> list Z) (P : Z -> S -> Prop) (M C : Z) (G : Z -> Z) (a : list Z).
Hypothesis HM : 0 < M.
Hypothesis HC : 1 <= C.
Local Notation after := (after M G a).

Lemma chunk_loop (body : S -> res S) (cond : S -> bool) f st :
  (forall c st, 0 <= c < C -> P c st -> after c (arr st) ->
     exists st', body st = Ok st' /\ P (c + 1) st' /\ cond st' = (c + 1 <? C)
       /\ zlen (arr st') = zlen (arr st)
       /\ forall j, 0 <= j < zlen (arr st) ->
            at_ (arr st') j = if inw (M * c) M j then G j else at_ (arr st) j) ->
  C <= Z.of_nat f -> P 0 st -> arr st = a ->
  exists st', cdowhile f body cond st = Ok st' /\ P C st' /\ zlen (arr st') = zlen a
    /\ forall j, 0 <= j < zlen a -> at_ (arr st') j = if j <? M * C then G j else at_ a j.
Proof.
  intros Hb Hf HP Ha.
  destruct (cdowhile_count (fun c st => P c st /\ after c (arr st)) C body cond f st) as (st' & E & H1 & H2); try assumption.
  - intros c s Hc (H1 & H2). destruct (Hb c s Hc H1 H2) as (s' & E & H3 & H4 & H5 & H6).
    exists s'. repeat split; try assumption.
    + rewrite H5. apply H2.
    + apply (after_step M G a c (arr s)); try assumption; lia.
  - split; [assumption|]. rewrite Ha. split; [reflexivity|]. intros j Hj.
    destruct (Z.ltb_spec j (M * 0)); [lia|reflexivity].
  - exists st'. destruct H2. auto.
Qed.
End Chunk.

(** two stores of eight make a chunk of sixteen *)
Lemma two_stores (G : Z -> Z) (b b1 b2 : list Z) i :
  zlen b1 = zlen b -> zlen b2 = zlen b1 ->
  (forall j, 0 <= j < zlen b -> at_ b1 j = if inw i 8 j then G j else at_ b j) ->
  (forall j, 0 <= j < zlen b1 -> at_ b2 j = if inw (i + 8) 8 j then G j else at_ b1 j) ->
  zlen b2 = zlen b /\ forall j, 0 <= j < zlen b -> at_ b2 j = if inw i 16 j then G j else at_ b j.
Proof.
  intros L1 L2 H1 H2. split; [lia|]. intros j Hj. rewrite H2, H1 by lia.
  destruct (inw_spec (i + 8) 8 j), (inw_spec i 8 j), (inw_spec i 16 j); lia || reflexivity.
Qed.

(** ** The C loops, for runs that return *)

Lemma rd_inv a i v : rd a i = Ok v -> 0 <= i < zlen a /\ v = at_ a i.
Proof.
  intros H. assert (D : 0 <= i < zlen a \/ ~ 0 <= i < zlen a) by lia.
  destruct D as [D|D].
  - rewrite rd_ok in H by assumption. inversion H. auto.
  - rewrite rd_oob in H by assumption. discriminate.
Qed.

Lemma map_pc (f : Z -> Z -> res Z) (body : Z -> list Z -> res (list Z)) a n :
  0 <= n < 4294967296 ->
  (forall i b r, body i b = Ok r ->
     exists v, 0 <= i < zlen b /\ f i (at_ b i) = Ok v /\ r = aset b i v) ->
  pc (cfor (fuel n) 0 (fun i => i <? n) (fun i => u32 (i + 1)) body a) (fun r =>
    n <= zlen a /\ zlen r = zlen a
    /\ (forall i, 0 <= i < n -> f i (at_ a i) = Ok (at_ r i))
    /\ (forall i, n <= i < zlen a -> at_ r i = at_ a i)).
Proof.
  intros Hn Hb.
  apply (cfor_pc (fun c b => c <= zlen a /\ zlen b = zlen a
    /\ (forall i, 0 <= i < c -> f i (at_ a i) = Ok (at_ b i))
    /\ (forall i, c <= i < zlen a -> at_ b i = at_ a i)) n (fun c => c)); try lia.
  - intros. apply u32_small. lia.
  - intros c b Hc (Hl & HL & H1 & H2) r E.
    destruct (Hb c b r E) as (v & Hi & Ef & ->). rewrite aset_len.
    split; [lia|]. split; [assumption|]. split.
    + intros i Hi'. destruct (Z.eq_dec i c) as [->|].
      * rewrite at_aset_same by assumption. rewrite <- (H2 c) by lia. exact Ef.
      * rewrite at_aset_other by lia. apply H1. lia.
    + intros i Hi'. rewrite at_aset_other by lia. apply H2. lia.
  - assert (0 <= zlen a) by (unfold zlen; lia). repeat split; try lia.
Qed.

Lemma bind_inv {A B} (m : res A) (f : A -> res B) r :
  bind m f = Ok r -> exists x, m = Ok x /\ f x = Ok r.
Proof. destruct m; [|discriminate]. intros H. exists a. auto. Qed.

(** take a run of [do]s apart *)
Ltac inv_do H :=
  repeat (apply bind_inv in H; let x := fresh "x" in let E := fresh "E" in destruct H as (x & E & H)).

Lemma wr_inv a i v r : wr a i v = Ok r -> 0 <= i < zlen a -> r = aset a i v.
Proof. intros H Hi. rewrite wr_ok in H by assumption. now inversion H. Qed.

Ltac map_body :=
  let i := fresh "i" in let b := fresh "b" in let r := fresh "r" in let H := fresh "H" in
  intros i b r H; inv_do H;
  match goal with E : rd b i = Ok ?x |- _ => apply rd_inv in E; destruct E as (? & ->) end;
  match type of H with wr _ _ ?v = _ => exists v end;
  split; [assumption|]; split; [|now apply wr_inv];
  repeat match goal with E : _ = Ok ?v |- _ => rewrite E; clear E; cbn [bind] end; try reflexivity.

(** ** Single elements *)

Definition w32 (x : Z) : Prop := -2147483648 <= x <= 2147483647.

Lemma redv_eq x : w32 x -> redv x = redz x.
Proof.
  intros H. unfold redv, w32 in *. rewrite land4095, shiftr12, Z.shiftl_mul_pow2 by lia. change (2 ^ 1) with 2.
  rewrite subW_l. replace (x mod 4096 + to_i32 (x mod 4096 * 2) - x / 4096)
    with (x mod 4096 - x / 4096 + to_i32 (x mod 4096 * 2)) by ring.
  rewrite addW_r. replace (x mod 4096 - x / 4096 + x mod 4096 * 2) with (redz x) by (unfold redz; ring).
  apply to_i32_small. assert (B := redz_i32 x H). change (2 ^ 31) with 2147483648. lia.
Qed.

Definition corrv (x : Z) : Z :=
  to_i32 (to_i32 (x + Z.land (Z.shiftr x 31) 12289) - Z.land (if x >? 12288 then -1 else 0) 12289).
Lemma corrv_eq x : -65536 <= x <= 65535 ->
  corrv x = if x <? 0 then x + 12289 else if 12289 <=? x then x - 12289 else x.
Proof.
  intros H. unfold corrv.
  assert (E : Z.land (Z.shiftr x 31) 12289 = if x <? 0 then 12289 else 0).
  { rewrite Z.shiftr_div_pow2 by lia. change (2 ^ 31) with 2147483648.
    destruct (Z.ltb_spec x 0).
    - replace (x / 2147483648) with (-1) by lia. reflexivity.
    - replace (x / 2147483648) with 0 by lia. reflexivity. }
  rewrite E. rewrite Z.gtb_ltb.
  destruct (Z.ltb_spec x 0), (Z.ltb_spec 12288 x), (Z.leb_spec 12289 x); try lia.
  - change (Z.land 0 12289) with 0. rewrite subW_l, Z.sub_0_r. apply to_i32_small. lia.
  - change (Z.land (-1) 12289) with 12289. rewrite subW_l, Z.add_0_r. apply to_i32_small. lia.
  - change (Z.land 0 12289) with 0. rewrite subW_l, Z.add_0_r, Z.sub_0_r. apply to_i32_small. lia.
Qed.

Definition shiftv (x : Z) : Z := to_i32 (x - Z.land (if x >? 6144 then -1 else 0) 12289).
Lemma shiftv_eq x : w32 x -> shiftv x = if 6144 <? x then x - 12289 else x.
Proof.
  unfold w32, shiftv. intros H. rewrite Z.gtb_ltb. destruct (Z.ltb_spec 6144 x).
  - change (Z.land (-1) 12289) with 12289. apply to_i32_small. lia.
  - change (Z.land 0 12289) with 0. rewrite Z.sub_0_r. apply to_i32_small. lia.
Qed.

(** ** What the assembly loops compute, for every input *)

Definition mult16 (n : Z) : Prop := 0 < n < 4294967296 /\ n mod 16 = 0.

(** elementwise result *)
Definition eltw (G : Z -> Z) (a : list Z) (n : Z) (r : list Z) : Prop :=
  zlen r = zlen a /\ forall j, 0 <= j < zlen a -> at_ r j = if j <? n then G j else at_ a j.

Lemma mult16_8 n : mult16 n -> n = 8 * (n / 8) /\ 1 <= n / 8.
Proof. unfold mult16. lia. Qed.
Lemma mult16_16 n : mult16 n -> n = 16 * (n / 16) /\ 1 <= n / 16.
Proof. unfold mult16. lia. Qed.
Lemma mult16_4 n : mult16 n -> n = 4 * (n / 4) /\ 1 <= n / 4.
Proof. unfold mult16. lia. Qed.

Ltac vld b i := rewrite (ld8_ok b _ i) by lia.
Ltac vst G i b' :=
  match goal with |- context [st8 ?l ?o ?x] =>
    let E := fresh "E" in let L := fresh "L" in let H := fresh "Hst" in
    destruct (st8_G G l o i x) as (b' & E & L & H); [lia|lia|lia| |rewrite E] end.

(** replace the current array by the original one in the lanes *)
Ltac orig := match goal with Ho : forall j, _ * _ <= j < _ -> at_ ?b j = at_ ?a j |- _ => repeat rewrite Ho by lia end.

Ltac rest M :=
  match goal with Haft : after M ?G ?a ?c ?b |- _ =>
    assert (Lb : zlen b = zlen a) by apply Haft;
    assert (Ho : forall j, M * c <= j < zlen a -> at_ b j = at_ a j)
      by (intros; apply (after_rest M G a c); assumption || lia) end.

Ltac loop16 G :=
  let r := fresh "r" in let p := fresh "p" in let E := fresh "E" in let L := fresh "L" in let H := fresh "H" in
  match goal with |- context [cdowhile ?f ?body ?cond (?a, ?z)] =>
    match goal with HC : 1 <= ?C, En : _ = 16 * ?C |- _ =>
    destruct (chunk_loop _ fst (fun c s => snd s = 64 * c) 16 C G a ltac:(lia) HC body cond f (a, z))
      as ((r & p) & E & _ & L & H);
    [ let b1 := fresh "b" in let b2 := fresh "b" in let c := fresh "c" in let b := fresh "b" in let rax := fresh "rax" in
      intros c (b & rax) Hc Hp Haft; cbn [fst snd] in *; subst rax; rest 16;
      vld b (16 * c); vld b (16 * c + 8); vfold; vexec;
      vst G (16 * c) b1; [orig; reflexivity|];
      vst G (16 * c + 8) b2; [orig; reflexivity|];
      eexists; split; [reflexivity|]; cbn [fst snd]; split; [lia|]; split; [lia|];
      now apply (two_stores G b b1 b2)
    | apply fuel_ge; lia | reflexivity | reflexivity
    | rewrite E; cbn [bind]; exists r; split; [reflexivity|]; split; [assumption|]; rewrite En; exact H ] end end.

Ltac loop8 G tac :=
  let r := fresh "r" in let p := fresh "p" in let E := fresh "E" in let L := fresh "L" in let H := fresh "H" in
  match goal with |- context [cdowhile ?f ?body ?cond (?a, ?z)] =>
    match goal with HC : 1 <= ?C, En : _ = 8 * ?C |- _ =>
    destruct (chunk_loop _ fst (fun c s => snd s = 32 * c) 8 C G a ltac:(lia) HC body cond f (a, z))
      as ((r & p) & E & _ & L & H);
    [ let b1 := fresh "b" in let b2 := fresh "b" in let c := fresh "c" in let b := fresh "b" in let rax := fresh "rax" in
      intros c (b & rax) Hc Hp Haft; cbn [fst snd] in *; subst rax; rest 8;
      vld b (8 * c); vfold; vexec;
      vst G (8 * c) b1; [orig; tac|];
      eexists; split; [reflexivity|]; cbn [fst snd]; split; [lia|]; split; [lia|]; auto
    | apply fuel_ge; lia | reflexivity | reflexivity
    | rewrite E; cbn [bind]; exists r; split; [reflexivity|]; split; [assumption|]; rewrite En; exact H ] end end.

Ltac prep L := let HC := fresh "HC" in
  match goal with Hn : mult16 ?n |- _ => destruct (L n Hn) as (En & HC);
    match type of HC with 1 <= ?x => let C := fresh "C" in set (C := x) in *; clearbody C end;
    unfold mult16 in Hn end.

Lemma reduce_array_asm_spec a n : mult16 n -> n <= zlen a ->
  exists r, reduce_array_asm a n = Ok r /\ eltw (fun j => redv (at_ a j)) a n r.
Proof.
  intros Hn HL. prep mult16_16. unfold reduce_array_asm. cbv zeta. loop16 (fun j => redv (at_ a j)).
Qed.

Lemma reduce_array_asm2_spec a n : mult16 n -> n <= zlen a ->
  exists r, reduce_array_asm2 a n = Ok r /\ eltw (fun j => redv (at_ a j)) a n r.
Proof.
  intros Hn HL. prep mult16_8. unfold reduce_array_asm2. cbv zeta. loop8 (fun j => redv (at_ a j)) reflexivity.
Qed.

Lemma reduce_array_twice_asm_spec a n : mult16 n -> n <= zlen a ->
  exists r, reduce_array_twice_asm a n = Ok r /\ eltw (fun j => redv (redv (at_ a j))) a n r.
Proof.
  intros Hn HL. prep mult16_16. unfold reduce_array_twice_asm. cbv zeta. loop16 (fun j => redv (redv (at_ a j))).
Qed.

Lemma reduce_array_twice_asm2_spec a n : mult16 n -> n <= zlen a ->
  exists r, reduce_array_twice_asm2 a n = Ok r /\ eltw (fun j => redv (redv (at_ a j))) a n r.
Proof.
  intros Hn HL. prep mult16_8. unfold reduce_array_twice_asm2. cbv zeta. loop8 (fun j => redv (redv (at_ a j))) reflexivity.
Qed.

Lemma correct_asm_spec a n : mult16 n -> n <= zlen a ->
  exists r, correct_asm a n = Ok r /\ eltw (fun j => corrv (at_ a j)) a n r.
Proof.
  intros Hn HL. prep mult16_16. unfold correct_asm. cbv zeta. loop16 (fun j => corrv (at_ a j)).
Qed.

Lemma shift_array_asm_spec a n : mult16 n -> n <= zlen a ->
  exists r, shift_array_asm a n = Ok r /\ eltw (fun j => shiftv (at_ a j)) a n r.
Proof.
  intros Hn HL. prep mult16_16. unfold shift_array_asm. cbv zeta. loop16 (fun j => shiftv (at_ a j)).
Qed.

Lemma scalar_mul_reduce_array_asm_spec a n c : mult16 n -> n <= zlen a -> w32 c ->
  exists r, scalar_mul_reduce_array_asm a n c = Ok r
    /\ eltw (fun j => to_i32 (redz (at_ a j * c))) a n r.
Proof.
  intros Hn HL Hw. prep mult16_8. unfold scalar_mul_reduce_array_asm. cbv zeta. unfold vmovd, vpbroadcastd.
  rewrite (to_i32_small c) by (unfold w32 in Hw; lia).
  loop8 (fun j => to_i32 (redz (at_ a j * c))) ltac:(rewrite !mr_eq; reflexivity).
Qed.

Lemma mul_reduce_array16_asm_spec a n p : mult16 n -> n <= zlen a -> n <= zlen p ->
  exists r, mul_reduce_array16_asm a n p = Ok r
    /\ eltw (fun j => to_i32 (redz (at_ a j * at_ p j))) a n r.
Proof.
  intros Hn HL HP. prep mult16_8. unfold mul_reduce_array16_asm. cbv zeta.
  set (G := fun j => to_i32 (redz (at_ a j * at_ p j))).
  match goal with |- context [cdowhile ?f ?body ?cond ?st] =>
    destruct (chunk_loop _ (fun s => fst (fst s)) (fun c s => snd (fst s) = 32 * c /\ snd s = 16 * c)
      8 C G a ltac:(lia) HC body cond f st) as (((r & rx) & ry) & E & _ & L & H) end.
  - intros c ((b & rax) & rdx) Hc (Hp1 & Hp2) Haft; cbn [fst snd] in *; subst rax rdx. rest 8.
    vld b (8 * c). rewrite (vpmovsxwd_ok p _ (8 * c)) by lia. vfold. vexec.
    vst G (8 * c) b1. { orig. rewrite !mr_eq. reflexivity. }
    eexists; split; [reflexivity|]; cbn [fst snd]; split; [lia|]; split; [lia|]; auto.
  - apply fuel_ge; lia.
  - split; reflexivity.
  - reflexivity.
  - rewrite E; cbn [bind]; exists r; split; [reflexivity|]; split; [assumption|]; rewrite En; exact H.
Qed.

Lemma mul_reduce_array16_asm2_spec a n p : mult16 n -> n <= zlen a -> n <= zlen p ->
  (forall i, 0 <= i < n -> w32 (at_ a i) /\ -32768 <= at_ p i <= 32767) ->
  exists r, mul_reduce_array16_asm2 a n p = Ok r
    /\ eltw (fun j => to_i32 (redz (at_ a j * at_ p j))) a n r.
Proof.
  intros Hn HL HP Hw. prep mult16_4. unfold mul_reduce_array16_asm2. cbv zeta.
  set (G := fun j => to_i32 (redz (at_ a j * at_ p j))).
  match goal with |- context [cdowhile ?f ?body ?cond ?st] =>
    destruct (chunk_loop _ (fun s => fst (fst s)) (fun c s => snd (fst s) = 16 * c /\ snd s = 8 * c)
      4 C G a ltac:(lia) HC body cond f st) as (((r & rx) & ry) & E & _ & L & H) end.
  - intros c ((b & rax) & rdx) Hc (Hp1 & Hp2) Haft; cbn [fst snd] in *; subst rax rdx. rest 4.
    assert (Ha : forall i, 4 * c <= i < 4 * c + 4 -> lo64 (at_ b i) = at_ a i).
    { intros i Hi. rewrite Ho by lia. apply to_i32_small. assert (W := Hw i ltac:(lia)). unfold w32 in W. lia. }
    assert (Hp : forall i, 4 * c <= i < 4 * c + 4 -> lo64 (at_ p i) = at_ p i).
    { intros i Hi. apply lo16. apply Hw. lia. }
    rewrite (vpmovsxdq_ok b _ (4 * c)), (vpmovsxwq_ok p _ (4 * c)) by lia.
    rewrite !Ha, !Hp by lia. vfold. vexec.
    match goal with |- context [st4 ?l ?o ?x] =>
      destruct (st4_G G l o (4 * c) x) as (b' & E & L & H) end; try lia.
    1-4: cbn [lane]; unfold lo64, G; rewrite (Z.land_comm 4095), (Z.mul_comm (at_ p _)); apply mr2_eq.
    rewrite E.
    eexists; split; [reflexivity|]; cbn [fst snd]; split; [lia|]; split; [lia|]; auto.
  - apply fuel_ge; lia.
  - split; reflexivity.
  - reflexivity.
  - rewrite E; cbn [bind]; exists r; split; [reflexivity|]; split; [assumption|]; rewrite En; exact H.
Qed.

(** ** The same as the C routines *)

Lemma eltw_eq G a n r s : eltw G a n r -> n <= zlen a -> zlen s = zlen a ->
  (forall i, 0 <= i < n -> at_ s i = G i) -> (forall i, n <= i < zlen a -> at_ s i = at_ a i) -> r = s.
Proof.
  intros (L & H) Hn L2 H1 H2. apply list_ext; [lia|]. intros i Hi. rewrite H by lia.
  destruct (Z.ltb_spec i n); [rewrite H1 by lia|rewrite H2 by lia]; reflexivity.
Qed.

Lemma red_inv x v : w32 x -> red x = Ok v -> v = redv x.
Proof. intros Hx E. rewrite red_ok in E by assumption. inversion E. now rewrite redv_eq. Qed.

Lemma mul_red_inv x y v : mul_red x y = Ok v -> v = to_i32 (redz (x * y)) /\ v = redz (x * y) /\ w32 v.
Proof.
  unfold mul_red. intros H. inv_do H. unfold cassert in *.
  unfold mul64, i64 in E. destruct (in_i64 (x * y)); [|discriminate]. inversion E; subst x0. clear E.
  match type of E0 with (if ?c then _ else _) = _ => destruct c eqn:Ec; [|discriminate] end.
  rewrite land4095, shiftr12 in *. unfold mul32, sub32 in *. apply i32_inv in E1. destruct E1 as (-> & E1).
  apply i32_inv in H. destruct H as (-> & H).
  assert (Hr : -2147483648 <= x * y / 4096 <= 2147483648) by lia.
  rewrite (to_i32_small (x * y mod 4096)) in * by lia.
  assert (D : x * y / 4096 = 2147483648 \/ x * y / 4096 <= 2147483647) by lia.
  destruct D as [D|D].
  - rewrite D in H. change (to_i32 2147483648) with (-2147483648) in H. lia.
  - rewrite (to_i32_small (x * y / 4096)) in * by lia. fold (redz (x * y)) in *.
    repeat split; try lia. symmetry. apply to_i32_small. change (2 ^ 31) with 2147483648. unfold redz. lia.
Qed.

(** the C loop of a routine, as [map_pc] with element function [f] *)
Ltac c_loop f :=
  match goal with Hn : mult16 ?n, E : ?m = Ok ?r |- _ =>
    let HC := fresh "HC" in
    match eval red in m with cfor _ _ _ _ ?body ?a =>
      assert (HC := map_pc f body a n ltac:(unfold mult16 in Hn; lia) ltac:(map_body) r E);
      let HL := fresh "HL" in let L := fresh "L" in let H1 := fresh "H1" in let H2 := fresh "H2" in
      destruct HC as (HL & L & H1 & H2)
    end end.

Ltac same_as spec :=
  let s := fresh "s" in let E := fresh "E" in let H := fresh "H" in
  destruct spec as (s & E & H); try assumption; [..|rewrite E; f_equal; apply (eltw_eq _ _ _ _ _ H)]; try assumption.

Lemma reduce_array_same a n r : mult16 n -> all_in (-2147483648) 2147483647 a ->
  reduce_array a n = Ok r -> reduce_array_asm a n = Ok r /\ reduce_array_asm2 a n = Ok r.
Proof.
  intros Hn Ha E. c_loop (fun (_ : Z) x => red x).
  assert (K : forall i, 0 <= i < n -> at_ r i = redv (at_ a i))
    by (intros i Hi; apply red_inv; [apply all_in_at; [assumption|lia]|auto]).
  split; [same_as (reduce_array_asm_spec a n)|same_as (reduce_array_asm2_spec a n)].
Qed.

Lemma reduce_array_twice_same a n r : mult16 n -> all_in (-2147483648) 2147483647 a ->
  reduce_array_twice a n = Ok r -> reduce_array_twice_asm a n = Ok r /\ reduce_array_twice_asm2 a n = Ok r.
Proof.
  intros Hn Ha E. c_loop (fun (_ : Z) x => do v <- red x; red v).
  assert (K : forall i, 0 <= i < n -> at_ r i = redv (redv (at_ a i))).
  { intros i Hi. assert (H := H1 i Hi). cbv beta in H.
    apply bind_inv in H. destruct H as (x & E0 & H).
    apply red_inv in E0; [|apply all_in_at; [assumption|lia]]. subst x.
    apply red_inv in H; [assumption|]. rewrite redv_eq by (apply all_in_at; [assumption|lia]).
    assert (W := redz_i32 (at_ a i) ltac:(apply all_in_at; [assumption|lia])). unfold w32. lia. }
  split; [same_as (reduce_array_twice_asm_spec a n)|same_as (reduce_array_twice_asm2_spec a n)].
Qed.

Lemma correct_same a n r : mult16 n -> (forall i, 0 <= i < n -> -65536 <= at_ a i <= 65535) ->
  correct a n = Ok r -> correct_asm a n = Ok r.
Proof.
  intros Hn Ha E. c_loop (fun (_ : Z) x => do x <- add32 x (Z.land (Z.shiftr x 16) Q); do x <- sub32 x Q;
    add32 x (Z.land (Z.shiftr x 16) Q)).
  same_as (correct_asm_spec a n). intros i Hi. assert (K := H1 i Hi). cbv beta in K. inv_do K.
  assert (W := Ha i Hi). rewrite corrv_eq by assumption.
  unfold add32, sub32, Q in *. rewrite mask_small in E1 by assumption.
  apply i32_inv in E1. destruct E1 as (-> & _). apply i32_inv in E2. destruct E2 as (-> & _).
  apply i32_inv in K. destruct K as (K & _). rewrite K.
  rewrite mask_small by (destruct (Z.ltb_spec (at_ a i) 0); lia).
  destruct (Z.ltb_spec (at_ a i) 0).
  - destruct (Z.ltb_spec (at_ a i + 12289 - 12289) 0); lia.
  - destruct (Z.ltb_spec (at_ a i + 0 - 12289) 0), (Z.leb_spec 12289 (at_ a i)); lia.
Qed.

Lemma shift_array_same a n r : mult16 n -> all_in (-2147483648) 2147483647 a ->
  shift_array a n = Ok r -> shift_array_asm a n = Ok r.
Proof.
  intros Hn Ha E. c_loop (fun (_ : Z) x => if (Q - 1) / 2 <? x then sub32 x Q else Ok x).
  same_as (shift_array_asm_spec a n). intros i Hi. assert (K := H1 i Hi). cbv beta in K.
  rewrite shiftv_eq by (apply all_in_at; [assumption|lia]).
  change ((Q - 1) / 2) with 6144 in K. destruct (Z.ltb_spec 6144 (at_ a i)).
  - apply i32_inv in K. apply K.
  - now inversion K.
Qed.

Lemma scalar_mul_reduce_array_same a n c r : mult16 n -> w32 c ->
  scalar_mul_reduce_array a n c = Ok r -> scalar_mul_reduce_array_asm a n c = Ok r.
Proof.
  intros Hn Hc E. c_loop (fun (_ : Z) x => mul_red x c).
  same_as (scalar_mul_reduce_array_asm_spec a n c). intros i Hi. now apply mul_red_inv, H1.
Qed.

Lemma mul_reduce_array16_same a n p r : mult16 n ->
  all_in (-2147483648) 2147483647 a -> all_in (-32768) 32767 p ->
  mul_reduce_array16 a n p = Ok r ->
  mul_reduce_array16_asm a n p = Ok r /\ mul_reduce_array16_asm2 a n p = Ok r.
Proof.
  intros Hn Ha Hp E. c_loop (fun i x => do y <- rd p i; mul_red x y).
  assert (HP : n <= zlen p).
  { assert (K := H1 (n - 1) ltac:(unfold mult16 in Hn; lia)). cbv beta in K. inv_do K.
    apply rd_inv in E0. lia. }
  assert (K : forall i, 0 <= i < n -> at_ r i = to_i32 (redz (at_ a i * at_ p i))).
  { intros i Hi. assert (K := H1 i Hi). cbv beta in K. rewrite rd_ok in K by lia. now apply mul_red_inv. }
  split; [same_as (mul_reduce_array16_asm_spec a n p)|same_as (mul_reduce_array16_asm2_spec a n p)].
  intros i Hi. split; apply all_in_at; assumption || lia.
Qed.

(** mul_reduce_array: three arrays, any of which may be the same *)
Lemma mul_reduce_array_h_pc h c n a b : 0 <= n < 4294967296 ->
  pc (mul_reduce_array_h h c n a b) (fun h' =>
    n <= zlen (h c) /\ n <= zlen (h a) /\ n <= zlen (h b) /\ zlen (h' c) = zlen (h c)
    /\ (forall i, 0 <= i < n -> mul_red (at_ (h a) i) (at_ (h b) i) = Ok (at_ (h' c) i))
    /\ (forall i, n <= i < zlen (h c) -> at_ (h' c) i = at_ (h c) i)
    /\ (forall p, p <> c -> h' p = h p)).
Proof.
  intros Hn. unfold mul_reduce_array_h.
  apply (cfor_pc (fun m h' =>
    m <= zlen (h c) /\ m <= zlen (h a) /\ m <= zlen (h b) /\ zlen (h' c) = zlen (h c)
    /\ (forall i, 0 <= i < m -> mul_red (at_ (h a) i) (at_ (h b) i) = Ok (at_ (h' c) i))
    /\ (forall i, m <= i < zlen (h c) -> at_ (h' c) i = at_ (h c) i)
    /\ (forall p, p <> c -> h' p = h p)) n (fun c => c)); try lia.
  - intros. apply u32_small. lia.
  - intros m h' Hm (Lc & La & Lb & HL & H1 & H2 & H3) r H.
    assert (EL : forall p, zlen (h' p) = zlen (h p)).
    { intros p. destruct (Z.eq_dec p c) as [->|]; [exact HL|rewrite H3 by auto; reflexivity]. }
    assert (E : forall p, m < zlen (h p) -> at_ (h' p) m = at_ (h p) m).
    { intros p Hp. destruct (Z.eq_dec p c) as [->|]; [apply H2; lia|rewrite H3 by auto; reflexivity]. }
    apply bind_inv in H. destruct H as (x & Ex & H). apply rd_inv in Ex. destruct Ex as (Hx & ->).
    apply bind_inv in H. destruct H as (y & Ey & H). apply rd_inv in Ey. destruct Ey as (Hy & ->).
    rewrite EL in Hx, Hy. rewrite !E in H by lia.
    apply bind_inv in H. destruct H as (v & Ev & H).
    apply bind_inv in H. destruct H as (l & El & H).
    assert (D : m < zlen (h c)).
    { assert (D : m < zlen (h c) \/ zlen (h c) <= m) by lia. destruct D as [|D]; [assumption|].
      unfold wr in El. destruct (Z.ltb_spec m 0); [lia|].
      assert (D2 : zlen (h' c) <= m) by (rewrite EL; assumption). unfold zlen in D2. clear - El D2.
      exfalso. revert El. destruct (upd (h' c) (Z.to_nat m) v) eqn:Eu; [|discriminate]. intros _.
      assert (G : forall (l : list Z) k l', upd l k v = Some l' -> (k < length l)%nat).
      { induction l1; intros k l' Hl; [destruct k; discriminate|]. destruct k; cbn in *; [lia|].
        destruct (upd l1 k v) eqn:E; [|discriminate]. apply IHl1 in E. lia. }
      apply G in Eu. lia. }
    apply wr_inv in El; [|rewrite EL; lia]. subst l. inversion H; subst r. clear H.
    rewrite hset_same, aset_len. repeat split; try lia.
    + intros i Hi. destruct (Z.eq_dec i m) as [->|].
      * rewrite at_aset_same by (rewrite HL; lia). exact Ev.
      * rewrite at_aset_other by lia. apply H1. lia.
    + intros i Hi. rewrite at_aset_other by lia. apply H2. lia.
    + intros p Hp. rewrite hset_other by auto. auto.
  - assert (forall l, 0 <= zlen l) by (intros; unfold zlen; lia). repeat split; auto; intros; lia.
Qed.

Lemma mul_reduce_array_asm_h_spec h ra n rb rc :
  mult16 n -> n <= zlen (h ra) -> n <= zlen (h rb) -> n <= zlen (h rc) ->
  exists h', mul_reduce_array_asm_h h ra n rb rc = Ok h'
    /\ eltw (fun j => to_i32 (redz (at_ (h rb) j * at_ (h rc) j))) (h ra) n (h' ra)
    /\ (forall p, p <> ra -> h' p = h p).
Proof.
  intros Hn HA HB HC'. prep mult16_8. unfold mul_reduce_array_asm_h. cbv zeta.
  set (G := fun j => to_i32 (redz (at_ (h rb) j * at_ (h rc) j))).
  match goal with |- context [cdowhile ?f ?body ?cond ?st] =>
    destruct (chunk_loop _ (fun s => fst (fst (fst s)) ra)
      (fun c s => snd (fst (fst s)) = 32 * c /\ snd (fst s) = 32 * c /\ snd s = 32 * c
                  /\ forall p, p <> ra -> fst (fst (fst s)) p = h p)
      8 C G (h ra) ltac:(lia) HC body cond f st)
      as ((((h' & rx) & ry) & rz) & E & (_ & _ & _ & HF) & L & H) end.
  - intros c (((g & rax) & rdx) & rcx) Hc (Hp1 & Hp2 & Hp3 & HF) Haft; cbn [fst snd] in *; subst rax rdx rcx.
    assert (Lg : forall p, zlen (g p) = zlen (h p)).
    { intros p. destruct (Z.eq_dec p ra) as [->|]; [apply Haft|rewrite HF by auto; reflexivity]. }
    assert (Ho : forall p j, 8 * c <= j < zlen (h p) -> at_ (g p) j = at_ (h p) j).
    { intros p j Hj. destruct (Z.eq_dec p ra) as [->|]; [|rewrite HF by auto; reflexivity].
      apply (after_rest 8 G (h ra) c); assumption || lia. }
    rewrite (ld8_ok (g rb) _ (8 * c)) by (rewrite ?Lg; lia).
    rewrite (ld8_ok (g rc) _ (8 * c)) by (rewrite ?Lg; lia). vfold. vexec.
    match goal with |- context [st8 ?l ?o ?x] =>
      destruct (st8_G G l o (8 * c) x) as (b1 & E & L & Hst); [lia|lia|rewrite Lg; lia| |rewrite E] end.
    { rewrite !Ho by lia. rewrite !mr_eq. reflexivity. }
    eexists; split; [reflexivity|]; cbn [fst snd]. rewrite !hset_same.
    split; [repeat split; try lia; intros; rewrite hset_other by auto; auto|].
    split; [lia|]. split; [assumption|]. exact Hst.
  - apply fuel_ge; lia.
  - repeat split; reflexivity.
  - reflexivity.
  - rewrite E; cbn [bind fst snd] in *; exists h'; split; [reflexivity|]; split; [|assumption].
    split; [assumption|]. rewrite En; exact H.
Qed.

Lemma mul_reduce_array_h_same h c n a b h' : mult16 n ->
  mul_reduce_array_h h c n a b = Ok h' ->
  exists g, mul_reduce_array_asm_h h c n a b = Ok g /\ forall p, g p = h' p.
Proof.
  intros Hn E. apply mul_reduce_array_h_pc in E; [|unfold mult16 in Hn; lia].
  destruct E as (Lc & La & Lb & HL & H1 & H2 & H3).
  destruct (mul_reduce_array_asm_h_spec h c n a b Hn Lc La Lb) as (g & Eg & H4 & H5).
  exists g. split; [assumption|]. intros p. destruct (Z.eq_dec p c) as [->|].
  - apply (eltw_eq _ _ _ _ _ H4); try assumption. intros i Hi. now apply mul_red_inv, H1.
  - rewrite H3, H5 by assumption. reflexivity.
Qed.
