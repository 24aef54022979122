(** Rules for comparing two runs of the same function: [sim R m m'] says that if the first run
    succeeds so does the second, with results related by [R], and that if the first run fails
    otherwise than by an access outside an array, then the second fails in the same way. *)

From Coq Require Import ZArith List Bool Lia.
From Verif Require Import CSem TraceElem.
From Verif Require ModelProducts.
Import ListNotations.
Open Scope Z_scope.

Definition sim {A B} (R : A -> B -> Prop) (m : res A) (m' : res B) : Prop :=
  match m with
  | Ok r => exists r', m' = Ok r' /\ R r r'
  | Err e => e = OutOfBounds \/ m' = Err e
  end.

Lemma sim_bind {A B A' B'} (R : A -> A' -> Prop) (S : B -> B' -> Prop) m m' f f' :
  sim R m m' -> (forall x x', R x x' -> sim S (f x) (f' x')) -> sim S (bind m f) (bind m' f').
Proof.
  intros H Hf. destruct m as [x|e]; cbn [bind sim] in *.
  - destruct H as (x' & -> & HR). exact (Hf x x' HR).
  - destruct H as [H| ->]; [left; exact H|right; reflexivity].
Qed.
Lemma sim_ret {A B} (R : A -> B -> Prop) x y : R x y -> sim R (Ok x) (Ok y).
Proof. intros H. exists y. auto. Qed.
Lemma sim_err {A B} (R : A -> B -> Prop) e : sim R (Err e) (Err e).
Proof. right. reflexivity. Qed.
Lemma sim_refl {A} (m : res A) : sim eq m m.
Proof. destruct m; [apply sim_ret; reflexivity|apply sim_err]. Qed.
Lemma sim_any {A} (m : res A) : sim any m m.
Proof. destruct m; [apply sim_ret; exact I|apply sim_err]. Qed.
Lemma sim_weak {A B} (R S : A -> B -> Prop) m m' : (forall x y, R x y -> S x y) -> sim R m m' -> sim S m m'.
Proof. intros HI H. destruct m; [|exact H]. destruct H as (r' & E' & HR). exists r'. auto. Qed.
Lemma sim_ok {A B} (R : A -> B -> Prop) m m' : sim R m m' -> forall r, m = Ok r -> exists r', m' = Ok r' /\ R r r'.
Proof. intros H r ->. exact H. Qed.
Lemma sim_fail {A B} (R : A -> B -> Prop) m m' : sim R m m' -> forall e, m = Err e -> e <> OutOfBounds -> m' = Err e.
Proof. intros H e -> He. destruct H as [H|H]; [contradiction|exact H]. Qed.

Lemma sim_cfor {S S'} (R : S -> S' -> Prop) f : forall i cond next body body' st st',
  (forall i st st', R st st' -> sim R (body i st) (body' i st')) -> R st st' ->
  sim R (cfor f i cond next body st) (cfor f i cond next body' st').
Proof.
  induction f as [|f IH]; intros; cbn [cfor]; [apply sim_err|].
  destruct (cond i); [|apply sim_ret; assumption].
  eapply sim_bind; [apply H; eassumption|]. intros. apply IH; assumption.
Qed.
Lemma sim_cwhile {S S'} (R : S -> S' -> Prop) f : forall cond cond' body body' st st',
  (forall st st', R st st' -> cond st = cond' st') ->
  (forall st st', R st st' -> sim R (body st) (body' st')) -> R st st' ->
  sim R (cwhile f cond body st) (cwhile f cond' body' st').
Proof.
  induction f as [|f IH]; intros; cbn [cwhile]; [apply sim_err|].
  rewrite (H _ _ H1). destruct (cond' st'); [|apply sim_ret; assumption].
  eapply sim_bind; [apply H0; eassumption|]. intros. apply IH; assumption.
Qed.
Lemma sim_cdowhile {S S'} (R : S -> S' -> Prop) f cond cond' body body' st st' :
  (forall st st', R st st' -> cond st = cond' st') ->
  (forall st st', R st st' -> sim R (body st) (body' st')) -> R st st' ->
  sim R (cdowhile f body cond st) (cdowhile f body' cond' st').
Proof.
  intros. unfold cdowhile. eapply sim_bind; [apply H0; eassumption|].
  intros. apply sim_cwhile; assumption.
Qed.

(** ** Longer arrays *)

(** The second array continues with [s]; every array of the second heap with its part of [fs]. *)
Definition fr (s a a' : list Z) : Prop := a' = a ++ s.
Definition hfr (fs h h' : heap) : Prop := forall x, h' x = h x ++ fs x.

Lemma sim_rd a s i : sim eq (rd a i) (rd (a ++ s) i).
Proof.
  unfold rd. destruct (i <? 0); [apply sim_err|].
  destruct (nth_error a (Z.to_nat i)) as [v|] eqn:En; [|left; reflexivity].
  rewrite nth_error_app1; [rewrite En; apply sim_ret; reflexivity|]. apply nth_error_Some. congruence.
Qed.
Lemma upd_app a s v : forall i l, upd a i v = Some l -> upd (a ++ s) i v = Some (l ++ s).
Proof.
  induction a as [|x a IH]; intros i l E; [discriminate|]. destruct i as [|i]; cbn in *.
  - injection E as <-. reflexivity.
  - destruct (upd a i v) as [l'|] eqn:El; [|discriminate]. injection E as <-. rewrite (IH _ _ El). reflexivity.
Qed.
Lemma sim_wr a s i v : sim (fr s) (wr a i v) (wr (a ++ s) i v).
Proof.
  unfold wr. destruct (i <? 0); [apply sim_err|].
  destruct (upd a (Z.to_nat i) v) as [l|] eqn:El; [|left; reflexivity].
  rewrite (upd_app _ s _ _ _ El). apply sim_ret. reflexivity.
Qed.
Lemma sim_rd_h fs h h' x i : hfr fs h h' -> sim eq (rd (h x) i) (rd (h' x) i).
Proof. intros H. rewrite H. apply sim_rd. Qed.
Lemma sim_wr_h fs h h' x i v : hfr fs h h' -> sim (fr (fs x)) (wr (h x) i v) (wr (h' x) i v).
Proof. intros H. rewrite H. apply sim_wr. Qed.
Lemma hfr_hset fs h h' x l l' : hfr fs h h' -> fr (fs x) l l' -> hfr fs (hset h x l) (hset h' x l').
Proof. unfold hfr, fr, hset. intros H -> y. destruct (Z.eqb_spec y x) as [->|]; [reflexivity|apply H]. Qed.
Lemma sim_on fs x f f' h h' : hfr fs h h' -> sim (fr (fs x)) (f (h x)) (f' (h x ++ fs x)) ->
  sim (hfr fs) (ModelProducts.on x f h) (ModelProducts.on x f' h').
Proof.
  intros H Hf. unfold ModelProducts.on. rewrite H. eapply sim_bind; [exact Hf|].
  intros l l' Hl. apply sim_ret. apply hfr_hset; assumption.
Qed.

(** Tactics, as in TraceElem; the relation between two results is chosen by type, the tails by
    the section variables where the instances are declared. *)
Class FRel (A : Type) := frel : A -> A -> Prop.
#[export] Instance fr_z : FRel Z := eq.
#[export] Instance fr_b : FRel bool := eq.
#[export] Instance fr_pair {A B} (a : FRel A) (b : FRel B) : FRel (A * B) :=
  fun x y => a (fst x) (fst y) /\ b (snd x) (snd y).

Create HintDb frame discriminated.
#[export] Hint Constants Opaque : frame.

Definition fr_l (s : list Z) : FRel (list Z) := fr s.
Definition fr_h (fs : heap) : FRel heap := hfr fs.

Ltac fr_norm :=
  repeat match goal with
  | H : any _ _ |- _ => clear H
  | H : (_, _) = (_, _) |- _ => injection H; clear H; intros
  | H : frel _ _ |- _ => unfold frel in H
  | H : fr_pair _ _ _ _ |- _ => destruct H
  | x : _ * _ |- _ => destruct x
  | H : fr_l _ _ _ |- _ => unfold fr_l in H
  | H : fr_h _ _ _ |- _ => unfold fr_h in H
  | H : fr_z _ _ |- _ => unfold fr_z in H
  | H : fr_b _ _ |- _ => unfold fr_b in H
  | H : fr _ _ _ |- _ => unfold fr in H
  end; cbn [fst snd] in *; subst.
Ltac fr_rel :=
  lazymatch goal with
  | |- frel _ _ => unfold frel; fr_rel
  | |- fr_pair _ _ _ _ => split; cbn [fst snd]; fr_rel
  | |- fr_l _ _ _ => unfold fr_l; fr_rel
  | |- fr_h _ _ _ => unfold fr_h; fr_rel
  | |- any _ _ => exact I
  | |- hfr _ (hset _ _ _) _ => apply hfr_hset; fr_rel
  | |- forall _, _ => first [ assumption | apply hfr_hset; fr_rel ]
  | |- hfr _ _ _ => assumption
  | |- fr _ _ _ => reflexivity
  | |- fr_z _ _ => reflexivity
  | |- fr_b _ _ => reflexivity
  | |- _ = _ => reflexivity
  | |- _ => assumption
  end.
(** one instruction *)
Ltac fr_leaf :=
  first [ solve [trivial with frame nocore]
        | lazymatch goal with |- sim _ ?m ?m => apply sim_refl end
        | apply sim_rd | apply sim_wr
        | eapply sim_rd_h; eassumption | eapply sim_wr_h; eassumption ].
Ltac fr_step :=
  match goal with
  | |- sim _ _ _ => fr_leaf
  | |- sim _ (bind _ _) _ => eapply sim_bind; [fr_leaf|]
  | |- sim _ (bind (cfor _ _ _ _ _ _) _) _ => apply (sim_bind frel)
  | |- sim _ (bind (cdowhile _ _ _ _) _) _ => apply (sim_bind frel)
  | |- sim _ (bind (if _ then _ else _) _) _ => apply (sim_bind frel)
  | |- sim _ (cfor _ _ _ _ _ _) _ => apply (sim_cfor frel); [|fr_rel]
  | |- sim _ (cdowhile _ _ _ _) _ => apply (sim_cdowhile frel); [| |fr_rel]
  | |- sim _ (Ok _) _ => apply sim_ret; fr_rel
  | |- sim _ (Err _) _ => apply sim_err
  | |- sim ?R (let x := ?v in @?f x) (let y := ?v in @?g y) => refine ((_ : forall x, sim R (f x) (g x)) v); intro; cbv beta
  | |- sim ?R (let x := ?v in @?f x) (let y := ?v' in @?g y) => refine ((_ : forall x y, sim R (f x) (g y)) v v'); intros ? ?; cbv beta
  | |- sim _ (match ?x with _ => _ end) _ => progress cbv iota
  | |- sim _ (match ?x with _ => _ end) (match ?x with _ => _ end) => destruct x
  | |- sim _ ?m ?m' => first [ progress cbv beta | let h := head_of m in cbv beta delta [h]; cbv beta ]
  | |- forall (x y : _ * _), _ -> _ = _ => intros; fr_norm; reflexivity
  | |- forall _, _ => intro; intros; fr_norm
  end.
Ltac fr_ok := match goal with |- sim _ ?m _ => let h := head_of m in cbv beta delta [h] end; repeat fr_step.
