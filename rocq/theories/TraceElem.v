(** Rules for the traced semantics: forgetting the trace gives the run of [CSem],
    and two runs have the same trace. *)

From Coq Require Import ZArith List Bool Lia.
From Verif Require Import CSem.
From Verif Require TraceSem ModelProducts.
Import ListNotations.
Import TraceSem(tr, trace, event, place, Load, Store, Branch, Arg, Tab, Ptr).
Open Scope Z_scope.


(** [er m m']: the run [m] is [m'] with a trace. *)
Definition er {A} (m : tr A) (m' : res A) : Prop := snd m = m'.

Lemma er_bind {A B} (m : tr A) m' (f : A -> tr B) f' :
  er m m' -> (forall x, er (f x) (f' x)) -> er (TraceSem.bind m f) (bind m' f').
Proof.
  unfold er. intros H Hf. destruct m as [t r]. cbn in H. subst m'.
  destruct r as [a|e]; cbn; [|reflexivity].
  specialize (Hf a). destruct (f a). exact Hf.
Qed.

Lemma er_ret {A} (a : A) : er (TraceSem.ret a) (Ok a).
Proof. reflexivity. Qed.
Lemma er_err {A} e : er (@TraceSem.err A e) (Err e).
Proof. reflexivity. Qed.
Lemma er_lift {A} (m : res A) : er (TraceSem.lift m) m.
Proof. reflexivity. Qed.
Lemma er_rd q a i : er (TraceSem.rd q a i) (rd a i).
Proof. reflexivity. Qed.
Lemma er_wr q a i v : er (TraceSem.wr q a i v) (wr a i v).
Proof. reflexivity. Qed.
Lemma er_emit {A} e (m : tr A) m' : er m m' -> er (TraceSem.bind (TraceSem.emit e) (fun _ => m)) m'.
Proof. unfold er, TraceSem.emit, TraceSem.bind. destruct m. exact (fun H => H). Qed.

Lemma er_cif {A} (b : bool) (x y : tr A) x' y' :
  er x x' -> er y y' -> er (TraceSem.cif b x y) (if b then x' else y').
Proof. intros. unfold TraceSem.cif. apply er_emit. destruct b; assumption. Qed.

Lemma er_cfor {S} f : forall i cond next (body : Z -> S -> tr S) body' st,
  (forall i st, er (body i st) (body' i st)) ->
  er (TraceSem.cfor f i cond next body st) (cfor f i cond next body' st).
Proof.
  induction f as [|f IH]; intros; cbn [TraceSem.cfor cfor]; [reflexivity|].
  apply er_cif; [|reflexivity]. apply er_bind; [apply H|]. intros. apply IH. exact H.
Qed.

Lemma er_cwhile {S} f : forall cond (body : S -> tr S) body' st,
  (forall st, er (body st) (body' st)) ->
  er (TraceSem.cwhile f cond body st) (cwhile f cond body' st).
Proof.
  induction f as [|f IH]; intros; cbn [TraceSem.cwhile cwhile]; [reflexivity|].
  apply er_cif; [|reflexivity]. apply er_bind; [apply H|]. intros. apply IH. exact H.
Qed.

Lemma er_cdowhile {S} f cond (body : S -> tr S) body' st :
  (forall st, er (body st) (body' st)) ->
  er (TraceSem.cdowhile f body cond st) (cdowhile f body' cond st).
Proof. intros. apply er_bind; [apply H|]. intros. apply er_cwhile. exact H. Qed.

Lemma er_on p (f : list Z -> tr (list Z)) f' h :
  (forall a, er (f a) (f' a)) ->
  er (TraceSem.on p f h) (ModelProducts.on p f' h).
Proof.
  unfold er, TraceSem.on, ModelProducts.on. intros H. rewrite <- H. destruct (f (h p)) as [t [l|e]]; reflexivity.
Qed.

(** [ob R m m']: if both runs succeed they have the same trace, and their results are
    related by [R]. *)
Definition ob {A} (R : A -> A -> Prop) (m m' : tr A) : Prop :=
  forall r r', snd m = Ok r -> snd m' = Ok r' -> fst m = fst m' /\ R r r'.

Lemma ob_bind {A B} (R : A -> A -> Prop) (S : B -> B -> Prop) m m' f f' :
  ob R m m' -> (forall x x', R x x' -> ob S (f x) (f' x')) -> ob S (TraceSem.bind m f) (TraceSem.bind m' f').
Proof.
  unfold ob. intros H Hf r r'. destruct m as [t [x|e]]; [|discriminate].
  destruct m' as [t' [x'|e]]; [|intros _; discriminate].
  destruct (H x x' eq_refl eq_refl) as [Ht Hr]. specialize (Hf x x' Hr).
  cbn [TraceSem.bind]. destruct (f x) as [u y], (f' x') as [u' y']. cbn in *.
  intros H1 H2. destruct (Hf r r' H1 H2) as [Hu Hs]. subst. auto.
Qed.

Lemma ob_ret {A} (R : A -> A -> Prop) a a' : R a a' -> ob R (TraceSem.ret a) (TraceSem.ret a').
Proof. intros H r r' E E'. cbn in *. injection E as <-. injection E' as <-. auto. Qed.
Lemma ob_err {A} (R : A -> A -> Prop) e e' : ob R (TraceSem.err e) (TraceSem.err e').
Proof. intros r r' E. discriminate. Qed.

Definition any {A} (x y : A) : Prop := True.

Lemma ob_lift {A} (m m' : res A) : ob any (TraceSem.lift m) (TraceSem.lift m').
Proof. intros r r' _ _. split; [reflexivity|exact I]. Qed.
Lemma ob_lift_eq {A} (m : res A) : ob eq (TraceSem.lift m) (TraceSem.lift m).
Proof. intros r r' H H'. split; [reflexivity|]. cbn in *. congruence. Qed.
Lemma ob_rd q a a' i : ob any (TraceSem.rd q a i) (TraceSem.rd q a' i).
Proof. intros r r' _ _. split; [reflexivity|exact I]. Qed.
Lemma ob_wr q a a' i v v' : ob any (TraceSem.wr q a i v) (TraceSem.wr q a' i v').
Proof. intros r r' _ _. split; [reflexivity|exact I]. Qed.
Lemma ob_emit e : ob any (TraceSem.emit e) (TraceSem.emit e).
Proof. intros r r' _ _. split; [reflexivity|exact I]. Qed.

Lemma ob_cif {A} (R : A -> A -> Prop) b x y x' y' :
  (b = true -> ob R x x') -> (b = false -> ob R y y') -> ob R (TraceSem.cif b x y) (TraceSem.cif b x' y').
Proof.
  intros Hx Hy. unfold TraceSem.cif. eapply ob_bind; [apply ob_emit|]. intros _ _ _.
  destruct b; auto.
Qed.

Lemma ob_cfor {S} (R : S -> S -> Prop) f : forall i cond next body body' st st',
  (forall i st st', R st st' -> ob R (body i st) (body' i st')) -> R st st' ->
  ob R (TraceSem.cfor f i cond next body st) (TraceSem.cfor f i cond next body' st').
Proof.
  induction f as [|f IH]; intros; cbn [TraceSem.cfor]; [apply ob_err|].
  apply ob_cif; intros _; [|apply ob_ret; assumption].
  eapply ob_bind; [apply H; eassumption|]. intros. apply IH; assumption.
Qed.

Lemma ob_cwhile {S} (R : S -> S -> Prop) f : forall cond cond' body body' st st',
  (forall st st', R st st' -> cond st = cond' st') ->
  (forall st st', R st st' -> ob R (body st) (body' st')) -> R st st' ->
  ob R (TraceSem.cwhile f cond body st) (TraceSem.cwhile f cond' body' st').
Proof.
  induction f as [|f IH]; intros; cbn [TraceSem.cwhile]; [apply ob_err|].
  rewrite (H _ _ H1). apply ob_cif; intros _; [|apply ob_ret; assumption].
  eapply ob_bind; [apply H0; eassumption|]. intros. apply IH; assumption.
Qed.

Lemma ob_cdowhile {S} (R : S -> S -> Prop) f cond cond' body body' st st' :
  (forall st st', R st st' -> cond st = cond' st') ->
  (forall st st', R st st' -> ob R (body st) (body' st')) -> R st st' ->
  ob R (TraceSem.cdowhile f body cond st) (TraceSem.cdowhile f body' cond' st').
Proof.
  intros. unfold TraceSem.cdowhile. eapply ob_bind; [apply H0; eassumption|].
  intros. apply ob_cwhile; assumption.
Qed.

Lemma ob_on p f f' h h' :
  ob any (f (h p)) (f' (h' p)) -> ob any (TraceSem.on p f h) (TraceSem.on p f' h').
Proof.
  unfold ob, TraceSem.on. intros H r r' E E'.
  destruct (f (h p)) as [t [l|e]]; [|discriminate].
  destruct (f' (h' p)) as [t' [l'|e']]; [|discriminate].
  destruct (H l l' eq_refl eq_refl) as [Ht _]. cbn in *. subst. split; [reflexivity|exact I].
Qed.

(** Tactics.  The relation between two results is chosen by type: integers inside a tuple
    are loop registers and must agree, anything else is unconstrained. *)
Class PubRel (A : Type) := pubrel : A -> A -> Prop.
Definition pub_z : Z -> Z -> Prop := eq.
Definition pub_b : bool -> bool -> Prop := eq.
#[export] Instance pr_list : PubRel (list Z) := any.
#[export] Instance pr_heap : PubRel heap := any.
#[export] Instance pr_z : PubRel Z := pub_z.
#[export] Instance pr_b : PubRel bool := pub_b.
#[export] Instance pr_pair {A B} (a : PubRel A) (b : PubRel B) : PubRel (A * B) :=
  fun x y => a (fst x) (fst y) /\ b (snd x) (snd y).

Ltac head_of m := lazymatch m with ?f _ => head_of f | _ => m end.

(** function calls not covered by a rule are unfolded on both sides *)
Create HintDb trace discriminated.
#[export] Hint Constants Opaque : trace.
Ltac er_step :=
  match goal with
  | |- er _ _ => solve [trivial with trace nocore]
  | |- forall _, _ => intro
  | |- er (TraceSem.bind (TraceSem.emit _) _) _ => apply er_emit
  | |- er (TraceSem.bind _ _) (bind _ _) => apply er_bind
  | |- er (TraceSem.cfor _ _ _ _ _ _) _ => apply er_cfor
  | |- er (TraceSem.cdowhile _ _ _ _) _ => apply er_cdowhile
  | |- er (TraceSem.cif _ _ _) _ => apply er_cif
  | |- er (match ?x with _ => _ end) _ => destruct x
  | |- er (TraceSem.ret _) _ => reflexivity
  | |- er (TraceSem.err _) _ => reflexivity
  | |- er (TraceSem.lift _) _ => reflexivity
  | |- er (TraceSem.rd _ _ _) _ => reflexivity
  | |- er (TraceSem.wr _ _ _ _) _ => reflexivity
  | |- er (TraceSem.on _ _ _) _ => apply er_on
  | |- er (let x := ?v in @?f x) (let y := ?v in @?g y) => refine ((_ : forall x, er (f x) (g x)) v); intro; cbv beta
  | |- er (let x := _ in _) _ => cbv zeta
  | |- er (?f ?x) _ => progress cbv beta
  | |- er ?m ?m' => let h := head_of m in let h' := head_of m' in
      cbv beta delta [h]; try cbv beta delta [h']; cbv beta
  end.
Ltac er_solve := repeat er_step.

Ltac ob_norm :=
  repeat match goal with
  | H : any _ _ |- _ => clear H
  | H : pubrel _ _ |- _ => unfold pubrel in H
  | H : (_, _) = (_, _) |- _ => injection H; clear H; intros
  | H : pr_pair _ _ _ _ |- _ => destruct H; cbn [fst snd] in *
  | H : pr_list _ _ |- _ => clear H
  | H : pr_heap _ _ |- _ => clear H
  | H : pr_z _ _ |- _ => unfold pr_z, pub_z in H; subst
  | H : pr_b _ _ |- _ => unfold pr_b, pub_b in H; subst
  end.
(** variables that are tuples *)
Ltac ob_split :=
  ob_norm;
  repeat match goal with x : _ * _ |- _ => destruct x end;
  cbn [fst snd] in *; subst.
Ltac pub :=
  lazymatch goal with
  | |- pubrel _ _ => unfold pubrel; pub
  | |- pr_pair _ _ _ _ => split; cbn [fst snd]; pub
  | |- pr_list _ _ => exact I
  | |- pr_heap _ _ => exact I
  | |- any _ _ => exact I
  | |- _ => reflexivity
  end.

(** a bind whose first part is a loop has the relation given by its type; one whose first
    part is anything else gives nothing *)
Ltac ob_step :=
  match goal with
  | |- ob _ _ _ => solve [trivial with trace nocore]
  | |- ob _ (TraceSem.bind (TraceSem.cfor _ _ _ _ _ _) _) _ => apply (ob_bind pubrel)
  | |- ob _ (TraceSem.bind (TraceSem.cdowhile _ _ _ _) _) _ => apply (ob_bind pubrel)
  | |- ob _ (TraceSem.bind _ _) _ => apply (ob_bind any)
  | |- ob _ (TraceSem.cfor _ _ _ _ _ _) _ =>
      apply (ob_cfor pubrel); [|pub]
  | |- ob _ (TraceSem.cdowhile _ _ _ _) _ =>
      apply (ob_cdowhile pubrel); [| |pub]
  | |- ob _ (TraceSem.cif _ _ _) _ => apply ob_cif; intros _
  | |- ob _ (TraceSem.ret _) _ => apply ob_ret; pub
  | |- ob _ (TraceSem.rd _ _ _) _ => apply ob_rd
  | |- ob _ (TraceSem.wr _ _ _ _) _ => apply ob_wr
  | |- ob _ (TraceSem.lift _) _ => apply ob_lift
  | |- ob _ (TraceSem.emit _) _ => apply ob_emit
  | |- ob _ (TraceSem.err _) _ => apply ob_err
  | |- ob _ (TraceSem.on _ _ _) _ => apply ob_on
  | |- ob ?R (let x := ?v in @?f x) (let y := ?v in @?g y) => refine ((_ : forall x, ob R (f x) (g x)) v); intro; cbv beta
  | |- ob ?R (let x := ?v in @?f x) (let y := ?v' in @?g y) => refine ((_ : forall x y, ob R (f x) (g y)) v v'); intros ? ?; cbv beta
  | |- ob _ (match ?x with _ => _ end) _ => progress cbv iota
  | |- ob _ (match ?x with _ => _ end) (match ?x with _ => _ end) => destruct x
  | |- ob _ (match ?x with _ => _ end) (match ?y with _ => _ end) =>
      is_var x; is_var y; destruct x, y; cbn [fst snd] in *; subst
  | |- ob _ ?m ?m' => first [ progress cbv beta | let h := head_of m in cbv beta delta [h]; cbv beta ]
  | |- forall (x y : _ * _), _ -> _ = _ => intros; ob_split; reflexivity
  | |- forall _, _ => intro; intros; ob_norm
  end.

(** the function itself is unfolded first *)
Ltac tr_er :=
  match goal with |- er ?m ?m' =>
    let h := head_of m in let h' := head_of m' in
    cbv beta delta [h h']
  end; repeat er_step.
Ltac tr_ob :=
  match goal with |- ob _ ?m _ => let h := head_of m in cbv beta delta [h] end; repeat ob_step.
