(** Semantics with a trace of what a run does besides computing values.

    The trace records, in order, every array access (which array, which index,
    read or write) and every decision taken by a branch or loop test.  It is
    what an observer of the cache and of the branch predictor can see; the
    values read, written or computed are not in it.  Nothing else of the
    machine is modelled here (in particular not the time a division takes).

    The names of [CSem] are redefined, so that the model files can be read
    again with this semantics: the files Trace*.v repeat the text of the
    Model*.v files. *)

From Coq Require Import ZArith List Bool.
From Verif Require Import CSem.
Import ListNotations.
Open Scope Z_scope.

(** Which array is accessed: the array argument of an in-place function, the
    table argument, or the array with a given name in the heap. *)
Inductive place := Arg | Tab | Ptr (p : Z).

Inductive event :=
| Load (q : place) (i : Z)
| Store (q : place) (i : Z)
| Branch (taken : bool).

Definition trace := list event.

(** A run: its trace and its outcome. *)
Definition tr (A : Type) : Type := trace * res A.

Definition ret {A} (a : A) : tr A := ([], CSem.Ok a).
Definition err {A} (e : err) : tr A := ([], CSem.Err e).
Definition lift {A} (m : res A) : tr A := ([], m).
Definition emit (e : event) : tr unit := ([e], CSem.Ok tt).

Definition bind {A B} (m : tr A) (f : A -> tr B) : tr B :=
  match m with
  | (t, CSem.Ok a) => let (t', r) := f a in (t ++ t', r)
  | (t, CSem.Err e) => (t, CSem.Err e)
  end.

Notation "'do' x <- m ; k" := (bind m (fun x => k))
  (at level 200, x name, m at level 100, k at level 200, right associativity).
Notation "'do' ' x <- m ; k" := (bind m (fun x => k))
  (at level 200, x strict pattern, m at level 100, k at level 200,
   right associativity).

(** The arithmetic of [CSem] leaves no trace. *)
Definition add32 (x y : Z) : tr Z := lift (CSem.add32 x y).
Definition sub32 (x y : Z) : tr Z := lift (CSem.sub32 x y).
Definition mul32 (x y : Z) : tr Z := lift (CSem.mul32 x y).
Definition mul64 (x y : Z) : tr Z := lift (CSem.mul64 x y).
Definition rem32 (x y : Z) : tr Z := lift (CSem.rem32 x y).
Definition rem64 (x y : Z) : tr Z := lift (CSem.rem64 x y).
(** Assertions are not in the compiled code (-DNDEBUG): no branch recorded. *)
Definition cassert (b : bool) : tr unit := lift (CSem.cassert b).

(** [a[i]] and [a[i] = v] where [a] is at place [q]. *)
Definition rd (q : place) (a : list Z) (i : Z) : tr Z := ([Load q i], CSem.rd a i).
Definition wr (q : place) (a : list Z) (i v : Z) : tr (list Z) := ([Store q i], CSem.wr a i v).

(** [if (b) ... else ...] *)
Definition cif {A} (b : bool) (x y : tr A) : tr A :=
  do _ <- emit (Branch b);
  if b then x else y.

Notation "'branch' b 'then' x 'else' y" := (cif b x y)
  (at level 200, b at level 100, x at level 200, y at level 200).

(** Loops: each test is recorded. *)
Fixpoint cfor {S : Type} (fuel : nat) (i : Z) (cond : Z -> bool)
         (next : Z -> Z) (body : Z -> S -> tr S) (st : S) : tr S :=
  match fuel with
  | O => err NoFuel
  | Datatypes.S f =>
      cif (cond i)
        (do st' <- body i st; cfor f (next i) cond next body st')
        (ret st)
  end.

Fixpoint cwhile {S : Type} (fuel : nat) (cond : S -> bool)
         (body : S -> tr S) (st : S) : tr S :=
  match fuel with
  | O => err NoFuel
  | Datatypes.S f =>
      cif (cond st) (do st' <- body st; cwhile f cond body st') (ret st)
  end.

Definition cdowhile {S : Type} (fuel : nat) (body : S -> tr S)
           (cond : S -> bool) (st : S) : tr S :=
  do st' <- body st; cwhile fuel cond body st'.

(** A call [f(p, ...)] that works in place on array [p] of the heap: what the
    function does to its argument is done to [p]. *)
Definition at_ptr (p : Z) (e : event) : event :=
  match e with
  | Load Arg i => Load (Ptr p) i
  | Store Arg i => Store (Ptr p) i
  | _ => e
  end.

Definition on (p : Z) (f : list Z -> tr (list Z)) (h : heap) : tr heap :=
  match f (h p) with
  | (t, CSem.Ok l) => (map (at_ptr p) t, CSem.Ok (hset h p l))
  | (t, CSem.Err e) => (map (at_ptr p) t, CSem.Err e)
  end.

(** Two runs, when both succeed, have the same trace. *)
Definition same_trace {A} (m m' : tr A) : Prop :=
  forall r r', snd m = CSem.Ok r -> snd m' = CSem.Ok r' -> fst m = fst m'.
