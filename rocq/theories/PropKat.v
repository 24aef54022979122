(** Properties of the known-answer programs: C77 and C95. *)

From Coq Require Import ZArith List Bool Lia.
From Verif Require Import CSem Spec Exlib ModelGen ModelKat ExTables AvxProdFinal TestsFinal HarnessFinal SpeedFinal SpecKat KatFinal KatAny ModelProducts.
Import ListNotations.
Open Scope Z_scope.

(** C77. Whatever data is compiled in, kat_mul1024.c, kat_mul1024_red.c and kat_mul1024_red_asm.c return 0 exactly when
    every row c[i] is the canonical product of a[i] and b[i], and otherwise exit with a failure; nothing else can happen. *)
Theorem kat_mains_verdict :
  forall malloc T R da db dc stk, (forall n, 0 <= n -> zlen (malloc n) = n) ->
  make_tables malloc 1024 1014 = Ok (Written T) -> make_red_tables malloc 1024 1014 = Ok (Written R) ->
  (forall p, zlen (stk p) = 1024) ->
  (forall i, 0 <= i < 100 -> zlen (da i) = 1024 /\ all_in 0 (Q - 1) (da i)) ->
  (forall i, 0 <= i < 100 -> zlen (db i) = 1024 /\ all_in 0 (Q - 1) (db i)) ->
  (forall i, 0 <= i < 100 -> zlen (dc i) = 1024) ->
  forall m, In m [kat_mul1024_main da db dc stk T; kat_mul1024_red_main da db dc stk R; kat_mul1024_red_asm_main da db dc stk R] ->
  (m = Ok 0 <-> forall i j, 0 <= i < 100 -> 0 <= j < 1024 ->
     at_ (dc i) j = negacyclic 1024 (at_ (da i)) (at_ (db i)) j mod Q)
  /\ (m = Err Exited <-> exists i j, 0 <= i < 100 /\ 0 <= j < 1024 /\
     at_ (dc i) j <> negacyclic 1024 (at_ (da i)) (at_ (db i)) j mod Q).
Proof. exact kat_mains_verdict_L. Qed.
Print Assumptions kat_mains_verdict.

(** a[i] = X^i, b[i] = X^1000: with the right products the three programs return 0, with one wrong sign in row 99 they
    exit. *)
Example kat_mains_verdict_ex :
  exists T R, make_tables malloc77 1024 1014 = Ok (Written T) /\ make_red_tables malloc77 1024 1014 = Ok (Written R)
  /\ (forall m, In m [kat_mul1024_main mono (fun _ => mono 1000) ex_rows ex_stk1024 T;
        kat_mul1024_red_main mono (fun _ => mono 1000) ex_rows ex_stk1024 R;
        kat_mul1024_red_asm_main mono (fun _ => mono 1000) ex_rows ex_stk1024 R] -> m = Ok 0)
  /\ (forall m, In m [kat_mul1024_main mono (fun _ => mono 1000) ex_rows_wrong ex_stk1024 T;
        kat_mul1024_red_main mono (fun _ => mono 1000) ex_rows_wrong ex_stk1024 R;
        kat_mul1024_red_asm_main mono (fun _ => mono 1000) ex_rows_wrong ex_stk1024 R] -> m = Err Exited).
Proof.
  destruct both1024_made as (T & R & HT & HR). exists T, R. split; [exact HT|]. split; [exact HR|].
  assert (V := fun dc Hc => kat_mains_verdict malloc77 T R mono (fun _ => mono 1000) dc ex_stk1024 malloc77_len HT HR ex_stk1024_len
    mono_ok mono1000_ok Hc).
  split; intros m Hm.
  - exact (proj2 (proj1 (V ex_rows ex_rows_len m Hm)) ex_rows_right).
  - exact (proj2 (proj2 (V ex_rows_wrong (proj1 ex_rows_wrong_spec) m Hm)) ex_rows_differ).
Qed.

(** C95. The known-answer programs with any five functions instead of the products: main returns 0 exactly when each of the
    five gives c[i] for all a[i] and b[i], and otherwise exits with a failure. *)
Theorem kat_main_decides :
  forall da db dc stk,
  (forall i, 0 <= i < 100 -> zlen (da i) = 1024 /\ all_in 0 (Q - 1) (da i)) ->
  (forall i, 0 <= i < 100 -> zlen (db i) = 1024 /\ all_in 0 (Q - 1) (db i)) ->
  (forall i, 0 <= i < 100 -> zlen (dc i) = 1024) -> (forall p, zlen (stk p) = 1024) ->
  forall f1 f2 f3 f4 f5 F1 F2 F3 F4 F5, puts f1 F1 -> puts f2 F2 -> puts f3 F3 -> puts f4 F4 -> puts f5 F5 ->
  let m := kat_main da db dc stk f1 f2 f3 f4 f5 in
  (m = Ok 0 <-> forall F, In F [F1; F2; F3; F4; F5] -> forall i, 0 <= i < 100 -> F (da i) (db i) = dc i)
  /\ (m = Ok 0 \/ m = Err Exited).
Proof. exact kat_main_decides_L. Qed.
Print Assumptions kat_main_decides.

(** One function that only copies b is noticed, first or last. *)
Example kat_main_decides_ex :
  exists T, make_tables malloc77 1024 1014 = Ok (Written T)
  /\ puts (ntt_product1 1024 T) times /\ puts forget forgets
  /\ (let m := kat_main mono (fun _ => mono 1000) ex_rows ex_stk1024 in
      m (ntt_product1 1024 T) (ntt_product2 1024 T) (ntt_product3 1024 T) (ntt_product4 1024 T) (ntt_product5 1024 T) = Ok 0
      /\ m forget (ntt_product2 1024 T) (ntt_product3 1024 T) (ntt_product4 1024 T) (ntt_product5 1024 T) = Err Exited
      /\ m (ntt_product1 1024 T) (ntt_product2 1024 T) (ntt_product3 1024 T) (ntt_product4 1024 T) forget = Err Exited).
Proof.
  destruct both1024_made as (T & _ & HT & _). exists T. split; [exact HT|].
  destruct (default_puts T HT) as (P1 & P2 & P3 & P4 & P5). split; [exact P1|]. split; [exact forget_puts|]. cbv zeta.
  assert (D := kat_main_decides mono (fun _ => mono 1000) ex_rows ex_stk1024 mono_ok mono1000_ok ex_rows_len ex_stk1024_len).
  split; [|split].
  - apply (proj1 (D _ _ _ _ _ _ _ _ _ _ P1 P2 P3 P4 P5)). intros F HI i Hi. cbn in HI.
    destruct HI as [<-|[<-|[<-|[<-|[<-|[]]]]]]; exact (times_ex i Hi).
  - destruct (D _ _ _ _ _ _ _ _ _ _ forget_puts P2 P3 P4 P5) as [V [O|O]]; [|exact O].
    destruct (forgets_ex (proj1 V O forgets ltac:(cbn; auto) 1 ltac:(lia))).
  - destruct (D _ _ _ _ _ _ _ _ _ _ P1 P2 P3 P4 forget_puts) as [V [O|O]]; [|exact O].
    destruct (forgets_ex (proj1 V O forgets ltac:(cbn; auto 10) 1 ltac:(lia))).
Qed.
