(** src/test_mod.c.  Printing is modelled by returning what is printed. *)

From Coq Require Import ZArith List Bool.
From Verif Require Import CSem.
Import ListNotations.
Open Scope Z_scope.

(** Constants, lines 5-7; INT32_MIN and INT32_MAX are those of stdint.h *)
Definition Q := 12289.
Definition P := 16.
Definition R := 4.
Definition INT32_MAX := 2147483647.
Definition INT32_MIN := -2147483648.

(** [for (x = ...; more; x = next) { if (bad) { ...; return; } }]: [true] and the value of
    [x] if the loop returns, [false] and the last value of [x] otherwise *)
Fixpoint search (f : nat) (x : Z) (more : Z -> bool) (next : Z -> res Z) (bad : Z -> res bool) : res (bool * Z) :=
  match f with
  | O => Err NoFuel
  | S f =>
      if more x then
        do b <- bad x;
        if b : bool then Ok (true, x)
        else do x <- next x; search f x more next bad
      else Ok (false, x)
  end.

(** smodq, lines 9-11 *)
Definition smodq (x : Z) : res Z := rem32 x Q.
(** umodq, lines 13-15 *)
Definition umodq (x : Z) : Z := x mod Q.
(** pmodq, lines 17-21 *)
Definition pmodq (x : Z) : res Z :=
  do r <- smodq x;
  if r <? 0 then add32 r Q else Ok r.

(** approx_qinv, lines 23-25 *)
Definition approx_qinv (n : Z) : Z := u32 (u64 (u64 (Z.shiftl 1 n) / Q + 1)).
(** approx_divq, lines 26-28 *)
Definition approx_divq (x n : Z) : Z := u32 (Z.shiftr (u64 (x * approx_qinv n)) n).
(** approx_modq, lines 30-32 *)
Definition approx_modq (x n : Z) : Z := u32 (x - u32 (approx_divq x n * Q)).

(** test_approx, lines 34-48: [Some x] for "fails for x", [None] for "works".  The
    condition of the do loop holds for x = 0, so it is written as a while loop. *)
Definition test_approx (n : Z) : res (option Z) :=
  do '(found, x) <- search (fuel ((Q - 1) * (Q - 1) + 1)) 0 (fun x => x <=? (Q - 1) * (Q - 1)) (fun x => Ok (u32 (x + 1)))
    (fun x => Ok (negb (approx_modq x n =? x mod Q)));
  Ok (if found : bool then Some x else None).

(** test_all_approx, lines 50-57: for each n what is printed *)
Definition test_all_approx : res (list (Z * Z * option Z)) :=
  cfor (fuel 20) 30 (fun n => n <? 50) (fun n => u32 (n + 1)) (fun n out =>
    do v <- test_approx n;
    Ok (out ++ [(n, approx_qinv n, v)])) [].

(** approx_pinv, lines 60-62 *)
Definition approx_pinv (n : Z) : res Z :=
  do q <- div64 (Z.shiftl 1 n) Q;
  add64 q 1.
(** approx_pdivq, lines 64-66 *)
Definition approx_pdivq (x n : Z) : res Z :=
  do p <- approx_pinv n;
  do z <- mul64 x p;
  Ok (to_i32 (Z.shiftr z n)).
(** approx_pmodq, lines 68-72 *)
Definition approx_pmodq (x n : Z) : res Z :=
  do d <- approx_pdivq x n;
  do m <- mul32 d Q;
  do r <- sub32 x m;
  Ok (if r <? Q then r else 0).

(** [for (x=0; x<INT32_MAX; x++) { if (bad) return; } if (bad) return;
     for (x=-1; x>INT32_MIN; x--) { if (bad) return; } if (bad) return;]:
    the common shape of lines 78-104 and 112-134 *)
Definition all_int32 (bad : Z -> res bool) : res (option Z) :=
  do '(found, x) <- search (fuel INT32_MAX) 0 (fun x => x <? INT32_MAX) (fun x => add32 x 1) bad;
  if found : bool then Ok (Some x) else
  do b <- bad x;
  if b : bool then Ok (Some x) else
  do '(found, x) <- search (fuel INT32_MAX) (-1) (fun x => INT32_MIN <? x) (fun x => sub32 x 1) bad;
  if found : bool then Ok (Some x) else
  do b <- bad x;
  if b : bool then Ok (Some x) else Ok None.

(** check_approx_pmodq_bound, lines 75-107: [Some (x, r)] for "fails for x" *)
Definition check_approx_pmodq_bound (n : Z) : res (option (Z * Z)) :=
  do v <- all_int32 (fun x =>
    do r <- approx_pmodq x n;
    Ok ((r <? 0) || (Q <? r)));
  match v with
  | Some x => do r <- approx_pmodq x n; Ok (Some (x, r))
  | None => Ok None
  end.

(** What test_pmod_approx prints *)
Inductive verdict :=
| Fails (x pmod approx : Z)
| Works (bounds : option (Z * Z)).

(** test_pmod_approx, lines 109-139 *)
Definition test_pmod_approx (n : Z) : res verdict :=
  do v <- all_int32 (fun x =>
    do a <- approx_pmodq x n;
    do p <- pmodq x;
    Ok (negb (a =? p)));
  match v with
  | Some x =>
      do p <- pmodq x;
      do a <- approx_pmodq x n;
      Ok (Fails x p a)
  | None =>
      do b <- check_approx_pmodq_bound n;
      Ok (Works b)
  end.

(** test_all_pmod_approx, lines 141-149 *)
Definition test_all_pmod_approx : res (list (Z * Z * verdict)) :=
  cfor (fuel 20) 30 (fun n => n <? 50) (fun n => u32 (n + 1)) (fun n out =>
    do p <- approx_pinv n;
    do v <- test_pmod_approx n;
    Ok (out ++ [(n, p, v)])) [].

(** The loop of main, lines 154-160: x and min after it *)
Definition sequence_loop (x : Z) : res (Z * Z) :=
  cfor (fuel 100000) 0 (fun i => i <? 100000) (fun i => i + 1) (fun _ '(x, min) =>
    do m <- smodq x;
    let min := if m <? min then m else min in
    do y <- mul32 P x;
    do x <- add32 y R;
    Ok (x, min)) (x, Q).

(** main, lines 151-169 *)
Definition main : res (Z * list (Z * Z * option Z) * list (Z * Z * verdict)) :=
  do '(_, min) <- sequence_loop R;
  do l <- test_all_approx;
  do l' <- test_all_pmod_approx;
  Ok (min, l, l').
