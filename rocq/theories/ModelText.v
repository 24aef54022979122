(** Model of the text the generators print (src/make_tables.c,
    src/make_red_tables.c, src/make_bitrev_table.c).

    [ModelGen] computes the numbers; here are the files they end up in.  A
    sequence of fprintf calls is the concatenation of their outputs.  "\n" is
    the character 10. *)

From Coq Require Import ZArith List Ascii String DecimalString.
From Verif Require Import CSem ModelGen.
Import ListNotations.
Open Scope string_scope.
Open Scope Z_scope.

(** "\n" *)
Definition eol : string := String "010" "".

(** %u, %d *)
Definition fmt_u (z : Z) : string := NilZero.string_of_uint (N.to_uint (Z.to_N z)).
Definition fmt_d (z : Z) : string := if z <? 0 then "-" ++ fmt_u (- z) else fmt_u z.

(** The filling for %5... *)
Fixpoint spaces (k : nat) : string := match k with O => "" | S k => " " ++ spaces k end.

(** %5...: at least five characters, filled with spaces on the left *)
Definition width5 (s : string) : string := spaces (5 - String.length s) ++ s.

(** The loop of print_table (src/make_tables.c 201-210, src/make_red_tables.c
    248-257): entries in rows of eight.  State: k and the text. *)
Definition print_entries (entry : Z -> string) (a : list Z) (n : Z) : res string :=
  do st <- cfor (fuel n) 0 (fun i => i <? n) (fun i => u32 (i + 1)) (fun i (st : Z * string) =>
    let (k, t) := st in
    let t := if k =? 0 then t ++ "   " else t in
    do x <- rd a i;
    let t := t ++ " " ++ entry x ++ "," in
    let k := u32 (k + 1) in
    if k =? 8 then Ok (0, t ++ eol) else Ok (k, t)) (0, "");
  let (k, t) := st in
  Ok (if 0 <? k then t ++ eol else t).

(** ** make_tables.c *)

(** print_table, src/make_tables.c 196-213 *)
Definition table_text (name : string) (a : list Z) (n : Z) : res string :=
  do t <- print_entries (fun x => width5 (fmt_u x)) a n;
  Ok ("const uint16_t ntt" ++ fmt_u n ++ "_" ++ name ++ "[" ++ fmt_u n ++ "] = {" ++ eol ++ t ++ "};" ++ eol ++ eol).

(** print_header, src/make_tables.c 218-232 *)
Definition header_text (q n : Z) (T : tables) : string :=
  "/*" ++ eol ++
  " * Parameters:" ++ eol ++
  " * - q = " ++ fmt_u q ++ eol ++
  " * - n = " ++ fmt_u n ++ eol ++
  " * - psi = " ++ fmt_u (t_psi T) ++ eol ++
  " * - omega = psi^2 = " ++ fmt_u (t_omega T) ++ eol ++
  " * - inverse of psi = " ++ fmt_u (t_inv_psi T) ++ eol ++
  " * - inverse of omega = " ++ fmt_u (t_inv_omega T) ++ eol ++
  " * - inverse of n = " ++ fmt_u (t_inv_n T) ++ eol ++
  " */" ++ eol ++ eol.

(** print_comment, src/make_tables.c 237-239, src/make_red_tables.c 286-288 *)
Definition comment_text (what : string) : string :=
  "/*" ++ eol ++ " * " ++ what ++ eol ++ " */" ++ eol.

(** print_param_def, src/make_tables.c 241-243 *)
Definition param_text (name : string) (n v : Z) : string :=
  "static const int32_t ntt" ++ fmt_u n ++ "_" ++ name ++ " = " ++ fmt_u v ++ ";" ++ eol.

(** print_table_decl, src/make_tables.c 245-247 *)
Definition decl_text (name : string) (n : Z) : string :=
  "extern const uint16_t ntt" ++ fmt_u n ++ "_" ++ name ++ "[" ++ fmt_u n ++ "];" ++ eol.

(** print_declarations, src/make_tables.c 249-284: the file ntt<n>_tables.h *)
Definition tables_h (q n : Z) (T : tables) : string :=
  header_text q n T ++
  "#ifndef __NTT" ++ fmt_u n ++ "_TABLES_H" ++ eol ++
  "#define __NTT" ++ fmt_u n ++ "_TABLES_H" ++ eol ++ eol ++
  "#include <stdint.h>" ++ eol ++ eol ++
  comment_text "PARAMETERS" ++
  param_text "psi" n (t_psi T) ++
  param_text "omega" n (t_omega T) ++
  param_text "inv_psi" n (t_inv_psi T) ++
  param_text "inv_omega" n (t_inv_omega T) ++
  param_text "inv_n" n (t_inv_n T) ++
  eol ++
  comment_text "POWERS OF PSI" ++
  decl_text "psi_powers" n ++
  decl_text "inv_psi_powers" n ++
  decl_text "scaled_inv_psi_powers" n ++
  eol ++
  comment_text "TABLES FOR NTT COMPUTATION" ++
  decl_text "omega_powers" n ++
  decl_text "omega_powers_rev" n ++
  decl_text "inv_omega_powers" n ++
  decl_text "inv_omega_powers_rev" n ++
  decl_text "mixed_powers" n ++
  decl_text "mixed_powers_rev" n ++
  decl_text "inv_mixed_powers" n ++
  decl_text "inv_mixed_powers_rev" n ++
  eol ++
  "#endif /* __NTT" ++ fmt_u n ++ "_TABLES_H */" ++ eol.

(** print_tables, src/make_tables.c 289-337: the file ntt<n>_tables.c.  The
    tables are those [ModelGen.print_tables] computes, in the order in which
    they are printed. *)
Definition tables_c (q n : Z) (T : tables) : res string :=
  do t1 <- table_text "psi_powers" (psi_powers T) n;
  do t2 <- table_text "inv_psi_powers" (inv_psi_powers T) n;
  do t3 <- table_text "inv_psi_powers_rev" (inv_psi_powers_rev T) n;
  do t4 <- table_text "scaled_inv_psi_powers" (scaled_inv_psi_powers T) n;
  do t5 <- table_text "omega_powers" (omega_powers T) n;
  do t6 <- table_text "omega_powers_rev" (omega_powers_rev T) n;
  do t7 <- table_text "inv_omega_powers" (inv_omega_powers T) n;
  do t8 <- table_text "inv_omega_powers_rev" (inv_omega_powers_rev T) n;
  do t9 <- table_text "mixed_powers" (mixed_powers T) n;
  do t10 <- table_text "mixed_powers_rev" (mixed_powers_rev T) n;
  do t11 <- table_text "inv_mixed_powers" (inv_mixed_powers T) n;
  do t12 <- table_text "inv_mixed_powers_rev" (inv_mixed_powers_rev T) n;
  Ok (header_text q n T ++
      "#include ""ntt" ++ fmt_u n ++ "_tables.h""" ++ eol ++ eol ++
      t1 ++ t2 ++ t3 ++ t4 ++ t5 ++ t6 ++ t7 ++ t8 ++ t9 ++ t10 ++ t11 ++ t12).

(** ** make_red_tables.c *)

(** print_table, src/make_red_tables.c 243-259.  [a] is the list of shifted
    values, see [ModelGen.print_table_red]. *)
Definition red_table_text (name : string) (a : list Z) (n : Z) : res string :=
  do t <- print_entries (fun x => width5 (fmt_d x)) a n;
  Ok ("const int16_t ntt_red" ++ fmt_u n ++ "_" ++ name ++ "[" ++ fmt_u n ++ "] = {" ++ eol ++ t ++ "};" ++ eol ++ eol).

(** print_header, src/make_red_tables.c 265-281 *)
Definition red_header_text (q k n : Z) (T : red_tables) : string :=
  "/*" ++ eol ++
  " * Parameters:" ++ eol ++
  " * - q = " ++ fmt_u q ++ eol ++
  " * - k = " ++ fmt_u k ++ eol ++
  " * - n = " ++ fmt_u n ++ eol ++
  " * - psi = " ++ fmt_u (r_psi T) ++ eol ++
  " * - omega = psi^2 = " ++ fmt_u (r_omega T) ++ eol ++
  " * - inverse of psi = " ++ fmt_u (r_inv_psi T) ++ eol ++
  " * - inverse of omega = " ++ fmt_u (r_inv_omega T) ++ eol ++
  " * - inverse of n = " ++ fmt_u (r_inv_n T) ++ eol ++
  " * - inverse of k = " ++ fmt_u (r_inv_k T) ++ eol ++
  " */" ++ eol ++ eol.

(** print_param_def, src/make_red_tables.c 290-292 *)
Definition red_param_text (name : string) (n v : Z) : string :=
  "static const int32_t ntt_red" ++ fmt_u n ++ "_" ++ name ++ " = " ++ fmt_u v ++ ";" ++ eol.

(** print_table_decl, src/make_red_tables.c 294-296 *)
Definition red_decl_text (name : string) (n : Z) : string :=
  "extern const int16_t ntt_red" ++ fmt_u n ++ "_" ++ name ++ "[" ++ fmt_u n ++ "];" ++ eol.

(** print_declarations, src/make_red_tables.c 298-338: ntt_red<n>_tables.h *)
Definition red_tables_h (q k n : Z) (T : red_tables) : string :=
  red_header_text q k n T ++
  "#ifndef __NTT_RED" ++ fmt_u n ++ "_TABLES_H" ++ eol ++
  "#define __NTT_RED" ++ fmt_u n ++ "_TABLES_H" ++ eol ++ eol ++
  "#include <stdint.h>" ++ eol ++ eol ++
  comment_text "PARAMETERS" ++
  red_param_text "psi" n (r_psi T) ++
  red_param_text "omega" n (r_omega T) ++
  red_param_text "inv_psi" n (r_inv_psi T) ++
  red_param_text "inv_omega" n (r_inv_omega T) ++
  red_param_text "inv_n" n (r_inv_n T) ++
  red_param_text "inv_k" n (r_inv_k T) ++
  red_param_text "rescale8" n (rescale8 T) ++
  red_param_text "rescale6" n (rescale6 T) ++
  eol ++
  comment_text "POWERS OF PSI" ++
  red_decl_text "psi_powers" n ++
  red_decl_text "inv_psi_powers" n ++
  red_decl_text "scaled_inv_psi_powers" n ++
  red_decl_text "scaled_inv_psi_powers_var" n ++
  eol ++
  comment_text "TABLES FOR NTT COMPUTATION" ++
  red_decl_text "omega_powers" n ++
  red_decl_text "omega_powers_rev" n ++
  red_decl_text "inv_omega_powers" n ++
  red_decl_text "inv_omega_powers_rev" n ++
  red_decl_text "mixed_powers" n ++
  red_decl_text "mixed_powers_rev" n ++
  red_decl_text "inv_mixed_powers" n ++
  red_decl_text "inv_mixed_powers_rev" n ++
  eol ++
  "#endif /* __NTT_RED" ++ fmt_u n ++ "_TABLES_H */" ++ eol.

(** print_tables, src/make_red_tables.c 343-398: ntt_red<n>_tables.c *)
Definition red_tables_c (q k n : Z) (T : red_tables) : res string :=
  do t1 <- red_table_text "psi_powers" (red_psi_powers T) n;
  do t2 <- red_table_text "psi_powers_rev" (red_psi_powers_rev T) n;
  do t3 <- red_table_text "inv_psi_powers" (red_inv_psi_powers T) n;
  do t4 <- red_table_text "scaled_inv_psi_powers" (red_scaled_inv_psi_powers T) n;
  do t5 <- red_table_text "scaled_inv_psi_powers_var" (red_scaled_inv_psi_powers_var T) n;
  do t6 <- red_table_text "omega_powers" (red_omega_powers T) n;
  do t7 <- red_table_text "omega_powers_rev" (red_omega_powers_rev T) n;
  do t8 <- red_table_text "inv_omega_powers" (red_inv_omega_powers T) n;
  do t9 <- red_table_text "inv_omega_powers_rev" (red_inv_omega_powers_rev T) n;
  do t10 <- red_table_text "mixed_powers" (red_mixed_powers T) n;
  do t11 <- red_table_text "mixed_powers_rev" (red_mixed_powers_rev T) n;
  do t12 <- red_table_text "inv_mixed_powers" (red_inv_mixed_powers T) n;
  do t13 <- red_table_text "inv_mixed_powers_rev" (red_inv_mixed_powers_rev T) n;
  Ok (red_header_text q k n T ++
      "#include ""ntt_red" ++ fmt_u n ++ "_tables.h""" ++ eol ++ eol ++
      t1 ++ t2 ++ t3 ++ t4 ++ t5 ++ t6 ++ t7 ++ t8 ++ t9 ++ t10 ++ t11 ++ t12 ++ t13).

(** ** make_bitrev_table.c *)

(** print_bitrev_declarations, src/make_bitrev_table.c 92-104: bitrev<n>_table.h *)
Definition bitrev_h (n m : Z) : string :=
  "#ifndef __BITREV" ++ fmt_u n ++ "_TABLE_H" ++ eol ++
  "#define __BITREV" ++ fmt_u n ++ "_TABLE_H" ++ eol ++ eol ++
  "#include <stdint.h>" ++ eol ++ eol ++
  "#define BITREV" ++ fmt_u n ++ "_NPAIRS " ++ fmt_u m ++ eol ++ eol ++
  "extern const uint16_t bitrev" ++ fmt_u n ++ "[BITREV" ++ fmt_u n ++ "_NPAIRS][2];" ++ eol ++ eol ++
  "#endif /* __BITREV" ++ fmt_u n ++ "_TABLE_H */" ++ eol.

(** print_bitrev_table, src/make_bitrev_table.c 66-86: bitrev<n>_table.c.  The
    pairs are printed as they are found, in rows of four. *)
Definition bitrev_c (n k : Z) : res string :=
  do st <- cfor (fuel n) 0 (fun i => i <? n) (fun i => u32 (i + 1)) (fun i (st : Z * string) =>
    let (z, t) := st in
    do j <- reverse i k;
    if i <? j then
      let t := if z =? 0 then t ++ "   " else t in
      let t := t ++ " { " ++ width5 (fmt_u i) ++ ", " ++ width5 (fmt_u j) ++ " }," in
      let z := u32 (z + 1) in
      if z =? 4 then Ok (0, t ++ eol) else Ok (z, t)
    else Ok (z, t)) (0, "");
  let (z, t) := st in
  Ok ("#include ""bitrev" ++ fmt_u n ++ "_table.h""" ++ eol ++ eol ++
      "const uint16_t bitrev" ++ fmt_u n ++ "[BITREV" ++ fmt_u n ++ "_NPAIRS][2] = {" ++ eol ++
      t ++ (if 0 <? z then eol else "") ++ "};" ++ eol ++ eol).

(** ** The programs: the files they write, as pairs of a name and a content.
    open_file (src/make_tables.c 344-356, src/make_red_tables.c 404-416,
    src/make_bitrev_table.c 112-124) is assumed to succeed; the names are
    shorter than its buffer of 100 characters, since n has at most five
    digits. *)

(** main, src/make_tables.c 358-441 *)
Definition make_tables_files (malloc : Z -> list Z) (size psi : Z) : res (outcome (list (string * string))) :=
  do o <- make_tables malloc size psi;
  match o with
  | Exit e => Ok (Exit e)
  | Written T =>
      do c <- tables_c 12289 size T;
      Ok (Written [("ntt" ++ fmt_u size ++ "_tables.h", tables_h 12289 size T);
                   ("ntt" ++ fmt_u size ++ "_tables.c", c)])
  end.

(** main, src/make_red_tables.c 418-514 *)
Definition make_red_tables_files (malloc : Z -> list Z) (size psi : Z) : res (outcome (list (string * string))) :=
  do o <- make_red_tables malloc size psi;
  match o with
  | Exit e => Ok (Exit e)
  | Written T =>
      do k <- find_k 12289;
      do c <- red_tables_c 12289 k size T;
      Ok (Written [("ntt_red" ++ fmt_u size ++ "_tables.h", red_tables_h 12289 k size T);
                   ("ntt_red" ++ fmt_u size ++ "_tables.c", c)])
  end.

(** main, src/make_bitrev_table.c 126-168 *)
Definition make_bitrev_files (size : Z) : res (outcome (list (string * string))) :=
  if size <=? 1 then Ok (Exit SizeTooSmall) else
  if 65535 <=? size then Ok (Exit SizeTooLarge) else
  let n := size in
  do lg <- logtwo n;
  match lg with None => Ok (Exit NotPowerOfTwo) | Some log_n =>
  do m <- rev_table_npairs n log_n;
  do c <- bitrev_c n log_n;
  Ok (Written [("bitrev" ++ fmt_u n ++ "_table.h", bitrev_h n m);
               ("bitrev" ++ fmt_u n ++ "_table.c", c)])
  end.
