(** What the generated files should say, as the reader of [SpecC] sees it. *)

From Coq Require Import ZArith List Ascii String.
From Verif Require Import CSem Spec ModelGen SpecC.
Import ListNotations.
Open Scope string_scope.
Open Scope Z_scope.

(** The values of the type [ty] include [v]. *)
Definition type_holds (ty : string) (v : Z) : Prop :=
  (ty = "uint16_t" /\ 0 <= v <= 65535) \/ (ty = "int16_t" /\ -32768 <= v <= 32767)
  \/ (ty = "int32_t" /\ -2147483648 <= v <= 2147483647).

(** The value of a constant or of an array fits in its declared type, and the
    array has the declared length. *)
Definition fits (i : item) : Prop :=
  match i with
  | Constant ty _ v => type_holds ty v
  | Table ty _ [d] (Numbers l) => d = Word (decimal (zlen l)) /\ forall v, In v l -> type_holds ty v
  | Table ty _ [_; d] (Pairs l) => d = Word "2" /\ forall x y, In (x, y) l -> type_holds ty x /\ type_holds ty y
  | Table _ _ _ _ => False
  | Extern _ _ _ | Directive _ => True
  end.

Definition include (f : string) : item :=
  Directive [Word "include"; Punct """"; Word f; Punct "."; Word "h"; Punct """"].
Definition guarded (g : string) (l : list item) : list item :=
  ([Directive [Word "ifndef"; Word g]; Directive [Word "define"; Word g];
    Directive [Word "include"; Punct "<"; Word "stdint"; Punct "."; Word "h"; Punct ">"]]
   ++ l ++ [Directive [Word "endif"]])%list.

(** ntt<n>_tables.h and ntt<n>_tables.c *)
Definition ntt_const (n : Z) (name : string) (v : Z) : item := Constant "int32_t" ("ntt" ++ decimal n ++ "_" ++ name) v.
Definition ntt_extern (n : Z) (name : string) : item := Extern "uint16_t" ("ntt" ++ decimal n ++ "_" ++ name) [Word (decimal n)].
Definition ntt_table (n : Z) (name : string) (l : list Z) : item :=
  Table "uint16_t" ("ntt" ++ decimal n ++ "_" ++ name) [Word (decimal n)] (Numbers l).

Definition says_tables_h (n : Z) (T : tables) : list item :=
  guarded ("__NTT" ++ decimal n ++ "_TABLES_H")
    [ntt_const n "psi" (t_psi T); ntt_const n "omega" (t_omega T); ntt_const n "inv_psi" (t_inv_psi T);
     ntt_const n "inv_omega" (t_inv_omega T); ntt_const n "inv_n" (t_inv_n T);
     ntt_extern n "psi_powers"; ntt_extern n "inv_psi_powers"; ntt_extern n "scaled_inv_psi_powers";
     ntt_extern n "omega_powers"; ntt_extern n "omega_powers_rev";
     ntt_extern n "inv_omega_powers"; ntt_extern n "inv_omega_powers_rev";
     ntt_extern n "mixed_powers"; ntt_extern n "mixed_powers_rev";
     ntt_extern n "inv_mixed_powers"; ntt_extern n "inv_mixed_powers_rev"].

Definition says_tables_c (n : Z) (T : tables) : list item :=
  [include ("ntt" ++ decimal n ++ "_tables");
   ntt_table n "psi_powers" (psi_powers T);
   ntt_table n "inv_psi_powers" (inv_psi_powers T);
   ntt_table n "inv_psi_powers_rev" (inv_psi_powers_rev T);
   ntt_table n "scaled_inv_psi_powers" (scaled_inv_psi_powers T);
   ntt_table n "omega_powers" (omega_powers T);
   ntt_table n "omega_powers_rev" (omega_powers_rev T);
   ntt_table n "inv_omega_powers" (inv_omega_powers T);
   ntt_table n "inv_omega_powers_rev" (inv_omega_powers_rev T);
   ntt_table n "mixed_powers" (mixed_powers T);
   ntt_table n "mixed_powers_rev" (mixed_powers_rev T);
   ntt_table n "inv_mixed_powers" (inv_mixed_powers T);
   ntt_table n "inv_mixed_powers_rev" (inv_mixed_powers_rev T)].

(** ntt_red<n>_tables.h and ntt_red<n>_tables.c *)
Definition red_const (n : Z) (name : string) (v : Z) : item := Constant "int32_t" ("ntt_red" ++ decimal n ++ "_" ++ name) v.
Definition red_extern (n : Z) (name : string) : item := Extern "int16_t" ("ntt_red" ++ decimal n ++ "_" ++ name) [Word (decimal n)].
Definition red_table (n : Z) (name : string) (l : list Z) : item :=
  Table "int16_t" ("ntt_red" ++ decimal n ++ "_" ++ name) [Word (decimal n)] (Numbers l).

Definition says_red_tables_h (n : Z) (T : red_tables) : list item :=
  guarded ("__NTT_RED" ++ decimal n ++ "_TABLES_H")
    [red_const n "psi" (r_psi T); red_const n "omega" (r_omega T); red_const n "inv_psi" (r_inv_psi T);
     red_const n "inv_omega" (r_inv_omega T); red_const n "inv_n" (r_inv_n T); red_const n "inv_k" (r_inv_k T);
     red_const n "rescale8" (rescale8 T); red_const n "rescale6" (rescale6 T);
     red_extern n "psi_powers"; red_extern n "inv_psi_powers";
     red_extern n "scaled_inv_psi_powers"; red_extern n "scaled_inv_psi_powers_var";
     red_extern n "omega_powers"; red_extern n "omega_powers_rev";
     red_extern n "inv_omega_powers"; red_extern n "inv_omega_powers_rev";
     red_extern n "mixed_powers"; red_extern n "mixed_powers_rev";
     red_extern n "inv_mixed_powers"; red_extern n "inv_mixed_powers_rev"].

Definition says_red_tables_c (n : Z) (T : red_tables) : list item :=
  [include ("ntt_red" ++ decimal n ++ "_tables");
   red_table n "psi_powers" (red_psi_powers T);
   red_table n "psi_powers_rev" (red_psi_powers_rev T);
   red_table n "inv_psi_powers" (red_inv_psi_powers T);
   red_table n "scaled_inv_psi_powers" (red_scaled_inv_psi_powers T);
   red_table n "scaled_inv_psi_powers_var" (red_scaled_inv_psi_powers_var T);
   red_table n "omega_powers" (red_omega_powers T);
   red_table n "omega_powers_rev" (red_omega_powers_rev T);
   red_table n "inv_omega_powers" (red_inv_omega_powers T);
   red_table n "inv_omega_powers_rev" (red_inv_omega_powers_rev T);
   red_table n "mixed_powers" (red_mixed_powers T);
   red_table n "mixed_powers_rev" (red_mixed_powers_rev T);
   red_table n "inv_mixed_powers" (red_inv_mixed_powers T);
   red_table n "inv_mixed_powers_rev" (red_inv_mixed_powers_rev T)].

(** bitrev<n>_table.h and bitrev<n>_table.c; [m] is the number of pairs. *)
Definition npairs (n : Z) : string := "BITREV" ++ decimal n ++ "_NPAIRS".

Definition says_bitrev_h (n m : Z) : list item :=
  guarded ("__BITREV" ++ decimal n ++ "_TABLE_H")
    [Directive [Word "define"; Word (npairs n); Word (decimal m)];
     Extern "uint16_t" ("bitrev" ++ decimal n) [Word (npairs n); Word "2"]].

Definition says_bitrev_c (n : Z) (t : list (Z * Z)) : list item :=
  [include ("bitrev" ++ decimal n ++ "_table");
   Table "uint16_t" ("bitrev" ++ decimal n) [Word (npairs n); Word "2"] (Pairs t)].
