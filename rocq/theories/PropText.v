(** Properties C58 and C59: the text of the generated files. *)

From Coq Require Import ZArith List Ascii String.
From Verif Require Import CSem Spec ModelGen ModelText SpecC SpecFiles Exlib ExTables CommittedText CommittedTables TextFinal.
Import ListNotations.
Open Scope string_scope.
Open Scope Z_scope.

(** C58: what make_tables writes is two files with these names, and read as C
    they declare and define the computed parameters and tables *)
Theorem make_tables_files_read :
forall malloc size psi T, (forall n, 0 <= n -> zlen (malloc n) = n) ->
  make_tables malloc size psi = Ok (Written T) ->
  exists h c, make_tables_files malloc size psi
    = Ok (Written [("ntt" ++ decimal size ++ "_tables.h", h); ("ntt" ++ decimal size ++ "_tables.c", c)])
  /\ read_c h = Some (says_tables_h size T) /\ read_c c = Some (says_tables_c size T)
  /\ forall i, In i (says_tables_h size T ++ says_tables_c size T)%list -> fits i.
Proof. exact make_tables_files_read_L. Qed.
Print Assumptions make_tables_files_read.

Example make_tables_files_ex :
  make_tables malloc77 16 1212 = Ok (Written T16)
  /\ exists h c, make_tables_files malloc77 16 1212 = Ok (Written [("ntt16_tables.h", h); ("ntt16_tables.c", c)])
  /\ read_c h = Some (says_tables_h 16 T16) /\ read_c c = Some (says_tables_c 16 T16)
  /\ nth_error (says_tables_c 16 T16) 4
     = Some (Table "uint16_t" "ntt16_scaled_inv_psi_powers" [Word "16"] (Numbers (scaled_inv_psi_powers T16))).
Proof.
  split; [exact T16_made|]. eexists. eexists. split; [vm_compute; reflexivity|].
  split; [vm_compute; reflexivity|]. split; vm_compute; reflexivity.
Qed.

(** C58: the same for make_red_tables *)
Theorem make_red_tables_files_read :
forall malloc size psi T, (forall n, 0 <= n -> zlen (malloc n) = n) ->
  make_red_tables malloc size psi = Ok (Written T) ->
  exists h c, make_red_tables_files malloc size psi
    = Ok (Written [("ntt_red" ++ decimal size ++ "_tables.h", h); ("ntt_red" ++ decimal size ++ "_tables.c", c)])
  /\ read_c h = Some (says_red_tables_h size T) /\ read_c c = Some (says_red_tables_c size T)
  /\ forall i, In i (says_red_tables_h size T ++ says_red_tables_c size T)%list -> fits i.
Proof. exact make_red_tables_files_read_L. Qed.
Print Assumptions make_red_tables_files_read.

Example make_red_tables_files_ex :
  make_red_tables malloc77 16 1212 = Ok (Written R16)
  /\ exists h c, make_red_tables_files malloc77 16 1212 = Ok (Written [("ntt_red16_tables.h", h); ("ntt_red16_tables.c", c)])
  /\ read_c h = Some (says_red_tables_h 16 R16) /\ read_c c = Some (says_red_tables_c 16 R16)
  /\ nth_error (says_red_tables_c 16 R16) 1
     = Some (Table "int16_t" "ntt_red16_psi_powers" [Word "16"] (Numbers (red_psi_powers R16)))
  /\ (exists v, In v (red_psi_powers R16) /\ v < 0).
Proof.
  split; [exact R16_made|]. eexists. eexists. split; [vm_compute; reflexivity|].
  split; [vm_compute; reflexivity|]. split; [vm_compute; reflexivity|]. split; [vm_compute; reflexivity|].
  exists (-4096). split; [vm_compute; tauto|reflexivity].
Qed.

(** C58: the same for make_bitrev_table *)
Theorem make_bitrev_files_read :
forall size m t, make_bitrev_table size = Ok (Written (m, t)) ->
  exists h c, make_bitrev_files size
    = Ok (Written [("bitrev" ++ decimal size ++ "_table.h", h); ("bitrev" ++ decimal size ++ "_table.c", c)])
  /\ read_c h = Some (says_bitrev_h size m) /\ read_c c = Some (says_bitrev_c size t)
  /\ m = Z.of_nat (List.length t)
  /\ forall i, In i (says_bitrev_h size m ++ says_bitrev_c size t)%list -> fits i.
Proof. exact make_bitrev_files_read_L. Qed.
Print Assumptions make_bitrev_files_read.

Example make_bitrev_files_ex :
  make_bitrev_table 8 = Ok (Written (2, [(1, 4); (3, 6)]))
  /\ (exists h c, make_bitrev_files 8 = Ok (Written [("bitrev8_table.h", h); ("bitrev8_table.c", c)])
      /\ read_c h = Some (says_bitrev_h 8 2) /\ read_c c = Some (says_bitrev_c 8 [(1, 4); (3, 6)]))
  /\ says_bitrev_c 8 [(1, 4); (3, 6)]
     = [Directive [Word "include"; Punct """"; Word "bitrev8_table"; Punct "."; Word "h"; Punct """"];
        Table "uint16_t" "bitrev8" [Word "BITREV8_NPAIRS"; Word "2"] (Pairs [(1, 4); (3, 6)])].
Proof.
  split; [vm_compute; reflexivity|]. split; [|vm_compute; reflexivity].
  eexists. eexists. split; [vm_compute; reflexivity|]. split; vm_compute; reflexivity.
Qed.

(** C59: the committed bit-reversal tables are, byte for byte, what
    make_bitrev_table writes *)
Theorem committed_bitrev_files :
make_bitrev_files 16 = Ok (Written [("bitrev16_table.h", file_bitrev16_table_h); ("bitrev16_table.c", file_bitrev16_table_c)])
  /\ make_bitrev_files 256 = Ok (Written [("bitrev256_table.h", file_bitrev256_table_h); ("bitrev256_table.c", file_bitrev256_table_c)])
  /\ make_bitrev_files 512 = Ok (Written [("bitrev512_table.h", file_bitrev512_table_h); ("bitrev512_table.c", file_bitrev512_table_c)])
  /\ make_bitrev_files 1024 = Ok (Written [("bitrev1024_table.h", file_bitrev1024_table_h); ("bitrev1024_table.c", file_bitrev1024_table_c)]).
Proof. exact committed_bitrev_files_L. Qed.
Print Assumptions committed_bitrev_files.

(** C59: the committed file ntt32_tables.c, read as C, holds the tables that
    make_tables computes (except inv_psi_powers_rev) and the bit-reversal
    pairs; ntt32_tables.h holds the parameters *)
Theorem committed_ntt32_files :
forall malloc, (forall n, 0 <= n -> zlen (malloc n) = n) ->
  exists T m t, make_tables malloc 32 563 = Ok (Written T) /\ make_bitrev_table 32 = Ok (Written (m, t))
  /\ read_c file_ntt32_tables_c = Some
     [include "ntt32_tables";
      Table "uint16_t" "ntt32_bitrev" [Word "BITREV32_NPAIRS"; Word "2"] (Pairs t);
      ntt_table 32 "psi_powers" (psi_powers T);
      ntt_table 32 "inv_psi_powers" (inv_psi_powers T);
      ntt_table 32 "scaled_inv_psi_powers" (scaled_inv_psi_powers T);
      ntt_table 32 "omega_powers" (omega_powers T);
      ntt_table 32 "omega_powers_rev" (omega_powers_rev T);
      ntt_table 32 "inv_omega_powers" (inv_omega_powers T);
      ntt_table 32 "inv_omega_powers_rev" (inv_omega_powers_rev T);
      ntt_table 32 "mixed_powers" (mixed_powers T);
      ntt_table 32 "mixed_powers_rev" (mixed_powers_rev T);
      ntt_table 32 "inv_mixed_powers" (inv_mixed_powers T);
      ntt_table 32 "inv_mixed_powers_rev" (inv_mixed_powers_rev T)]
  /\ read_c file_ntt32_tables_h = Some (guarded "__NTT32_TABLES_H"
     [ntt_const 32 "psi" (t_psi T); ntt_const 32 "omega" (t_omega T); ntt_const 32 "inv_psi" (t_inv_psi T);
      ntt_const 32 "inv_omega" (t_inv_omega T); ntt_const 32 "inv_n" (t_inv_n T);
      Directive [Word "define"; Word "BITREV32_NPAIRS"; Word (decimal m)];
      Extern "uint16_t" "ntt32_bitrev" [Word "BITREV32_NPAIRS"; Word "2"];
      ntt_extern 32 "psi_powers"; ntt_extern 32 "inv_psi_powers"; ntt_extern 32 "scaled_inv_psi_powers";
      ntt_extern 32 "omega_powers"; ntt_extern 32 "omega_powers_rev";
      ntt_extern 32 "inv_omega_powers"; ntt_extern 32 "inv_omega_powers_rev";
      ntt_extern 32 "mixed_powers"; ntt_extern 32 "mixed_powers_rev";
      ntt_extern 32 "inv_mixed_powers"; ntt_extern 32 "inv_mixed_powers_rev"]).
Proof. exact committed_ntt32_files_L. Qed.
Print Assumptions committed_ntt32_files.

Example committed_ntt32_files_ex :
  forall n, 0 <= n -> zlen (malloc77 n) = n.
Proof. intros n Hn. unfold malloc77, zlen. rewrite repeat_length. apply Z2Nat.id. exact Hn. Qed.
