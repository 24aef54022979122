(** Lemmas behind [PropText]. *)

From Coq Require Import ZArith List Ascii String Bool Lia.
From Verif Require Import CSem Spec Loops TableSpec ModelGen ModelText SpecC SpecFiles TextElem GenFinal Shuffle ShuffleFinal CommittedText CommittedTables.
Import ListNotations.
Open Scope string_scope.
Open Scope Z_scope.

Lemma reads_guard g l r : reads r l ->
  reads (guard_toks g ++ r)
    ([Directive [Word "ifndef"; Word g]; Directive [Word "define"; Word g];
      Directive [Word "include"; Punct "<"; Word "stdint"; Punct "."; Word "h"; Punct ">"]] ++ l)%list.
Proof.
  intros HR. unfold guard_toks. rewrite <- !List.app_assoc. cbn [List.app].
  apply (reads_dir [Word "ifndef"; Word g]); [repeat constructor; discriminate|].
  apply (reads_dir [Word "define"; Word g]); [repeat constructor; discriminate|].
  apply (reads_dir [Word "include"; Punct "<"; Word "stdint"; Punct "."; Word "h"; Punct ">"]); [repeat constructor; discriminate|].
  exact HR.
Qed.

Lemma reads_endif : reads (dir_toks [Word "endif"]) [Directive [Word "endif"]].
Proof.
  rewrite <- (List.app_nil_r (dir_toks _)). apply reads_dir; [repeat constructor; discriminate|]. constructor.
Qed.

Lemma reads_include w r is : reads r is -> reads (include_toks w ++ r) (include w :: is).
Proof. intros HR. unfold include_toks, include. apply reads_dir; [repeat constructor; discriminate|exact HR]. Qed.

Lemma reads_last l i : (forall r is, reads r is -> reads (l ++ r) (i :: is)) -> reads l [i].
Proof. intros H. rewrite <- (List.app_nil_r l). apply H. constructor. Qed.

Lemma pow_dec k : 0 <= k <= 11 -> 0 <= 2 ^ k <= 2048.
Proof. intros Hk. split; [apply Z.pow_nonneg; lia|]. transitivity (2 ^ 11); [apply Z.pow_le_mono_r; lia|reflexivity]. Qed.

Lemma fits_u16 n name a : zlen a = n -> all_in 0 (Q - 1) a -> fits (ntt_table n name a).
Proof.
  intros HL HA. unfold ntt_table, fits. split; [rewrite HL; reflexivity|]. intros v Hv. left. split; [reflexivity|].
  specialize (HA v Hv). unfold Q in HA. lia.
Qed.
Lemma fits_i16 n name a : zlen a = n -> all_in (-6144) 6144 a -> fits (red_table n name a).
Proof.
  intros HL HA. unfold red_table, fits. split; [rewrite HL; reflexivity|]. intros v Hv. right; left. split; [reflexivity|].
  specialize (HA v Hv). lia.
Qed.
Lemma fits_const n name v : 0 <= v < Q -> fits (ntt_const n name v).
Proof. intros H. unfold Q in H. right; right. split; [reflexivity|lia]. Qed.
Lemma fits_red_const n name v : 0 <= v < Q -> fits (red_const n name v).
Proof. intros H. unfold Q in H. right; right. split; [reflexivity|lia]. Qed.

Lemma in_cons_fits (P : item -> Prop) i l : P i -> (forall j, In j l -> P j) -> forall j, In j (i :: l) -> P j.
Proof. intros Hi Hl j [<-|H]; [exact Hi|exact (Hl j H)]. Qed.
Lemma in_nil_fits (P : item -> Prop) : forall j, In j (@nil item) -> P j.
Proof. intros j []. Qed.

Lemma make_tables_files_read_L :
forall malloc size psi T, (forall n, 0 <= n -> zlen (malloc n) = n) ->
  make_tables malloc size psi = Ok (Written T) ->
  exists h c, make_tables_files malloc size psi
    = Ok (Written [("ntt" ++ decimal size ++ "_tables.h", h); ("ntt" ++ decimal size ++ "_tables.c", c)])
  /\ read_c h = Some (says_tables_h size T) /\ read_c c = Some (says_tables_c size T)
  /\ forall i, In i (says_tables_h size T ++ says_tables_c size T)%list -> fits i.
Proof.
  intros malloc size psi T HM HT.
  destruct (make_tables_output_L malloc size psi T HM HT) as (k & Hk & Hs & HO).
  destruct (proj1 (make_tables_accepts_iff_L malloc size psi HM) (ex_intro _ T HT)) as (_ & Hpsi & _).
  destruct (tables_c_ok 12289 size T k psi HO Hs ltac:(lia)) as (c & Ec & Hc).
  exists (tables_h 12289 size T), c.
  assert (Hpsi' : 0 <= t_psi T < Q) by (rewrite (ok_psi _ _ _ HO); lia).
  split; [unfold make_tables_files; rewrite HT; cbn [bind]; rewrite Ec; cbn [bind]; reflexivity|].
  split; [|split].
  - apply (reads_c _ _ _ (run_tables_h 12289 size T)). unfold says_tables_h, guarded. apply reads_guard.
    cbn [List.app].
    do 5 (apply reads_param; [first [apply Hpsi' | apply (ok_omega _ _ _ HO) | apply (ok_inv_psi _ _ _ HO)
      | apply (ok_inv_omega _ _ _ HO) | apply (ok_inv_n _ _ _ HO)]|]).
    do 11 apply reads_decl. exact reads_endif.
  - apply (reads_c _ _ _ Hc). unfold says_tables_c. apply reads_include.
    do 11 apply reads_table. apply reads_last. intros r is. apply reads_table.
  - destruct HO as [_ [_ O1] [_ O2] [_ O3] [_ O4] [[L1 _] P1] [[L2 _] P2] [[L3 _] P3] [[L4 _] P4] [[L5 _] P5] [[L6 _] P6]
      [[L7 _] P7] [[L8 _] P8] [[L9 _] P9] [[L10 _] P10] [[L11 _] P11] [[L12 _] P12]].
    rewrite <- Hs in *. unfold says_tables_h, says_tables_c, guarded. cbn [List.app].
    repeat (apply in_cons_fits; [first [exact I | apply fits_const; assumption | apply fits_u16; assumption]|]).
    apply in_nil_fits.
Qed.

Lemma make_red_tables_files_read_L :
forall malloc size psi T, (forall n, 0 <= n -> zlen (malloc n) = n) ->
  make_red_tables malloc size psi = Ok (Written T) ->
  exists h c, make_red_tables_files malloc size psi
    = Ok (Written [("ntt_red" ++ decimal size ++ "_tables.h", h); ("ntt_red" ++ decimal size ++ "_tables.c", c)])
  /\ read_c h = Some (says_red_tables_h size T) /\ read_c c = Some (says_red_tables_c size T)
  /\ forall i, In i (says_red_tables_h size T ++ says_red_tables_c size T)%list -> fits i.
Proof.
  intros malloc size psi T HM HT.
  destruct (make_red_tables_output_L malloc size psi T HM HT) as (k & Hk & Hs & HO).
  destruct (proj1 (make_red_tables_accepts_iff_L malloc size psi HM) (ex_intro _ T HT)) as (_ & Hpsi & _).
  destruct (red_tables_c_ok 12289 3 size T k psi HO Hs ltac:(lia)) as (c & Ec & Hc).
  exists (red_tables_h 12289 3 size T), c.
  assert (Hpsi' : 0 <= r_psi T < Q) by (rewrite (rok_psi _ _ _ HO); lia).
  assert (Hinvk : 0 <= r_inv_k T < Q) by (rewrite (rok_inv_k _ _ _ HO); unfold Q; lia).
  assert (Ek : find_k 12289 = Ok 3) by (vm_compute; reflexivity).
  split; [unfold make_red_tables_files; rewrite HT, Ek; cbn [bind]; rewrite Ec; cbn [bind]; reflexivity|].
  split; [|split].
  - apply (reads_c _ _ _ (run_red_tables_h 12289 3 size T)). unfold says_red_tables_h, guarded. apply reads_guard.
    cbn [List.app].
    do 8 (apply reads_param; [first [apply Hpsi' | apply Hinvk | apply (rok_omega _ _ _ HO) | apply (rok_inv_psi _ _ _ HO)
      | apply (rok_inv_omega _ _ _ HO) | apply (rok_inv_n _ _ _ HO) | apply (rok_rescale8 _ _ _ HO) | apply (rok_rescale6 _ _ _ HO)]|]).
    do 12 apply reads_decl. exact reads_endif.
  - apply (reads_c _ _ _ Hc). unfold says_red_tables_c. apply reads_include.
    do 12 apply reads_table. apply reads_last. intros r is. apply reads_table.
  - destruct HO as [_ [_ O1] [_ O2] [_ O3] [_ O4] _ [_ O5] [_ O6] [[L1 _] P1] [[L2 _] P2] [[L3 _] P3] [[L4 _] P4] [[L5 _] P5] [[L6 _] P6]
      [[L7 _] P7] [[L8 _] P8] [[L9 _] P9] [[L10 _] P10] [[L11 _] P11] [[L12 _] P12] [[L13 _] P13]].
    rewrite <- Hs in *. unfold says_red_tables_h, says_red_tables_c, guarded. cbn [List.app].
    repeat (apply in_cons_fits; [first [exact I | apply fits_red_const; assumption | apply fits_i16; assumption]|]).
    apply in_nil_fits.
Qed.

Lemma make_bitrev_files_read_L :
forall size m t, make_bitrev_table size = Ok (Written (m, t)) ->
  exists h c, make_bitrev_files size
    = Ok (Written [("bitrev" ++ decimal size ++ "_table.h", h); ("bitrev" ++ decimal size ++ "_table.c", c)])
  /\ read_c h = Some (says_bitrev_h size m) /\ read_c c = Some (says_bitrev_c size t)
  /\ m = Z.of_nat (List.length t)
  /\ forall i, In i (says_bitrev_h size m ++ says_bitrev_c size t)%list -> fits i.
Proof.
  intros size m t HT.
  destruct (bitrev_table_shuffle_agrees_L size m t HT) as (Hm & HP & _).
  assert (HT' := HT). unfold make_bitrev_table in HT'. unfold make_bitrev_files.
  destruct (size <=? 1); [discriminate HT'|]. destruct (65535 <=? size); [discriminate HT'|]. cbv zeta in HT' |- *.
  destruct (logtwo size) as [[k|]|e]; [|discriminate HT'|discriminate HT']. cbn [bind] in HT' |- *.
  destruct (rev_table_npairs size k) as [m'|e]; [|discriminate HT']. cbn [bind] in HT' |- *.
  destruct (print_bitrev_table size k) as [t'|e] eqn:Et; [|discriminate HT']. cbn [bind] in HT'.
  injection HT' as -> ->.
  destruct (bitrev_c_ok size k t Et) as (c & Ec & Hc). rewrite Ec. cbn [bind].
  eexists. eexists. split; [reflexivity|]. split; [|split; [|split; [exact Hm|]]].
  - apply (reads_c _ _ _ (run_bitrev_h size m)). unfold says_bitrev_h, guarded. apply reads_guard.
    cbn [List.app]. apply reads_dir; [repeat constructor; discriminate|].
    eapply reads_cons; [reflexivity|cbn [List.length dir_toks List.app]; lia|exact reads_endif].
  - apply (reads_c _ _ _ Hc). unfold says_bitrev_c. apply reads_include.
    apply (reads_cons _ _ []); [|cbn [List.app List.length]; lia|constructor].
    cbn [List.app]. cbn [one_item]. change ("const" =? "const")%string with true. cbv iota. cbn [dims].
    cbn [initializer].
    rewrite pairs_ok; [reflexivity|]. apply Forall_forall. intros [i j] Hij. destruct (HP i j Hij). cbn [fst snd]. lia.
  - unfold says_bitrev_h, says_bitrev_c, guarded. cbn [List.app].
    repeat (apply in_cons_fits; [first [exact I | idtac]|]); [|apply in_nil_fits].
    split; [reflexivity|]. intros x y Hxy. destruct (HP x y Hxy) as (H1 & H2 & H3). change (2 ^ 16) with 65536 in H3.
    split; left; (split; [reflexivity|lia]).
Qed.

Lemma committed_bitrev_files_L :
make_bitrev_files 16 = Ok (Written [("bitrev16_table.h", file_bitrev16_table_h); ("bitrev16_table.c", file_bitrev16_table_c)])
  /\ make_bitrev_files 256 = Ok (Written [("bitrev256_table.h", file_bitrev256_table_h); ("bitrev256_table.c", file_bitrev256_table_c)])
  /\ make_bitrev_files 512 = Ok (Written [("bitrev512_table.h", file_bitrev512_table_h); ("bitrev512_table.c", file_bitrev512_table_c)])
  /\ make_bitrev_files 1024 = Ok (Written [("bitrev1024_table.h", file_bitrev1024_table_h); ("bitrev1024_table.c", file_bitrev1024_table_c)]).
Proof.
  split; [vm_compute; reflexivity|]. split; [vm_compute; reflexivity|]. split; vm_compute; reflexivity.
Qed.

Lemma committed_ntt32_files_L :
forall malloc, (forall n, 0 <= n -> zlen (malloc n) = n) ->
  exists T m t, make_tables malloc 32 563 = Ok (Written T) /\ make_bitrev_table 32 = Ok (Written (m, t))
  /\ read_c file_ntt32_tables_c = Some
     [include "ntt32_tables";
      Table "uint16_t" "ntt32_bitrev" [Word "BITREV32_NPAIRS"; Word "2"] (Pairs t);
      ntt_table 32 "psi_powers" (psi_powers T);
      ntt_table 32 "inv_psi_powers" (inv_psi_powers T);
      ntt_table 32 "scaled_inv_psi_powers" (scaled_inv_psi_powers T);
      ntt_table 32 "omega_powers" (omega_powers T);
      ntt_table 32 "omega_powers_rev" (omega_powers_rev T);
      ntt_table 32 "inv_omega_powers" (inv_omega_powers T);
      ntt_table 32 "inv_omega_powers_rev" (inv_omega_powers_rev T);
      ntt_table 32 "mixed_powers" (mixed_powers T);
      ntt_table 32 "mixed_powers_rev" (mixed_powers_rev T);
      ntt_table 32 "inv_mixed_powers" (inv_mixed_powers T);
      ntt_table 32 "inv_mixed_powers_rev" (inv_mixed_powers_rev T)]
  /\ read_c file_ntt32_tables_h = Some (guarded "__NTT32_TABLES_H"
     [ntt_const 32 "psi" (t_psi T); ntt_const 32 "omega" (t_omega T); ntt_const 32 "inv_psi" (t_inv_psi T);
      ntt_const 32 "inv_omega" (t_inv_omega T); ntt_const 32 "inv_n" (t_inv_n T);
      Directive [Word "define"; Word "BITREV32_NPAIRS"; Word (decimal m)];
      Extern "uint16_t" "ntt32_bitrev" [Word "BITREV32_NPAIRS"; Word "2"];
      ntt_extern 32 "psi_powers"; ntt_extern 32 "inv_psi_powers"; ntt_extern 32 "scaled_inv_psi_powers";
      ntt_extern 32 "omega_powers"; ntt_extern 32 "omega_powers_rev";
      ntt_extern 32 "inv_omega_powers"; ntt_extern 32 "inv_omega_powers_rev";
      ntt_extern 32 "mixed_powers"; ntt_extern 32 "mixed_powers_rev";
      ntt_extern 32 "inv_mixed_powers"; ntt_extern 32 "inv_mixed_powers_rev"]).
Proof.
  intros malloc HM. destruct (committed_ntt32_tables_L malloc HM) as (T & HT & E1 & E2 & E3 & E4 & E5 & H).
  destruct committed_bitrev_tables_L as (_ & _ & _ & _ & HB).
  exists T, BITREV32_NPAIRS, ntt32_bitrev. split; [exact HT|]. split; [exact HB|].
  rewrite E1, E2, E3, E4, E5.
  repeat match goal with H : _ /\ _ |- _ => destruct H end.
  repeat match goal with H : _ T = _ |- _ => rewrite H; clear H end.
  split; vm_compute; reflexivity.
Qed.
