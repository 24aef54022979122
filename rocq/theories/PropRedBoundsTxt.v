(** Property C97: the bounds that src/red-bounds.txt lists for the tables of constants. *)

From Coq Require Import ZArith List Bool Lia.
From Verif Require Import CSem Spec SpecNotes SpecRedBoundsTxt ModelBounds ModelTestTables ModelTestRedBounds TestRedBoundsFinal RedBoundsTxtFinal.
From Verif Require ModelRed.
Import ListNotations.
Open Scope Z_scope.

(** C97. For each of the 24 tables the four sequences for Cooley-Tukey and for Gentleman-Sande start with the four bounds on
    the input, have as many rounds as the transform, and each number is the least bound on the values after the round, given
    that the number before bounds the values before it. *)
Theorem red_bounds_txt_best :
  Forall2 (fun '(n, p) seqs =>
      map (fun s => at_ (fst s) 0) seqs = [6144; 12288; 21499; 36864]
      /\ map (fun s => at_ (snd s) 0) seqs = [6144; 12288; 21499; 36864]
      /\ Forall (fun '(ct, gs) => ct_best n p ct /\ gs_best n p gs) seqs)
    [(16, shoup_sred_ntt16_12289); (16, rev_shoup_sred_ntt16_12289);
     (16, shoup_sred_scaled_ntt16_12289); (16, rev_shoup_sred_scaled_ntt16_12289);
     (128, shoup_sred_ntt128_12289); (128, rev_shoup_sred_ntt128_12289);
     (128, shoup_sred_scaled_ntt128_12289); (128, rev_shoup_sred_scaled_ntt128_12289);
     (256, shoup_sred_ntt256_12289); (256, rev_shoup_sred_ntt256_12289);
     (256, shoup_sred_scaled_ntt256_12289); (256, rev_shoup_sred_scaled_ntt256_12289);
     (512, shoup_sred_ntt512_12289); (512, rev_shoup_sred_ntt512_12289);
     (512, shoup_sred_scaled_ntt512_12289); (512, rev_shoup_sred_scaled_ntt512_12289);
     (1024, shoup_sred_ntt1024_12289); (1024, rev_shoup_sred_ntt1024_12289);
     (1024, shoup_sred_scaled_ntt1024_12289); (1024, rev_shoup_sred_scaled_ntt1024_12289);
     (2048, shoup_sred_ntt2048_12289); (2048, rev_shoup_sred_ntt2048_12289);
     (2048, shoup_sred_scaled_ntt2048_12289); (2048, rev_shoup_sred_scaled_ntt2048_12289)]
    listed.
Proof. exact red_bounds_txt_best_L. Qed.
Print Assumptions red_bounds_txt_best.

(** The last round of the first sequence: 181573 is attained. *)
Example red_bounds_txt_best_ex :
  nth_error listed 0 = Some
    [([6144; 12288; 26031; 72770; 181573], [6144; 28504; 87920; 175840; 351680]);
     ([12288; 24576; 49152; 126652; 307120], [12288; 44836; 131355; 262710; 525420]);
     ([21499; 42998; 85996; 212492; 507050], [21499; 69334; 196449; 392898; 785796]);
     ([36864; 73728; 147456; 355612; 840359], [36864; 110164; 304978; 609956; 1219912])]
  /\ at_ shoup_sred_ntt16_12289 (2 ^ 3 + 2) = 5444
  /\ 72770 + ln_red (5444 * -72625) = 181573.
Proof. split; [reflexivity|]. split; reflexivity. Qed.

(** C97. Whatever the array bound contains, and if it is long enough, the functions ntt_ct_bounds and ntt_gs_bounds of
    src/red_bounds.c store the sequence that is listed, and return its last number. *)
Theorem red_bounds_txt_computed :
  forall i n p seqs ct gs bound, nth_error tables i = Some (n, p) -> nth_error listed i = Some seqs -> In (ct, gs) seqs ->
  zlen ct <= zlen bound ->
  (exists bd, ntt_ct_bounds (at_ ct 0) n p bound = Ok (last ct 0, bd) /\ zlen bd = zlen bound /\ firstn (length ct) bd = ct)
  /\ exists bd, ntt_gs_bounds (at_ gs 0) n p bound = Ok (last gs 0, bd) /\ zlen bd = zlen bound /\ firstn (length gs) bd = gs.
Proof. exact red_bounds_txt_computed_L. Qed.
Print Assumptions red_bounds_txt_computed.

Example red_bounds_txt_computed_ex :
  nth_error tables 0 = Some (16, shoup_sred_ntt16_12289)
  /\ ntt_ct_bounds 6144 16 shoup_sred_ntt16_12289 [7; 7; 7; 7; 7; 7] = Ok (181573, [6144; 12288; 26031; 72770; 181573; 7])
  /\ ntt_gs_bounds 6144 16 shoup_sred_ntt16_12289 [7; 7; 7; 7; 7; 7] = Ok (351680, [6144; 28504; 87920; 175840; 351680; 7]).
Proof. split; [reflexivity|]. split; vm_compute; reflexivity. Qed.

(** C97. The last number of each sequence bounds the result of the transforms of src/ntt_red.c with the table, which do not
    overflow, for all arrays within the bound on the input.  The variants of Cooley-Tukey that do not multiply for j = 0 need
    a table with -4096, the representation of 1, at p[1], p[2], p[4].. (a table that is not scaled).  The sequences of
    Gentleman-Sande for n = 2048 from 36864 end above 2^31 and are excluded. *)
Theorem red_bounds_txt_transforms :
  forall i n p seqs ct gs a, nth_error tables i = Some (n, p) -> nth_error listed i = Some seqs -> In (ct, gs) seqs ->
  zlen a = n -> (forall j, 0 <= j < n -> Z.abs (at_ a j) <= at_ ct 0) ->
  (forall run, In run [ModelRed.mulntt_red_ct_rev2std; ModelRed.mulntt_red_ct_std2rev]
      \/ (forall l, 0 <= l < Z.log2 n -> at_ p (2 ^ l) = -4096) /\ In run [ModelRed.ntt_red_ct_rev2std; ModelRed.ntt_red_ct_std2rev] ->
    exists r, run a n p = Ok r /\ zlen r = n /\ forall j, 0 <= j < n -> Z.abs (at_ r j) <= last ct 0)
  /\ (n < 2048 \/ at_ ct 0 < 36864 ->
    forall run, In run [ModelRed.nttmul_red_gs_rev2std; ModelRed.nttmul_red_gs_std2rev; ModelRed.ntt_red_gs_rev2std; ModelRed.ntt_red_gs_std2rev] ->
    exists r, run a n p = Ok r /\ zlen r = n /\ forall j, 0 <= j < n -> Z.abs (at_ r j) <= last gs 0).
Proof. exact red_bounds_txt_transforms_L. Qed.
Print Assumptions red_bounds_txt_transforms.

Example red_bounds_txt_transforms_ex :
  zlen txt_ex = 16 /\ forallb (fun x => Z.abs x <=? 6144) txt_ex = true
  /\ map (at_ shoup_sred_ntt16_12289) [2 ^ 0; 2 ^ 1; 2 ^ 2; 2 ^ 3] = [-4096; -4096; -4096; -4096]
  /\ ModelRed.ntt_red_ct_rev2std txt_ex 16 shoup_sred_ntt16_12289
     = Ok [24576; 37068; -37809; 30027; 13767; 380; -22531; 17525; 0; 34458; 13233; 16921; 10809; -22754; -2045; -15321]
  /\ ModelRed.nttmul_red_gs_std2rev txt_ex 16 shoup_sred_ntt16_12289
     = Ok [24576; 0; 13767; 10809; 19431; 5145; 16331; 8245; -8007; -7413; 12365; 8971; 36814; -21394; -5951; -15385].
Proof. split; [reflexivity|]. split; [reflexivity|]. split; [reflexivity|]. split; vm_compute; reflexivity. Qed.

(** C97. What src/test_red_bounds.c prints now for each table, without the line for 30709, which is not in the file, are the
    bounds on the input with the last numbers of the sequences listed. *)
Theorem red_bounds_txt_printed :
  forall stk, (forall i, zlen (stk i) = 12) -> exists out, main stk = Ok out
  /\ Forall2 (fun rows seqs => filter (fun r => negb (fst (fst r) =? 30709)) rows
                 = map (fun s => (at_ (fst s) 0, last (fst s) 0, last (snd s) 0)) seqs)
       (p_tables out) listed.
Proof. exact red_bounds_txt_printed_L. Qed.
Print Assumptions red_bounds_txt_printed.

(** An array, and for the table for n = 2048 with constants scaled, in the order rev2std, what is printed: of these only the
    last bound does not fit in 32 bits. *)
Example red_bounds_txt_printed_ex :
  zlen (stk_ex 5) = 12
  /\ map (fun s => (at_ (fst s) 0, last (fst s) 0, last (snd s) 0)) (nth 22 listed [])
     = [(6144, 167476489, 616427772); (12288, 207523054, 923610916); (21499, 267876598, 1383779094); (36864, 368563645, 2159409570)].
Proof. split; reflexivity. Qed.
