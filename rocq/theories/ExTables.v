(** The tables the generators write for size 16 and psi = 1212 (the parameters of
    src/Makefile for n = 16), used in the examples. *)

From Coq Require Import ZArith List.
From Verif Require Import CSem ModelGen.
Import ListNotations.
Open Scope Z_scope.

Definition malloc77 (n : Z) : list Z := repeat 77 (Z.to_nat n).

Definition T16 : tables :=
  {| t_psi := 1212;
     t_omega := 6553;
     t_inv_psi := 2545;
     t_inv_omega := 722;
     t_inv_n := 11521; psi_powers := [1; 1212; 6553; 3542; 4043; 9094; 10984; 3621; 1479; 10643; 8155; 3504; 7143; 5860; 11567; 9744];
     inv_psi_powers := [1; 2545; 722; 6429; 5146; 8785; 4134; 1646; 10810; 8668; 1305; 3195; 8246; 8747; 5736; 11077];
     inv_psi_powers_rev := [0; 1; 1; 5146; 1; 5146; 722; 4134; 1; 5146; 722; 4134; 2545; 8785; 6429; 1646];
     scaled_inv_psi_powers := [11521; 11680; 10798; 2706; 4930; 12070; 7939; 1639; 5284; 3614; 5458; 4040; 8196; 4387; 6503; 9141];
     omega_powers := [0; 1; 1; 1479; 1; 4043; 1479; 7143; 1; 6553; 4043; 10984; 1479; 8155; 7143; 11567];
     omega_powers_rev := [0; 1; 1; 1479; 1; 1479; 4043; 7143; 1; 1479; 4043; 7143; 6553; 8155; 10984; 11567];
     inv_omega_powers := [0; 1; 1; 10810; 1; 5146; 10810; 8246; 1; 722; 5146; 4134; 10810; 1305; 8246; 5736];
     inv_omega_powers_rev := [0; 1; 1; 10810; 1; 10810; 5146; 8246; 1; 10810; 5146; 8246; 722; 1305; 4134; 5736];
     mixed_powers := [0; 1479; 4043; 7143; 6553; 10984; 8155; 11567; 1212; 3542; 9094; 3621; 10643; 3504; 5860; 9744];
     mixed_powers_rev := [0; 1479; 4043; 7143; 6553; 8155; 10984; 11567; 1212; 10643; 9094; 5860; 3542; 3504; 3621; 9744];
     inv_mixed_powers := [0; 10810; 5146; 8246; 722; 4134; 1305; 5736; 2545; 6429; 8785; 1646; 8668; 3195; 8747; 11077];
     inv_mixed_powers_rev := [0; 10810; 5146; 8246; 722; 1305; 4134; 5736; 2545; 8668; 8785; 8747; 6429; 3195; 1646; 11077] |}.

Definition R16 : red_tables :=
  {| r_psi := 1212;
     r_omega := 6553;
     r_inv_psi := 2545;
     r_inv_omega := 722;
     r_inv_n := 11521;
     r_inv_k := 8193; rescale8 := 5973; rescale6 := 4601; red_psi_powers := [-4096; 404; -1912; 5277; 5444; -1065; -435; 1207; 493; -4645; -1378; 1168; 2381; -2143; -4337; 3248];
     red_psi_powers_rev := [0; -4096; -4096; 5444; -4096; 5444; -1912; -435; -4096; 5444; -1912; -435; 404; -1065; 5277; 1207];
     red_inv_psi_powers := [-4096; -3248; 4337; 2143; -2381; -1168; 1378; 4645; -493; -1207; 435; 1065; -5444; -5277; 1912; -404];
     red_scaled_inv_psi_powers := [5973; -208; -933; -2708; 2269; -1225; 3781; 358; 1724; 407; 3539; -1082; -954; 5292; -604; -1055];
     red_scaled_inv_psi_powers_var := [4601; -1872; 3892; 206; -4157; 1264; -2838; 3222; 3227; 3663; -5016; 2551; 3703; -1528; -5436; 2794];
     red_omega_powers := [0; -4096; -4096; 493; -4096; 5444; 493; 2381; -4096; -1912; 5444; -435; 493; -1378; 2381; -4337];
     red_omega_powers_rev := [0; -4096; -4096; 493; -4096; 493; 5444; 2381; -4096; 493; 5444; 2381; -1912; -1378; -435; -4337];
     red_inv_omega_powers := [0; -4096; -4096; -493; -4096; -2381; -493; -5444; -4096; 4337; -2381; 1378; -493; 435; -5444; 1912];
     red_inv_omega_powers_rev := [0; -4096; -4096; -493; -4096; -493; -2381; -5444; -4096; -493; -2381; -5444; 4337; 435; 1378; 1912];
     red_mixed_powers := [0; 493; 5444; 2381; -1912; -435; -1378; -4337; 404; 5277; -1065; 1207; -4645; 1168; -2143; 3248];
     red_mixed_powers_rev := [0; 493; 5444; 2381; -1912; -1378; -435; -4337; 404; -4645; -1065; -2143; 5277; 1168; 1207; 3248];
     red_inv_mixed_powers := [0; -493; -2381; -5444; 4337; 1378; 435; 1912; -3248; 2143; -1168; 4645; -1207; 1065; -5277; -404];
     red_inv_mixed_powers_rev := [0; -493; -2381; -5444; 4337; 435; 1378; 1912; -3248; -1207; -1168; -5277; 2143; 1065; 4645; -404] |}.

Lemma T16_made : make_tables malloc77 16 1212 = Ok (Written T16).
Proof. vm_compute. reflexivity. Qed.

Lemma R16_made : make_red_tables malloc77 16 1212 = Ok (Written R16).
Proof. vm_compute. reflexivity. Qed.
