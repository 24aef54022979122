(** Boolean versions of the hypotheses of the property theorems, used only to
    check the concrete cases shown beside them. *)

From Coq Require Import ZArith List Bool Lia.
From Verif Require Import CSem Spec Loops.
Import ListNotations.
Open Scope Z_scope.

Definition all_inb (lo hi : Z) (a : list Z) : bool :=
  forallb (fun v => (lo <=? v) && (v <=? hi)) a.

Lemma all_inb_ok lo hi a : all_inb lo hi a = true -> all_in lo hi a.
Proof.
  unfold all_inb, all_in. rewrite forallb_forall. intros H v Hv. specialize (H v Hv). lia.
Qed.

(** Quantification over [0 <= i < n]. *)
Definition ztimes (n : Z) : list Z := map Z.of_nat (seq 0 (Z.to_nat n)).

Lemma ztimes_in n i : 0 <= i < n -> In i (ztimes n).
Proof.
  intros H. unfold ztimes. apply in_map_iff. exists (Z.to_nat i). split; [lia|].
  apply in_seq. lia.
Qed.

Definition table_atb (k : Z) (p : list Z) (f : Z -> Z -> Z) : bool :=
  (zlen p =? 2 ^ k) &&
  forallb (fun l => forallb (fun j => at_ p (2 ^ l + j) mod Q =? f l j mod Q) (ztimes (2 ^ l)))
          (ztimes k).

Lemma table_atb_ok k p f : table_atb k p f = true -> table_at k p f.
Proof.
  unfold table_atb, table_at. rewrite andb_true_iff, Z.eqb_eq, forallb_forall.
  intros [HL H]. split; [exact HL|]. intros l j Hl Hj.
  specialize (H l (ztimes_in _ _ Hl)). rewrite forallb_forall in H.
  specialize (H j (ztimes_in _ _ Hj)). apply Z.eqb_eq in H. exact H.
Qed.

(** [omega_table] and the like unfold to [table_at]. *)
Ltac check_table := apply table_atb_ok; vm_compute; reflexivity.
Ltac check_all_in := apply all_inb_ok; vm_compute; reflexivity.
