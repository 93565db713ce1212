(** A concrete system of two parts. *)
From Coq Require Import List String ZArith QArith Qcanon Lia.
From Verif Require Import Base Alg ArrModel EinsumModel CgModel CgSpec CgFormSpec CgProofs CgCompare CgBuild CgNames CgTables CgTables2 CgRelSpec CgPartSpec CgAgreeEx CgAgree2Ex.
Import ListNotations.
Local Open Scope nat_scope.

(** Two orbitals of each kind in the first part, one in the second. *)
Definition parts_sz (c : cls) : nat := if c <? 20 then 3 else if c <? 40 then 2 else 1.
Lemma parts_split : splits parts_sz two_parts.
Proof.
  intros c. unfold two_parts, part. destruct (Nat.ltb_spec c 20) as [L|L].
  - split; [constructor; [intros [H|[]]; lia|constructor; [intros []|constructor]]|].
    unfold parts_sz. cbn [map list_sum fold_right]. rewrite (proj2 (Nat.ltb_lt c 20) L).
    destruct (Nat.ltb_spec (c + 20) 20); [lia|]. destruct (Nat.ltb_spec (c + 20) 40); [|lia].
    destruct (Nat.ltb_spec (c + 40) 20); [lia|]. destruct (Nat.ltb_spec (c + 40) 40); [lia|reflexivity].
  - split; [constructor; [intros []|constructor]|]. cbn. rewrite Nat.add_0_r. reflexivity.
Qed.
Lemma parts_symmetric_R : symmetric parts_sz (both_symmetries spatial_symmetries) (both spatial) (ex_basis parts_sz (both_symmetries spatial_symmetries) (both spatial)).
Proof. apply sym_check_ok. vm_compute. reflexivity. Qed.
Lemma parts_symmetric_G : symmetric parts_sz (both_symmetries general_basis_symmetries) (both general_basis) (ex_basis parts_sz (both_symmetries general_basis_symmetries) (both general_basis)).
Proof. apply sym_check_ok. vm_compute. reflexivity. Qed.
Lemma parts_nonzero : tens Qc_fld (ex_basis parts_sz (both_symmetries spatial_symmetries) (both spatial) (part_name false n_t2)) [0; 1; 1; 0] <> r0 /\
  tens Qc_fld (ex_basis parts_sz (both_symmetries spatial_symmetries) (both spatial) (part_name true n_t2)) [0; 0; 0; 0] <> r0.
Proof. repeat split; intros H; apply (f_equal this) in H; vm_compute in H; discriminate H. Qed.
