(** Concrete tensors with directions. *)
From Coq Require Import List String ZArith QArith Qcanon Lia.
From Verif Require Import Base Alg ArrModel EinsumModel CgModel CgSpec CgFormSpec CgProofs CgCompare CgBuild CgNames CgTables CgTables2 CgRelSpec CgLagSpec CgAgreeEx CgAgree2Ex.
Import ListNotations.
Local Open Scope nat_scope.

Lemma directed_symmetric : symmetric general_sz directed_symmetries directed_basis (ex_basis general_sz directed_symmetries directed_basis).
Proof. apply sym_check_ok. vm_compute. reflexivity. Qed.
Lemma directed_nonzero : tens Qc_fld (ex_basis general_sz directed_symmetries directed_basis (direction n_t2)) [0; 1; 0; 1] <> r0 /\
  tens Qc_fld (ex_basis general_sz directed_symmetries directed_basis n_l2) [0; 1; 0; 1] <> r0.
Proof. repeat split; intros H; apply (f_equal this) in H; vm_compute in H; discriminate H. Qed.
(** The formulas of the counterexamples differ from zero. *)
Lemma half_oooo_nonzero :
  value general_sz (ex_basis general_sz general_basis_symmetries general_basis) [10; 11; 0; 1] (snd (lookup half_oooo n_l2new [1; 1; 0; 0])) [0; 1; 0; 1] <> r0.
Proof. intros H; apply (f_equal this) in H; vm_compute in H; discriminate H. Qed.
Lemma twice_nonzero :
  value general_sz (ex_basis general_sz general_basis_symmetries general_basis) [30; 10; 0] (snd (lookup twice_product n_lu11new [3; 1; 0])) [0; 1; 0] <> r0.
Proof. intros H; apply (f_equal this) in H; vm_compute in H; discriminate H. Qed.
