(** Concrete tensors of a general calculation. *)
From Coq Require Import List String ZArith QArith Qcanon Lia.
From Verif Require Import Base Alg ArrModel EinsumModel CgModel CgSpec CgFormSpec CgProofs CgCompare CgBuild CgNames CgTables CgTables2 CgAgreeEx.
Import ListNotations.
Local Open Scope nat_scope.

(** Two occupied and two virtual spin orbitals. *)
Definition general_sz (c : cls) : nat := match c with 0 | 1 => 2 | _ => 1 end.
Lemma general_symmetric : symmetric general_sz general_basis_symmetries general_basis (ex_basis general_sz general_basis_symmetries general_basis).
Proof. apply sym_check_ok. vm_compute. reflexivity. Qed.
Lemma general_nonzero : tens Qc_fld (ex_basis general_sz general_basis_symmetries general_basis n_t2) [0; 1; 0; 1] <> r0 /\
  tens Qc_fld (ex_basis general_sz general_basis_symmetries general_basis n_f'ov) [0; 1] <> r0.
Proof. repeat split; intros H; apply (f_equal this) in H; vm_compute in H; discriminate H. Qed.
