(** Concrete vectors for the equation-of-motion products. *)
From Coq Require Import List String ZArith QArith Qcanon Lia.
From Verif Require Import Base Alg ArrModel EinsumModel CgModel CgSpec CgFormSpec CgProofs CgCompare CgBuild CgNames CgTables CgTables2 CgRelSpec CgLagSpec CgAgreeEx CgAgree2Ex EomModel CgEomSpec.
Import ListNotations.
Local Open Scope nat_scope.

(** Numbers for all given tensors and both vectors. *)
Definition sizes (s : spin_type) : cls -> nat := match s with Restricted => closed_sz | Unrestricted => spin_sz | General => general_sz end.
Definition example (s : spin_type) (x : sector) : env Qc_fld := ex_basis (sizes s) (with_vectors_symmetries s x) (with_vectors s x).
Lemma example_symmetric s x : symmetric (sizes s) (with_vectors_symmetries s x) (with_vectors s x) (example s x).
Proof. apply sym_check_ok. destruct s, x; vm_compute; reflexivity. Qed.
Lemma example_one s x : symmetric (sizes s) (with_vector_symmetries s x) (with_vector s x) (example s x).
Proof.
  intros y cs l axes neg Hy Hl. apply (example_symmetric s x y cs l axes neg); [unfold with_vectors|unfold with_vectors_symmetries]; apply in_or_app; left; assumption.
Qed.
Lemma example_given s x : symmetric (sizes s) (given_symmetries s) (given s) (example s x).
Proof.
  intros y cs l axes neg Hy Hl. apply (example_one s x y cs l axes neg); [unfold with_vector|unfold with_vector_symmetries]; apply in_or_app; left; assumption.
Qed.
Lemma example_nonzero : tens Qc_fld (example Restricted IP n_r2) [0; 1; 0] <> r0 /\ tens Qc_fld (example Unrestricted EA n_r2'aaa) [0; 1; 0] <> r0 /\
  tens Qc_fld (example General EE n_r2) [0; 1; 0; 1] <> r0 /\ tens Qc_fld (example General EE (direction n_r2)) [0; 1; 0; 1] <> r0 /\ tens Qc_fld (example General EE n_epsilon) [] <> r0.
Proof. repeat split; intros H; apply (f_equal this) in H; vm_compute in H; discriminate H. Qed.
(** The inner products of the counterexample differ: sum r1 r1new is not zero. *)
Lemma left_nonzero : value general_sz (example General IP) [] [mono 1 2 [(n_r1, [0]); (n_t1, [1; 10]); (n_v'oooo, [0; 1; 2; 3]); (n_r2, [2; 3; 10])]] [] <> r0 /\
  value general_sz (example General EA) [] [mono 1 2 [(n_r1, [10]); (n_t1, [0; 11]); (n_v'vvvv, [10; 11; 12; 13]); (n_r2, [12; 13; 0])]] [] <> r0 /\
  value general_sz (example General EE) [] [mono 1 2 [(n_r1, [0; 10]); (n_t1, [1; 11]); (n_v'oooo, [0; 1; 2; 3]); (n_r2, [2; 3; 10; 11])]] [] <> r0.
Proof. repeat split; intros H; apply (f_equal this) in H; vm_compute in H; discriminate H. Qed.
Lemma half_nonzero : value general_sz (example General EE) [0; 1; 10; 11] (snd (lookup half_oooo_r2 n_r2new [0; 0; 1; 1])) [0; 1; 0; 1] <> r0.
Proof. intros H; apply (f_equal this) in H; vm_compute in H; discriminate H. Qed.
