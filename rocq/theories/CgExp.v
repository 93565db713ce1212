(** The generated conversions between cluster amplitudes and CI coefficients: checks. *)
From Coq Require Import List ZArith.
From Verif Require Import Base Alg ArrModel EinsumModel CgModel CgSpec CgFormSpec CgNames CgTables CgRelSpec CgLagSpec CgCompare CgCompareProofs CgExpSpec.
Import ListNotations.
Local Open Scope list_scope. Local Open Scope nat_scope.

Definition all_compute B S T ps Tout : bool := forallb (fun p => computes B S id_split T p Tout) ps.
Lemma all_compute_ok B S T ps Tout : all_compute B S T ps Tout = true -> convert_all B S T ps Tout.
Proof.
  intros H p Hp F sz H0 eB HS m pa P e [A G]. unfold all_compute in H. rewrite forallb_forall in H.
  apply (@computes_sound B S id_split T p Tout (H p Hp) F sz H0 (splits_id sz) m pa P eB e HS A G).
Qed.
Lemma general_exponential_check : all_compute (general_tensors Cluster) (general_antisymmetry Cluster) (own_general Cluster) general_to_coefficients (expanded_general Coefficient) = true.
Proof. vm_compute. reflexivity. Qed.
Lemma general_exponential_ok : convert_all (general_tensors Cluster) (general_antisymmetry Cluster) (own_general Cluster) general_to_coefficients (expanded_general Coefficient).
Proof. exact (all_compute_ok _ _ _ _ _ general_exponential_check). Qed.
Lemma general_amplitudes_back_check : all_compute (general_tensors Cluster) (general_antisymmetry Cluster) (expanded_general Coefficient ++ own_general Cluster) general_to_amplitudes (own_general Cluster) = true.
Proof. vm_compute. reflexivity. Qed.
Lemma general_amplitudes_back_ok : convert_all (general_tensors Cluster) (general_antisymmetry Cluster) (expanded_general Coefficient ++ own_general Cluster) general_to_amplitudes (own_general Cluster).
Proof. exact (all_compute_ok _ _ _ _ _ general_amplitudes_back_check). Qed.
Lemma general_logarithm_check : all_compute (general_tensors Coefficient) (general_antisymmetry Coefficient) (own_general Coefficient ++ expanded_general Cluster) general_to_amplitudes (expanded_general Cluster) = true.
Proof. vm_compute. reflexivity. Qed.
Lemma general_logarithm_ok : convert_all (general_tensors Coefficient) (general_antisymmetry Coefficient) (own_general Coefficient ++ expanded_general Cluster) general_to_amplitudes (expanded_general Cluster).
Proof. exact (all_compute_ok _ _ _ _ _ general_logarithm_check). Qed.
Lemma general_coefficients_back_check : all_compute (general_tensors Coefficient) (general_antisymmetry Coefficient) (expanded_general Cluster) general_to_coefficients (own_general Coefficient) = true.
Proof. vm_compute. reflexivity. Qed.
Lemma general_coefficients_back_ok : convert_all (general_tensors Coefficient) (general_antisymmetry Coefficient) (expanded_general Cluster) general_to_coefficients (own_general Coefficient).
Proof. exact (all_compute_ok _ _ _ _ _ general_coefficients_back_check). Qed.
Lemma restricted_exponential_check : all_compute (spatial_tensors Cluster) (spatial_symmetry Cluster) (own_restricted Cluster) restricted_to_coefficients (expanded_restricted Coefficient) = true.
Proof. vm_compute. reflexivity. Qed.
Lemma restricted_exponential_ok : convert_all (spatial_tensors Cluster) (spatial_symmetry Cluster) (own_restricted Cluster) restricted_to_coefficients (expanded_restricted Coefficient).
Proof. exact (all_compute_ok _ _ _ _ _ restricted_exponential_check). Qed.
Lemma restricted_amplitudes_back_check : all_compute (spatial_tensors Cluster) (spatial_symmetry Cluster) (expanded_restricted Coefficient ++ own_restricted Cluster) restricted_to_amplitudes (own_restricted Cluster) = true.
Proof. vm_compute. reflexivity. Qed.
Lemma restricted_amplitudes_back_ok : convert_all (spatial_tensors Cluster) (spatial_symmetry Cluster) (expanded_restricted Coefficient ++ own_restricted Cluster) restricted_to_amplitudes (own_restricted Cluster).
Proof. exact (all_compute_ok _ _ _ _ _ restricted_amplitudes_back_check). Qed.
Lemma restricted_logarithm_check : all_compute (spatial_tensors Coefficient) (spatial_symmetry Coefficient) (own_restricted Coefficient ++ expanded_restricted Cluster) restricted_to_amplitudes (expanded_restricted Cluster) = true.
Proof. vm_compute. reflexivity. Qed.
Lemma restricted_logarithm_ok : convert_all (spatial_tensors Coefficient) (spatial_symmetry Coefficient) (own_restricted Coefficient ++ expanded_restricted Cluster) restricted_to_amplitudes (expanded_restricted Cluster).
Proof. exact (all_compute_ok _ _ _ _ _ restricted_logarithm_check). Qed.
Lemma restricted_coefficients_back_check : all_compute (spatial_tensors Coefficient) (spatial_symmetry Coefficient) (expanded_restricted Cluster) restricted_to_coefficients (own_restricted Coefficient) = true.
Proof. vm_compute. reflexivity. Qed.
Lemma restricted_coefficients_back_ok : convert_all (spatial_tensors Coefficient) (spatial_symmetry Coefficient) (expanded_restricted Cluster) restricted_to_coefficients (own_restricted Coefficient).
Proof. exact (all_compute_ok _ _ _ _ _ restricted_coefficients_back_check). Qed.
Lemma unrestricted_exponential_check : all_compute (unrestricted_tensors Cluster) (unrestricted_antisymmetry Cluster) (stored_unrestricted) unrestricted_to_coefficients (expanded_unrestricted Coefficient) = true.
Proof. vm_compute. reflexivity. Qed.
Lemma unrestricted_exponential_ok : convert_all (unrestricted_tensors Cluster) (unrestricted_antisymmetry Cluster) (stored_unrestricted) unrestricted_to_coefficients (expanded_unrestricted Coefficient).
Proof. exact (all_compute_ok _ _ _ _ _ unrestricted_exponential_check). Qed.
Lemma unrestricted_amplitudes_back_check : all_compute (unrestricted_tensors Cluster) (unrestricted_antisymmetry Cluster) (expanded_unrestricted Coefficient ++ own_unrestricted Cluster) unrestricted_to_amplitudes (own_unrestricted Cluster) = true.
Proof. vm_compute. reflexivity. Qed.
Lemma unrestricted_amplitudes_back_ok : convert_all (unrestricted_tensors Cluster) (unrestricted_antisymmetry Cluster) (expanded_unrestricted Coefficient ++ own_unrestricted Cluster) unrestricted_to_amplitudes (own_unrestricted Cluster).
Proof. exact (all_compute_ok _ _ _ _ _ unrestricted_amplitudes_back_check). Qed.
Lemma unrestricted_logarithm_check : all_compute (unrestricted_tensors Coefficient) (unrestricted_antisymmetry Coefficient) (own_unrestricted Coefficient ++ expanded_unrestricted Cluster) unrestricted_to_amplitudes (expanded_unrestricted Cluster) = true.
Proof. vm_compute. reflexivity. Qed.
Lemma unrestricted_logarithm_ok : convert_all (unrestricted_tensors Coefficient) (unrestricted_antisymmetry Coefficient) (own_unrestricted Coefficient ++ expanded_unrestricted Cluster) unrestricted_to_amplitudes (expanded_unrestricted Cluster).
Proof. exact (all_compute_ok _ _ _ _ _ unrestricted_logarithm_check). Qed.
Lemma unrestricted_coefficients_back_check : all_compute (unrestricted_tensors Coefficient) (unrestricted_antisymmetry Coefficient) (stored_expanded_unrestricted) unrestricted_to_coefficients (own_unrestricted Coefficient) = true.
Proof. vm_compute. reflexivity. Qed.
Lemma unrestricted_coefficients_back_ok : convert_all (unrestricted_tensors Coefficient) (unrestricted_antisymmetry Coefficient) (stored_expanded_unrestricted) unrestricted_to_coefficients (own_unrestricted Coefficient).
Proof. exact (all_compute_ok _ _ _ _ _ unrestricted_coefficients_back_check). Qed.
