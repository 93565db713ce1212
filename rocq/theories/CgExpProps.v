(** The generated conversions between cluster amplitudes and CI coefficients: 1 + C = exp(T) and T = log(1 + C). *)
From Coq Require Import List.
From Verif Require Import Base Alg ArrModel CgModel CgSpec CgFormSpec CgNames CgTables CgRelSpec CgLagSpec CgAgreeEx CgAgree2Ex CgExpSpec CgExp CgExpEx.
Import ListNotations.
Local Open Scope list_scope.

(** For all cluster amplitudes over spin orbitals, antisymmetric in the occupied and in the virtual indices, the functions convert_t1_to_c1
    to convert_t4_to_c4 of GecCC return the coefficients of exp(T): the sum over the ways to divide the electrons of the
    excitation among cluster operators, with signs ([expansion]). *)
Theorem C81_general_exponential : convert_all (general_tensors Cluster) (general_antisymmetry Cluster) (own_general Cluster) general_to_coefficients (expanded_general Coefficient).
Proof. exact general_exponential_ok. Qed.
Print Assumptions C81_general_exponential.
(** For all coefficients convert_c1_to_t1 to convert_c4_to_t4, given the coefficients and the logarithm at lower orders, return log(1 + C). *)
Theorem C81_general_logarithm :
  convert_all (general_tensors Coefficient) (general_antisymmetry Coefficient) (own_general Coefficient ++ expanded_general Cluster) general_to_amplitudes (expanded_general Cluster).
Proof. exact general_logarithm_ok. Qed.
Print Assumptions C81_general_logarithm.
(** From the coefficients of exp(T), with the amplitudes of lower orders, they return the amplitudes T; from log(1 + C) convert_t1_to_c1 and the
    others return the coefficients C. *)
Theorem C81_general_inverse :
  convert_all (general_tensors Cluster) (general_antisymmetry Cluster) (expanded_general Coefficient ++ own_general Cluster) general_to_amplitudes (own_general Cluster) /\
  convert_all (general_tensors Coefficient) (general_antisymmetry Coefficient) (expanded_general Cluster) general_to_coefficients (own_general Coefficient).
Proof. exact (conj general_amplitudes_back_ok general_coefficients_back_ok). Qed.
Print Assumptions C81_general_inverse.

(** Unrestricted.  An excitation of given spins is zero unless every spin is conserved, and is otherwise the stored block of its spins, with a sign
    ([in_blocks]).  UecCC.convert_t1_to_c1 to convert_t4_to_c4 take cluster amplitudes divided by n_alpha! n_beta!. *)
Theorem C81_unrestricted_exponential :
  convert_all (unrestricted_tensors Cluster) (unrestricted_antisymmetry Cluster) stored_unrestricted unrestricted_to_coefficients (expanded_unrestricted Coefficient).
Proof. exact unrestricted_exponential_ok. Qed.
Print Assumptions C81_unrestricted_exponential.
Theorem C81_unrestricted_logarithm :
  convert_all (unrestricted_tensors Coefficient) (unrestricted_antisymmetry Coefficient) (own_unrestricted Coefficient ++ expanded_unrestricted Cluster) unrestricted_to_amplitudes
    (expanded_unrestricted Cluster).
Proof. exact unrestricted_logarithm_ok. Qed.
Print Assumptions C81_unrestricted_logarithm.
Theorem C81_unrestricted_inverse :
  convert_all (unrestricted_tensors Cluster) (unrestricted_antisymmetry Cluster) (expanded_unrestricted Coefficient ++ own_unrestricted Cluster) unrestricted_to_amplitudes
    (own_unrestricted Cluster) /\
  convert_all (unrestricted_tensors Coefficient) (unrestricted_antisymmetry Coefficient) stored_expanded_unrestricted unrestricted_to_coefficients (own_unrestricted Coefficient).
Proof. exact (conj unrestricted_amplitudes_back_ok unrestricted_coefficients_back_ok). Qed.
Print Assumptions C81_unrestricted_inverse.

(** Closed shells.  An excitation of given spins is the sum, with signs, of the excitations of spatial orbitals in which every electron keeps its
    spin ([in_spatial]); these are symmetric under permutations of the electrons. *)
Theorem C81_restricted_exponential :
  convert_all (spatial_tensors Cluster) (spatial_symmetry Cluster) (own_restricted Cluster) restricted_to_coefficients (expanded_restricted Coefficient).
Proof. exact restricted_exponential_ok. Qed.
Print Assumptions C81_restricted_exponential.
Theorem C81_restricted_logarithm :
  convert_all (spatial_tensors Coefficient) (spatial_symmetry Coefficient) (own_restricted Coefficient ++ expanded_restricted Cluster) restricted_to_amplitudes (expanded_restricted Cluster).
Proof. exact restricted_logarithm_ok. Qed.
Print Assumptions C81_restricted_logarithm.
Theorem C81_restricted_inverse :
  convert_all (spatial_tensors Cluster) (spatial_symmetry Cluster) (expanded_restricted Coefficient ++ own_restricted Cluster) restricted_to_amplitudes (own_restricted Cluster) /\
  convert_all (spatial_tensors Coefficient) (spatial_symmetry Coefficient) (expanded_restricted Cluster) restricted_to_coefficients (own_restricted Coefficient).
Proof. exact (conj restricted_amplitudes_back_ok restricted_coefficients_back_ok). Qed.
Print Assumptions C81_restricted_inverse.

(** The arguments of the theorems exist, whatever the tensors. *)
Theorem C81_arguments_exist : forall p, In p all_conversions -> forall T (F : fld) sz (eB : env F), exists e, called_with sz eB T p e.
Proof. exact conversions_called. Qed.
Print Assumptions C81_arguments_exist.
Example C81_example : characteristic_zero Qc_fld /\
  (forall w, symmetric general_sz (general_antisymmetry w) (general_tensors w) (general_example w) /\
             symmetric spin_sz (unrestricted_antisymmetry w) (unrestricted_tensors w) (unrestricted_example w) /\
             symmetric closed_sz (spatial_symmetry w) (spatial_tensors w) (spatial_example w)) /\
  tens Qc_fld (general_example Cluster n_t2) [0; 1; 0; 1] <> r0 /\ tens Qc_fld (unrestricted_example Coefficient n_c2'abab) [0; 0; 1; 1] <> r0 /\
  tens Qc_fld (spatial_example Cluster n_t2) [0; 1; 0; 0] <> r0.
Proof. exact (conj Qc_characteristic_zero (conj examples_symmetric examples_nonzero)). Qed.
(** The coefficient of a double excitation: c_ijab = t_ijab - t_ib t_ja + t_ia t_jb; and t_ijab in terms of coefficients. *)
Example C81_expansion : expansion Coefficient [0; 1] [10; 11] =
    [mono 1 1 [(n_t2, [0; 1; 10; 11])]; mono (-1) 1 [(n_t1, [0; 11]); (n_t1, [1; 10])]; mono 1 1 [(n_t1, [0; 10]); (n_t1, [1; 11])]] /\
  expansion Cluster [0; 1] [10; 11] =
    [mono 1 1 [(n_c2, [0; 1; 10; 11])]; mono 1 1 [(n_c1, [0; 11]); (n_c1, [1; 10])]; mono (-1) 1 [(n_c1, [0; 10]); (n_c1, [1; 11])]].
Proof. split; reflexivity. Qed.
