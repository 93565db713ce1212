(** Matrix-vector products of the equation-of-motion methods. *)
From Coq Require Import List String.
From Verif Require Import Base Alg ArrModel EinsumModel CgModel CgSpec CgFormSpec CgNames CgTables CgTables2 CgRelSpec CgLagSpec CgPairs CgAgreeEx CgAgree2Ex CgLagEx CgChainSpec EomModel CgEomSpec CgEomPairs CgEom CgEomThms CgEomEx.
From Verif Require Import Cg_RCCSD Cg_UCCSD Cg_GCCSD Cg_RDFCCSD Cg_GCC2.
Import ListNotations.
Local Open Scope string_scope. Local Open Scope list_scope. Local Open Scope nat_scope.

(** A product consists of two functions: hbar_(l)matvec_x_intermediates computes intermediates, hbar_(l)matvec_x uses them
    ([product_is]).  Take any Fock matrix, integrals and amplitudes of a restricted calculation, and any vector.  Called with the
    same tensors for both spins, the unrestricted product returns the restricted one, for both spins. *)
Theorem C77_restricted_unrestricted : forall name x p q, In (name, x, p, q) restricted_unrestricted_products ->
  products_agree (with_vector Restricted x) (with_vector_symmetries Restricted x) (first_vector Restricted x) p closed_split (closed_shell_arguments x) q (closed_shell_products x).
Proof. exact ru_products. Qed.
Print Assumptions C77_restricted_unrestricted.
(** Take any tensors of an unrestricted calculation and any unrestricted vector.  Called with the tensors over spin orbitals,
    the general product returns the unrestricted one. *)
Theorem C77_unrestricted_general : forall name x p q, In (name, x, p, q) unrestricted_general_products ->
  products_agree (with_vector Unrestricted x) (with_vector_symmetries Unrestricted x) (first_vector Unrestricted x) p spin_split (spin_orbital_arguments x) q (spin_orbital_products x).
Proof. exact ug_products. Qed.
Print Assumptions C77_unrestricted_general.
(** The product of density fitting [p] returns what the product [q] does for the integrals (pq|rs) = sum_x L_xpq L_xrs. *)
Theorem C77_density_fitting : forall name s x p q, In (name, s, x, p, q) fitted_products ->
  products_agree (with_vector s x) (with_vector_symmetries s x) (fitting s ++ first_vector s x) q id_blocks (first_vector s x) p (same_products s x).
Proof. exact df_products. Qed.
Print Assumptions C77_density_fitting.
Theorem C77_arguments_exist : forall p, In p all_pairs -> forall split T (F : fld) sz (eB : env F), splits sz split -> exists e, product_called_with F sz split eB T p e.
Proof. exact pairs_arguments. Qed.
Print Assumptions C77_arguments_exist.
Example C77_example :
  In ("CCSD.hbar_matvec_ip", IP, (RCCSD_hbar_matvec_ip_intermediates, RCCSD_hbar_matvec_ip), (UCCSD_hbar_matvec_ip_intermediates, UCCSD_hbar_matvec_ip)) restricted_unrestricted_products /\
  In ("CCSD.hbar_matvec_ea", EA, (UCCSD_hbar_matvec_ea_intermediates, UCCSD_hbar_matvec_ea), (GCCSD_hbar_matvec_ea_intermediates, GCCSD_hbar_matvec_ea)) unrestricted_general_products /\
  In ("RDFCCSD.hbar_lmatvec_ip", Restricted, IP, (RDFCCSD_hbar_lmatvec_ip_intermediates, RDFCCSD_hbar_lmatvec_ip), (RCCSD_hbar_lmatvec_ip_intermediates, RCCSD_hbar_lmatvec_ip)) fitted_products /\
  characteristic_zero Qc_fld /\ splits closed_sz closed_split /\ splits spin_sz spin_split /\
  (forall s x, symmetric (sizes s) (with_vector_symmetries s x) (with_vector s x) (example s x)) /\
  tens Qc_fld (example Restricted IP n_r2) [0; 1; 0] <> r0 /\ tens Qc_fld (example Unrestricted EA n_r2'aaa) [0; 1; 0] <> r0.
Proof.
  split; [unfold restricted_unrestricted_products; cbn; tauto|]. split; [unfold unrestricted_general_products; cbn; tauto|]. split; [unfold fitted_products; cbn; tauto|].
  split; [exact Qc_characteristic_zero|]. split; [exact closed_splits|]. split; [exact spin_splits|]. split; [exact example_one|split; apply example_nonzero].
Qed.

(** The left product is the adjoint of the right one: for any tensors and any two vectors r and l, <l, H r> = <r, H^T l>. *)
Theorem C78_left_right_adjoint : forall name s x p q, In (name, s, x, p, q) right_left -> adjoint_products s x (first_vector s x) (second_vector s x) p q.
Proof. exact adjoint_of. Qed.
Print Assumptions C78_left_right_adjoint.
Example C78_example :
  In ("GCCSD.ee", General, EE, (GCCSD_hbar_matvec_ee_intermediates, GCCSD_hbar_matvec_ee), (GCCSD_hbar_lmatvec_ee_intermediates, GCCSD_hbar_lmatvec_ee)) right_left /\
  characteristic_zero Qc_fld /\ (forall s x, symmetric (sizes s) (with_vectors_symmetries s x) (with_vectors s x) (example s x)) /\
  tens Qc_fld (example General EE n_r2) [0; 1; 0; 1] <> r0 /\ tens Qc_fld (example General EE (direction n_r2)) [0; 1; 0; 1] <> r0.
Proof.
  split; [unfold right_left; cbn; tauto|]. split; [exact Qc_characteristic_zero|]. split; [exact example_symmetric|split; apply example_nonzero].
Qed.
(** Not so for CC2.  Let only t1 and v_ijkl (v_abcd for electron attachment) differ from zero.  The right product of a vector r of
    singles is zero, so that <l, H r> = 0 for every l.  The left product of a vector l of doubles has singles
    1/2 sum t1_ja v_ijkl l_kla, so that <r, H^T l> = 1/2 sum r_i t1_ja v_ijkl l_kla, which differs from zero in the example. *)
Theorem C78_cc2_adjoint_refuted : forall x (F : fld) sz, characteristic_zero F -> forall eB : env F, symmetric sz (with_vector_symmetries General x) (with_vector General x) eB ->
  product_returns F sz eB (cc2_right x) (singles_only x) all_zero /\ product_returns F sz eB (cc2_left x) (doubles_only x) (left_of_doubles x).
Proof. exact cc2_not_adjoint. Qed.
Print Assumptions C78_cc2_adjoint_refuted.
Example C78_cc2_example : (forall x, symmetric general_sz (with_vector_symmetries General x) (with_vector General x) (example General x)) /\
  value general_sz (example General IP) [] [mono 1 2 [(n_r1, [0]); (n_t1, [1; 10]); (n_v'oooo, [0; 1; 2; 3]); (n_r2, [2; 3; 10])]] [] <> r0 /\
  value general_sz (example General EA) [] [mono 1 2 [(n_r1, [10]); (n_t1, [0; 11]); (n_v'vvvv, [10; 11; 12; 13]); (n_r2, [12; 13; 0])]] [] <> r0 /\
  value general_sz (example General EE) [] [mono 1 2 [(n_r1, [0; 10]); (n_t1, [1; 11]); (n_v'oooo, [0; 1; 2; 3]); (n_r2, [2; 3; 10; 11])]] [] <> r0.
Proof. split; [exact (example_one General)|exact left_nonzero]. Qed.

(** Every product is linear: H (r + c s) = H r + c H s, for any tensors and any vectors, antisymmetric or not. *)
Theorem C79_linear : forall name s x p, In (name, s, x, p) products -> linear_product s x p.
Proof. exact linear_of. Qed.
Print Assumptions C79_linear.
(** The product of an antisymmetric vector is antisymmetric. *)
Theorem C79_antisymmetric : forall name s x p, In (name, s, x, p) products -> product_symmetric s x p.
Proof. exact symmetric_of. Qed.
Print Assumptions C79_antisymmetric.
Theorem C79_arguments_exist : forall name s x p, In (name, s, x, p) products ->
  forall split T (F : fld) sz (eB : env F), splits sz split -> exists e, product_called_with F sz split eB T p e.
Proof. exact products_arguments. Qed.
Print Assumptions C79_arguments_exist.
Example C79_example : In ("UCCSD.hbar_matvec_ea", Unrestricted, EA, (UCCSD_hbar_matvec_ea_intermediates, UCCSD_hbar_matvec_ea)) products /\
  characteristic_zero Qc_fld /\ (forall s x, symmetric (sizes s) (given_symmetries s) (given s) (example s x)) /\
  (forall s x, symmetric (sizes s) (with_vector_symmetries s x) (with_vector s x) (example s x)) /\
  tens Qc_fld (example Unrestricted EA n_r2'aaa) [0; 1; 0] <> r0 /\ tens Qc_fld (example General EE n_epsilon) [] <> r0.
Proof.
  split; [unfold products; cbn; tauto|]. split; [exact Qc_characteristic_zero|]. split; [exact example_given|]. split; [exact example_one|split; apply example_nonzero].
Qed.

(** The product of neutral excitations is the derivative of the residuals of update_amps.  For any tensors, amplitudes t, direction
    d and multipliers l: <l, residuals (t + v d)> = c0 + v (<l, H d> - <l, d1 t1new>) + v^2 q(v), where c0 and the polynomial q do
    not depend on v.  The last linear term is disconnected and vanishes with the residual of the singles. *)
Theorem C80_product_is_derivative : forall name s p q, In (name, s, p, q) neutral -> product_is_derivative s p q.
Proof. exact derivative_of. Qed.
Print Assumptions C80_product_is_derivative.
Theorem C80_arguments_exist : forall name s p q, In (name, s, p, q) neutral ->
  forall T (F : fld) sz (eB : env F), (exists e, called_with sz eB T p e) /\ exists e, product_called_with F sz id_blocks eB T q e.
Proof. exact neutral_arguments. Qed.
Print Assumptions C80_arguments_exist.
Example C80_example : In ("GCCSD", true, GCCSD_update_amps, (GCCSD_hbar_matvec_ee_intermediates, GCCSD_hbar_matvec_ee)) neutral /\ characteristic_zero Qc_fld /\
  symmetric general_sz directed_symmetries directed_basis (ex_basis general_sz directed_symmetries directed_basis) /\
  tens Qc_fld (ex_basis general_sz directed_symmetries directed_basis (direction n_t2)) [0; 1; 0; 1] <> r0 /\
  tens Qc_fld (ex_basis general_sz directed_symmetries directed_basis n_l2) [0; 1; 0; 1] <> r0.
Proof. split; [unfold neutral; cbn; tauto|]. split; [exact Qc_characteristic_zero|]. split; [exact directed_symmetric|exact directed_nonzero]. Qed.
(** Not so for CC2: with only v_ijkl the residuals are zero for every t2, yet the product has r2new_ijab = 1/2 sum v_ijkl r2_klab. *)
Theorem C80_cc2_derivative_refuted : forall (F : fld) sz, characteristic_zero F -> forall eB : env F, symmetric sz (with_vector_symmetries General EE) (with_vector General EE) eB ->
  returns F sz eB GCC2_update_amps (only [n_v'oooo; n_t2] general) all_zero /\
  product_returns F sz eB (GCC2_hbar_matvec_ee_intermediates, GCC2_hbar_matvec_ee) (only [n_v'oooo; n_r2] (first_vector General EE)) half_oooo_r2.
Proof. exact cc2_not_derivative. Qed.
Print Assumptions C80_cc2_derivative_refuted.
Example C80_cc2_example : symmetric general_sz (with_vector_symmetries General EE) (with_vector General EE) (example General EE) /\
  value general_sz (example General EE) [0; 1; 10; 11] (snd (lookup half_oooo_r2 n_r2new [0; 0; 1; 1])) [0; 1; 0; 1] <> r0.
Proof. split; [exact (example_one General EE)|exact half_nonzero]. Qed.
