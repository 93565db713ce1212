(** The Lambda equations and the Lagrangian. *)
From Coq Require Import List String.
From Verif Require Import Base Alg ArrModel EinsumModel CgModel CgSpec CgFormSpec CgNames CgTables CgTables2 CgRelSpec CgLagSpec CgLag CgAgreeEx CgAgree2Ex CgLagEx.
From Verif Require Import Cg_GCCSD Cg_GCCD Cg_GCC2 Cg_GCCSD_S_1_1.
Import ListNotations.
Local Open Scope string_scope. Local Open Scope list_scope. Local Open Scope nat_scope.

(** Take any Fock matrix, integrals, amplitudes t, multipliers lambda and directions d, [eB].  Call update_lams at t
    and lambda; call energy and update_amps at t + v d, for any number v.  All calls succeed.  The Lagrangian, that is
    the energy plus the inner product of lambda with the residuals, is c0 + v <lambda residuals, d> + v^2 q(v) where
    c0 and the polynomial q do not depend on v: its derivative along d is the inner product of the results of
    update_lams with d. *)
Theorem C69_lambda_is_gradient : forall name singles p_energy p_amps p_lams, In (name, singles, (p_energy, p_amps, p_lams)) variational ->
  forall (F : fld) sz, characteristic_zero F -> forall method path, path_ok path ->
  forall eB : env F, symmetric sz directed_symmetries directed_basis eB ->
  forall e3, called_with sz eB general p_lams e3 ->
  exists r3, run method path sz p_lams e3 = Ok r3 /\ exists c0 q,
    forall v e1 e2, called_with sz (with_number eB n_epsilon v) displaced p_energy e1 -> called_with sz (with_number eB n_epsilon v) displaced p_amps e2 ->
    exists r1 r2, run method path sz p_energy e1 = Ok r1 /\ run method path sz p_amps e2 = Ok r2 /\
      let all := together [with_number eB n_epsilon v; results F (p_out p_energy) r1; results F (p_out p_amps) r2; results F (p_out p_lams) r3] in
      value sz all [] (lagrangian singles) [] =
        radd (radd c0 (rmul v (value sz all [] (along_direction singles) []))) (rmul (rmul v v) (polynomial F q v)).
Proof. exact lambda_gradient. Qed.
Print Assumptions C69_lambda_is_gradient.
Theorem C69_arguments_exist : forall name s p1 p2 p3 p, In (name, s, (p1, p2, p3)) variational -> In p [p1; p2; p3] ->
  forall T (F : fld) sz (eB : env F), exists e, called_with sz eB T p e.
Proof. exact lambda_arguments. Qed.
Print Assumptions C69_arguments_exist.
Example C69_example : In ("GCCSD", true, (GCCSD_energy, GCCSD_update_amps, GCCSD_update_lams)) variational /\ characteristic_zero Qc_fld /\
  symmetric general_sz directed_symmetries directed_basis (ex_basis general_sz directed_symmetries directed_basis) /\
  tens Qc_fld (ex_basis general_sz directed_symmetries directed_basis (direction n_t2)) [0; 1; 0; 1] <> r0 /\
  tens Qc_fld (ex_basis general_sz directed_symmetries directed_basis n_l2) [0; 1; 0; 1] <> r0.
Proof.
  split; [unfold variational; cbn; tauto|]. split; [exact Qc_characteristic_zero|]. split; [exact directed_symmetric|exact directed_nonzero].
Qed.

(** Not so for CC2: with only the integrals v_ijkl, doubles t2 and multipliers l2, the energy and all residuals are zero
    whatever t2 is, so that the Lagrangian does not depend on t2.  Yet update_lams returns
    l2new_abij = 1/2 sum_kl l2_abkl v_ijkl, already at t2 = 0. *)
Theorem C69_cc2_lambda_refuted : forall (F : fld) sz, characteristic_zero F ->
  forall eB : env F, symmetric sz general_basis_symmetries general_basis eB ->
  returns F sz eB GCC2_energy (only [n_v'oooo; n_t2; n_l2] general) all_zero /\
  returns F sz eB GCC2_update_amps (only [n_v'oooo; n_t2; n_l2] general) all_zero /\
  returns F sz eB GCC2_update_lams (only [n_v'oooo; n_l2] general) half_oooo.
Proof. exact cc2_not_gradient. Qed.
Print Assumptions C69_cc2_lambda_refuted.
Example C69_cc2_example : symmetric general_sz general_basis_symmetries general_basis (ex_basis general_sz general_basis_symmetries general_basis) /\
  value general_sz (ex_basis general_sz general_basis_symmetries general_basis) [10; 11; 0; 1] (snd (lookup half_oooo n_l2new [1; 1; 0; 0])) [0; 1; 0; 1] <> r0.
Proof. split; [exact general_symmetric|exact half_oooo_nonzero]. Qed.

(** Nor for the methods with bosons: with only f_ia = f_ai, u11 and the multipliers ls1, the energy is zero, and the only
    residual with a multiplier is s1new_x = sum_ia f_ia u11_xia, so that the derivative of the Lagrangian along u11 is
    ls1_x f_ia.  Yet update_lams returns lu11new_xai = 2 ls1_x f_ia. *)
Theorem C69_boson_lambda_refuted : forall (F : fld) sz, characteristic_zero F ->
  forall eB : env F, symmetric sz general_basis_symmetries general_basis eB ->
  returns F sz eB GCCSD_S_1_1_energy (only [n_f'ov; n_f'vo; n_u11; n_ls1] general) all_zero /\
  returns F sz eB GCCSD_S_1_1_update_amps (only [n_f'ov; n_f'vo; n_u11; n_ls1] general) boson_residual /\
  returns F sz eB GCCSD_S_1_1_update_lams (only [n_f'ov; n_f'vo; n_ls1] general) twice_product.
Proof. exact boson_not_gradient. Qed.
Print Assumptions C69_boson_lambda_refuted.
Example C69_boson_example : symmetric general_sz general_basis_symmetries general_basis (ex_basis general_sz general_basis_symmetries general_basis) /\
  value general_sz (ex_basis general_sz general_basis_symmetries general_basis) [30; 10; 0] (snd (lookup twice_product n_lu11new [3; 1; 0])) [0; 1; 0] <> r0.
Proof. split; [exact general_symmetric|exact twice_nonzero]. Qed.
