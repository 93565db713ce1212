(** Further properties of the generated equations: density fitting, exchange of the spins, symmetries of the
    residuals, textbook equations. *)
From Coq Require Import String.
From Verif Require Import Base Alg ArrModel EinsumModel CgModel CgSpec CgFormSpec CgNames CgTables CgTables2 CgTextbook CgPairs2 CgCompare CgAgree2 CgAgreeEx CgAgree2Ex.
From Verif Require Import Cg_RCCSD Cg_RDFCCSD Cg_UCCSD Cg_UDFCCSD Cg_GCCSD.
Local Open Scope string_scope. Local Open Scope list_scope. Local Open Scope nat_scope.

(** Density fitting, restricted.  Take any three-centre integrals, Fock matrix and amplitudes, [eB].  Call a
    density-fitted function with them, and the corresponding function without density fitting with the
    four-centre integrals sum_P (P|pq) (P|rs) (table [fitted]) and the same Fock matrix and amplitudes.  Both
    succeed and return the same numbers. *)
Theorem C65_density_fitting_restricted : forall name p q, In (name, (p, q)) fitted_restricted ->
  forall (F : fld) sz, characteristic_zero F ->
  forall method1 method2 path1 path2, path_ok path1 -> path_ok path2 ->
  forall eB e1 e2 : env F, symmetric sz spatial_symmetries spatial eB ->
  args_ok sz (p_in q) e1 -> (forall x cs, In (x, cs) (p_in q) -> given_by sz id_split restricted eB x cs (tens F (e1 x))) ->
  args_ok sz (p_in p) e2 -> (forall x cs, In (x, cs) (p_in p) -> given_by sz id_split (fitted ++ restricted) eB x cs (tens F (e2 x))) ->
  exists r1 r2, run method1 path1 sz q e1 = Ok r1 /\ run method2 path2 sz p e2 = Ok r2 /\
    forall k x cs, nth_error (p_out p) k = Some (x, cs) -> given_by sz id_split same_results_R (results F (p_out q) r1) x cs (entry F r2 k).
Proof. exact fitted_agree_R. Qed.
Print Assumptions C65_density_fitting_restricted.

(** The same for unrestricted calculations. *)
Theorem C65_density_fitting_unrestricted : forall name p q, In (name, (p, q)) fitted_unrestricted ->
  forall (F : fld) sz, characteristic_zero F ->
  forall method1 method2 path1 path2, path_ok path1 -> path_ok path2 ->
  forall eB e1 e2 : env F, symmetric sz spin_blocks_symmetries spin_blocks eB ->
  args_ok sz (p_in q) e1 -> (forall x cs, In (x, cs) (p_in q) -> given_by sz id_split unrestricted eB x cs (tens F (e1 x))) ->
  args_ok sz (p_in p) e2 -> (forall x cs, In (x, cs) (p_in p) -> given_by sz id_split (fitted_spin ++ unrestricted) eB x cs (tens F (e2 x))) ->
  exists r1 r2, run method1 path1 sz q e1 = Ok r1 /\ run method2 path2 sz p e2 = Ok r2 /\
    forall k x cs, nth_error (p_out p) k = Some (x, cs) -> given_by sz id_split same_results_U (results F (p_out q) r1) x cs (entry F r2 k).
Proof. exact fitted_agree_U. Qed.
Print Assumptions C65_density_fitting_unrestricted.

(** Arguments as required exist for every [eB] and all numbers of orbitals. *)
Theorem C65_arguments_exist_restricted : forall name p q, In (name, (p, q)) fitted_restricted -> forall (F : fld) sz (eB : env F),
  exists e1 e2, args_ok sz (p_in q) e1 /\ (forall x cs, In (x, cs) (p_in q) -> given_by sz id_split restricted eB x cs (tens F (e1 x))) /\
    args_ok sz (p_in p) e2 /\ (forall x cs, In (x, cs) (p_in p) -> given_by sz id_split (fitted ++ restricted) eB x cs (tens F (e2 x))).
Proof. exact fitted_arguments_R. Qed.
Print Assumptions C65_arguments_exist_restricted.
Theorem C65_arguments_exist_unrestricted : forall name p q, In (name, (p, q)) fitted_unrestricted -> forall (F : fld) sz (eB : env F),
  exists e1 e2, args_ok sz (p_in q) e1 /\ (forall x cs, In (x, cs) (p_in q) -> given_by sz id_split unrestricted eB x cs (tens F (e1 x))) /\
    args_ok sz (p_in p) e2 /\ (forall x cs, In (x, cs) (p_in p) -> given_by sz id_split (fitted_spin ++ unrestricted) eB x cs (tens F (e2 x))).
Proof. exact fitted_arguments_U. Qed.
Print Assumptions C65_arguments_exist_unrestricted.
Example C65_example : In ("RCCSD.update_amps", (RCCSD_update_amps, RDFCCSD_update_amps)) fitted_restricted /\
  In ("UCCSD.update_lams", (UCCSD_update_lams, UDFCCSD_update_lams)) fitted_unrestricted /\ characteristic_zero Qc_fld /\
  symmetric closed_sz spatial_symmetries spatial (ex_basis closed_sz spatial_symmetries spatial) /\
  symmetric spin_sz spin_blocks_symmetries spin_blocks (ex_basis spin_sz spin_blocks_symmetries spin_blocks).
Proof.
  split; [unfold fitted_restricted; cbn; tauto|]. split; [unfold fitted_unrestricted; cbn; tauto|]. split; [exact Qc_characteristic_zero|].
  split; [exact closed_symmetric|exact spin_symmetric].
Qed.

(** Exchange of the spins.  Call an unrestricted function, and call it again with alpha and beta exchanged: the
    numbers of orbitals, and every argument (table [exchanged]: the argument named aa is the one formerly named
    bb, and so on).  Both calls succeed; the second returns the results of the first with alpha and beta
    exchanged (table [exchanged_results]), in particular the same energy. *)
Theorem C66_exchange_of_spins : forall name p, In (name, p) unrestricted_functions ->
  forall (F : fld) sz, characteristic_zero F ->
  forall method1 method2 path1 path2, path_ok path1 -> path_ok path2 ->
  forall eB e1 e2 : env F, symmetric sz spin_blocks_symmetries spin_blocks eB ->
  args_ok sz (p_in p) e1 -> (forall x cs, In (x, cs) (p_in p) -> given_by sz id_split unrestricted eB x cs (tens F (e1 x))) ->
  args_ok (fun c => sz (exchange c)) (p_in p) e2 -> (forall x cs, In (x, cs) (p_in p) -> given_by sz id_split exchanged eB x (map exchange cs) (tens F (e2 x))) ->
  exists r1 r2, run method1 path1 sz p e1 = Ok r1 /\ run method2 path2 (fun c => sz (exchange c)) p e2 = Ok r2 /\
    forall k x cs, nth_error (p_out p) k = Some (x, cs) -> given_by sz id_split exchanged_results (results F (p_out p) r1) x (map exchange cs) (entry F r2 k).
Proof. exact exchange_agree. Qed.
Print Assumptions C66_exchange_of_spins.
Theorem C66_arguments_exist : forall name p, In (name, p) unrestricted_functions -> forall (F : fld) sz (eB : env F),
  exists e1 e2, args_ok sz (p_in p) e1 /\ (forall x cs, In (x, cs) (p_in p) -> given_by sz id_split unrestricted eB x cs (tens F (e1 x))) /\
    args_ok (fun c => sz (exchange c)) (p_in p) e2 /\ (forall x cs, In (x, cs) (p_in p) -> given_by sz id_split exchanged eB x (map exchange cs) (tens F (e2 x))).
Proof. exact exchange_arguments. Qed.
Print Assumptions C66_arguments_exist.
(** Two alpha electrons and one beta electron; after the exchange one alpha electron and two beta electrons. *)
Example C66_example : In ("UCCSD.update_amps", UCCSD_update_amps) unrestricted_functions /\ characteristic_zero Qc_fld /\
  symmetric spin_sz spin_blocks_symmetries spin_blocks (ex_basis spin_sz spin_blocks_symmetries spin_blocks) /\
  spin_sz 4 = 2 /\ spin_sz (exchange 4) = 1.
Proof.
  split; [unfold unrestricted_functions; cbn; tauto|]. split; [exact Qc_characteristic_zero|].
  split; [exact spin_symmetric|split; reflexivity].
Qed.

(** Symmetries of the residuals.  If the amplitudes have their permutational symmetries, then so do the residuals:
    each table of [symmetric_R] ([symmetric_U], [symmetric_G]) says that the results do not change, or change sign,
    under a permutation of their indices. *)
Theorem C67_residuals_symmetric_restricted : forall name p, In (name, p) restricted_residuals ->
  forall (F : fld) sz, characteristic_zero F -> forall method path, path_ok path ->
  forall eB e : env F, symmetric sz spatial_symmetries spatial eB ->
  args_ok sz (p_in p) e -> (forall x cs, In (x, cs) (p_in p) -> given_by sz id_split restricted eB x cs (tens F (e x))) ->
  exists r, run method path sz p e = Ok r /\
    forall T, In T symmetric_R -> forall k x cs, nth_error (p_out p) k = Some (x, cs) -> given_by sz id_split T (results F (p_out p) r) x cs (entry F r k).
Proof. exact symmetric_residuals_R. Qed.
Print Assumptions C67_residuals_symmetric_restricted.
Theorem C67_residuals_symmetric_unrestricted : forall name p, In (name, p) unrestricted_residuals ->
  forall (F : fld) sz, characteristic_zero F -> forall method path, path_ok path ->
  forall eB e : env F, symmetric sz spin_blocks_symmetries spin_blocks eB ->
  args_ok sz (p_in p) e -> (forall x cs, In (x, cs) (p_in p) -> given_by sz id_split unrestricted eB x cs (tens F (e x))) ->
  exists r, run method path sz p e = Ok r /\
    forall T, In T symmetric_U -> forall k x cs, nth_error (p_out p) k = Some (x, cs) -> given_by sz id_split T (results F (p_out p) r) x cs (entry F r k).
Proof. exact symmetric_residuals_U. Qed.
Print Assumptions C67_residuals_symmetric_unrestricted.
Theorem C67_residuals_symmetric_general : forall name p, In (name, p) general_residuals ->
  forall (F : fld) sz, characteristic_zero F -> forall method path, path_ok path ->
  forall eB e : env F, symmetric sz general_basis_symmetries general_basis eB ->
  args_ok sz (p_in p) e -> (forall x cs, In (x, cs) (p_in p) -> given_by sz id_split general eB x cs (tens F (e x))) ->
  exists r, run method path sz p e = Ok r /\
    forall T, In T symmetric_G -> forall k x cs, nth_error (p_out p) k = Some (x, cs) -> given_by sz id_split T (results F (p_out p) r) x cs (entry F r k).
Proof. exact symmetric_residuals_G. Qed.
Print Assumptions C67_residuals_symmetric_general.
Theorem C67_arguments_exist : forall name p, In (name, p) (restricted_residuals ++ unrestricted_residuals ++ general_residuals) ->
  forall T (F : fld) sz (eB : env F), exists e, args_ok sz (p_in p) e /\ (forall x cs, In (x, cs) (p_in p) -> given_by sz id_split T eB x cs (tens F (e x))).
Proof. exact residual_arguments. Qed.
Print Assumptions C67_arguments_exist.
Example C67_example : In ("GCCSD.update_amps", GCCSD_update_amps) general_residuals /\ characteristic_zero Qc_fld /\
  symmetric general_sz general_basis_symmetries general_basis (ex_basis general_sz general_basis_symmetries general_basis) /\
  tens Qc_fld (ex_basis general_sz general_basis_symmetries general_basis n_t2) [0; 1; 0; 1] <> r0.
Proof.
  split; [unfold general_residuals; cbn; tauto|]. split; [exact Qc_characteristic_zero|]. split; [exact general_symmetric|apply general_nonzero].
Qed.

(** Textbook equations.  For every Fock matrix, antisymmetrised integrals and antisymmetric amplitudes over spin
    orbitals, the energy and the residuals are given by the equations of [CgTextbook]. *)
Theorem C68_textbook_equations : forall name p T, In (name, (p, T)) textbook ->
  forall (F : fld) sz, characteristic_zero F -> forall method path, path_ok path ->
  forall eB e : env F, symmetric sz general_basis_symmetries general_basis eB ->
  args_ok sz (p_in p) e -> (forall x cs, In (x, cs) (p_in p) -> given_by sz id_split general eB x cs (tens F (e x))) ->
  exists r, run method path sz p e = Ok r /\
    forall k x cs, nth_error (p_out p) k = Some (x, cs) -> given_by sz id_split T eB x cs (entry F r k).
Proof. exact textbook_agree. Qed.
Print Assumptions C68_textbook_equations.
(** QCISD is only defined, and agrees, for a Fock matrix without occupied-virtual coupling. *)
Theorem C68_textbook_qcisd : forall name p T, In (name, (p, T)) textbook_uncoupled ->
  forall (F : fld) sz, characteristic_zero F -> forall method path, path_ok path ->
  forall eB e : env F, symmetric sz general_basis_symmetries general_basis eB ->
  args_ok sz (p_in p) e -> (forall x cs, In (x, cs) (p_in p) -> given_by sz id_split uncoupled eB x cs (tens F (e x))) ->
  exists r, run method path sz p e = Ok r /\
    forall k x cs, nth_error (p_out p) k = Some (x, cs) -> given_by sz id_split T eB x cs (entry F r k).
Proof. exact textbook_agree_uncoupled. Qed.
Print Assumptions C68_textbook_qcisd.
Theorem C68_arguments_exist : forall name p T0, In (name, (p, T0)) (textbook ++ textbook_uncoupled) ->
  forall T (F : fld) sz (eB : env F), exists e, args_ok sz (p_in p) e /\ (forall x cs, In (x, cs) (p_in p) -> given_by sz id_split T eB x cs (tens F (e x))).
Proof. exact textbook_arguments. Qed.
Print Assumptions C68_arguments_exist.
Example C68_example : In ("GCCSD.update_amps", (GCCSD_update_amps, ccsd)) textbook /\ characteristic_zero Qc_fld /\
  symmetric general_sz general_basis_symmetries general_basis (ex_basis general_sz general_basis_symmetries general_basis) /\
  tens Qc_fld (ex_basis general_sz general_basis_symmetries general_basis n_t2) [0; 1; 0; 1] <> r0 /\
  tens Qc_fld (ex_basis general_sz general_basis_symmetries general_basis n_f'ov) [0; 1] <> r0.
Proof.
  split; [unfold textbook; cbn; tauto|]. split; [exact Qc_characteristic_zero|]. split; [exact general_symmetric|exact general_nonzero].
Qed.
