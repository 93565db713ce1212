(** Density matrices. *)
From Coq Require Import List String.
From Verif Require Import Base Alg ArrModel EinsumModel CgModel CgSpec CgFormSpec CgNames CgTables CgTables2 CgRelSpec CgPairs CgDensTables CgDensSpec CgDensPairs CgDensThms CgAgreeEx CgAgree2Ex CgEx CgDensEx.
From Verif Require Import Cg_RCCSD Cg_UCCSD Cg_GCCSD.
Import ListNotations.
Local Open Scope string_scope. Local Open Scope list_scope. Local Open Scope nat_scope.

(** The Hamiltonian contracted with the density matrices is the energy, when the amplitude equations are solved; otherwise
    it is the Lagrangian, whatever the multipliers. *)
Theorem C71_energy_of_densities_restricted : forall name ps trace_H energy residual, In (name, (ps, (trace_H, (energy, residual)))) energies_R ->
  energy_of_densities spatial spatial_symmetries restricted ps trace_H energy residual.
Proof. exact energy_R. Qed.
Print Assumptions C71_energy_of_densities_restricted.
Theorem C71_energy_of_densities_unrestricted : forall name ps trace_H energy residual, In (name, (ps, (trace_H, (energy, residual)))) energies_U ->
  energy_of_densities spin_blocks spin_blocks_symmetries unrestricted ps trace_H energy residual.
Proof. exact energy_U. Qed.
Print Assumptions C71_energy_of_densities_unrestricted.
Theorem C71_energy_of_densities_general : forall name ps trace_H energy residual, In (name, (ps, (trace_H, (energy, residual)))) energies_G ->
  energy_of_densities general_basis general_basis_symmetries general ps trace_H energy residual.
Proof. exact energy_G. Qed.
Print Assumptions C71_energy_of_densities_general.
(** With triples and with bosons, once the rounding errors of literals are removed.  Missing: a bound on the effect of the errors. *)
Theorem C71_energy_of_densities_rounded_partial : forall name ps trace_H energy residual, In (name, (ps, (trace_H, (energy, residual)))) energies_G_rounded ->
  energy_of_densities general_basis general_basis_symmetries general ps trace_H energy residual.
Proof. exact energy_G_rounded. Qed.
Print Assumptions C71_energy_of_densities_rounded_partial.
(** A calculation whose amplitude equations are solved, with t2 = 2 and l2 = 1. *)
Example C71_example : In ("CCSD", (solved_functions, (one_body ++ two_body, (reference ++ correlation, singles_part ++ doubles_part)))) energies_G /\
  characteristic_zero Qc_fld /\ symmetric general_sz general_basis_symmetries general_basis solved /\
  all_called general_sz solved general solved_functions (map solved_call solved_functions) /\ path_ok ex_path /\
  exists rs, all_return None ex_path general_sz solved_functions (map solved_call solved_functions) rs /\
    forall x idx, tens Qc_fld (given_and_results solved solved_functions rs (nm 4 x)) idx = r0.
Proof.
  split; [unfold energies_G, solved_functions; cbn; tauto|]. split; [exact Qc_characteristic_zero|]. split; [exact solved_symmetric|]. split; [exact solved_called|].
  split; [exact ex_path_ok|exact solved_returns].
Qed.

(** The trace of the one-particle density matrix is the number of electrons n, and the partial trace of the two-particle one
    is n - 1 times the former. *)
Theorem C72_traces_restricted : forall name p1 p2 l, In (name, (p1, p2, l)) traced_R -> traces_hold spatial spatial_symmetries restricted p1 p2 l.
Proof. exact trace_R. Qed.
Print Assumptions C72_traces_restricted.
Theorem C72_traces_unrestricted : forall name p1 p2 l, In (name, (p1, p2, l)) traced_U -> traces_hold spin_blocks spin_blocks_symmetries unrestricted p1 p2 l.
Proof. exact trace_U. Qed.
Print Assumptions C72_traces_unrestricted.
Theorem C72_traces_general : forall name p1 p2 l, In (name, (p1, p2, l)) traced_G -> traces_hold general_basis general_basis_symmetries general p1 p2 l.
Proof. exact trace_G. Qed.
Print Assumptions C72_traces_general.
Theorem C72_traces_restricted_rounded_partial : forall name p1 p2 l, In (name, (p1, p2, l)) traced_R_rounded -> traces_hold spatial spatial_symmetries restricted p1 p2 l.
Proof. exact trace_R_rounded. Qed.
Print Assumptions C72_traces_restricted_rounded_partial.
Theorem C72_traces_general_rounded_partial : forall name p1 p2 l, In (name, (p1, p2, l)) traced_G_rounded -> traces_hold general_basis general_basis_symmetries general p1 p2 l.
Proof. exact trace_G_rounded. Qed.
Print Assumptions C72_traces_general_rounded_partial.
(** Two-particle density matrices are antisymmetric under exchange of the creation operators, or of the annihilation operators; spin-summed ones
    are symmetric under exchange of both. *)
Theorem C72_exchange_restricted : forall name p ts Tout, In (name, (p, ts)) symmetric_R -> In Tout ts -> own_symmetry spatial spatial_symmetries restricted p Tout.
Proof. intros name p ts Tout H. exact (@check_own_sound _ _ _ _ all_own_R name p ts H Tout). Qed.
Print Assumptions C72_exchange_restricted.
Theorem C72_exchange_unrestricted : forall name p ts Tout, In (name, (p, ts)) symmetric_U -> In Tout ts -> own_symmetry spin_blocks spin_blocks_symmetries unrestricted p Tout.
Proof. intros name p ts Tout H. exact (@check_own_sound _ _ _ _ all_own_U name p ts H Tout). Qed.
Print Assumptions C72_exchange_unrestricted.
Theorem C72_exchange_general : forall name p ts Tout, In (name, (p, ts)) symmetric_G -> In Tout ts -> own_symmetry general_basis general_basis_symmetries general p Tout.
Proof. exact own_G. Qed.
Print Assumptions C72_exchange_general.
Theorem C72_exchange_general_rounded_partial : forall name p ts Tout, In (name, (p, ts)) symmetric_G_rounded -> In Tout ts -> own_symmetry general_basis general_basis_symmetries general p Tout.
Proof. exact own_G_rounded. Qed.
Print Assumptions C72_exchange_general_rounded_partial.
Example C72_example : In ("CCSD", (GCCSD_make_rdm1_f, GCCSD_make_rdm2_f, traces)) traced_G /\ In ("CCSD", (GCCSD_make_rdm2_f, [creators_exchanged; annihilators_exchanged])) symmetric_G /\
  characteristic_zero Qc_fld /\
  symmetric general_sz general_basis_symmetries general_basis (ex_basis general_sz general_basis_symmetries general_basis) /\
  tens Qc_fld (ex_basis general_sz general_basis_symmetries general_basis n_t2) [0; 1; 0; 1] <> r0 /\
  exists e1 e2, called_with general_sz (ex_basis general_sz general_basis_symmetries general_basis) general GCCSD_make_rdm1_f e1 /\
    called_with general_sz (ex_basis general_sz general_basis_symmetries general_basis) general GCCSD_make_rdm2_f e2.
Proof.
  split; [unfold traced_G; cbn; tauto|]. split; [unfold symmetric_G; cbn; tauto|]. split; [exact Qc_characteristic_zero|]. split; [exact general_symmetric|].
  split; [exact (proj1 general_nonzero)|]. destruct (@density_arguments GCCSD_make_rdm1_f general Qc_fld general_sz (ex_basis general_sz general_basis_symmetries general_basis)) as [e1 H1]; [vm_compute; reflexivity|].
  destruct (@density_arguments GCCSD_make_rdm2_f general Qc_fld general_sz (ex_basis general_sz general_basis_symmetries general_basis)) as [e2 H2]; [vm_compute; reflexivity|].
  exists e1, e2. split; assumption.
Qed.

(** Restricted, unrestricted and general density matrices of the same system are the same. *)
Theorem C73_restricted_is_spin_sum : forall name q u Tout, In (name, (q, u, Tout)) densities_RU -> restricted_densities q u Tout.
Proof. intros name q u Tout H. exact (@agree_RU name q u Tout (in_or_app _ _ _ (or_introl H))). Qed.
Print Assumptions C73_restricted_is_spin_sum.
Theorem C73_restricted_is_spin_sum_rounded_partial : forall name q u Tout, In (name, (q, u, Tout)) densities_RU_rounded -> restricted_densities q u Tout.
Proof. intros name q u Tout H. exact (@agree_RU name q u Tout (in_or_app _ _ _ (or_intror H))). Qed.
Print Assumptions C73_restricted_is_spin_sum_rounded_partial.
Theorem C73_general_has_spin_blocks : forall name u g Tout, In (name, (u, g, Tout)) densities_UG -> general_densities u g Tout.
Proof. intros name u g Tout H. exact (@agree_UG name u g Tout (in_or_app _ _ _ (or_introl H))). Qed.
Print Assumptions C73_general_has_spin_blocks.
Theorem C73_general_has_spin_blocks_rounded_partial : forall name u g Tout, In (name, (u, g, Tout)) densities_UG_rounded -> general_densities u g Tout.
Proof. intros name u g Tout H. exact (@agree_UG name u g Tout (in_or_app _ _ _ (or_intror H))). Qed.
Print Assumptions C73_general_has_spin_blocks_rounded_partial.
(** There are arguments as required for all given tensors. *)
Theorem C73_arguments_exist : forall name q u Tout, In (name, (q, u, Tout)) (densities_RU ++ densities_RU_rounded) ->
  forall (F : fld) sz (eB : env F), exists e1 e2, called_with sz eB restricted q e1 /\ args_ok (fun c => sz (closed c)) (p_in u) e2 /\
    (forall x cs, In (x, cs) (p_in u) -> given_by sz id_blocks closed_shell eB x (map closed cs) (tens F (e2 x))).
Proof. exact closed_arguments. Qed.
Print Assumptions C73_arguments_exist.
Example C73_example : In ("CCSD.make_rdm2_f", (RCCSD_make_rdm2_f, UCCSD_make_rdm2_f, spin_summed_densities)) densities_RU /\
  In ("CCSD.make_rdm2_f", (UCCSD_make_rdm2_f, GCCSD_make_rdm2_f, spin_orbital_densities)) densities_UG /\ characteristic_zero Qc_fld /\ splits spin_sz spin_split /\
  symmetric closed_sz spatial_symmetries spatial (ex_basis closed_sz spatial_symmetries spatial) /\
  symmetric spin_sz spin_blocks_symmetries spin_blocks (ex_basis spin_sz spin_blocks_symmetries spin_blocks).
Proof.
  split; [unfold densities_RU; cbn; tauto|]. split; [unfold densities_UG; cbn; tauto|]. split; [exact Qc_characteristic_zero|]. split; [exact spin_splits|].
  split; [exact closed_symmetric|exact spin_symmetric].
Qed.
