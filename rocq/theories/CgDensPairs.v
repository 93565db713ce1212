(** The functions whose density matrices are compared (ebcc/codegen). *)
From Coq Require Import List ZArith String.
From Verif Require Import CgModel CgFormSpec CgDensTables.
From Verif Require Cg_GCC2 Cg_GCCD Cg_GCCSD Cg_GCCSDT Cg_GCCSD_SD_1_1 Cg_GCCSD_SD_1_2 Cg_GCCSD_S_1_1 Cg_GMP2 Cg_RCC2 Cg_RCCD Cg_RCCSD Cg_RCCSDT Cg_RCCSD_SD_1_1 Cg_RCCSD_SD_1_2 Cg_RCCSD_S_1_1 Cg_RDFCC2 Cg_RDFCCD Cg_RDFCCSD Cg_RMP2 Cg_UCC2 Cg_UCCD Cg_UCCSD Cg_UCCSDT Cg_UCCSD_SD_1_1 Cg_UCCSD_SD_1_2 Cg_UCCSD_S_1_1 Cg_UDFCC2 Cg_UDFCCSD Cg_UMP2.
Import Cg_GCC2 Cg_GCCD Cg_GCCSD Cg_GCCSDT Cg_GCCSD_SD_1_1 Cg_GCCSD_SD_1_2 Cg_GCCSD_S_1_1 Cg_GMP2 Cg_RCC2 Cg_RCCD Cg_RCCSD Cg_RCCSDT Cg_RCCSD_SD_1_1 Cg_RCCSD_SD_1_2 Cg_RCCSD_S_1_1 Cg_RDFCC2 Cg_RDFCCD Cg_RDFCCSD Cg_RMP2 Cg_UCC2 Cg_UCCD Cg_UCCSD Cg_UCCSDT Cg_UCCSD_SD_1_1 Cg_UCCSD_SD_1_2 Cg_UCCSD_S_1_1 Cg_UDFCC2 Cg_UDFCCSD Cg_UMP2.
Import ListNotations.
Local Open Scope string_scope. Local Open Scope list_scope.

(** Restricted methods: functions, contraction of the Hamiltonian with the density matrices, energy, and residuals contracted with multipliers. *)
Definition energies_R : list (string * (list prog * (formula * (formula * formula)))) :=
  [("CCD", ([RCCD_make_rdm1_f; RCCD_make_rdm2_f; RCCD_energy; RCCD_update_amps], (restricted_one_body ++ restricted_two_body, (restricted_reference ++ correlation, restricted_doubles_part))));
   ("CCSD", ([RCCSD_make_rdm1_f; RCCSD_make_rdm2_f; RCCSD_energy; RCCSD_update_amps], (restricted_one_body ++ restricted_two_body, (restricted_reference ++ correlation, restricted_singles_part ++ restricted_doubles_part))))].

(** Unrestricted methods. *)
Definition energies_U : list (string * (list prog * (formula * (formula * formula)))) :=
  [("CCD", ([UCCD_make_rdm1_f; UCCD_make_rdm2_f; UCCD_energy; UCCD_update_amps], (unrestricted_one_body ++ unrestricted_two_body, (unrestricted_reference ++ correlation, unrestricted_doubles_part))));
   ("CCSD", ([UCCSD_make_rdm1_f; UCCSD_make_rdm2_f; UCCSD_energy; UCCSD_update_amps], (unrestricted_one_body ++ unrestricted_two_body, (unrestricted_reference ++ correlation, unrestricted_singles_part ++ unrestricted_doubles_part))))].

(** General methods. *)
Definition energies_G : list (string * (list prog * (formula * (formula * formula)))) :=
  [("CCD", ([GCCD_make_rdm1_f; GCCD_make_rdm2_f; GCCD_energy; GCCD_update_amps], (one_body ++ two_body, (reference ++ correlation, doubles_part))));
   ("CCSD", ([GCCSD_make_rdm1_f; GCCSD_make_rdm2_f; GCCSD_energy; GCCSD_update_amps], (one_body ++ two_body, (reference ++ correlation, singles_part ++ doubles_part))))].

(** General methods with triples and with bosons, whose literals carry rounding errors. *)
Definition energies_G_rounded : list (string * (list prog * (formula * (formula * formula)))) :=
  [("CCSDT", ([rounded GCCSDT_make_rdm1_f; rounded GCCSDT_make_rdm2_f; rounded GCCSDT_energy; rounded GCCSDT_update_amps], (one_body_old ++ two_body_old, (reference ++ correlation, singles_part ++ doubles_part ++ triples_part))));
   ("CCSD_S_1_1", ([rounded GCCSD_S_1_1_make_rdm1_f; rounded GCCSD_S_1_1_make_rdm2_f; rounded GCCSD_S_1_1_energy; rounded GCCSD_S_1_1_update_amps; rounded GCCSD_S_1_1_make_sing_b_dm; rounded GCCSD_S_1_1_make_rdm1_b; rounded GCCSD_S_1_1_make_eb_coup_rdm], (one_body_old ++ two_body_old ++ boson_energy, (reference ++ correlation, singles_part ++ doubles_part ++ boson_part))));
   ("CCSD_SD_1_1", ([rounded GCCSD_SD_1_1_make_rdm1_f; rounded GCCSD_SD_1_1_make_rdm2_f; rounded GCCSD_SD_1_1_energy; rounded GCCSD_SD_1_1_update_amps; rounded GCCSD_SD_1_1_make_sing_b_dm; rounded GCCSD_SD_1_1_make_rdm1_b; rounded GCCSD_SD_1_1_make_eb_coup_rdm], (one_body_old ++ two_body_old ++ boson_energy, (reference ++ correlation, singles_part ++ doubles_part ++ boson_part ++ two_bosons_part))));
   ("CCSD_SD_1_2", ([rounded GCCSD_SD_1_2_make_rdm1_f; rounded GCCSD_SD_1_2_make_rdm2_f; rounded GCCSD_SD_1_2_energy; rounded GCCSD_SD_1_2_update_amps; rounded GCCSD_SD_1_2_make_sing_b_dm; rounded GCCSD_SD_1_2_make_rdm1_b; rounded GCCSD_SD_1_2_make_eb_coup_rdm], (one_body_old ++ two_body_old ++ boson_energy, (reference ++ correlation, singles_part ++ doubles_part ++ boson_part ++ two_bosons_part ++ two_bosons_single_part))))].

(** Methods with density matrices, and the traces these should have. *)
Definition traced_R : list (string * (prog * prog * list (list nat * formula * factor * formula))) :=
  [("CCD", (RCCD_make_rdm1_f, RCCD_make_rdm2_f, restricted_traces));
   ("CCSD", (RCCSD_make_rdm1_f, RCCSD_make_rdm2_f, restricted_traces));
   ("CC2", (RCC2_make_rdm1_f, RCC2_make_rdm2_f, restricted_traces));
   ("DFCCD", (RDFCCD_make_rdm1_f, RDFCCD_make_rdm2_f, restricted_traces));
   ("DFCCSD", (RDFCCSD_make_rdm1_f, RDFCCSD_make_rdm2_f, restricted_traces));
   ("DFCC2", (RDFCC2_make_rdm1_f, RDFCC2_make_rdm2_f, restricted_traces))].

(** Unrestricted methods. *)
Definition traced_U : list (string * (prog * prog * list (list nat * formula * factor * formula))) :=
  [("CCD", (UCCD_make_rdm1_f, UCCD_make_rdm2_f, unrestricted_traces));
   ("CCSD", (UCCSD_make_rdm1_f, UCCSD_make_rdm2_f, unrestricted_traces));
   ("CC2", (UCC2_make_rdm1_f, UCC2_make_rdm2_f, unrestricted_traces));
   ("DFCCSD", (UDFCCSD_make_rdm1_f, UDFCCSD_make_rdm2_f, unrestricted_traces));
   ("DFCC2", (UDFCC2_make_rdm1_f, UDFCC2_make_rdm2_f, unrestricted_traces))].

(** General methods. *)
Definition traced_G : list (string * (prog * prog * list (list nat * formula * factor * formula))) :=
  [("CCD", (GCCD_make_rdm1_f, GCCD_make_rdm2_f, traces));
   ("CCSD", (GCCSD_make_rdm1_f, GCCSD_make_rdm2_f, traces));
   ("CC2", (GCC2_make_rdm1_f, GCC2_make_rdm2_f, traces))].

(** With bosons. *)
Definition traced_R_rounded : list (string * (prog * prog * list (list nat * formula * factor * formula))) :=
  [("CCSD_S_1_1", (rounded RCCSD_S_1_1_make_rdm1_f, rounded RCCSD_S_1_1_make_rdm2_f, restricted_traces_chem));
   ("CCSD_SD_1_1", (rounded RCCSD_SD_1_1_make_rdm1_f, rounded RCCSD_SD_1_1_make_rdm2_f, restricted_traces_chem));
   ("CCSD_SD_1_2", (rounded RCCSD_SD_1_2_make_rdm1_f, rounded RCCSD_SD_1_2_make_rdm2_f, restricted_traces_chem))].

(** With triples and with bosons. *)
Definition traced_G_rounded : list (string * (prog * prog * list (list nat * formula * factor * formula))) :=
  [("CCSDT", (rounded GCCSDT_make_rdm1_f, rounded GCCSDT_make_rdm2_f, traces_old));
   ("CCSD_S_1_1", (rounded GCCSD_S_1_1_make_rdm1_f, rounded GCCSD_S_1_1_make_rdm2_f, traces_old));
   ("CCSD_SD_1_1", (rounded GCCSD_SD_1_1_make_rdm1_f, rounded GCCSD_SD_1_1_make_rdm2_f, traces_old));
   ("CCSD_SD_1_2", (rounded GCCSD_SD_1_2_make_rdm1_f, rounded GCCSD_SD_1_2_make_rdm2_f, traces_old))].

(** Two-particle density matrices and their symmetries. *)
Definition symmetric_R : list (string * (prog * list table)) :=
  [("CCD", (RCCD_make_rdm2_f, [particles_exchanged]));
   ("CCSD", (RCCSD_make_rdm2_f, [particles_exchanged]));
   ("CC2", (RCC2_make_rdm2_f, [particles_exchanged]));
   ("DFCCD", (RDFCCD_make_rdm2_f, [particles_exchanged]));
   ("DFCCSD", (RDFCCSD_make_rdm2_f, [particles_exchanged]));
   ("DFCC2", (RDFCC2_make_rdm2_f, [particles_exchanged]))].

(** Unrestricted methods. *)
Definition symmetric_U : list (string * (prog * list table)) :=
  [("CCD", (UCCD_make_rdm2_f, [unrestricted_creators_exchanged; unrestricted_annihilators_exchanged]));
   ("CCSD", (UCCSD_make_rdm2_f, [unrestricted_creators_exchanged; unrestricted_annihilators_exchanged]));
   ("CC2", (UCC2_make_rdm2_f, [unrestricted_creators_exchanged; unrestricted_annihilators_exchanged]));
   ("DFCCSD", (UDFCCSD_make_rdm2_f, [unrestricted_creators_exchanged; unrestricted_annihilators_exchanged]));
   ("DFCC2", (UDFCC2_make_rdm2_f, [unrestricted_creators_exchanged; unrestricted_annihilators_exchanged]))].

(** General methods. *)
Definition symmetric_G : list (string * (prog * list table)) :=
  [("CCD", (GCCD_make_rdm2_f, [creators_exchanged; annihilators_exchanged]));
   ("CCSD", (GCCSD_make_rdm2_f, [creators_exchanged; annihilators_exchanged]));
   ("CC2", (GCC2_make_rdm2_f, [creators_exchanged; annihilators_exchanged]))].

(** With triples and with bosons. *)
Definition symmetric_G_rounded : list (string * (prog * list table)) :=
  [("CCSDT", (rounded GCCSDT_make_rdm2_f, [creators_exchanged; annihilators_exchanged]));
   ("CCSD_S_1_1", (rounded GCCSD_S_1_1_make_rdm2_f, [creators_exchanged; annihilators_exchanged]));
   ("CCSD_SD_1_1", (rounded GCCSD_SD_1_1_make_rdm2_f, [creators_exchanged; annihilators_exchanged]));
   ("CCSD_SD_1_2", (rounded GCCSD_SD_1_2_make_rdm2_f, [creators_exchanged; annihilators_exchanged]))].

(** Restricted and unrestricted functions. *)
Definition densities_RU : list (string * (prog * prog * table)) :=
  [("CCD.make_rdm1_f", (RCCD_make_rdm1_f, UCCD_make_rdm1_f, spin_summed_densities));
   ("CCD.make_rdm2_f", (RCCD_make_rdm2_f, UCCD_make_rdm2_f, spin_summed_densities));
   ("CCSD.make_rdm1_f", (RCCSD_make_rdm1_f, UCCSD_make_rdm1_f, spin_summed_densities));
   ("CCSD.make_rdm2_f", (RCCSD_make_rdm2_f, UCCSD_make_rdm2_f, spin_summed_densities));
   ("CC2.make_rdm1_f", (RCC2_make_rdm1_f, UCC2_make_rdm1_f, spin_summed_densities));
   ("CC2.make_rdm2_f", (RCC2_make_rdm2_f, UCC2_make_rdm2_f, spin_summed_densities));
   ("DFCCSD.make_rdm1_f", (RDFCCSD_make_rdm1_f, UDFCCSD_make_rdm1_f, spin_summed_densities));
   ("DFCCSD.make_rdm2_f", (RDFCCSD_make_rdm2_f, UDFCCSD_make_rdm2_f, spin_summed_densities));
   ("DFCC2.make_rdm1_f", (RDFCC2_make_rdm1_f, UDFCC2_make_rdm1_f, spin_summed_densities));
   ("DFCC2.make_rdm2_f", (RDFCC2_make_rdm2_f, UDFCC2_make_rdm2_f, spin_summed_densities));
   ("MP2.make_rdm1_f", (RMP2_make_rdm1_f, UMP2_make_rdm1_f, spin_summed_densities))].

(** With triples and with bosons. *)
Definition densities_RU_rounded : list (string * (prog * prog * table)) :=
  [("CCSDT.make_rdm1_f", (rounded RCCSDT_make_rdm1_f, rounded UCCSDT_make_rdm1_f, spin_summed_densities_t));
   ("CCSD_S_1_1.make_rdm1_f", (rounded RCCSD_S_1_1_make_rdm1_f, rounded UCCSD_S_1_1_make_rdm1_f, spin_summed_densities_b));
   ("CCSD_S_1_1.make_rdm2_f", (rounded RCCSD_S_1_1_make_rdm2_f, rounded UCCSD_S_1_1_make_rdm2_f, spin_summed_densities_b));
   ("CCSD_S_1_1.make_sing_b_dm", (rounded RCCSD_S_1_1_make_sing_b_dm, rounded UCCSD_S_1_1_make_sing_b_dm, spin_summed_densities_b));
   ("CCSD_S_1_1.make_rdm1_b", (rounded RCCSD_S_1_1_make_rdm1_b, rounded UCCSD_S_1_1_make_rdm1_b, spin_summed_densities_b));
   ("CCSD_S_1_1.make_eb_coup_rdm", (rounded RCCSD_S_1_1_make_eb_coup_rdm, rounded UCCSD_S_1_1_make_eb_coup_rdm, spin_summed_densities_b));
   ("CCSD_SD_1_1.make_rdm1_f", (rounded RCCSD_SD_1_1_make_rdm1_f, rounded UCCSD_SD_1_1_make_rdm1_f, spin_summed_densities_b));
   ("CCSD_SD_1_1.make_rdm2_f", (rounded RCCSD_SD_1_1_make_rdm2_f, rounded UCCSD_SD_1_1_make_rdm2_f, spin_summed_densities_b));
   ("CCSD_SD_1_1.make_sing_b_dm", (rounded RCCSD_SD_1_1_make_sing_b_dm, rounded UCCSD_SD_1_1_make_sing_b_dm, spin_summed_densities_b));
   ("CCSD_SD_1_1.make_rdm1_b", (rounded RCCSD_SD_1_1_make_rdm1_b, rounded UCCSD_SD_1_1_make_rdm1_b, spin_summed_densities_b));
   ("CCSD_SD_1_1.make_eb_coup_rdm", (rounded RCCSD_SD_1_1_make_eb_coup_rdm, rounded UCCSD_SD_1_1_make_eb_coup_rdm, spin_summed_densities_b));
   ("CCSD_SD_1_2.make_rdm1_f", (rounded RCCSD_SD_1_2_make_rdm1_f, rounded UCCSD_SD_1_2_make_rdm1_f, spin_summed_densities_b));
   ("CCSD_SD_1_2.make_rdm2_f", (rounded RCCSD_SD_1_2_make_rdm2_f, rounded UCCSD_SD_1_2_make_rdm2_f, spin_summed_densities_b));
   ("CCSD_SD_1_2.make_sing_b_dm", (rounded RCCSD_SD_1_2_make_sing_b_dm, rounded UCCSD_SD_1_2_make_sing_b_dm, spin_summed_densities_b));
   ("CCSD_SD_1_2.make_rdm1_b", (rounded RCCSD_SD_1_2_make_rdm1_b, rounded UCCSD_SD_1_2_make_rdm1_b, spin_summed_densities_b));
   ("CCSD_SD_1_2.make_eb_coup_rdm", (rounded RCCSD_SD_1_2_make_eb_coup_rdm, rounded UCCSD_SD_1_2_make_eb_coup_rdm, spin_summed_densities_b))].

(** Unrestricted and general functions. *)
Definition densities_UG : list (string * (prog * prog * table)) :=
  [("CCD.make_rdm1_f", (UCCD_make_rdm1_f, GCCD_make_rdm1_f, spin_orbital_densities));
   ("CCD.make_rdm2_f", (UCCD_make_rdm2_f, GCCD_make_rdm2_f, spin_orbital_densities));
   ("CCSD.make_rdm1_f", (UCCSD_make_rdm1_f, GCCSD_make_rdm1_f, spin_orbital_densities));
   ("CCSD.make_rdm2_f", (UCCSD_make_rdm2_f, GCCSD_make_rdm2_f, spin_orbital_densities));
   ("CC2.make_rdm1_f", (UCC2_make_rdm1_f, GCC2_make_rdm1_f, spin_orbital_densities));
   ("CC2.make_rdm2_f", (UCC2_make_rdm2_f, GCC2_make_rdm2_f, spin_orbital_densities));
   ("MP2.make_rdm1_f", (UMP2_make_rdm1_f, GMP2_make_rdm1_f, spin_orbital_densities))].

(** With triples and with bosons. *)
Definition densities_UG_rounded : list (string * (prog * prog * table)) :=
  [("CCSDT.make_rdm1_f", (rounded UCCSDT_make_rdm1_f, rounded GCCSDT_make_rdm1_f, spin_orbital_densities_t));
   ("CCSD_S_1_1.make_rdm1_f", (rounded UCCSD_S_1_1_make_rdm1_f, rounded GCCSD_S_1_1_make_rdm1_f, spin_orbital_densities_b));
   ("CCSD_S_1_1.make_rdm2_f", (rounded UCCSD_S_1_1_make_rdm2_f, rounded GCCSD_S_1_1_make_rdm2_f, spin_orbital_densities_b));
   ("CCSD_S_1_1.make_sing_b_dm", (rounded UCCSD_S_1_1_make_sing_b_dm, rounded GCCSD_S_1_1_make_sing_b_dm, spin_orbital_densities_b));
   ("CCSD_S_1_1.make_rdm1_b", (rounded UCCSD_S_1_1_make_rdm1_b, rounded GCCSD_S_1_1_make_rdm1_b, spin_orbital_densities_b));
   ("CCSD_S_1_1.make_eb_coup_rdm", (rounded UCCSD_S_1_1_make_eb_coup_rdm, rounded GCCSD_S_1_1_make_eb_coup_rdm, spin_orbital_densities_b));
   ("CCSD_SD_1_1.make_rdm1_f", (rounded UCCSD_SD_1_1_make_rdm1_f, rounded GCCSD_SD_1_1_make_rdm1_f, spin_orbital_densities_b));
   ("CCSD_SD_1_1.make_rdm2_f", (rounded UCCSD_SD_1_1_make_rdm2_f, rounded GCCSD_SD_1_1_make_rdm2_f, spin_orbital_densities_b));
   ("CCSD_SD_1_1.make_sing_b_dm", (rounded UCCSD_SD_1_1_make_sing_b_dm, rounded GCCSD_SD_1_1_make_sing_b_dm, spin_orbital_densities_b));
   ("CCSD_SD_1_1.make_rdm1_b", (rounded UCCSD_SD_1_1_make_rdm1_b, rounded GCCSD_SD_1_1_make_rdm1_b, spin_orbital_densities_b));
   ("CCSD_SD_1_1.make_eb_coup_rdm", (rounded UCCSD_SD_1_1_make_eb_coup_rdm, rounded GCCSD_SD_1_1_make_eb_coup_rdm, spin_orbital_densities_b));
   ("CCSD_SD_1_2.make_rdm1_f", (rounded UCCSD_SD_1_2_make_rdm1_f, rounded GCCSD_SD_1_2_make_rdm1_f, spin_orbital_densities_b));
   ("CCSD_SD_1_2.make_rdm2_f", (rounded UCCSD_SD_1_2_make_rdm2_f, rounded GCCSD_SD_1_2_make_rdm2_f, spin_orbital_densities_b));
   ("CCSD_SD_1_2.make_sing_b_dm", (rounded UCCSD_SD_1_2_make_sing_b_dm, rounded GCCSD_SD_1_2_make_sing_b_dm, spin_orbital_densities_b));
   ("CCSD_SD_1_2.make_rdm1_b", (rounded UCCSD_SD_1_2_make_rdm1_b, rounded GCCSD_SD_1_2_make_rdm1_b, spin_orbital_densities_b));
   ("CCSD_SD_1_2.make_eb_coup_rdm", (rounded UCCSD_SD_1_2_make_eb_coup_rdm, rounded GCCSD_SD_1_2_make_eb_coup_rdm, spin_orbital_densities_b))].
