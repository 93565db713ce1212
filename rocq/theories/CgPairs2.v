(** The generated functions of some properties, and the kinds of orbitals these need. *)
From Coq Require Import List String.
From Verif Require Import CgModel.
From Verif Require Cg_GCC2 Cg_GCC3 Cg_GCCD Cg_GCCSD Cg_GCCSDT Cg_GCCSD_SD_1_1 Cg_GCCSD_SD_1_2 Cg_GCCSD_S_1_1 Cg_GLCCD Cg_GLCCSD Cg_GQCISD Cg_RCC2 Cg_RCC3 Cg_RCCD Cg_RCCSD Cg_RCCSDT Cg_RCCSD_SD_1_1 Cg_RCCSD_SD_1_2 Cg_RCCSD_S_1_1 Cg_RDCD Cg_RDCSD Cg_RDFCC2 Cg_RDFCCD Cg_RDFCCSD Cg_RDFDCD Cg_RDFDCSD Cg_RDFLCCD Cg_RDFLCCSD Cg_RDFQCISD Cg_RLCCD Cg_RLCCSD Cg_RQCISD Cg_UCC2 Cg_UCC3 Cg_UCCD Cg_UCCSD Cg_UCCSDT Cg_UCCSD_SD_1_1 Cg_UCCSD_SD_1_2 Cg_UCCSD_S_1_1 Cg_UDCD Cg_UDCSD Cg_UDFCC2 Cg_UDFCCD Cg_UDFCCSD Cg_UDFDCD Cg_UDFDCSD Cg_UDFLCCD Cg_UDFLCCSD Cg_UDFQCISD Cg_ULCCD Cg_ULCCSD Cg_UMP2 Cg_UMP3 Cg_UQCISD.
Import Cg_GCC2 Cg_GCC3 Cg_GCCD Cg_GCCSD Cg_GCCSDT Cg_GCCSD_SD_1_1 Cg_GCCSD_SD_1_2 Cg_GCCSD_S_1_1 Cg_GLCCD Cg_GLCCSD Cg_GQCISD Cg_RCC2 Cg_RCC3 Cg_RCCD Cg_RCCSD Cg_RCCSDT Cg_RCCSD_SD_1_1 Cg_RCCSD_SD_1_2 Cg_RCCSD_S_1_1 Cg_RDCD Cg_RDCSD Cg_RDFCC2 Cg_RDFCCD Cg_RDFCCSD Cg_RDFDCD Cg_RDFDCSD Cg_RDFLCCD Cg_RDFLCCSD Cg_RDFQCISD Cg_RLCCD Cg_RLCCSD Cg_RQCISD Cg_UCC2 Cg_UCC3 Cg_UCCD Cg_UCCSD Cg_UCCSDT Cg_UCCSD_SD_1_1 Cg_UCCSD_SD_1_2 Cg_UCCSD_S_1_1 Cg_UDCD Cg_UDCSD Cg_UDFCC2 Cg_UDFCCD Cg_UDFCCSD Cg_UDFDCD Cg_UDFDCSD Cg_UDFLCCD Cg_UDFLCCSD Cg_UDFQCISD Cg_ULCCD Cg_ULCCSD Cg_UMP2 Cg_UMP3 Cg_UQCISD.
Import ListNotations.
Local Open Scope string_scope. Local Open Scope nat_scope.

(** Functions that exist with and without density fitting. *)
Definition fitted_restricted : list (string * (prog * prog)) :=
  [("RCC2.energy", (RCC2_energy, RDFCC2_energy));
   ("RCC2.update_amps", (RCC2_update_amps, RDFCC2_update_amps));
   ("RCC2.update_lams", (RCC2_update_lams, RDFCC2_update_lams));
   ("RCCD.energy", (RCCD_energy, RDFCCD_energy));
   ("RCCD.update_amps", (RCCD_update_amps, RDFCCD_update_amps));
   ("RCCD.update_lams", (RCCD_update_lams, RDFCCD_update_lams));
   ("RCCSD.energy", (RCCSD_energy, RDFCCSD_energy));
   ("RCCSD.update_amps", (RCCSD_update_amps, RDFCCSD_update_amps));
   ("RCCSD.update_lams", (RCCSD_update_lams, RDFCCSD_update_lams));
   ("RDCD.energy", (RDCD_energy, RDFDCD_energy));
   ("RDCD.update_amps", (RDCD_update_amps, RDFDCD_update_amps));
   ("RDCSD.energy", (RDCSD_energy, RDFDCSD_energy));
   ("RDCSD.update_amps", (RDCSD_update_amps, RDFDCSD_update_amps));
   ("RLCCD.energy", (RLCCD_energy, RDFLCCD_energy));
   ("RLCCD.update_amps", (RLCCD_update_amps, RDFLCCD_update_amps));
   ("RLCCSD.energy", (RLCCSD_energy, RDFLCCSD_energy));
   ("RLCCSD.update_amps", (RLCCSD_update_amps, RDFLCCSD_update_amps));
   ("RQCISD.energy", (RQCISD_energy, RDFQCISD_energy));
   ("RQCISD.update_amps", (RQCISD_update_amps, RDFQCISD_update_amps))].
Definition fitted_unrestricted : list (string * (prog * prog)) :=
  [("UCC2.energy", (UCC2_energy, UDFCC2_energy));
   ("UCC2.update_amps", (UCC2_update_amps, UDFCC2_update_amps));
   ("UCC2.update_lams", (UCC2_update_lams, UDFCC2_update_lams));
   ("UCCD.energy", (UCCD_energy, UDFCCD_energy));
   ("UCCD.update_amps", (UCCD_update_amps, UDFCCD_update_amps));
   ("UCCD.update_lams", (UCCD_update_lams, UDFCCD_update_lams));
   ("UCCSD.energy", (UCCSD_energy, UDFCCSD_energy));
   ("UCCSD.update_amps", (UCCSD_update_amps, UDFCCSD_update_amps));
   ("UCCSD.update_lams", (UCCSD_update_lams, UDFCCSD_update_lams));
   ("UDCD.energy", (UDCD_energy, UDFDCD_energy));
   ("UDCD.update_amps", (UDCD_update_amps, UDFDCD_update_amps));
   ("UDCSD.energy", (UDCSD_energy, UDFDCSD_energy));
   ("UDCSD.update_amps", (UDCSD_update_amps, UDFDCSD_update_amps));
   ("ULCCD.energy", (ULCCD_energy, UDFLCCD_energy));
   ("ULCCD.update_amps", (ULCCD_update_amps, UDFLCCD_update_amps));
   ("ULCCSD.energy", (ULCCSD_energy, UDFLCCSD_energy));
   ("ULCCSD.update_amps", (ULCCSD_update_amps, UDFLCCSD_update_amps));
   ("UQCISD.energy", (UQCISD_energy, UDFQCISD_energy));
   ("UQCISD.update_amps", (UQCISD_update_amps, UDFQCISD_update_amps))].

(** Exchange of alpha and beta orbitals. *)
Definition exchange (c : cls) : cls := match c with 4 => 6 | 6 => 4 | 5 => 7 | 7 => 5 | _ => c end.
Definition unrestricted_functions : list (string * prog) :=
  [("UCC2.energy", UCC2_energy);
   ("UCC2.update_amps", UCC2_update_amps);
   ("UCC2.update_lams", UCC2_update_lams);
   ("UCC3.energy", UCC3_energy);
   ("UCC3.update_amps", UCC3_update_amps);
   ("UCCD.energy", UCCD_energy);
   ("UCCD.update_amps", UCCD_update_amps);
   ("UCCD.update_lams", UCCD_update_lams);
   ("UCCSD.energy", UCCSD_energy);
   ("UCCSD.update_amps", UCCSD_update_amps);
   ("UCCSD.update_lams", UCCSD_update_lams);
   ("UCCSDT.energy", UCCSDT_energy);
   ("UCCSD_SD_1_1.energy", UCCSD_SD_1_1_energy);
   ("UCCSD_SD_1_1.update_amps", UCCSD_SD_1_1_update_amps);
   ("UCCSD_SD_1_2.energy", UCCSD_SD_1_2_energy);
   ("UCCSD_SD_1_2.update_amps", UCCSD_SD_1_2_update_amps);
   ("UCCSD_S_1_1.energy", UCCSD_S_1_1_energy);
   ("UCCSD_S_1_1.update_amps", UCCSD_S_1_1_update_amps);
   ("UDCD.energy", UDCD_energy);
   ("UDCD.update_amps", UDCD_update_amps);
   ("UDCSD.energy", UDCSD_energy);
   ("UDCSD.update_amps", UDCSD_update_amps);
   ("ULCCD.energy", ULCCD_energy);
   ("ULCCD.update_amps", ULCCD_update_amps);
   ("ULCCSD.energy", ULCCSD_energy);
   ("ULCCSD.update_amps", ULCCSD_update_amps);
   ("UMP2.energy", UMP2_energy);
   ("UMP3.energy", UMP3_energy);
   ("UQCISD.energy", UQCISD_energy);
   ("UQCISD.update_amps", UQCISD_update_amps)].

(** Functions that compute residuals. *)
Definition restricted_residuals : list (string * prog) :=
  [("RCC2.update_amps", RCC2_update_amps);
   ("RCC2.update_lams", RCC2_update_lams);
   ("RCC3.update_amps", RCC3_update_amps);
   ("RCCD.update_amps", RCCD_update_amps);
   ("RCCD.update_lams", RCCD_update_lams);
   ("RCCSD.update_amps", RCCSD_update_amps);
   ("RCCSD.update_lams", RCCSD_update_lams);
   ("RCCSDT.update_amps", RCCSDT_update_amps);
   ("RCCSD_SD_1_1.update_amps", RCCSD_SD_1_1_update_amps);
   ("RCCSD_SD_1_1.update_lams", RCCSD_SD_1_1_update_lams);
   ("RCCSD_SD_1_2.update_amps", RCCSD_SD_1_2_update_amps);
   ("RCCSD_SD_1_2.update_lams", RCCSD_SD_1_2_update_lams);
   ("RCCSD_S_1_1.update_lams", RCCSD_S_1_1_update_lams);
   ("RDCD.update_amps", RDCD_update_amps);
   ("RDCSD.update_amps", RDCSD_update_amps);
   ("RDFCC2.update_amps", RDFCC2_update_amps);
   ("RDFCC2.update_lams", RDFCC2_update_lams);
   ("RDFCCD.update_amps", RDFCCD_update_amps);
   ("RDFCCD.update_lams", RDFCCD_update_lams);
   ("RDFCCSD.update_amps", RDFCCSD_update_amps);
   ("RDFCCSD.update_lams", RDFCCSD_update_lams);
   ("RDFDCD.update_amps", RDFDCD_update_amps);
   ("RDFDCSD.update_amps", RDFDCSD_update_amps);
   ("RDFLCCD.update_amps", RDFLCCD_update_amps);
   ("RDFLCCSD.update_amps", RDFLCCSD_update_amps);
   ("RDFQCISD.update_amps", RDFQCISD_update_amps);
   ("RLCCD.update_amps", RLCCD_update_amps);
   ("RLCCSD.update_amps", RLCCSD_update_amps);
   ("RQCISD.update_amps", RQCISD_update_amps)].
Definition unrestricted_residuals : list (string * prog) :=
  [("UCC2.update_amps", UCC2_update_amps);
   ("UCC2.update_lams", UCC2_update_lams);
   ("UCC3.update_amps", UCC3_update_amps);
   ("UCCD.update_amps", UCCD_update_amps);
   ("UCCD.update_lams", UCCD_update_lams);
   ("UCCSD.update_amps", UCCSD_update_amps);
   ("UCCSD.update_lams", UCCSD_update_lams);
   ("UCCSD_SD_1_1.update_amps", UCCSD_SD_1_1_update_amps);
   ("UCCSD_SD_1_2.update_amps", UCCSD_SD_1_2_update_amps);
   ("UCCSD_S_1_1.update_amps", UCCSD_S_1_1_update_amps);
   ("UDCD.update_amps", UDCD_update_amps);
   ("UDCSD.update_amps", UDCSD_update_amps);
   ("ULCCD.update_amps", ULCCD_update_amps);
   ("ULCCSD.update_amps", ULCCSD_update_amps);
   ("UQCISD.update_amps", UQCISD_update_amps)].
Definition general_residuals : list (string * prog) :=
  [("GCC2.update_amps", GCC2_update_amps);
   ("GCC2.update_lams", GCC2_update_lams);
   ("GCC3.update_amps", GCC3_update_amps);
   ("GCCD.update_amps", GCCD_update_amps);
   ("GCCD.update_lams", GCCD_update_lams);
   ("GCCSD.update_amps", GCCSD_update_amps);
   ("GCCSD.update_lams", GCCSD_update_lams);
   ("GCCSDT.update_amps", GCCSDT_update_amps);
   ("GCCSDT.update_lams", GCCSDT_update_lams);
   ("GCCSD_SD_1_1.update_amps", GCCSD_SD_1_1_update_amps);
   ("GCCSD_SD_1_1.update_lams", GCCSD_SD_1_1_update_lams);
   ("GCCSD_SD_1_2.update_amps", GCCSD_SD_1_2_update_amps);
   ("GCCSD_SD_1_2.update_lams", GCCSD_SD_1_2_update_lams);
   ("GCCSD_S_1_1.update_amps", GCCSD_S_1_1_update_amps);
   ("GCCSD_S_1_1.update_lams", GCCSD_S_1_1_update_lams);
   ("GLCCD.update_amps", GLCCD_update_amps);
   ("GLCCSD.update_amps", GLCCSD_update_amps);
   ("GQCISD.update_amps", GQCISD_update_amps)].
