(** Corresponding generated functions of restricted, unrestricted and general calculations: the energy
    and the amplitude equations (energy, update_amps, update_lams of every module that exists for both). *)
From Coq Require Import List String.
From Verif Require Import CgModel.
From Verif Require Cg_GCC2 Cg_GCC3 Cg_GCCD Cg_GCCSD Cg_GCCSDT Cg_GCCSD_SD_1_1 Cg_GCCSD_SD_1_2 Cg_GCCSD_S_1_1 Cg_GCCSDwtwp Cg_GCCSDxTx Cg_GLCCD Cg_GLCCSD Cg_GMP2 Cg_GMP3 Cg_GQCISD Cg_RCC2 Cg_RCC3 Cg_RCCD Cg_RCCSD Cg_RCCSDT Cg_RCCSD_SD_1_1 Cg_RCCSD_SD_1_2 Cg_RCCSD_S_1_1 Cg_RCCSDwtwp Cg_RCCSDxTx Cg_RDCD Cg_RDCSD Cg_RDFCC2 Cg_RDFCCD Cg_RDFCCSD Cg_RDFDCD Cg_RDFDCSD Cg_RDFLCCD Cg_RDFLCCSD Cg_RDFQCISD Cg_RLCCD Cg_RLCCSD Cg_RMP2 Cg_RMP3 Cg_RQCISD Cg_UCC2 Cg_UCC3 Cg_UCCD Cg_UCCSD Cg_UCCSDT Cg_UCCSD_SD_1_1 Cg_UCCSD_SD_1_2 Cg_UCCSD_S_1_1 Cg_UCCSDwtwp Cg_UCCSDxTx Cg_UDCD Cg_UDCSD Cg_UDFCC2 Cg_UDFCCD Cg_UDFCCSD Cg_UDFDCD Cg_UDFDCSD Cg_UDFLCCD Cg_UDFLCCSD Cg_UDFQCISD Cg_ULCCD Cg_ULCCSD Cg_UMP2 Cg_UMP3 Cg_UQCISD.
Import Cg_GCC2 Cg_GCC3 Cg_GCCD Cg_GCCSD Cg_GCCSDT Cg_GCCSD_SD_1_1 Cg_GCCSD_SD_1_2 Cg_GCCSD_S_1_1 Cg_GCCSDwtwp Cg_GCCSDxTx Cg_GLCCD Cg_GLCCSD Cg_GMP2 Cg_GMP3 Cg_GQCISD Cg_RCC2 Cg_RCC3 Cg_RCCD Cg_RCCSD Cg_RCCSDT Cg_RCCSD_SD_1_1 Cg_RCCSD_SD_1_2 Cg_RCCSD_S_1_1 Cg_RCCSDwtwp Cg_RCCSDxTx Cg_RDCD Cg_RDCSD Cg_RDFCC2 Cg_RDFCCD Cg_RDFCCSD Cg_RDFDCD Cg_RDFDCSD Cg_RDFLCCD Cg_RDFLCCSD Cg_RDFQCISD Cg_RLCCD Cg_RLCCSD Cg_RMP2 Cg_RMP3 Cg_RQCISD Cg_UCC2 Cg_UCC3 Cg_UCCD Cg_UCCSD Cg_UCCSDT Cg_UCCSD_SD_1_1 Cg_UCCSD_SD_1_2 Cg_UCCSD_S_1_1 Cg_UCCSDwtwp Cg_UCCSDxTx Cg_UDCD Cg_UDCSD Cg_UDFCC2 Cg_UDFCCD Cg_UDFCCSD Cg_UDFDCD Cg_UDFDCSD Cg_UDFLCCD Cg_UDFLCCSD Cg_UDFQCISD Cg_ULCCD Cg_ULCCSD Cg_UMP2 Cg_UMP3 Cg_UQCISD.
Import ListNotations.
Local Open Scope string_scope. Local Open Scope nat_scope.

(** In a closed shell the alpha and the beta orbitals are the spatial ones. *)
Definition closed_split (c : cls) : list cls := match c with 4 | 6 => [0] | 5 | 7 => [1] | _ => [c] end.
(** Spin orbitals are the alpha orbitals followed by the beta ones. *)
Definition spin_split (c : cls) : list cls := match c with 0 => [4; 6] | 1 => [5; 7] | _ => [c] end.

(** Restricted and unrestricted functions; in those of the second list some literals carry rounding errors. *)
Definition restricted_unrestricted : list (string * (prog * prog)) :=
  [("CC2.energy", (RCC2_energy, UCC2_energy));
   ("CC2.update_amps", (RCC2_update_amps, UCC2_update_amps));
   ("CC2.update_lams", (RCC2_update_lams, UCC2_update_lams));
   ("CC3.energy", (RCC3_energy, UCC3_energy));
   ("CC3.update_amps", (RCC3_update_amps, UCC3_update_amps));
   ("CCD.energy", (RCCD_energy, UCCD_energy));
   ("CCD.update_amps", (RCCD_update_amps, UCCD_update_amps));
   ("CCD.update_lams", (RCCD_update_lams, UCCD_update_lams));
   ("CCSD.energy", (RCCSD_energy, UCCSD_energy));
   ("CCSD.update_amps", (RCCSD_update_amps, UCCSD_update_amps));
   ("CCSD.update_lams", (RCCSD_update_lams, UCCSD_update_lams));
   ("CCSDT.energy", (RCCSDT_energy, UCCSDT_energy));
   ("CCSD_SD_1_1.energy", (RCCSD_SD_1_1_energy, UCCSD_SD_1_1_energy));
   ("CCSD_SD_1_2.energy", (RCCSD_SD_1_2_energy, UCCSD_SD_1_2_energy));
   ("CCSD_SD_1_2.update_amps", (RCCSD_SD_1_2_update_amps, UCCSD_SD_1_2_update_amps));
   ("CCSD_SD_1_2.update_lams", (RCCSD_SD_1_2_update_lams, UCCSD_SD_1_2_update_lams));
   ("CCSD_S_1_1.energy", (RCCSD_S_1_1_energy, UCCSD_S_1_1_energy));
   ("CCSDwtwp.energy", (RCCSDwtwp_energy, UCCSDwtwp_energy));
   ("CCSDxTx.energy", (RCCSDxTx_energy, UCCSDxTx_energy));
   ("CCSDxTx.update_amps", (RCCSDxTx_update_amps, UCCSDxTx_update_amps));
   ("DCD.energy", (RDCD_energy, UDCD_energy));
   ("DCD.update_amps", (RDCD_update_amps, UDCD_update_amps));
   ("DCSD.energy", (RDCSD_energy, UDCSD_energy));
   ("DCSD.update_amps", (RDCSD_update_amps, UDCSD_update_amps));
   ("DFCC2.energy", (RDFCC2_energy, UDFCC2_energy));
   ("DFCC2.update_amps", (RDFCC2_update_amps, UDFCC2_update_amps));
   ("DFCC2.update_lams", (RDFCC2_update_lams, UDFCC2_update_lams));
   ("DFCCD.energy", (RDFCCD_energy, UDFCCD_energy));
   ("DFCCD.update_amps", (RDFCCD_update_amps, UDFCCD_update_amps));
   ("DFCCD.update_lams", (RDFCCD_update_lams, UDFCCD_update_lams));
   ("DFCCSD.energy", (RDFCCSD_energy, UDFCCSD_energy));
   ("DFCCSD.update_amps", (RDFCCSD_update_amps, UDFCCSD_update_amps));
   ("DFCCSD.update_lams", (RDFCCSD_update_lams, UDFCCSD_update_lams));
   ("DFDCD.energy", (RDFDCD_energy, UDFDCD_energy));
   ("DFDCD.update_amps", (RDFDCD_update_amps, UDFDCD_update_amps));
   ("DFDCSD.energy", (RDFDCSD_energy, UDFDCSD_energy));
   ("DFDCSD.update_amps", (RDFDCSD_update_amps, UDFDCSD_update_amps));
   ("DFLCCD.energy", (RDFLCCD_energy, UDFLCCD_energy));
   ("DFLCCD.update_amps", (RDFLCCD_update_amps, UDFLCCD_update_amps));
   ("DFLCCSD.energy", (RDFLCCSD_energy, UDFLCCSD_energy));
   ("DFLCCSD.update_amps", (RDFLCCSD_update_amps, UDFLCCSD_update_amps));
   ("DFQCISD.energy", (RDFQCISD_energy, UDFQCISD_energy));
   ("DFQCISD.update_amps", (RDFQCISD_update_amps, UDFQCISD_update_amps));
   ("LCCD.energy", (RLCCD_energy, ULCCD_energy));
   ("LCCD.update_amps", (RLCCD_update_amps, ULCCD_update_amps));
   ("LCCSD.energy", (RLCCSD_energy, ULCCSD_energy));
   ("LCCSD.update_amps", (RLCCSD_update_amps, ULCCSD_update_amps));
   ("MP2.energy", (RMP2_energy, UMP2_energy));
   ("MP3.energy", (RMP3_energy, UMP3_energy));
   ("QCISD.energy", (RQCISD_energy, UQCISD_energy));
   ("QCISD.update_amps", (RQCISD_update_amps, UQCISD_update_amps))].
Definition restricted_unrestricted_rounded : list (string * (prog * prog)) :=
  [("CCSDT.update_amps", (RCCSDT_update_amps, UCCSDT_update_amps));
   ("CCSDT.update_lams", (RCCSDT_update_lams, UCCSDT_update_lams));
   ("CCSD_SD_1_1.update_amps", (RCCSD_SD_1_1_update_amps, UCCSD_SD_1_1_update_amps));
   ("CCSD_SD_1_1.update_lams", (RCCSD_SD_1_1_update_lams, UCCSD_SD_1_1_update_lams));
   ("CCSD_S_1_1.update_lams", (RCCSD_S_1_1_update_lams, UCCSD_S_1_1_update_lams))].

(** Unrestricted and general functions. *)
Definition unrestricted_general : list (string * (prog * prog)) :=
  [("CC2.energy", (UCC2_energy, GCC2_energy));
   ("CC2.update_amps", (UCC2_update_amps, GCC2_update_amps));
   ("CC2.update_lams", (UCC2_update_lams, GCC2_update_lams));
   ("CC3.energy", (UCC3_energy, GCC3_energy));
   ("CC3.update_amps", (UCC3_update_amps, GCC3_update_amps));
   ("CCD.energy", (UCCD_energy, GCCD_energy));
   ("CCD.update_amps", (UCCD_update_amps, GCCD_update_amps));
   ("CCD.update_lams", (UCCD_update_lams, GCCD_update_lams));
   ("CCSD.energy", (UCCSD_energy, GCCSD_energy));
   ("CCSD.update_amps", (UCCSD_update_amps, GCCSD_update_amps));
   ("CCSD.update_lams", (UCCSD_update_lams, GCCSD_update_lams));
   ("CCSDT.energy", (UCCSDT_energy, GCCSDT_energy));
   ("CCSD_SD_1_1.energy", (UCCSD_SD_1_1_energy, GCCSD_SD_1_1_energy));
   ("CCSD_SD_1_2.energy", (UCCSD_SD_1_2_energy, GCCSD_SD_1_2_energy));
   ("CCSD_S_1_1.energy", (UCCSD_S_1_1_energy, GCCSD_S_1_1_energy));
   ("CCSDwtwp.energy", (UCCSDwtwp_energy, GCCSDwtwp_energy));
   ("CCSDxTx.energy", (UCCSDxTx_energy, GCCSDxTx_energy));
   ("CCSDxTx.update_amps", (UCCSDxTx_update_amps, GCCSDxTx_update_amps));
   ("LCCD.energy", (ULCCD_energy, GLCCD_energy));
   ("LCCD.update_amps", (ULCCD_update_amps, GLCCD_update_amps));
   ("LCCSD.energy", (ULCCSD_energy, GLCCSD_energy));
   ("LCCSD.update_amps", (ULCCSD_update_amps, GLCCSD_update_amps));
   ("MP2.energy", (UMP2_energy, GMP2_energy));
   ("MP3.energy", (UMP3_energy, GMP3_energy));
   ("QCISD.energy", (UQCISD_energy, GQCISD_energy));
   ("QCISD.update_amps", (UQCISD_update_amps, GQCISD_update_amps))].
Definition unrestricted_general_rounded : list (string * (prog * prog)) :=
  [("CCSDT.update_amps", (UCCSDT_update_amps, GCCSDT_update_amps));
   ("CCSD_SD_1_1.update_amps", (UCCSD_SD_1_1_update_amps, GCCSD_SD_1_1_update_amps));
   ("CCSD_SD_1_1.update_lams", (UCCSD_SD_1_1_update_lams, GCCSD_SD_1_1_update_lams));
   ("CCSD_SD_1_2.update_amps", (UCCSD_SD_1_2_update_amps, GCCSD_SD_1_2_update_amps));
   ("CCSD_SD_1_2.update_lams", (UCCSD_SD_1_2_update_lams, GCCSD_SD_1_2_update_lams));
   ("CCSD_S_1_1.update_amps", (UCCSD_S_1_1_update_amps, GCCSD_S_1_1_update_amps));
   ("CCSD_S_1_1.update_lams", (UCCSD_S_1_1_update_lams, GCCSD_S_1_1_update_lams))].
