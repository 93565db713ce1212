(** The energies and amplitude equations checked for size-extensivity. *)
From Coq Require Import List String.
From Verif Require Import CgModel.
From Verif Require Import Cg_GCC2 Cg_GCC3 Cg_GCCD Cg_GCCSD Cg_GCCSDT Cg_GCCSD_SD_1_1 Cg_GCCSD_SD_1_2 Cg_GCCSD_S_1_1 Cg_GLCCD Cg_GLCCSD Cg_GMP2 Cg_GMP3 Cg_GQCISD Cg_RCC2 Cg_RCC3 Cg_RCCD Cg_RCCSD Cg_RCCSDT Cg_RCCSD_SD_1_1 Cg_RCCSD_SD_1_2 Cg_RCCSD_S_1_1 Cg_RDCD Cg_RDCSD Cg_RDFCC2 Cg_RDFCCD Cg_RDFCCSD Cg_RDFDCD Cg_RDFDCSD Cg_RDFLCCD Cg_RDFLCCSD Cg_RDFQCISD Cg_RLCCD Cg_RLCCSD Cg_RMP2 Cg_RMP3 Cg_RQCISD Cg_UCC2 Cg_UCC3 Cg_UCCD Cg_UCCSD Cg_UCCSDT Cg_UCCSD_SD_1_1 Cg_UCCSD_SD_1_2 Cg_UCCSD_S_1_1 Cg_UDCD Cg_UDCSD Cg_ULCCD Cg_ULCCSD Cg_UMP2 Cg_UMP3 Cg_UQCISD.
Import ListNotations.
Local Open Scope string_scope.

Definition extensive_R : list (string * prog) :=
  [("RCC2.energy", RCC2_energy);
   ("RCC2.update_amps", RCC2_update_amps);
   ("RCC3.energy", RCC3_energy);
   ("RCCD.energy", RCCD_energy);
   ("RCCD.update_amps", RCCD_update_amps);
   ("RCCSD.energy", RCCSD_energy);
   ("RCCSD.update_amps", RCCSD_update_amps);
   ("RCCSDT.energy", RCCSDT_energy);
   ("RCCSD_SD_1_1.energy", RCCSD_SD_1_1_energy);
   ("RCCSD_SD_1_1.update_amps", RCCSD_SD_1_1_update_amps);
   ("RCCSD_SD_1_2.energy", RCCSD_SD_1_2_energy);
   ("RCCSD_SD_1_2.update_amps", RCCSD_SD_1_2_update_amps);
   ("RCCSD_S_1_1.energy", RCCSD_S_1_1_energy);
   ("RCCSD_S_1_1.update_amps", RCCSD_S_1_1_update_amps);
   ("RDCD.energy", RDCD_energy);
   ("RDCD.update_amps", RDCD_update_amps);
   ("RDCSD.energy", RDCSD_energy);
   ("RDCSD.update_amps", RDCSD_update_amps);
   ("RDFCC2.energy", RDFCC2_energy);
   ("RDFCC2.update_amps", RDFCC2_update_amps);
   ("RDFCCD.energy", RDFCCD_energy);
   ("RDFCCD.update_amps", RDFCCD_update_amps);
   ("RDFCCSD.energy", RDFCCSD_energy);
   ("RDFCCSD.update_amps", RDFCCSD_update_amps);
   ("RDFDCD.energy", RDFDCD_energy);
   ("RDFDCD.update_amps", RDFDCD_update_amps);
   ("RDFDCSD.energy", RDFDCSD_energy);
   ("RDFDCSD.update_amps", RDFDCSD_update_amps);
   ("RDFLCCD.energy", RDFLCCD_energy);
   ("RDFLCCD.update_amps", RDFLCCD_update_amps);
   ("RDFLCCSD.energy", RDFLCCSD_energy);
   ("RDFLCCSD.update_amps", RDFLCCSD_update_amps);
   ("RDFQCISD.energy", RDFQCISD_energy);
   ("RDFQCISD.update_amps", RDFQCISD_update_amps);
   ("RLCCD.energy", RLCCD_energy);
   ("RLCCD.update_amps", RLCCD_update_amps);
   ("RLCCSD.energy", RLCCSD_energy);
   ("RLCCSD.update_amps", RLCCSD_update_amps);
   ("RMP2.energy", RMP2_energy);
   ("RMP3.energy", RMP3_energy);
   ("RQCISD.energy", RQCISD_energy);
   ("RQCISD.update_amps", RQCISD_update_amps)].
Definition extensive_U : list (string * prog) :=
  [("UCC2.energy", UCC2_energy);
   ("UCC2.update_amps", UCC2_update_amps);
   ("UCC3.energy", UCC3_energy);
   ("UCCD.energy", UCCD_energy);
   ("UCCD.update_amps", UCCD_update_amps);
   ("UCCSD.energy", UCCSD_energy);
   ("UCCSD.update_amps", UCCSD_update_amps);
   ("UCCSDT.energy", UCCSDT_energy);
   ("UCCSD_SD_1_1.energy", UCCSD_SD_1_1_energy);
   ("UCCSD_SD_1_2.energy", UCCSD_SD_1_2_energy);
   ("UCCSD_S_1_1.energy", UCCSD_S_1_1_energy);
   ("UDCD.energy", UDCD_energy);
   ("UDCD.update_amps", UDCD_update_amps);
   ("UDCSD.energy", UDCSD_energy);
   ("UDCSD.update_amps", UDCSD_update_amps);
   ("ULCCD.energy", ULCCD_energy);
   ("ULCCD.update_amps", ULCCD_update_amps);
   ("ULCCSD.energy", ULCCSD_energy);
   ("ULCCSD.update_amps", ULCCSD_update_amps);
   ("UMP2.energy", UMP2_energy);
   ("UMP3.energy", UMP3_energy);
   ("UQCISD.energy", UQCISD_energy);
   ("UQCISD.update_amps", UQCISD_update_amps)].
Definition extensive_G : list (string * prog) :=
  [("GCC2.energy", GCC2_energy);
   ("GCC2.update_amps", GCC2_update_amps);
   ("GCC3.energy", GCC3_energy);
   ("GCC3.update_amps", GCC3_update_amps);
   ("GCCD.energy", GCCD_energy);
   ("GCCD.update_amps", GCCD_update_amps);
   ("GCCSD.energy", GCCSD_energy);
   ("GCCSD.update_amps", GCCSD_update_amps);
   ("GCCSDT.energy", GCCSDT_energy);
   ("GCCSD_SD_1_1.energy", GCCSD_SD_1_1_energy);
   ("GCCSD_SD_1_1.update_amps", GCCSD_SD_1_1_update_amps);
   ("GCCSD_SD_1_2.energy", GCCSD_SD_1_2_energy);
   ("GCCSD_SD_1_2.update_amps", GCCSD_SD_1_2_update_amps);
   ("GCCSD_S_1_1.energy", GCCSD_S_1_1_energy);
   ("GCCSD_S_1_1.update_amps", GCCSD_S_1_1_update_amps);
   ("GLCCD.energy", GLCCD_energy);
   ("GLCCD.update_amps", GLCCD_update_amps);
   ("GLCCSD.energy", GLCCSD_energy);
   ("GLCCSD.update_amps", GLCCSD_update_amps);
   ("GMP2.energy", GMP2_energy);
   ("GMP3.energy", GMP3_energy);
   ("GQCISD.energy", GQCISD_energy);
   ("GQCISD.update_amps", GQCISD_update_amps)].
