(** Generated by tools/translate_codegen.py: the list of all translated functions. *)
From Coq Require Import List String.
From Verif Require Import CgModel.
From Verif Require Cg_GCC2.
From Verif Require Cg_GCC3.
From Verif Require Cg_GCCD.
From Verif Require Cg_GCCSD.
From Verif Require Cg_GCCSDT.
From Verif Require Cg_GCCSDTQ.
From Verif Require Cg_GCCSD_SD_1_1.
From Verif Require Cg_GCCSD_SD_1_2.
From Verif Require Cg_GCCSD_S_1_1.
From Verif Require Cg_GCCSDwtwp.
From Verif Require Cg_GCCSDxTx.
From Verif Require Cg_GLCCD.
From Verif Require Cg_GLCCSD.
From Verif Require Cg_GMP2.
From Verif Require Cg_GMP3.
From Verif Require Cg_GQCISD.
From Verif Require Cg_GecCC.
From Verif Require Cg_RCC2.
From Verif Require Cg_RCC3.
From Verif Require Cg_RCCD.
From Verif Require Cg_RCCSD.
From Verif Require Cg_RCCSDT.
From Verif Require Cg_RCCSD_SD_1_1.
From Verif Require Cg_RCCSD_SD_1_2.
From Verif Require Cg_RCCSD_S_1_1.
From Verif Require Cg_RCCSDwtwp.
From Verif Require Cg_RCCSDxTx.
From Verif Require Cg_RDCD.
From Verif Require Cg_RDCSD.
From Verif Require Cg_RDFCC2.
From Verif Require Cg_RDFCCD.
From Verif Require Cg_RDFCCSD.
From Verif Require Cg_RDFDCD.
From Verif Require Cg_RDFDCSD.
From Verif Require Cg_RDFLCCD.
From Verif Require Cg_RDFLCCSD.
From Verif Require Cg_RDFQCISD.
From Verif Require Cg_RLCCD.
From Verif Require Cg_RLCCSD.
From Verif Require Cg_RMP2.
From Verif Require Cg_RMP3.
From Verif Require Cg_RQCISD.
From Verif Require Cg_RecCC.
From Verif Require Cg_UCC2.
From Verif Require Cg_UCC3.
From Verif Require Cg_UCCD.
From Verif Require Cg_UCCSD.
From Verif Require Cg_UCCSDT.
From Verif Require Cg_UCCSD_SD_1_1.
From Verif Require Cg_UCCSD_SD_1_2.
From Verif Require Cg_UCCSD_S_1_1.
From Verif Require Cg_UCCSDwtwp.
From Verif Require Cg_UCCSDxTx.
From Verif Require Cg_UDCD.
From Verif Require Cg_UDCSD.
From Verif Require Cg_UDFCC2.
From Verif Require Cg_UDFCCD.
From Verif Require Cg_UDFCCSD.
From Verif Require Cg_UDFDCD.
From Verif Require Cg_UDFDCSD.
From Verif Require Cg_UDFLCCD.
From Verif Require Cg_UDFLCCSD.
From Verif Require Cg_UDFQCISD.
From Verif Require Cg_ULCCD.
From Verif Require Cg_ULCCSD.
From Verif Require Cg_UMP2.
From Verif Require Cg_UMP3.
From Verif Require Cg_UQCISD.
From Verif Require Cg_UecCC.
Import ListNotations.
Local Open Scope string_scope.

Definition all_GCC2 : list (string * prog) :=
  [("GCC2.energy", Cg_GCC2.GCC2_energy);
   ("GCC2.update_amps", Cg_GCC2.GCC2_update_amps);
   ("GCC2.update_lams", Cg_GCC2.GCC2_update_lams);
   ("GCC2.make_rdm1_f", Cg_GCC2.GCC2_make_rdm1_f);
   ("GCC2.make_rdm2_f", Cg_GCC2.GCC2_make_rdm2_f);
   ("GCC2.hbar_matvec_ip_intermediates", Cg_GCC2.GCC2_hbar_matvec_ip_intermediates);
   ("GCC2.hbar_matvec_ip", Cg_GCC2.GCC2_hbar_matvec_ip);
   ("GCC2.hbar_matvec_ea_intermediates", Cg_GCC2.GCC2_hbar_matvec_ea_intermediates);
   ("GCC2.hbar_matvec_ea", Cg_GCC2.GCC2_hbar_matvec_ea);
   ("GCC2.hbar_matvec_ee_intermediates", Cg_GCC2.GCC2_hbar_matvec_ee_intermediates);
   ("GCC2.hbar_matvec_ee", Cg_GCC2.GCC2_hbar_matvec_ee);
   ("GCC2.hbar_lmatvec_ip_intermediates", Cg_GCC2.GCC2_hbar_lmatvec_ip_intermediates);
   ("GCC2.hbar_lmatvec_ip", Cg_GCC2.GCC2_hbar_lmatvec_ip);
   ("GCC2.hbar_lmatvec_ea_intermediates", Cg_GCC2.GCC2_hbar_lmatvec_ea_intermediates);
   ("GCC2.hbar_lmatvec_ea", Cg_GCC2.GCC2_hbar_lmatvec_ea);
   ("GCC2.hbar_lmatvec_ee_intermediates", Cg_GCC2.GCC2_hbar_lmatvec_ee_intermediates);
   ("GCC2.hbar_lmatvec_ee", Cg_GCC2.GCC2_hbar_lmatvec_ee)].
Definition all_GCC3 : list (string * prog) :=
  [("GCC3.energy", Cg_GCC3.GCC3_energy);
   ("GCC3.update_amps", Cg_GCC3.GCC3_update_amps)].
Definition all_GCCD : list (string * prog) :=
  [("GCCD.energy", Cg_GCCD.GCCD_energy);
   ("GCCD.update_amps", Cg_GCCD.GCCD_update_amps);
   ("GCCD.update_lams", Cg_GCCD.GCCD_update_lams);
   ("GCCD.make_rdm1_f", Cg_GCCD.GCCD_make_rdm1_f);
   ("GCCD.make_rdm2_f", Cg_GCCD.GCCD_make_rdm2_f);
   ("GCCD.hbar_matvec_ip_intermediates", Cg_GCCD.GCCD_hbar_matvec_ip_intermediates);
   ("GCCD.hbar_matvec_ip", Cg_GCCD.GCCD_hbar_matvec_ip);
   ("GCCD.hbar_matvec_ea_intermediates", Cg_GCCD.GCCD_hbar_matvec_ea_intermediates);
   ("GCCD.hbar_matvec_ea", Cg_GCCD.GCCD_hbar_matvec_ea);
   ("GCCD.hbar_matvec_ee_intermediates", Cg_GCCD.GCCD_hbar_matvec_ee_intermediates);
   ("GCCD.hbar_matvec_ee", Cg_GCCD.GCCD_hbar_matvec_ee);
   ("GCCD.hbar_lmatvec_ip_intermediates", Cg_GCCD.GCCD_hbar_lmatvec_ip_intermediates);
   ("GCCD.hbar_lmatvec_ip", Cg_GCCD.GCCD_hbar_lmatvec_ip);
   ("GCCD.hbar_lmatvec_ea_intermediates", Cg_GCCD.GCCD_hbar_lmatvec_ea_intermediates);
   ("GCCD.hbar_lmatvec_ea", Cg_GCCD.GCCD_hbar_lmatvec_ea);
   ("GCCD.hbar_lmatvec_ee_intermediates", Cg_GCCD.GCCD_hbar_lmatvec_ee_intermediates);
   ("GCCD.hbar_lmatvec_ee", Cg_GCCD.GCCD_hbar_lmatvec_ee)].
Definition all_GCCSD : list (string * prog) :=
  [("GCCSD.energy", Cg_GCCSD.GCCSD_energy);
   ("GCCSD.update_amps", Cg_GCCSD.GCCSD_update_amps);
   ("GCCSD.update_lams", Cg_GCCSD.GCCSD_update_lams);
   ("GCCSD.make_rdm1_f", Cg_GCCSD.GCCSD_make_rdm1_f);
   ("GCCSD.make_rdm2_f", Cg_GCCSD.GCCSD_make_rdm2_f);
   ("GCCSD.hbar_matvec_ip_intermediates", Cg_GCCSD.GCCSD_hbar_matvec_ip_intermediates);
   ("GCCSD.hbar_matvec_ip", Cg_GCCSD.GCCSD_hbar_matvec_ip);
   ("GCCSD.hbar_matvec_ea_intermediates", Cg_GCCSD.GCCSD_hbar_matvec_ea_intermediates);
   ("GCCSD.hbar_matvec_ea", Cg_GCCSD.GCCSD_hbar_matvec_ea);
   ("GCCSD.hbar_matvec_ee_intermediates", Cg_GCCSD.GCCSD_hbar_matvec_ee_intermediates);
   ("GCCSD.hbar_matvec_ee", Cg_GCCSD.GCCSD_hbar_matvec_ee);
   ("GCCSD.hbar_lmatvec_ip_intermediates", Cg_GCCSD.GCCSD_hbar_lmatvec_ip_intermediates);
   ("GCCSD.hbar_lmatvec_ip", Cg_GCCSD.GCCSD_hbar_lmatvec_ip);
   ("GCCSD.hbar_lmatvec_ea_intermediates", Cg_GCCSD.GCCSD_hbar_lmatvec_ea_intermediates);
   ("GCCSD.hbar_lmatvec_ea", Cg_GCCSD.GCCSD_hbar_lmatvec_ea);
   ("GCCSD.hbar_lmatvec_ee_intermediates", Cg_GCCSD.GCCSD_hbar_lmatvec_ee_intermediates);
   ("GCCSD.hbar_lmatvec_ee", Cg_GCCSD.GCCSD_hbar_lmatvec_ee)].
Definition all_GCCSDT : list (string * prog) :=
  [("GCCSDT.energy", Cg_GCCSDT.GCCSDT_energy);
   ("GCCSDT.update_amps", Cg_GCCSDT.GCCSDT_update_amps);
   ("GCCSDT.update_lams", Cg_GCCSDT.GCCSDT_update_lams);
   ("GCCSDT.make_rdm1_f", Cg_GCCSDT.GCCSDT_make_rdm1_f);
   ("GCCSDT.make_rdm2_f", Cg_GCCSDT.GCCSDT_make_rdm2_f)].
Definition all_GCCSDTQ : list (string * prog) :=
  [("GCCSDTQ.energy", Cg_GCCSDTQ.GCCSDTQ_energy);
   ("GCCSDTQ.update_amps", Cg_GCCSDTQ.GCCSDTQ_update_amps)].
Definition all_GCCSD_SD_1_1 : list (string * prog) :=
  [("GCCSD_SD_1_1.energy", Cg_GCCSD_SD_1_1.GCCSD_SD_1_1_energy);
   ("GCCSD_SD_1_1.update_amps", Cg_GCCSD_SD_1_1.GCCSD_SD_1_1_update_amps);
   ("GCCSD_SD_1_1.update_lams", Cg_GCCSD_SD_1_1.GCCSD_SD_1_1_update_lams);
   ("GCCSD_SD_1_1.make_rdm1_f", Cg_GCCSD_SD_1_1.GCCSD_SD_1_1_make_rdm1_f);
   ("GCCSD_SD_1_1.make_rdm2_f", Cg_GCCSD_SD_1_1.GCCSD_SD_1_1_make_rdm2_f);
   ("GCCSD_SD_1_1.make_sing_b_dm", Cg_GCCSD_SD_1_1.GCCSD_SD_1_1_make_sing_b_dm);
   ("GCCSD_SD_1_1.make_rdm1_b", Cg_GCCSD_SD_1_1.GCCSD_SD_1_1_make_rdm1_b);
   ("GCCSD_SD_1_1.make_eb_coup_rdm", Cg_GCCSD_SD_1_1.GCCSD_SD_1_1_make_eb_coup_rdm)].
Definition all_GCCSD_SD_1_2 : list (string * prog) :=
  [("GCCSD_SD_1_2.energy", Cg_GCCSD_SD_1_2.GCCSD_SD_1_2_energy);
   ("GCCSD_SD_1_2.update_amps", Cg_GCCSD_SD_1_2.GCCSD_SD_1_2_update_amps);
   ("GCCSD_SD_1_2.update_lams", Cg_GCCSD_SD_1_2.GCCSD_SD_1_2_update_lams);
   ("GCCSD_SD_1_2.make_rdm1_f", Cg_GCCSD_SD_1_2.GCCSD_SD_1_2_make_rdm1_f);
   ("GCCSD_SD_1_2.make_rdm2_f", Cg_GCCSD_SD_1_2.GCCSD_SD_1_2_make_rdm2_f);
   ("GCCSD_SD_1_2.make_sing_b_dm", Cg_GCCSD_SD_1_2.GCCSD_SD_1_2_make_sing_b_dm);
   ("GCCSD_SD_1_2.make_rdm1_b", Cg_GCCSD_SD_1_2.GCCSD_SD_1_2_make_rdm1_b);
   ("GCCSD_SD_1_2.make_eb_coup_rdm", Cg_GCCSD_SD_1_2.GCCSD_SD_1_2_make_eb_coup_rdm)].
Definition all_GCCSD_S_1_1 : list (string * prog) :=
  [("GCCSD_S_1_1.energy", Cg_GCCSD_S_1_1.GCCSD_S_1_1_energy);
   ("GCCSD_S_1_1.update_amps", Cg_GCCSD_S_1_1.GCCSD_S_1_1_update_amps);
   ("GCCSD_S_1_1.update_lams", Cg_GCCSD_S_1_1.GCCSD_S_1_1_update_lams);
   ("GCCSD_S_1_1.make_rdm1_f", Cg_GCCSD_S_1_1.GCCSD_S_1_1_make_rdm1_f);
   ("GCCSD_S_1_1.make_rdm2_f", Cg_GCCSD_S_1_1.GCCSD_S_1_1_make_rdm2_f);
   ("GCCSD_S_1_1.make_sing_b_dm", Cg_GCCSD_S_1_1.GCCSD_S_1_1_make_sing_b_dm);
   ("GCCSD_S_1_1.make_rdm1_b", Cg_GCCSD_S_1_1.GCCSD_S_1_1_make_rdm1_b);
   ("GCCSD_S_1_1.make_eb_coup_rdm", Cg_GCCSD_S_1_1.GCCSD_S_1_1_make_eb_coup_rdm)].
Definition all_GCCSDwtwp : list (string * prog) :=
  [("GCCSDwtwp.energy", Cg_GCCSDwtwp.GCCSDwtwp_energy);
   ("GCCSDwtwp.update_amps", Cg_GCCSDwtwp.GCCSDwtwp_update_amps)].
Definition all_GCCSDxTx : list (string * prog) :=
  [("GCCSDxTx.energy", Cg_GCCSDxTx.GCCSDxTx_energy);
   ("GCCSDxTx.update_amps", Cg_GCCSDxTx.GCCSDxTx_update_amps)].
Definition all_GLCCD : list (string * prog) :=
  [("GLCCD.energy", Cg_GLCCD.GLCCD_energy);
   ("GLCCD.update_amps", Cg_GLCCD.GLCCD_update_amps)].
Definition all_GLCCSD : list (string * prog) :=
  [("GLCCSD.energy", Cg_GLCCSD.GLCCSD_energy);
   ("GLCCSD.update_amps", Cg_GLCCSD.GLCCSD_update_amps)].
Definition all_GMP2 : list (string * prog) :=
  [("GMP2.energy", Cg_GMP2.GMP2_energy);
   ("GMP2.make_rdm1_f", Cg_GMP2.GMP2_make_rdm1_f);
   ("GMP2.hbar_matvec_ip_intermediates", Cg_GMP2.GMP2_hbar_matvec_ip_intermediates);
   ("GMP2.hbar_matvec_ip", Cg_GMP2.GMP2_hbar_matvec_ip);
   ("GMP2.hbar_matvec_ea_intermediates", Cg_GMP2.GMP2_hbar_matvec_ea_intermediates);
   ("GMP2.hbar_matvec_ea", Cg_GMP2.GMP2_hbar_matvec_ea);
   ("GMP2.hbar_matvec_ee_intermediates", Cg_GMP2.GMP2_hbar_matvec_ee_intermediates);
   ("GMP2.hbar_matvec_ee", Cg_GMP2.GMP2_hbar_matvec_ee)].
Definition all_GMP3 : list (string * prog) :=
  [("GMP3.energy", Cg_GMP3.GMP3_energy)].
Definition all_GQCISD : list (string * prog) :=
  [("GQCISD.energy", Cg_GQCISD.GQCISD_energy);
   ("GQCISD.update_amps", Cg_GQCISD.GQCISD_update_amps)].
Definition all_GecCC : list (string * prog) :=
  [("GecCC.update_amps_external", Cg_GecCC.GecCC_update_amps_external);
   ("GecCC.update_amps_mixed", Cg_GecCC.GecCC_update_amps_mixed);
   ("GecCC.convert_c1_to_t1", Cg_GecCC.GecCC_convert_c1_to_t1);
   ("GecCC.convert_c2_to_t2", Cg_GecCC.GecCC_convert_c2_to_t2);
   ("GecCC.convert_c3_to_t3", Cg_GecCC.GecCC_convert_c3_to_t3);
   ("GecCC.convert_c4_to_t4", Cg_GecCC.GecCC_convert_c4_to_t4);
   ("GecCC.convert_t1_to_c1", Cg_GecCC.GecCC_convert_t1_to_c1);
   ("GecCC.convert_t2_to_c2", Cg_GecCC.GecCC_convert_t2_to_c2);
   ("GecCC.convert_t3_to_c3", Cg_GecCC.GecCC_convert_t3_to_c3);
   ("GecCC.convert_t4_to_c4", Cg_GecCC.GecCC_convert_t4_to_c4)].
Definition all_RCC2 : list (string * prog) :=
  [("RCC2.energy", Cg_RCC2.RCC2_energy);
   ("RCC2.update_amps", Cg_RCC2.RCC2_update_amps);
   ("RCC2.update_lams", Cg_RCC2.RCC2_update_lams);
   ("RCC2.make_rdm1_f", Cg_RCC2.RCC2_make_rdm1_f);
   ("RCC2.make_rdm2_f", Cg_RCC2.RCC2_make_rdm2_f);
   ("RCC2.hbar_matvec_ip_intermediates", Cg_RCC2.RCC2_hbar_matvec_ip_intermediates);
   ("RCC2.hbar_matvec_ip", Cg_RCC2.RCC2_hbar_matvec_ip);
   ("RCC2.hbar_matvec_ea_intermediates", Cg_RCC2.RCC2_hbar_matvec_ea_intermediates);
   ("RCC2.hbar_matvec_ea", Cg_RCC2.RCC2_hbar_matvec_ea);
   ("RCC2.hbar_lmatvec_ip_intermediates", Cg_RCC2.RCC2_hbar_lmatvec_ip_intermediates);
   ("RCC2.hbar_lmatvec_ip", Cg_RCC2.RCC2_hbar_lmatvec_ip);
   ("RCC2.hbar_lmatvec_ea_intermediates", Cg_RCC2.RCC2_hbar_lmatvec_ea_intermediates);
   ("RCC2.hbar_lmatvec_ea", Cg_RCC2.RCC2_hbar_lmatvec_ea)].
Definition all_RCC3 : list (string * prog) :=
  [("RCC3.energy", Cg_RCC3.RCC3_energy);
   ("RCC3.update_amps", Cg_RCC3.RCC3_update_amps)].
Definition all_RCCD : list (string * prog) :=
  [("RCCD.energy", Cg_RCCD.RCCD_energy);
   ("RCCD.update_amps", Cg_RCCD.RCCD_update_amps);
   ("RCCD.update_lams", Cg_RCCD.RCCD_update_lams);
   ("RCCD.make_rdm1_f", Cg_RCCD.RCCD_make_rdm1_f);
   ("RCCD.make_rdm2_f", Cg_RCCD.RCCD_make_rdm2_f);
   ("RCCD.hbar_matvec_ip_intermediates", Cg_RCCD.RCCD_hbar_matvec_ip_intermediates);
   ("RCCD.hbar_matvec_ip", Cg_RCCD.RCCD_hbar_matvec_ip);
   ("RCCD.hbar_matvec_ea_intermediates", Cg_RCCD.RCCD_hbar_matvec_ea_intermediates);
   ("RCCD.hbar_matvec_ea", Cg_RCCD.RCCD_hbar_matvec_ea);
   ("RCCD.hbar_lmatvec_ip_intermediates", Cg_RCCD.RCCD_hbar_lmatvec_ip_intermediates);
   ("RCCD.hbar_lmatvec_ip", Cg_RCCD.RCCD_hbar_lmatvec_ip);
   ("RCCD.hbar_lmatvec_ea_intermediates", Cg_RCCD.RCCD_hbar_lmatvec_ea_intermediates);
   ("RCCD.hbar_lmatvec_ea", Cg_RCCD.RCCD_hbar_lmatvec_ea)].
Definition all_RCCSD : list (string * prog) :=
  [("RCCSD.energy", Cg_RCCSD.RCCSD_energy);
   ("RCCSD.update_amps", Cg_RCCSD.RCCSD_update_amps);
   ("RCCSD.update_lams", Cg_RCCSD.RCCSD_update_lams);
   ("RCCSD.make_rdm1_f", Cg_RCCSD.RCCSD_make_rdm1_f);
   ("RCCSD.make_rdm2_f", Cg_RCCSD.RCCSD_make_rdm2_f);
   ("RCCSD.hbar_matvec_ip_intermediates", Cg_RCCSD.RCCSD_hbar_matvec_ip_intermediates);
   ("RCCSD.hbar_matvec_ip", Cg_RCCSD.RCCSD_hbar_matvec_ip);
   ("RCCSD.hbar_matvec_ea_intermediates", Cg_RCCSD.RCCSD_hbar_matvec_ea_intermediates);
   ("RCCSD.hbar_matvec_ea", Cg_RCCSD.RCCSD_hbar_matvec_ea);
   ("RCCSD.hbar_lmatvec_ip_intermediates", Cg_RCCSD.RCCSD_hbar_lmatvec_ip_intermediates);
   ("RCCSD.hbar_lmatvec_ip", Cg_RCCSD.RCCSD_hbar_lmatvec_ip);
   ("RCCSD.hbar_lmatvec_ea_intermediates", Cg_RCCSD.RCCSD_hbar_lmatvec_ea_intermediates);
   ("RCCSD.hbar_lmatvec_ea", Cg_RCCSD.RCCSD_hbar_lmatvec_ea)].
Definition all_RCCSDT : list (string * prog) :=
  [("RCCSDT.energy", Cg_RCCSDT.RCCSDT_energy);
   ("RCCSDT.update_amps", Cg_RCCSDT.RCCSDT_update_amps);
   ("RCCSDT.update_lams", Cg_RCCSDT.RCCSDT_update_lams);
   ("RCCSDT.make_rdm1_f", Cg_RCCSDT.RCCSDT_make_rdm1_f);
   ("RCCSDT.make_rdm2_f", Cg_RCCSDT.RCCSDT_make_rdm2_f)].
Definition all_RCCSD_SD_1_1 : list (string * prog) :=
  [("RCCSD_SD_1_1.energy", Cg_RCCSD_SD_1_1.RCCSD_SD_1_1_energy);
   ("RCCSD_SD_1_1.update_amps", Cg_RCCSD_SD_1_1.RCCSD_SD_1_1_update_amps);
   ("RCCSD_SD_1_1.update_lams", Cg_RCCSD_SD_1_1.RCCSD_SD_1_1_update_lams);
   ("RCCSD_SD_1_1.make_rdm1_f", Cg_RCCSD_SD_1_1.RCCSD_SD_1_1_make_rdm1_f);
   ("RCCSD_SD_1_1.make_rdm2_f", Cg_RCCSD_SD_1_1.RCCSD_SD_1_1_make_rdm2_f);
   ("RCCSD_SD_1_1.make_sing_b_dm", Cg_RCCSD_SD_1_1.RCCSD_SD_1_1_make_sing_b_dm);
   ("RCCSD_SD_1_1.make_rdm1_b", Cg_RCCSD_SD_1_1.RCCSD_SD_1_1_make_rdm1_b);
   ("RCCSD_SD_1_1.make_eb_coup_rdm", Cg_RCCSD_SD_1_1.RCCSD_SD_1_1_make_eb_coup_rdm)].
Definition all_RCCSD_SD_1_2 : list (string * prog) :=
  [("RCCSD_SD_1_2.energy", Cg_RCCSD_SD_1_2.RCCSD_SD_1_2_energy);
   ("RCCSD_SD_1_2.update_amps", Cg_RCCSD_SD_1_2.RCCSD_SD_1_2_update_amps);
   ("RCCSD_SD_1_2.update_lams", Cg_RCCSD_SD_1_2.RCCSD_SD_1_2_update_lams);
   ("RCCSD_SD_1_2.make_rdm1_f", Cg_RCCSD_SD_1_2.RCCSD_SD_1_2_make_rdm1_f);
   ("RCCSD_SD_1_2.make_rdm2_f", Cg_RCCSD_SD_1_2.RCCSD_SD_1_2_make_rdm2_f);
   ("RCCSD_SD_1_2.make_sing_b_dm", Cg_RCCSD_SD_1_2.RCCSD_SD_1_2_make_sing_b_dm);
   ("RCCSD_SD_1_2.make_rdm1_b", Cg_RCCSD_SD_1_2.RCCSD_SD_1_2_make_rdm1_b);
   ("RCCSD_SD_1_2.make_eb_coup_rdm", Cg_RCCSD_SD_1_2.RCCSD_SD_1_2_make_eb_coup_rdm)].
Definition all_RCCSD_S_1_1 : list (string * prog) :=
  [("RCCSD_S_1_1.energy", Cg_RCCSD_S_1_1.RCCSD_S_1_1_energy);
   ("RCCSD_S_1_1.update_amps", Cg_RCCSD_S_1_1.RCCSD_S_1_1_update_amps);
   ("RCCSD_S_1_1.update_lams", Cg_RCCSD_S_1_1.RCCSD_S_1_1_update_lams);
   ("RCCSD_S_1_1.make_rdm1_f", Cg_RCCSD_S_1_1.RCCSD_S_1_1_make_rdm1_f);
   ("RCCSD_S_1_1.make_rdm2_f", Cg_RCCSD_S_1_1.RCCSD_S_1_1_make_rdm2_f);
   ("RCCSD_S_1_1.make_sing_b_dm", Cg_RCCSD_S_1_1.RCCSD_S_1_1_make_sing_b_dm);
   ("RCCSD_S_1_1.make_rdm1_b", Cg_RCCSD_S_1_1.RCCSD_S_1_1_make_rdm1_b);
   ("RCCSD_S_1_1.make_eb_coup_rdm", Cg_RCCSD_S_1_1.RCCSD_S_1_1_make_eb_coup_rdm)].
Definition all_RCCSDwtwp : list (string * prog) :=
  [("RCCSDwtwp.energy", Cg_RCCSDwtwp.RCCSDwtwp_energy);
   ("RCCSDwtwp.update_amps", Cg_RCCSDwtwp.RCCSDwtwp_update_amps)].
Definition all_RCCSDxTx : list (string * prog) :=
  [("RCCSDxTx.energy", Cg_RCCSDxTx.RCCSDxTx_energy);
   ("RCCSDxTx.update_amps", Cg_RCCSDxTx.RCCSDxTx_update_amps)].
Definition all_RDCD : list (string * prog) :=
  [("RDCD.energy", Cg_RDCD.RDCD_energy);
   ("RDCD.update_amps", Cg_RDCD.RDCD_update_amps)].
Definition all_RDCSD : list (string * prog) :=
  [("RDCSD.energy", Cg_RDCSD.RDCSD_energy);
   ("RDCSD.update_amps", Cg_RDCSD.RDCSD_update_amps)].
Definition all_RDFCC2 : list (string * prog) :=
  [("RDFCC2.energy", Cg_RDFCC2.RDFCC2_energy);
   ("RDFCC2.update_amps", Cg_RDFCC2.RDFCC2_update_amps);
   ("RDFCC2.update_lams", Cg_RDFCC2.RDFCC2_update_lams);
   ("RDFCC2.make_rdm1_f", Cg_RDFCC2.RDFCC2_make_rdm1_f);
   ("RDFCC2.make_rdm2_f", Cg_RDFCC2.RDFCC2_make_rdm2_f);
   ("RDFCC2.hbar_matvec_ip_intermediates", Cg_RDFCC2.RDFCC2_hbar_matvec_ip_intermediates);
   ("RDFCC2.hbar_matvec_ip", Cg_RDFCC2.RDFCC2_hbar_matvec_ip);
   ("RDFCC2.hbar_matvec_ea_intermediates", Cg_RDFCC2.RDFCC2_hbar_matvec_ea_intermediates);
   ("RDFCC2.hbar_matvec_ea", Cg_RDFCC2.RDFCC2_hbar_matvec_ea);
   ("RDFCC2.hbar_lmatvec_ip_intermediates", Cg_RDFCC2.RDFCC2_hbar_lmatvec_ip_intermediates);
   ("RDFCC2.hbar_lmatvec_ip", Cg_RDFCC2.RDFCC2_hbar_lmatvec_ip);
   ("RDFCC2.hbar_lmatvec_ea_intermediates", Cg_RDFCC2.RDFCC2_hbar_lmatvec_ea_intermediates);
   ("RDFCC2.hbar_lmatvec_ea", Cg_RDFCC2.RDFCC2_hbar_lmatvec_ea)].
Definition all_RDFCCD : list (string * prog) :=
  [("RDFCCD.energy", Cg_RDFCCD.RDFCCD_energy);
   ("RDFCCD.update_amps", Cg_RDFCCD.RDFCCD_update_amps);
   ("RDFCCD.update_lams", Cg_RDFCCD.RDFCCD_update_lams);
   ("RDFCCD.make_rdm1_f", Cg_RDFCCD.RDFCCD_make_rdm1_f);
   ("RDFCCD.make_rdm2_f", Cg_RDFCCD.RDFCCD_make_rdm2_f);
   ("RDFCCD.hbar_matvec_ip_intermediates", Cg_RDFCCD.RDFCCD_hbar_matvec_ip_intermediates);
   ("RDFCCD.hbar_matvec_ip", Cg_RDFCCD.RDFCCD_hbar_matvec_ip);
   ("RDFCCD.hbar_matvec_ea_intermediates", Cg_RDFCCD.RDFCCD_hbar_matvec_ea_intermediates);
   ("RDFCCD.hbar_matvec_ea", Cg_RDFCCD.RDFCCD_hbar_matvec_ea);
   ("RDFCCD.hbar_lmatvec_ip_intermediates", Cg_RDFCCD.RDFCCD_hbar_lmatvec_ip_intermediates);
   ("RDFCCD.hbar_lmatvec_ip", Cg_RDFCCD.RDFCCD_hbar_lmatvec_ip);
   ("RDFCCD.hbar_lmatvec_ea_intermediates", Cg_RDFCCD.RDFCCD_hbar_lmatvec_ea_intermediates);
   ("RDFCCD.hbar_lmatvec_ea", Cg_RDFCCD.RDFCCD_hbar_lmatvec_ea)].
Definition all_RDFCCSD : list (string * prog) :=
  [("RDFCCSD.energy", Cg_RDFCCSD.RDFCCSD_energy);
   ("RDFCCSD.update_amps", Cg_RDFCCSD.RDFCCSD_update_amps);
   ("RDFCCSD.update_lams", Cg_RDFCCSD.RDFCCSD_update_lams);
   ("RDFCCSD.make_rdm1_f", Cg_RDFCCSD.RDFCCSD_make_rdm1_f);
   ("RDFCCSD.make_rdm2_f", Cg_RDFCCSD.RDFCCSD_make_rdm2_f);
   ("RDFCCSD.hbar_matvec_ip_intermediates", Cg_RDFCCSD.RDFCCSD_hbar_matvec_ip_intermediates);
   ("RDFCCSD.hbar_matvec_ip", Cg_RDFCCSD.RDFCCSD_hbar_matvec_ip);
   ("RDFCCSD.hbar_matvec_ea_intermediates", Cg_RDFCCSD.RDFCCSD_hbar_matvec_ea_intermediates);
   ("RDFCCSD.hbar_matvec_ea", Cg_RDFCCSD.RDFCCSD_hbar_matvec_ea);
   ("RDFCCSD.hbar_lmatvec_ip_intermediates", Cg_RDFCCSD.RDFCCSD_hbar_lmatvec_ip_intermediates);
   ("RDFCCSD.hbar_lmatvec_ip", Cg_RDFCCSD.RDFCCSD_hbar_lmatvec_ip);
   ("RDFCCSD.hbar_lmatvec_ea_intermediates", Cg_RDFCCSD.RDFCCSD_hbar_lmatvec_ea_intermediates);
   ("RDFCCSD.hbar_lmatvec_ea", Cg_RDFCCSD.RDFCCSD_hbar_lmatvec_ea)].
Definition all_RDFDCD : list (string * prog) :=
  [("RDFDCD.energy", Cg_RDFDCD.RDFDCD_energy);
   ("RDFDCD.update_amps", Cg_RDFDCD.RDFDCD_update_amps)].
Definition all_RDFDCSD : list (string * prog) :=
  [("RDFDCSD.energy", Cg_RDFDCSD.RDFDCSD_energy);
   ("RDFDCSD.update_amps", Cg_RDFDCSD.RDFDCSD_update_amps)].
Definition all_RDFLCCD : list (string * prog) :=
  [("RDFLCCD.energy", Cg_RDFLCCD.RDFLCCD_energy);
   ("RDFLCCD.update_amps", Cg_RDFLCCD.RDFLCCD_update_amps)].
Definition all_RDFLCCSD : list (string * prog) :=
  [("RDFLCCSD.energy", Cg_RDFLCCSD.RDFLCCSD_energy);
   ("RDFLCCSD.update_amps", Cg_RDFLCCSD.RDFLCCSD_update_amps)].
Definition all_RDFQCISD : list (string * prog) :=
  [("RDFQCISD.energy", Cg_RDFQCISD.RDFQCISD_energy);
   ("RDFQCISD.update_amps", Cg_RDFQCISD.RDFQCISD_update_amps)].
Definition all_RLCCD : list (string * prog) :=
  [("RLCCD.energy", Cg_RLCCD.RLCCD_energy);
   ("RLCCD.update_amps", Cg_RLCCD.RLCCD_update_amps)].
Definition all_RLCCSD : list (string * prog) :=
  [("RLCCSD.energy", Cg_RLCCSD.RLCCSD_energy);
   ("RLCCSD.update_amps", Cg_RLCCSD.RLCCSD_update_amps)].
Definition all_RMP2 : list (string * prog) :=
  [("RMP2.energy", Cg_RMP2.RMP2_energy);
   ("RMP2.make_rdm1_f", Cg_RMP2.RMP2_make_rdm1_f);
   ("RMP2.hbar_matvec_ip_intermediates", Cg_RMP2.RMP2_hbar_matvec_ip_intermediates);
   ("RMP2.hbar_matvec_ip", Cg_RMP2.RMP2_hbar_matvec_ip);
   ("RMP2.hbar_matvec_ea_intermediates", Cg_RMP2.RMP2_hbar_matvec_ea_intermediates);
   ("RMP2.hbar_matvec_ea", Cg_RMP2.RMP2_hbar_matvec_ea)].
Definition all_RMP3 : list (string * prog) :=
  [("RMP3.energy", Cg_RMP3.RMP3_energy)].
Definition all_RQCISD : list (string * prog) :=
  [("RQCISD.energy", Cg_RQCISD.RQCISD_energy);
   ("RQCISD.update_amps", Cg_RQCISD.RQCISD_update_amps)].
Definition all_RecCC : list (string * prog) :=
  [("RecCC.update_amps_external", Cg_RecCC.RecCC_update_amps_external);
   ("RecCC.update_amps_mixed", Cg_RecCC.RecCC_update_amps_mixed);
   ("RecCC.convert_c1_to_t1", Cg_RecCC.RecCC_convert_c1_to_t1);
   ("RecCC.convert_c2_to_t2", Cg_RecCC.RecCC_convert_c2_to_t2);
   ("RecCC.convert_c3_to_t3", Cg_RecCC.RecCC_convert_c3_to_t3);
   ("RecCC.convert_c4_to_t4", Cg_RecCC.RecCC_convert_c4_to_t4);
   ("RecCC.convert_t1_to_c1", Cg_RecCC.RecCC_convert_t1_to_c1);
   ("RecCC.convert_t2_to_c2", Cg_RecCC.RecCC_convert_t2_to_c2);
   ("RecCC.convert_t3_to_c3", Cg_RecCC.RecCC_convert_t3_to_c3);
   ("RecCC.convert_t4_to_c4", Cg_RecCC.RecCC_convert_t4_to_c4)].
Definition all_UCC2 : list (string * prog) :=
  [("UCC2.energy", Cg_UCC2.UCC2_energy);
   ("UCC2.update_amps", Cg_UCC2.UCC2_update_amps);
   ("UCC2.update_lams", Cg_UCC2.UCC2_update_lams);
   ("UCC2.make_rdm1_f", Cg_UCC2.UCC2_make_rdm1_f);
   ("UCC2.make_rdm2_f", Cg_UCC2.UCC2_make_rdm2_f);
   ("UCC2.hbar_matvec_ip_intermediates", Cg_UCC2.UCC2_hbar_matvec_ip_intermediates);
   ("UCC2.hbar_matvec_ip", Cg_UCC2.UCC2_hbar_matvec_ip);
   ("UCC2.hbar_matvec_ea_intermediates", Cg_UCC2.UCC2_hbar_matvec_ea_intermediates);
   ("UCC2.hbar_matvec_ea", Cg_UCC2.UCC2_hbar_matvec_ea);
   ("UCC2.hbar_lmatvec_ip_intermediates", Cg_UCC2.UCC2_hbar_lmatvec_ip_intermediates);
   ("UCC2.hbar_lmatvec_ip", Cg_UCC2.UCC2_hbar_lmatvec_ip);
   ("UCC2.hbar_lmatvec_ea_intermediates", Cg_UCC2.UCC2_hbar_lmatvec_ea_intermediates);
   ("UCC2.hbar_lmatvec_ea", Cg_UCC2.UCC2_hbar_lmatvec_ea)].
Definition all_UCC3 : list (string * prog) :=
  [("UCC3.energy", Cg_UCC3.UCC3_energy);
   ("UCC3.update_amps", Cg_UCC3.UCC3_update_amps)].
Definition all_UCCD : list (string * prog) :=
  [("UCCD.energy", Cg_UCCD.UCCD_energy);
   ("UCCD.update_amps", Cg_UCCD.UCCD_update_amps);
   ("UCCD.update_lams", Cg_UCCD.UCCD_update_lams);
   ("UCCD.make_rdm1_f", Cg_UCCD.UCCD_make_rdm1_f);
   ("UCCD.make_rdm2_f", Cg_UCCD.UCCD_make_rdm2_f);
   ("UCCD.hbar_matvec_ip_intermediates", Cg_UCCD.UCCD_hbar_matvec_ip_intermediates);
   ("UCCD.hbar_matvec_ip", Cg_UCCD.UCCD_hbar_matvec_ip);
   ("UCCD.hbar_matvec_ea_intermediates", Cg_UCCD.UCCD_hbar_matvec_ea_intermediates);
   ("UCCD.hbar_matvec_ea", Cg_UCCD.UCCD_hbar_matvec_ea);
   ("UCCD.hbar_lmatvec_ip_intermediates", Cg_UCCD.UCCD_hbar_lmatvec_ip_intermediates);
   ("UCCD.hbar_lmatvec_ip", Cg_UCCD.UCCD_hbar_lmatvec_ip);
   ("UCCD.hbar_lmatvec_ea_intermediates", Cg_UCCD.UCCD_hbar_lmatvec_ea_intermediates);
   ("UCCD.hbar_lmatvec_ea", Cg_UCCD.UCCD_hbar_lmatvec_ea)].
Definition all_UCCSD : list (string * prog) :=
  [("UCCSD.energy", Cg_UCCSD.UCCSD_energy);
   ("UCCSD.update_amps", Cg_UCCSD.UCCSD_update_amps);
   ("UCCSD.update_lams", Cg_UCCSD.UCCSD_update_lams);
   ("UCCSD.make_rdm1_f", Cg_UCCSD.UCCSD_make_rdm1_f);
   ("UCCSD.make_rdm2_f", Cg_UCCSD.UCCSD_make_rdm2_f);
   ("UCCSD.hbar_matvec_ip_intermediates", Cg_UCCSD.UCCSD_hbar_matvec_ip_intermediates);
   ("UCCSD.hbar_matvec_ip", Cg_UCCSD.UCCSD_hbar_matvec_ip);
   ("UCCSD.hbar_matvec_ea_intermediates", Cg_UCCSD.UCCSD_hbar_matvec_ea_intermediates);
   ("UCCSD.hbar_matvec_ea", Cg_UCCSD.UCCSD_hbar_matvec_ea);
   ("UCCSD.hbar_lmatvec_ip_intermediates", Cg_UCCSD.UCCSD_hbar_lmatvec_ip_intermediates);
   ("UCCSD.hbar_lmatvec_ip", Cg_UCCSD.UCCSD_hbar_lmatvec_ip);
   ("UCCSD.hbar_lmatvec_ea_intermediates", Cg_UCCSD.UCCSD_hbar_lmatvec_ea_intermediates);
   ("UCCSD.hbar_lmatvec_ea", Cg_UCCSD.UCCSD_hbar_lmatvec_ea)].
Definition all_UCCSDT : list (string * prog) :=
  [("UCCSDT.energy", Cg_UCCSDT.UCCSDT_energy);
   ("UCCSDT.update_amps", Cg_UCCSDT.UCCSDT_update_amps);
   ("UCCSDT.update_lams", Cg_UCCSDT.UCCSDT_update_lams);
   ("UCCSDT.make_rdm1_f", Cg_UCCSDT.UCCSDT_make_rdm1_f);
   ("UCCSDT.make_rdm2_f", Cg_UCCSDT.UCCSDT_make_rdm2_f)].
Definition all_UCCSD_SD_1_1 : list (string * prog) :=
  [("UCCSD_SD_1_1.energy", Cg_UCCSD_SD_1_1.UCCSD_SD_1_1_energy);
   ("UCCSD_SD_1_1.update_amps", Cg_UCCSD_SD_1_1.UCCSD_SD_1_1_update_amps);
   ("UCCSD_SD_1_1.update_lams", Cg_UCCSD_SD_1_1.UCCSD_SD_1_1_update_lams);
   ("UCCSD_SD_1_1.make_rdm1_f", Cg_UCCSD_SD_1_1.UCCSD_SD_1_1_make_rdm1_f);
   ("UCCSD_SD_1_1.make_rdm2_f", Cg_UCCSD_SD_1_1.UCCSD_SD_1_1_make_rdm2_f);
   ("UCCSD_SD_1_1.make_sing_b_dm", Cg_UCCSD_SD_1_1.UCCSD_SD_1_1_make_sing_b_dm);
   ("UCCSD_SD_1_1.make_rdm1_b", Cg_UCCSD_SD_1_1.UCCSD_SD_1_1_make_rdm1_b);
   ("UCCSD_SD_1_1.make_eb_coup_rdm", Cg_UCCSD_SD_1_1.UCCSD_SD_1_1_make_eb_coup_rdm)].
Definition all_UCCSD_SD_1_2 : list (string * prog) :=
  [("UCCSD_SD_1_2.energy", Cg_UCCSD_SD_1_2.UCCSD_SD_1_2_energy);
   ("UCCSD_SD_1_2.update_amps", Cg_UCCSD_SD_1_2.UCCSD_SD_1_2_update_amps);
   ("UCCSD_SD_1_2.update_lams", Cg_UCCSD_SD_1_2.UCCSD_SD_1_2_update_lams);
   ("UCCSD_SD_1_2.make_rdm1_f", Cg_UCCSD_SD_1_2.UCCSD_SD_1_2_make_rdm1_f);
   ("UCCSD_SD_1_2.make_rdm2_f", Cg_UCCSD_SD_1_2.UCCSD_SD_1_2_make_rdm2_f);
   ("UCCSD_SD_1_2.make_sing_b_dm", Cg_UCCSD_SD_1_2.UCCSD_SD_1_2_make_sing_b_dm);
   ("UCCSD_SD_1_2.make_rdm1_b", Cg_UCCSD_SD_1_2.UCCSD_SD_1_2_make_rdm1_b);
   ("UCCSD_SD_1_2.make_eb_coup_rdm", Cg_UCCSD_SD_1_2.UCCSD_SD_1_2_make_eb_coup_rdm)].
Definition all_UCCSD_S_1_1 : list (string * prog) :=
  [("UCCSD_S_1_1.energy", Cg_UCCSD_S_1_1.UCCSD_S_1_1_energy);
   ("UCCSD_S_1_1.update_amps", Cg_UCCSD_S_1_1.UCCSD_S_1_1_update_amps);
   ("UCCSD_S_1_1.update_lams", Cg_UCCSD_S_1_1.UCCSD_S_1_1_update_lams);
   ("UCCSD_S_1_1.make_rdm1_f", Cg_UCCSD_S_1_1.UCCSD_S_1_1_make_rdm1_f);
   ("UCCSD_S_1_1.make_rdm2_f", Cg_UCCSD_S_1_1.UCCSD_S_1_1_make_rdm2_f);
   ("UCCSD_S_1_1.make_sing_b_dm", Cg_UCCSD_S_1_1.UCCSD_S_1_1_make_sing_b_dm);
   ("UCCSD_S_1_1.make_rdm1_b", Cg_UCCSD_S_1_1.UCCSD_S_1_1_make_rdm1_b);
   ("UCCSD_S_1_1.make_eb_coup_rdm", Cg_UCCSD_S_1_1.UCCSD_S_1_1_make_eb_coup_rdm)].
Definition all_UCCSDwtwp : list (string * prog) :=
  [("UCCSDwtwp.energy", Cg_UCCSDwtwp.UCCSDwtwp_energy)].
Definition all_UCCSDxTx : list (string * prog) :=
  [("UCCSDxTx.energy", Cg_UCCSDxTx.UCCSDxTx_energy);
   ("UCCSDxTx.update_amps", Cg_UCCSDxTx.UCCSDxTx_update_amps)].
Definition all_UDCD : list (string * prog) :=
  [("UDCD.energy", Cg_UDCD.UDCD_energy);
   ("UDCD.update_amps", Cg_UDCD.UDCD_update_amps)].
Definition all_UDCSD : list (string * prog) :=
  [("UDCSD.energy", Cg_UDCSD.UDCSD_energy);
   ("UDCSD.update_amps", Cg_UDCSD.UDCSD_update_amps)].
Definition all_UDFCC2 : list (string * prog) :=
  [("UDFCC2.energy", Cg_UDFCC2.UDFCC2_energy);
   ("UDFCC2.update_amps", Cg_UDFCC2.UDFCC2_update_amps);
   ("UDFCC2.update_lams", Cg_UDFCC2.UDFCC2_update_lams);
   ("UDFCC2.make_rdm1_f", Cg_UDFCC2.UDFCC2_make_rdm1_f);
   ("UDFCC2.make_rdm2_f", Cg_UDFCC2.UDFCC2_make_rdm2_f);
   ("UDFCC2.hbar_matvec_ip_intermediates", Cg_UDFCC2.UDFCC2_hbar_matvec_ip_intermediates);
   ("UDFCC2.hbar_matvec_ip", Cg_UDFCC2.UDFCC2_hbar_matvec_ip);
   ("UDFCC2.hbar_matvec_ea_intermediates", Cg_UDFCC2.UDFCC2_hbar_matvec_ea_intermediates);
   ("UDFCC2.hbar_matvec_ea", Cg_UDFCC2.UDFCC2_hbar_matvec_ea);
   ("UDFCC2.hbar_lmatvec_ip_intermediates", Cg_UDFCC2.UDFCC2_hbar_lmatvec_ip_intermediates);
   ("UDFCC2.hbar_lmatvec_ip", Cg_UDFCC2.UDFCC2_hbar_lmatvec_ip);
   ("UDFCC2.hbar_lmatvec_ea_intermediates", Cg_UDFCC2.UDFCC2_hbar_lmatvec_ea_intermediates);
   ("UDFCC2.hbar_lmatvec_ea", Cg_UDFCC2.UDFCC2_hbar_lmatvec_ea)].
Definition all_UDFCCD : list (string * prog) :=
  [("UDFCCD.energy", Cg_UDFCCD.UDFCCD_energy);
   ("UDFCCD.update_amps", Cg_UDFCCD.UDFCCD_update_amps);
   ("UDFCCD.update_lams", Cg_UDFCCD.UDFCCD_update_lams);
   ("UDFCCD.hbar_matvec_ip_intermediates", Cg_UDFCCD.UDFCCD_hbar_matvec_ip_intermediates);
   ("UDFCCD.hbar_matvec_ip", Cg_UDFCCD.UDFCCD_hbar_matvec_ip);
   ("UDFCCD.hbar_matvec_ea_intermediates", Cg_UDFCCD.UDFCCD_hbar_matvec_ea_intermediates);
   ("UDFCCD.hbar_matvec_ea", Cg_UDFCCD.UDFCCD_hbar_matvec_ea);
   ("UDFCCD.hbar_lmatvec_ip_intermediates", Cg_UDFCCD.UDFCCD_hbar_lmatvec_ip_intermediates);
   ("UDFCCD.hbar_lmatvec_ip", Cg_UDFCCD.UDFCCD_hbar_lmatvec_ip);
   ("UDFCCD.hbar_lmatvec_ea_intermediates", Cg_UDFCCD.UDFCCD_hbar_lmatvec_ea_intermediates);
   ("UDFCCD.hbar_lmatvec_ea", Cg_UDFCCD.UDFCCD_hbar_lmatvec_ea)].
Definition all_UDFCCSD : list (string * prog) :=
  [("UDFCCSD.energy", Cg_UDFCCSD.UDFCCSD_energy);
   ("UDFCCSD.update_amps", Cg_UDFCCSD.UDFCCSD_update_amps);
   ("UDFCCSD.update_lams", Cg_UDFCCSD.UDFCCSD_update_lams);
   ("UDFCCSD.make_rdm1_f", Cg_UDFCCSD.UDFCCSD_make_rdm1_f);
   ("UDFCCSD.make_rdm2_f", Cg_UDFCCSD.UDFCCSD_make_rdm2_f);
   ("UDFCCSD.hbar_matvec_ip_intermediates", Cg_UDFCCSD.UDFCCSD_hbar_matvec_ip_intermediates);
   ("UDFCCSD.hbar_matvec_ip", Cg_UDFCCSD.UDFCCSD_hbar_matvec_ip);
   ("UDFCCSD.hbar_matvec_ea_intermediates", Cg_UDFCCSD.UDFCCSD_hbar_matvec_ea_intermediates);
   ("UDFCCSD.hbar_matvec_ea", Cg_UDFCCSD.UDFCCSD_hbar_matvec_ea);
   ("UDFCCSD.hbar_lmatvec_ip_intermediates", Cg_UDFCCSD.UDFCCSD_hbar_lmatvec_ip_intermediates);
   ("UDFCCSD.hbar_lmatvec_ip", Cg_UDFCCSD.UDFCCSD_hbar_lmatvec_ip);
   ("UDFCCSD.hbar_lmatvec_ea_intermediates", Cg_UDFCCSD.UDFCCSD_hbar_lmatvec_ea_intermediates);
   ("UDFCCSD.hbar_lmatvec_ea", Cg_UDFCCSD.UDFCCSD_hbar_lmatvec_ea)].
Definition all_UDFDCD : list (string * prog) :=
  [("UDFDCD.energy", Cg_UDFDCD.UDFDCD_energy);
   ("UDFDCD.update_amps", Cg_UDFDCD.UDFDCD_update_amps)].
Definition all_UDFDCSD : list (string * prog) :=
  [("UDFDCSD.energy", Cg_UDFDCSD.UDFDCSD_energy);
   ("UDFDCSD.update_amps", Cg_UDFDCSD.UDFDCSD_update_amps)].
Definition all_UDFLCCD : list (string * prog) :=
  [("UDFLCCD.energy", Cg_UDFLCCD.UDFLCCD_energy);
   ("UDFLCCD.update_amps", Cg_UDFLCCD.UDFLCCD_update_amps)].
Definition all_UDFLCCSD : list (string * prog) :=
  [("UDFLCCSD.energy", Cg_UDFLCCSD.UDFLCCSD_energy);
   ("UDFLCCSD.update_amps", Cg_UDFLCCSD.UDFLCCSD_update_amps)].
Definition all_UDFQCISD : list (string * prog) :=
  [("UDFQCISD.energy", Cg_UDFQCISD.UDFQCISD_energy);
   ("UDFQCISD.update_amps", Cg_UDFQCISD.UDFQCISD_update_amps)].
Definition all_ULCCD : list (string * prog) :=
  [("ULCCD.energy", Cg_ULCCD.ULCCD_energy);
   ("ULCCD.update_amps", Cg_ULCCD.ULCCD_update_amps)].
Definition all_ULCCSD : list (string * prog) :=
  [("ULCCSD.energy", Cg_ULCCSD.ULCCSD_energy);
   ("ULCCSD.update_amps", Cg_ULCCSD.ULCCSD_update_amps)].
Definition all_UMP2 : list (string * prog) :=
  [("UMP2.energy", Cg_UMP2.UMP2_energy);
   ("UMP2.make_rdm1_f", Cg_UMP2.UMP2_make_rdm1_f);
   ("UMP2.hbar_matvec_ip_intermediates", Cg_UMP2.UMP2_hbar_matvec_ip_intermediates);
   ("UMP2.hbar_matvec_ip", Cg_UMP2.UMP2_hbar_matvec_ip);
   ("UMP2.hbar_matvec_ea_intermediates", Cg_UMP2.UMP2_hbar_matvec_ea_intermediates);
   ("UMP2.hbar_matvec_ea", Cg_UMP2.UMP2_hbar_matvec_ea)].
Definition all_UMP3 : list (string * prog) :=
  [("UMP3.energy", Cg_UMP3.UMP3_energy)].
Definition all_UQCISD : list (string * prog) :=
  [("UQCISD.energy", Cg_UQCISD.UQCISD_energy);
   ("UQCISD.update_amps", Cg_UQCISD.UQCISD_update_amps)].
Definition all_UecCC : list (string * prog) :=
  [("UecCC.update_amps_external", Cg_UecCC.UecCC_update_amps_external);
   ("UecCC.update_amps_mixed", Cg_UecCC.UecCC_update_amps_mixed);
   ("UecCC.convert_c1_to_t1", Cg_UecCC.UecCC_convert_c1_to_t1);
   ("UecCC.convert_c2_to_t2", Cg_UecCC.UecCC_convert_c2_to_t2);
   ("UecCC.convert_c3_to_t3", Cg_UecCC.UecCC_convert_c3_to_t3);
   ("UecCC.convert_c4_to_t4", Cg_UecCC.UecCC_convert_c4_to_t4);
   ("UecCC.convert_t1_to_c1", Cg_UecCC.UecCC_convert_t1_to_c1);
   ("UecCC.convert_t2_to_c2", Cg_UecCC.UecCC_convert_t2_to_c2);
   ("UecCC.convert_t3_to_c3", Cg_UecCC.UecCC_convert_t3_to_c3);
   ("UecCC.convert_t4_to_c4", Cg_UecCC.UecCC_convert_t4_to_c4)].

(** Every translated function, with its name, except those which always fail. *)
Definition generated : list (string * prog) :=
  all_GCC2
  ++ all_GCC3
  ++ all_GCCD
  ++ all_GCCSD
  ++ all_GCCSDT
  ++ all_GCCSDTQ
  ++ all_GCCSD_SD_1_1
  ++ all_GCCSD_SD_1_2
  ++ all_GCCSD_S_1_1
  ++ all_GCCSDwtwp
  ++ all_GCCSDxTx
  ++ all_GLCCD
  ++ all_GLCCSD
  ++ all_GMP2
  ++ all_GMP3
  ++ all_GQCISD
  ++ all_GecCC
  ++ all_RCC2
  ++ all_RCC3
  ++ all_RCCD
  ++ all_RCCSD
  ++ all_RCCSDT
  ++ all_RCCSD_SD_1_1
  ++ all_RCCSD_SD_1_2
  ++ all_RCCSD_S_1_1
  ++ all_RCCSDwtwp
  ++ all_RCCSDxTx
  ++ all_RDCD
  ++ all_RDCSD
  ++ all_RDFCC2
  ++ all_RDFCCD
  ++ all_RDFCCSD
  ++ all_RDFDCD
  ++ all_RDFDCSD
  ++ all_RDFLCCD
  ++ all_RDFLCCSD
  ++ all_RDFQCISD
  ++ all_RLCCD
  ++ all_RLCCSD
  ++ all_RMP2
  ++ all_RMP3
  ++ all_RQCISD
  ++ all_RecCC
  ++ all_UCC2
  ++ all_UCC3
  ++ all_UCCD
  ++ all_UCCSD
  ++ all_UCCSDT
  ++ all_UCCSD_SD_1_1
  ++ all_UCCSD_SD_1_2
  ++ all_UCCSD_S_1_1
  ++ all_UCCSDwtwp
  ++ all_UCCSDxTx
  ++ all_UDCD
  ++ all_UDCSD
  ++ all_UDFCC2
  ++ all_UDFCCD
  ++ all_UDFCCSD
  ++ all_UDFDCD
  ++ all_UDFDCSD
  ++ all_UDFLCCD
  ++ all_UDFLCCSD
  ++ all_UDFQCISD
  ++ all_ULCCD
  ++ all_ULCCSD
  ++ all_UMP2
  ++ all_UMP3
  ++ all_UQCISD
  ++ all_UecCC.
