(** The matrix-vector products of the equation-of-motion methods: the generated functions hbar_matvec_ip, hbar_matvec_ea, hbar_matvec_ee,
    their left-hand versions hbar_lmatvec_*, and hbar_*_intermediates, of all modules that have them. *)
From Coq Require Import List String.
From Verif Require Import CgModel CgEomSpec EomModel.
From Verif Require Cg_GCC2 Cg_GCCD Cg_GCCSD Cg_GMP2 Cg_RCC2 Cg_RCCD Cg_RCCSD Cg_RDFCC2 Cg_RDFCCD Cg_RDFCCSD Cg_RMP2 Cg_UCC2 Cg_UCCD Cg_UCCSD Cg_UDFCC2 Cg_UDFCCD Cg_UDFCCSD Cg_UMP2.
Import Cg_GCC2 Cg_GCCD Cg_GCCSD Cg_GMP2 Cg_RCC2 Cg_RCCD Cg_RCCSD Cg_RDFCC2 Cg_RDFCCD Cg_RDFCCSD Cg_RMP2 Cg_UCC2 Cg_UCCD Cg_UCCSD Cg_UDFCC2 Cg_UDFCCD Cg_UDFCCSD Cg_UMP2.
Import ListNotations.
Local Open Scope string_scope.

(** All products, right and left. *)
Definition products : list (string * spin_type * sector * (prog * prog)) :=
  [("GCC2.hbar_matvec_ip", General, IP, (GCC2_hbar_matvec_ip_intermediates, GCC2_hbar_matvec_ip));
   ("GCC2.hbar_matvec_ea", General, EA, (GCC2_hbar_matvec_ea_intermediates, GCC2_hbar_matvec_ea));
   ("GCC2.hbar_matvec_ee", General, EE, (GCC2_hbar_matvec_ee_intermediates, GCC2_hbar_matvec_ee));
   ("GCC2.hbar_lmatvec_ip", General, IP, (GCC2_hbar_lmatvec_ip_intermediates, GCC2_hbar_lmatvec_ip));
   ("GCC2.hbar_lmatvec_ea", General, EA, (GCC2_hbar_lmatvec_ea_intermediates, GCC2_hbar_lmatvec_ea));
   ("GCC2.hbar_lmatvec_ee", General, EE, (GCC2_hbar_lmatvec_ee_intermediates, GCC2_hbar_lmatvec_ee));
   ("GCCD.hbar_matvec_ip", General, IP, (GCCD_hbar_matvec_ip_intermediates, GCCD_hbar_matvec_ip));
   ("GCCD.hbar_matvec_ea", General, EA, (GCCD_hbar_matvec_ea_intermediates, GCCD_hbar_matvec_ea));
   ("GCCD.hbar_matvec_ee", General, EE, (GCCD_hbar_matvec_ee_intermediates, GCCD_hbar_matvec_ee));
   ("GCCD.hbar_lmatvec_ip", General, IP, (GCCD_hbar_lmatvec_ip_intermediates, GCCD_hbar_lmatvec_ip));
   ("GCCD.hbar_lmatvec_ea", General, EA, (GCCD_hbar_lmatvec_ea_intermediates, GCCD_hbar_lmatvec_ea));
   ("GCCD.hbar_lmatvec_ee", General, EE, (GCCD_hbar_lmatvec_ee_intermediates, GCCD_hbar_lmatvec_ee));
   ("GCCSD.hbar_matvec_ip", General, IP, (GCCSD_hbar_matvec_ip_intermediates, GCCSD_hbar_matvec_ip));
   ("GCCSD.hbar_matvec_ea", General, EA, (GCCSD_hbar_matvec_ea_intermediates, GCCSD_hbar_matvec_ea));
   ("GCCSD.hbar_matvec_ee", General, EE, (GCCSD_hbar_matvec_ee_intermediates, GCCSD_hbar_matvec_ee));
   ("GCCSD.hbar_lmatvec_ip", General, IP, (GCCSD_hbar_lmatvec_ip_intermediates, GCCSD_hbar_lmatvec_ip));
   ("GCCSD.hbar_lmatvec_ea", General, EA, (GCCSD_hbar_lmatvec_ea_intermediates, GCCSD_hbar_lmatvec_ea));
   ("GCCSD.hbar_lmatvec_ee", General, EE, (GCCSD_hbar_lmatvec_ee_intermediates, GCCSD_hbar_lmatvec_ee));
   ("GMP2.hbar_matvec_ip", General, IP, (GMP2_hbar_matvec_ip_intermediates, GMP2_hbar_matvec_ip));
   ("GMP2.hbar_matvec_ea", General, EA, (GMP2_hbar_matvec_ea_intermediates, GMP2_hbar_matvec_ea));
   ("GMP2.hbar_matvec_ee", General, EE, (GMP2_hbar_matvec_ee_intermediates, GMP2_hbar_matvec_ee));
   ("RCC2.hbar_matvec_ip", Restricted, IP, (RCC2_hbar_matvec_ip_intermediates, RCC2_hbar_matvec_ip));
   ("RCC2.hbar_matvec_ea", Restricted, EA, (RCC2_hbar_matvec_ea_intermediates, RCC2_hbar_matvec_ea));
   ("RCC2.hbar_lmatvec_ip", Restricted, IP, (RCC2_hbar_lmatvec_ip_intermediates, RCC2_hbar_lmatvec_ip));
   ("RCC2.hbar_lmatvec_ea", Restricted, EA, (RCC2_hbar_lmatvec_ea_intermediates, RCC2_hbar_lmatvec_ea));
   ("RCCD.hbar_matvec_ip", Restricted, IP, (RCCD_hbar_matvec_ip_intermediates, RCCD_hbar_matvec_ip));
   ("RCCD.hbar_matvec_ea", Restricted, EA, (RCCD_hbar_matvec_ea_intermediates, RCCD_hbar_matvec_ea));
   ("RCCD.hbar_lmatvec_ip", Restricted, IP, (RCCD_hbar_lmatvec_ip_intermediates, RCCD_hbar_lmatvec_ip));
   ("RCCD.hbar_lmatvec_ea", Restricted, EA, (RCCD_hbar_lmatvec_ea_intermediates, RCCD_hbar_lmatvec_ea));
   ("RCCSD.hbar_matvec_ip", Restricted, IP, (RCCSD_hbar_matvec_ip_intermediates, RCCSD_hbar_matvec_ip));
   ("RCCSD.hbar_matvec_ea", Restricted, EA, (RCCSD_hbar_matvec_ea_intermediates, RCCSD_hbar_matvec_ea));
   ("RCCSD.hbar_lmatvec_ip", Restricted, IP, (RCCSD_hbar_lmatvec_ip_intermediates, RCCSD_hbar_lmatvec_ip));
   ("RCCSD.hbar_lmatvec_ea", Restricted, EA, (RCCSD_hbar_lmatvec_ea_intermediates, RCCSD_hbar_lmatvec_ea));
   ("RDFCC2.hbar_matvec_ip", Restricted, IP, (RDFCC2_hbar_matvec_ip_intermediates, RDFCC2_hbar_matvec_ip));
   ("RDFCC2.hbar_matvec_ea", Restricted, EA, (RDFCC2_hbar_matvec_ea_intermediates, RDFCC2_hbar_matvec_ea));
   ("RDFCC2.hbar_lmatvec_ip", Restricted, IP, (RDFCC2_hbar_lmatvec_ip_intermediates, RDFCC2_hbar_lmatvec_ip));
   ("RDFCC2.hbar_lmatvec_ea", Restricted, EA, (RDFCC2_hbar_lmatvec_ea_intermediates, RDFCC2_hbar_lmatvec_ea));
   ("RDFCCD.hbar_matvec_ip", Restricted, IP, (RDFCCD_hbar_matvec_ip_intermediates, RDFCCD_hbar_matvec_ip));
   ("RDFCCD.hbar_matvec_ea", Restricted, EA, (RDFCCD_hbar_matvec_ea_intermediates, RDFCCD_hbar_matvec_ea));
   ("RDFCCD.hbar_lmatvec_ip", Restricted, IP, (RDFCCD_hbar_lmatvec_ip_intermediates, RDFCCD_hbar_lmatvec_ip));
   ("RDFCCD.hbar_lmatvec_ea", Restricted, EA, (RDFCCD_hbar_lmatvec_ea_intermediates, RDFCCD_hbar_lmatvec_ea));
   ("RDFCCSD.hbar_matvec_ip", Restricted, IP, (RDFCCSD_hbar_matvec_ip_intermediates, RDFCCSD_hbar_matvec_ip));
   ("RDFCCSD.hbar_matvec_ea", Restricted, EA, (RDFCCSD_hbar_matvec_ea_intermediates, RDFCCSD_hbar_matvec_ea));
   ("RDFCCSD.hbar_lmatvec_ip", Restricted, IP, (RDFCCSD_hbar_lmatvec_ip_intermediates, RDFCCSD_hbar_lmatvec_ip));
   ("RDFCCSD.hbar_lmatvec_ea", Restricted, EA, (RDFCCSD_hbar_lmatvec_ea_intermediates, RDFCCSD_hbar_lmatvec_ea));
   ("RMP2.hbar_matvec_ip", Restricted, IP, (RMP2_hbar_matvec_ip_intermediates, RMP2_hbar_matvec_ip));
   ("RMP2.hbar_matvec_ea", Restricted, EA, (RMP2_hbar_matvec_ea_intermediates, RMP2_hbar_matvec_ea));
   ("UCC2.hbar_matvec_ip", Unrestricted, IP, (UCC2_hbar_matvec_ip_intermediates, UCC2_hbar_matvec_ip));
   ("UCC2.hbar_matvec_ea", Unrestricted, EA, (UCC2_hbar_matvec_ea_intermediates, UCC2_hbar_matvec_ea));
   ("UCC2.hbar_lmatvec_ip", Unrestricted, IP, (UCC2_hbar_lmatvec_ip_intermediates, UCC2_hbar_lmatvec_ip));
   ("UCC2.hbar_lmatvec_ea", Unrestricted, EA, (UCC2_hbar_lmatvec_ea_intermediates, UCC2_hbar_lmatvec_ea));
   ("UCCD.hbar_matvec_ip", Unrestricted, IP, (UCCD_hbar_matvec_ip_intermediates, UCCD_hbar_matvec_ip));
   ("UCCD.hbar_matvec_ea", Unrestricted, EA, (UCCD_hbar_matvec_ea_intermediates, UCCD_hbar_matvec_ea));
   ("UCCD.hbar_lmatvec_ip", Unrestricted, IP, (UCCD_hbar_lmatvec_ip_intermediates, UCCD_hbar_lmatvec_ip));
   ("UCCD.hbar_lmatvec_ea", Unrestricted, EA, (UCCD_hbar_lmatvec_ea_intermediates, UCCD_hbar_lmatvec_ea));
   ("UCCSD.hbar_matvec_ip", Unrestricted, IP, (UCCSD_hbar_matvec_ip_intermediates, UCCSD_hbar_matvec_ip));
   ("UCCSD.hbar_matvec_ea", Unrestricted, EA, (UCCSD_hbar_matvec_ea_intermediates, UCCSD_hbar_matvec_ea));
   ("UCCSD.hbar_lmatvec_ip", Unrestricted, IP, (UCCSD_hbar_lmatvec_ip_intermediates, UCCSD_hbar_lmatvec_ip));
   ("UCCSD.hbar_lmatvec_ea", Unrestricted, EA, (UCCSD_hbar_lmatvec_ea_intermediates, UCCSD_hbar_lmatvec_ea));
   ("UDFCC2.hbar_matvec_ip", Unrestricted, IP, (UDFCC2_hbar_matvec_ip_intermediates, UDFCC2_hbar_matvec_ip));
   ("UDFCC2.hbar_matvec_ea", Unrestricted, EA, (UDFCC2_hbar_matvec_ea_intermediates, UDFCC2_hbar_matvec_ea));
   ("UDFCC2.hbar_lmatvec_ip", Unrestricted, IP, (UDFCC2_hbar_lmatvec_ip_intermediates, UDFCC2_hbar_lmatvec_ip));
   ("UDFCC2.hbar_lmatvec_ea", Unrestricted, EA, (UDFCC2_hbar_lmatvec_ea_intermediates, UDFCC2_hbar_lmatvec_ea));
   ("UDFCCD.hbar_matvec_ip", Unrestricted, IP, (UDFCCD_hbar_matvec_ip_intermediates, UDFCCD_hbar_matvec_ip));
   ("UDFCCD.hbar_matvec_ea", Unrestricted, EA, (UDFCCD_hbar_matvec_ea_intermediates, UDFCCD_hbar_matvec_ea));
   ("UDFCCD.hbar_lmatvec_ip", Unrestricted, IP, (UDFCCD_hbar_lmatvec_ip_intermediates, UDFCCD_hbar_lmatvec_ip));
   ("UDFCCD.hbar_lmatvec_ea", Unrestricted, EA, (UDFCCD_hbar_lmatvec_ea_intermediates, UDFCCD_hbar_lmatvec_ea));
   ("UDFCCSD.hbar_matvec_ip", Unrestricted, IP, (UDFCCSD_hbar_matvec_ip_intermediates, UDFCCSD_hbar_matvec_ip));
   ("UDFCCSD.hbar_matvec_ea", Unrestricted, EA, (UDFCCSD_hbar_matvec_ea_intermediates, UDFCCSD_hbar_matvec_ea));
   ("UDFCCSD.hbar_lmatvec_ip", Unrestricted, IP, (UDFCCSD_hbar_lmatvec_ip_intermediates, UDFCCSD_hbar_lmatvec_ip));
   ("UDFCCSD.hbar_lmatvec_ea", Unrestricted, EA, (UDFCCSD_hbar_lmatvec_ea_intermediates, UDFCCSD_hbar_lmatvec_ea));
   ("UMP2.hbar_matvec_ip", Unrestricted, IP, (UMP2_hbar_matvec_ip_intermediates, UMP2_hbar_matvec_ip));
   ("UMP2.hbar_matvec_ea", Unrestricted, EA, (UMP2_hbar_matvec_ea_intermediates, UMP2_hbar_matvec_ea))].
(** Right and left products, except those of CC2. *)
Definition right_left : list (string * spin_type * sector * (prog * prog) * (prog * prog)) :=
  [("GCCD.ip", General, IP, (GCCD_hbar_matvec_ip_intermediates, GCCD_hbar_matvec_ip), (GCCD_hbar_lmatvec_ip_intermediates, GCCD_hbar_lmatvec_ip));
   ("GCCD.ea", General, EA, (GCCD_hbar_matvec_ea_intermediates, GCCD_hbar_matvec_ea), (GCCD_hbar_lmatvec_ea_intermediates, GCCD_hbar_lmatvec_ea));
   ("GCCD.ee", General, EE, (GCCD_hbar_matvec_ee_intermediates, GCCD_hbar_matvec_ee), (GCCD_hbar_lmatvec_ee_intermediates, GCCD_hbar_lmatvec_ee));
   ("GCCSD.ip", General, IP, (GCCSD_hbar_matvec_ip_intermediates, GCCSD_hbar_matvec_ip), (GCCSD_hbar_lmatvec_ip_intermediates, GCCSD_hbar_lmatvec_ip));
   ("GCCSD.ea", General, EA, (GCCSD_hbar_matvec_ea_intermediates, GCCSD_hbar_matvec_ea), (GCCSD_hbar_lmatvec_ea_intermediates, GCCSD_hbar_lmatvec_ea));
   ("GCCSD.ee", General, EE, (GCCSD_hbar_matvec_ee_intermediates, GCCSD_hbar_matvec_ee), (GCCSD_hbar_lmatvec_ee_intermediates, GCCSD_hbar_lmatvec_ee));
   ("RCCD.ip", Restricted, IP, (RCCD_hbar_matvec_ip_intermediates, RCCD_hbar_matvec_ip), (RCCD_hbar_lmatvec_ip_intermediates, RCCD_hbar_lmatvec_ip));
   ("RCCD.ea", Restricted, EA, (RCCD_hbar_matvec_ea_intermediates, RCCD_hbar_matvec_ea), (RCCD_hbar_lmatvec_ea_intermediates, RCCD_hbar_lmatvec_ea));
   ("RCCSD.ip", Restricted, IP, (RCCSD_hbar_matvec_ip_intermediates, RCCSD_hbar_matvec_ip), (RCCSD_hbar_lmatvec_ip_intermediates, RCCSD_hbar_lmatvec_ip));
   ("RCCSD.ea", Restricted, EA, (RCCSD_hbar_matvec_ea_intermediates, RCCSD_hbar_matvec_ea), (RCCSD_hbar_lmatvec_ea_intermediates, RCCSD_hbar_lmatvec_ea));
   ("RDFCCD.ip", Restricted, IP, (RDFCCD_hbar_matvec_ip_intermediates, RDFCCD_hbar_matvec_ip), (RDFCCD_hbar_lmatvec_ip_intermediates, RDFCCD_hbar_lmatvec_ip));
   ("RDFCCD.ea", Restricted, EA, (RDFCCD_hbar_matvec_ea_intermediates, RDFCCD_hbar_matvec_ea), (RDFCCD_hbar_lmatvec_ea_intermediates, RDFCCD_hbar_lmatvec_ea));
   ("RDFCCSD.ip", Restricted, IP, (RDFCCSD_hbar_matvec_ip_intermediates, RDFCCSD_hbar_matvec_ip), (RDFCCSD_hbar_lmatvec_ip_intermediates, RDFCCSD_hbar_lmatvec_ip));
   ("RDFCCSD.ea", Restricted, EA, (RDFCCSD_hbar_matvec_ea_intermediates, RDFCCSD_hbar_matvec_ea), (RDFCCSD_hbar_lmatvec_ea_intermediates, RDFCCSD_hbar_lmatvec_ea));
   ("UCCD.ip", Unrestricted, IP, (UCCD_hbar_matvec_ip_intermediates, UCCD_hbar_matvec_ip), (UCCD_hbar_lmatvec_ip_intermediates, UCCD_hbar_lmatvec_ip));
   ("UCCD.ea", Unrestricted, EA, (UCCD_hbar_matvec_ea_intermediates, UCCD_hbar_matvec_ea), (UCCD_hbar_lmatvec_ea_intermediates, UCCD_hbar_lmatvec_ea));
   ("UCCSD.ip", Unrestricted, IP, (UCCSD_hbar_matvec_ip_intermediates, UCCSD_hbar_matvec_ip), (UCCSD_hbar_lmatvec_ip_intermediates, UCCSD_hbar_lmatvec_ip));
   ("UCCSD.ea", Unrestricted, EA, (UCCSD_hbar_matvec_ea_intermediates, UCCSD_hbar_matvec_ea), (UCCSD_hbar_lmatvec_ea_intermediates, UCCSD_hbar_lmatvec_ea));
   ("UDFCCD.ip", Unrestricted, IP, (UDFCCD_hbar_matvec_ip_intermediates, UDFCCD_hbar_matvec_ip), (UDFCCD_hbar_lmatvec_ip_intermediates, UDFCCD_hbar_lmatvec_ip));
   ("UDFCCD.ea", Unrestricted, EA, (UDFCCD_hbar_matvec_ea_intermediates, UDFCCD_hbar_matvec_ea), (UDFCCD_hbar_lmatvec_ea_intermediates, UDFCCD_hbar_lmatvec_ea));
   ("UDFCCSD.ip", Unrestricted, IP, (UDFCCSD_hbar_matvec_ip_intermediates, UDFCCSD_hbar_matvec_ip), (UDFCCSD_hbar_lmatvec_ip_intermediates, UDFCCSD_hbar_lmatvec_ip));
   ("UDFCCSD.ea", Unrestricted, EA, (UDFCCSD_hbar_matvec_ea_intermediates, UDFCCSD_hbar_matvec_ea), (UDFCCSD_hbar_lmatvec_ea_intermediates, UDFCCSD_hbar_lmatvec_ea))].
(** Restricted and unrestricted products. *)
Definition restricted_unrestricted_products : list (string * sector * (prog * prog) * (prog * prog)) :=
  [("CC2.hbar_matvec_ip", IP, (RCC2_hbar_matvec_ip_intermediates, RCC2_hbar_matvec_ip), (UCC2_hbar_matvec_ip_intermediates, UCC2_hbar_matvec_ip));
   ("CC2.hbar_matvec_ea", EA, (RCC2_hbar_matvec_ea_intermediates, RCC2_hbar_matvec_ea), (UCC2_hbar_matvec_ea_intermediates, UCC2_hbar_matvec_ea));
   ("CC2.hbar_lmatvec_ip", IP, (RCC2_hbar_lmatvec_ip_intermediates, RCC2_hbar_lmatvec_ip), (UCC2_hbar_lmatvec_ip_intermediates, UCC2_hbar_lmatvec_ip));
   ("CC2.hbar_lmatvec_ea", EA, (RCC2_hbar_lmatvec_ea_intermediates, RCC2_hbar_lmatvec_ea), (UCC2_hbar_lmatvec_ea_intermediates, UCC2_hbar_lmatvec_ea));
   ("CCD.hbar_matvec_ip", IP, (RCCD_hbar_matvec_ip_intermediates, RCCD_hbar_matvec_ip), (UCCD_hbar_matvec_ip_intermediates, UCCD_hbar_matvec_ip));
   ("CCD.hbar_matvec_ea", EA, (RCCD_hbar_matvec_ea_intermediates, RCCD_hbar_matvec_ea), (UCCD_hbar_matvec_ea_intermediates, UCCD_hbar_matvec_ea));
   ("CCD.hbar_lmatvec_ip", IP, (RCCD_hbar_lmatvec_ip_intermediates, RCCD_hbar_lmatvec_ip), (UCCD_hbar_lmatvec_ip_intermediates, UCCD_hbar_lmatvec_ip));
   ("CCD.hbar_lmatvec_ea", EA, (RCCD_hbar_lmatvec_ea_intermediates, RCCD_hbar_lmatvec_ea), (UCCD_hbar_lmatvec_ea_intermediates, UCCD_hbar_lmatvec_ea));
   ("CCSD.hbar_matvec_ip", IP, (RCCSD_hbar_matvec_ip_intermediates, RCCSD_hbar_matvec_ip), (UCCSD_hbar_matvec_ip_intermediates, UCCSD_hbar_matvec_ip));
   ("CCSD.hbar_matvec_ea", EA, (RCCSD_hbar_matvec_ea_intermediates, RCCSD_hbar_matvec_ea), (UCCSD_hbar_matvec_ea_intermediates, UCCSD_hbar_matvec_ea));
   ("CCSD.hbar_lmatvec_ip", IP, (RCCSD_hbar_lmatvec_ip_intermediates, RCCSD_hbar_lmatvec_ip), (UCCSD_hbar_lmatvec_ip_intermediates, UCCSD_hbar_lmatvec_ip));
   ("CCSD.hbar_lmatvec_ea", EA, (RCCSD_hbar_lmatvec_ea_intermediates, RCCSD_hbar_lmatvec_ea), (UCCSD_hbar_lmatvec_ea_intermediates, UCCSD_hbar_lmatvec_ea));
   ("DFCC2.hbar_matvec_ip", IP, (RDFCC2_hbar_matvec_ip_intermediates, RDFCC2_hbar_matvec_ip), (UDFCC2_hbar_matvec_ip_intermediates, UDFCC2_hbar_matvec_ip));
   ("DFCC2.hbar_matvec_ea", EA, (RDFCC2_hbar_matvec_ea_intermediates, RDFCC2_hbar_matvec_ea), (UDFCC2_hbar_matvec_ea_intermediates, UDFCC2_hbar_matvec_ea));
   ("DFCC2.hbar_lmatvec_ip", IP, (RDFCC2_hbar_lmatvec_ip_intermediates, RDFCC2_hbar_lmatvec_ip), (UDFCC2_hbar_lmatvec_ip_intermediates, UDFCC2_hbar_lmatvec_ip));
   ("DFCC2.hbar_lmatvec_ea", EA, (RDFCC2_hbar_lmatvec_ea_intermediates, RDFCC2_hbar_lmatvec_ea), (UDFCC2_hbar_lmatvec_ea_intermediates, UDFCC2_hbar_lmatvec_ea));
   ("DFCCD.hbar_matvec_ip", IP, (RDFCCD_hbar_matvec_ip_intermediates, RDFCCD_hbar_matvec_ip), (UDFCCD_hbar_matvec_ip_intermediates, UDFCCD_hbar_matvec_ip));
   ("DFCCD.hbar_matvec_ea", EA, (RDFCCD_hbar_matvec_ea_intermediates, RDFCCD_hbar_matvec_ea), (UDFCCD_hbar_matvec_ea_intermediates, UDFCCD_hbar_matvec_ea));
   ("DFCCD.hbar_lmatvec_ip", IP, (RDFCCD_hbar_lmatvec_ip_intermediates, RDFCCD_hbar_lmatvec_ip), (UDFCCD_hbar_lmatvec_ip_intermediates, UDFCCD_hbar_lmatvec_ip));
   ("DFCCD.hbar_lmatvec_ea", EA, (RDFCCD_hbar_lmatvec_ea_intermediates, RDFCCD_hbar_lmatvec_ea), (UDFCCD_hbar_lmatvec_ea_intermediates, UDFCCD_hbar_lmatvec_ea));
   ("DFCCSD.hbar_matvec_ip", IP, (RDFCCSD_hbar_matvec_ip_intermediates, RDFCCSD_hbar_matvec_ip), (UDFCCSD_hbar_matvec_ip_intermediates, UDFCCSD_hbar_matvec_ip));
   ("DFCCSD.hbar_matvec_ea", EA, (RDFCCSD_hbar_matvec_ea_intermediates, RDFCCSD_hbar_matvec_ea), (UDFCCSD_hbar_matvec_ea_intermediates, UDFCCSD_hbar_matvec_ea));
   ("DFCCSD.hbar_lmatvec_ip", IP, (RDFCCSD_hbar_lmatvec_ip_intermediates, RDFCCSD_hbar_lmatvec_ip), (UDFCCSD_hbar_lmatvec_ip_intermediates, UDFCCSD_hbar_lmatvec_ip));
   ("DFCCSD.hbar_lmatvec_ea", EA, (RDFCCSD_hbar_lmatvec_ea_intermediates, RDFCCSD_hbar_lmatvec_ea), (UDFCCSD_hbar_lmatvec_ea_intermediates, UDFCCSD_hbar_lmatvec_ea));
   ("MP2.hbar_matvec_ip", IP, (RMP2_hbar_matvec_ip_intermediates, RMP2_hbar_matvec_ip), (UMP2_hbar_matvec_ip_intermediates, UMP2_hbar_matvec_ip));
   ("MP2.hbar_matvec_ea", EA, (RMP2_hbar_matvec_ea_intermediates, RMP2_hbar_matvec_ea), (UMP2_hbar_matvec_ea_intermediates, UMP2_hbar_matvec_ea))].
(** Unrestricted and general products. *)
Definition unrestricted_general_products : list (string * sector * (prog * prog) * (prog * prog)) :=
  [("CC2.hbar_matvec_ip", IP, (UCC2_hbar_matvec_ip_intermediates, UCC2_hbar_matvec_ip), (GCC2_hbar_matvec_ip_intermediates, GCC2_hbar_matvec_ip));
   ("CC2.hbar_matvec_ea", EA, (UCC2_hbar_matvec_ea_intermediates, UCC2_hbar_matvec_ea), (GCC2_hbar_matvec_ea_intermediates, GCC2_hbar_matvec_ea));
   ("CC2.hbar_lmatvec_ip", IP, (UCC2_hbar_lmatvec_ip_intermediates, UCC2_hbar_lmatvec_ip), (GCC2_hbar_lmatvec_ip_intermediates, GCC2_hbar_lmatvec_ip));
   ("CC2.hbar_lmatvec_ea", EA, (UCC2_hbar_lmatvec_ea_intermediates, UCC2_hbar_lmatvec_ea), (GCC2_hbar_lmatvec_ea_intermediates, GCC2_hbar_lmatvec_ea));
   ("CCD.hbar_matvec_ip", IP, (UCCD_hbar_matvec_ip_intermediates, UCCD_hbar_matvec_ip), (GCCD_hbar_matvec_ip_intermediates, GCCD_hbar_matvec_ip));
   ("CCD.hbar_matvec_ea", EA, (UCCD_hbar_matvec_ea_intermediates, UCCD_hbar_matvec_ea), (GCCD_hbar_matvec_ea_intermediates, GCCD_hbar_matvec_ea));
   ("CCD.hbar_lmatvec_ip", IP, (UCCD_hbar_lmatvec_ip_intermediates, UCCD_hbar_lmatvec_ip), (GCCD_hbar_lmatvec_ip_intermediates, GCCD_hbar_lmatvec_ip));
   ("CCD.hbar_lmatvec_ea", EA, (UCCD_hbar_lmatvec_ea_intermediates, UCCD_hbar_lmatvec_ea), (GCCD_hbar_lmatvec_ea_intermediates, GCCD_hbar_lmatvec_ea));
   ("CCSD.hbar_matvec_ip", IP, (UCCSD_hbar_matvec_ip_intermediates, UCCSD_hbar_matvec_ip), (GCCSD_hbar_matvec_ip_intermediates, GCCSD_hbar_matvec_ip));
   ("CCSD.hbar_matvec_ea", EA, (UCCSD_hbar_matvec_ea_intermediates, UCCSD_hbar_matvec_ea), (GCCSD_hbar_matvec_ea_intermediates, GCCSD_hbar_matvec_ea));
   ("CCSD.hbar_lmatvec_ip", IP, (UCCSD_hbar_lmatvec_ip_intermediates, UCCSD_hbar_lmatvec_ip), (GCCSD_hbar_lmatvec_ip_intermediates, GCCSD_hbar_lmatvec_ip));
   ("CCSD.hbar_lmatvec_ea", EA, (UCCSD_hbar_lmatvec_ea_intermediates, UCCSD_hbar_lmatvec_ea), (GCCSD_hbar_lmatvec_ea_intermediates, GCCSD_hbar_lmatvec_ea));
   ("MP2.hbar_matvec_ip", IP, (UMP2_hbar_matvec_ip_intermediates, UMP2_hbar_matvec_ip), (GMP2_hbar_matvec_ip_intermediates, GMP2_hbar_matvec_ip));
   ("MP2.hbar_matvec_ea", EA, (UMP2_hbar_matvec_ea_intermediates, UMP2_hbar_matvec_ea), (GMP2_hbar_matvec_ea_intermediates, GMP2_hbar_matvec_ea))].
(** Products with density-fitted integrals and with four-index integrals. *)
Definition fitted_products : list (string * spin_type * sector * (prog * prog) * (prog * prog)) :=
  [("RDFCC2.hbar_matvec_ip", Restricted, IP, (RDFCC2_hbar_matvec_ip_intermediates, RDFCC2_hbar_matvec_ip), (RCC2_hbar_matvec_ip_intermediates, RCC2_hbar_matvec_ip));
   ("RDFCC2.hbar_matvec_ea", Restricted, EA, (RDFCC2_hbar_matvec_ea_intermediates, RDFCC2_hbar_matvec_ea), (RCC2_hbar_matvec_ea_intermediates, RCC2_hbar_matvec_ea));
   ("RDFCC2.hbar_lmatvec_ip", Restricted, IP, (RDFCC2_hbar_lmatvec_ip_intermediates, RDFCC2_hbar_lmatvec_ip), (RCC2_hbar_lmatvec_ip_intermediates, RCC2_hbar_lmatvec_ip));
   ("RDFCC2.hbar_lmatvec_ea", Restricted, EA, (RDFCC2_hbar_lmatvec_ea_intermediates, RDFCC2_hbar_lmatvec_ea), (RCC2_hbar_lmatvec_ea_intermediates, RCC2_hbar_lmatvec_ea));
   ("RDFCCD.hbar_matvec_ip", Restricted, IP, (RDFCCD_hbar_matvec_ip_intermediates, RDFCCD_hbar_matvec_ip), (RCCD_hbar_matvec_ip_intermediates, RCCD_hbar_matvec_ip));
   ("RDFCCD.hbar_matvec_ea", Restricted, EA, (RDFCCD_hbar_matvec_ea_intermediates, RDFCCD_hbar_matvec_ea), (RCCD_hbar_matvec_ea_intermediates, RCCD_hbar_matvec_ea));
   ("RDFCCD.hbar_lmatvec_ip", Restricted, IP, (RDFCCD_hbar_lmatvec_ip_intermediates, RDFCCD_hbar_lmatvec_ip), (RCCD_hbar_lmatvec_ip_intermediates, RCCD_hbar_lmatvec_ip));
   ("RDFCCD.hbar_lmatvec_ea", Restricted, EA, (RDFCCD_hbar_lmatvec_ea_intermediates, RDFCCD_hbar_lmatvec_ea), (RCCD_hbar_lmatvec_ea_intermediates, RCCD_hbar_lmatvec_ea));
   ("RDFCCSD.hbar_matvec_ip", Restricted, IP, (RDFCCSD_hbar_matvec_ip_intermediates, RDFCCSD_hbar_matvec_ip), (RCCSD_hbar_matvec_ip_intermediates, RCCSD_hbar_matvec_ip));
   ("RDFCCSD.hbar_matvec_ea", Restricted, EA, (RDFCCSD_hbar_matvec_ea_intermediates, RDFCCSD_hbar_matvec_ea), (RCCSD_hbar_matvec_ea_intermediates, RCCSD_hbar_matvec_ea));
   ("RDFCCSD.hbar_lmatvec_ip", Restricted, IP, (RDFCCSD_hbar_lmatvec_ip_intermediates, RDFCCSD_hbar_lmatvec_ip), (RCCSD_hbar_lmatvec_ip_intermediates, RCCSD_hbar_lmatvec_ip));
   ("RDFCCSD.hbar_lmatvec_ea", Restricted, EA, (RDFCCSD_hbar_lmatvec_ea_intermediates, RDFCCSD_hbar_lmatvec_ea), (RCCSD_hbar_lmatvec_ea_intermediates, RCCSD_hbar_lmatvec_ea));
   ("UDFCC2.hbar_matvec_ip", Unrestricted, IP, (UDFCC2_hbar_matvec_ip_intermediates, UDFCC2_hbar_matvec_ip), (UCC2_hbar_matvec_ip_intermediates, UCC2_hbar_matvec_ip));
   ("UDFCC2.hbar_matvec_ea", Unrestricted, EA, (UDFCC2_hbar_matvec_ea_intermediates, UDFCC2_hbar_matvec_ea), (UCC2_hbar_matvec_ea_intermediates, UCC2_hbar_matvec_ea));
   ("UDFCC2.hbar_lmatvec_ip", Unrestricted, IP, (UDFCC2_hbar_lmatvec_ip_intermediates, UDFCC2_hbar_lmatvec_ip), (UCC2_hbar_lmatvec_ip_intermediates, UCC2_hbar_lmatvec_ip));
   ("UDFCC2.hbar_lmatvec_ea", Unrestricted, EA, (UDFCC2_hbar_lmatvec_ea_intermediates, UDFCC2_hbar_lmatvec_ea), (UCC2_hbar_lmatvec_ea_intermediates, UCC2_hbar_lmatvec_ea));
   ("UDFCCD.hbar_matvec_ip", Unrestricted, IP, (UDFCCD_hbar_matvec_ip_intermediates, UDFCCD_hbar_matvec_ip), (UCCD_hbar_matvec_ip_intermediates, UCCD_hbar_matvec_ip));
   ("UDFCCD.hbar_matvec_ea", Unrestricted, EA, (UDFCCD_hbar_matvec_ea_intermediates, UDFCCD_hbar_matvec_ea), (UCCD_hbar_matvec_ea_intermediates, UCCD_hbar_matvec_ea));
   ("UDFCCD.hbar_lmatvec_ip", Unrestricted, IP, (UDFCCD_hbar_lmatvec_ip_intermediates, UDFCCD_hbar_lmatvec_ip), (UCCD_hbar_lmatvec_ip_intermediates, UCCD_hbar_lmatvec_ip));
   ("UDFCCD.hbar_lmatvec_ea", Unrestricted, EA, (UDFCCD_hbar_lmatvec_ea_intermediates, UDFCCD_hbar_lmatvec_ea), (UCCD_hbar_lmatvec_ea_intermediates, UCCD_hbar_lmatvec_ea));
   ("UDFCCSD.hbar_matvec_ip", Unrestricted, IP, (UDFCCSD_hbar_matvec_ip_intermediates, UDFCCSD_hbar_matvec_ip), (UCCSD_hbar_matvec_ip_intermediates, UCCSD_hbar_matvec_ip));
   ("UDFCCSD.hbar_matvec_ea", Unrestricted, EA, (UDFCCSD_hbar_matvec_ea_intermediates, UDFCCSD_hbar_matvec_ea), (UCCSD_hbar_matvec_ea_intermediates, UCCSD_hbar_matvec_ea));
   ("UDFCCSD.hbar_lmatvec_ip", Unrestricted, IP, (UDFCCSD_hbar_lmatvec_ip_intermediates, UDFCCSD_hbar_lmatvec_ip), (UCCSD_hbar_lmatvec_ip_intermediates, UCCSD_hbar_lmatvec_ip));
   ("UDFCCSD.hbar_lmatvec_ea", Unrestricted, EA, (UDFCCSD_hbar_lmatvec_ea_intermediates, UDFCCSD_hbar_lmatvec_ea), (UCCSD_hbar_lmatvec_ea_intermediates, UCCSD_hbar_lmatvec_ea))].
